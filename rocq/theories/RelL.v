(** * RelL: two runs of the packet parsers, compared.

    The two runs read the same octets, with option sets [o1]/[o2], environments
    [E1]/[E2] and parsers for nested packets [rec1]/[rec2].  Names, values, dumps
    and notes of the items they build are related by [RN], [RV], [RD], [RT]. *)
From Coq Require Import Strings.String Strings.Byte List NArith ZArith Bool Lia ZifyBool ZifyN ZifyNat.
From Verif Require Import Base Utf8 Item Reader Context Env Time Values Opaque Monad Pubkey S2k Subs Tags Float.
From Verif Require Import SpecBase BaseL SpecReader ReaderL FrameL SpecNest.
Import ListNotations.
Local Open Scope Z_scope.

(** ** Printable ASCII *)
Definition plain_byte (b : byte) : bool := (32 <=? b2n b)%N && (b2n b <=? 126)%N.
Definition plain (l : bytes) : Prop := forallb plain_byte l = true.

Lemma plain_nil : plain []. Proof. reflexivity. Qed.
Lemma plain_app a b : plain a -> plain b -> plain (a ++ b).
Proof. unfold plain. intros. rewrite forallb_app. rewrite H, H0. reflexivity. Qed.
Lemma plain_cons b l : plain_byte b = true -> plain l -> plain (b :: l).
Proof. unfold plain. intros. cbn [forallb]. rewrite H, H0. reflexivity. Qed.
Lemma plain_dec n : plain (dec n).
Proof.
  unfold plain. pose proof (dec_digits n) as H. rewrite forallb_forall in H |- *. intros b Hb. specialize (H b Hb).
  pose proof (byte_all (fun b => implb (is_digit b) (plain_byte b)) eq_refl b) as K. cbv beta in K.
  rewrite H in K. exact K.
Qed.
Lemma plain_decZ z : plain (decZ z).
Proof.
  unfold decZ. destruct z; try apply plain_dec.
Qed.
Lemma plain_hexw w : forall n, plain (hexw hexdig w n).
Proof.
  induction w as [|w IH]; intro n; [reflexivity|]. cbn [hexw]. apply plain_app; [apply IH|]. apply plain_cons; [|reflexivity].
  assert (n mod 16 < 16)%N as H by (apply N.mod_lt; discriminate). revert H. generalize (n mod 16)%N. intros k H.
  assert (forallb (fun k => plain_byte (hexdig (N.of_nat k))) (seq 0 16) = true) as A by reflexivity.
  rewrite forallb_forall in A. specialize (A (N.to_nat k)). rewrite N2Nat.id in A. apply A. apply in_seq. lia.
Qed.
Lemma plain_hex2 b : plain (hex2 b). Proof. apply plain_hexw. Qed.
Lemma plain_hex0x2 b : plain (hex0x2 b). Proof. apply plain_app; [reflexivity | apply plain_hex2]. Qed.
Lemma plain_hex0x16 n : plain (hex0x16 n). Proof. apply plain_app; [reflexivity | apply plain_hexw]. Qed.
Lemma plain_hexdump_from l : forall sep, plain sep -> plain (hexdump_from sep l).
Proof.
  induction l as [|b l IH]; intros sep H; [reflexivity|]. cbn [hexdump_from].
  apply plain_app; [exact H|]. apply plain_app; [apply plain_hex2|]. apply IH. reflexivity.
Qed.
Lemma plain_dump_bytes l f : plain (dump_bytes l f).
Proof. destruct f; [apply plain_hexdump_from|]; reflexivity. Qed.

Definition plain_table (m : msgs) : bool := forallb (fun p => forallb plain_byte (str (snd p))) m.
Lemma plain_msgs m i def : plain_table m = true -> plain def -> plain (msgs_get m i def).
Proof.
  intros H D. induction m as [|[k v] m IH]; [exact D|]. cbn [msgs_get]. unfold plain_table in H. cbn [forallb snd] in H.
  apply andb_prop in H. destruct H as [H1 H2]. destruct (k =? i)%N; [exact H1 | exact (IH H2)].
Qed.

Ltac plain_tac :=
  repeat lazymatch goal with
  | |- plain [] => reflexivity
  | |- plain (if ?c then _ else _) => destruct c
  | |- plain (str _) => vm_compute; reflexivity
  | |- plain (_ ++ _) => apply plain_app
  | |- plain (dec _) => apply plain_dec
  | |- plain (decZ _) => apply plain_decZ
  | |- plain (hex2 _) => apply plain_hex2
  | |- plain (hex0x2 _) => apply plain_hex0x2
  | |- plain (hex0x16 _) => apply plain_hex0x16
  | |- plain (msgs_get _ _ _) => apply plain_msgs; [vm_compute; reflexivity|]
  | |- plain (n_bytes _) => unfold n_bytes
  | |- plain sUnknown => reflexivity
  | |- plain sPrivateAlg => reflexivity
  | |- plain sUnknownData => reflexivity
  end.

Lemma plain_aead b : plain (aead_string b). Proof. unfold aead_string; plain_tac. Qed.
Lemma plain_comp b : plain (comp_string b). Proof. unfold comp_string; plain_tac. Qed.
Lemma plain_hash b : plain (hash_string b). Proof. unfold hash_string; plain_tac. Qed.
Lemma plain_pub b : plain (pub_string b). Proof. unfold pub_string; plain_tac. Qed.
Lemma plain_s2k b : plain (s2k_string b). Proof. unfold s2k_string; plain_tac. Qed.
Lemma plain_sig b : plain (sig_string b). Proof. unfold sig_string; plain_tac. Qed.
Lemma plain_sym b : plain (sym_string b). Proof. unfold sym_string; plain_tac. Qed.
Lemma plain_sub b : plain (sub_string b). Proof. unfold sub_string; cbv zeta; plain_tac. Qed.
Lemma plain_tag t : plain (tag_string t). Proof. unfold tag_string; plain_tac. Qed.
Lemma plain_oid l : plain (oid_string l).
Proof. unfold oid_string, oid_list. cbn [oid_string_in]. plain_tac. Qed.
Lemma plain_vnote v : plain (v_note v). Proof. unfold v_note; plain_tac. Qed.
Lemma plain_unknown_flag k f : plain (unknown_flag k f). Proof. unfold unknown_flag; plain_tac. Qed.
Lemma plain_point a f : plain a -> plain (point_name a f). Proof. intro. unfold point_name; plain_tac; assumption. Qed.
Lemma plain_with_pub p b : plain p -> plain (with_pub p b). Proof. intro. unfold with_pub; plain_tac; assumption. Qed.
Lemma plain_secenc b : plain (secenc_name b).
Proof. unfold secenc_name. plain_tac. apply plain_with_pub. reflexivity. Qed.
Lemma plain_usage u : plain (usage_note u). Proof. unfold usage_note; plain_tac. Qed.

Ltac plain_all :=
  plain_tac; cbv zeta;
  try lazymatch goal with
  | |- plain (aead_string _) => apply plain_aead
  | |- plain (comp_string _) => apply plain_comp
  | |- plain (hash_string _) => apply plain_hash
  | |- plain (pub_string _) => apply plain_pub
  | |- plain (s2k_string _) => apply plain_s2k
  | |- plain (sig_string _) => apply plain_sig
  | |- plain (sym_string _) => apply plain_sym
  | |- plain (sub_string _) => apply plain_sub
  | |- plain (tag_string _) => apply plain_tag
  | |- plain (oid_string _) => apply plain_oid
  | |- plain (v_note _) => apply plain_vnote
  | |- plain (unknown_flag _ _) => apply plain_unknown_flag
  | |- plain (secenc_name _) => apply plain_secenc
  | |- plain (usage_note _) => apply plain_usage
  | |- plain (point_name _ _) => apply plain_point; plain_tac
  | |- plain (with_pub _ _) => apply plain_with_pub; plain_tac
  | |- plain ?x => first [ assumption | is_var x; fail 1 | reflexivity ]
  end.

(** A text that can be the name of an item: printable, not empty, and not starting with a blank or a parenthesis. *)
Definition lead (x : bytes) : Prop := match x with [] => False | b :: _ => Byte.eqb b x20 || Byte.eqb b x28 = false end.
Definition title (x : bytes) : Prop := plain x /\ lead x.
Definition lead_table (m : msgs) : bool := forallb (fun p => match str (snd p) with [] => false | b :: _ => negb (Byte.eqb b x20 || Byte.eqb b x28) end) m.
Lemma lead_app a b : lead a -> lead (a ++ b).
Proof. destruct a; [intros [] | exact (fun H => H)]. Qed.
Lemma lead_msgs m i def : lead_table m = true -> lead def -> lead (msgs_get m i def).
Proof.
  intros H D. induction m as [|[k v] m IH]; [exact D|]. cbn [msgs_get]. unfold lead_table in H. cbn [forallb snd] in H.
  apply andb_prop in H. destruct H as [H1 H2]. destruct (_ =? _)%N; [|apply IH; exact H2].
  destruct (str v) as [|b r]; [discriminate H1|]. cbn [lead]. apply negb_true_iff. exact H1.
Qed.
Lemma lead_tag t : lead (tag_string t).
Proof. unfold tag_string. apply lead_app, lead_msgs; [vm_compute; reflexivity | reflexivity]. Qed.
Lemma lead_sub b : lead (sub_string b).
Proof. unfold sub_string. cbv zeta. repeat first [reflexivity | apply lead_app | apply lead_msgs; [vm_compute; reflexivity|] | match goal with |- context [if ?c then _ else _] => destruct c end]. Qed.
Lemma lead_point a f : lead a -> lead (point_name a f).
Proof. intro. unfold point_name. repeat first [assumption | apply lead_app | match goal with |- context [if ?c then _ else _] => destruct c end]. Qed.
Lemma lead_with_pub p b : lead p -> lead (with_pub p b).
Proof. intro. unfold with_pub. apply lead_app. assumption. Qed.
Lemma lead_secenc b : lead (secenc_name b).
Proof. unfold secenc_name. repeat first [reflexivity | apply lead_with_pub | match goal with |- context [if ?c then _ else _] => destruct c end]. Qed.
Ltac lead_tac := cbv zeta; repeat match goal with |- lead (if ?c then _ else _) => destruct c end;
  first
  [ assumption
  | apply lead_tag | apply lead_sub | apply lead_secenc
  | apply lead_point; lead_tac | apply lead_with_pub; lead_tac | apply lead_app; lead_tac | reflexivity ].
Ltac title_all := first [assumption
  | match goal with H : title ?n |- title (point_name ?n _) => destruct H; split; [apply plain_point | apply lead_point]; assumption end
  | split; [solve [plain_all] | solve [lead_tac]]].


(** A contiguous part. *)
Definition part (x y : bytes) : Prop := exists p q, y = p ++ x ++ q.
Lemma part_refl x : part x x. Proof. exists [], []. rewrite app_nil_r. reflexivity. Qed.
Lemma part_trans x y z : part x y -> part y z -> part x z.
Proof. intros (p & q & ->) (p' & q' & ->). exists (p' ++ p), (q ++ q'). rewrite <- !app_assoc. reflexivity. Qed.
Lemma part_len x y : part x y -> (length x <= length y)%nat.
Proof. intros (p & q & ->). rewrite !app_length. lia. Qed.
Lemma part_nil y : part [] y. Proof. exists [], y. reflexivity. Qed.
Lemma part_skipn n y : part (skipn n y) y.
Proof. exists (firstn n y), []. rewrite app_nil_r, firstn_skipn. reflexivity. Qed.
Lemma part_firstn n y : part (firstn n y) y.
Proof. exists [], (skipn n y). cbn [app]. rewrite firstn_skipn. reflexivity. Qed.
Lemma part_slice l i j : part (slice l i j) l.
Proof. eapply part_trans; [apply part_firstn | apply part_skipn]. Qed.

(** Dates that denote the same instant, with zone flags related by [RU]. *)
Definition RDT (RU : bool -> bool -> Prop) (d1 d2 : datetime) : Prop :=
  dt_tm d1 = dt_tm d2 /\ RU (dt_utc d1) (dt_utc d2) /\ (dt_unix d2 < 2 ^ 32)%N.
Definition ropt {A B} (R : A -> B -> Prop) (a : option A) (b : option B) : Prop :=
  match a, b with Some x, Some y => R x y | None, None => True | _, _ => False end.
(** What earlier packets left behind: session-key kinds related by [RM], creation times related by [RO]. *)
Definition RC (RM : mode -> mode -> Prop) (RO : option datetime -> option datetime -> Prop) (c1 c2 : cst) : Prop :=
  RM (c_mode c1) (c_mode c2) /\ RO (c_sig c1) (c_sig c2) /\ RO (c_key c1) (c_key c2).
(** The texts that depend on them. *)
Definition expire_text (E : env) (start : option datetime) (exp : N) : bytes :=
  if (0 <? match start with Some d => dt_unix d | None => 0 end)%N
  then unixtime2rfc3339 (e_tz E) (wrap32 (match start with Some d => dt_unix d | None => 0 end + exp)%N) (match start with Some d => dt_utc d | None => false end)
  else [].
Definition mode_value (m : mode) : bytes :=
  match m with
  | ModeSymEnc => str "sym alg is specified in sym-key encrypted session key"
  | ModePubEnc => str "sym alg is specified in pub-key encrypted session key"
  | ModeNotSpecified => str "sym alg is IDEA, simple string-to-key"
  end.
Definition mode_note (m : mode) (n : bytes) : bytes :=
  match m with
  | ModeSymEnc => str "plain text + MDC SHA1(20 bytes); sym alg is specified in sym-key encrypted session key"
  | ModePubEnc => str "plain text + MDC SHA1(20 bytes); sym alg is specified in pub-key encrypted session key"
  | ModeNotSpecified => n
  end.

Section Rel.
  Variables RN RV RD RT : bytes -> bytes -> Prop.
  Variables (RU : bool -> bool -> Prop) (RM : mode -> mode -> Prop) (RO : option datetime -> option datetime -> Prop).
  Variables (o1 o2 : opts) (E1 E2 : env) (PP : Prop).
  Notation RDT := (RDT RU).
  Notation RC := (RC RM RO).

  Hypothesis HN : forall x, plain x -> lead x -> RN x x.
  Hypothesis HV : forall x, plain x -> RV x x.
  Hypothesis HT : forall x, plain x -> RT x x.
  (** The flags that decide about dumps. *)
  Inductive FL : bool -> bool -> Prop :=
  | FL_true : FL true true
  | FL_opt k : In k [oDebug; oInteger; oLiteral; oMarker; oPrivate; oCert] -> FL (k o1) (k o2).
  Hypothesis HD : forall l f1 f2, FL f1 f2 -> RD (dump_bytes l f1) (dump_bytes l f2).
  Hypothesis HVtext : forall body, body <> [] -> utf8_valid body = true -> RV (sanitize body) (sanitize body).
  (** The zone flags of the dates. *)
  Hypothesis HU : RU (oUTC o1) (oUTC o2).
  Hypothesis HVdate : forall t u1 u2, (t < 2 ^ 32)%N -> RU u1 u2 -> RV (unixtime2rfc3339 (e_tz E1) t u1) (unixtime2rfc3339 (e_tz E2) t u2).
  Hypothesis HOnone : RO None None.
  Hypothesis HOsome : forall d1 d2, RDT d1 d2 -> RO (Some d1) (Some d2).
  Hypothesis HTexp : forall s1 s2 n, RO s1 s2 -> RT (expire_text E1 s1 n) (expire_text E2 s2 n).
  Hypothesis HMsame : forall m, RM m m.
  Hypothesis HVmode : forall m1 m2, RM m1 m2 -> RV (mode_value m1) (mode_value m2).
  Hypothesis HTmode : forall m1 m2 z, RM m1 m2 -> RT (mode_note m1 (n_bytes z)) (mode_note m2 (n_bytes z)).
  Hypothesis HVdays : forall n, RV (days_text n ++ str " days after") (days_text n ++ str " days after").
  Hypothesis Hgrow : e_grow E1 = e_grow E2.
  Hypothesis Hinfl : forall n z, e_inflate E1 n z = e_inflate E2 n z.

  Inductive RI : item -> item -> Prop :=
  | RI_item n n' v v' d d' t t' l l' :
      RN n n' -> RV v v' -> RD d d' -> RT t t' -> Forall2 RI l l' ->
      RI (Item n v d t l) (Item n' v' d' t' l').

  Definition rres {A B} (RA : A -> B -> Prop) (a : res A) (b : res B) : Prop :=
    match a, b with
    | ROk x, ROk y => RA x y
    | RErr e, RErr e' => e = e'
    | RPanic, RPanic => PP
    | _, _ => False
    end.

  Section Q.
  Variable Q : bytes -> Prop.

  Definition Rst (s1 s2 : st) : Prop :=
    s_rd s1 = s_rd s2 /\ weak_inv (s_rd s1) /\ Q (r_buf (s_rd s1)) /\ RC (s_cs s1) (s_cs s2) /\ RI (s_cur s1) (s_cur s2).

  Definition rel {A B} (RA : A -> B -> Prop) (m1 : M A) (m2 : M B) : Prop :=
    forall s1 s2, Rst s1 s2 ->
    rres RA (fst (m1 s1)) (fst (m2 s2)) /\
    (fst (m1 s1) <> RPanic -> Rst (snd (m1 s1)) (snd (m2 s2)) /\ r_buf (s_rd (snd (m1 s1))) = r_buf (s_rd s1)).

  Lemma rel_ret {A B} (RA : A -> B -> Prop) a b : RA a b -> rel RA (ret a) (ret b).
  Proof. intros H s1 s2 S. cbn. auto. Qed.
  Lemma rel_fail {A B} (RA : A -> B -> Prop) e : rel RA (fail e) (fail e).
  Proof. intros s1 s2 S. cbn. auto. Qed.
  Lemma rel_bind {A B A' B'} (RA : A -> B -> Prop) (RB : A' -> B' -> Prop) m1 m2 f1 f2 :
    rel RA m1 m2 -> (forall a b, RA a b -> rel RB (f1 a) (f2 b)) -> rel RB (bind m1 f1) (bind m2 f2).
  Proof.
    intros H K s1 s2 S. specialize (H s1 s2 S). unfold bind.
    destruct (m1 s1) as [r1 t1], (m2 s2) as [r2 t2]. cbn [fst snd] in H. destruct H as [H1 H2].
    destruct r1 as [a|e| |], r2 as [b|e'| |]; cbn in H1; try contradiction; cbn [fst snd rres].
    - destruct (H2 ltac:(discriminate)) as [H3 H4]. destruct (K a b H1 t1 t2 H3) as [K1 K2]. split; [exact K1|].
      intro N. destruct (K2 N) as [K3 K4]. split; [exact K3 | congruence].
    - split; [exact H1|]. intros _. apply H2. discriminate.
    - split; [exact H1|]. congruence.
  Qed.
  Lemma rel_weak {A B} (RA RA' : A -> B -> Prop) m1 m2 : rel RA m1 m2 -> (forall a b, RA a b -> RA' a b) -> rel RA' m1 m2.
  Proof.
    intros H K s1 s2 S. destruct (H s1 s2 S) as [H1 H2]. split; [|exact H2].
    destruct (fst (m1 s1)), (fst (m2 s2)); cbn in *; auto.
  Qed.

  (** Readers. *)
  Lemma rel_on_rd {A} (RA : A -> A -> Prop) (f : reader -> res A * reader) :
    (forall r, weak_inv r -> Q (r_buf r) -> weak_inv (snd (f r)) /\ r_buf (snd (f r)) = r_buf r /\ rres RA (fst (f r)) (fst (f r))) ->
    rel RA (on_rd f) (on_rd f).
  Proof.
    intros H s1 s2 (S1 & S2 & S3 & S4 & S5). unfold on_rd. rewrite <- S1. specialize (H (s_rd s1) S2 S3).
    destruct (f (s_rd s1)) as [r rd]. cbn [fst snd] in *. destruct H as (H1 & H2 & H3). split; [exact H3|].
    intros _. split; [|exact H2]. repeat split; cbn; try assumption; try apply H1; try apply S4. rewrite H2. exact S3.
  Qed.
  (** What is read is part of the buffer. *)
  Definition eqp (n : Z) (a b : bytes) : Prop := a = b /\ lenZ a = n /\ exists buf, Q buf /\ part a buf.
  Definition eqq (a b : bytes) : Prop := a = b /\ exists buf, Q buf /\ part a buf.
  Lemma weak_move r r' : weak_inv r -> r_buf r' = r_buf r -> (r' = r \/ in_buffer r') -> weak_inv r'.
  Proof. intros [H1 H2] B [->|[I1 I2]]; [split; assumption|]. rewrite B in *. split; rewrite B; lia. Qed.
  Lemma readbytes_part n r : forall d, fst (r_readbytes n r) = ROk d -> part d (r_buf r).
  Proof.
    intros d. unfold r_readbytes. destruct (n =? 0); [intro H; inversion H; apply part_nil|].
    destruct (_ >=? _); [discriminate|]. destruct (_ >? _); [discriminate|]. destruct (_ || _); [discriminate|].
    intro H. inversion H. apply part_slice.
  Qed.
  Lemma rel_rdBytes n : 0 <= n < 2 ^ 62 -> rel (eqp n) (rdBytes n) (rdBytes n).
  Proof.
    intro Hn. apply rel_on_rd. intros r W HQ. pose proof (readbytes_weak n r W Hn) as H. pose proof (readbytes_part n r) as P.
    destruct (r_readbytes n r) as [x r']. cbn [fst snd] in *. destruct H as (H1 & H2 & H3 & H4 & _ & H6).
    split; [exact (weak_move r r' W H3 H4)|]. split; [exact H3|]. destruct x; cbn; try congruence.
    split; [reflexivity|]. split; [apply H6; reflexivity|]. exists (r_buf r). split; [exact HQ | apply P; reflexivity].
  Qed.
  Lemma rel_rdBytes_any n : PP -> - 2 ^ 63 <= n < 2 ^ 62 -> rel (eqp n) (rdBytes n) (rdBytes n).
  Proof.
    intros HP Hn. destruct (Z_le_dec 0 n) as [L|G]; [apply rel_rdBytes; lia|].
    apply rel_on_rd. intros r W HQ.
    assert (r_readbytes n r = (RErr EEof, r) \/ r_readbytes n r = (RErr EUnexp, r) \/ r_readbytes n r = (RPanic, r)) as K.
    { unfold r_readbytes. replace (n =? 0) with false by lia. destruct (r_off r >=? r_size r) eqn:X; [auto|].
      destruct (wrap64 (r_off r + n) >? r_size r) eqn:Y; [auto|]. destruct W as [W1 W2]. unfold r_size in *.
      replace (wrap64 (r_off r + n) <? r_off r) with true; [rewrite orb_true_r; auto|].
      rewrite wrap64_small by lia. lia. }
    destruct K as [K|[K|K]]; rewrite K; cbn; auto.
  Qed.

  Lemma rel_rdByte : rel eq rdByte rdByte.
  Proof.
    apply rel_on_rd. intros r W HQ. pose proof (readbytes_weak 1 r W ltac:(lia)) as H. unfold r_readbyte.
    destruct (r_readbytes 1 r) as [x r']. destruct H as (H1 & H2 & H3 & H4 & _ & H6).
    destruct x as [[|b l]|e| |]; cbn; try congruence; (split; [exact (weak_move r r' W H3 H4)|]; split; [exact H3 | reflexivity]).
  Qed.

  Lemma rel_rd2EOF : rel eqq rd2EOF rd2EOF.
  Proof.
    apply rel_on_rd. intros r [W1 W2] HQ. unfold r_read2eof, r_size. pose proof (lenZ_nonneg (r_buf r)).
    destruct (r_off r >=? lenZ (r_buf r)) eqn:X; cbn [fst snd]; [repeat split; auto; lia|].
    replace (r_off r <? 0) with false by lia. cbn [fst snd rres r_buf]. rewrite wrap64_small by lia.
    split; [split; cbn [r_off r_buf]; lia|]. split; [reflexivity|]. split; [reflexivity|].
    exists (r_buf r). split; [exact HQ | apply part_skipn].
  Qed.
  Lemma rel_rdSeek a b : rel eq (rdSeek a b) (rdSeek a b).
  Proof.
    apply rel_on_rd. intros r W HQ. pose proof (seek_weak a b r (proj2 W)) as H.
    destruct (r_seek a b r) as [x r'] eqn:K. cbn [fst snd]. destruct H as (H1 & H2 & H3).
    split; [exact (weak_move r r' W H2 H3)|]. split; [exact H2|]. destruct x; cbn; try reflexivity; [discriminate H1|].
    unfold r_seek in K. repeat match type of K with (if ?c then _ else _) = _ => destruct c end; discriminate K.
  Qed.
  (** Rest() is at least minus the size. *)
  Definition rest_ok (a b : Z) : Prop := a = b /\ - 2 ^ 62 <= a < 2 ^ 62.
  Lemma rest_range r : weak_inv r -> - 2 ^ 62 <= r_rest r < 2 ^ 62.
  Proof. intros [W1 W2]. unfold r_rest, r_size. pose proof (lenZ_nonneg (r_buf r)). rewrite wrap64_small by lia. lia. Qed.
  Lemma rel_rdRest : rel rest_ok rdRest rdRest.
  Proof.
    intros s1 s2 S. pose proof S as (S1 & S2 & _). unfold rdRest. cbn. rewrite <- S1. split; [|auto].
    split; [reflexivity | apply rest_range; exact S2].
  Qed.
  Lemma rel_rdLen : rel eq rdLen rdLen.
  Proof. intros s1 s2 S. pose proof S as (S1 & _). unfold rdLen. cbn. rewrite S1. auto. Qed.

  (** Items. *)
  Lemma RI_add c1 c2 i1 i2 : RI c1 c2 -> RI i1 i2 -> RI (add_child c1 i1) (add_child c2 i2).
  Proof. intros Hc Hi. destruct Hi. cbn. constructor; try assumption. apply Forall2_app; auto. Qed.
  Lemma rel_upd f1 f2 : (forall i1 i2, RI i1 i2 -> RI (f1 i1) (f2 i2)) -> rel eq (upd f1) (upd f2).
  Proof.
    intros H s1 s2 (S1 & S2 & S3 & S4 & S5). unfold upd. cbn. split; [reflexivity|]. intros _. split; [|reflexivity].
    repeat split; cbn; try assumption; try apply S2; try apply S4. apply H; exact S5.
  Qed.
  Lemma rel_add c1 c2 : RI c1 c2 -> rel eq (add c1) (add c2).
  Proof. intro H. apply rel_upd. intros. apply RI_add; assumption. Qed.
  Lemma rel_addo c1 c2 : ropt RI c1 c2 -> rel eq (addo c1) (addo c2).
  Proof. intro H. apply rel_upd. intros. destruct c1, c2; cbn in *; try contradiction; [apply RI_add; assumption | assumption]. Qed.
  Lemma RI_note x y i1 i2 : RT x y -> RI i1 i2 -> RI (w_note x i1) (w_note y i2).
  Proof. intros H Hi. destruct Hi. constructor; assumption. Qed.
  Lemma RI_value x y i1 i2 : RV x y -> RI i1 i2 -> RI (w_value x i1) (w_value y i2).
  Proof. intros H Hi. destruct Hi. constructor; assumption. Qed.
  Lemma RI_dump x y i1 i2 : RD x y -> RI i1 i2 -> RI (w_dump x i1) (w_dump y i2).
  Proof. intros H Hi. destruct Hi. constructor; assumption. Qed.
  Lemma RI_name x y i1 i2 : RN x y -> RI i1 i2 -> RI (w_name x i1) (w_name y i2).
  Proof. intros H Hi. destruct Hi. constructor; assumption. Qed.
  Lemma rel_setNote x y : RT x y -> rel eq (setNote x) (setNote y).
  Proof. intro. apply rel_upd. intros; apply RI_note; assumption. Qed.
  Lemma rel_setValue x y : RV x y -> rel eq (setValue x) (setValue y).
  Proof. intro. apply rel_upd. intros; apply RI_value; assumption. Qed.
  Lemma rel_setDump x y : RD x y -> rel eq (setDump x) (setDump y).
  Proof. intro. apply rel_upd. intros; apply RI_dump; assumption. Qed.
  Lemma rel_putCur i1 i2 : RI i1 i2 -> rel eq (putCur i1) (putCur i2).
  Proof. intro. apply rel_upd. intros; assumption. Qed.
  Lemma rel_curName : rel RN curName curName.
  Proof. intros s1 s2 S. pose proof S as (_ & _ & _ & _ & S5). unfold curName. cbn. split; [destruct S5; assumption | auto]. Qed.

  (** Context. *)
  Lemma rel_getCs : rel RC getCs getCs.
  Proof. intros s1 s2 S. pose proof S as (_ & _ & _ & S4 & _). unfold getCs. cbn. split; [exact S4 | auto]. Qed.
  Lemma rel_setMode x : rel eq (setMode x) (setMode x).
  Proof.
    intros s1 s2 (S1 & S2 & S3 & (C1 & C2 & C3) & S5). unfold setMode. cbn. split; [reflexivity|]. intros _. split; [|reflexivity].
    repeat split; cbn; try assumption; (apply S2 || apply HMsame).
  Qed.
  Lemma rel_setSig x y : RO x y -> rel eq (setSig x) (setSig y).
  Proof.
    intros H s1 s2 (S1 & S2 & S3 & (C1 & C2 & C3) & S5). unfold setSig. cbn. split; [reflexivity|]. intros _. split; [|reflexivity].
    repeat split; cbn; try assumption; apply S2.
  Qed.
  Lemma rel_setKey x y : RO x y -> rel eq (setKey x) (setKey y).
  Proof.
    intros H s1 s2 (S1 & S2 & S3 & (C1 & C2 & C3) & S5). unfold setKey. cbn. split; [reflexivity|]. intros _. split; [|reflexivity].
    repeat split; cbn; try assumption; apply S2.
  Qed.

  Lemma rel_child {A B} (RA : A -> B -> Prop) i1 i2 m1 m2 : RI i1 i2 -> rel RA m1 m2 -> rel RA (child i1 m1) (child i2 m2).
  Proof.
    intros Hi H s1 s2 (S1 & S2 & S3 & S4 & S5). unfold child.
    specialize (H (mkSt (s_rd s1) (s_cs s1) i1) (mkSt (s_rd s2) (s_cs s2) i2)).
    destruct H as [H1 H2]; [repeat split; cbn; try assumption; apply S2 || apply S4|].
    destruct (m1 _) as [r1 t1], (m2 _) as [r2 t2]. cbn [fst snd] in *. split; [exact H1|].
    intro N. destruct (H2 N) as [(T1 & T2 & T3 & T4 & T5) B']. split; [|exact B'].
    repeat split; cbn; try assumption; try apply T2; try apply T4. apply RI_add; assumption.
  Qed.
  Lemma rel_sub_it {A B} (RA : A -> B -> Prop) i1 i2 m1 m2 : RI i1 i2 -> rel RA m1 m2 -> rel RI (sub_it i1 m1) (sub_it i2 m2).
  Proof.
    intros Hi H s1 s2 (S1 & S2 & S3 & S4 & S5). unfold sub_it.
    specialize (H (mkSt (s_rd s1) (s_cs s1) i1) (mkSt (s_rd s2) (s_cs s2) i2)).
    destruct H as [H1 H2]; [repeat split; cbn; try assumption; apply S2 || apply S4|].
    destruct (m1 _) as [r1 t1], (m2 _) as [r2 t2]. cbn [fst snd] in *.
    destruct r1, r2; cbn in H1; try contradiction; cbn [rres fst snd];
      try (destruct (H2 ltac:(discriminate)) as [(T1 & T2 & T3 & T4 & T5) B']).
    - split; [exact T5|]. intros _. split; [|exact B']. repeat split; cbn; try assumption; apply T2 || apply T4.
    - split; [exact H1|]. intros _. split; [|exact B']. repeat split; cbn; try assumption; apply T2 || apply T4.
    - split; [exact H1 | congruence].
  Qed.
  Lemma rel_catch {A B} (RA : A -> B -> Prop) m1 m2 : rel RA m1 m2 -> rel (ropt RA) (catchM m1) (catchM m2).
  Proof.
    intros H s1 s2 S. specialize (H s1 s2 S). unfold catchM.
    destruct (m1 s1) as [r1 t1], (m2 s2) as [r2 t2]. cbn [fst snd] in H. destruct H as [H1 H2].
    destruct r1, r2; cbn in H1; try contradiction; cbn [fst snd rres ropt].
    - split; [exact H1|]. intros _. apply H2. discriminate.
    - split; [exact I|]. intros _. apply H2. discriminate.
    - split; [exact H1 | congruence].
  Qed.

  Lemma rel_dumpRest f1 f2 : FL f1 f2 -> rel RD (dumpRest f1) (dumpRest f2).
  Proof.
    intros F s1 s2 S. pose proof S as (S1 & [W1 W2] & _). unfold dumpRest. rewrite <- S1.
    assert (wrap64 (r_size (s_rd s1) - r_rest (s_rd s1)) = r_off (s_rd s1)) as W.
    { unfold r_rest, r_size. pose proof (lenZ_nonneg (r_buf (s_rd s1))). rewrite (wrap64_small (lenZ _ - r_off _)) by lia.
      rewrite wrap64_small by lia. lia. }
    rewrite W.
    assert (r_dumpstring (r_off (s_rd s1)) (s_rd s1) = ROk (hexdump (skipn (Z.to_nat (r_off (s_rd s1))) (r_buf (s_rd s1))))) as D.
    { unfold r_dumpstring, r_size. destruct (r_off (s_rd s1) >=? lenZ (r_buf (s_rd s1))) eqn:X.
      - rewrite skipn_all2 by (unfold lenZ in *; lia). reflexivity.
      - replace (r_off (s_rd s1) <? 0) with false by lia. reflexivity. }
    rewrite D. pose proof (HD (skipn (Z.to_nat (r_off (s_rd s1))) (r_buf (s_rd s1))) f1 f2 F) as K.
    destruct f1, f2; cbn [fst snd rres]; split; auto.
  Qed.

  Lemma rel_getBody : rel (fun a b => a = b /\ Q a) getBody getBody.
  Proof. intros s1 s2 S. pose proof S as (S1 & _ & S3 & _). unfold getBody, r_body. cbn. rewrite <- S1. auto. Qed.

  Lemma rel_mapM {A} (f1 f2 : A -> M unit) l : (forall x, In x l -> rel eq (f1 x) (f2 x)) -> rel eq (mapM_ f1 l) (mapM_ f2 l).
  Proof.
    induction l as [|x l IH]; intro H; cbn [mapM_]; [apply rel_ret; reflexivity|].
    eapply rel_bind; [apply H; left; reflexivity|]. intros _ _ _. apply IH. intros y Hy. apply H. right; exact Hy.
  Qed.
  End Q.

  (** Programs on a reader of their own. *)
  Definition wkr {A B} (RA : A -> B -> Prop) (p1 : A * reader) (p2 : B * reader) : Prop :=
    RA (fst p1) (fst p2) /\ snd p1 = snd p2 /\ weak_inv (snd p1).
  Lemma rel_with_rd {A B} Q (RA : A -> B -> Prop) r m1 m2 :
    weak_inv r -> rel (fun _ => True) RA m1 m2 -> rel Q (wkr RA) (with_rd r m1) (with_rd r m2).
  Proof.
    intros W H s1 s2 (S1 & S2 & S3 & S4 & S5). unfold with_rd.
    specialize (H (mkSt r (s_cs s1) (s_cur s1)) (mkSt r (s_cs s2) (s_cur s2))).
    destruct H as [H1 H2]; [repeat split; cbn; try assumption; apply W || apply S4|].
    destruct (m1 _) as [r1 t1], (m2 _) as [r2 t2]. cbn [fst snd] in *.
    destruct r1, r2; cbn in H1; try contradiction; cbn [rres fst snd];
      try (destruct (H2 ltac:(discriminate)) as [(T1 & T2 & T3 & T4 & T5) B']).
    - split; [repeat split; cbn; try assumption; apply T2|]. intros _. split; [|reflexivity]. repeat split; cbn; try assumption; apply S2 || apply T4.
    - split; [exact H1|]. intros _. split; [|reflexivity]. repeat split; cbn; try assumption; apply S2 || apply T4.
    - split; [exact H1 | congruence].
  Qed.
  Lemma rel_run_in {A B} (Q Q' : bytes -> Prop) (RA : A -> B -> Prop) r i1 i2 m1 m2 :
    weak_inv r -> Q' (r_buf r) -> RI i1 i2 -> rel Q' RA m1 m2 ->
    rel Q (fun p1 p2 => RA (fst p1) (fst p2) /\ RI (snd p1) (snd p2)) (run_in r i1 m1) (run_in r i2 m2).
  Proof.
    intros W HQ Hi H s1 s2 (S1 & S2 & S3 & S4 & S5). unfold run_in.
    specialize (H (mkSt r (s_cs s1) i1) (mkSt r (s_cs s2) i2)).
    destruct H as [H1 H2]; [repeat split; cbn; try assumption; apply W || apply S4|].
    destruct (m1 _) as [r1 t1], (m2 _) as [r2 t2]. cbn [fst snd] in *.
    destruct r1, r2; cbn in H1; try contradiction; cbn [rres fst snd];
      try (destruct (H2 ltac:(discriminate)) as [(T1 & T2 & T3 & T4 & T5) B']).
    - split; [split; assumption|]. intros _. split; [|reflexivity]. repeat split; cbn; try assumption; apply S2 || apply T4.
    - split; [exact H1|]. intros _. split; [|reflexivity]. repeat split; cbn; try assumption; apply S2 || apply T4.
    - split; [exact H1 | congruence].
  Qed.

  (** ** Items of the value types *)
  Lemma HD0 : RD [] []. Proof. exact (HD [] true true FL_true). Qed.
  Lemma HDb b f1 f2 : FL f1 f2 -> RD (dump_byte b f1) (dump_byte b f2).
  Proof.
    intro F. pose proof (HD [b] f1 f2 F) as K. unfold dump_bytes, dump_byte, hexdump in *. cbn [hexdump_from app] in K.
    rewrite app_nil_r in K. exact K.
  Qed.
  Lemma HNt x : title x -> RN x x. Proof. intros [P L]. apply HN; assumption. Qed.
  Lemma HDh b : RD (hex2 b) (hex2 b). Proof. exact (HDb b true true FL_true). Qed.

  Ltac ri :=
    first
    [ constructor;
      [ apply HNt; solve [title_all] | first [assumption | apply HV; solve [plain_all]]
      | first [assumption | exact HD0 | apply HD; assumption | apply HDb; assumption | apply HD; apply FL_true | apply HDb; apply FL_true | apply HDh]
      | first [assumption | apply HT; solve [plain_all]] | constructor ] ].

  Lemma ri_sym b f1 f2 : FL f1 f2 -> RI (sym_item b f1) (sym_item b f2). Proof. intro. unfold sym_item. ri. Qed.
  Lemma ri_hash b f1 f2 : FL f1 f2 -> RI (hash_item b f1) (hash_item b f2). Proof. intro. unfold hash_item. ri. Qed.
  Lemma ri_aead b f1 f2 : FL f1 f2 -> RI (aead_item b f1) (aead_item b f2). Proof. intro. unfold aead_item. ri. Qed.
  Lemma ri_comp b f1 f2 : FL f1 f2 -> RI (comp_item b f1) (comp_item b f2). Proof. intro. unfold comp_item. ri. Qed.
  Lemma ri_pub b f1 f2 : FL f1 f2 -> RI (pub_item b f1) (pub_item b f2). Proof. intro. unfold pub_item. ri. Qed.
  Lemma ri_sig b f1 f2 : FL f1 f2 -> RI (sig_item b f1) (sig_item b f2). Proof. intro. unfold sig_item. ri. Qed.
  Lemma ri_s2k b f1 f2 : FL f1 f2 -> RI (s2k_item b f1) (s2k_item b f2). Proof. intro. unfold s2k_item. ri. Qed.
  Lemma ri_salt l f1 f2 : FL f1 f2 -> RI (salt_item l f1) (salt_item l f2). Proof. intro. unfold salt_item, it_nd. ri. Qed.
  Lemma ri_stretch b : RI (stretch_item b) (stretch_item b). Proof. unfold stretch_item. ri. Qed.
  Lemma ri_tag t l f1 f2 : FL f1 f2 -> RI (tag_item t l f1) (tag_item t l f2). Proof. intro. unfold tag_item. ri. Qed.
  Lemma ri_sub t l f1 f2 : FL f1 f2 -> RI (sub_item t l f1) (sub_item t l f2). Proof. intro. unfold sub_item. ri. Qed.
  Lemma ri_v v f1 f2 : FL f1 f2 -> RI (v_item v f1) (v_item v f2). Proof. intro. unfold v_item. ri. Qed.
  Lemma ri_keyid l : RI (keyid_item l) (keyid_item l). Proof. unfold keyid_item, it_nv, keyid_string. ri. Qed.
  Lemma ri_oid l f1 f2 : FL f1 f2 -> RI (oid_item l f1) (oid_item l f2). Proof. intro. unfold oid_item. ri. Qed.
  Lemma ri_ecparm n l f1 f2 : title n -> FL f1 f2 -> RI (ecparm_item n l f1) (ecparm_item n l f2). Proof. intros. unfold ecparm_item. ri. Qed.
  Lemma ri_mpi n m f1 f2 : title n -> FL f1 f2 -> RI (mpi_item n m f1) (mpi_item n m f2). Proof. intros. unfold mpi_item. ri. Qed.
  Lemma ri_litfmt b : RV (litfmt_string b) (litfmt_string b) -> RI (litfmt_item b) (litfmt_item b).
  Proof. intro. unfold litfmt_item. ri. Qed.
  Lemma ri_text n n' l f1 f2 : RN n n' -> FL f1 f2 -> RI (text_item n l f1) (text_item n' l f2).
  Proof.
    intros Hn F. unfold text_item. destruct (is_nil l) eqn:N.
    - constructor; [assumption | apply HV; reflexivity | exact HD0 | apply HT; reflexivity | constructor].
    - destruct (utf8_valid l) eqn:U; cbn [negb].
      + constructor; [assumption | apply HVtext; [destruct l; [discriminate N | discriminate] | exact U] | apply HD; assumption | apply HT; reflexivity | constructor].
      + constructor; [assumption | apply HV; reflexivity | apply HD, FL_true | apply HT; reflexivity | constructor].
  Qed.
  Lemma ri_flag f v : plain v -> ropt RI (flag_item f v) (flag_item f v).
  Proof. intro H. unfold flag_item. destruct (f =? 0)%N; cbn; [exact I|]. unfold it_nv. ri. Qed.
  Lemma dt_text_rel d1 d2 : RDT d1 d2 -> RV (dt_text E1 d1) (dt_text E2 d2).
  Proof. intros (H1 & H2 & H3). unfold dt_text, dt_unix in *. rewrite H1. apply HVdate; assumption. Qed.
  Lemma ri_dt n d1 d2 f1 f2 : title n -> RDT d1 d2 -> FL f1 f2 -> RI (dt_item E1 n d1 f1) (dt_item E2 n d2 f2).
  Proof.
    intros Hn Hd F. unfold dt_item. pose proof (dt_text_rel _ _ Hd). destruct Hd as (H1 & _). rewrite H1.
    constructor; [apply HNt; assumption | assumption | apply HD; assumption | apply HT; reflexivity | constructor].
  Qed.
  Lemma ri_filetime d1 d2 f1 f2 : RDT d1 d2 -> FL f1 f2 -> RI (filetime_item E1 d1 f1) (filetime_item E2 d2 f2).
  Proof.
    intros Hd F. unfold filetime_item. replace (dt_unix d2) with (dt_unix d1) by (unfold dt_unix; rewrite (proj1 Hd); reflexivity).
    destruct (dt_unix d1 =? 0)%N; [|apply ri_dt; [solve [title_all] | assumption | assumption]].
    rewrite (proj1 Hd). ri.
  Qed.
  Lemma ri_expire n n' s1 s2 l f1 f2 : RN n n' -> RO s1 s2 -> FL f1 f2 -> RI (expire_item E1 n s1 l f1) (expire_item E2 n' s2 l f2).
  Proof.
    intros Hn Hs F. constructor; [assumption | apply HVdays | apply HD; assumption | | constructor].
    exact (HTexp s1 s2 (be l) Hs).
  Qed.

  (** ** Tactics *)
  Lemma FL_d : FL (oDebug o1) (oDebug o2). Proof. apply FL_opt. cbn; tauto. Qed.
  Lemma FL_i : FL (oInteger o1) (oInteger o2). Proof. apply FL_opt. cbn; tauto. Qed.
  Lemma FL_l : FL (oLiteral o1) (oLiteral o2). Proof. apply FL_opt. cbn; tauto. Qed.
  Lemma FL_m : FL (oMarker o1) (oMarker o2). Proof. apply FL_opt. cbn; tauto. Qed.
  Lemma FL_p : FL (oPrivate o1) (oPrivate o2). Proof. apply FL_opt. cbn; tauto. Qed.
  Lemma FL_c : FL (oCert o1) (oCert o2). Proof. apply FL_opt. cbn; tauto. Qed.
  Ltac fl := first [assumption | exact FL_true | exact FL_d | exact FL_i | exact FL_l | exact FL_m | exact FL_p | exact FL_c].
  Ltac rv := first [assumption | apply HV; solve [plain_all]].
  Ltac rn := first [assumption | apply HNt; solve [title_all]].
  Ltac rt := first [assumption | apply HT; solve [plain_all]].
  Ltac rd := first [assumption | exact HD0 | apply HDh | apply HD; fl | apply HDb; fl].
  Ltac item :=
    lazymatch goal with
    | |- RI (sym_item _ _) _ => apply ri_sym; fl
    | |- RI (hash_item _ _) _ => apply ri_hash; fl
    | |- RI (aead_item _ _) _ => apply ri_aead; fl
    | |- RI (comp_item _ _) _ => apply ri_comp; fl
    | |- RI (pub_item _ _) _ => apply ri_pub; fl
    | |- RI (sig_item _ _) _ => apply ri_sig; fl
    | |- RI (s2k_item _ _) _ => apply ri_s2k; fl
    | |- RI (salt_item _ _) _ => apply ri_salt; fl
    | |- RI (stretch_item _) _ => apply ri_stretch
    | |- RI (tag_item _ _ _) _ => apply ri_tag; fl
    | |- RI (sub_item _ _ _) _ => apply ri_sub; fl
    | |- RI (v_item _ _) _ => apply ri_v; fl
    | |- RI (keyid_item _) _ => apply ri_keyid
    | |- RI (oid_item _ _) _ => apply ri_oid; fl
    | |- RI (ecparm_item _ _ _) _ => apply ri_ecparm; [solve [title_all] | fl]
    | |- RI (mpi_item _ _ _) _ => apply ri_mpi; [solve [title_all] | fl]
    | |- RI (litfmt_item _) _ => apply ri_litfmt; assumption
    | |- RI (text_item _ _ _) _ => apply ri_text; [rn | fl]
    | |- RI (filetime_item _ _ _) _ => apply ri_filetime; [assumption | fl]
    | |- RI (pubkeytime_item _ _ _) _ => unfold pubkeytime_item; apply ri_dt; [solve [title_all] | assumption | fl]
    | |- RI (sigtime_item _ _ _) _ => unfold sigtime_item; apply ri_dt; [solve [title_all] | assumption | fl]
    | |- RI (expire_item _ _ _ _ _) _ => apply ri_expire; [rn | assumption | fl]
    | |- RI (hashleft_item _) _ => unfold hashleft_item; item
    | |- RI (it_nv _ _) _ => unfold it_nv; item
    | |- RI (it_nd _ _) _ => unfold it_nd; item
    | |- RI (w_value _ _) _ => apply RI_value; [rv | item]
    | |- RI (w_note _ _) _ => apply RI_note; [rt | item]
    | |- RI (w_name _ _) _ => apply RI_name; [rn | item]
    | |- RI (add_child _ _) _ => apply RI_add; item
    | |- RI (if ?c then _ else _) _ => destruct c; item
    | |- RI (Item _ _ _ _ _) _ => constructor; [rn | rv | rd | rt | constructor]
    | |- RI ?x _ => assumption
    end.

  Lemma be1 (l : bytes) : lenZ l = 1 -> (be l < 2 ^ 8)%N.
  Proof. intro H. pose proof (be_lt l) as B. rewrite lenZ_lenN in H. replace (lenN l) with 1%N in B by lia. exact B. Qed.
  Lemma be2 (l : bytes) : lenZ l = 2 -> (be l < 2 ^ 16)%N.
  Proof. intro H. pose proof (be_lt l) as B. rewrite lenZ_lenN in H. replace (lenN l) with 2%N in B by lia. exact B. Qed.
  Lemma be4 (l : bytes) : lenZ l = 4 -> (be l < 2 ^ 32)%N.
  Proof. intro H. pose proof (be_lt l) as B. rewrite lenZ_lenN in H. replace (lenN l) with 4%N in B by lia. exact B. Qed.
  Ltac bounds :=
    repeat match goal with
    | |- context [b2n ?b] => lazymatch goal with _ : (b2n b < 256)%N |- _ => fail | _ => pose proof (b2n_lt b) end
    | H : lenZ ?l = 2 |- context [be ?l] => lazymatch goal with _ : (be l < 2 ^ 16)%N |- _ => fail | _ => pose proof (be2 l H) end
    | H : lenZ ?l = 4 |- context [be ?l] => lazymatch goal with _ : (be l < 2 ^ 32)%N |- _ => fail | _ => pose proof (be4 l H) end
    end.
  Ltac rng := bounds; (split; [try lia; try (apply Z.div_pos; lia) | try lia; try (apply Z.div_lt_upper_bound; lia)]).
  Ltac rclean :=
    repeat match goal with
    | H : eqp _ _ _ _ |- _ => destruct H as (H & ? & ?)
    | H : eqq _ _ _ |- _ => destruct H as (H & ?)
    | H : rest_ok _ _ |- _ => destruct H as (H & ?)
    | H : ?a = ?b |- _ => is_var a; is_var b; subst b
    end; cbv beta.
  Ltac leaf0 :=
    lazymatch goal with
    | |- rel _ _ rdByte _ => apply rel_rdByte
    | |- rel _ _ (rdBytes _) _ => apply rel_rdBytes; rng
    | |- rel _ _ rd2EOF _ => apply rel_rd2EOF
    | |- rel _ _ (rdSeek _ _) _ => apply rel_rdSeek
    | |- rel _ _ rdRest _ => apply rel_rdRest
    | |- rel _ _ rdLen _ => apply rel_rdLen
    | |- rel _ _ (add _) _ => apply rel_add; item
    | |- rel _ _ (addo (flag_item _ _)) _ => apply rel_addo; apply ri_flag; solve [plain_all]
    | |- rel _ _ (setNote _) _ => apply rel_setNote; rt
    | |- rel _ _ (setValue _) _ => apply rel_setValue; rv
    | |- rel _ _ (setDump _) _ => apply rel_setDump; rd
    | |- rel _ _ (putCur _) _ => apply rel_putCur; item
    | |- rel _ _ curName _ => apply rel_curName
    | |- rel _ _ getCs _ => apply rel_getCs
    | |- rel _ _ (setMode _) _ => apply rel_setMode
    | |- rel _ _ (dumpRest _) _ => apply rel_dumpRest; fl
    | |- rel _ _ getBody _ => apply rel_getBody
    | |- rel _ _ (fail _) _ => apply rel_fail
    end.

  Ltac leaf := leaf0.
  Ltac rbind := eapply rel_bind; [leaf | let a := fresh "a" in let b := fresh "b" in let H := fresh "H" in intros a b H; rclean].
  Ltac rend := lazymatch goal with
    | |- rel _ _ (ret _) _ => apply rel_ret; first [reflexivity | assumption | item]
    | |- rel _ _ (fail _) _ => apply rel_fail
    | |- _ => first [leaf | eapply rel_weak; [leaf | intros; rclean; reflexivity]]
    end.
  Ltac rgo := repeat (cbv zeta; lazymatch goal with
    | |- rel _ _ (bind (bind _ _) _) _ => fail
    | |- rel _ _ (bind (if _ then _ else _) _) _ => fail
    | |- rel _ _ (bind _ _) _ => rbind
    | |- rel _ _ (if ?c then _ else _) _ => destruct c eqn:?
    | |- rel _ _ (let '(_, _) := ?c in _) _ => destruct c
    | |- rel _ _ _ _ => rend
    end).

  Section Q2.
  Variable Q : bytes -> Prop.

  Lemma rel_newMPI : rel Q eq newMPI newMPI.
  Proof. unfold newMPI. rgo. Qed.
  Lemma rel_newOID : rel Q eq newOID newOID.
  Proof. unfold newOID. rgo. Qed.
  Lemma rel_newECParm : rel Q eq newECParm newECParm.
  Proof.
    intros s1 s2 S. pose proof (rel_rdByte Q s1 s2 S) as H. unfold newECParm.
    destruct (rdByte s1) as [r1 t1], (rdByte s2) as [r2 t2]. cbn [fst snd] in H. destruct H as [H1 H2].
    destruct r1 as [b| | |], r2; cbn in H1; try contradiction; try subst; try (destruct (H2 ltac:(discriminate)) as [H3 H4]).
    - destruct (b2n _ =? 0)%N; [cbn; auto|].
      assert (rel Q eq (rdBytes (Z.of_N (b2n a))) (rdBytes (Z.of_N (b2n a)))) as K by rend.
      destruct (K t1 t2 H3) as [K1 K2]. split; [exact K1|]. intro N. destruct (K2 N). split; [assumption | congruence].
    - cbn. auto.
    - split; [exact H1 | cbn; congruence].
  Qed.
  Lemma rel_newDateTime : rel Q RDT (newDateTime (oUTC o1)) (newDateTime (oUTC o2)).
  Proof.
    unfold newDateTime. eapply rel_bind; [apply rel_rdBytes; lia|]. intros a b (-> & L & _). apply rel_ret.
    split; [reflexivity|]. split; [exact HU|]. unfold dt_unix. cbn [dt_tm]. pose proof (be_lt b) as K.
    replace (lenN b) with 4%N in K by (unfold lenZ, lenN in *; lia). exact K.
  Qed.
  Lemma rel_fname l : 0 <= l < 2 ^ 62 -> rel Q eq (newLiteralFname l) (newLiteralFname l).
  Proof. intro. unfold newLiteralFname. rgo. Qed.
  Lemma rel_rawData n f1 f2 : title n -> FL f1 f2 -> rel Q RI (rawData n f1) (rawData n f2).
  Proof. intros. unfold rawData. rgo. Qed.

  Ltac leaf1 :=
    lazymatch goal with
    | |- rel _ _ newMPI _ => apply rel_newMPI
    | |- rel _ _ newOID _ => apply rel_newOID
    | |- rel _ _ newECParm _ => apply rel_newECParm
    | |- rel _ _ (newDateTime _) _ => apply rel_newDateTime
    | |- rel _ _ (newLiteralFname _) _ => apply rel_fname; rng
    | |- rel _ _ (rawData _ _) _ => apply rel_rawData; [solve [title_all] | fl]
    | |- _ => leaf0
    end.
  Ltac leaf ::= leaf1.

  Lemma rel_addRest n f1 f2 : title n -> FL f1 f2 -> rel Q eq (addRest n f1) (addRest n f2).
  Proof. intros. unfold addRest. rgo. Qed.
  Lemma rel_addMPI n : title n -> rel Q eq (addMPI o1 n) (addMPI o2 n).
  Proof. intros. unfold addMPI. rgo. Qed.
  Lemma rel_addPoint n : title n -> rel Q eq (addPoint o1 n) (addPoint o2 n).
  Proof.
    intros. unfold addPoint. rbind. apply rel_add. apply ri_mpi; [title_all | fl].
  Qed.
  Lemma rel_addOID : rel Q eq addOID addOID.
  Proof. unfold addOID. rgo. Qed.
  Lemma rel_addSized z n : title n -> rel Q eq (addSized o1 z n) (addSized o2 z n).
  Proof. intros. unfold addSized. rgo. Qed.
  Ltac leaf2 :=
    lazymatch goal with
    | |- rel _ _ (addRest _ _) _ => apply rel_addRest; [solve [title_all] | fl]
    | |- rel _ _ (addMPI _ _) _ => apply rel_addMPI; solve [title_all]
    | |- rel _ _ (addPoint _ _) _ => apply rel_addPoint; solve [title_all]
    | |- rel _ _ addOID _ => apply rel_addOID
    | |- rel _ _ (addSized _ _ _) _ => apply rel_addSized; solve [title_all]
    | |- _ => leaf1
    end.
  Ltac leaf ::= leaf2.

  Lemma ri_kdf ep : RI (kdf_item o1 ep) (kdf_item o2 ep).
  Proof.
    unfold kdf_item. cbv zeta. destruct ep as [|e0 t]; [item|]. destruct (b2n e0 =? 1)%N; [|item].
    destruct t as [|e1 [|e2 t]]; item.
  Qed.
  Lemma rel_parsePub p : rel Q eq (parsePub o1 p) (parsePub o2 p).
  Proof.
    unfold parsePub. rbind.
    repeat match goal with |- rel _ _ (if ?c then _ else _) _ => destruct c eqn:? end;
      unfold rsaPub, dsaPub, elgPub, ecdhPub, ecdsaPub, eddsaPub; rgo. apply rel_add, ri_kdf.
  Qed.
  Lemma rel_parseSecEnc p : rel Q eq (parseSecEnc o1 p) (parseSecEnc o2 p).
  Proof. unfold parseSecEnc. rgo. Qed.
  Lemma rel_parseSecPlain p : PP -> rel Q eq (parseSecPlain o1 p) (parseSecPlain o2 p).
  Proof.
    intro HP. unfold parseSecPlain. rbind.
    repeat match goal with |- rel _ _ (if ?c then _ else _) _ => destruct c eqn:? end; unfold rsaSec, unknownSec; cbv zeta; try solve [rgo].
    eapply rel_bind; [apply rel_rdBytes_any; [exact HP | lia]|]. intros x y H. rclean. rgo.
  Qed.
  Lemma rel_parseSes p : rel Q eq (parseSes o1 p) (parseSes o2 p).
  Proof.
    unfold parseSes. rbind.
    repeat match goal with |- rel _ _ (if ?c then _ else _) _ => destruct c eqn:? end; rgo.
  Qed.
  Lemma rel_parseSig p : rel Q eq (parseSig o1 p) (parseSig o2 p).
  Proof.
    unfold parseSig. rbind.
    repeat match goal with |- rel _ _ (if ?c then _ else _) _ => destruct c eqn:? end; rgo.
  Qed.

  Lemma rel_s2k_fields b f1 f2 : FL f1 f2 -> rel Q eq (s2k_fields b f1) (s2k_fields b f2).
  Proof.
    intro F. unfold s2k_fields. cbv zeta. destruct (_ || _).
    - rbind. rbind. eapply rel_bind; [instantiate (1 := eq); destruct (negb _); rgo|]. intros _ _ _.
      eapply rel_bind; [instantiate (1 := eq); destruct (_ =? _)%N; rgo|]. intros _ _ _. rgo.
    - destruct (_ =? _)%N; [|rgo]. rbind. destruct (_ <? _); [rgo|]. rbind. destruct (beqs _ _).
      + rbind. cbv zeta. eapply rel_bind; [instantiate (1 := RI); destruct (_ =? _)%N; rgo|]. intros x y HH. rgo.
      + rgo.
  Qed.
  Lemma rel_s2k f1 f2 : FL f1 f2 -> rel Q eq (s2k_parse f1) (s2k_parse f2).
  Proof. intro F. unfold s2k_parse. rbind. apply rel_child; [item | apply rel_s2k_fields; exact F]. Qed.

  (** ** Sub-packets *)
  Lemma rel_sub_text : rel Q eq (sub_text o1) (sub_text o2).
  Proof. unfold sub_text. rbind. destruct H as [-> _]. rgo. Qed.
  Lemma rel_sub_algs mk : (forall b f1 f2, FL f1 f2 -> RI (mk b f1) (mk b f2)) -> rel Q eq (sub_algs mk o1) (sub_algs mk o2).
  Proof.
    intro H. unfold sub_algs. rbind. destruct H0 as [-> _]. apply rel_mapM. intros x _. apply rel_add. apply H. fl.
  Qed.
  Lemma rel_flag_loop l : forall k, rel Q eq (flag_loop k l) (flag_loop k l).
  Proof. induction l as [|b l IH]; intro k; cbn [flag_loop]; [rgo|]. rbind. apply IH. Qed.
  Lemma rel_more_flags : rel Q eq more_flags more_flags.
  Proof. unfold more_flags. rbind. destruct (_ <? _); [|rgo]. rbind. apply rel_flag_loop. Qed.
  Lemma rel_sub_bool a b : plain a -> plain b -> rel Q eq (sub_bool a b) (sub_bool a b).
  Proof. intros. unfold sub_bool. rgo. Qed.
  Ltac leaf3 :=
    lazymatch goal with
    | |- rel _ _ (parsePub _ _) _ => apply rel_parsePub
    | |- rel _ _ (parseSecEnc _ _) _ => apply rel_parseSecEnc
    | |- rel _ _ (parseSecPlain _ _) _ => apply rel_parseSecPlain; assumption
    | |- rel _ _ (parseSes _ _) _ => apply rel_parseSes
    | |- rel _ _ (parseSig _ _) _ => apply rel_parseSig
    | |- rel _ _ (s2k_parse _) _ => apply rel_s2k; fl
    | |- rel _ _ more_flags _ => apply rel_more_flags
    | |- rel _ _ (sub_bool _ _) _ => apply rel_sub_bool; solve [plain_all]
    | |- _ => leaf2
    end.
  Ltac leaf ::= leaf3.

  Lemma rel_sub01 : rel Q eq sub01 sub01.
  Proof.
    unfold sub01. rbind. cbv zeta. rbind.
    eapply rel_bind; [instantiate (1 := eq); rgo|]. intros _ _ _. rgo.
  Qed.
  Lemma rel_sub02 : rel Q eq (sub02 o1 E1) (sub02 o2 E2).
  Proof.
    unfold sub02. rbind. rbind. eapply rel_bind; [apply rel_setSig, HOsome; assumption|]. intros _ _ _. rgo.
  Qed.
  Lemma rel_sub03 : rel Q eq (sub03 o1 E1) (sub03 o2 E2).
  Proof.
    unfold sub03. rbind. rbind. rbind. eapply rel_bind; [apply rel_setSig, HOnone|]. intros _ _ _. apply rel_putCur.
    destruct H0 as (_ & ? & ?). item.
  Qed.
  Lemma rel_sub09 : rel Q eq (sub09 o1 E1) (sub09 o2 E2).
  Proof.
    unfold sub09. rbind. rbind. rbind. eapply rel_bind; [apply rel_setKey, HOnone|]. intros _ _ _. apply rel_putCur.
    destruct H0 as (_ & ? & ?). item.
  Qed.
  Lemma rel_sub04 : rel Q eq sub04 sub04. Proof. unfold sub04. rgo. Qed.
  Lemma rel_sub05 : rel Q eq sub05 sub05. Proof. unfold sub05. rgo. Qed.
  Lemma rel_sub07 : rel Q eq sub07 sub07. Proof. unfold sub07. rgo. Qed.
  Lemma rel_sub25 : rel Q eq sub25 sub25. Proof. unfold sub25. rgo. Qed.
  Lemma rel_sub12 : rel Q eq (sub12 o1) (sub12 o2).
  Proof. unfold sub12. rbind. cbv zeta. destruct (negb _); [destruct (negb _)|]; rgo. Qed.
  Lemma rel_sub16 : rel Q eq sub16 sub16. Proof. unfold sub16. rgo. Qed.
  Lemma rel_sub20 : rel Q eq (sub20 o1) (sub20 o2).
  Proof. unfold sub20. rgo. Qed.
  Lemma rel_sub23 : rel Q eq sub23 sub23. Proof. unfold sub23. rgo. Qed.
  Lemma rel_sub27 : rel Q eq sub27 sub27.
  Proof.
    unfold sub27. rgo. eapply rel_bind; [instantiate (1 := eq); rgo|]. intros _ _ _. rgo.
  Qed.
  Lemma rel_sub29 : rel Q eq (sub29 o1) (sub29 o2).
  Proof. unfold sub29. rbind. cbv zeta. destruct (in_private _); rgo. Qed.
  Lemma rel_sub30 : rel Q eq sub30 sub30. Proof. unfold sub30. rgo. Qed.
  Lemma rel_sub31 : rel Q eq (sub31 o1) (sub31 o2). Proof. unfold sub31. rgo. Qed.
  Lemma rel_sub_fpr : rel Q eq sub_fpr sub_fpr. Proof. unfold sub_fpr. rgo. Qed.
  Lemma rel_sub37 : rel Q eq (sub37 o1) (sub37 o2). Proof. unfold sub37. rgo. Qed.
  End Q2.

  (** ** Runs from a known place *)
  Definition at_ (pre : bytes) (r : reader) : Prop := exists rest, r = mkReader (pre ++ rest) (lenZ pre).
  Definition relp {A B} Q (pre : bytes) (RA : A -> B -> Prop) (m1 : M A) (m2 : M B) : Prop :=
    forall s1 s2, Rst Q s1 s2 -> at_ pre (s_rd s1) ->
    rres RA (fst (m1 s1)) (fst (m2 s2)) /\
    (fst (m1 s1) <> RPanic -> Rst Q (snd (m1 s1)) (snd (m2 s2)) /\ r_buf (s_rd (snd (m1 s1))) = r_buf (s_rd s1)).
  Lemma relp_rel {A B} Q pre (RA : A -> B -> Prop) m1 m2 : rel Q RA m1 m2 -> relp Q pre RA m1 m2.
  Proof. intros H s1 s2 SS _. exact (H s1 s2 SS). Qed.
  Lemma relp_bind {A B A' B'} Q pre (pre' : A -> bytes) (P : A -> Prop) (RA : A -> B -> Prop) (RB : A' -> B' -> Prop) m1 m2 f1 f2 :
    relp Q pre RA m1 m2 ->
    (forall s a s', weak_inv (s_rd s) -> at_ pre (s_rd s) -> m1 s = (ROk a, s') -> at_ (pre' a) (s_rd s') /\ P a) ->
    (forall a b, RA a b -> P a -> relp Q (pre' a) RB (f1 a) (f2 b)) ->
    relp Q pre RB (bind m1 f1) (bind m2 f2).
  Proof.
    intros H U K s1 s2 SS AT. pose proof SS as (_ & W & _). specialize (U s1). specialize (H s1 s2 SS AT). unfold bind.
    destruct (m1 s1) as [r1 t1], (m2 s2) as [r2 t2]. cbn [fst snd] in H. destruct H as [H1 H2].
    destruct r1 as [a|e| |], r2 as [b|e'| |]; cbn in H1; try contradiction; cbn [fst snd rres].
    - destruct (H2 ltac:(discriminate)) as [H3 H4]. destruct (U a t1 W AT eq_refl) as [AT' HP].
      destruct (K a b H1 HP t1 t2 H3 AT') as [K1 K2]. split; [exact K1|].
      intro N. destruct (K2 N) as [K3 K4]. split; [exact K3 | congruence].
    - split; [exact H1|]. intros _. apply H2. discriminate.
    - split; [exact H1|]. congruence.
  Qed.
  Lemma at_remaining pre r : weak_inv r -> at_ pre r -> in_buffer r /\ exists rest, remaining r = rest /\ r_buf r = pre ++ rest /\ r_off r = lenZ pre.
  Proof.
    intros [W1 W2] [rest ->]. unfold in_buffer, remaining. cbn [r_buf r_off] in *. pose proof (lenZ_nonneg pre). split.
    - rewrite lenZ_app in *. pose proof (lenZ_nonneg rest). lia.
    - exists rest. repeat split. unfold lenZ. rewrite Nat2Z.id. rewrite skipn_app, skipn_all, Nat.sub_diag. reflexivity.
  Qed.
  Lemma at_bytes n pre s a s' : 0 <= n < 2 ^ 62 -> weak_inv (s_rd s) -> at_ pre (s_rd s) -> rdBytes n s = (ROk a, s') ->
    at_ (pre ++ a) (s_rd s') /\ lenZ a = n.
  Proof.
    intros Hn W AT. destruct (at_remaining _ _ W AT) as (IB & rest & R1 & R2 & R3). pose proof (proj1 IB) as HI. destruct W as [W1 W2]. unfold rdBytes, on_rd.
    pose proof (readbytes_spec n (s_rd s) IB ltac:(lia) ltac:(lia)) as H.
    destruct (r_readbytes n (s_rd s)) as [x r']. cbn [fst snd] in H. intro E. inversion E; subst. clear E. cbn [s_rd].
    inversion H as [data rst HR HL|HZ HR|HL]. split; [|assumption]. exists rst.
    rewrite R2, R3, HR, lenZ_app, HL, app_assoc. reflexivity.
  Qed.
  Lemma at_byte pre s a s' : weak_inv (s_rd s) -> at_ pre (s_rd s) -> rdByte s = (ROk a, s') -> at_ (pre ++ [a]) (s_rd s').
  Proof.
    intros W AT. unfold rdByte, on_rd, r_readbyte. pose proof (at_bytes 1 pre s) as H. unfold rdBytes, on_rd in H.
    destruct (r_readbytes 1 (s_rd s)) as [x r']. destruct x as [[|b l]| | |]; intro E; inversion E; subst.
    - specialize (H [] _ ltac:(lia) W AT eq_refl). destruct H as [_ H]. discriminate.
    - specialize (H (a :: l) _ ltac:(lia) W AT eq_refl). destruct H as [H L]. rewrite lenZ_cons in L.
      assert (l = []) as -> by (apply lenZ_0; lia). exact H.
  Qed.
  Lemma relp_byte {A B} Q pre (RB : A -> B -> Prop) f1 f2 :
    (forall b, relp Q (pre ++ [b]) RB (f1 b) (f2 b)) -> relp Q pre RB (bind rdByte f1) (bind rdByte f2).
  Proof.
    intro H. eapply (relp_bind Q pre (fun b => pre ++ [b]) (fun _ => True)); [apply relp_rel, rel_rdByte | |].
    - intros s a s' W AT E. split; [exact (at_byte _ _ _ _ W AT E) | exact Logic.I].
    - intros a b -> _. apply H.
  Qed.
  Lemma relp_bytes {A B} Q pre n (RB : A -> B -> Prop) f1 f2 : 0 <= n < 2 ^ 62 ->
    (forall l, lenZ l = n -> relp Q (pre ++ l) RB (f1 l) (f2 l)) -> relp Q pre RB (bind (rdBytes n) f1) (bind (rdBytes n) f2).
  Proof.
    intros Hn H. eapply (relp_bind Q pre (fun l => pre ++ l) (fun l => lenZ l = n)); [apply relp_rel, rel_rdBytes, Hn | |].
    - intros s a s' W AT E. exact (at_bytes _ _ _ _ _ Hn W AT E).
    - intros a b (-> & _) L. apply H, L.
  Qed.
  (** Steps that leave the reader alone. *)
  Definition still {A} (m : M A) : Prop := forall s, s_rd (snd (m s)) = s_rd s.
  Lemma relp_still {A B A' B'} Q pre (RA : A -> B -> Prop) (RB : A' -> B' -> Prop) m1 m2 f1 f2 :
    relp Q pre RA m1 m2 -> still m1 -> (forall a b, RA a b -> relp Q pre RB (f1 a) (f2 b)) -> relp Q pre RB (bind m1 f1) (bind m2 f2).
  Proof.
    intros H U K. eapply (relp_bind Q pre (fun _ => pre) (fun _ => True)); [exact H | |].
    - intros s a s' W AT E. specialize (U s). rewrite E in U. cbn in U. rewrite U. split; [exact AT | exact Logic.I].
    - intros a b R _. apply K, R.
  Qed.
  Lemma still_add i : still (add i). Proof. intro s. reflexivity. Qed.
  Lemma still_ret {A} (a : A) : still (ret a). Proof. intro s. reflexivity. Qed.
  Lemma still_fail {A} e : still (@fail A e). Proof. intro s. reflexivity. Qed.
  Lemma still_bind {A B} (m : M A) (f : A -> M B) : still m -> (forall a, still (f a)) -> still (bind m f).
  Proof. intros H K s. unfold bind. specialize (H s). destruct (m s) as [[a| | |] t]; cbn in *; try exact H. rewrite K. exact H. Qed.
  Lemma still_run_in {A} r it (m : M A) : still (run_in r it m).
  Proof. intro s. unfold run_in. destruct (m _). reflexivity. Qed.
  Lemma still_mapM {A} (f : A -> M unit) l : (forall x, still (f x)) -> still (mapM_ f l).
  Proof. intro H. induction l as [|x l IH]; cbn [mapM_]; [apply still_ret | apply still_bind; auto]. Qed.
  Lemma still_sub_it {A} it (m : M A) : still m -> still (sub_it it m).
  Proof. intros H s. unfold sub_it. specialize (H (mkSt (s_rd s) (s_cs s) it)). destruct (m _). cbn in *. exact H. Qed.
  Lemma still_rawData n f : still (rawData n f).
  Proof. intro s. unfold rawData, bind, rdRest, dumpRest. destruct f; [destruct (r_dumpstring _ _)|]; reflexivity. Qed.
  Lemma still_sub_area rec o E t n area : still (sub_area rec o E t n area).
  Proof.
    unfold sub_area. destruct (subpackets area) as [sps ok]. destruct ok; [|apply still_fail].
    apply still_sub_it, still_mapM. intro x. unfold sub_one. apply still_bind; [apply still_run_in | intro; apply still_add].
  Qed.
  Lemma relp_run_in {A B} (Q Q' : bytes -> Prop) (RA : A -> B -> Prop) b i1 i2 m1 m2 :
    weak_inv (r_new b) -> Q' b -> RI i1 i2 -> relp Q' [] RA m1 m2 ->
    rel Q (fun p1 p2 => RA (fst p1) (fst p2) /\ RI (snd p1) (snd p2)) (run_in (r_new b) i1 m1) (run_in (r_new b) i2 m2).
  Proof.
    intros W HQ Hi H s1 s2 (S1 & S2 & S3 & S4 & S5). unfold run_in.
    specialize (H (mkSt (r_new b) (s_cs s1) i1) (mkSt (r_new b) (s_cs s2) i2)).
    destruct H as [H1 H2]; [repeat split; cbn; try assumption; apply W || apply S4|exists b; reflexivity|].
    destruct (m1 _) as [r1 t1], (m2 _) as [r2 t2]. cbn [fst snd] in *.
    destruct r1, r2; cbn in H1; try contradiction; cbn [fst snd rres];
      try (destruct (H2 ltac:(discriminate)) as [(T1 & T2 & T3 & T4 & T5) B']).
    - split; [split; [exact H1 | exact T5]|]. intros _. split; [|reflexivity]. repeat split; cbn; try assumption; apply S2 || apply T4.
    - split; [exact H1|]. intros _. split; [|reflexivity]. repeat split; cbn; try assumption; apply S2 || apply T4.
    - split; [exact H1 | congruence].
  Qed.

  (** ** Nested packets *)
  Section Rec.
  Variables (rec1 rec2 : tagrec) (Qrec : N -> bytes -> Prop).
  (** The data of a compressed packet fits into memory. *)
  Definition dok (a b : option bytes) : Prop := a = b /\ match a with Some d => lenZ d < 2 ^ 62 | None => True end.
  Definition RP (p1 p2 : item * option bytes) : Prop := RI (fst p1) (fst p2) /\ dok (snd p1) (snd p2).
  Hypothesis Hrec : forall tag b c1 c2, Qrec tag b -> RC c1 c2 ->
    rres RP (fst (rec1 tag b c1)) (fst (rec2 tag b c2)) /\
    (fst (rec1 tag b c1) <> RPanic -> RC (snd (rec1 tag b c1)) (snd (rec2 tag b c2))).

  Lemma rel_call_rec Q tag b : Qrec tag b -> rel Q RP (call_rec rec1 tag b) (call_rec rec2 tag b).
  Proof.
    intros HQ s1 s2 (S1 & S2 & S3 & S4 & S5). unfold call_rec. destruct (Hrec tag b (s_cs s1) (s_cs s2) HQ S4) as [H1 H2].
    destruct (rec1 tag b (s_cs s1)) as [r1 c1], (rec2 tag b (s_cs s2)) as [r2 c2]. cbn [fst snd] in *.
    split; [exact H1|]. intro N. specialize (H2 N). split; [|reflexivity]. repeat split; cbn; try assumption; apply S2 || apply H2.
  Qed.
  Ltac leaf3' :=
    lazymatch goal with
    | |- rel _ _ (parsePub _ _) _ => apply rel_parsePub
    | |- rel _ _ (parseSecEnc _ _) _ => apply rel_parseSecEnc
    | |- rel _ _ (parseSecPlain _ _) _ => apply rel_parseSecPlain; assumption
    | |- rel _ _ (parseSes _ _) _ => apply rel_parseSes
    | |- rel _ _ (parseSig _ _) _ => apply rel_parseSig
    | |- rel _ _ (s2k_parse _) _ => apply rel_s2k; fl
    | |- rel _ _ more_flags _ => apply rel_more_flags
    | |- rel _ _ (sub_bool _ _) _ => apply rel_sub_bool; solve [plain_all]
    | |- rel _ _ (addRest _ _) _ => apply rel_addRest; [solve [title_all] | fl]
    | |- rel _ _ newMPI _ => apply rel_newMPI
    | |- rel _ _ newOID _ => apply rel_newOID
    | |- rel _ _ newECParm _ => apply rel_newECParm
    | |- rel _ _ (newDateTime _) _ => apply rel_newDateTime
    | |- rel _ _ (newLiteralFname _) _ => apply rel_fname; rng
    | |- rel _ _ (rawData _ _) _ => apply rel_rawData; [solve [title_all] | fl]
    | |- _ => leaf0
    end.
  Ltac leaf ::= leaf3'.

  (** A sub-packet with the contents [sub]. *)
  Section Sub.
  Variable sub : bytes.
  Let Qsub : bytes -> Prop := eq sub.
  Lemma rel_sub32 : Qrec 2%N sub -> rel Qsub eq (sub32 rec1) (sub32 rec2).
  Proof.
    intro Hemb. unfold sub32. eapply rel_bind; [apply rel_getBody|]. intros a b [-> <-].
    eapply rel_bind; [apply rel_call_rec; exact Hemb|]. intros p1 p2 [H _]. apply rel_add. exact H.
  Qed.

  Lemma weak_rdr_inv r : weak_inv r -> rdr_inv (r_buf r) r.
  Proof. intros [W1 W2]. repeat split; lia. Qed.
  Lemma rdr_left_le r : weak_inv r -> (rdr_left r <= length (r_buf r))%nat.
  Proof. intros [W1 W2]. unfold rdr_left, lenZ in *. lia. Qed.

  (** Reading the next packet of a key block. *)
  Definition all_rec (r : reader) : Prop := forall tag b, cursor_packet E1 r tag b -> Qrec tag b.
  Lemma rel_next_rd s1 s2 : Rst Qsub s1 s2 -> all_rec (s_rd s1) ->
    let '(r1, t1) := next_rd E1 s1 in
    let '(r2, t2) := next_rd E2 s2 in
    r1 = r2 /\ r1 <> RPanic /\ r1 <> RFuel /\ Rst Qsub t1 t2 /\ r_buf (s_rd t1) = r_buf (s_rd s1) /\
    (rdr_left (s_rd t1) <= rdr_left (s_rd s1))%nat /\
    (forall tag b, r1 = ROk (Some (tag, b)) -> Qrec tag b /\ (rdr_left (s_rd t1) < rdr_left (s_rd s1))%nat /\ all_rec (s_rd t1)).
  Proof.
    intros (S1 & S2 & S3 & S4 & S5) AR. unfold next_rd. rewrite <- S1, <- Hgrow.
    pose proof (next_packet_rdr (e_grow E1) (S (S (length (r_buf (s_rd s1))))) (r_buf (s_rd s1)) (s_rd s1)
                  (weak_rdr_inv _ S2) ltac:(pose proof (rdr_left_le _ S2); lia)) as H.
    destruct (next_packet rdr_read (e_grow E1) (S (S (length (r_buf (s_rd s1))))) (s_rd s1)) as [[[[tag b]|e]|] r'] eqn:K.
    - destruct H as ((B' & O' & L') & M' & D').
      assert (weak_inv r') as W by (split; rewrite B'; assumption).
      repeat split; try discriminate; try assumption; try apply W; try apply S4; cbn; try lia.
      + rewrite B'. exact S3.
      + match goal with X : ROk _ = ROk _ |- _ => inversion X; subst end. apply AR. eapply cp_next. exact K.
      + match goal with X : ROk _ = ROk _ |- _ => inversion X; subst end. intros ? ? ?. apply AR. eapply cp_later; [exact K | eassumption].
    - destruct H as ((B' & O' & L') & M' & _).
      assert (weak_inv r') as W by (split; rewrite B'; assumption).
      repeat split; try assumption; try apply W; try apply S4; cbn; try lia; try (rewrite B'; exact S3);
      destruct (rerr_err e); discriminate.
    - destruct H as (_ & _ & []).
  Qed.

  Lemma rel_key_loop fuel : forall s1 s2, Rst Qsub s1 s2 -> all_rec (s_rd s1) -> (rdr_left (s_rd s1) < fuel)%nat ->
    rres eq (fst (key_loop rec1 E1 fuel s1)) (fst (key_loop rec2 E2 fuel s2)) /\
    (fst (key_loop rec1 E1 fuel s1) <> RPanic ->
     Rst Qsub (snd (key_loop rec1 E1 fuel s1)) (snd (key_loop rec2 E2 fuel s2)) /\
     r_buf (s_rd (snd (key_loop rec1 E1 fuel s1))) = r_buf (s_rd s1)).
  Proof.
    induction fuel as [|fuel IH]; intros s1 s2 S AR F; [lia|]. cbn [key_loop].
    pose proof (rel_next_rd s1 s2 S AR) as H. unfold bind at 1 4 7 10 13 16.
    destruct (next_rd E1 s1) as [r1 t1], (next_rd E2 s2) as [r2 t2]. destruct H as (<- & N1 & N2 & T & B & L & P).
    destruct r1 as [[[tag b]|]|e| |]; try congruence.
    - destruct (P tag b eq_refl) as (HQ & Lt & AR'). clear P.
      pose proof (rel_call_rec Qsub tag b HQ t1 t2 T) as K. unfold bind at 1 3 5 7 9 11.
      destruct (call_rec rec1 tag b t1) as [x1 u1], (call_rec rec2 tag b t2) as [x2 u2] eqn:C2. cbn [fst snd] in K.
      destruct K as [K1 K2].
      destruct x1 as [p1| | |], x2 as [p2| | |]; cbn in K1; try contradiction.
      + destruct (K2 ltac:(discriminate)) as [U Bu]. destruct K1 as [K1 _].
        assert (s_rd u1 = s_rd t1) as Ru.
        { clear - U Bu T C2. pose proof T as (T1 & _). pose proof U as (U1 & _). rewrite U1, T1.
          unfold call_rec in C2. destruct (rec2 tag b (s_cs t2)). inversion C2; subst. reflexivity. }
        unfold bind. unfold add, upd.
        specialize (IH (mkSt (s_rd u1) (s_cs u1) (add_child (fst p1) (s_cur u1))) (mkSt (s_rd u2) (s_cs u2) (add_child (fst p2) (s_cur u2)))).
        destruct IH as [I1 I2].
        * destruct U as (U1 & U2 & U3 & U4 & U5). repeat split; cbn; try assumption; try apply U2; try apply U4. apply RI_add; assumption.
        * cbn. rewrite Ru. exact AR'.
        * cbn. rewrite Ru. lia.
        * split; [exact I1|]. intro N. destruct (I2 N) as [I3 I4]. split; [exact I3|]. cbn in I4. congruence.
      + split; [exact K1|]. intros _. destruct (K2 ltac:(discriminate)) as [U Bu]. split; [exact U | cbn; congruence].
      + split; [exact K1 | cbn; congruence].
    - cbn. auto.
    - cbn. auto.
  Qed.

  Lemma rel_sub38 : (forall tag b, key_block_packet E1 sub tag b -> Qrec tag b) -> relp Qsub [] eq (sub38 rec1 o1 E1) (sub38 rec2 o2 E2).
  Proof.
    intro Hkey. unfold sub38. apply relp_byte. intro a. cbn [app].
    eapply (relp_still _ _ eq); [apply relp_rel, rel_add; item | apply still_add|]. intros _ _ _.
    eapply relp_still; [apply relp_rel; leaf | apply still_rawData|]. intros i1 i2 Hi.
    destruct (b2n a =? 0)%N eqn:A0; [|apply relp_rel, rel_add; assumption].
    (* the size is that of the reader *)
    intros s1 s2 SS AT. pose proof SS as (S1 & S2 & S3 & S4 & S5). unfold bind, rdLen.
    assert (all_rec (s_rd s1)) as AR.
    { intros t b Hc. apply Hkey. destruct AT as [rest AT]. rewrite AT in S3, Hc. cbn in S3, Hc.
      assert (a = x00) as -> by (apply b2n_inj; apply N.eqb_eq; exact A0).
      exists rest. unfold Qsub in S3. rewrite S3. split; [reflexivity | exact Hc]. }
    assert (forall z, (rdr_left (s_rd s1) <= Z.to_nat z)%nat ->
      rres RI (fst (sub_it i1 (key_loop rec1 E1 (S (Z.to_nat z))) s1)) (fst (sub_it i2 (key_loop rec2 E2 (S (Z.to_nat z))) s2)) /\
      (fst (sub_it i1 (key_loop rec1 E1 (S (Z.to_nat z))) s1) <> RPanic ->
       Rst Qsub (snd (sub_it i1 (key_loop rec1 E1 (S (Z.to_nat z))) s1)) (snd (sub_it i2 (key_loop rec2 E2 (S (Z.to_nat z))) s2)) /\
       r_buf (s_rd (snd (sub_it i1 (key_loop rec1 E1 (S (Z.to_nat z))) s1))) = r_buf (s_rd s1))) as K.
    { intros z Lz. unfold sub_it.
      destruct (rel_key_loop (S (Z.to_nat z)) (mkSt (s_rd s1) (s_cs s1) i1) (mkSt (s_rd s2) (s_cs s2) i2)) as [K1 K2].
      - repeat split; cbn; try assumption; apply S2 || apply S4.
      - exact AR.
      - cbn [s_rd]. lia.
      - destruct (key_loop rec1 E1 _ _) as [r1 t1], (key_loop rec2 E2 _ _) as [r2 t2]. cbn [fst snd] in *.
        destruct r1, r2; cbn in K1; try contradiction; cbn [fst snd rres];
          try (destruct (K2 ltac:(discriminate)) as [(T1 & T2 & T3 & T4 & T5) B']).
        + split; [exact T5|]. intros _. split; [|exact B']. repeat split; cbn; try assumption; apply T2 || apply T4.
        + split; [exact K1|]. intros _. split; [|exact B']. repeat split; cbn; try assumption; apply T2 || apply T4.
        + split; [exact K1 | congruence]. }
    specialize (K (r_size (s_rd s1)) ltac:(pose proof (rdr_left_le _ S2); unfold r_size, lenZ; lia)).
    rewrite <- S1.
    destruct (sub_it i1 _ s1) as [r1 t1], (sub_it i2 _ s2) as [r2 t2]. cbn [fst snd] in K. destruct K as [K1 K2].
    destruct r1, r2; cbn in K1; try contradiction; cbn [fst snd rres].
    - destruct (K2 ltac:(discriminate)) as [T B']. destruct (rel_add Qsub _ _ K1 _ _ T) as [A1 A2].
      split; [exact A1|]. intro N. destruct (A2 N). split; [assumption | congruence].
    - split; [exact K1|]. intros _. apply K2. discriminate.
    - split; [exact K1 | congruence].
  Qed.

  Lemma rel_sub_m tagid ty :
    (tagid = 2%N -> (b2n ty mod 128 = 32)%N -> Qrec 2%N sub) ->
    (tagid = 2%N -> (b2n ty mod 128 = 38)%N -> forall tag b, key_block_packet E1 sub tag b -> Qrec tag b) ->
    relp Qsub [] eq (sub_m rec1 o1 E1 tagid ty) (sub_m rec2 o2 E2 tagid ty).
  Proof.
    unfold sub_m. cbv zeta. replace (bland ty 127) with (b2n ty mod 128)%N by (symmetry; apply (N.land_ones (b2n ty) 7)).
    generalize (b2n ty mod 128)%N. intro t. intros H32 H38. destruct (tagid =? 2)%N eqn:T.
    - apply N.eqb_eq in T.
      destruct t as [|p]; [apply relp_rel; rgo|].
      do 6 (try (destruct p as [p|p|])); try solve [apply relp_rel; rgo];
      first [ apply relp_rel; first [apply rel_sub02 | apply rel_sub03 | apply rel_sub04 | apply rel_sub05 | apply rel_sub_text | apply rel_sub07 | apply rel_sub09
            | apply rel_sub12 | apply rel_sub16 | apply rel_sub20 | apply rel_sub23 | apply rel_sub25 | apply rel_sub27 | apply rel_sub29
            | apply rel_sub30 | apply rel_sub31 | apply rel_sub32; auto | apply rel_sub_fpr | apply rel_sub37
            | apply rel_sub_algs; intros; item ] | apply rel_sub38; auto ].
    - destruct t as [|[p|p|]]; try solve [apply relp_rel; rgo]. apply relp_rel, rel_sub01.
  Qed.
  (** Attributes. *)
  Lemma rel_attr_m tagid ty : (tagid =? 2)%N = false -> relp Qsub [] eq (sub_m rec1 o1 E1 tagid ty) (sub_m rec2 o2 E2 tagid ty).
  Proof.
    intro T. unfold sub_m. cbv zeta. rewrite T. destruct (bland ty 127) as [|[p|p|]]; try solve [apply relp_rel; rgo]. apply relp_rel, rel_sub01.
  Qed.
  End Sub.

  (** ** Packets with the body [body] *)
  Variable body : bytes.
  Hypothesis Hlen : lenZ body < 2 ^ 62.
  Variable tag : N.
  Hypothesis Hemb : forall b, tag = 2%N -> sig_sub body 32 b -> Qrec 2%N b.
  Hypothesis Hkey : forall b t b', tag = 2%N -> sig_sub body 38 b -> key_block_packet E1 b t b' -> Qrec t b'.
  Hypothesis Hfmt : forall b l, tag = 11%N -> body = b :: l -> RV (litfmt_string b) (litfmt_string b).
  Let Qb : bytes -> Prop := eq body.

  Lemma weak_new b : lenZ b < 2 ^ 62 -> weak_inv (r_new b).
  Proof. intro H. split; cbn [r_new r_buf r_off]; pose proof (lenZ_nonneg b); lia. Qed.

  Lemma rel_sub_area tagid n area : title n -> part area body -> (tagid = 2%N -> tag = 2%N /\ sig_area_of body area) ->
    rel Qb RI (sub_area rec1 o1 E1 tagid n area) (sub_area rec2 o2 E2 tagid n area).
  Proof.
    intros Hn Ha Hs. unfold sub_area. pose proof (subpackets_shorter area) as HL.
    destruct (subpackets area) as [sps ok] eqn:ES. cbn [fst] in *.
    destruct ok; [|apply rel_fail]. eapply rel_sub_it; [item|]. apply rel_mapM. intros [ty b] Hin. unfold sub_one. cbn [fst snd].
    specialize (HL (ty, b) Hin). cbn [snd] in HL.
    eapply rel_bind; [eapply (relp_run_in Qb (eq b) eq); [apply weak_new | reflexivity | item | apply rel_sub_m]|].
    - pose proof (part_len area body Ha). unfold lenZ in *. lia.
    - intros T2 M. destruct (Hs T2) as [Ht Hs']. apply (Hemb b Ht). exists area, sps, ty. auto.
    - intros T2 M t b'. destruct (Hs T2) as [Ht Hs']. apply (Hkey b t b' Ht). exists area, sps, ty. auto.
    - intros p1 p2 [_ H]. apply rel_add. exact H.
  Qed.
  Lemma rel_attr_area tagid n area : title n -> part area body -> (tagid =? 2)%N = false ->
    rel Qb RI (sub_area rec1 o1 E1 tagid n area) (sub_area rec2 o2 E2 tagid n area).
  Proof.
    intros Hn Ha Hs. unfold sub_area. pose proof (subpackets_shorter area) as HL.
    destruct (subpackets area) as [sps ok] eqn:ES. cbn [fst] in *.
    destruct ok; [|apply rel_fail]. eapply rel_sub_it; [item|]. apply rel_mapM. intros [ty b] Hin. unfold sub_one. cbn [fst snd].
    specialize (HL (ty, b) Hin). cbn [snd] in HL.
    eapply rel_bind; [eapply (relp_run_in Qb (eq b) eq); [apply weak_new | reflexivity | item | apply rel_attr_m; exact Hs]|].
    - pose proof (part_len area body Ha). unfold lenZ in *. lia.
    - intros p1 p2 [_ H]. apply rel_add. exact H.
  Qed.
  Lemma rel_sig_area {A B} pre n (RA : A -> B -> Prop) f1 f2 : title n ->
    (forall l area rest, tag = 2%N -> length l = 2%nat -> be l = lenN area -> body = pre ++ l ++ area ++ rest -> sig_area_of body area) -> tag = 2%N ->
    (forall l area, length l = 2%nat -> be l = lenN area -> relp Qb (pre ++ l ++ area) RA (f1 tt) (f2 tt)) ->
    relp Qb pre RA (bind (sig_area rec1 o1 E1 n) f1) (bind (sig_area rec2 o2 E2 n) f2).
  Proof.
    intros Hn Hs Ht Hf. unfold sig_area.
    assert (forall A B C (m : M A) (f : A -> M B) (g : B -> M C) s, bind (bind m f) g s = bind m (fun a => bind (f a) g) s) as AS.
    { intros. unfold bind. destruct (m s) as [[| | |] ?]; reflexivity. }
    intros s1 s2. rewrite !AS. revert s1 s2. change (relp Qb pre RA
      (bind (rdBytes 2) (fun a => bind (let size := be a in if (0 <? size)%N then bind (rdBytes (Z.of_N size)) (fun sp => bind (sub_area rec1 o1 E1 2 n sp) (fun itm => add itm)) else ret tt) f1))
      (bind (rdBytes 2) (fun a => bind (let size := be a in if (0 <? size)%N then bind (rdBytes (Z.of_N size)) (fun sp => bind (sub_area rec2 o2 E2 2 n sp) (fun itm => add itm)) else ret tt) f2))).
    apply relp_bytes; [lia|]. intros l Hl. assert (length l = 2)%nat as Hl2 by (unfold lenZ in Hl; lia). cbv zeta.
    assert (be l < 65536)%N as B2.
    { destruct l as [|a [|b [|? ?]]]; try discriminate. unfold be. cbn [fold_left]. pose proof (b2n_lt a). pose proof (b2n_lt b). lia. }
    destruct (0 <? be l)%N eqn:Z0.
    - intros s1 s2. rewrite !AS. revert s1 s2. change (relp Qb (pre ++ l) RA
        (bind (rdBytes (Z.of_N (be l))) (fun sp => bind (bind (sub_area rec1 o1 E1 2 n sp) (fun itm => add itm)) f1))
        (bind (rdBytes (Z.of_N (be l))) (fun sp => bind (bind (sub_area rec2 o2 E2 2 n sp) (fun itm => add itm)) f2))).
      apply relp_bytes; [lia|]. intros area Hla.
      assert (be l = lenN area) as HA by (unfold lenZ, lenN in *; lia).
      intros s1 s2 SS AT. pose proof SS as (_ & _ & SB & _). unfold Qb in SB.
      assert (exists rest, body = pre ++ l ++ area ++ rest) as [rest Hb].
      { destruct AT as [rest AT]. exists rest. rewrite SB, AT. cbn [r_buf]. rewrite <- !app_assoc. reflexivity. }
      revert s1 s2 SS AT SB.
      assert (relp Qb ((pre ++ l) ++ area) RA (bind (bind (sub_area rec1 o1 E1 2 n area) (fun itm => add itm)) f1)
                (bind (bind (sub_area rec2 o2 E2 2 n area) (fun itm => add itm)) f2)) as G.
      { eapply (relp_still _ _ eq).
        - apply relp_rel. eapply rel_bind; [apply rel_sub_area; [exact Hn | exists (pre ++ l), rest; rewrite Hb, <- app_assoc; reflexivity | intros _; split; [exact Ht | exact (Hs l area rest Ht Hl2 HA Hb)]]|].
          intros. apply rel_add. assumption.
        - apply still_bind; [apply still_sub_area | intro; apply still_add].
        - intros [] [] _. rewrite <- app_assoc. apply Hf; assumption. }
      intros s1 s2 SS AT _. exact (G s1 s2 SS AT).
    - specialize (Hf l [] Hl2 ltac:(unfold lenN; cbn; lia)). rewrite app_nil_r in Hf.
      eapply (relp_still _ _ eq); [apply relp_rel, rel_ret; reflexivity | apply still_ret|]. intros [] [] _. exact Hf.
  Qed.
  Lemma rel_sigV4 v : tag = 2%N -> (b2n v = 4 \/ b2n v = 5)%N -> relp Qb [v] eq (sigV4 rec1 o1 E1) (sigV4 rec2 o2 E2).
  Proof.
    intros Ht Hv. unfold sigV4.
    do 3 (apply relp_byte; let x := fresh "x" in intro x; cbn [app];
          eapply (relp_still _ _ eq); [apply relp_rel, rel_add; item | apply still_add|]; intros _ _ _).
    apply rel_sig_area; [solve [title_all] | | exact Ht |].
    { intros l area rest _ L1 L2 Hb. eapply area_hashed with (rest := rest); [exact Hv | exact L1 | exact L2 | exact Hb]. }
    intros l hashed L1 L2. apply rel_sig_area; [solve [title_all] | | exact Ht |].
    { intros m area rest _ M1 M2 Hb. eapply area_unhashed with (hashed := hashed) (l := l) (m := m) (rest := rest); try eassumption.
      rewrite Hb, <- !app_assoc. reflexivity. }
    intros m area M1 M2. apply relp_rel. rgo.
  Qed.
  Lemma rel_sigV3 : rel Qb eq (sigV3 o1 E1) (sigV3 o2 E2).
  Proof.
    unfold sigV3. rbind. eapply rel_bind; [eapply (rel_child _ eq); [item | rgo]|]. intros _ _ _. rgo.
  Qed.
  Lemma rel_tag02 : tag = 2%N -> relp Qb [] eq (tag02 rec1 o1 E1) (tag02 rec2 o2 E2).
  Proof.
    intro Ht. unfold tag02. apply relp_byte. intro v. cbn [app]. cbv zeta.
    eapply (relp_still _ _ eq); [apply relp_rel, rel_add; item | apply still_add|]. intros _ _ _.
    assert (forall m1 m2, relp Qb [v] eq m1 m2 -> relp Qb [v] eq (bind m1 (fun _ : unit => addRest sUnknownData (oDebug o1))) (bind m2 (fun _ : unit => addRest sUnknownData (oDebug o2)))) as T.
    { intros m1 m2 H s1 s2 SS AT. specialize (H s1 s2 SS AT). unfold bind.
      destruct (m1 s1) as [r1 t1], (m2 s2) as [r2 t2]. cbn [fst snd] in H. destruct H as [H1 H2].
      destruct r1 as [a|e| |], r2 as [b|e'| |]; cbn in H1; try contradiction; cbn [fst snd rres].
      - destruct (H2 ltac:(discriminate)) as [H3 H4].
        destruct (rel_addRest Qb sUnknownData (oDebug o1) (oDebug o2) ltac:(title_all) ltac:(fl) t1 t2 H3) as [K1 K2]. split; [exact K1|].
        intro N. destruct (K2 N) as [K3 K4]. split; [exact K3 | congruence].
      - split; [exact H1|]. intros _. apply H2. discriminate.
      - split; [exact H1|]. congruence. }
    destruct (v_isdraft _) eqn:D; [apply T, rel_sigV4; [exact Ht|]; change ((b2n v =? 5)%N = true) in D; right; apply N.eqb_eq, D|].
    destruct (v_iscur _) eqn:CC; [apply T, rel_sigV4; [exact Ht|]; change ((b2n v =? 4)%N = true) in CC; left; apply N.eqb_eq, CC|].
    apply relp_rel. destruct (_ && _); [|rgo]. eapply rel_bind; [apply rel_catch; apply rel_sigV3|].
    intros x y H. destruct x, y; cbn in H; try contradiction; rgo.
  Qed.
  Lemma rel_tag01 : rel Qb eq (tag01 o1) (tag01 o2). Proof. unfold tag01. rgo. Qed.
  Lemma rel_tag03 : rel Qb eq (tag03 o1) (tag03 o2).
  Proof.
    unfold tag03. rbind. rbind. cbv zeta. rbind. eapply rel_bind; [instantiate (1 := eq); rgo|]. intros _ _ _. rgo.
  Qed.
  Lemma rel_tag04 : rel Qb eq (tag04 o1) (tag04 o2). Proof. unfold tag04. rgo. Qed.
  Lemma rel_keyTime Q : rel Q eq (keyTime o1 E1) (keyTime o2 E2).
  Proof. unfold keyTime. rbind. eapply rel_bind; [apply rel_setKey, HOsome; assumption|]. intros _ _ _. rgo. Qed.
  Lemma rel_keyAlg Q : rel Q eq (keyAlg o1) (keyAlg o2). Proof. unfold keyAlg. rgo. Qed.
  Lemma rel_pub_parse v : rel Qb eq (pub_parse o1 E1 v) (pub_parse o2 E2 v).
  Proof.
    unfold pub_parse, pubV5, pubV4, pubV3.
    destruct (v_isdraft v).
    { eapply rel_bind; [apply rel_keyTime|]. intros _ _ _. eapply rel_bind; [apply rel_keyAlg|]. intros ? p ->. rbind.
      eapply rel_bind; [leaf|]. intros ? b (-> & _ & buf & <- & Hp).
      eapply rel_bind; [eapply (rel_with_rd _ eq); [apply weak_new; pose proof (part_len _ _ Hp); unfold lenZ in *; lia | apply rel_parsePub]|].
      intros. rgo. }
    destruct (v_iscur v).
    { eapply rel_bind; [apply rel_keyTime|]. intros _ _ _. eapply rel_bind; [apply rel_keyAlg|]. intros ? p ->. rgo. }
    destruct (_ && _); [|rgo].
    eapply rel_bind; [apply rel_keyTime|]. intros _ _ _. rbind. rbind. eapply rel_bind; [apply rel_keyAlg|]. intros ? p ->. rgo.
  Qed.
  Lemma rel_tag06 : rel Qb eq (tag06 o1 E1) (tag06 o2 E2).
  Proof. unfold tag06. rbind. cbv zeta. rbind. eapply rel_bind; [apply rel_pub_parse|]. intros. rgo. Qed.

  (** Secret keys: the only place where a panic can arise. *)
  Definition wko {A B} (RA : A -> B -> Prop) (p1 : A * option reader) (p2 : B * option reader) : Prop :=
    RA (fst p1) (fst p2) /\ snd p1 = snd p2 /\ match snd p1 with Some r => weak_inv r | None => True end.
  Lemma rel_opt_run {A B} (RA : A -> B -> Prop) ro m1 m2 :
    match ro with Some r => weak_inv r | None => True end ->
    (forall Q, rel Q RA m1 m2) -> rel Qb (wko RA) (opt_run ro m1) (opt_run ro m2).
  Proof.
    intros W H. unfold opt_run. destruct ro as [r|].
    - eapply rel_bind; [eapply rel_with_rd; [exact W | apply H]|]. intros p1 p2 (H1 & H2 & H3). apply rel_ret. split; [exact H1|]. split; [cbn; congruence | exact H3].
    - eapply rel_bind; [apply H|]. intros a b K. apply rel_ret. repeat split; cbn; auto.
  Qed.
  Definition okro (a b : option (option reader)) : Prop :=
    a = b /\ match a with Some (Some r) => weak_inv r | _ => True end.
  Lemma rel_getField1 v : rel Qb okro (getField1 v) (getField1 v).
  Proof.
    unfold getField1. destruct (_ =? _)%N; [|apply rel_ret; split; cbn; auto]. rbind. destruct (_ =? _)%N; [apply rel_ret; split; cbn; auto|].
    eapply rel_bind; [leaf|]. intros ? b (-> & _ & buf & <- & Hp). apply rel_ret. split; [reflexivity|].
    apply weak_new. pose proof (part_len _ _ Hp). unfold lenZ in *. lia.
  Qed.
  Lemma rel_readLen4 : PP -> rel Qb (eqp Qb 4) readLen4 readLen4.
  Proof.
    intros HP s1 s2 S. unfold readLen4. pose proof (rel_rdBytes Qb 4 ltac:(lia) s1 s2 S) as [H1 H2].
    destruct (rdBytes 4 s1) as [r1 t1], (rdBytes 4 s2) as [r2 t2]. cbn [fst snd] in *.
    destruct r1, r2; cbn in H1; try contradiction; cbn [fst snd rres]; auto.
  Qed.
  Lemma rel_getField2 v : PP -> rel Qb okro (getField2 v) (getField2 v).
  Proof.
    intro HP. unfold getField2. destruct (_ =? _)%N; [|apply rel_ret; split; cbn; auto].
    eapply rel_bind; [apply rel_readLen4; exact HP|]. intros ? l (-> & ? & _).
    destruct (_ =? _)%N; [apply rel_ret; split; cbn; auto|].
    eapply rel_bind; [leaf|]. intros ? b (-> & _ & buf & <- & Hp). apply rel_ret. split; [reflexivity|].
    apply weak_new. pose proof (part_len _ _ Hp). unfold lenZ in *. lia.
  Qed.
  Lemma rel_sec_opts v u ro : match ro with Some r => weak_inv r | None => True end ->
    rel Qb eq (sec_opts o1 v u ro) (sec_opts o2 v u ro).
  Proof.
    intro W. unfold sec_opts.
    eapply rel_bind; [instantiate (1 := wko eq); destruct (negb _);
      [apply rel_opt_run; [exact W | intro; rgo] | apply rel_ret; repeat split; assumption]|].
    intros [s r1] [s' r1'] (K1 & K2 & W1). cbn [fst snd] in K1, K2, W1. subst s' r1'.
    eapply rel_bind; [instantiate (1 := wko eq); destruct (_ =? _)%N;
      [apply rel_opt_run; [exact W1 | intro; rgo] | apply rel_ret; repeat split; assumption]|].
    intros [t r2] [t' r2'] (K1 & K2 & W2). cbn [fst snd] in K1, K2, W2. subst t' r2'.
    eapply rel_bind; [instantiate (1 := wko eq); destruct (_ =? _)%N;
      [apply rel_ret; repeat split; assumption | destruct (usage_s2k _);
        [apply rel_opt_run; [exact W2 | intro; rgo] | apply rel_ret; repeat split; assumption]]|].
    intros [h r3] [h' r3'] (K1 & K2 & W3). cbn [fst snd] in K1, K2, W3. subst h' r3'.
    eapply rel_bind; [instantiate (1 := eq); destruct (_ && _); [|rgo]|].
    - unfold sec_iv. eapply rel_bind; [|intros x y H; apply rel_add; exact H]. 
      eapply rel_bind; [apply rel_rdBytes; unfold sym_ivlen; destruct (_ <=? _)%N; [lia|]; destruct (_ <=? _)%N; lia|].
      intros x y H. rclean. apply rel_ret. destruct (u =? 253)%N; item.
    - intros _ _ _. destruct (_ =? _)%N; [|rgo].
      eapply rel_bind; [apply rel_opt_run; [exact W3 | intro; apply rel_addRest; [solve [title_all] | fl]]|]. intros. rgo.
  Qed.
  Lemma rel_sec_material v p u ro : PP -> match ro with Some r => weak_inv r | None => True end ->
    rel Qb eq (sec_material o1 v p u ro) (sec_material o2 v p u ro).
  Proof.
    intros HP W. unfold sec_material. rbind.
    eapply rel_bind; [instantiate (1 := wko eq); destruct (_ =? _)%N|].
    - eapply rel_bind; [apply rel_opt_run; [exact W | intro; apply rel_parseSecPlain; exact HP]|]. intros p1 p2 K.
      rbind. rbind. apply rel_ret. exact K.
    - apply rel_opt_run; [exact W | intro; apply rel_parseSecEnc].
    - intros [x r1] [x' r1'] (K1 & K2 & W1). cbn [fst snd] in K1, K2, W1. subst x' r1'.
      destruct (_ =? _)%N; [|rgo]. cbn [snd].
      eapply rel_bind; [apply rel_opt_run; [exact W1 | intro; apply rel_addRest; [solve [title_all] | fl]]|]. intros. rgo.
  Qed.
  Lemma rel_tag05 : PP -> rel Qb eq (tag05 o1 E1) (tag05 o2 E2).
  Proof.
    intro HP. unfold tag05. rbind. cbv zeta. rbind.
    eapply rel_bind; [eapply rel_child; [item | apply rel_pub_parse]|]. intros ? p ->.
    eapply rel_bind; [eapply rel_child; [item|]|intros ? ? _; rgo].
    unfold sec_parse. rbind. cbv zeta. eapply rel_bind; [apply rel_getField1|]. intros f1 f1' [<- W1].
    eapply rel_bind; [instantiate (1 := eq); destruct f1 as [ro|]; [apply rel_sec_opts; destruct ro; exact W1 | rgo]|]. intros _ _ _.
    eapply rel_bind; [apply rel_getField2; exact HP|]. intros f2 f2' [<- W2].
    destruct f2 as [ro|]; [apply rel_sec_material; [exact HP | destruct ro; exact W2] | rgo].
  Qed.
  Lemma copy_from_len d out : copy_from d = inl out -> lenZ out < 2 ^ 62.
  Proof.
    unfold copy_from, max_decompressed. destruct d as [|o ok]; [discriminate|]. destruct (2 ^ 30 <=? lenN o)%N eqn:K; [discriminate|].
    destruct ok; [|discriminate]. intros [=->]. rewrite lenZ_lenN. assert (2 ^ 30 < 2 ^ 62)%N by reflexivity. lia.
  Qed.
  Lemma rel_tag08 : rel Qb dok (tag08 o1 E1) (tag08 o2 E2).
  Proof.
    unfold tag08. rbind. rbind. rbind. destruct (_ <? _); [|apply rel_ret; split; reflexivity]. rbind. cbv zeta.
    assert (lenZ (@nil byte) < 2 ^ 62) as L0 by reflexivity.
    destruct (_ =? _)%N.
    { eapply rel_bind; [leaf|]. intros ? z (-> & buf & <- & Hp). rbind. apply rel_ret. split; [reflexivity|].
      pose proof (part_len _ _ Hp). unfold lenZ in *. lia. }
    destruct (_ <=? _)%N; [|rbind; apply rel_ret; split; [reflexivity | exact L0]].
    rbind. rewrite Hinfl.
    destruct (copy_from _) as [out|[|]] eqn:C; [|rbind; apply rel_ret; split; [reflexivity | exact I]|rgo].
    rbind. apply rel_ret. split; [reflexivity | exact (copy_from_len _ _ C)].
  Qed.
  (** The item of the whole body, whose note is its size. *)
  Definition raw_pair (i1 i2 : item) : Prop :=
    exists n d1 d2 z, RN n n /\ RD d1 d2 /\ i1 = Item n [] d1 (n_bytes z) [] /\ i2 = Item n [] d2 (n_bytes z) [].
  Lemma rel_rawPair n f1 f2 : title n -> FL f1 f2 -> rel Qb raw_pair (rawData n f1) (rawData n f2).
  Proof.
    intros Hn HF. unfold rawData. eapply rel_bind; [apply rel_rdRest|]. intros z z' [<- _].
    eapply rel_bind; [apply rel_dumpRest; exact HF|]. intros d1 d2 Hd. apply rel_ret. exists n, d1, d2, z. auto using HNt.
  Qed.
  Lemma rel_tag09 : rel Qb eq (tag09 o1) (tag09 o2).
  Proof.
    unfold tag09. eapply rel_bind; [apply rel_rawPair; [solve [title_all] | fl]|]. intros i1 i2 (n & d1 & d2 & z & Hn & Hd & -> & ->).
    rbind. destruct H as (H & _). eapply rel_bind; [apply rel_add|intros _ _ _; apply rel_setMode].
    constructor; [exact Hn | exact (HVmode _ _ H) | exact Hd | rt | constructor].
  Qed.
  Lemma rel_tag18 : rel Qb eq (tag18 o1) (tag18 o2).
  Proof.
    unfold tag18. eapply rel_bind; [apply rel_rawPair; [solve [title_all] | fl]|]. intros i1 i2 (n & d1 & d2 & z & Hn & Hd & -> & ->).
    rbind. destruct H as (H & _). eapply rel_bind; [apply rel_add|intros _ _ _; apply rel_setMode].
    pose proof (HTmode _ _ z H) as T. destruct (c_mode a), (c_mode b); (constructor; [exact Hn | rv | exact Hd | exact T | constructor]).
  Qed.
  Lemma rel_tag11 : tag = 11%N -> relp Qb [] eq (tag11 o1 E1) (tag11 o2 E2).
  Proof.
    intro Ht. unfold tag11, tag_raw. apply relp_byte. intro f. cbn [app]. intros s1 s2 SS AT.
    assert (RV (litfmt_string f) (litfmt_string f)) as HF.
    { destruct AT as [rest AT]. apply (Hfmt f rest Ht). pose proof SS as (_ & _ & SB & _). unfold Qb in SB. rewrite SB, AT. reflexivity. }
    revert s1 s2 SS AT. match goal with |- forall s1 s2, _ -> _ -> rres _ (fst (?m1 s1)) (fst (?m2 s2)) /\ _ => change (relp Qb [f] eq m1 m2) end.
    apply relp_rel. rgo.
  Qed.
  Lemma rel_tag13 : rel Qb eq (tag13 o1) (tag13 o2).
  Proof. unfold tag13. eapply rel_bind; [leaf|]. intros a b [-> _]. rgo. Qed.
  Lemma rel_tag17 : rel Qb eq (tag17 rec1 o1 E1) (tag17 rec2 o2 E2).
  Proof.
    unfold tag17. eapply rel_bind; [leaf|]. intros a b [-> <-].
    eapply rel_bind; [apply rel_attr_area; [solve [title_all] | apply part_refl | reflexivity]|]. intros. apply rel_add. assumption.
  Qed.
  Lemma rel_tag19 : rel Qb eq (tag19 o1) (tag19 o2). Proof. unfold tag19. rgo. Qed.
  Lemma rel_tag20 : rel Qb eq (tag20 o1) (tag20 o2).
  Proof.
    unfold tag20. do 8 rbind.
    eapply rel_bind; [apply rel_catch; apply rel_rdBytes; unfold aead_ivlen; destruct (b2n _) as [|[p|[p|p|]|]]; lia|].
    intros x y H. destruct x as [x|], y as [y|]; cbn in H; try contradiction; [destruct H as (-> & _)|]; rgo.
  Qed.
  Lemma rel_tag_raw n f1 f2 : title n -> FL f1 f2 -> rel Qb eq (tag_raw n f1) (tag_raw n f2).
  Proof. intros. unfold tag_raw. rgo. Qed.

  Lemma rel_tag_m : (PP \/ (tag <> 5 /\ tag <> 7)%N) -> relp Qb [] dok (tag_m rec1 o1 E1 tag) (tag_m rec2 o2 E2 tag).
  Proof.
    intro HP.
    assert (forall m1 m2, relp Qb [] eq m1 m2 -> relp Qb [] dok (no_data m1) (no_data m2)) as ND.
    { intros m1 m2 H s1 s2 SS AT. specialize (H s1 s2 SS AT). unfold no_data, bind.
      destruct (m1 s1) as [r1 t1], (m2 s2) as [r2 t2]. cbn [fst snd] in H. destruct H as [H1 H2].
      destruct r1 as [a|e| |], r2 as [b|e'| |]; cbn in H1; try contradiction; cbn [fst snd rres ret]; repeat split; try apply H2; auto; congruence. }
    assert (forall m1 m2, rel Qb eq m1 m2 -> relp Qb [] dok (no_data m1) (no_data m2)) as ND'.
    { intros. apply ND, relp_rel. assumption. }
    assert (forall t, t = tag -> relp Qb [] dok (tag_m rec1 o1 E1 t) (tag_m rec2 o2 E2 t)) as G; [|apply G; reflexivity].
    intros t Et. unfold tag_m. destruct t as [|p]; [apply ND'; rgo|].
    do 5 (try (destruct p as [p|p|])); 
    first [ apply ND, rel_tag02; symmetry; exact Et | apply ND, rel_tag11; symmetry; exact Et
          | apply relp_rel, rel_tag08 | apply ND' ]; try solve [apply rel_ret; reflexivity];
    first [ apply rel_tag01 | apply rel_tag03 | apply rel_tag04 | apply rel_tag06
          | apply rel_tag09 | apply rel_tag13 | apply rel_tag17 | apply rel_tag18 | apply rel_tag19 | apply rel_tag20
          | apply rel_tag_raw; [solve [title_all] | fl]
          | apply rel_tag05; destruct HP as [HP|[HP1 HP2]]; [exact HP | congruence] ].
  Qed.

  Theorem rel_tag_body c1 c2 : (PP \/ (tag <> 5 /\ tag <> 7)%N) -> RC c1 c2 ->
    rres RP (fst (tag_body rec1 o1 E1 tag body c1)) (fst (tag_body rec2 o2 E2 tag body c2)) /\
    (fst (tag_body rec1 o1 E1 tag body c1) <> RPanic ->
     RC (snd (tag_body rec1 o1 E1 tag body c1)) (snd (tag_body rec2 o2 E2 tag body c2))).
  Proof.
    intros HP HC. unfold tag_body.
    destruct (rel_tag_m HP (mkSt (r_new body) c1 (tag_item tag body (tag_dumpflag o1 tag)))
                               (mkSt (r_new body) c2 (tag_item tag body (tag_dumpflag o2 tag)))) as [H1 H2].
    - split; [reflexivity|]. split; [apply weak_new; exact Hlen|]. split; [reflexivity|]. split; [exact HC|].
      cbn [s_cur]. apply ri_tag. unfold tag_dumpflag. destruct (_ && _); fl.
    - exists body. reflexivity.
    - destruct (tag_m rec1 o1 E1 tag _) as [r1 s1], (tag_m rec2 o2 E2 tag _) as [r2 s2]. cbn [fst snd] in *.
      destruct r1, r2; cbn in H1; try contradiction; cbn [fst snd rres];
        try (destruct (H2 ltac:(discriminate)) as [(T1 & T2 & T3 & T4 & T5) B']).
      + split; [split; [exact T5 | exact H1] | intros _; exact T4].
      + split; [exact H1 | intros _; exact T4].
      + split; [exact H1 | congruence].
  Qed.
  (** Packets whose item does not depend on earlier packets. *)
  Lemma rel_tag_m_free : tag <> 2%N -> tag <> 9%N -> tag <> 18%N -> (PP \/ (tag <> 5 /\ tag <> 7)%N) -> relp Qb [] dok (tag_m rec1 o1 E1 tag) (tag_m rec2 o2 E2 tag).
  Proof.
    intros X2 X9 X18 HP.
    assert (forall m1 m2, relp Qb [] eq m1 m2 -> relp Qb [] dok (no_data m1) (no_data m2)) as ND.
    { intros m1 m2 H s1 s2 SS AT. specialize (H s1 s2 SS AT). unfold no_data, bind.
      destruct (m1 s1) as [r1 t1], (m2 s2) as [r2 t2]. cbn [fst snd] in H. destruct H as [H1 H2].
      destruct r1 as [a|e| |], r2 as [b|e'| |]; cbn in H1; try contradiction; cbn [fst snd rres ret]; repeat split; try apply H2; auto; congruence. }
    assert (forall m1 m2, rel Qb eq m1 m2 -> relp Qb [] dok (no_data m1) (no_data m2)) as ND'.
    { intros. apply ND, relp_rel. assumption. }
    assert (forall t, t = tag -> relp Qb [] dok (tag_m rec1 o1 E1 t) (tag_m rec2 o2 E2 t)) as G; [|apply G; reflexivity].
    intros t Et. unfold tag_m. destruct t as [|p]; [apply ND'; rgo|].
    do 5 (try (destruct p as [p|p|])); 
    first [ congruence | apply ND, rel_tag11; symmetry; exact Et
          | apply relp_rel, rel_tag08 | apply ND' ]; try solve [apply rel_ret; reflexivity];
    first [ apply rel_tag01 | apply rel_tag03 | apply rel_tag04 | apply rel_tag06
          | apply rel_tag13 | apply rel_tag17 | apply rel_tag19 | apply rel_tag20
          | apply rel_tag_raw; [solve [title_all] | fl]
          | apply rel_tag05; destruct HP as [HP|[HP1 HP2]]; [exact HP | congruence] ].
  Qed.

  Theorem rel_tag_body_free c1 c2 : tag <> 2%N -> tag <> 9%N -> tag <> 18%N -> (PP \/ (tag <> 5 /\ tag <> 7)%N) -> RC c1 c2 ->
    rres RP (fst (tag_body rec1 o1 E1 tag body c1)) (fst (tag_body rec2 o2 E2 tag body c2)) /\
    (fst (tag_body rec1 o1 E1 tag body c1) <> RPanic ->
     RC (snd (tag_body rec1 o1 E1 tag body c1)) (snd (tag_body rec2 o2 E2 tag body c2))).
  Proof.
    intros X2 X9 X18 HP HC. unfold tag_body.
    destruct (rel_tag_m_free X2 X9 X18 HP (mkSt (r_new body) c1 (tag_item tag body (tag_dumpflag o1 tag)))
                               (mkSt (r_new body) c2 (tag_item tag body (tag_dumpflag o2 tag)))) as [H1 H2].
    - split; [reflexivity|]. split; [apply weak_new; exact Hlen|]. split; [reflexivity|]. split; [exact HC|].
      cbn [s_cur]. apply ri_tag. unfold tag_dumpflag. destruct (_ && _); fl.
    - exists body. reflexivity.
    - destruct (tag_m rec1 o1 E1 tag _) as [r1 s1], (tag_m rec2 o2 E2 tag _) as [r2 s2]. cbn [fst snd] in *.
      destruct r1, r2; cbn in H1; try contradiction; cbn [fst snd rres];
        try (destruct (H2 ltac:(discriminate)) as [(T1 & T2 & T3 & T4 & T5) B']).
      + split; [split; [exact T5 | exact H1] | intros _; exact T4].
      + split; [exact H1 | intros _; exact T4].
      + split; [exact H1 | congruence].
  Qed.
  End Rec.
End Rel.
