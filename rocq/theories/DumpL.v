(** * DumpL: no dump is longer than three octets for each octet of the packet it is part of. *)
From Coq Require Import Strings.String Strings.Byte List NArith ZArith Bool Arith Lia ZifyBool ZifyN ZifyNat.
From Verif Require Import Base Item Reader Context Env Values Opaque Monad Pubkey S2k Subs Tags Parse.
From Verif Require Import SpecBase SpecParse BaseL ReaderL FrameL SpecSize SpecDump SizeL SizePL.
Import ListNotations.
Local Open Scope Z_scope.

Definition dw (i : item) : Z := Z.of_nat (longest_dump i).
Lemma dw_pos i : 0 <= dw i.
Proof. unfold dw. lia. Qed.
Lemma dw_leaf i : i_items i = [] -> dw i = lenZ (i_dump i).
Proof. destruct i. cbn [i_items i_dump]. intros ->. unfold dw. cbn [longest_dump map]. unfold lenZ. change (list_max (@nil nat)) with 0%nat. lia. Qed.
Lemma dw_add c i : dw (add_child c i) = Z.max (dw i) (dw c).
Proof.
  destruct i as [n v d t l]. unfold dw. cbn [add_child longest_dump]. rewrite map_app. cbn [map].
  assert (forall l x, list_max (l ++ [x]) = Nat.max (list_max l) x) as H.
  { clear. induction l as [|y l IH]; intro x; cbn [app]; change (list_max (?a :: ?b)) with (Nat.max a (list_max b)); [change (list_max (@nil nat)) with 0%nat; lia|]. rewrite IH. lia. }
  rewrite H. lia.
Qed.
Lemma dw_w i x : dw (w_name x i) = dw i /\ dw (w_value x i) = dw i /\ dw (w_note x i) = dw i /\ dw (w_dump x i) <= Z.max (dw i) (lenZ x).
Proof. destruct i. repeat split. unfold dw. cbn [w_dump longest_dump]. unfold lenZ. lia. Qed.
Lemma list_max_in (l : list nat) x : In x l -> (x <= list_max l)%nat.
Proof. induction l as [|y l IH]; intro H; [destruct H|]. change (list_max (y :: l)) with (Nat.max y (list_max l)). destruct H as [->|H]; [lia|]. specialize (IH H). lia. Qed.

Section Within.
Variable L : Z.
Hypothesis L1 : 1 <= L.
Hypothesis L62 : L < 2 ^ 62.

Definition narrow {A} (m : M A) (P : A -> Prop) : Prop := forall s, weak_inv (s_rd s) -> lenZ (r_buf (s_rd s)) <= L -> dw (s_cur s) <= 3 * L ->
  let '(r, s') := m s in
  match r with
  | ROk a => weak_inv (s_rd s') /\ lenZ (r_buf (s_rd s')) <= L /\ dw (s_cur s') <= 3 * L /\ P a
  | RErr _ => weak_inv (s_rd s') /\ lenZ (r_buf (s_rd s')) <= L /\ dw (s_cur s') <= 3 * L
  | _ => True
  end.
Definition in_l (d : bytes) : Prop := lenZ d <= L.
Definition in_3 (d : bytes) : Prop := lenZ d <= 3 * L.
Definition leafy (i : item) : Prop := i_items i = [] /\ in_3 (i_dump i).
Lemma na_post {A} (m : M A) (P Q : A -> Prop) : narrow m P -> (forall a, P a -> Q a) -> narrow m Q.
Proof. intros H W s I J D. specialize (H s I J D). destruct (m s) as [[a|e| |] s']; auto. destruct H as (? & ? & ? & ?). auto. Qed.
Lemma na_bind {A B} (m : M A) (f : A -> M B) P Q : narrow m P -> (forall a, P a -> narrow (f a) Q) -> narrow (bind m f) Q.
Proof.
  intros H K s I J D. specialize (H s I J D). unfold bind. destruct (m s) as [[a|e| |] s']; auto. destruct H as (H1 & H2 & H3 & H4). exact (K a H4 s' H1 H2 H3).
Qed.
Lemma na_ret {A} (a : A) (P : A -> Prop) : P a -> narrow (ret a) P.
Proof. intros H s I J D. unfold ret. auto. Qed.
Lemma na_fail {A} e (P : A -> Prop) : narrow (fail e) P.
Proof. intros s I J D. unfold fail. auto. Qed.
Lemma na_rd {A} (f : reader -> res A * reader) (P : A -> Prop) :
  (forall r, weak_inv r -> lenZ (r_buf r) <= L -> match f r with (ROk a, r') => weak_inv r' /\ r_buf r' = r_buf r /\ P a | (RErr _, r') => r' = r | _ => True end) -> narrow (on_rd f) P.
Proof.
  intros H s I J D. specialize (H (s_rd s) I J). unfold on_rd. destruct (f (s_rd s)) as [[a|e| |] r']; auto; cbn [s_rd s_cur].
  - destruct H as (H1 & H2 & H3). rewrite H2. auto.
  - subst r'. auto.
Qed.
Lemma na_bytes n : narrow (rdBytes n) (fun d => got n d /\ in_l d).
Proof.
  apply na_rd. intros r I J. pose proof (readbytes_spends n r I) as H. assert (match r_readbytes n r with (ROk d, r') => r_buf r' = r_buf r | _ => True end) as B.
  { unfold r_readbytes. destruct (n =? 0); [reflexivity|]. destruct (_ >=? _); [exact Logic.I|]. cbv zeta. destruct (_ >? _); [exact Logic.I|]. destruct (_ || _); [exact Logic.I|reflexivity]. }
  destruct (r_readbytes n r) as [[d|e| |] r']; auto. destruct H as (H1 & H2 & H3). split; [auto|]. split; [auto|]. split; [auto|]. unfold in_l. pose proof (lft_pos r'). unfold lft in H2 at 2.
  destruct I. lia.
Qed.
Lemma na_byte : narrow rdByte any.
Proof.
  apply na_rd. intros r I J. unfold r_readbyte. pose proof (readbytes_spends 1 r I) as H. assert (match r_readbytes 1 r with (ROk d, r') => r_buf r' = r_buf r | _ => True end) as B.
  { unfold r_readbytes. cbn [Z.eqb]. destruct (_ >=? _); [exact Logic.I|]. cbv zeta. destruct (_ >? _); [exact Logic.I|]. destruct (_ || _); [exact Logic.I|reflexivity]. }
  destruct (r_readbytes 1 r) as [[d|e| |] r']; auto. destruct H as (H1 & H2 & _ & _ & H3). specialize (H3 ltac:(lia)). destruct d as [|b d]; [discriminate H3|]. split; [auto|]. split; [auto|exact Logic.I].
Qed.
Lemma na_2eof : narrow rd2EOF in_l.
Proof.
  apply na_rd. intros r [I1 I2] J. unfold r_read2eof, r_size. destruct (r_off r >=? lenZ (r_buf r)) eqn:O; [reflexivity|]. destruct (r_off r <? 0) eqn:Q; [exact I|].
  unfold weak_inv. cbn [r_buf r_off]. rewrite wrap64_small by lia. split; [lia|]. split; [reflexivity|]. unfold in_l, lenZ in *. rewrite skipn_length. lia.
Qed.
Lemma na_seek3 : narrow (rdSeek (-3) 1) any.
Proof.
  apply na_rd. intros r I J. pose proof (sp_seek3 36 (Z.le_refl 36) (mkSt r cst_init (Item [] [] [] [] [])) I) as H. unfold rdSeek, on_rd in H. cbn [s_rd] in H.
  assert (r_buf (snd (r_seek (-3) 1 r)) = r_buf r) as B by (unfold r_seek; repeat destruct (_ =? _); try destruct (_ || _); reflexivity).
  assert (forall e, fst (r_seek (-3) 1 r) = RErr e -> snd (r_seek (-3) 1 r) = r) as Q. { unfold r_seek. intro e. repeat destruct (_ =? _); try destruct (_ || _); cbn; intro; congruence. }
  destruct (r_seek (-3) 1 r) as [[a|e| |] r']; auto; cbn [fst snd] in *; [|exact (Q e eq_refl)]. destruct H as (H & _). split; [exact H|]. split; [exact B|exact Logic.I].
Qed.
Lemma na_seek_end : narrow (rdSeek 0 2) any.
Proof.
  apply na_rd. intros r I J. pose proof (sp_seek_end 0 (Z.le_refl 0) (mkSt r cst_init (Item [] [] [] [] [])) I) as H. unfold rdSeek, on_rd in H. cbn [s_rd] in H.
  assert (r_buf (snd (r_seek 0 2 r)) = r_buf r) as B by (unfold r_seek; repeat destruct (_ =? _); try destruct (_ || _); reflexivity).
  assert (forall e, fst (r_seek 0 2 r) = RErr e -> snd (r_seek 0 2 r) = r) as Q. { unfold r_seek. intro e. repeat destruct (_ =? _); try destruct (_ || _); cbn; intro; congruence. }
  destruct (r_seek 0 2 r) as [[a|e| |] r']; auto; cbn [fst snd] in *; [|exact (Q e eq_refl)]. destruct H as (H & _). split; [exact H|]. split; [exact B|exact Logic.I].
Qed.
Lemma na_quiet {A} (m : M A) : quiet m -> narrow m any.
Proof. intros Q s I J D. destruct (Q s) as [Q1 Q2]. destruct (m s) as [[a|e| |] s']; cbn [snd] in *; auto; rewrite Q1, Q2; auto. split; [auto|]. split; [auto|]. split; [auto|exact Logic.I]. Qed.
Lemma q_rest : quiet rdRest. Proof. intro s. split; reflexivity. Qed.
Lemma q_len : quiet rdLen. Proof. intro s. split; reflexivity. Qed.
Lemma q_name : quiet curName. Proof. intro s. split; reflexivity. Qed.
Lemma na_body : narrow getBody in_l.
Proof. intros s I J D. unfold getBody, r_body. auto. Qed.
Lemma na_dumpRest f : narrow (dumpRest f) in_3.
Proof.
  intros s I J D. pose proof (dump_rest f s I) as H. assert (snd (dumpRest f s) = s) as S by (unfold dumpRest; destruct f; reflexivity).
  destruct (dumpRest f s) as [[d|e| |] s']; cbn [snd] in S; subst; auto. destruct H as [_ H]. split; [auto|]. split; [auto|]. split; [auto|]. unfold in_3. unfold lft in H. destruct I. lia.
Qed.
(** Items. *)
Lemma na_add i : dw i <= 3 * L -> narrow (add i) any.
Proof. intros H s I J D. unfold add, upd. cbn [s_rd s_cur]. rewrite dw_add. split; [auto|]. split; [auto|]. split; [lia|exact Logic.I]. Qed.
Lemma na_addo v x : narrow (addo (flag_item v x)) any.
Proof.
  intros s I J D. unfold addo, upd, flag_item. cbn [s_rd s_cur]. destruct (v =? 0)%N; cbn [add_opt]; [split; [auto|split; [auto|split; [lia|exact Logic.I]]]|].
  rewrite dw_add. match goal with |- context [Z.max _ (dw ?x)] => rewrite (dw_leaf x) by reflexivity end. unfold it_nv. cbn [i_dump]. change (@lenZ byte []) with 0. split; [auto|]. split; [auto|]. split; [lia|exact Logic.I].
Qed.
Ltac ok := split; [auto|split; [auto|split; [auto|exact Logic.I]]].
Lemma na_note x : narrow (setNote x) any.
Proof. intros s I J D. unfold setNote, upd. cbn [s_rd s_cur]. rewrite (proj1 (proj2 (proj2 (dw_w _ _)))). ok. Qed.
Lemma na_value x : narrow (setValue x) any.
Proof. intros s I J D. unfold setValue, upd. cbn [s_rd s_cur]. rewrite (proj1 (proj2 (dw_w _ _))). ok. Qed.
Lemma na_dump x : lenZ x <= 3 * L -> narrow (setDump x) any.
Proof. intros X s I J D. unfold setDump, upd. cbn [s_rd s_cur]. pose proof (proj2 (proj2 (proj2 (dw_w (s_cur s) x)))). split; [auto|]. split; [auto|]. split; [lia|exact Logic.I]. Qed.
Lemma na_put i : dw i <= 3 * L -> narrow (putCur i) any.
Proof. intros H s I J D. unfold putCur, upd. cbn [s_rd s_cur]. ok. Qed.
(** Combinators. *)
Lemma na_child {A} it (m : M A) P : dw it <= 3 * L -> narrow m P -> narrow (child it m) P.
Proof.
  intros T H s I J D. specialize (H (mkSt (s_rd s) (s_cs s) it) I J T). unfold child. destruct (m _) as [[a|e| |] s']; auto; cbn [s_rd s_cur] in *; rewrite dw_add.
  - destruct H as (? & ? & ? & ?). split; [auto|]. split; [auto|]. split; [lia|auto].
  - destruct H as (? & ? & ?). split; [auto|]. split; [auto|lia].
Qed.
Lemma na_sub {A} it (m : M A) P : dw it <= 3 * L -> narrow m P -> narrow (sub_it it m) (fun i => dw i <= 3 * L).
Proof.
  intros T H s I J D. specialize (H (mkSt (s_rd s) (s_cs s) it) I J T). unfold sub_it. destruct (m _) as [[a|e| |] s']; auto; cbn [s_rd s_cur] in *.
  - destruct H as (? & ? & ? & ?). auto.
  - destruct H as (? & ? & ?). auto.
Qed.
Lemma na_catch {A} (m : M A) P : narrow m P -> narrow (catchM m) (fun x => match x with Some a => P a | None => True end).
Proof.
  intros H s I J D. specialize (H s I J D). unfold catchM. destruct (m s) as [[a|e| |] s']; auto. destruct H as (? & ? & ?). auto.
Qed.
Definition wn (r : reader) : Prop := weak_inv r /\ lenZ (r_buf r) <= L.
Definition own (ro : option reader) : Prop := match ro with Some r => wn r | None => True end.
Lemma na_with {A} r (m : M A) P : wn r -> narrow m P -> narrow (with_rd r m) (fun p => wn (snd p)).
Proof.
  intros [W1 W2] H s I J D. specialize (H (mkSt r (s_cs s) (s_cur s)) W1 W2 D). unfold with_rd. destruct (m _) as [[a|e| |] s']; auto; cbn [s_rd s_cur fst snd] in *.
  - destruct H as (? & ? & ? & ?). split; [auto|]. split; [auto|]. split; [auto|]. split; auto.
  - destruct H as (? & ? & ?). auto.
Qed.
Lemma na_opt {A} ro (m : M A) P : own ro -> narrow m P -> narrow (opt_run ro m) (fun p => own (snd p)).
Proof.
  intros W H. destruct ro as [r|]; cbn [opt_run own] in *.
  - eapply na_bind; [exact (na_with r m P W H)|]. intros [a r'] K. apply na_ret. exact K.
  - eapply na_bind; [exact H|]. intros a _. apply na_ret. exact I.
Qed.
Lemma new_wn b : in_l b -> wn (r_new b).
Proof. intro H. unfold in_l in H. split; [apply new_weak; lia|exact H]. Qed.

(** Proof search. *)
Lemma bd_byte b f : lenZ (dump_byte b f) <= 3 * L. Proof. pose proof (dump_byte_len b f). lia. Qed.
Lemma bd_bytes l f : lenZ l <= L -> lenZ (dump_bytes l f) <= 3 * L. Proof. pose proof (dump_bytes_len l f). lia. Qed.
Lemma bd_nil : @lenZ byte [] <= 3 * L. Proof. change (@lenZ byte []) with 0. lia. Qed.
Lemma dw_leafy i : leafy i -> dw i <= 3 * L. Proof. intros [H1 H2]. rewrite (dw_leaf i H1). exact H2. Qed.
Lemma bd_hex2 b : lenZ (hex2 b) <= 3 * L. Proof. change (lenZ (hex2 b)) with 2. lia. Qed.
Ltac bound := cbn [i_dump w_name w_value w_note]; unfold in_3, in_l in *;
  first [apply bd_byte | apply bd_hex2 | apply bd_nil | assumption | apply bd_bytes; first [assumption | match goal with H : _ /\ _ |- _ => apply H end | lia]].
Ltac one := first [assumption | apply dw_leafy; assumption |
  cbv delta [v_item keyid_item pub_item sig_item hash_item sym_item aead_item comp_item s2k_item salt_item stretch_item
    dt_item filetime_item pubkeytime_item sigtime_item expire_item oid_item ecparm_item mpi_item litfmt_item text_item hashleft_item it_nv it_nd] beta zeta;
  repeat match goal with
         | |- context [dw (if ?x then _ else _)] => destruct x
         | |- context [dw (match ?x with _ => _ end)] => destruct x
         end; rewrite dw_leaf by reflexivity; bound].
Ltac prim2 := fail.
Ltac prim := lazymatch goal with
  | |- narrow rdByte _ => apply na_byte
  | |- narrow (rdBytes _) _ => apply na_bytes
  | |- narrow rd2EOF _ => apply na_2eof
  | |- narrow (rdSeek (-3) 1) _ => apply na_seek3
  | |- narrow (rdSeek 0 2) _ => apply na_seek_end
  | |- narrow getBody _ => apply na_body
  | |- narrow rdRest _ => apply (na_quiet _ q_rest)
  | |- narrow rdLen _ => apply (na_quiet _ q_len)
  | |- narrow curName _ => apply (na_quiet _ q_name)
  | |- narrow getCs _ => apply (na_quiet _ q_cs)
  | |- narrow (setMode ?x) _ => apply (na_quiet _ (q_mode x))
  | |- narrow (setSig ?x) _ => apply (na_quiet _ (q_sig x))
  | |- narrow (setKey ?x) _ => apply (na_quiet _ (q_key x))
  | |- narrow (dumpRest _) _ => apply na_dumpRest
  | |- narrow (add _) _ => apply na_add; one
  | |- narrow (addo _) _ => apply na_addo
  | |- narrow (setNote _) _ => apply na_note
  | |- narrow (setValue _) _ => apply na_value
  | |- narrow (setDump _) _ => apply na_dump; bound
  | |- narrow (putCur _) _ => apply na_put; one
  | |- _ => prim2
  end.
Ltac fin := eapply na_post; [prim | cbv beta; intros; try exact I; try assumption; try match goal with H : got _ _ /\ _ |- _ => apply H end].
Ltac dp := lazymatch goal with
  | |- narrow (bind _ _) _ => try (eapply na_bind; [first [prim | dp] | ]; let a := fresh "a" in let H := fresh "H" in intros a H; cbv beta in *; dp)
  | |- narrow (ret _) _ => apply na_ret; try exact I; auto
  | |- narrow (fail _) _ => apply na_fail
  | |- narrow (if ?b then _ else _) _ => let E := fresh "E" in destruct b eqn:E; dp
  | |- _ => try fin
  end.

Lemma na_raw n f : narrow (rawData n f) leafy.
Proof. unfold rawData. dp. split; [reflexivity|assumption]. Qed.
Ltac prim2 ::= lazymatch goal with |- narrow (rawData _ _) _ => apply na_raw end.
Lemma na_addRest n f : narrow (addRest n f) any.
Proof. unfold addRest. dp. Qed.
Lemma na_mpi : narrow newMPI (fun m => in_l (m_data m)).
Proof. unfold newMPI. dp. cbn [m_data]. apply H0. Qed.
Lemma na_oid : narrow newOID in_l.
Proof. unfold newOID. dp. unfold in_l. change (@lenZ byte []) with 0. lia. Qed.
Lemma na_dt u : narrow (newDateTime u) (fun d => in_l (dt_tm d)).
Proof. unfold newDateTime. dp. cbn [dt_tm]. apply H. Qed.
Lemma na_fname n : narrow (newLiteralFname n) in_l.
Proof. unfold newLiteralFname. dp. unfold in_l. change (@lenZ byte []) with 0. lia. Qed.
Lemma na_ecparm : narrow newECParm in_l.
Proof.
  assert (in_l []) as N by (unfold in_l; change (@lenZ byte []) with 0; lia).
  intros s W J D. unfold newECParm. pose proof (na_byte s W J D) as H. destruct (rdByte s) as [[b|e| |] s']; auto.
  - destruct H as (H1 & H2 & H3 & _). destruct (b2n b =? 0)%N; [auto|].
    pose proof (na_bytes (Z.of_N (b2n b)) s' H1 H2 H3) as K. destruct (rdBytes _ s') as [[d|e| |] s'']; auto. destruct K as (? & ? & ? & ? & ?). auto.
  - destruct H as (? & ? & ?). auto.
Qed.
Ltac prim2 ::= lazymatch goal with
  | |- narrow newMPI _ => apply na_mpi
  | |- narrow newOID _ => apply na_oid
  | |- narrow (newDateTime _) _ => apply na_dt
  | |- narrow (newLiteralFname _) _ => apply na_fname
  | |- narrow newECParm _ => apply na_ecparm
  | |- narrow (rawData _ _) _ => apply na_raw
  | |- narrow (addRest _ _) _ => apply na_addRest
  end.
Lemma kdf_dump o ep : in_l ep -> dw (kdf_item o ep) <= 3 * L.
Proof.
  intro H. unfold kdf_item. destruct ep as [|e0 [|e1 [|e2 t]]]; cbv zeta; try (destruct (b2n e0 =? 1)%N); rewrite ?dw_add, ?(proj1 (proj2 (dw_w _ _)));
    repeat (apply Z.max_lub); one.
Qed.
Lemma na_ecdh o : narrow (ecdhPub o) any.
Proof.
  unfold ecdhPub, addOID, addPoint. do 2 (eapply na_bind; [dp|]; intros ? _; cbv beta). eapply na_bind; [prim|]. intros ep H. cbv beta. apply na_add, kdf_dump, H.
Qed.
Lemma na_pub o p : narrow (parsePub o p) any.
Proof.
  unfold parsePub. eapply na_bind; [prim|]. intros z _. cbv beta.
  repeat match goal with |- narrow (if ?b then _ else _) _ => destruct b end; try (apply na_ecdh);
    unfold rsaPub, dsaPub, elgPub, ecdsaPub, eddsaPub, addMPI, addOID, addPoint, addSized; dp.
Qed.
Lemma na_secenc o p : narrow (parseSecEnc o p) any.
Proof. unfold parseSecEnc, addSized. dp. Qed.
Lemma na_secplain o p : narrow (parseSecPlain o p) any.
Proof. unfold parseSecPlain, rsaSec, unknownSec, addMPI. dp. Qed.
Lemma na_ses o p : narrow (parseSes o p) any.
Proof. unfold parseSes, addMPI, addPoint, addSized. dp. Qed.
Lemma na_sig o p : narrow (parseSig o p) any.
Proof. unfold parseSig, addMPI, addPoint, addSized. dp. Qed.

(** String-to-key specifiers. *)
Lemma na_s2k_fields id f : narrow (s2k_fields id f) any.
Proof.
  unfold s2k_fields. cbv zeta. destruct (_ || _ || _); [dp|]. destruct (_ =? 101)%N; [|dp]. eapply na_bind; [prim|]. intros z _. cbv beta. destruct (z <? 4); [dp|].
  eapply na_bind; [prim|]. intros mrk G. cbv beta. destruct (beqs mrk _); [|dp].
  eapply na_bind; [prim|]. intros c _. cbv beta. cbv zeta. eapply na_bind with (P := fun g => dw g <= 3 * L).
  { destruct (_ =? 1002)%N; [|apply na_ret; one]. eapply na_bind; [prim|]. intros l _. cbv beta. eapply na_bind; [prim|]. intros ser G'. cbv beta. apply na_ret.
    rewrite dw_add. apply Z.max_lub; one. }
  intros g Hg. cbv beta in *. dp.
Qed.
Lemma na_s2k f : narrow (s2k_parse f) any.
Proof. unfold s2k_parse. eapply na_bind; [prim|]. intros ss _. cbv beta. apply na_child; [one|]. apply na_s2k_fields. Qed.

(** Keys. *)
Lemma na_pub_parse o E v : narrow (pub_parse o E v) any.
Proof.
  unfold pub_parse, pubV5, pubV4, pubV3, keyTime, keyAlg. destruct (v_isdraft v); [|destruct (v_iscur v); [|destruct (_ && _)]]; [..|dp].
  - eapply na_bind; [dp|]. intros ? _. cbv beta. eapply na_bind with (P := any); [dp|]. intros p _. cbv beta. do 2 (eapply na_bind; [prim|]; intros ? ?; cbv beta in *).
    eapply na_bind; [eapply na_with; [apply new_wn; tauto|apply na_pub]|]. intros q _. cbv beta. dp.
  - eapply na_bind; [dp|]. intros ? _. cbv beta. eapply na_bind with (P := any); [dp|]. intros p _. cbv beta. eapply na_bind; [apply na_pub|]. intros ? _. cbv beta. dp.
  - eapply na_bind; [dp|]. intros ? _. cbv beta. do 2 (eapply na_bind; [prim|]; intros ? ?; cbv beta in *). eapply na_bind with (P := any); [dp|]. intros p _. cbv beta.
    eapply na_bind; [apply na_pub|]. intros ? _. cbv beta. dp.
Qed.
Definition rwn (f : option (option reader)) : Prop := match f with Some ro => own ro | None => True end.
Lemma na_field1 v : narrow (getField1 v) rwn.
Proof.
  unfold getField1. destruct (_ =? 5)%N; [|apply na_ret; exact I]. eapply na_bind; [prim|]. intros l _. cbv beta. destruct (_ =? 0)%N; [apply na_ret; exact I|].
  eapply na_bind; [prim|]. intros b G. cbv beta. apply na_ret. apply new_wn, G.
Qed.
Lemma na_field2 v : narrow (getField2 v) rwn.
Proof.
  unfold getField2. destruct (_ =? 5)%N; [|apply na_ret; exact I]. eapply na_bind with (P := any).
  { intros s W J D. unfold readLen4. pose proof (na_bytes 4 s W J D) as H. destruct (rdBytes 4 s) as [[b|e| |] s']; auto. destruct H as (? & ? & ? & ?). ok. }
  intros l _. cbv beta. destruct (_ =? 0)%N; [apply na_ret; exact I|]. eapply na_bind; [prim|]. intros b G. cbv beta. apply na_ret. apply new_wn, G.
Qed.
Lemma na_sec_opts o v u ro : own ro -> narrow (sec_opts o v u ro) any.
Proof.
  intros W. unfold sec_opts. eapply na_bind with (P := fun p => own (snd p)).
  { destruct (negb _); [|apply na_ret; exact W]. eapply na_opt; [exact W|]. instantiate (1 := any). dp. }
  intros [symid ro1] W1. cbv beta. cbn [snd] in W1. eapply na_bind with (P := fun p => own (snd p)).
  { destruct (u =? 253)%N; [|apply na_ret; exact W1]. eapply na_opt; [exact W1|]. instantiate (1 := any). dp. }
  intros [u2 ro2] W2. cbv beta. cbn [snd] in W2. eapply na_bind with (P := fun p => own (snd p)).
  { destruct (u =? 0)%N; [apply na_ret; exact W2|]. destruct (usage_s2k u); [|apply na_ret; exact W2]. eapply na_opt; [exact W2|apply na_s2k]. }
  intros [iv ro3] W3. cbv beta. cbn [snd] in W3. eapply na_bind with (P := any).
  { destruct (_ && _); [|dp]. unfold sec_iv. eapply na_bind with (P := fun i => dw i <= 3 * L); [dp; one|]. intros i Hi. cbv beta in *. dp. }
  intros ? _. cbv beta. destruct (_ =? 5)%N; [|dp]. eapply na_bind; [eapply na_opt; [exact W3|apply na_addRest]|]. intros ? _. cbv beta. dp.
Qed.
Lemma na_sec_material o v p u ro : own ro -> narrow (sec_material o v p u ro) any.
Proof.
  intros W. unfold sec_material. eapply na_bind; [prim|]. intros ? _. cbv beta. eapply na_bind with (P := fun p => own (snd p)).
  { destruct (u =? 0)%N.
    - eapply na_bind; [eapply na_opt; [exact W|apply na_secplain]|]. intros [a9 r] R. cbv beta in *. do 2 (eapply na_bind; [prim|]; intros ? ?; cbv beta in *). apply na_ret. exact R.
    - eapply na_opt; [exact W|apply na_secenc]. }
  intros [a9 r] R. cbv beta. cbn [snd] in *. destruct (_ =? 5)%N; [|dp]. eapply na_bind; [eapply na_opt; [exact R|apply na_addRest]|]. intros ? _. cbv beta. dp.
Qed.
Lemma na_sec o v p : narrow (sec_parse o v p) any.
Proof.
  unfold sec_parse. eapply na_bind; [prim|]. intros u _. cbv beta. cbv zeta. eapply na_bind; [apply na_field1|]. intros f1 W1. cbv beta.
  eapply na_bind with (P := any). { destruct f1 as [ro|]; [apply na_sec_opts; exact W1|dp]. }
  intros ? _. cbv beta. eapply na_bind; [apply na_field2|]. intros f2 W2. cbv beta. destruct f2 as [ro|]; [apply na_sec_material; exact W2|dp].
Qed.

(** Sub-packets. *)
Lemma na_flags l : forall j, narrow (flag_loop j l) any.
Proof. induction l as [|b l IH]; intro j; cbn [flag_loop]; [dp|]. eapply na_bind; [prim|]. intros ? _. cbv beta. apply IH. Qed.
Lemma na_more : narrow more_flags any.
Proof. unfold more_flags. eapply na_bind; [prim|]. intros z _. cbv beta. destruct (0 <? z); [|dp]. eapply na_bind; [prim|]. intros l _. cbv beta. apply na_flags. Qed.
Definition rec_na (rec : tagrec) : Prop := forall tag body cs, in_l body ->
  match rec tag body cs with (ROk p, _) => dw (fst p) <= 3 * L | _ => True end.
Lemma na_rec rec tag b : in_l b -> rec_na rec -> narrow (call_rec rec tag b) (fun p => dw (fst p) <= 3 * L).
Proof.
  intros S R s W J D. unfold call_rec. specialize (R tag b (s_cs s) S). destruct (rec tag b (s_cs s)) as [[p|e| |] cs]; cbn [s_rd s_cur]; auto.
Qed.
Lemma na_next E : narrow (next_rd E) (fun n => match n with Some (t, b) => in_l b | None => True end).
Proof.
  intros s W J D. unfold next_rd.
  assert (rdr_inv (r_buf (s_rd s)) (s_rd s)) as RI by (split; [reflexivity|exact W]).
  pose proof (next_packet_rdr (e_grow E) (S (S (length (r_buf (s_rd s))))) _ (s_rd s) RI) as H.
  assert (rdr_left (s_rd s) <= S (S (length (r_buf (s_rd s)))))%nat as F. { unfold rdr_left, weak_inv, lenZ in *. lia. }
  specialize (H F). destruct (next_packet _ _ _ _) as [[[[tag b]|e]|] r'] eqn:Q0; auto.
  - destruct H as ((B & I1 & I2) & H2 & H3). cbn [s_rd s_cur]. unfold weak_inv. rewrite B.
    split; [lia|]. split; [exact J|]. split; [exact D|]. unfold in_l, rdr_left, weak_inv in *. rewrite B in *. unfold lenZ in *. lia.
  - destruct H as ((B & I1 & I2) & H2 & _). assert (weak_inv r') as W'. { unfold weak_inv. rewrite B. lia. }
    destruct (rerr_err e); cbn [s_rd s_cur]; rewrite B; auto.
Qed.
Lemma na_key_loop rec E : rec_na rec -> forall fuel, narrow (key_loop rec E fuel) any.
Proof.
  intros R. induction fuel as [|fuel IH]; cbn [key_loop]; [intros s W J D; exact I|].
  eapply na_bind; [apply na_next|]. intros [[tag b]|] G; cbv beta; [|apply na_ret; exact I].
  eapply na_bind; [apply (na_rec rec tag b G R)|]. intros p Hp. cbv beta in *. eapply na_bind; [apply na_add; exact Hp|]. intros ? _. exact IH.
Qed.
Ltac prim2 ::= lazymatch goal with
  | |- narrow newMPI _ => apply na_mpi
  | |- narrow newOID _ => apply na_oid
  | |- narrow (newDateTime _) _ => apply na_dt
  | |- narrow (newLiteralFname _) _ => apply na_fname
  | |- narrow newECParm _ => apply na_ecparm
  | |- narrow (rawData _ _) _ => apply na_raw
  | |- narrow (addRest _ _) _ => apply na_addRest
  | |- narrow (parseSes _ _) _ => apply na_ses
  | |- narrow (parseSig _ _) _ => apply na_sig
  | |- narrow (s2k_parse _) _ => apply na_s2k
  | |- narrow more_flags _ => apply na_more
  | |- narrow (pub_parse _ _ _) _ => apply na_pub_parse
  | |- narrow (sec_parse _ _ _) _ => apply na_sec
  end.
Lemma na_sub38 rec o E : rec_na rec -> narrow (sub38 rec o E) any.
Proof.
  intros R. unfold sub38. do 3 (eapply na_bind; [prim|]; intros ? ?; cbv beta in *). destruct (_ =? 0)%N; [|dp].
  eapply na_bind; [prim|]. intros z _. cbv beta. eapply na_bind; [eapply na_sub; [apply dw_leafy; eassumption|apply na_key_loop, R]|]. intros i Hi. cbv beta in Hi. dp.
Qed.
Lemma na_sub_m rec o E tagid ty : rec_na rec -> narrow (sub_m rec o E tagid ty) any.
Proof.
  intros R.
  assert (forall mk, (forall a f, dw (mk a f) <= 3 * L) -> narrow (sub_algs mk o) any) as ALG.
  { intros mk Hm. unfold sub_algs. eapply na_bind; [prim|]. intros l _. clear -Hm L1. induction l as [|x l IH]; cbn [mapM_]; [dp|].
    eapply na_bind; [apply na_add; apply Hm|]. intros ? _. exact IH. }
  assert (narrow (sub02 o E) any) as F02.
  { unfold sub02. do 3 (eapply na_bind; [prim|]; intros ? ?; cbv beta in *). apply na_put. rewrite (proj1 (dw_w _ _)). one. }
  assert (narrow sub16 any) as F16.
  { unfold sub16. do 2 (eapply na_bind; [prim|]; intros ? ?; cbv beta in *). apply na_put. rewrite (proj1 (dw_w _ _)). one. }
  assert (narrow (sub32 rec) any) as F32.
  { unfold sub32. eapply na_bind; [prim|]. intros b H. cbv beta in *. eapply na_bind; [apply na_rec; [exact H|exact R]|]. intros p Hp. cbv beta in *. dp. }
  pose proof (na_sub38 rec o E R) as F38.
  unfold sub_m. cbv zeta.
  repeat match goal with |- narrow (match ?x with _ => _ end) _ => destruct x end;
      lazymatch goal with
      | |- narrow (ret _) _ => apply na_ret; exact I
      | |- narrow (sub_algs _ _) _ => apply ALG; intros; one
      | |- narrow (sub32 _) _ => exact F32
      | |- narrow (sub38 _ _ _) _ => exact F38
      | |- narrow (sub02 _ _) _ => exact F02
      | |- narrow sub16 _ => exact F16
      | |- _ => unfold sub01, sub03, sub04, sub05, sub07, sub09, sub12, sub20, sub23, sub25, sub27, sub29, sub30, sub31, sub37, sub_fpr, sub_bool, sub_text; cbv zeta; dp
      end.
Qed.
Lemma narrow_new {A} b it (m : M A) P cs : in_l b -> dw it <= 3 * L -> narrow m P ->
  match m (mkSt (r_new b) cs it) with (ROk a, s') => dw (s_cur s') <= 3 * L | (RErr _, s') => dw (s_cur s') <= 3 * L | _ => True end.
Proof.
  intros B T H. destruct (new_wn b B) as [W1 W2]. specialize (H (mkSt (r_new b) cs it) W1 W2 T). destruct (m _) as [[a|e| |] s']; auto.
  - destruct H as (_ & _ & H & _). exact H.
  - destruct H as (_ & _ & H). exact H.
Qed.
Lemma na_sub_one rec o E tagid sp : rec_na rec -> in_l (snd sp) -> narrow (sub_one rec o E tagid sp) any.
Proof.
  destruct sp as [ty b]. cbn [snd]. intros R S. unfold sub_one. cbn [fst snd]. eapply na_bind with (P := fun p => dw (snd p) <= 3 * L).
  - intros s W J D. unfold run_in.
    assert (dw (sub_item ty b (oDebug o)) <= 3 * L) as T by (unfold sub_item; one).
    pose proof (narrow_new b _ _ any (s_cs s) S T (na_sub_m rec o E tagid ty R)) as H.
    destruct (sub_m _ _ _ _ _ _) as [[a|e| |] s']; cbn [s_rd s_cur snd]; auto.
  - intros p Hp. cbv beta in Hp. apply na_add. exact Hp.
Qed.
Lemma na_area rec o E tagid n b : rec_na rec -> in_l b -> narrow (sub_area rec o E tagid n b) (fun i => dw i <= 3 * L).
Proof.
  intros R S. unfold sub_area, subpackets. pose proof (opaque_subpackets_shorter (length b) b) as Q.
  destruct (opaque_subpackets (length b) b) as [sps ok]. cbn [fst] in *. destruct ok; [|apply na_fail].
  eapply na_sub; [one|]. instantiate (1 := any). induction sps as [|[ty d] sps IH]; cbn [mapM_]; [dp|].
  assert (in_l d) as Ld by (specialize (Q _ (or_introl eq_refl)); cbn [snd] in Q; unfold in_l, lenZ in *; clear - Q S; lia).
  eapply na_bind; [apply na_sub_one; [exact R|exact Ld]|]. intros ? _. apply IH. intros x Hx. apply Q. right. exact Hx.
Qed.
Lemma na_sig_area rec o E n : rec_na rec -> narrow (sig_area rec o E n) any.
Proof.
  intros R. unfold sig_area. eapply na_bind; [prim|]. intros z G. cbv zeta. destruct (0 <? be z)%N; [|apply na_ret; exact I].
  eapply na_bind; [prim|]. intros d [_ D1]. cbv beta. eapply na_bind; [apply (na_area rec o E 2 n d R D1)|]. intros i Hi. cbv beta in Hi. apply na_add. exact Hi.
Qed.
Lemma na_sigV4 rec o E : rec_na rec -> narrow (sigV4 rec o E) any.
Proof.
  intros R. unfold sigV4. do 3 (eapply na_bind; [prim|]; intros ? ?; cbv beta in *; eapply na_bind; [prim|]; intros ? ?; cbv beta in *).
  do 2 (eapply na_bind; [apply na_sig_area; exact R|]; intros ? _). dp.
Qed.
Lemma na_tag02 rec o E : rec_na rec -> narrow (tag02 rec o E) any.
Proof.
  intros R. unfold tag02. eapply na_bind; [prim|]. intros v _. cbv beta. cbv zeta. eapply na_bind; [prim|]. intros ? _. cbv beta.
  assert (narrow (sigV4 rec o E;; addRest sUnknownData (oDebug o)) any) as V4.
  { eapply na_bind; [apply na_sigV4, R|]. intros ? _. cbv beta. prim. }
  destruct (v_isdraft _); [exact V4|]. destruct (v_iscur _); [exact V4|]. destruct (_ && _); [|dp].
  eapply na_bind; [eapply na_catch|].
  - unfold sigV3. instantiate (1 := any). eapply na_bind; [prim|]. intros z _. cbv beta. eapply na_bind with (P := any).
    + apply na_child; [one|]. dp.
    + intros ? _. cbv beta. dp.
  - intros [u|] _; dp.
Qed.
Lemma na_no m : narrow m any -> narrow (no_data m) any.
Proof. intros H. unfold no_data. eapply na_bind; [exact H|]. intros ? _. apply na_ret. exact I. Qed.
Lemma na_wv v i : dw i <= 3 * L -> narrow (add (w_value v i)) any.
Proof. intro H. apply na_add. rewrite (proj1 (proj2 (dw_w i v))). exact H. Qed.
Lemma na_wn v i : dw i <= 3 * L -> narrow (add (w_note v i)) any.
Proof. intro H. apply na_add. rewrite (proj1 (proj2 (proj2 (dw_w i v)))). exact H. Qed.
Lemma na_tag05 o E : narrow (tag05 o E) any.
Proof.
  unfold tag05. eapply na_bind; [prim|]. intros v _. cbv beta. cbv zeta. eapply na_bind; [prim|]. intros ? _. cbv beta.
  eapply na_bind; [apply na_child; [one|apply na_pub_parse]|]. intros p _. cbv beta.
  eapply na_bind; [apply na_child; [one|apply na_sec]|]. intros ? _. cbv beta. dp.
Qed.
Lemma na_tag08 o E : narrow (tag08 o E) any.
Proof.
  unfold tag08. do 3 (eapply na_bind; [prim|]; intros ? ?; cbv beta in *). destruct (0 <? _); [|dp]. eapply na_bind; [prim|]. intros it Hi. cbv beta in *. cbv zeta.
  destruct (_ =? 0)%N; [|destruct (_ <=? 3)%N]; [dp| |dp].
  eapply na_bind; [prim|]. intros z _. cbv beta in *. destruct (copy_from _) as [out|[]]; [dp| |dp].
  eapply na_bind; [apply na_wv; one|]. intros ? _. cbv beta. dp.
Qed.
Lemma na_tag03 o : narrow (tag03 o) any.
Proof.
  unfold tag03. do 2 (eapply na_bind; [prim|]; intros ? ?; cbv beta in *). cbv zeta. eapply na_bind; [prim|]. intros ? _. cbv beta.
  eapply na_bind with (P := any); [dp|]. intros ? _. cbv beta. dp.
Qed.
Lemma na_tag09 o : narrow (tag09 o) any.
Proof.
  unfold tag09. eapply na_bind; [prim|]. intros it Hi. cbv beta in *. eapply na_bind; [prim|]. intros cs _. cbv beta.
  eapply na_bind; [apply na_wv; one|]. intros ? _. cbv beta. dp.
Qed.
Lemma na_tag18 o : narrow (tag18 o) any.
Proof.
  unfold tag18. eapply na_bind; [prim|]. intros it Hi. cbv beta in *. eapply na_bind; [prim|]. intros cs _. cbv beta.
  eapply na_bind; [destruct (c_mode cs); [apply na_add; one|apply na_wn; one..]|]. intros ? _. cbv beta. dp.
Qed.
Lemma na_tag19 o : narrow (tag19 o) any.
Proof. unfold tag19. eapply na_bind; [prim|]. intros it Hi. cbv beta in *. apply na_wn. one. Qed.
Lemma na_tag20 o : narrow (tag20 o) any.
Proof.
  unfold tag20. do 8 (eapply na_bind; [prim|]; intros ? ?; cbv beta in *). eapply na_bind; [eapply na_catch, na_bytes|]. intros [iv|] Hv; dp.
Qed.
Lemma na_tag17 rec o E : rec_na rec -> narrow (tag17 rec o E) any.
Proof. intro R. unfold tag17. eapply na_bind; [prim|]. intros b B. cbv beta. eapply na_bind; [apply na_area; [exact R|exact B]|]. intros i Hi. cbv beta in *. apply na_add. exact Hi. Qed.
Lemma na_tag rec o E tag : rec_na rec -> narrow (tag_m rec o E tag) any.
Proof.
  intros R. unfold tag_m.
  repeat match goal with |- narrow (match ?x with _ => _ end) _ => destruct x end;
    lazymatch goal with
    | |- narrow (no_data (ret _)) _ => apply na_no, na_ret; exact I
    | |- narrow (no_data (tag02 _ _ _)) _ => apply na_no, na_tag02, R
    | |- narrow (no_data (tag05 _ _)) _ => apply na_no, na_tag05
    | |- narrow (tag08 _ _) _ => apply na_tag08
    | |- narrow (no_data (tag17 _ _ _)) _ => apply na_no, na_tag17, R
    | |- narrow (no_data (tag09 _)) _ => apply na_no, na_tag09
    | |- narrow (no_data (tag18 _)) _ => apply na_no, na_tag18
    | |- narrow (no_data (tag19 _)) _ => apply na_no, na_tag19
    | |- narrow (no_data (tag20 _)) _ => apply na_no, na_tag20
    | |- narrow (no_data (tag03 _)) _ => apply na_no, na_tag03
    | |- _ => apply na_no; unfold tag01, tag03, tag04, tag06, tag_raw, tag11, tag13, tag_raw; cbv zeta; dp
    end.
Qed.
Lemma rec_narrow n o E : rec_na (parse_tag_fuel n o E).
Proof.
  induction n as [|n IH]; intros tag body cs S; [exact I|]. cbn [parse_tag_fuel]. unfold tag_body.
  assert (dw (tag_item tag body (tag_dumpflag o tag)) <= 3 * L) as T by (unfold tag_item; one).
  pose proof (narrow_new body _ _ any cs S T (na_tag _ o E tag IH)) as H. destruct (tag_m _ o E tag _) as [[d|e| |] s']; auto.
Qed.
End Within.

(** The item of one packet. *)
Lemma parse_tag_narrow o E tag body cs i d cs' : lenZ body < 2 ^ 62 -> parse_tag o E tag body cs = (ROk (i, d), cs') -> dw i <= 3 * (1 + lenZ body).
Proof.
  intros S H. unfold parse_tag in H. pose proof (lenZ_nonneg body).
  pose proof (rec_narrow (Z.max 1 (lenZ body)) ltac:(lia) ltac:(lia) (Datatypes.S (length body)) o E tag body cs ltac:(unfold in_l; lia)) as R. rewrite H in R. cbn [fst] in R. lia.
Qed.
