(** * HiddenL: packets that differ in hidden octets only are shown alike. *)
From Coq Require Import Strings.String Strings.Byte List NArith ZArith Bool Lia ZifyBool ZifyN ZifyNat.
From Verif Require Import Base BaseL SpecBase Item Reader Context Env Time Values Opaque Monad MonadL Subs Tags Parse SubParse
  SpecValues SpecPacket SpecFrame SpecNest SpecSub SpecSubs SpecComp SpecLiteral SpecSecret SpecParse ReadsL PacketL TagL SecretL CompL SigL SubL UnfoldL
  SpecState EventL TotalL PropPacket PropSecret PropComp PropParse PropSig PropSub PropKeyBlock PropAttr PropLiteral PropState SpecHidden.
Import ListNotations.
Local Open Scope N_scope.

Scheme pv_ind' := Minimality for packet_veiled Sort Prop
with sv_ind' := Minimality for sub_veiled Sort Prop
with ssv_ind' := Minimality for subs_veiled Sort Prop
with psv_ind' := Minimality for packets_veiled Sort Prop.
Combined Scheme veiled_ind from pv_ind', sv_ind', ssv_ind', psv_ind'.

Section Off.
Variable o : opts.
Hypothesis Q : no_dump o.
Lemma off_debug : oDebug o = false.
Proof. apply (Q DEBUG). cbn. auto. Qed.
Lemma off_int : oInteger o = false.
Proof. unfold oInteger. rewrite (Q INTEGER), (Q DEBUG) by (cbn; auto 8). reflexivity. Qed.
Lemma off_lit : oLiteral o = false.
Proof. unfold oLiteral. rewrite (Q LITERAL), (Q DEBUG) by (cbn; auto 8). reflexivity. Qed.
Lemma off_marker : oMarker o = false.
Proof. unfold oMarker. rewrite (Q MARKER), (Q DEBUG) by (cbn; auto 8). reflexivity. Qed.
Lemma off_cert : oCert o = false.
Proof. unfold oCert. rewrite (Q CERT), (Q DEBUG) by (cbn; auto 8). reflexivity. Qed.
Lemma off_private : oPrivate o = false.
Proof. unfold oPrivate. rewrite (Q PRIVATE), (Q DEBUG) by (cbn; auto 8). reflexivity. Qed.

Lemma lenN_same a b : same_length a b -> lenN a = lenN b.
Proof. unfold same_length, lenN. intros ->. reflexivity. Qed.

Lemma packet_shown_len tag b b' k : same_length b b' -> packet_shown o tag b k = packet_shown o tag b' k.
Proof.
  intro H. unfold packet_shown. rewrite off_debug, off_private, (lenN_same _ _ H). destruct (_ && _); reflexivity.
Qed.
Lemma sub_shown_len ty b b' k : same_length b b' -> sub_shown o ty b k = sub_shown o ty b' k.
Proof. intro H. unfold sub_shown. rewrite off_debug, (lenN_same _ _ H). reflexivity. Qed.
Lemma surplus_len name d d' : same_length d d' -> surplus name (oDebug o) d = surplus name (oDebug o) d'.
Proof.
  intro H. rewrite off_debug. unfold surplus. destruct d, d'; try discriminate H; [reflexivity|]. rewrite (lenN_same _ _ H). reflexivity.
Qed.
Lemma unknown_len label d d' : same_length d d' -> unknown_fields (oDebug o) label d = unknown_fields (oDebug o) label d'.
Proof. intro H. rewrite off_debug. unfold unknown_fields. rewrite (lenN_same _ _ H). reflexivity. Qed.

Lemma sig_area_len name A A' r : same_length A A' -> sig_area_shown o name A r = sig_area_shown o name A' r.
Proof.
  intro H. unfold sig_area_shown, area_shown. rewrite off_debug. destruct A, A'; try discriminate H; [reflexivity|]. rewrite (lenN_same _ _ H). reflexivity.
Qed.

Lemma show_veiled E f f' : field_veiled f f' -> show o E f = show o E f'.
Proof.
  intros [x | name bits d d' H | alg bits b d d' H | name d d' H | v h s d d' H]; [reflexivity|..]; cbn [show]; rewrite ?off_int.
  - reflexivity.
  - reflexivity.
  - rewrite (lenN_same _ _ H). reflexivity.
  - assert (lenN (v :: h :: s :: d) = lenN (v :: h :: s :: d')) as -> by (unfold lenN; cbn [length]; rewrite H; reflexivity).
    destruct v; reflexivity.
Qed.
Lemma shows_veiled E l l' : veiled l l' -> shows o E l = shows o E l'.
Proof. induction 1 as [|f f' l l' F _ IH]; [reflexivity|]. unfold shows. cbn [map]. rewrite (show_veiled E _ _ F). f_equal. exact IH. Qed.

Lemma enc_veiled f f' : field_veiled f f' -> length (enc f) = length (enc f').
Proof.
  intros [x | name bits d d' H | alg bits b d d' H | name d d' H | v h s d d' H]; [reflexivity|..]; unfold same_length in H;
    cbn [enc]; unfold len1; rewrite ?app_length; cbn [length]; lia.
Qed.
Lemma encs_veiled l l' : veiled l l' -> length (encs l) = length (encs l').
Proof.
  induction 1 as [|f f' l l' F _ IH]; [reflexivity|]. unfold encs in *. cbn [flat_map]. rewrite !app_length, (enc_veiled _ _ F), IH. reflexivity.
Qed.
Lemma wf_veiled f f' : field_veiled f f' -> wf f -> wf f'.
Proof.
  intros [x | name bits d d' H | alg bits b d d' H | name d d' H | v h s d d' H]; [auto|..]; cbn [wf]; unfold lenN; cbn [length]; rewrite H; auto.
Qed.
Lemma fills_veiled s f f' : field_veiled f f' -> fills s f -> fills s f'.
Proof.
  intros V. pose proof (wf_veiled _ _ V) as W. destruct V; unfold fills in *; destruct s; try tauto; auto.
Qed.
Lemma material_veiled t a l l' : veiled l l' -> material t a l -> material t a l'.
Proof.
  intros V (s & T & F). exists s. split; [exact T|]. clear T. revert l' V. induction F as [|x f s l Fx _ IH]; intros l' V; inversion V; subst; constructor; auto.
  eapply fills_veiled; eassumption.
Qed.
End Off.

Lemma same_outcome_refl {A} (x : res A * cst) : same_outcome x x.
Proof. split; auto. Qed.
Lemma same_outcome_item x y : same_outcome x y -> same_outcome (item_only x) (item_only y).
Proof.
  destruct x as [x c], y as [y c']. unfold same_outcome, item_only. cbn [fst snd]. intros [-> H]. split; [reflexivity|].
  intro N. apply H. intro K. apply N. rewrite K. reflexivity.
Qed.

Lemma bind_fail {A B} (m : M A) (f : A -> M B) s r s' : m s = (r, s') -> match r with ROk _ => False | _ => True end -> bind m f s = (failure r, s').
Proof. intros H N. unfold bind. rewrite H. destruct r; [contradiction|..]; reflexivity. Qed.

(** Signatures whose areas hold failing sub-packets. *)
Lemma fails_v4 o E v d rest cs cs' r : b2n v = 4 \/ b2n v = 5 -> sized (v :: d ++ rest) -> four_octet_dates cs ->
  match r with ROk _ => False | _ => True end ->
  fails_at (sig_middle o E) d cs r cs' -> same_outcome (parse_tag o E 2 (v :: d ++ rest) cs) (failure r, cs').
Proof.
  intros Hv L D Nr F. destruct (parse_unfold o E 2 (v :: d ++ rest) cs L (dates_related cs D)) as [H _].
  assert (tag_body (parse_tag o E) o E 2 (v :: d ++ rest) cs = (failure r, cs')) as R.
  { unfold tag_body, tag_m. rewrite tag_item_shown, at_new. set (it := packet_shown o 2 (v :: d ++ rest) []).
    change (mkSt (MonadL.at_ (v :: d ++ rest) (v :: d ++ rest)) cs it) with (sat (v :: d ++ rest) (v :: d ++ rest) cs it).
    pose proof (suf_refl _ L) as SF. unfold no_data, tag02. rewrite bind_assoc. erewrite bind_ok by (apply rdByte_at; exact SF). cbv zeta.
    unfold bind at 1. rewrite tag02_v4 by exact Hv. apply suf_cons in SF. erewrite (bind_ok (add _)) by reflexivity. cbv beta.
    destruct (F _ rest (add_child (v_item (SigVer v) (oDebug o)) it) SF) as (s & R & X). unfold sat in R |- *.
    erewrite (bind_fail _ _ _ r) by (exact R || exact Nr). rewrite <- X. destruct r; [contradiction|..]; reflexivity. }
  rewrite R in H. exact H.
Qed.
Lemma failed_alike {A} (x y : res A * cst) r (c c' : cst) : same_outcome x (failure (A:=list item) r, c) -> same_outcome y (failure r, c') ->
  (r <> RPanic -> c = c') -> match r with ROk _ => False | _ => True end -> same_outcome x y.
Proof.
  intros [H1 H2] [H3 H4] H Nr. cbn [fst snd] in *. split; [congruence|]. intro N. rewrite (H2 N). rewrite H1, <- H3 in N. rewrite (H4 N).
  apply H. intros ->. apply N. exact H3.
Qed.

Lemma sub_list_alike_fails o E v t a h A1 A1' s1 s1' cs rest rest' r c c' :
  b2n v = 4 \/ b2n v = 5 -> lenN A1 < 65536 -> lenN A1' < 65536 -> subs_in s1 A1 -> subs_in s1' A1' -> four_octet_dates cs ->
  sub_list o E 2 s1 cs = (r, c) -> sub_list o E 2 s1' cs = (r, c') -> (r <> RPanic -> c = c') -> match r with ROk _ => False | _ => True end ->
  sized (v :: t :: a :: h :: be_enc 2 (lenN A1) ++ A1 ++ rest) -> sized (v :: t :: a :: h :: be_enc 2 (lenN A1') ++ A1' ++ rest') ->
  same_outcome (parse_tag o E 2 (v :: t :: a :: h :: be_enc 2 (lenN A1) ++ A1 ++ rest) cs)
               (parse_tag o E 2 (v :: t :: a :: h :: be_enc 2 (lenN A1') ++ A1' ++ rest') cs).
Proof.
  intros Hv L1 L1' S1 S1' D R R' C Nr Z Z'.
  assert (forall A s rest x, lenN A < 65536 -> subs_in s A -> sub_list o E 2 s cs = (r, x) -> sized (v :: t :: a :: h :: be_enc 2 (lenN A) ++ A ++ rest) ->
    same_outcome (parse_tag o E 2 (v :: t :: a :: h :: be_enc 2 (lenN A) ++ A ++ rest) cs) (failure r, x)) as K.
  { intros A s rest0 x LA SA RA ZA.
    assert (v :: t :: a :: h :: be_enc 2 (lenN A) ++ A ++ rest0 = v :: ([t; a; h] ++ be_enc 2 (lenN A) ++ A) ++ rest0) as B
      by (cbn [app]; rewrite <- !app_assoc; reflexivity).
    rewrite B in *.
    assert (failure (A:=list item) (B:=item * option bytes) r = failure (A:=byte) (failure r)) as -> by (destruct r; reflexivity).
    apply fails_v4; [assumption..|destruct r; [contradiction|..]; exact Logic.I|]. unfold sig_middle.
    eapply fails_at_bind; [apply (runs_to_at _ _ _ _ _ cs (runs_head o E t a h))|].
    assert (failure (B:=byte) r = failure (A:=unit) (failure r)) as -> by (destruct r; reflexivity).
    apply fails_at_first; [destruct r; [contradiction|..]; exact Logic.I|].
    exact (fails_sig_area o E "Hashed Subpacket" A s cs x r LA SA RA Nr). }
  eapply failed_alike; [apply (K A1 s1 rest c); assumption | apply (K A1' s1' rest' c'); assumption | exact C | exact Nr].
Qed.
Lemma sub_list_alike_fails2 o E v t a h A1 A1' s1 s1' A2 A2' s2 s2' cs rest rest' r1 cs1 r c c' :
  b2n v = 4 \/ b2n v = 5 -> lenN A1 < 65536 -> lenN A1' < 65536 -> subs_in s1 A1 -> subs_in s1' A1' ->
  lenN A2 < 65536 -> lenN A2' < 65536 -> subs_in s2 A2 -> subs_in s2' A2' -> four_octet_dates cs ->
  sub_list o E 2 s1 cs = (ROk r1, cs1) -> sub_list o E 2 s1' cs = (ROk r1, cs1) ->
  sub_list o E 2 s2 cs1 = (r, c) -> sub_list o E 2 s2' cs1 = (r, c') -> (r <> RPanic -> c = c') -> match r with ROk _ => False | _ => True end ->
  sized (v :: t :: a :: h :: be_enc 2 (lenN A1) ++ A1 ++ be_enc 2 (lenN A2) ++ A2 ++ rest) ->
  sized (v :: t :: a :: h :: be_enc 2 (lenN A1') ++ A1' ++ be_enc 2 (lenN A2') ++ A2' ++ rest') ->
  same_outcome (parse_tag o E 2 (v :: t :: a :: h :: be_enc 2 (lenN A1) ++ A1 ++ be_enc 2 (lenN A2) ++ A2 ++ rest) cs)
               (parse_tag o E 2 (v :: t :: a :: h :: be_enc 2 (lenN A1') ++ A1' ++ be_enc 2 (lenN A2') ++ A2' ++ rest') cs).
Proof.
  intros Hv L1 L1' S1 S1' L2 L2' S2 S2' D R R' T T' C Nr Z Z'.
  assert (forall A s B u rest x, lenN A < 65536 -> subs_in s A -> lenN B < 65536 -> subs_in u B ->
    sub_list o E 2 s cs = (ROk r1, cs1) -> sub_list o E 2 u cs1 = (r, x) -> sized (v :: t :: a :: h :: be_enc 2 (lenN A) ++ A ++ be_enc 2 (lenN B) ++ B ++ rest) ->
    same_outcome (parse_tag o E 2 (v :: t :: a :: h :: be_enc 2 (lenN A) ++ A ++ be_enc 2 (lenN B) ++ B ++ rest) cs) (failure r, x)) as K.
  { intros A s B u rest0 x LA SA LB SB RA RB ZA.
    assert (v :: t :: a :: h :: be_enc 2 (lenN A) ++ A ++ be_enc 2 (lenN B) ++ B ++ rest0
            = v :: ([t; a; h] ++ (be_enc 2 (lenN A) ++ A) ++ be_enc 2 (lenN B) ++ B) ++ rest0) as EQ
      by (cbn [app]; rewrite <- !app_assoc; reflexivity).
    rewrite EQ in *.
    assert (failure (A:=list item) (B:=item * option bytes) r = failure (A:=byte) (failure r)) as -> by (destruct r; reflexivity).
    apply fails_v4; [assumption..|destruct r; [contradiction|..]; exact Logic.I|]. unfold sig_middle.
    eapply fails_at_bind; [apply (runs_to_at _ _ _ _ _ cs (runs_head o E t a h))|].
    eapply fails_at_bind; [exact (runs_sig_area o E "Hashed Subpacket" A s cs r1 cs1 LA SA RA)|].
    assert (failure (B:=byte) r = failure (A:=unit) (failure r)) as -> by (destruct r; reflexivity).
    apply fails_at_first; [destruct r; [contradiction|..]; exact Logic.I|].
    exact (fails_sig_area o E "Unhashed Subpacket" B u cs1 x r LB SB RB Nr). }
  eapply failed_alike; [apply (K A1 s1 A2 s2 rest c); assumption | apply (K A1' s1' A2' s2' rest' c'); assumption | exact C | exact Nr].
Qed.

(** ** Lengths *)
Lemma secret_veiled_length v a d d' : secret_veiled v a d d' -> length d = length d'.
Proof.
  destruct 1; unfold same_length in *;
    repeat match goal with H : veiled ?x ?y |- _ => apply encs_veiled in H end;
    unfold encs in *; cbn [length]; rewrite ?app_length; cbn [length]; rewrite ?app_length, ?be_enc_length; lia.
Qed.
Lemma public_part_length v t days a l l' : veiled l l' -> length (public_part v t days a l) = length (public_part v t days a l').
Proof.
  intro V. apply encs_veiled in V.
  assert (length (encs (key_fields (b2n v) t days a l)) = length (encs (key_fields (b2n v) t days a l'))) as K.
  { unfold key_fields, encs in *. cbn [flat_map]. rewrite !flat_map_app. cbn [flat_map]. rewrite !app_length, V. reflexivity. }
  destruct v; try exact K. unfold public_part. rewrite !app_length. cbn [length]. rewrite !app_length, !be_enc_length, V. reflexivity.
Qed.
Lemma packet_veiled_length E tag b b' : packet_veiled E tag b b' -> length b = length b'.
Proof.
  destruct 1;
    try match goal with S : secret_veiled _ _ _ _ |- _ => apply secret_veiled_length in S end;
    try match goal with V : veiled ?l ?l' |- context [public_part ?v ?t ?days ?a ?l] => pose proof (public_part_length v t days a l l' V) end;
    unfold same_length in *; auto; unfold sig_octets, literal_octets, len1, key_fields;
    repeat match goal with H : veiled ?x ?y |- _ => apply encs_veiled in H end;
    unfold encs in *; cbn [flat_map enc app length];
    repeat (rewrite ?app_length, ?flat_map_app; cbn [flat_map enc app length]); rewrite ?be_enc_length; try lia.
Qed.

Lemma dates_sub o E ty b cs i cs' : lenN b < 65536 -> four_octet_dates cs -> parse_sub o E 2 ty b cs = (ROk i, cs') -> four_octet_dates cs'.
Proof.
  intros L D H. assert (sub_list o E 2 [(ty, b)] cs = (ROk [i], cs')) as R by (cbn [sub_list]; rewrite H; reflexivity).
  destruct (subs_list_meets o E [(ty, b)] cs [i] cs') as [evs M]; [constructor; [exact L | constructor] | assumption | assumption|].
  apply (state_after o E _ _ M cs [i] cs'); [constructor; [exact (small_sized b L) | constructor] | assumption | assumption].
Qed.
Lemma dates_packet o E tag b cs x cs' : sized b -> four_octet_dates cs -> parse_tag o E tag b cs = (ROk x, cs') -> four_octet_dates cs'.
Proof.
  intros L D H. destruct x as [i x]. destruct (packet_meets o E (S (length b)) tag b cs i x cs' (Nat.lt_succ_diag_r _) L D H) as [evs M].
  exact (proj2 (state_after o E _ _ M cs i x cs' L D H)).
Qed.
Lemma dates_subs o E l cs r cs' : Forall (fun p => lenN (snd p) < 2 ^ 16) l -> four_octet_dates cs -> sub_list o E 2 l cs = (ROk r, cs') -> four_octet_dates cs'.
Proof.
  intros L D H. destruct (subs_list_meets o E l cs r cs' L D H) as [evs M].
  refine (proj2 (state_after o E _ _ M cs r cs' _ D H)). eapply Forall_impl; [|exact L]. intros p K. exact (small_sized _ K).
Qed.

Lemma attributes_unfold o E area l cs : lenN area < 2 ^ 32 -> four_octet_dates cs -> subs_in l area ->
  same_outcome (parse_tag o E 17 area cs)
    (map_res (fun r => (packet_shown o 17 area [area_shown o "Subpacket" area r], None)) (fst (sub_list o E 17 l cs)), snd (sub_list o E 17 l cs)).
Proof.
  intros L D S. assert (sized area) as Z by (unfold sized, lenZ; unfold lenN in L; lia).
  destruct (parse_unfold o E 17 area cs Z (dates_related cs D)) as [H _].
  assert (tag_body (parse_tag o E) o E 17 area cs =
    (map_res (fun r => (packet_shown o 17 area [area_shown o "Subpacket" area r], None)) (fst (sub_list o E 17 l cs)), snd (sub_list o E 17 l cs))) as R.
  { unfold tag_body, tag_m. rewrite tag_item_shown. unfold no_data, tag17, getBody, bind. cbn [fst snd s_rd]. change (r_body (r_new area)) with area.
    rewrite (area_eval o E 17 "Subpacket" area l) by assumption. cbn [s_cs s_rd s_cur].
    destruct (sub_list o E 17 l cs) as [[r|e| |] cs']; cbn [fst snd map_res]; reflexivity. }
  rewrite R in H. exact H.
Qed.

Section Main.
Variables (o : opts) (E : env).
Hypothesis Q : no_dump o.

Definition P_packet (tag : N) (b b' : bytes) : Prop := forall cs, sized b -> four_octet_dates cs ->
  same_outcome (item_only (parse_tag o E tag b cs)) (item_only (parse_tag o E tag b' cs)).
Definition P_sub (ty : byte) (b b' : bytes) : Prop := length b = length b' /\ forall cs, lenN b < 65536 -> four_octet_dates cs ->
  same_outcome (parse_sub o E 2 ty b cs) (parse_sub o E 2 ty b' cs).
Definition P_subs (l l' : list (byte * bytes)) : Prop := forall cs, Forall (fun p => lenN (snd p) < 2 ^ 16) l -> four_octet_dates cs ->
  same_outcome (sub_list o E 2 l cs) (sub_list o E 2 l' cs).
Definition P_packets (l l' : list (N * bytes)) : Prop := forall cs, all_sized l -> four_octet_dates cs ->
  same_outcome (flat_list o E l cs) (flat_list o E l' cs).

Lemma by_equal tag b b' : (forall cs, sized b -> sized b' -> four_octet_dates cs -> parse_tag o E tag b cs = parse_tag o E tag b' cs) ->
  length b = length b' -> P_packet tag b b'.
Proof.
  intros H L cs Z D. rewrite (H cs Z); [apply same_outcome_refl | | exact D]. unfold sized, lenZ in *. rewrite <- L. exact Z.
Qed.

Lemma one_packet (tag : N) b b' l l' : P_packet tag b b' -> P_packets l l' -> P_packets ((tag, b) :: l) ((tag, b') :: l').
Proof.
  intros H IH cs Z D. apply Forall_cons_iff in Z as [Zb Zl]. cbn [snd] in Zb. specialize (H cs Zb D). cbn [flat_list].
  destruct (parse_tag o E tag b cs) as [[[i x]|e| |] c] eqn:R, (parse_tag o E tag b' cs) as [[[i' x']|e'| |] c'] eqn:R';
    destruct H as [H1 H2]; cbn [item_only map_res fst snd] in *; try discriminate H1; try (inversion H1; subst; split; [reflexivity|]; intro N; cbn [fst snd] in *; apply H2; discriminate || congruence).
  rewrite <- (H2 ltac:(discriminate)) in *. inversion H1; subst i'. specialize (IH c Zl (dates_packet _ _ _ _ _ _ _ Zb D R)).
  destruct (flat_list o E l c) as [[r|e| |] c2], (flat_list o E l' c) as [[r'|e'| |] c2']; destruct IH as [I1 I2]; cbn [fst snd] in *; try discriminate I1;
    (inversion I1; subst; split; [reflexivity|]; intro N; cbn [fst snd] in *; apply I2; discriminate || congruence).
Qed.
Lemma one_sub ty b b' l l' : P_sub ty b b' -> P_subs l l' -> P_subs ((ty, b) :: l) ((ty, b') :: l').
Proof.
  intros [_ H] IH cs Z D. apply Forall_cons_iff in Z as [Zb Zl]. cbn [snd] in Zb. specialize (H cs Zb D). cbn [sub_list].
  destruct (parse_sub o E 2 ty b cs) as [[i|e| |] c] eqn:R, (parse_sub o E 2 ty b' cs) as [[i'|e'| |] c'] eqn:R';
    destruct H as [H1 H2]; cbn [fst snd] in *; try discriminate H1; try (inversion H1; subst; split; [reflexivity|]; intro N; cbn [fst snd] in *; apply H2; discriminate || congruence).
  rewrite <- (H2 ltac:(discriminate)) in *. inversion H1; subst i'. specialize (IH c Zl (dates_sub _ _ _ _ _ _ _ Zb D R)).
  destruct (sub_list o E 2 l c) as [[r|e| |] c2], (sub_list o E 2 l' c) as [[r'|e'| |] c2']; destruct IH as [I1 I2]; cbn [fst snd] in *; try discriminate I1;
    (inversion I1; subst; split; [reflexivity|]; intro N; cbn [fst snd] in *; apply I2; discriminate || congruence).
Qed.
Lemma subs_veiled_lengths l l' : subs_veiled E l l' -> Forall2 (fun p p' => length (snd p) = length (snd p')) l l'.
Proof.
  induction 1 as [|ty b b' l l' S _ IH]; constructor; auto. cbn [snd]. destruct S; unfold same_length in *; auto; [|cbn [length]; lia].
  eapply packet_veiled_length. eassumption.
Qed.
Lemma area_small l A : subs_in l A -> lenN A < 65536 -> Forall (fun p : byte * bytes => lenN (snd p) < 2 ^ 16) l.
Proof. intros S L. eapply Forall_impl; [|exact (subs_sizes _ _ S)]. intros p K. exact (N.le_lt_trans _ _ _ K L). Qed.

(** Two signatures: the areas decide about failure; otherwise the rest is compared. *)
Lemma signatures v t a h A1 A1' A2 A2' rest rest' s1 s1' s2 s2' :
  b2n v = 4 \/ b2n v = 5 -> lenN A1 < 65536 -> lenN A2 < 65536 -> same_length A1 A1' -> same_length A2 A2' ->
  subs_in s1 A1 -> subs_in s1' A1' -> subs_in s2 A2 -> subs_in s2' A2' -> P_subs s1 s1' -> P_subs s2 s2' -> length rest = length rest' ->
  let body := v :: t :: a :: h :: be_enc 2 (lenN A1) ++ A1 ++ be_enc 2 (lenN A2) ++ A2 ++ rest in
  let body' := v :: t :: a :: h :: be_enc 2 (lenN A1') ++ A1' ++ be_enc 2 (lenN A2') ++ A2' ++ rest' in
  (forall cs r1 cs1 r2 cs2, sized body -> sized body' -> four_octet_dates cs ->
     sub_list o E 2 s1 cs = (ROk r1, cs1) -> sub_list o E 2 s1' cs = (ROk r1, cs1) ->
     sub_list o E 2 s2 cs1 = (ROk r2, cs2) -> sub_list o E 2 s2' cs1 = (ROk r2, cs2) -> parse_tag o E 2 body cs = parse_tag o E 2 body' cs) ->
  P_packet 2 body body'.
Proof.
  intros Hv L1 L2 M1 M2 S1 S1' S2 S2' P1 P2 LR body body' H cs Z D.
  assert (sized body') as Z'.
  { unfold sized, lenZ, body, body' in *. cbn [length] in *. rewrite !app_length, !be_enc_length in *. unfold same_length in *. rewrite <- M1, <- M2, <- LR. exact Z. }
  pose proof (lenN_same _ _ M1). pose proof (lenN_same _ _ M2).
  apply same_outcome_item.
  specialize (P1 cs (area_small _ _ S1 L1) D).
  destruct (sub_list o E 2 s1 cs) as [r c] eqn:R, (sub_list o E 2 s1' cs) as [r' c'] eqn:R'; destruct P1 as [EQ C]; cbn [fst snd] in EQ, C; subst r.
  destruct (match r' with ROk _ => true | _ => false end) eqn:K.
  2:{ eapply (sub_list_alike_fails o E v t a h A1 A1' s1 s1' cs _ _ r' c c'); try assumption; [lia | destruct r'; [discriminate|..]; exact Logic.I]. }
  destruct r' as [r1|e| |]; try discriminate. specialize (C ltac:(discriminate)). subst c'. clear K.
  specialize (P2 c (area_small _ _ S2 L2) (dates_subs _ _ _ _ _ _ (area_small _ _ S1 L1) D R)).
  destruct (sub_list o E 2 s2 c) as [r c2] eqn:T, (sub_list o E 2 s2' c) as [r' c2'] eqn:T'; destruct P2 as [EQ C]; cbn [fst snd] in EQ, C; subst r.
  destruct (match r' with ROk _ => true | _ => false end) eqn:K.
  2:{ eapply (sub_list_alike_fails2 o E v t a h A1 A1' s1 s1' A2 A2' s2 s2' cs _ _ r1 c r' c2 c2'); try assumption; [lia | lia | destruct r'; [discriminate|..]; exact Logic.I]. }
  destruct r' as [r2|e| |]; try discriminate. specialize (C ltac:(discriminate)). subst c2'.
  rewrite (H cs r1 c r2 c2) by assumption. apply same_outcome_refl.
Qed.

Lemma opened_items a z z' cs : same_length z z' -> opens_alike E a z z' -> sized (a :: z) ->
  item_only (parse_tag o E 8 (a :: z) cs) = item_only (parse_tag o E 8 (a :: z') cs).
Proof.
  intros L O Z. assert (sized (a :: z')) as Z' by (unfold sized, lenZ in *; cbn [length] in *; rewrite <- L; exact Z).
  assert (lenZ (a :: z) = lenZ (a :: z')) as E1 by (unfold lenZ; cbn [length]; rewrite L; reflexivity).
  assert (forall v, comp_data o z v = comp_data o z' v) as E2.
  { intro v. unfold comp_data. rewrite (off_debug o Q). assert (lenZ z = lenZ z') as -> by (unfold lenZ; rewrite L; reflexivity). reflexivity. }
  rewrite !tag08_closed by assumption. cbv zeta. rewrite (off_debug o Q), E1, !E2.
  change (dump_bytes (a :: z) false) with (@nil byte). change (dump_bytes (a :: z') false) with (@nil byte).
  destruct z as [|b z], z' as [|b' z']; try discriminate L; [reflexivity|].
  destruct O as [d d' C C' | A | d ok d' ok' A N1 N2 I1 M1 I2 M2].
  - inversion C; subst; inversion C'; subst.
    + reflexivity.
    + change (b2n x00) with 0 in *. lia.
    + change (b2n x00) with 0 in *. lia.
    + replace (b2n a =? 0) with false by lia. replace (b2n a <=? 3) with true by lia.
      unfold copy_from. repeat match goal with H : e_inflate _ _ _ = _ |- _ => rewrite H; clear H end.
      replace (max_decompressed <=? lenN d) with false by (symmetry; apply N.leb_gt; assumption).
      replace (max_decompressed <=? lenN d') with false by (symmetry; apply N.leb_gt; assumption). reflexivity.
  - replace (b2n a =? 0) with false by lia. replace (b2n a <=? 3) with false by lia. reflexivity.
  - replace (b2n a =? 0) with false by lia. replace (b2n a <=? 3) with true by lia. unfold copy_from. rewrite I1, I2.
    replace (max_decompressed <=? lenN d) with true by (symmetry; apply N.leb_le; assumption).
    replace (max_decompressed <=? lenN d') with true by (symmetry; apply N.leb_le; assumption). reflexivity.
Qed.

Lemma attributes_alike l l' : Forall2 attribute_veiled l l' -> forall cs, Forall (fun p => sized (snd p)) l ->
  sub_list o E 17 l cs = sub_list o E 17 l' cs.
Proof.
  induction 1 as [|p p' l l' A _ IH]; intros cs Z; [reflexivity|]. apply Forall_cons_iff in Z as [Zp Zl].
  assert (exists ty b b', p = (ty, b) /\ p' = (ty, b') /\ parse_sub o E 17 ty b cs = parse_sub o E 17 ty b' cs) as (ty & b & b' & -> & -> & H).
  { destruct A as [[ty b] | ty b b' T L | ty h0 h1 v e d d' T L]; [exists ty, b, b; auto | exists ty, b, b' | do 3 eexists]; (split; [reflexivity|]; split; [reflexivity|]).
    - rewrite !(C28_unknown_attribute o E ty) by assumption. rewrite (sub_shown_len o Q ty b b' _ L). reflexivity.
    - cbn [snd] in Zp.
      assert (sized (h0 :: h1 :: v :: e :: d')) as Z' by (unfold sized, lenZ in *; cbn [length] in *; rewrite <- L; exact Zp).
      assert (exists fs, image_fields v (e :: d) fs /\ image_fields v (e :: d') fs) as (fs & F & F').
      { destruct (b2n v =? 1) eqn:V1; [eexists; split; apply image_v1; lia|].
        destruct ((100 <=? b2n v) && (b2n v <=? 110)) eqn:V2; [eexists; split; apply image_private; lia | eexists; split; apply image_other; lia]. }
      rewrite (C32_shown o E ty h0 h1 v _ fs cs T F Zp), (C32_shown o E ty h0 h1 v _ fs cs T F' Z').
      unfold image_shown. assert (same_length (h0 :: h1 :: v :: e :: d) (h0 :: h1 :: v :: e :: d')) as SL by (unfold same_length in *; cbn [length]; lia).
      rewrite (sub_shown_len o Q ty _ _ _ SL). unfold lenZ. rewrite SL. reflexivity. }
  cbn [sub_list]. rewrite H. destruct (parse_sub o E 17 ty b' cs) as [[i|e| |] c]; try reflexivity. rewrite (IH c Zl). reflexivity.
Qed.

Ltac sl := unfold same_length in *; repeat match goal with H : veiled ?x ?y |- _ => apply encs_veiled in H end;
    unfold sig_octets, literal_octets, len1, key_fields, protection_octets;
    unfold encs in *; cbn [flat_map enc app length];
    repeat (rewrite ?app_length, ?flat_map_app; cbn [flat_map enc app length]); rewrite ?be_enc_length; lia.
Ltac conv V := rewrite ?(packet_shown_len o Q _ _ _ _ V).

Lemma text_shown_exists name f body : exists it, text_shown name f body it.
Proof. eexists. apply SubsL.text_item_shown. Qed.

Lemma sealed_len a d d' : same_length d d' -> sealed o a d = sealed o a d'.
Proof. intro L. unfold sealed. rewrite (off_debug o Q), (lenN_same _ _ L). reflexivity. Qed.
Lemma unknown_secret_len a d d' : same_length d d' -> unknown_secret o a d = unknown_secret o a d'.
Proof. intro L. unfold unknown_secret. rewrite (off_debug o Q), (lenN_same _ _ L). reflexivity. Qed.
Lemma not_five v : v <> x05 -> (v_num (PubVer v) =? 5) = false.
Proof. intro N. unfold v_num. cbn [PubVer v_ver]. destruct v; try reflexivity. congruence. Qed.

(** The secret parts are shown alike. *)
Lemma secret_alike v a d d' : secret_veiled v a d d' -> exists x x' ei ei',
  leaves (sec_parse o (PubVer v) a) d x tt same ei /\ leaves (sec_parse o (PubVer v) a) d' x' tt same ei' /\ same_length x x' /\
  ei (secret_shown [] []) = ei' (secret_shown [] []).
Proof.
  intros [v0 a0 s s' chk x x' N M V C L | v0 a0 y y' chk N M L C | v0 a0 u c x s iv ct ct' N U W I L
         | a0 s s' y y' chk x x' M V L C Lx Z | a0 u c x s y y' iv ct ct' z z' U W I L S Lc Z Lz].
  - pose proof (material_veiled _ _ _ _ V M) as M'. do 4 eexists.
    split; [apply (secret_old_plain o E v0 a0 (not_five v0 N) s chk x M C)|]. split; [apply (secret_old_plain o E v0 a0 (not_five v0 N) s' chk x' M' C)|].
    split; [exact L|]. cbv beta. unfold shows. rewrite !map_app. fold (shows o E s) (shows o E s'). rewrite (shows_veiled o Q E _ _ V). reflexivity.
  - do 4 eexists.
    split; [apply (secret_old_unknown o E v0 a0 (not_five v0 N) y chk M C)|]. split; [apply (secret_old_unknown o E v0 a0 (not_five v0 N) y' chk M C)|].
    split; [reflexivity|]. cbv beta. rewrite (unknown_secret_len a0 _ _ L). reflexivity.
  - do 4 eexists.
    split; [apply (secret_old_enc o E v0 a0 (not_five v0 N) u c x s iv ct U W I)|]. split; [apply (secret_old_enc o E v0 a0 (not_five v0 N) u c x s iv ct' U W I)|].
    split; [reflexivity|]. cbv beta. rewrite (sealed_len a0 _ _ L). reflexivity.
  - pose proof (material_veiled _ _ _ _ V M) as M'.
    assert (lenN (encs s ++ y) = lenN (encs s' ++ y')) as LE by (unfold lenN, same_length in *; rewrite !app_length, (encs_veiled _ _ V), L; reflexivity).
    do 4 eexists.
    split; [apply (secret_five o a0 x00 _ _ _ _ _ (five_none o 0 _) (material_five_plain o E a0 (encs s ++ y) y _ chk x (leaves_runs _ _ _ _ _ _ (runs_parseSec o E a0 s M)) Z C (fun B => suf_app B (encs s) y)))|].
    split; [apply (secret_five o a0 x00 _ _ _ _ _ (five_none o 0 _) (material_five_plain o E a0 (encs s' ++ y') y' _ chk x' (leaves_runs _ _ _ _ _ _ (runs_parseSec o E a0 s' M')) ltac:(rewrite <- LE; exact Z) C (fun B => suf_app B (encs s') y')))|].
    split; [exact Lx|]. cbv beta. rewrite (shows_veiled o Q E _ _ V), (surplus_len o Q _ _ _ L). reflexivity.
  - assert (b2n u <> 0) as U0 by (apply usage_tests in U; lia).
    assert (lenN (optional_octets c x s ++ y') < 256) as S' by (unfold lenN, same_length in *; rewrite app_length in *; lia).
    assert (0 < lenN ct' < 2 ^ 32) as Z' by (rewrite <- (lenN_same _ _ Lc); exact Z).
    do 4 eexists.
    split; [apply (secret_five o a0 u _ _ _ _ _ (five_opts o E (b2n u) c x s y iv _ S U W I) (material_five_enc o a0 (b2n u) ct z U0 Z))|].
    split; [apply (secret_five o a0 u _ _ _ _ _ (five_opts o E (b2n u) c x s y' iv _ S' U W I) (material_five_enc o a0 (b2n u) ct' z' U0 Z'))|].
    split; [exact Lz|]. cbv beta. rewrite (surplus_len o Q _ _ _ L), (sealed_len a0 _ _ Lc). reflexivity.
Qed.
Lemma secrets_alike tag v hd hd' d d' a ec P : secret_tag tag -> secret_veiled v a d d' -> length hd = length hd' ->
  leaves (pub_parse o E (PubVer v)) hd d a ec (adds P) -> leaves (pub_parse o E (PubVer v)) hd' d' a ec (adds P) -> P_packet tag (v :: hd) (v :: hd').
Proof.
  intros T S L F F'. destruct (secret_alike v a d d' S) as (x & x' & ei & ei' & R & R' & Lx & Ee).
  apply by_equal; [|cbn [length]; lia]. intros cs Z Z' _.
  rewrite (parse_secret o E tag v hd d x a ec P ei cs T F R Z), (parse_secret o E tag v hd' d' x' a ec P ei' cs T F' R' Z').
  assert (same_length (v :: hd) (v :: hd')) as SL by (unfold same_length; cbn [length]; lia).
  rewrite (packet_shown_len o Q _ _ _ _ SL), (surplus_len o Q _ _ _ Lx), Ee. reflexivity.
Qed.

Theorem veiled_packets :
  (forall tag b b', packet_veiled E tag b b' -> P_packet tag b b') /\
  (forall ty b b', sub_veiled E ty b b' -> P_sub ty b b') /\
  (forall l l', subs_veiled E l l' -> P_subs l l') /\
  (forall l l', packets_veiled E l l' -> P_packets l l').
Proof.
  apply (veiled_ind E P_packet P_sub P_subs P_packets).
  - intros tag b cs _ _. apply same_outcome_refl.
  - intros tag b b' H L. apply by_equal; [|exact L]. intros cs Z Z' _. destruct H as [H|H].
    + cbn [In] in H. repeat destruct H as [<-|H]; [..|destruct H].
      * rewrite !C21_encrypted by assumption. rewrite (packet_shown_len o Q 9 _ _ _ L), (off_debug o Q), (lenN_same _ _ L). reflexivity.
      * rewrite !C51_marker by assumption. unfold data_shown. rewrite (packet_shown_len o Q 10 _ _ _ L), (off_marker o Q), (lenN_same _ _ L). reflexivity.
      * rewrite !C21_protected by assumption. rewrite (packet_shown_len o Q 18 _ _ _ L), (off_debug o Q), (lenN_same _ _ L). reflexivity.
      * rewrite !C21_mdc by assumption. rewrite (packet_shown_len o Q 19 _ _ _ L), (off_debug o Q). reflexivity.
    + rewrite !C28_unknown_packet by assumption. rewrite (packet_shown_len o Q tag _ _ _ L). reflexivity.
  - intros f name t d d' Hn Ht L. apply by_equal; [|sl]. intros cs Z Z' _. destruct (text_shown_exists (str "File name") (oLiteral o) name) as [it T].
    rewrite (C51_literal o E cs f name t d it Hn Ht T Z), (C51_literal o E cs f name t d' it Hn Ht T Z').
    assert (same_length (literal_octets f name t ++ d) (literal_octets f name t ++ d')) as SL by sl.
    rewrite (packet_shown_len o Q 11 _ _ _ SL). unfold data_shown. rewrite (off_lit o Q), (lenN_same _ _ L). reflexivity.
  - intros a z z' L O cs Z _. rewrite (opened_items a z z' cs L O Z). apply same_outcome_refl.
  - intros v id a l l' x x' Hi M V L. pose proof (material_veiled _ _ _ _ V M) as M'. apply by_equal; [|sl]. intros cs Z Z' _.
    rewrite (C21_pubkey_session o E cs v id a l x Hi M Z), (C21_pubkey_session o E cs v id a l' x' Hi M' Z').
    assert (same_length (encs ([FVersion KPubSession v; FKeyID id; FPub a] ++ l) ++ x) (encs ([FVersion KPubSession v; FKeyID id; FPub a] ++ l') ++ x')) as SL by sl.
    rewrite (packet_shown_len o Q 1 _ _ _ SL). rewrite (surplus_len o Q _ _ _ L). unfold shows. rewrite !map_app. fold (shows o E l) (shows o E l'). rewrite (shows_veiled o Q E _ _ V). reflexivity.
  - intros v id a x x' Hi M L. apply by_equal; [|sl]. intros cs Z Z' _.
    rewrite (C21_pubkey_session_unknown o E cs v id a x Hi M Z), (C21_pubkey_session_unknown o E cs v id a x' Hi M Z').
    assert (same_length (encs [FVersion KPubSession v; FKeyID id; FPub a] ++ x) (encs [FVersion KPubSession v; FKeyID id; FPub a] ++ x')) as SL by sl.
    rewrite (packet_shown_len o Q 1 _ _ _ SL), (surplus_len o Q _ _ _ L), (unknown_len o Q _ _ _ L). reflexivity.
  - intros a s x x' W L. apply by_equal; [|sl]. intros cs Z Z' _.
    rewrite (C21_symkey_session o E cs a s x W Z), (C21_symkey_session o E cs a s x' W Z').
    assert (same_length (encs [FVersion KSymSession x04; FSym a] ++ s2k_enc s ++ x) (encs [FVersion KSymSession x04; FSym a] ++ s2k_enc s ++ x')) as SL by sl.
    rewrite (packet_shown_len o Q 3 _ _ _ SL), (surplus_len o Q _ _ _ L). reflexivity.
  - intros v x x' W L. apply by_equal; [|sl]. intros cs Z Z' _.
    rewrite (C21_symkey_session_other o E cs v x W Z), (C21_symkey_session_other o E cs v x' W Z').
    assert (same_length (v :: x) (v :: x')) as SL by sl.
    rewrite (packet_shown_len o Q 3 _ _ _ SL), (surplus_len o Q _ _ _ L). reflexivity.
  - intros v s h a id l x x' W L. apply by_equal; [|sl]. intros cs Z Z' _.
    rewrite (C21_one_pass o E cs v s h a id l x W Z), (C21_one_pass o E cs v s h a id l x' W Z').
    assert (same_length (encs [FVersion KOnePass v; FSigType s; FHash h; FPub a; FKeyID id; FLast l] ++ x) (encs [FVersion KOnePass v; FSigType s; FHash h; FPub a; FKeyID id; FLast l] ++ x')) as SL by sl.
    rewrite (packet_shown_len o Q 4 _ _ _ SL), (surplus_len o Q _ _ _ L). reflexivity.
  - intros v s a c nonce x x' W LN L. apply by_equal; [|sl]. intros cs Z Z' _.
    rewrite (C21_aead_partial o E cs v s a c nonce x W LN Z), (C21_aead_partial o E cs v s a c nonce x' W LN Z').
    assert (same_length (encs [FVersion KAead v; FSym s; FAead a; FChunk c; FDumped "IV" nonce] ++ x) (encs [FVersion KAead v; FSym s; FAead a; FChunk c; FDumped "IV" nonce] ++ x')) as SL by sl.
    rewrite (packet_shown_len o Q 20 _ _ _ SL), (surplus_len o Q _ _ _ L). reflexivity.
  - intros tag t days a l l' x x' T Ht Hd M V L. pose proof (material_veiled _ _ _ _ V M) as M'. apply by_equal; [|sl]. intros cs Z Z' _.
    rewrite (C24_v3 o E cs tag t days a l x T Ht Hd M Z), (C24_v3 o E cs tag t days a l' x' T Ht Hd M' Z').
    assert (same_length (encs (FVersion KPublicKey x03 :: key_fields 3 t days a l) ++ x) (encs (FVersion KPublicKey x03 :: key_fields 3 t days a l') ++ x')) as SL by sl.
    rewrite (packet_shown_len o Q _ _ _ _ SL), (surplus_len o Q _ _ _ L). unfold key_fields, shows. cbn [map app N.eqb Pos.eqb]. fold (shows o E l) (shows o E l').
    rewrite (shows_veiled o Q E _ _ V). reflexivity.
  - intros tag t a l l' x x' T Ht M V L. pose proof (material_veiled _ _ _ _ V M) as M'. apply by_equal; [|sl]. intros cs Z Z' _.
    rewrite (C24_v4 o E cs tag t a l x T Ht M Z), (C24_v4 o E cs tag t a l' x' T Ht M' Z').
    assert (same_length (encs (FVersion KPublicKey x04 :: key_fields 4 t 0 a l) ++ x) (encs (FVersion KPublicKey x04 :: key_fields 4 t 0 a l') ++ x')) as SL by sl.
    rewrite (packet_shown_len o Q _ _ _ _ SL), (surplus_len o Q _ _ _ L). unfold key_fields, shows. cbn [map app N.eqb Pos.eqb]. fold (shows o E l) (shows o E l').
    rewrite (shows_veiled o Q E _ _ V). reflexivity.
  - intros tag t a l l' x x' T Ht LE M V L. pose proof (material_veiled _ _ _ _ V M) as M'.
    assert (lenN (encs l) = lenN (encs l')) as EL by (unfold lenN; rewrite (encs_veiled _ _ V); reflexivity).
    apply by_equal; [|sl]. intros cs Z Z' _.
    rewrite (C24_v5 o E cs tag t a l x T Ht LE M Z), (C24_v5 o E cs tag t a l' x' T Ht ltac:(rewrite <- EL; exact LE) M' Z').
    assert (same_length (x05 :: be_enc 4 t ++ a :: be_enc 4 (lenN (encs l)) ++ encs l ++ x) (x05 :: be_enc 4 t ++ a :: be_enc 4 (lenN (encs l')) ++ encs l' ++ x')) as SL by sl.
    rewrite (packet_shown_len o Q _ _ _ _ SL), (surplus_len o Q _ _ _ L). unfold key_fields, shows. cbn [map app N.eqb Pos.eqb]. fold (shows o E l) (shows o E l').
    rewrite (shows_veiled o Q E _ _ V). reflexivity.
  - intros tag t a x x' T Ht M L. apply by_equal; [|sl]. intros cs Z Z' _.
    rewrite (C24_unknown_algorithm o E cs tag t a x T Ht M Z), (C24_unknown_algorithm o E cs tag t a x' T Ht M Z').
    assert (same_length (encs [FVersion KPublicKey x04; FTime "Public key creation time" t; FPub a] ++ x) (encs [FVersion KPublicKey x04; FTime "Public key creation time" t; FPub a] ++ x')) as SL by sl.
    rewrite (packet_shown_len o Q _ _ _ _ SL), (surplus_len o Q _ _ _ L), (unknown_len o Q _ _ _ L). reflexivity.
  - intros tag t days a x x' T Ht Hd M L. apply by_equal; [|sl]. intros cs Z Z' _.
    rewrite (C24_v3_unknown_algorithm o E cs tag t days a x T Ht Hd M Z), (C24_v3_unknown_algorithm o E cs tag t days a x' T Ht Hd M Z').
    assert (same_length (x03 :: be_enc 4 t ++ be_enc 2 days ++ a :: x) (x03 :: be_enc 4 t ++ be_enc 2 days ++ a :: x')) as SL by sl.
    rewrite (packet_shown_len o Q _ _ _ _ SL), (surplus_len o Q _ _ _ L), (unknown_len o Q _ _ _ L). reflexivity.
  - intros tag t a m m' x x' T Ht Hm M Lm L. assert (lenN m' < 2 ^ 32) as Hm' by (rewrite <- (lenN_same _ _ Lm); exact Hm). apply by_equal; [|sl]. intros cs Z Z' _.
    rewrite (C24_v5_unknown_algorithm o E cs tag t a m x T Ht Hm M Z), (C24_v5_unknown_algorithm o E cs tag t a m' x' T Ht Hm' M Z').
    assert (same_length (x05 :: be_enc 4 t ++ a :: be_enc 4 (lenN m) ++ m ++ x) (x05 :: be_enc 4 t ++ a :: be_enc 4 (lenN m') ++ m' ++ x')) as SL by sl.
    rewrite (packet_shown_len o Q _ _ _ _ SL), (surplus_len o Q _ _ _ L), (unknown_len o Q _ _ _ Lm). reflexivity.
  - intros tag v x x' T N L. apply by_equal; [|sl]. intros cs Z Z' _.
    rewrite (C24_unknown_version o E cs tag v x T N Z), (C24_unknown_version o E cs tag v x' T N Z').
    assert (same_length (v :: x) (v :: x')) as SL by sl.
    rewrite (packet_shown_len o Q _ _ _ _ SL), (surplus_len o Q _ _ _ L). reflexivity.
  - intros tag v t days a l l' d d' T K V S. assert (key_ok v t days a l') as K' by (destruct K as (K1 & K2 & K3 & K4); repeat split; try assumption; exact (material_veiled _ _ _ _ V K4)).
    eapply (secrets_alike tag v); [exact T | exact S | rewrite !app_length, (secret_veiled_length _ _ _ _ S), (public_part_length _ _ _ _ _ _ V); reflexivity | exact (key_part o E v t days a l d K)|].
    pose proof (key_part o E v t days a l' d' K') as F.
    assert (public_part_shown o E v t days a l = public_part_shown o E v t days a l') as X; [|rewrite X; exact F].
    unfold public_part_shown, key_fields, shows. cbn [map]. rewrite !map_app. cbn [map]. fold (shows o E l) (shows o E l'). rewrite (shows_veiled o Q E _ _ V). reflexivity.
  - intros tag t days a d d' T Ht Hd M S. pose proof (secret_veiled_length _ _ _ _ S) as L.
    eapply (secrets_alike tag x03); [exact T | exact S | rewrite !app_length; cbn [length]; lia | exact (leaves_pub_unknown3 o E t days a d Ht Hd M)|].
    rewrite (unknown_len o Q _ d d' L). exact (leaves_pub_unknown3 o E t days a d' Ht Hd M).
  - intros tag t a d d' T Ht M S. pose proof (secret_veiled_length _ _ _ _ S) as L.
    eapply (secrets_alike tag x04); [exact T | exact S | rewrite !app_length; cbn [length]; lia | exact (leaves_pub_unknown o E t a d Ht M)|].
    rewrite (unknown_len o Q _ d d' L). exact (leaves_pub_unknown o E t a d' Ht M).
  - intros tag t a m m' d d' T Ht Hm M Lm S. pose proof (secret_veiled_length _ _ _ _ S) as L.
    eapply (secrets_alike tag x05); [exact T | exact S | unfold same_length in *; repeat (rewrite ?app_length; cbn [length]); rewrite !be_enc_length; lia | exact (leaves_pub_unknown5 o E t a m d Ht Hm M)|].
    rewrite (unknown_len o Q _ m m' Lm). apply (leaves_pub_unknown5 o E t a m' d' Ht); [rewrite <- (lenN_same _ _ Lm); exact Hm | exact M].
  - intros tag v d d' T N S. pose proof (secret_veiled_length _ _ _ _ S) as L.
    eapply (secrets_alike tag v); [exact T | exact S | exact L | exact (leaves_pub_other o E v d N) | exact (leaves_pub_other o E v d' N)].
  - intros v t a h A1 A1' A2 A2' h2 l l' x x' s1 s1' s2 s2' Hv H2 M V L1 L2 M1 M2 S1 S1' S2 S2' _ P1 _ P2 L.
    pose proof (material_veiled _ _ _ _ V M) as M'. pose proof (encs_veiled _ _ V) as LE.
    assert (same_length (sig_octets v t a h A1 A2 h2 l ++ x) (sig_octets v t a h A1' A2' h2 l' ++ x')) as SL by sl.
    pose proof (signatures v t a h A1 A1' A2 A2' (h2 ++ encs l ++ x) (h2 ++ encs l' ++ x') s1 s1' s2 s2' Hv L1 L2 M1 M2 S1 S1' S2 S2' P1 P2
      ltac:(unfold same_length in *; rewrite !app_length; lia)) as K. cbv zeta in K.
    assert (forall A B m y, v :: t :: a :: h :: be_enc 2 (lenN A) ++ A ++ be_enc 2 (lenN B) ++ B ++ h2 ++ encs m ++ y = sig_octets v t a h A B h2 m ++ y) as EQ
      by (intros; unfold sig_octets; cbn [app]; rewrite <- !app_assoc; reflexivity).
    rewrite !EQ in K. apply K. clear K EQ. intros cs r1 cs1 r2 cs2 Z Z' D R1 R1' R2 R2'.
    rewrite (C22_signature o E cs v t a h A1 A2 h2 l x s1 s2 r1 r2 cs1 cs2) by assumption.
    rewrite (C22_signature o E cs v t a h A1' A2' h2 l' x' s1' s2' r1 r2 cs1 cs2) by (assumption || (rewrite <- (lenN_same _ _ M1); assumption) || (rewrite <- (lenN_same _ _ M2); assumption)).
    rewrite (packet_shown_len o Q _ _ _ _ SL), (surplus_len o Q _ _ _ L), (sig_area_len o Q _ _ _ _ M1), (sig_area_len o Q _ _ _ _ M2).
    unfold shows at 2 4. cbn [map]. fold (shows o E l) (shows o E l'). rewrite (shows_veiled o Q E _ _ V). reflexivity.
  - intros v t a h A1 A1' A2 A2' h2 x x' s1 s1' s2 s2' Hv H2 M L1 L2 M1 M2 S1 S1' S2 S2' _ P1 _ P2 L.
    assert (same_length (sig_octets v t a h A1 A2 h2 [] ++ x) (sig_octets v t a h A1' A2' h2 [] ++ x')) as SL by sl.
    pose proof (signatures v t a h A1 A1' A2 A2' (h2 ++ x) (h2 ++ x') s1 s1' s2 s2' Hv L1 L2 M1 M2 S1 S1' S2 S2' P1 P2
      ltac:(unfold same_length in *; rewrite !app_length; lia)) as K. cbv zeta in K.
    assert (forall A B y, v :: t :: a :: h :: be_enc 2 (lenN A) ++ A ++ be_enc 2 (lenN B) ++ B ++ h2 ++ y = sig_octets v t a h A B h2 [] ++ y) as EQ
      by (intros; unfold sig_octets; cbn [app]; rewrite <- !app_assoc; reflexivity).
    rewrite !EQ in K. apply K. clear K EQ. intros cs r1 cs1 r2 cs2 Z Z' D R1 R1' R2 R2'.
    rewrite (C22_unknown_algorithm o E cs v t a h A1 A2 h2 x s1 s2 r1 r2 cs1 cs2) by assumption.
    rewrite (C22_unknown_algorithm o E cs v t a h A1' A2' h2 x' s1' s2' r1 r2 cs1 cs2) by (assumption || (rewrite <- (lenN_same _ _ M1); assumption) || (rewrite <- (lenN_same _ _ M2); assumption)).
    rewrite (packet_shown_len o Q _ _ _ _ SL), (surplus_len o Q _ _ _ L), (unknown_len o Q _ _ _ L), (sig_area_len o Q _ _ _ _ M1), (sig_area_len o Q _ _ _ _ M2). reflexivity.
  - intros t tm id a h h2 l l' x x' Ht Hi H2 M V L. pose proof (material_veiled _ _ _ _ V M) as M'. apply by_equal; [|sl]. intros cs Z Z' _.
    rewrite (C22_version_3 o E cs t tm id a h h2 l x Ht Hi H2 M Z), (C22_version_3 o E cs t tm id a h h2 l' x' Ht Hi H2 M' Z').
    assert (same_length (x03 :: x05 :: t :: be_enc 4 tm ++ id ++ a :: h :: h2 ++ encs l ++ x) (x03 :: x05 :: t :: be_enc 4 tm ++ id ++ a :: h :: h2 ++ encs l' ++ x')) as SL by sl.
    rewrite (packet_shown_len o Q _ _ _ _ SL), (surplus_len o Q _ _ _ L). unfold shows at 2 4. rewrite !map_app. fold (shows o E l) (shows o E l'). rewrite (shows_veiled o Q E _ _ V). reflexivity.
  - intros v x x' N L. apply by_equal; [|sl]. intros cs Z Z' _.
    rewrite (C22_other_version o E cs v x N Z), (C22_other_version o E cs v x' N Z').
    assert (same_length (v :: x) (v :: x')) as SL by sl.
    rewrite (packet_shown_len o Q _ _ _ _ SL), (surplus_len o Q _ _ _ L). reflexivity.
  - intros area area' l l' LA L S S' F cs Z D.
    assert (lenN area' < 2 ^ 32) as LA' by (rewrite <- (lenN_same _ _ L); exact LA).
    pose proof (attributes_alike l l' F cs (all_sized_of _ _ (subs_sizes _ _ S) Z)) as R.
    assert (sized area') as Z' by (unfold sized, lenZ in *; rewrite <- L; exact Z).
    pose proof (attributes_unfold o E area l cs LA D S) as H. pose proof (attributes_unfold o E area' l' cs LA' D S') as H'. rewrite <- R in H'.
    assert (forall r, area_shown o "Subpacket" area r = area_shown o "Subpacket" area' r) as EA
      by (intro r; unfold area_shown; rewrite (off_debug o Q), (lenN_same _ _ L); reflexivity).
    assert (map_res (fun r => (packet_shown o 17 area [area_shown o "Subpacket" area r], @None bytes)) (fst (sub_list o E 17 l cs)) =
            map_res (fun r => (packet_shown o 17 area' [area_shown o "Subpacket" area' r], None)) (fst (sub_list o E 17 l cs))) as ER.
    { destruct (fst (sub_list o E 17 l cs)); cbn [map_res]; [rewrite EA, (packet_shown_len o Q 17 _ _ _ L)|..]; reflexivity. }
    rewrite ER in H. apply same_outcome_item. destruct H as [H1 H2], H' as [H3 H4]. cbn [fst snd] in *. split; [congruence|].
    intro N. rewrite (H2 N). symmetry. apply H4. congruence.
  - intros ty b. split; [reflexivity|]. intros cs _ _. apply same_outcome_refl.
  - intros ty b b' T L. split; [exact L|]. intros cs _ _. rewrite !(C28_unknown_subpacket o E ty) by assumption. rewrite (sub_shown_len o Q _ _ _ _ L). apply same_outcome_refl.
  - intros ty b b' T L. split; [exact L|]. intros cs Z _.
    assert (lenN b' < 65536) as Z' by (rewrite <- (lenN_same _ _ L); exact Z).
    rewrite (C49_content o E ty cs b _ cs (rd_digests o E ty cs b T) (small_sized b Z)), (C49_content o E ty cs b' _ cs (rd_digests o E ty cs b' T) (small_sized b' Z')).
    rewrite (sub_shown_len o Q _ _ _ _ L), (off_cert o Q), (lenN_same _ _ L). apply same_outcome_refl.
  - intros ty b b' T V IH. pose proof (packet_veiled_length _ _ _ _ V) as L. split; [exact L|]. intros cs Z D.
    rewrite !(C49_embedded o E ty) by assumption. specialize (IH cs (small_sized b Z) D).
    destruct (parse_tag o E 2 b cs) as [[[i x]|e| |] c], (parse_tag o E 2 b' cs) as [[[i' x']|e'| |] c']; destruct IH as [H1 H2];
      cbn [item_only map_res fst snd] in *; inversion H1; subst; (split; [|intro K; apply H2; discriminate || (exfalso; apply K; reflexivity)]); cbn [fst map_res]; try reflexivity.
    rewrite (sub_shown_len o Q _ _ _ _ L). reflexivity.
  - intros ty w w' l l' T L P P' _ IH. assert (same_length (x00 :: w) (x00 :: w')) as SL by sl. split; [exact SL|]. intros cs Z D.
    assert (lenN (x00 :: w') < 65536) as Z' by (rewrite <- (lenN_same _ _ SL); exact Z).
    rewrite (C34_complete o E ty l w cs T (small_sized _ Z) P), (C34_complete o E ty l' w' cs T (small_sized _ Z') P').
    assert (sized w) as ZW by (refine (small_sized w _); unfold lenN in *; cbn [length] in *; lia).
    specialize (IH cs (all_sized_of _ _ (packets_sizes _ _ P) ZW) D).
    destruct (flat_list o E l cs) as [[r|e| |] c], (flat_list o E l' cs) as [[r'|e'| |] c']; destruct IH as [H1 H2];
      cbn [map_res fst snd] in *; inversion H1; subst; (split; [|intro K; apply H2; discriminate || (exfalso; apply K; reflexivity)]); cbn [fst map_res]; try reflexivity.
    unfold key_shown. rewrite (sub_shown_len o Q _ _ _ _ SL), (off_debug o Q), (lenN_same _ _ L). reflexivity.
  - intros cs _ _. apply same_outcome_refl.
  - intros ty b b' l l' _ H1 _ H2. exact (one_sub ty b b' l l' H1 H2).
  - intros cs _ _. apply same_outcome_refl.
  - intros tag b b' l l' _ H1 _ H2. exact (one_packet tag b b' l l' H1 H2).
Qed.
End Main.

(** ** Whole inputs *)
Lemma packets_parse_item o E tag b cs : tag <> 8 -> packets_parse o E tag b cs = item_only (parse_tag o E tag b cs).
Proof.
  intro N. unfold packets_parse. destruct (parse_tag o E tag b cs) as [[[j x]|e| |] c] eqn:R; try reflexivity.
  assert (x = None) as ->; [|reflexivity].
  destruct (parse_tag_body o E tag b cs) as [rec W]. rewrite W in R. destruct (tag_of_body _ _ _ _ _ _ _ _ _ R) as (s & T & _).
  revert T N. unfold tag_m. destruct tag as [|p]; [intros T _; exact (CompL.no_data_none _ _ _ _ T)|].
  do 5 (try (destruct p as [p|p|])); intros T N8; try exact (CompL.no_data_none _ _ _ _ T); congruence.
Qed.
Lemma input_sizes l w : input_of l w -> sized w -> all_sized l.
Proof.
  intros I Z. destruct I as [l w P | l w tag body P T]; [exact (all_sized_of _ _ (packets_sizes _ _ P) Z)|].
  apply Forall_app. split.
  - refine (all_sized_of _ _ (packets_sizes _ _ P) _). unfold sized, lenZ in *. rewrite app_length in Z. lia.
  - constructor; [|constructor]. cbn [snd]. unfold sized, lenZ in *. rewrite app_length in Z. cbn [length] in Z. lia.
Qed.
Lemma contents_sized E a z d : contents E (a :: z) d -> sized (a :: z) -> sized d.
Proof.
  intros C Z. inversion C; subst; unfold sized, lenZ, lenN in *; [cbn [length] in Z; lia|]. change (2 ^ 62)%Z with 4611686018427387904%Z.
  change (2 ^ 30) with 1073741824 in *. lia.
Qed.
Lemma dates_parse o E tag b cs i c : sized b -> four_octet_dates cs -> packets_parse o E tag b cs = (ROk i, c) -> four_octet_dates c.
Proof.
  intros Z D H. assert (parse_list o E [(tag, b)] cs = ([i], ROk tt)) as R by (cbn [parse_list]; rewrite H; reflexivity).
  assert (all_sized [(tag, b)]) as A by (constructor; [exact Z | constructor]).
  destruct (stream_meets o E _ cs _ A D R) as [evs M]. pose proof (proj2 (state_after o E _ _ M cs [i] A D R)) as K.
  cbn [list_state] in K. rewrite H in K. exact K.
Qed.
