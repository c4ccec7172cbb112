(** * PropReframeSub: how the lengths of sub-packets are written makes no difference to what is shown of them (C81). *)
From Coq Require Import Strings.String Strings.Byte List NArith ZArith Bool Lia ZifyBool ZifyN ZifyNat.
From Verif Require Import Base BaseL SpecBase Item Reader Context Env Time Values Opaque Monad MonadL Subs Tags Parse SubParse
  SpecValues SpecPacket SpecNest SpecSub SpecParse SpecComp SigL SubL UnfoldL PropParse PropPacket PropSig SpecHidden HiddenL SpecReframe Witness.
Import ListNotations.
Local Open Scope N_scope.

Lemma subs_none w : subs_in [] w -> w = [].
Proof. intro H. inversion H. reflexivity. Qed.
Lemma subs_some p l w : subs_in (p :: l) w -> w <> [].
Proof. intro H. inversion H as [|ty body len l' w' L]; subst. destruct L; discriminate. Qed.
Lemma field_same l : Forall2 field_alike l l.
Proof. induction l; constructor; [left; reflexivity | assumption]. Qed.
Lemma area_alike o name l A B r : oDebug o = false -> In (str name) [str "Hashed Subpacket"; str "Unhashed Subpacket"; str "Subpacket"] -> subs_in l A -> subs_in l B ->
  Forall2 field_alike (sig_area_shown o name A r) (sig_area_shown o name B r).
Proof.
  intros D N HA HB. destruct l as [|p l].
  - apply subs_none in HA, HB. subst. constructor.
  - apply subs_some in HA, HB. destruct A, B; try congruence. cbn [sig_area_shown]. constructor; [|constructor]. right. unfold area_shown. rewrite D. cbn. tauto.
Qed.
Lemma packets_shown_alike o body body' f f' : oDebug o = false -> Forall2 field_alike f f' -> packet_alike (packet_shown o 2 body f) (packet_shown o 2 body' f').
Proof. intros D F. unfold packet_shown, packet_alike. change ((60 <=? 2) && (2 <=? 63)) with false. cbv iota. rewrite D. cbn [i_name i_value i_dump i_items dump_if]. repeat split. exact F. Qed.
Lemma outcomes_alike (x y : res (item * option bytes) * cst) : same_outcome x y -> fst x <> RFuel -> ends_alike x y.
Proof.
  intros [F S] N. destruct x as [x c], y as [y c']. cbn [fst snd] in *. subst y. unfold ends_alike. cbn [fst snd]. destruct x as [[i d]|e| |]; [| |exact Logic.I|congruence].
  - split; [|split; [reflexivity | apply S; discriminate]]. repeat split. apply field_same.
  - split; [reflexivity | apply S; discriminate].
Qed.
Lemma tag_ends o E tag body cs : sized body -> four_octet_dates cs -> fst (parse_tag o E tag body cs) <> RFuel.
Proof. intros Z D. apply (C03_budget o E tag body cs (S (length body)) Z D). lia. Qed.

(** C81.  Two signatures of version 4 or 5 with the same fields and the same sub-packets, the lengths of the sub-packets written in any way (one, two or five octets):
    they are shown alike, apart from the number of octets noted beside the packet and its areas; or both fail alike; or both crash. *)
Theorem C81_signature : forall (o : opts) (E : env) (cs : cst) (v t a h : byte) (A1 A2 B1 B2 h2 : bytes) (l : list field) (extra : bytes) (l1 l2 : list (byte * bytes)),
  oDebug o = false -> b2n v = 4 \/ b2n v = 5 -> length h2 = 2%nat -> material sig_layout a l ->
  lenN A1 < 65536 -> lenN A2 < 65536 -> lenN B1 < 65536 -> lenN B2 < 65536 ->
  subs_in l1 A1 -> subs_in l1 B1 -> subs_in l2 A2 -> subs_in l2 B2 ->
  sized (sig_octets v t a h A1 A2 h2 l ++ extra) -> sized (sig_octets v t a h B1 B2 h2 l ++ extra) -> four_octet_dates cs ->
  ends_alike (parse_tag o E 2 (sig_octets v t a h A1 A2 h2 l ++ extra) cs) (parse_tag o E 2 (sig_octets v t a h B1 B2 h2 l ++ extra) cs).
Proof.
  intros o E cs v t a h A1 A2 B1 B2 h2 l extra l1 l2 ND Hv Hh Hl LA1 LA2 LB1 LB2 SA1 SB1 SA2 SB2 ZA ZB D.
  assert (forall X Y, sig_octets v t a h X Y h2 l ++ extra = v :: t :: a :: h :: be_enc 2 (lenN X) ++ X ++ be_enc 2 (lenN Y) ++ Y ++ (h2 ++ encs l) ++ extra) as EQ
    by (intros; unfold sig_octets; cbn [app]; rewrite <- !app_assoc; reflexivity).
  destruct (sub_list o E 2 l1 cs) as [r1 cs1] eqn:R1.
  assert (match r1 with ROk _ => False | _ => True end \/ exists i1, r1 = ROk i1) as [N|[i1 ->]] by (destruct r1; eauto).
  { apply outcomes_alike; [|apply tag_ends; assumption]. rewrite !EQ in *. apply (sub_list_alike_fails o E v t a h A1 B1 l1 l1 cs _ _ r1 cs1 cs1); auto. }
  destruct (sub_list o E 2 l2 cs1) as [r2 cs2] eqn:R2.
  assert (match r2 with ROk _ => False | _ => True end \/ exists i2, r2 = ROk i2) as [N|[i2 ->]] by (destruct r2; eauto).
  { apply outcomes_alike; [|apply tag_ends; assumption]. rewrite !EQ in *. apply (sub_list_alike_fails2 o E v t a h A1 B1 l1 l1 A2 B2 l2 l2 cs _ _ i1 cs1 r2 cs2 cs2); auto. }
  rewrite (C22_signature o E cs v t a h A1 A2 h2 l extra l1 l2 i1 i2 cs1 cs2), (C22_signature o E cs v t a h B1 B2 h2 l extra l1 l2 i1 i2 cs1 cs2) by assumption.
  split; [|split; reflexivity]. apply packets_shown_alike; [exact ND|].
  apply Forall2_app; [apply field_same|]. apply Forall2_app; [apply (area_alike o _ l1); try assumption; left; reflexivity|].
  apply Forall2_app; [apply (area_alike o _ l2); try assumption; right; left; reflexivity | apply field_same].
Qed.
Print Assumptions C81_signature.

(** C81.  The same for user attributes. *)
Theorem C81_user_attribute : forall (o : opts) (E : env) (cs : cst) (A B : bytes) (l : list (byte * bytes)),
  oDebug o = false -> lenN A < 2 ^ 32 -> lenN B < 2 ^ 32 -> subs_in l A -> subs_in l B -> four_octet_dates cs ->
  ends_alike (parse_tag o E 17 A cs) (parse_tag o E 17 B cs).
Proof.
  intros o E cs A B l ND LA LB SA SB D.
  assert (sized A) as ZA by (unfold sized, lenZ; unfold lenN in LA; lia).
  pose proof (tag_ends o E 17 A cs ZA D) as NF. destruct (attributes_unfold o E A l cs LA D SA) as [FA CA], (attributes_unfold o E B l cs LB D SB) as [FB CB].
  destruct (parse_tag o E 17 A cs) as [x c], (parse_tag o E 17 B cs) as [y c']. cbn [fst snd] in *. subst x y.
  destruct (fst (sub_list o E 17 l cs)) as [r|e| |]; unfold ends_alike; cbn [fst snd map_res] in *; [| |exact Logic.I|congruence].
  - split; [|split; [reflexivity | rewrite CA, CB by discriminate; reflexivity]]. unfold packet_shown, packet_alike, area_shown.
    change ((60 <=? 17) && (17 <=? 63)) with false. cbv iota. rewrite ND. cbn [i_name i_value i_dump i_items dump_if]. do 3 (split; [reflexivity|]).
    constructor; [|constructor]. right. cbn. tauto.
  - split; [reflexivity | rewrite CA, CB by discriminate; reflexivity].
Qed.
Print Assumptions C81_user_attribute.
Example C81_user_attribute_used : let A := [x05; x64; x41; x42; x43; x44] in let B := xff :: be_enc 4 5 ++ [x64; x41; x42; x43; x44] in
  subs_in [(x64, str "ABCD")] A /\ subs_in [(x64, str "ABCD")] B /\ four_octet_dates cst_init /\
  exists i c, parse_tag o_plain env0 17 B cst_init = (ROk (i, None), c) /\ length (i_items i) = 1%nat.
Proof.
  cbv zeta. split; [apply (one_more_sub x64 (str "ABCD") [x05] [] []); [apply (slen_one 5); reflexivity | apply no_sub]|].
  split; [apply (one_more_sub x64 (str "ABCD") (xff :: be_enc 4 5) [] []); [apply (slen_five 5); reflexivity | apply no_sub]|].
  split; [intros d [H|H]; discriminate|]. do 2 eexists. split; vm_compute; reflexivity.
Qed.

(** ** The signature of C22, with lengths of five octets *)
Example C81_signature_used : let B1 := xff :: be_enc 4 5 ++ [x02; x5f; x5e; x10; x00] in let B2 := xff :: be_enc 4 9 ++ [x10; x01; x02; x03; x04; x05; x06; x07; x08] in
  subs_in [(x02, [x5f; x5e; x10; x00])] B1 /\ subs_in [(x10, [x01; x02; x03; x04; x05; x06; x07; x08])] B2 /\ B1 <> sig_area1 /\ B2 <> sig_area2 /\
  sized (sig_octets x04 x00 x01 x08 B1 B2 [xab; xcd] sig_fields ++ []) /\
  exists i c, parse_tag o_plain env0 2 (sig_octets x04 x00 x01 x08 B1 B2 [xab; xcd] sig_fields ++ []) cst_init = (ROk (i, None), c) /\ length (i_items i) = 8%nat.
Proof.
  cbv zeta. split; [apply (one_more_sub x02 [x5f; x5e; x10; x00] (xff :: be_enc 4 5) [] []); [apply (slen_five 5); reflexivity | apply no_sub]|].
  split; [apply (one_more_sub x10 [x01; x02; x03; x04; x05; x06; x07; x08] (xff :: be_enc 4 9) [] []); [apply (slen_five 9); reflexivity | apply no_sub]|].
  split; [discriminate|]. split; [discriminate|]. split; [vm_compute; reflexivity|]. do 2 eexists. split; vm_compute; reflexivity.
Qed.
