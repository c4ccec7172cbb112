(** * C67, second part: whatever is parsed without error is described by SpecShown.v, so that the description is complete. *)
From Coq Require Import Strings.String Strings.Byte List NArith ZArith Bool Lia ZifyBool ZifyN ZifyNat.
From Verif Require Import Base BaseL SpecBase Item Context Env Reader Opaque Parse SpecValues ValuesL SpecPacket SpecFrame SpecSub SubL SpecSubs SpecLiteral SpecSecret SpecNest SpecComp SpecText.
From Verif Require Import SpecAccept AcceptFrameL SpecShown ShownScanL.
From Verif Require Import Tags SpecParse PropSub.
From Verif Require HiddenL PropAccept PropShown PropComp Witness.
Import ListNotations.
Local Open Scope N_scope.

(** ** Areas and blocks *)
Lemma all_inv (sub : byte * bytes -> verdict) s : fold_right (fun p v => both (sub p) v) Accepted s = Accepted -> Forall (fun p => sub p = Accepted) s.
Proof. induction s as [|p s IH]; cbn [fold_right]; [constructor|]. destruct (sub p) eqn:S; [|discriminate..]. intro H. constructor; auto. Qed.
Lemma area_inv sub l : area sub l = Accepted -> lenN l < 2 ^ 32 -> exists s, subs_in s l /\ Forall (fun p => lenN (snd p) < 2 ^ 32) s /\ Forall (fun p => sub p = Accepted) s.
Proof.
  unfold area. intros H L. pose proof (subs_of_ok (length l) l L) as S. destruct (subs_of (length l) l) as [s|]; [|discriminate]. exists s.
  assert (subs_in s l) as I by (apply subpackets_in; assumption). split; [exact I|]. split; [|apply all_inv, H].
  exact (PropShown.all_short _ _ _ _ (PropShown.subs_sizes _ _ I) L).
Qed.
Lemma block_inv o E rec dr : (forall tag b cs, lenN b < 2 ^ 32 -> rec tag b = Accepted -> exists it cs', packet_reads o E tag b cs it cs') ->
  forall fuel l cs, lenN l < 2 ^ 32 -> block rec dr fuel l = Accepted ->
  exists ps w q is cs', l = w ++ q /\ packets_in ps w /\ packets_read o E ps cs is cs' /\ (q = [] \/ (first_packet q = None /\ dr q = true)).
Proof.
  intro HR. induction fuel as [|fuel IH]; intros l cs L H; (destruct l as [|h t]; [exists [], [], [], [], cs; repeat split; auto; constructor|]); [discriminate|].
  cbn [block] in H. destruct (first_packet (h :: t)) as [[[tag b] rest]|] eqn:F.
  - destruct (rec tag b) eqn:R; [|discriminate..]. cbn [both] in H. destruct (first_packet_sound _ _ _ _ F) as (w & FW & Q). rewrite Q in *. pose proof (FramingL.framed_longer _ _ _ FW) as LW. rewrite lenN_app in L.
    destruct (HR tag b cs) as (it & cs1 & P); [unfold lenN in *; lia | exact R|]. destruct (IH rest cs1 ltac:(lia) H) as (ps & w2 & q & is & cs2 & -> & PI & PR & QQ).
    exists ((tag, b) :: ps), (w ++ w2), q, (it :: is), cs2. split; [apply app_assoc|]. split; [constructor; assumption|]. split; [econstructor; eassumption | exact QQ].
  - destruct (b2n h <? 128); [discriminate|]. destruct (dr (h :: t)) eqn:D; [|discriminate]. exists [], [], (h :: t), [], cs. repeat split; auto; constructor.
Qed.

(** ** Sub-packets *)
Lemma sub_inv o E rec : int_sizes (e_grow E) -> (forall tag b cs, lenN b < 2 ^ 32 -> rec tag b = Accepted -> exists it cs', packet_reads o E tag b cs it cs') ->
  forall ty b cs, lenN b < 2 ^ 32 -> sub_verdict rec (lost (e_grow E)) (ty, b) = Accepted -> exists i cs', sub_packet_reads o E ty b cs i cs'.
Proof.
  intros G HR ty b cs L H. destruct (in_dec N.eq_dec (sub_type ty) sub_types) as [I|I]; [|do 2 eexists; apply s_unknown, I].
  unfold sub_verdict in H. fold (sub_type ty) in H.
  assert (forall n, verdict_of (octets n b) = Accepted -> exists d r, b = d ++ r /\ lenN d = n) as B.
  { intros n V. apply found_inv in V as (d & r & V). apply octets_inv in V as [-> V]. eauto. }
  assert (verdict_of (octets 4 b) = Accepted -> exists t r, b = be_enc 4 t ++ r /\ t < 2 ^ 32) as B4.
  { intro V. apply found_inv in V as (d & r & V). apply octets4_inv in V as (t & -> & T & _). eauto. }
  assert (verdict_of (octets 1 b) = Accepted -> exists x r, b = x :: r) as B1.
  { intro V. apply B in V as (d & r & -> & V). destruct d as [|x [|]]; try (exfalso; unfold lenN in V; cbn [length] in V; lia). cbn. eauto. }
  assert (verdict_of (octets 2 b) = Accepted -> exists x y r, b = x :: y :: r) as B2.
  { intro V. apply B in V as (d & r & -> & V). destruct d as [|x [|y [|]]]; try (exfalso; unfold lenN in V; cbn [length] in V; lia). cbn. eauto. }
  cbn [sub_types In] in I. repeat match type of I with _ \/ _ => destruct I as [I|I] end; [..|destruct I]; symmetry in I; rewrite I in H; cbv iota beta in H; cbn [sub_octets] in H.
  - apply B4 in H as (t & r & -> & T). do 2 eexists. apply s_known, rd_created; assumption.
  - apply B4 in H as (t & r & -> & T). do 2 eexists. apply s_known, rd_expires; assumption.
  - apply B1 in H as (x & r & ->). do 2 eexists. apply s_known, rd_exportable; assumption.
  - apply B2 in H as (x & y & r & ->). do 2 eexists. apply s_known, rd_trust; assumption.
  - destruct (HiddenL.text_shown_exists (sub_name ty) (oDebug o) b) as (it & T). do 2 eexists. apply s_known, rd_text; [auto | exact T].
  - apply B1 in H as (x & r & ->). do 2 eexists. apply s_known, rd_revocable; assumption.
  - apply B4 in H as (t & r & -> & T). do 2 eexists. apply s_known, rd_key_expires; assumption.
  - do 2 eexists. apply s_known, rd_symmetric; assumption.
  - apply B2 in H as (x & y & r & ->). do 2 eexists. apply s_known, rd_revoker; assumption.
  - apply B in H as (d & r & -> & LD). do 2 eexists. apply s_known, rd_issuer; [assumption | unfold lenN in LD; lia].
  - apply found_inv in H as (u & r & H). sc H d m V. apply octets_inv in V as [-> LD]. sc H n m2 V. apply number2_inv in V as [-> LN]. sc H k m3 V. apply number2_inv in V as [-> LK].
    sc H name m4 V. apply octets_inv in V as [-> L1]. apply octets_inv in H as [-> L2]. subst n k.
    destruct d as [|f0 [|f1 [|f2 [|f3 [|]]]]]; try (exfalso; unfold lenN in LD; cbn [length] in LD; lia).
    destruct (HiddenL.text_shown_exists (str "Name") (oDebug o) name) as (itn & TN).
    assert (exists itv, notation_value o f0 u itv) as (itv & TV) by (unfold notation_value; destruct (N.testbit (b2n f0) 7); [apply HiddenL.text_shown_exists | eexists; reflexivity]).
    assert ([f0; f1; f2; f3] ++ be_enc 2 (lenN name) ++ be_enc 2 (lenN u) ++ name ++ u ++ r = notation_octets f0 f1 f2 f3 name u ++ r) as -> by (unfold notation_octets; rewrite !app_assoc; reflexivity).
    do 2 eexists. apply s_known. eapply rd_notation; eassumption.
  - do 2 eexists. apply s_known, rd_hash; assumption.
  - do 2 eexists. apply s_known, rd_compression; assumption.
  - apply B1 in H as (x & r & ->). do 2 eexists. apply s_known, rd_keyserver; assumption.
  - destruct (HiddenL.text_shown_exists (sub_name ty) (oDebug o) b) as (it & T). do 2 eexists. apply s_known, rd_text; [auto | exact T].
  - apply B1 in H as (x & r & ->). do 2 eexists. apply s_known, rd_primary; assumption.
  - destruct (HiddenL.text_shown_exists (sub_name ty) (oDebug o) b) as (it & T). do 2 eexists. apply s_known, rd_text; [auto | exact T].
  - apply B1 in H as (x & r & ->). destruct r as [|y r]; do 2 eexists; [apply s_known, rd_key_flags1 | apply s_known, rd_key_flags2]; assumption.
  - destruct (HiddenL.text_shown_exists (sub_name ty) (oDebug o) b) as (it & T). do 2 eexists. apply s_known, rd_text; [auto | exact T].
  - apply B1 in H as (x & r & ->). destruct r as [|y r]; [do 2 eexists; apply s_known, rd_reason; assumption|].
    destruct (HiddenL.text_shown_exists (str "Additional resultrmation") (oDebug o) (y :: r)) as (it & T). do 2 eexists. apply s_known, (rd_reason_text _ _ _ _ _ _ it); [assumption | discriminate | exact T].
  - apply B1 in H as (x & r & ->). do 2 eexists. apply s_known, rd_features; assumption.
  - apply B2 in H as (x & y & r & ->). do 2 eexists. apply s_known, rd_target; assumption.
  - destruct (HR 2 b cs L H) as (it & cs' & R). do 2 eexists. apply s_embedded; eassumption.
  - apply B1 in H as (x & r & ->). do 2 eexists. apply s_known, rd_fingerprint; auto.
  - do 2 eexists. apply s_known, rd_aead; assumption.
  - apply B1 in H as (x & r & ->). do 2 eexists. apply s_known, rd_fingerprint; auto.
  - do 2 eexists. apply s_known, rd_digests; assumption.
  - destruct b as [|v w]; [discriminate|]. destruct (b2n v =? 0) eqn:V0.
    + rewrite (byte_is v 0) by lia. change (n2b 0) with x00. assert (lenN w < 2 ^ 32) as LW by (rewrite lenN_cons in L; lia).
      destruct (block_inv o E rec _ HR _ _ cs LW H) as (ps & w2 & q & is & cs' & -> & PI & PR & [-> | [FN D]]).
      * rewrite app_nil_r. do 2 eexists. eapply s_key_block; eassumption.
      * do 2 eexists. eapply s_key_block_cut; eassumption.
    + do 2 eexists. apply s_key_other; [assumption | lia].
Qed.
Lemma subs_inv o E rec : int_sizes (e_grow E) -> (forall tag b cs, lenN b < 2 ^ 32 -> rec tag b = Accepted -> exists it cs', packet_reads o E tag b cs it cs') ->
  forall l, Forall (fun p => lenN (snd p) < 2 ^ 32) l -> Forall (fun p => sub_verdict rec (lost (e_grow E)) p = Accepted) l ->
  forall cs, exists is cs', subs_read o E l cs is cs'.
Proof.
  intros G HR l. induction l as [|[ty b] l IH]; intros F V cs; [do 2 eexists; constructor|]. inversion F as [|x y F1 F2]; subst. inversion V as [|x y V1 V2]; subst.
  destruct (sub_inv o E rec G HR ty b cs F1 V1) as (i & cs1 & R). destruct (IH F2 V2 cs1) as (is & cs2 & RS). do 2 eexists. econstructor; eassumption.
Qed.
Lemma area_scan_inv o E rec l u r : int_sizes (e_grow E) -> (forall tag b cs, lenN b < 2 ^ 32 -> rec tag b = Accepted -> exists it cs', packet_reads o E tag b cs it cs') ->
  area_scan rec (lost (e_grow E)) l = Found u r ->
  exists A s, l = be_enc 2 (lenN A) ++ A ++ r /\ lenN A < 65536 /\ subs_in s A /\ forall cs, exists is cs', subs_read o E s cs is cs'.
Proof.
  intros G HR H. unfold area_scan in H. sc H n m V. apply number2_inv in V as [-> LN]. sc H A m2 V. apply octets_inv in V as [-> LA]. subst n.
  destruct (area (sub_verdict rec (lost (e_grow E))) A) eqn:AV; [|discriminate..]. apply give_inv in H as [_ <-].
  destruct (area_inv _ _ AV ltac:(change (2 ^ 32) with 4294967296; lia)) as (s & SI & F & V). exists A, s. repeat split; auto. apply subs_inv with rec; assumption.
Qed.
Lemma attribute_inv o ty b : attribute_verdict (ty, b) = Accepted -> exists i, attribute_reads o ty b i.
Proof.
  unfold attribute_verdict. fold (sub_type ty). destruct (sub_type ty =? 1) eqn:T; intro H; [|eexists; apply a_other; lia].
  apply found_inv in H as (q & r & H). sc H d m V. apply octets_inv in V as [-> LD]. sc H n m2 V. apply number1_inv in V as (v & -> & ->). apply octets_inv in H as [-> LQ].
  destruct d as [|x [|y [|]]]; try (exfalso; unfold lenN in LD; cbn [length] in LD; lia). cbn [app]. destruct ((100 <=? b2n v) && (b2n v <=? 110)) eqn:X.
  - destruct q as [|e [|]]; try (exfalso; unfold lenN in LQ; cbn [length] in LQ; lia). eexists. apply a_image; [lia|]. apply image_experimental. lia.
  - destruct (N.eq_dec (b2n v) 1) as [V1|V1]; eexists; (apply a_image; [lia|]); [apply image_1, V1 | apply image_unknown; lia].
Qed.

(** ** Packets *)
Lemma packet_inv o E rec : int_sizes (e_grow E) -> (forall tag b cs, lenN b < 2 ^ 32 -> rec tag b = Accepted -> exists it cs', packet_reads o E tag b cs it cs') ->
  forall tag b u r cs, lenN b < 2 ^ 32 -> packet_scan rec (lost (e_grow E)) (damaged E) tag b = Found u r -> exists it cs', packet_reads o E tag b cs it cs'.
Proof.
  intros G HR tag b u r cs L H. destruct (in_dec N.eq_dec tag packet_tags) as [I|I]; [|do 2 eexists; apply p_unknown, I].
  cbn [packet_tags In] in I. repeat match type of I with _ \/ _ => destruct I as [I|I] end; [..|destruct I]; subst tag; cbn [packet_scan] in H.
  - (* 1 *) sc H d m V. apply octets_inv in V as [-> LD]. destruct d as [|v id]; [discriminate LD|]. sc H n m2 V. apply number1_inv in V as (a & -> & ->).
    destruct (fields_inv o E ses_layout ses_label a _ _ _ (fun s => ses_last _ s) H) as (fs & R). do 2 eexists. eapply p_session; [unfold lenN in LD; cbn [length] in LD; lia | exact R].
  - (* 2 *) sc H n m V. apply number1_inv in V as (v & -> & ->). destruct ((b2n v =? 4) || (b2n v =? 5)) eqn:V45.
    + sc H d m2 V. apply octets_inv in V as [-> LD]. destruct d as [|t [|]]; try (exfalso; unfold lenN in LD; cbn [length] in LD; lia).
      sc H a' m3 V. apply number1_inv in V as (a & -> & ->). sc H d m4 V. apply octets_inv in V as [-> LD2]. destruct d as [|h [|]]; try (exfalso; unfold lenN in LD2; cbn [length] in LD2; lia).
      sc H x m5 V. apply (area_scan_inv o E rec _ _ _ G HR) in V as (A1 & s1 & -> & LA1 & S1 & R1). sc H y m6 V. apply (area_scan_inv o E rec _ _ _ G HR) in V as (A2 & s2 & -> & LA2 & S2 & R2).
      sc H h2 m7 V. apply octets_inv in V as [-> LH]. destruct (fields_inv o E sig_layout sig_label a _ _ _ (fun s Q => mpis_last _ (sig_last _ s Q)) H) as (fs & R).
      destruct (R1 cs) as (r1 & cs1 & Q1). destruct (R2 cs1) as (r2 & cs2 & Q2). cbn [app].
      assert (v :: t :: a :: h :: be_enc 2 (lenN A1) ++ A1 ++ be_enc 2 (lenN A2) ++ A2 ++ h2 ++ m7 = sig_octets v t a h A1 A2 h2 [] ++ m7) as ->.
      { unfold sig_octets, encs. cbn [flat_map app]. rewrite !app_nil_r, <- !app_assoc. rewrite ?app_nil_r. reflexivity. }
      do 2 eexists. eapply p_signature; try eassumption; [lia | unfold lenN in LH; lia].
    + destruct (N.eq_dec (b2n v) 3) as [V3|V3]; [|do 2 eexists; apply p_signature_other; cbn; lia]. rewrite (byte_is v 3 V3). change (n2b 3) with x03.
      destruct m as [|d0 d]; [do 2 eexists; apply p_signature3_version|]. destruct (hashed_total o E (d0 :: d) ltac:(discriminate)) as (it & x & HH). destruct x as [rest|].
      * destruct (tail_total o E rest) as (l & TT). do 2 eexists. eapply p_signature3; eassumption.
      * do 2 eexists. apply p_signature3_cut; eassumption.
  - (* 3 *) sc H n m V. apply number1_inv in V as (v & -> & ->). destruct (b2n v =? 4) eqn:V4; [|do 2 eexists; apply p_symmetric_other; lia].
    sc H d m2 V. apply octets_inv in V as [-> LD]. destruct d as [|a [|]]; try (exfalso; unfold lenN in LD; cbn [length] in LD; lia). sc H iv m3 V. destruct (specifier_inv o _ _ _ V) as (s & R).
    rewrite (byte_is v 4) by lia. do 2 eexists. eapply p_symmetric. exact R.
  - (* 4 *) sc H d m V. apply octets_inv in V as [-> LD]. assert (length d = 13%nat) as L13 by (unfold lenN in LD; lia). clear LD.
    destruct d as [|v [|s [|h [|a d]]]]; try discriminate L13. destruct (exists_last (l := d)) as (id & x & ->); [intros ->; discriminate L13|].
    assert ((v :: s :: h :: a :: id ++ [x]) ++ m = encs [FVersion KOnePass v; FSigType s; FHash h; FPub a; FKeyID id; FLast x] ++ m) as -> by reflexivity.
    do 2 eexists. apply p_one_pass. cbn [length] in L13. rewrite app_length in L13. cbn [length] in L13. lia.
  - (* 5 *) sc H n m V. apply number1_inv in V as (v & -> & ->). sc H a' m2 V. destruct (public_inv o E v _ _ _ V) as (a & t & is & -> & P). destruct (secret_inv o E v a _ _ _ H) as (note & is2 & S).
    do 2 eexists. eapply p_secret; [cbn; auto | exact P | exact S].
  - (* 6 *) sc H n m V. apply number1_inv in V as (v & -> & ->). sc H a' m2 V. destruct (public_inv o E v _ _ _ V) as (a & t & is & -> & P). do 2 eexists. eapply p_public; [cbn; auto | exact P].
  - (* 7 *) sc H n m V. apply number1_inv in V as (v & -> & ->). sc H a' m2 V. destruct (public_inv o E v _ _ _ V) as (a & t & is & -> & P). destruct (secret_inv o E v a _ _ _ H) as (note & is2 & S).
    do 2 eexists. eapply p_secret; [cbn; auto | exact P | exact S].
  - (* 8 *) sc H n m V. apply number1_inv in V as (a & -> & ->). destruct (N.eq_dec (b2n a) 0) as [A0|A0]; [rewrite (byte_is a 0 A0); do 2 eexists; eapply p_compressed; constructor|].
    destruct (N.le_gt_cases (b2n a) 3) as [A3|A3]; [|do 2 eexists; apply p_compressed_unknown; auto]. destruct m as [|z0 z]; [do 2 eexists; apply p_compressed_unknown; auto|].
    unfold look in H. replace ((1 <=? b2n a) && (b2n a <=? 3)) with true in H by lia. cbn [andb] in H. unfold damaged in H.
    destruct (e_inflate E (b2n a) (z0 :: z)) as [|d ok] eqn:EI; [discriminate|]. destruct (N.le_gt_cases (2 ^ 30) (lenN d)) as [LD|LD].
    + do 2 eexists. eapply p_compressed_large; [lia | discriminate | exact EI | exact LD].
    + replace (lenN d <? 2 ^ 30) with true in H by lia. destruct ok; [|discriminate]. do 2 eexists. eapply p_compressed. apply contents_inflated; [lia | discriminate | exact EI | exact LD].
  - do 2 eexists. apply p_encrypted.
  - do 2 eexists. apply p_marker.
  - (* 11 *) sc H d m V. apply octets_inv in V as [-> LD]. destruct d as [|f [|]]; try (exfalso; unfold lenN in LD; cbn [length] in LD; lia). sc H n m2 V. apply number1_inv in V as (k & -> & ->).
    sc H name m3 V. apply octets_inv in V as [-> LN]. sc H d m4 V. apply octets4_inv in V as (t & -> & T & _). pose proof (b2n_lt k). rewrite (byte_is k (lenN name)) by auto.
    destruct (HiddenL.text_shown_exists (str "File name") (oLiteral o) name) as (it & TS).
    assert ([f] ++ n2b (lenN name) :: name ++ be_enc 4 t ++ m4 = literal_octets f name t ++ m4) as -> by (unfold literal_octets, len1; cbn [app]; rewrite <- app_assoc; reflexivity).
    do 2 eexists. eapply p_literal; [lia | exact T | exact TS].
  - do 2 eexists. apply p_trust.
  - destruct (HiddenL.text_shown_exists (str "User ID") (oDebug o) b) as (it & TS). do 2 eexists. eapply p_user_id. exact TS.
  - (* 14 *) sc H n m V. apply number1_inv in V as (v & -> & ->). sc H a' m2 V. destruct (public_inv o E v _ _ _ V) as (a & t & is & -> & P). do 2 eexists. eapply p_public; [cbn; auto | exact P].
  - (* 17 *) unfold look in H. destruct (area attribute_verdict b) eqn:AV; [|discriminate..]. destruct (area_inv _ _ AV L) as (s & SI & _ & V).
    assert (exists is, Forall2 (fun p i => attribute_reads o (fst p) (snd p) i) s is) as (is & F).
    { clear - V. induction V as [|[ty x] s V1 V2 (is & IH)]; [exists []; constructor|]. destruct (attribute_inv o _ _ V1) as (i & A). exists (i :: is). constructor; assumption. }
    do 2 eexists. eapply p_attribute; eassumption.
  - do 2 eexists. apply p_protected.
  - do 2 eexists. apply p_mdc.
  - (* 20 *) sc H d m V. apply octets_inv in V as [-> LD]. destruct d as [|v [|s [|a [|c [|]]]]]; try (exfalso; unfold lenN in LD; cbn [length] in LD; lia).
    set (k := if b2n a =? 2 then 16 else aead_nonce_octets (b2n a)). destruct (N.le_gt_cases k (lenN m)) as [LK|LK].
    + assert (octets k m = Found (firstn (N.to_nat k) m) (skipn (N.to_nat k) m)) as Q by (unfold octets; replace (k <=? lenN m) with true by lia; reflexivity).
      apply octets_inv in Q as [Q LN]. rewrite Q. 
      assert ([v; s; a; c] ++ firstn (N.to_nat k) m ++ skipn (N.to_nat k) m = encs [FVersion KAead v; FSym s; FAead a; FChunk c; FDumped "IV" (firstn (N.to_nat k) m)] ++ skipn (N.to_nat k) m) as ->
        by (unfold encs; cbn [flat_map enc app]; rewrite app_nil_r; reflexivity).
      do 2 eexists. apply p_aead. exact LN.
    + do 2 eexists. apply (p_aead_cut o E v s a c m). exact LK.
Qed.
Lemma fate_reads o E : int_sizes (e_grow E) -> forall depth tag b cs, lenN b < 2 ^ 32 -> fate_depth (lost (e_grow E)) (damaged E) depth tag b = Accepted ->
  exists it cs', packet_reads o E tag b cs it cs'.
Proof.
  intro G. induction depth as [|depth IH]; intros tag b cs L H; [discriminate|]. cbn [fate_depth] in H. apply found_inv in H as (u & r & H).
  exact (packet_inv o E _ G IH tag b u r cs L H).
Qed.

(** C67.  A packet is parsed without error if and only if the specification describes it; the item and what is remembered are those described. *)
Theorem C67_packet_all : forall (o : opts) (E : env) (tag : N) (body : bytes) (cs cs' : cst) (it : item),
  int_sizes (e_grow E) -> lenN body < 2 ^ 32 -> four_octet_dates cs ->
  (packet_reads o E tag body cs it cs' <-> exists x, parse_tag o E tag body cs = (ROk (it, x), cs')).
Proof.
  intros o E tag body cs cs' it G L F. pose proof (PropShown.small_sized _ L) as S. split; [intro R; exact (PropShown.C67_packet o E tag body cs cs' it R S F)|].
  intros (x & P). pose proof (PropAccept.C63_packet o E tag body cs G L) as V. rewrite P in V. cbn [fst] in V.
  destruct (fate (lost (e_grow E)) (damaged E) tag body) eqn:FT; cbn in V; [|destruct V as (e & _ & V); discriminate V | discriminate].
  destruct (fate_reads o E G _ tag body cs L FT) as (it2 & cs2 & R). destruct (PropShown.C67_packet o E tag body cs cs2 it2 R S F) as (x2 & P2).
  rewrite P in P2. injection P2 as <- _ <-. exact R.
Qed.
Print Assumptions C67_packet_all.

(** ** Packets at the top *)
Lemma sequence_inv (judge : N -> bytes -> verdict) : forall fuel l, sequence judge fuel l = Accepted -> exists ps, input_of ps l /\ Forall (fun p => judge (fst p) (snd p) = Accepted) ps.
Proof.
  induction fuel as [|fuel IH]; intros l H; (destruct l as [|h t]; [exists []; split; [apply all_definite|]; constructor|]); [discriminate|].
  cbn [sequence] in H. destruct (first_packet (h :: t)) as [[[tag b] rest]|] eqn:F.
  - destruct (judge tag b) eqn:J; [|discriminate..]. cbn [both] in H. destruct (first_packet_sound _ _ _ _ F) as (w & FW & ->). destruct (IH rest H) as (ps & I & FA).
    exists ((tag, b) :: ps). split; [|constructor; assumption]. destruct I as [ps w2 P | ps w2 tg bd P T]; [apply all_definite; constructor; assumption|].
    rewrite app_assoc. apply (last_to_end ((tag, b) :: ps)); [constructor; assumption | exact T].
  - destruct (b2n h <? 128) eqn:H8; [discriminate|]. destruct ((b2n h <? 192) && (b2n h mod 4 =? 3)) eqn:C; [|discriminate]. exists [((b2n h - 128) / 4, t)]. split; [|repeat constructor; exact H].
    assert (h = n2b (131 + 4 * ((b2n h - 128) / 4))) as Q. { rewrite <- (n2b_b2n h) at 1. f_equal. zify. Z.to_euclidean_division_equations. lia. }
    rewrite Q at 2. apply (last_to_end [] []); [constructor | zify; Z.to_euclidean_division_equations; lia].
Qed.
Lemma packets_all o E : int_sizes (e_grow E) -> forall ps, Forall (fun p => lenN (snd p) < 2 ^ 32) ps -> Forall (fun p => fate (lost (e_grow E)) (damaged E) (fst p) (snd p) = Accepted) ps ->
  forall cs, exists is cs', packets_read o E ps cs is cs'.
Proof.
  intros G ps. induction ps as [|[tag b] ps IH]; intros F V cs; [do 2 eexists; constructor|]. inversion F as [|x y F1 F2]; subst. inversion V as [|x y V1 V2]; subst.
  destruct (fate_reads o E G _ tag b cs F1 V1) as (i & cs1 & R). destruct (IH F2 V2 cs1) as (is & cs2 & RS). do 2 eexists. econstructor; eassumption.
Qed.
Lemma top_inv o E tag b cs : int_sizes (e_grow E) -> lenN b < 2 ^ 32 -> top (lost (e_grow E)) (damaged E) (opened E) tag b = Accepted -> exists it cs', top_reads o E tag b cs it cs'.
Proof.
  intros G L H. unfold top in H. destruct (fate (lost (e_grow E)) (damaged E) tag b) eqn:FT; [|discriminate..]. cbn [both] in H. destruct (fate_reads o E G _ tag b cs L FT) as (it & cs' & R).
  destruct (N.eqb_spec tag 8) as [->|T8]; [|do 2 eexists; apply t_plain; eassumption].
  assert (forall a z d, contents E (a :: z) d -> b = a :: z -> opened E b = Some d -> exists it cs', top_reads o E 8 b cs it cs') as X.
  { intros a z d C -> O. rewrite O in H. destruct (sequence_inv _ _ _ H) as (ps & I & V). assert (lenN d < 2 ^ 32) as LD by (inversion C; subst; [rewrite lenN_cons in L; lia | change (2 ^ 32) with 4294967296; change (2 ^ 30) with 1073741824 in *; lia]).
    destruct (packets_all o E G ps (PropShown.all_short _ _ _ _ (PropShown.input_sizes _ _ I) LD) V cs) as (is & cs2 & PR). do 2 eexists. eapply t_compressed; eassumption. }
  inversion R as [| | | | | | | | | tag v d a t fs rest c IT | tag v d a t fs d' note is rest c IT | | | | | | | | | | | a z d c C | a z c U | a z d ok c A Z EI LD | tag body c NT]; subst.
  - exfalso. cbn in IT. lia.
  - exfalso. cbn in IT. lia.
  - apply (X a z d C eq_refl). inversion C as [z' | a' z' d' A Z EI LD]; subst; [reflexivity|]. unfold opened. replace (b2n a =? 0) with false by lia. replace (b2n a <=? 3) with true by lia.
    replace (lenN z =? 0) with false by (destruct z; [congruence|]; rewrite lenN_cons; lia). rewrite EI. cbn [andb negb]. replace (lenN d <? 2 ^ 30) with true by lia. reflexivity.
  - do 2 eexists. apply t_compressed_unknown; assumption.
  - do 2 eexists. eapply t_compressed_large; eassumption.
  - exfalso. apply NT. cbn. tauto.
Qed.
Lemma tops_inv o E : int_sizes (e_grow E) -> forall ps, Forall (fun p => lenN (snd p) < 2 ^ 32) ps -> Forall (fun p => top (lost (e_grow E)) (damaged E) (opened E) (fst p) (snd p) = Accepted) ps ->
  forall cs, exists is, all_read o E ps cs is.
Proof.
  intros G ps. induction ps as [|[tag b] ps IH]; intros F V cs; [eexists; constructor|]. inversion F as [|x y F1 F2]; subst. inversion V as [|x y V1 V2]; subst.
  destruct (top_inv o E tag b cs G F1 V1) as (i & cs1 & R). destruct (IH F2 V2 cs1) as (is & RS). eexists. econstructor; eassumption.
Qed.

(** C67.  An input is parsed without error if and only if it consists of packets that are described, in some framing; the items are those described. *)
Theorem C67_input_all : forall (o : opts) (E : env) (w : bytes) (c : chunks) (items : list item),
  int_sizes (e_grow E) -> delivers c w -> lenN w < 2 ^ 32 ->
  (parse_chunks o E c = (items, ROk tt) <-> exists l, input_of l w /\ all_read o E l cst_init items).
Proof.
  intros o E w c items G D L. pose proof (PropShown.small_sized _ L) as S. split.
  - intro P. pose proof (PropAccept.C63_input o E c w G D L) as V. rewrite P in V. cbn [snd] in V.
    destruct (sequence (top (lost (e_grow E)) (damaged E) (opened E)) (length w) w) eqn:SQ; cbn in V; [|destruct V as (e & _ & V); discriminate V | discriminate].
    destruct (sequence_inv _ _ _ SQ) as (ps & I & F). destruct (tops_inv o E G ps (PropShown.all_short _ _ _ _ (PropShown.input_sizes _ _ I) L) F cst_init) as (is & R).
    exists ps. split; [exact I|]. rewrite (PropShown.C67_input o E ps w c is I D S R) in P. injection P as <-. exact R.
  - intros (l & I & R). exact (PropShown.C67_input o E l w c items I D S R).
Qed.
Print Assumptions C67_input_all.

(** Descriptions are unambiguous: an input is shown in one way only, however it is split. *)
Theorem C67_one : forall (o : opts) (E : env) (w : bytes) (l l' : list (N * bytes)) (items items' : list item), sized w ->
  input_of l w -> all_read o E l cst_init items -> input_of l' w -> all_read o E l' cst_init items' -> items = items'.
Proof.
  intros o E w l l' items items' S I R I' R'. destruct (PropComp.chunks_of_inv w) as [CI CD].
  assert (delivers (chunks_of w true) w) as D by (split; [apply CI | split; [exact CD | apply CI]]).
  pose proof (PropShown.C67_input o E l w _ items I D S R) as P. rewrite (PropShown.C67_input o E l' w _ items' I' D S R') in P. congruence.
Qed.
Print Assumptions C67_one.

(** A signature in whose key block octets are dropped is described, one whose last sub-packet is cut is not. *)
Example C67_packet_all_used : int_sizes (e_grow Witness.env0) /\ lenN PropAccept.ex_block < 2 ^ 32 /\ four_octet_dates cst_init /\
  (exists it cs', packet_reads Witness.o_plain Witness.env0 2 PropAccept.ex_block cst_init it cs') /\
  (forall it cs', ~ packet_reads Witness.o_plain Witness.env0 2 PropAccept.ex_cut_area cst_init it cs').
Proof.
  assert (int_sizes (e_grow Witness.env0)) as G by apply PropAccept.C63_packet_used.
  split; [exact G|]. split; [reflexivity|]. split; [exact PropShown.four_init|]. split.
  - destruct (parse_tag Witness.o_plain Witness.env0 2 PropAccept.ex_block cst_init) as [r cs'] eqn:P.
    assert (exists it x, r = ROk (it, x)) as (it & x & ->) by (apply (f_equal fst) in P; vm_compute in P; rewrite <- P; eauto).
    exists it, cs'. apply C67_packet_all; [exact G | reflexivity | exact PropShown.four_init | eauto].
  - intros it cs' R. apply C67_packet_all in R as (x & P); [|exact G | reflexivity | exact PropShown.four_init]. apply (f_equal fst) in P. vm_compute in P. discriminate.
Qed.
(** Two user IDs are described; followed by a one-pass signature of one octet they are not. *)
Example C67_input_all_used : delivers (mkChunks [[xcd; x01; x61]; [xb4; x01; x62; xc4]; [x01; x00]] true) [xcd; x01; x61; xb4; x01; x62; xc4; x01; x00] /\
  (forall items l, input_of l [xcd; x01; x61; xb4; x01; x62; xc4; x01; x00] -> ~ all_read Witness.o_plain Witness.env0 l cst_init items) /\
  (exists items l, input_of l [xcd; x01; x61; xb4; x01; x62] /\ all_read Witness.o_plain Witness.env0 l cst_init items /\ length items = 2%nat).
Proof.
  assert (int_sizes (e_grow Witness.env0)) as G by apply PropAccept.C63_packet_used.
  assert (forall w, delivers (chunks_of w true) w) as D by (intro w; destruct (PropComp.chunks_of_inv w) as [CI CD]; split; [apply CI | split; [exact CD | apply CI]]).
  split; [split; [repeat constructor; discriminate | split; reflexivity]|]. split.
  - intros items l I R. assert (parse_chunks Witness.o_plain Witness.env0 (chunks_of [xcd; x01; x61; xb4; x01; x62; xc4; x01; x00] true) = (items, ROk tt)) as P
      by (eapply C67_input_all; [exact G | apply D | reflexivity | eauto]). apply (f_equal snd) in P. vm_compute in P. discriminate.
  - destruct (parse_chunks Witness.o_plain Witness.env0 (chunks_of [xcd; x01; x61; xb4; x01; x62] true)) as [items r] eqn:P.
    assert (r = ROk tt /\ length items = 2%nat) as [-> LI] by (vm_compute in P; injection P as <- <-; auto).
    destruct (proj1 (C67_input_all Witness.o_plain Witness.env0 [xcd; x01; x61; xb4; x01; x62] _ items G (D _) eq_refl) P) as (l & I & R). eauto.
Qed.
