(** * PropSub: single sub-packets (C10, C27, C28, C29, C32, C33, C34, C49, C50). *)
From Coq Require Import Strings.String Strings.Byte List NArith ZArith Bool Lia ZifyBool ZifyN ZifyNat.
From Verif Require Import Base BaseL SpecBase Item Reader ReaderL Context Env Time Values Opaque Monad MonadL Pubkey Subs Tags SubParse.
From Verif Require Import SpecTime TimeL PropTime SpecText TextL SpecValues ValuesL SpecPacket ReadsL PacketL TagL SpecFrame FramingL SpecNest SpecSub SpecSubs SubL
  SpecParse SpecComp NameL SubsL KeyL Witness.
Import ListNotations.
Local Open Scope N_scope.

(** ** C49: every type shows its defined content *)
Lemma text_shown_eq name f body it : text_shown name f body it -> it = text_item name body f.
Proof.
  intros [|l F NE|b NU].
  - reflexivity.
  - rewrite text_item_valid by assumption. rewrite dump_bytes_if. reflexivity.
  - rewrite text_item_invalid, hexdump_hex_text by assumption. reflexivity.
Qed.
Lemma notation_value_eq o f0 value a b : notation_value o f0 value a -> notation_value o f0 value b -> a = b.
Proof.
  unfold notation_value. destruct (N.testbit (b2n f0) 7); [|congruence]. intros H1 H2. apply text_shown_eq in H1, H2. congruence.
Qed.

Ltac by_ends T lem := rewrite (sub_ends _ _ _ _ _ _ _ _ _ _ T lem) by assumption; reflexivity.

(** C49.  Sub-packets show the fields that RFC 4880bis 5.2.3 defines for their type; [sub_reads] (SpecSubs.v) lists
    them type by type. *)
Theorem C49_content : forall o E ty cs body it cs', sub_reads o E ty cs body it cs' -> sized body ->
  parse_sub o E 2 ty body cs = (ROk it, cs').
Proof.
  intros o E ty cs body it cs' H L. unfold sized in L. destruct H as
    [t extra T Ht | t extra T Ht | b rest T | l a extra T | body it T X | b extra T | t extra T Ht | body T | c a fpr T
    | id extra T Hid | f0 f1 f2 f3 name value extra itn itv T LN LV Hn Hv | body T | body T | b rest T | b extra T | b T | b c rest T | c T
    | c text it T NE X | b rest T | a h d T | v d T | body T | d T].
  - apply parse_02; assumption.
  - apply parse_03; assumption.
  - change (b :: rest) with ([b] ++ rest). rewrite (sub_ends _ _ _ _ _ _ _ _ _ _ (sub_case o E ty 4 T) (ends_04 b rest)) by assumption.
    unfold yes_no. destruct (b2n b =? 0); reflexivity.
  - change (l :: a :: extra) with ([l; a] ++ extra). by_ends (sub_case o E ty 5 T) (ends_05 l a extra).
  - destruct (parse_text o E ty body cs T) as (it' & X' & ->). apply text_shown_eq in X, X'. subst. reflexivity.
  - change (b :: extra) with ([b] ++ extra). rewrite (sub_ends _ _ _ _ _ _ _ _ _ _ (sub_case o E ty 7 T) (ends_bool _ _ b extra)) by assumption.
    unfold yes_no. destruct (b2n b =? 0); reflexivity.
  - apply parse_09; assumption.
  - apply (parse_algs sym_item); [apply sym_shown_eq | apply (sub_case o E ty 11 T)].
  - change (c :: a :: fpr) with ([c; a] ++ fpr). by_ends (sub_case o E ty 12 T) (ends_12 o c a fpr).
  - apply parse_16; assumption.
  - destruct (ends_20 o f0 f1 f2 f3 name value extra LN LV) as (itn' & itv' & Hn' & Hv' & R).
    rewrite (sub_ends _ _ _ _ _ _ _ _ _ _ (sub_case o E ty 20 T) R) by assumption.
    apply text_shown_eq in Hn, Hn'. rewrite (notation_value_eq _ _ _ _ _ Hv Hv'). subst. reflexivity.
  - apply (parse_algs hash_item); [apply hash_shown_eq | apply (sub_case o E ty 21 T)].
  - apply (parse_algs comp_item); [apply comp_shown_eq | apply (sub_case o E ty 22 T)].
  - change (b :: rest) with ([b] ++ rest). by_ends (sub_case o E ty 23 T) (ends_23 b rest).
  - change (b :: extra) with ([b] ++ extra). rewrite (sub_ends _ _ _ _ _ _ _ _ _ _ (sub_case o E ty 25 T) (ends_bool _ _ b extra)) by assumption.
    unfold yes_no. destruct (b2n b =? 0); reflexivity.
  - change [b] with ([b] ++ []). by_ends (sub_case o E ty 27 T) (ends_27_one b).
  - change (b :: c :: rest) with ([b] ++ c :: rest). by_ends (sub_case o E ty 27 T) (ends_27_more b c rest).
  - change [c] with ([c] ++ []). destruct (ends_29 o c []) as (it & _ & R).
    rewrite (sub_ends _ _ _ _ _ _ _ _ _ _ (sub_case o E ty 29 T) R) by assumption. rewrite adds_nil. reflexivity.
  - change (c :: text) with ([c] ++ text). destruct (ends_29 o c text) as (it' & X' & R).
    rewrite (sub_ends _ _ _ _ _ _ _ _ _ _ (sub_case o E ty 29 T) R) by assumption. apply text_shown_eq in X, X'. subst.
    destruct text; [congruence|]. reflexivity.
  - change (b :: rest) with ([b] ++ rest). by_ends (sub_case o E ty 30 T) (ends_30 b rest).
  - change (a :: h :: d) with ([a; h] ++ d). by_ends (sub_case o E ty 31 T) (ends_31 o a h d).
  - change (v :: d) with ([v] ++ d). destruct T as [T|T].
    + by_ends (sub_case o E ty 33 T) (ends_fpr v d).
    + by_ends (sub_case o E ty 35 T) (ends_fpr v d).
  - apply (parse_algs aead_item); [apply aead_shown_eq | apply (sub_case o E ty 34 T)].
  - change d with ([] ++ d). by_ends (sub_case o E ty 37 T) (ends_37 o d).
Qed.
Print Assumptions C49_content.

(** C49.  Embedded signatures: the sub-packet shows the item of the signature packet, or fails as it does. *)
Theorem C49_embedded : forall o E ty body cs, sub_type ty = 32 ->
  parse_sub o E 2 ty body cs =
    (map_res (fun p => sub_shown o ty body [fst p]) (fst (parse_tag o E 2 body cs)), snd (parse_tag o E 2 body cs)).
Proof. intros o E ty body cs T. rewrite (parse_32 o E ty body cs T). destruct (fst (parse_tag o E 2 body cs)) as [[i x]|e| |]; reflexivity. Qed.
Print Assumptions C49_embedded.

(** ** C50: fields that are not there *)
Lemma split_2 (d : bytes) : 2 <= lenN d -> exists a b r, d = a :: b :: r.
Proof. destruct d as [|a [|b r]]; unfold lenN; cbn [length]; try lia. eauto. Qed.
Lemma split_1 (d : bytes) : 1 <= lenN d -> exists a r, d = a :: r.
Proof. destruct d as [|a r]; unfold lenN; cbn [length]; try lia. eauto. Qed.
Lemma split_n k (d : bytes) : N.of_nat k <= lenN d -> exists a r, d = a ++ r /\ length a = k.
Proof. intro H. apply split_at. unfold lenN in H. lia. Qed.
Lemma be_of k d : length d = k -> be_enc k (be d) = d.
Proof. intros <-. apply be_enc_be. Qed.
Lemma be_small k d : length d = k -> be d < 256 ^ N.of_nat k.
Proof. intros <-. apply (be_lt d). Qed.
(** Octets with enough of them for a notation are one. *)
Lemma split_notation z : 8 + be (firstn 2 (skipn 4 z)) + be (firstn 2 (skipn 6 z)) <= lenN z ->
  exists f0 f1 f2 f3 name value extra, z = notation_octets f0 f1 f2 f3 name value ++ extra /\
    lenN name < 2 ^ 16 /\ lenN value < 2 ^ 16 /\
    lenN (notation_octets f0 f1 f2 f3 name value) = 8 + be (firstn 2 (skipn 4 z)) + be (firstn 2 (skipn 6 z)).
Proof.
  destruct z as [|f0 [|f1 [|f2 [|f3 [|n0 [|n1 [|v0 [|v1 z]]]]]]]]; unfold lenN at 1; cbn [length]; try (intro; exfalso; lia).
  cbn [skipn firstn]. intro L.
  pose proof (be_small 2 [n0; n1] eq_refl) as B1. pose proof (be_small 2 [v0; v1] eq_refl) as B2. change (256 ^ N.of_nat 2) with (2 ^ 16) in *.
  destruct (split_n (N.to_nat (be [n0; n1])) z) as (name & z2 & -> & LN); [unfold lenN; lia|]. rewrite app_length in L.
  destruct (split_n (N.to_nat (be [v0; v1])) z2) as (value & extra & -> & LV); [unfold lenN; lia|].
  exists f0, f1, f2, f3, name, value, extra. unfold notation_octets.
  assert (lenN name = be [n0; n1]) as EN by (unfold lenN; lia). assert (lenN value = be [v0; v1]) as EV by (unfold lenN; lia).
  rewrite EN, EV, !(be_of 2) by reflexivity. repeat split; try assumption.
  - rewrite <- !app_assoc. reflexivity.
  - unfold lenN. cbn [app length]. rewrite app_length. lia.
Qed.

Lemma cuts_38 o E a : cuts (sub38 (parse_tag o E) o E) [a].
Proof. unfold sub38. apply (cuts_byte_bind _ a []), cuts_nil. Qed.

(** C50.  A sub-packet with fewer octets than its fields need makes the parse fail. *)
Theorem C50_too_short : forall o E ty body cs, lenN body < fields_need ty body -> sized body ->
  exists e, fst (parse_sub o E 2 ty body cs) = RErr e /\ (e = EEof \/ e = EUnexp).
Proof.
  assert (forall (q : bytes) k, lenN q < N.of_nat k -> exists d, strict_prefix q d /\ length d = k) as PAD.
  { intros q k H. exists (q ++ repeat x00 (k - length q)). split.
    - exists (repeat x00 (k - length q)). split; [|reflexivity]. intro K. apply (f_equal (@length byte)) in K. rewrite repeat_length in K. unfold lenN in H. cbn [length] in K. lia.
    - rewrite app_length, repeat_length. unfold lenN in H. lia. }
  intros o E ty body cs H L. unfold sized in L.
  assert (forall k, sub_type ty = k -> forall m d, sub_m (parse_tag o E) o E 2 ty = m -> cuts m d -> strict_prefix body d ->
    exists e, fst (parse_sub o E 2 ty body cs) = RErr e /\ (e = EEof \/ e = EUnexp)) as CUT.
  { intros k T m d M C S. apply (sub_cuts o E 2 ty d body cs m M C S L). }
  assert (forall m, sub_m (parse_tag o E) o E 2 ty = m -> (forall t, cuts m (be_enc 4 t)) -> lenN body < 4 ->
    exists e, fst (parse_sub o E 2 ty body cs) = RErr e /\ (e = EEof \/ e = EUnexp)) as C4.
  { intros m M C S. destruct (PAD body 4%nat S) as (d & SP & LD). apply (CUT _ eq_refl m d M); [|exact SP].
    rewrite <- (be_of 4 d LD). apply C. }
  assert (forall m, sub_m (parse_tag o E) o E 2 ty = m -> (forall a, cuts m [a]) -> lenN body < 1 ->
    exists e, fst (parse_sub o E 2 ty body cs) = RErr e /\ (e = EEof \/ e = EUnexp)) as C1.
  { intros m M C S. destruct (PAD body 1%nat S) as (d & SP & LD). destruct d as [|a [|]]; try discriminate LD. apply (CUT _ eq_refl m [a] M (C a) SP). }
  assert (forall m, sub_m (parse_tag o E) o E 2 ty = m -> (forall a b, cuts m [a; b]) -> lenN body < 2 ->
    exists e, fst (parse_sub o E 2 ty body cs) = RErr e /\ (e = EEof \/ e = EUnexp)) as C2.
  { intros m M C S. destruct (PAD body 2%nat S) as (d & SP & LD). destruct d as [|a [|b [|]]]; try discriminate LD. apply (CUT _ eq_refl m [a; b] M (C a b) SP). }
  unfold fields_need in H.
  destruct (N.eq_dec (sub_type ty) 2) as [T|N2]; [rewrite T in H; apply (C4 _ (sub_case o E ty 2 T) (fun t => cuts_02 o E t) H)|].
  destruct (N.eq_dec (sub_type ty) 3) as [T|N3]; [rewrite T in H; apply (C4 _ (sub_case o E ty 3 T) (fun t => cuts_03 o E t) H)|].
  destruct (N.eq_dec (sub_type ty) 9) as [T|N9]; [rewrite T in H; apply (C4 _ (sub_case o E ty 9 T) (fun t => cuts_09 o E t) H)|].
  destruct (N.eq_dec (sub_type ty) 4) as [T|N4]; [rewrite T in H; apply (C1 _ (sub_case o E ty 4 T) (fun a => cuts_04 a) H)|].
  destruct (N.eq_dec (sub_type ty) 7) as [T|N7]; [rewrite T in H; apply (C1 _ (sub_case o E ty 7 T) (fun a => cuts_bool _ _ a) H)|].
  destruct (N.eq_dec (sub_type ty) 23) as [T|N23]; [rewrite T in H; apply (C1 _ (sub_case o E ty 23 T) (fun a => cuts_23 a) H)|].
  destruct (N.eq_dec (sub_type ty) 25) as [T|N25]; [rewrite T in H; apply (C1 _ (sub_case o E ty 25 T) (fun a => cuts_bool _ _ a) H)|].
  destruct (N.eq_dec (sub_type ty) 27) as [T|N27]; [rewrite T in H; apply (C1 _ (sub_case o E ty 27 T) (fun a => cuts_27 a) H)|].
  destruct (N.eq_dec (sub_type ty) 29) as [T|N29]; [rewrite T in H; apply (C1 _ (sub_case o E ty 29 T) (fun a => cuts_29 o a) H)|].
  destruct (N.eq_dec (sub_type ty) 30) as [T|N30]; [rewrite T in H; apply (C1 _ (sub_case o E ty 30 T) (fun a => cuts_30 a) H)|].
  destruct (N.eq_dec (sub_type ty) 33) as [T|N33]; [rewrite T in H; apply (C1 _ (sub_case o E ty 33 T) (fun a => cuts_fpr a) H)|].
  destruct (N.eq_dec (sub_type ty) 35) as [T|N35]; [rewrite T in H; apply (C1 _ (sub_case o E ty 35 T) (fun a => cuts_fpr a) H)|].
  destruct (N.eq_dec (sub_type ty) 38) as [T|N38]; [rewrite T in H; apply (C1 _ (sub_case o E ty 38 T) (fun a => cuts_38 o E a) H)|].
  destruct (N.eq_dec (sub_type ty) 5) as [T|N5]; [rewrite T in H; apply (C2 _ (sub_case o E ty 5 T) (fun a b => cuts_05 a b) H)|].
  destruct (N.eq_dec (sub_type ty) 12) as [T|N12]; [rewrite T in H; apply (C2 _ (sub_case o E ty 12 T) (fun a b => cuts_12 o a b) H)|].
  destruct (N.eq_dec (sub_type ty) 31) as [T|N31]; [rewrite T in H; apply (C2 _ (sub_case o E ty 31 T) (fun a b => cuts_31 o a b) H)|].
  destruct (N.eq_dec (sub_type ty) 16) as [T|N16].
  { rewrite T in H. destruct (PAD body 8%nat H) as (d & SP & LD). apply (CUT _ eq_refl _ d (sub_case o E ty 16 T) (cuts_16 d LD) SP). }
  destruct (N.eq_dec (sub_type ty) 20) as [T|N20].
  { rewrite T in H. set (n := 8 + be (firstn 2 (skipn 4 body)) + be (firstn 2 (skipn 6 body))) in H.
    pose (z := body ++ repeat x00 (N.to_nat (8 + 2 ^ 17))).
    assert (8 + be (firstn 2 (skipn 4 z)) + be (firstn 2 (skipn 6 z)) <= lenN z) as LZ.
    { assert (forall k, be (firstn 2 (skipn k z)) < 2 ^ 16) as B.
      { intro k. pose proof (be_lt (firstn 2 (skipn k z))) as B. eapply N.lt_le_trans; [exact B|].
        change (2 ^ 16) with (256 ^ 2). apply N.pow_le_mono_r; [discriminate|]. unfold lenN. pose proof (firstn_le_length 2 (skipn k z)). lia. }
      pose proof (B 4%nat). pose proof (B 6%nat). unfold z at 3. unfold lenN. rewrite app_length, repeat_length. lia. }
    destruct (split_notation z LZ) as (f0 & f1 & f2 & f3 & name & value & extra & EZ & LN & LV & LL).
    apply (CUT _ eq_refl _ _ (sub_case o E ty 20 T) (cuts_20 o f0 f1 f2 f3 name value LN LV)).
    assert (lenN body < lenN (notation_octets f0 f1 f2 f3 name value)) as LB.
    { rewrite LL. destruct (N.le_gt_cases 8 (lenN body)) as [G|G]; [|lia].
      enough (firstn 2 (skipn 4 z) = firstn 2 (skipn 4 body) /\ firstn 2 (skipn 6 z) = firstn 2 (skipn 6 body)) as [-> ->] by exact H.
      unfold z. unfold lenN in G. rewrite !skipn_app, !firstn_app, !skipn_length.
      replace (2 - (length body - 4))%nat with 0%nat by lia. replace (2 - (length body - 6))%nat with 0%nat by lia.
      cbn [firstn]. rewrite !app_nil_r. auto. }
    unfold z in EZ. destruct (app_prefix body _ _ _ EZ ltac:(unfold lenN in LB; lia)) as (t & ET & _).
    exists t. split; [|exact ET]. intros ->. rewrite ET, app_nil_r in LB. lia. }
  exfalso. destruct (sub_type ty) as [|p]; [lia|]. do 6 (try destruct p as [p|p|]); lia || congruence.
Qed.
Print Assumptions C50_too_short.
Example C50_used : lenN [x01; x02] < fields_need x02 [x01; x02] /\ lenN [x80; x00; x00; x00; x00; x01; x00; x00] < fields_need x14 [x80; x00; x00; x00; x00; x01; x00; x00].
Proof. split; reflexivity. Qed.

(** C50, the other direction: nothing else makes it fail.  With enough octets the sub-packet is shown as [sub_reads]
    says, so the two theorems describe every sub-packet of every assigned type but embedded signatures and key blocks. *)
Theorem C50_only_then : forall o E ty body cs, In (sub_type ty) sub_types -> sub_type ty <> 32 -> sub_type ty <> 38 ->
  fields_need ty body <= lenN body -> exists it cs', sub_reads o E ty cs body it cs'.
Proof.
  intros o E ty body cs I N32 N38 H. unfold fields_need in H.
  assert (forall d : bytes, 4 <= lenN d -> exists t extra, d = be_enc 4 t ++ extra /\ t < 2 ^ 32) as S4.
  { intros d L. destruct (split_n 4 d L) as (a & r & -> & LA). exists (be a), r. rewrite (be_of 4) by exact LA. split; [reflexivity|]. apply (be_small 4 a LA). }
  assert (sub_type ty = 6 \/ sub_type ty = 24 \/ sub_type ty = 26 \/ sub_type ty = 28 -> exists it cs', sub_reads o E ty cs body it cs') as TX.
  { intro T. eexists _, _. apply rd_text; [exact T | apply text_item_shown]. }
  cbn [In sub_types] in I. repeat destruct I as [T|I]; [symmetry in T; try rewrite T in H; try (apply TX; auto; fail); try congruence ..|].
  - destruct (S4 body H) as (t & extra & -> & Ht). eexists _, _. apply rd_created; assumption.
  - destruct (S4 body H) as (t & extra & -> & Ht). eexists _, _. apply rd_expires; assumption.
  - destruct (split_1 body H) as (a & r & ->). eexists _, _. apply rd_exportable; auto.
  - destruct (split_2 body H) as (a & b & r & ->). eexists _, _. apply rd_trust; assumption.
  - destruct (split_1 body H) as (a & r & ->). eexists _, _. apply rd_revocable; auto.
  - destruct (S4 body H) as (t & extra & -> & Ht). eexists _, _. apply rd_key_expires; assumption.
  - eexists _, _. apply rd_symmetric; assumption.
  - destruct (split_2 body H) as (a & b & r & ->). eexists _, _. apply rd_revoker; assumption.
  - destruct (split_n 8 body H) as (id & r & -> & L). eexists _, _. apply rd_issuer; assumption.
  - destruct (split_notation body H) as (f0 & f1 & f2 & f3 & name & value & extra & -> & LN & LV & _). eexists _, _.
    apply rd_notation with (itv := if N.testbit (b2n f0) 7 then text_item (str "Value") value (oDebug o) else Item (str "Value") [] (hex_text value) [] []); try assumption.
    + apply text_item_shown.
    + unfold notation_value. destruct (N.testbit (b2n f0) 7); [apply text_item_shown | reflexivity].
  - eexists _, _. apply rd_hash; assumption.
  - eexists _, _. apply rd_compression; assumption.
  - destruct (split_1 body H) as (a & r & ->). eexists _, _. apply rd_keyserver; auto.
  - destruct (split_1 body H) as (a & r & ->). eexists _, _. apply rd_primary; auto.
  - destruct (split_1 body H) as (a & [|c r] & ->); eexists _, _; [apply rd_key_flags1 | apply rd_key_flags2]; assumption.
  - destruct (split_1 body H) as (a & [|c r] & ->); eexists _, _; [apply rd_reason; assumption|].
    apply rd_reason_text; [assumption | discriminate | apply text_item_shown].
  - destruct (split_1 body H) as (a & r & ->). eexists _, _. apply rd_features; auto.
  - destruct (split_2 body H) as (a & b & r & ->). eexists _, _. apply rd_target; assumption.
  - destruct (split_1 body H) as (a & r & ->). eexists _, _. apply rd_fingerprint; auto.
  - eexists _, _. apply rd_aead; assumption.
  - destruct (split_1 body H) as (a & r & ->). eexists _, _. apply rd_fingerprint; auto.
  - eexists _, _. apply rd_digests; assumption.
  - destruct I.
Qed.
Print Assumptions C50_only_then.

(** ** C27: the critical bit *)
Lemma result_name o E tagid ty body cs i cs' : parse_sub o E tagid ty body cs = (ROk i, cs') -> i_name i = sub_name ty.
Proof.
  unfold parse_sub. intro H. pose proof (named_sub (parse_tag o E) o E tagid ty (sub_string ty) (mkSt (r_new body) cs (sub_item ty body (oDebug o)))) as N.
  change (rn (sub_string ty) (mkSt (r_new body) cs (sub_item ty body (oDebug o)))) with (mkSt (r_new body) cs (sub_item ty body (oDebug o))) in N.
  destruct (sub_m _ _ _ _ _ _) as [[a|e| |] s]; cbn [fst snd] in *; try discriminate. injection H as <- _. injection N as ->. cbn [rn s_cur].
  transitivity (sub_string ty); [destruct (s_cur s); reflexivity | apply sub_string_spec].
Qed.
(** C27.  A sub-packet with the critical bit is decoded like the one without; only the name of its item differs: *)
Theorem C27_critical : forall o E tagid ty ty' body cs, b2n ty < 128 -> b2n ty' = b2n ty + 128 ->
  parse_sub o E tagid ty' body cs = (map_res (w_name (sub_name ty')) (fst (parse_sub o E tagid ty body cs)), snd (parse_sub o E tagid ty body cs)) /\
  (forall i, fst (parse_sub o E tagid ty body cs) = ROk i -> i_name i = sub_name ty).
Proof.
  intros o E tagid ty ty' body cs L H. rewrite (parse_sub_critical o E tagid ty ty' body cs L H), sub_string_spec.
  destruct (parse_sub o E tagid ty body cs) as [[i|e| |] cs'] eqn:R; cbn [fst snd map_res]; (split; [reflexivity|]); try discriminate.
  intros j [= <-]. exact (result_name _ _ _ _ _ _ _ _ R).
Qed.
Print Assumptions C27_critical.
(** it gets " <critical>" before the type number. *)
Theorem C27_name : forall ty ty', b2n ty < 128 -> b2n ty' = b2n ty + 128 -> exists text,
  let number := str " (sub " ++ dec (b2n ty) ++ str ")" in
  sub_name ty = text ++ number /\ sub_name ty' = text ++ str " <critical>" ++ number.
Proof.
  intros ty ty' L H. exists (reg_name sub_registry private_100_110 "Private or experimental" (b2n ty)). cbv zeta. unfold sub_name.
  replace (b2n ty' mod 128) with (b2n ty) by (rewrite H; symmetry; rewrite <- (N.mul_1_l 128) at 1; rewrite N.mod_add by discriminate; apply N.mod_small, L).
  rewrite (N.mod_small _ _ L). replace (128 <=? b2n ty) with false by lia. replace (128 <=? b2n ty') with true by lia. split; reflexivity.
Qed.
Print Assumptions C27_name.
Example C27_used : parse_sub o_plain env0 2 x9b [x03] cst_init =
  (ROk (Item (str "Key Flags <critical> (sub 27)") [] [] (str "1 bytes")
    [flag_shown (str "This key may be used to certify other keys."); flag_shown (str "This key may be used to sign data.")]), cst_init).
Proof. vm_compute. reflexivity. Qed.

(** ** C28: unknown packets and sub-packets *)
(** C28.  A packet whose tag has no meaning, or is for private use, is one item with name, size and (if asked for) its
    octets; it is never an error. *)
Theorem C28_unknown_packet : forall o E tag body cs, ~ In tag packet_tags ->
  parse_tag o E tag body cs = (ROk (packet_shown o tag body [], None), cs).
Proof.
  intros o E tag body cs H. unfold parse_tag. cbn [parse_tag_fuel]. unfold tag_body.
  assert (forall rec, tag_m rec o E tag = no_data (ret tt)) as ->.
  { intro rec. unfold tag_m. assert (forall k, In k packet_tags -> tag <> k) as K by (intros k I ->; contradiction).
    destruct tag as [|p]; [reflexivity|].
    do 5 (try destruct p as [p|p|]); try reflexivity; exfalso; eapply K; try reflexivity; cbn; tauto. }
  rewrite tag_item_shown. reflexivity.
Qed.
Print Assumptions C28_unknown_packet.
(** The name is that of the registry, with the number of the tag. *)
Example C28_names : ~ In 16 packet_tags /\ ~ In 61 packet_tags /\
  map (fun t => i_name (packet_shown o_plain t [] [])) [0; 16; 21; 61; 63] =
    [str "Reserved (tag 0)"; str "Unknown (tag 16)"; str "Unknown (tag 21)"; str "Private or Experimental Values (tag 61)"; str "Private or Experimental Values (tag 63)"].
Proof. vm_compute. intuition discriminate. Qed.

(** C28.  A sub-packet of a signature whose type has no meaning: one item with its name and size. *)
Theorem C28_unknown_subpacket : forall o E ty body cs, ~ In (sub_type ty) sub_types ->
  parse_sub o E 2 ty body cs = (ROk (sub_shown o ty body []), cs).
Proof.
  intros o E ty body cs H. assert (sub_m (parse_tag o E) o E 2 ty = ret tt) as M.
  { rewrite (sub_case o E ty _ eq_refl). assert (forall k, In k sub_types -> sub_type ty <> k) as K by (intros k I <-; contradiction).
    clear H. destruct (sub_type ty) as [|p]; [reflexivity|].
    do 6 (try destruct p as [p|p|]); try reflexivity; exfalso; eapply K; try reflexivity; cbn; tauto. }
  rewrite (parse_sub_start o E 2 ty _ cs _ M). reflexivity.
Qed.
Print Assumptions C28_unknown_subpacket.
(** The same in a user attribute, where only images (1) have a meaning. *)
Theorem C28_unknown_attribute : forall o E ty body cs, sub_type ty <> 1 ->
  parse_sub o E 17 ty body cs = (ROk (sub_shown o ty body []), cs).
Proof.
  intros o E ty body cs H. assert (sub_m (parse_tag o E) o E 17 ty = ret tt) as M.
  { unfold sub_m. rewrite bland_type. change (17 =? 2) with false. cbv iota. destruct (sub_type ty) as [|[p|p|]]; try reflexivity. congruence. }
  rewrite (parse_sub_start o E 17 ty _ cs _ M). reflexivity.
Qed.
Print Assumptions C28_unknown_attribute.
