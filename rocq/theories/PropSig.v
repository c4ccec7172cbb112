(** * PropSig: signatures and sub-packet areas (C22, C23, C26).

    [sub_list o E tag l cs] parses the sub-packets [l] one after the other and gives one item each; the items of the
    single sub-packets are described in PropSub.v. *)
From Coq Require Import Strings.String Strings.Byte List NArith ZArith Bool Lia ZifyBool ZifyN ZifyNat.
From Verif Require Import Base BaseL SpecBase Item Reader ReaderL Context Env Time Values Opaque Monad MonadL Pubkey Subs Tags SubParse.
From Verif Require FramingL.
From Verif Require Import SpecValues ValuesL SpecPacket ReadsL PacketL TagL SpecNest SpecSub SubL RelL ParseL SpecParse PropParse UnfoldL SigL SpecComp Witness PropPacket.
Import ListNotations.
Local Open Scope N_scope.

Lemma parse_at o E tag body cs r cs' : sized body -> four_octet_dates cs ->
  tag_body (parse_tag o E) o E tag body cs = (r, cs') -> r <> RPanic -> parse_tag o E tag body cs = (r, cs').
Proof.
  intros L D H N. destruct (parse_unfold o E tag body cs L (dates_related cs D)) as [[H1 H2] _].
  rewrite H in H1, H2. cbn [fst snd] in *. destruct (parse_tag o E tag body cs) as [x y]. cbn [fst snd] in *. subst x.
  rewrite (H2 N). reflexivity.
Qed.
Lemma parse_ends_at o E tag d extra cs cs' k (m : M unit) :
  tag_m (parse_tag o E) o E tag = no_data m -> ends_at m d extra tt cs cs' (adds k) ->
  sized (d ++ extra) -> four_octet_dates cs ->
  parse_tag o E tag (d ++ extra) cs = (ROk (packet_shown o tag (d ++ extra) k, None), cs').
Proof.
  intros T F L D. apply parse_at; [assumption | assumption | | discriminate].
  unfold tag_body. rewrite T, tag_item_shown, at_new.
  destruct (F (d ++ extra) (packet_shown o tag (d ++ extra) []) (suf_refl _ L)) as (s & R & C & I).
  unfold sat in R. unfold no_data. erewrite bind_ok by exact R. unfold ret. rewrite C, I. reflexivity.
Qed.

(** ** C22: signatures *)

(** C22.  A version 4 or 5 signature shows version, type, algorithms, the two areas with one item per sub-packet, the
    two octets of the hash and the signature values, each from its place; octets after them are shown as
    Unknown data.  What the sub-packets of the first area leave behind is there for those of the second. *)
Theorem C22_signature : forall o E cs v t a h A1 A2 h2 l extra l1 l2 r1 r2 cs1 cs2,
  let body := sig_octets v t a h A1 A2 h2 l ++ extra in
  b2n v = 4 \/ b2n v = 5 -> length h2 = 2%nat -> material sig_layout a l ->
  lenN A1 < 65536 -> lenN A2 < 65536 -> subs_in l1 A1 -> subs_in l2 A2 ->
  sub_list o E 2 l1 cs = (ROk r1, cs1) -> sub_list o E 2 l2 cs1 = (ROk r2, cs2) ->
  sized body -> four_octet_dates cs ->
  parse_tag o E 2 body cs =
  (ROk (packet_shown o 2 body
          (shows o E [FVersion KSignature v; FSigType t; FPub a; FHash h]
           ++ sig_area_shown o "Hashed Subpacket" A1 r1 ++ sig_area_shown o "Unhashed Subpacket" A2 r2
           ++ shows o E (FHash2 h2 :: l) ++ surplus "Unknown data" (oDebug o) extra), None), cs2).
Proof.
  intros o E cs v t a h A1 A2 h2 l extra l1 l2 r1 r2 cs1 cs2 body Hv Hh Hl L1 L2 H1 H2 S1 S2 L D.
  refine (parse_ends_at o E 2 _ extra cs cs2 _ _ eq_refl _ L D).
  refine (ends_v4 o E v t a h A1 A2 l1 l2 cs cs1 cs2 r1 r2 (h2 ++ encs l) extra _ Hv L1 L2 H1 H2 S1 S2 _).
  eapply ends_ext0; [eapply ends_bind0; [exact (runs_tail o E a h2 l Hh Hl) | step] | reflexivity|].
  intro i. fin_items.
Qed.
Print Assumptions C22_signature.

(** C22.  For an algorithm without a layout the octets after the hash are shown as a whole (and once more as surplus). *)
Theorem C22_unknown_algorithm : forall o E cs v t a h A1 A2 h2 extra l1 l2 r1 r2 cs1 cs2,
  let body := sig_octets v t a h A1 A2 h2 [] ++ extra in
  b2n v = 4 \/ b2n v = 5 -> length h2 = 2%nat -> sig_layout (b2n a) = None ->
  lenN A1 < 65536 -> lenN A2 < 65536 -> subs_in l1 A1 -> subs_in l2 A2 ->
  sub_list o E 2 l1 cs = (ROk r1, cs1) -> sub_list o E 2 l2 cs1 = (ROk r2, cs2) ->
  sized body -> four_octet_dates cs ->
  parse_tag o E 2 body cs =
  (ROk (packet_shown o 2 body
          (shows o E [FVersion KSignature v; FSigType t; FPub a; FHash h]
           ++ sig_area_shown o "Hashed Subpacket" A1 r1 ++ sig_area_shown o "Unhashed Subpacket" A2 r2
           ++ show o E (FHash2 h2) :: unknown_fields (oDebug o) (sig_label (b2n a)) extra
           :: surplus "Unknown data" (oDebug o) extra), None), cs2).
Proof.
  intros o E cs v t a h A1 A2 h2 extra l1 l2 r1 r2 cs1 cs2 body Hv Hh Hl L1 L2 H1 H2 S1 S2 L D.
  refine (parse_ends_at o E 2 _ extra cs cs2 _ _ eq_refl _ L D).
  refine (ends_v4 o E v t a h A1 A2 l1 l2 cs cs1 cs2 r1 r2 (h2 ++ []) extra _ Hv L1 L2 H1 H2 S1 S2 _).
  unfold sig_tail. eapply ends_ext0.
  - step. step; [apply lenZ_2, Hh|]. step. step. eapply ends_peeks; [apply peeks_parseSig, Hl|]. step.
  - reflexivity.
  - intro i. rewrite (show_hash2 o E). fin_items.
Qed.
Print Assumptions C22_unknown_algorithm.

(** C22.  A version 3 signature. *)
Theorem C22_version_3 : forall o E cs t tm id a h h2 l extra,
  let body := x03 :: x05 :: t :: be_enc 4 tm ++ id ++ a :: h :: h2 ++ encs l ++ extra in
  tm < 2 ^ 32 -> length id = 8%nat -> length h2 = 2%nat -> material sig_layout a l -> sized body ->
  parse_tag o E 2 body cs =
  (ROk (packet_shown o 2 body
          (show o E (FVersion KSignature x03)
           :: Item (str "Hashed material") [] [] (str "5 bytes") (shows o E [FSigType t; FTime "Signature creation time" tm])
           :: shows o E ([FKeyID id; FPub a; FHash h; FHash2 h2] ++ l) ++ surplus "Unknown data" (oDebug o) extra), None), cs).
Proof.
  intros o E cs t tm id a h h2 l extra body Ht Hid Hh Hl L.
  assert (body = (x03 :: x05 :: t :: be_enc 4 tm ++ id ++ a :: h :: h2 ++ encs l) ++ extra) as B
    by (unfold body; cbn [app]; rewrite <- !app_assoc; cbn [app]; rewrite <- !app_assoc; reflexivity).
  rewrite B in L |- *. destruct (parse_tag_body o E 2 ((x03 :: x05 :: t :: be_enc 4 tm ++ id ++ a :: h :: h2 ++ encs l) ++ extra) cs) as [rec ->].
  unfold tag_body, tag_m. rewrite tag_item_shown, at_new.
  assert (runs (sigV3 o E) (x05 :: t :: be_enc 4 tm ++ id ++ a :: h :: h2 ++ encs l) tt same
    (adds (Item (str "Hashed material") [] [] (str "5 bytes") (shows o E [FSigType t; FTime "Signature creation time" tm])
           :: shows o E ([FKeyID id; FPub a; FHash h; FHash2 h2] ++ l)))) as R3.
  { unfold sigV3. eapply runs_ext0.
    - change (x05 :: t :: be_enc 4 tm ++ id ++ a :: h :: h2 ++ encs l) with (x05 :: (t :: be_enc 4 tm) ++ (id ++ a :: h :: h2 ++ encs l)).
      step. eapply runs_bind.
      + apply runs_child. change (negb (b2n x05 =? 5)) with false. cbv iota. do 2 step. unfold newDateTime. step.
        eapply runs_bind0; [apply runs_bytes, len4|]. do 2 step.
      + step; [apply lenZ_8, Hid|]. do 5 step. step; [apply lenZ_2, Hh|]. step. exact (runs_parseSig o E a l Hl).
    - reflexivity.
    - intro i. unfold sigtime_item. rewrite (show_sigtype o E), (show_time o E) by assumption. rewrite (show_hash2 o E).
      rewrite (show_keyid o E) by assumption. fin_items. }
  match goal with |- context [no_data ?m] => assert (ends m (x03 :: x05 :: t :: be_enc 4 tm ++ id ++ a :: h :: h2 ++ encs l) extra tt same
     (adds (show o E (FVersion KSignature x03)
           :: Item (str "Hashed material") [] [] (str "5 bytes") (shows o E [FSigType t; FTime "Signature creation time" tm])
           :: shows o E ([FKeyID id; FPub a; FHash h; FHash2 h2] ++ l) ++ surplus "Unknown data" (oDebug o) extra))) as F end.
  { unfold tag02. eapply ends_ext0.
    - do 2 step. ver_if. eapply ends_bind0; [apply catch_runs; exact R3|]. cbv beta iota. step.
    - reflexivity.
    - intro i. rewrite (show_version o E KSignature x03) by tauto. fin_items. }
  destruct (F _ cs (packet_shown o 2 ((x03 :: x05 :: t :: be_enc 4 tm ++ id ++ a :: h :: h2 ++ encs l) ++ extra) []) (suf_refl _ L)) as (s & R & C & I).
  unfold sat in R. unfold no_data. erewrite bind_ok by exact R. unfold ret. rewrite C, I. reflexivity.
Qed.
Print Assumptions C22_version_3.

(** C22.  Any other version: everything after the version octet is Unknown data. *)
Theorem C22_other_version : forall o E cs v extra, ~ In (b2n v) [3; 4; 5] -> sized (v :: extra) ->
  parse_tag o E 2 (v :: extra) cs =
  (ROk (packet_shown o 2 (v :: extra) (show o E (FVersion KSignature v) :: surplus "Unknown data" (oDebug o) extra), None), cs).
Proof.
  intros o E cs v extra Hv L. destruct (parse_tag_body o E 2 (v :: extra) cs) as [rec ->].
  unfold tag_body, tag_m. rewrite tag_item_shown, at_new.
  match goal with |- context [no_data ?m] => assert (ends m [v] extra tt same
     (adds (show o E (FVersion KSignature v) :: surplus "Unknown data" (oDebug o) extra))) as F end.
  { unfold tag02. eapply ends_ext0.
    - do 2 step. unfold v_isdraft, v_iscur, v_isold, v_num. cbn [SigVer v_ver v_cur v_draft N.eqb]. cbn [In] in Hv.
      replace (b2n v =? 5) with false by lia. replace (b2n v =? 4) with false by lia. replace (b2n v =? 3) with false by lia.
      rewrite ?andb_false_r. cbv iota. step.
    - reflexivity.
    - intro i. rewrite (show_version o E KSignature v) by tauto. fin_items. }
  destruct (F _ cs (packet_shown o 2 (v :: extra) []) (suf_refl _ L)) as (s & R & C & I).
  unfold sat in R. cbn [app] in R. unfold no_data. erewrite bind_ok by exact R. unfold ret. rewrite C, I. reflexivity.
Qed.
Print Assumptions C22_other_version.

(** A concrete signature: created 2020-09-13, by key 0102..08, RSA.  Both areas hold one sub-packet. *)
Definition sig_area1 : bytes := [x05; x02; x5f; x5e; x10; x00].
Definition sig_area2 : bytes := [x09; x10; x01; x02; x03; x04; x05; x06; x07; x08].
Definition sig_fields : list field := [FMpi "RSA signature value m^d mod n" 9 [x01; x80]].
Lemma sig_subs1 : subs_in [(x02, [x5f; x5e; x10; x00])] sig_area1.
Proof. apply (one_more_sub x02 [x5f; x5e; x10; x00] [x05] [] []); [apply (slen_one 5); reflexivity | apply no_sub]. Qed.
Lemma sig_subs2 : subs_in [(x10, [x01; x02; x03; x04; x05; x06; x07; x08])] sig_area2.
Proof. apply (one_more_sub x10 [x01; x02; x03; x04; x05; x06; x07; x08] [x09] [] []); [apply (slen_one 9); reflexivity | apply no_sub]. Qed.
Example C22_signature_witness :
  material sig_layout x01 sig_fields /\ subs_in [(x02, [x5f; x5e; x10; x00])] sig_area1
  /\ subs_in [(x10, [x01; x02; x03; x04; x05; x06; x07; x08])] sig_area2
  /\ (exists r1 cs1 r2 cs2, sub_list o_debug env0 2 [(x02, [x5f; x5e; x10; x00])] cst_init = (ROk r1, cs1)
      /\ sub_list o_debug env0 2 [(x10, [x01; x02; x03; x04; x05; x06; x07; x08])] cs1 = (ROk r2, cs2)
      /\ map i_name r1 = [str "Signature Creation Time (sub 2)"] /\ map i_name r2 = [str "Issuer (sub 16)"])
  /\ sized (sig_octets x04 x00 x01 x08 sig_area1 sig_area2 [xab; xcd] sig_fields) /\ four_octet_dates cst_init.
Proof.
  split; [concrete_material|]. split; [exact sig_subs1|]. split; [exact sig_subs2|]. split.
  - do 4 eexists. split; [vm_compute; reflexivity|]. split; [vm_compute; reflexivity|]. split; vm_compute; reflexivity.
  - split; [vm_compute; reflexivity|]. intros d [H|H]; discriminate.
Qed.

(** ** C23: truncated signatures *)

(** C23.  A version 4 or 5 signature cut anywhere before the end of its fields is an error (provided the sub-packets
    themselves can be decoded; otherwise there is an error of theirs, C26). *)
Theorem C23_truncated_partial : forall o E cs v t a h A1 A2 h2 l q l1 l2 r1 r2 cs1 cs2,
  b2n v = 4 \/ b2n v = 5 -> length h2 = 2%nat -> material sig_layout a l ->
  lenN A1 < 65536 -> lenN A2 < 65536 -> subs_in l1 A1 -> subs_in l2 A2 ->
  sub_list o E 2 l1 cs = (ROk r1, cs1) -> sub_list o E 2 l2 cs1 = (ROk r2, cs2) ->
  strict_prefix q (sig_octets v t a h A1 A2 h2 l) -> sized q -> four_octet_dates cs ->
  exists e, fst (parse_tag o E 2 q cs) = RErr e /\ (e = EEof \/ e = EUnexp).
Proof.
  intros o E cs v t a h A1 A2 h2 l q l1 l2 r1 r2 cs1 cs2 Hv Hh Hl L1 L2 H1 H2 S1 S2 SP L D.
  assert (exists e s, tag02 (parse_tag o E) o E (sat q q cs (packet_shown o 2 q [])) = (RErr e, s) /\ (e = EEof \/ e = EUnexp)) as (e & s & R & X).
  { rewrite (sig_w v t a h h2 l A1 A2) in SP. pose proof (suf_refl q L) as SF.
    destruct q as [|x q].
    - exists EEof. eexists. split; [|left; reflexivity]. unfold tag02. erewrite bind_err by (apply rdByte_eof; exact SF). reflexivity.
    - destruct SP as (rst & NE & EQ). cbn [app] in EQ. injection EQ as <- EQ.
      unfold tag02. erewrite bind_ok by (apply rdByte_at; exact SF). cbv zeta.
      erewrite bind_ok by reflexivity. cbv beta. apply suf_cons in SF.
      assert (exists e s, (sigV4 (parse_tag o E) o E ;; addRest sUnknownData (oDebug o))
                (sat (v :: q) q cs (add_child (v_item (SigVer v) (oDebug o)) (packet_shown o 2 (v :: q) []))) = (RErr e, s) /\ (e = EEof \/ e = EUnexp)) as K.
      { destruct (cuts_sigV4 o E t a h h2 l A1 A2 l1 l2 cs cs1 cs2 r1 r2 Hh Hl L1 L2 H1 H2 S1 S2 (v :: q) q
          (add_child (v_item (SigVer v) (oDebug o)) (packet_shown o 2 (v :: q) [])) SF) as (e & s & R & X).
        - exists rst. split; [exact NE | exact EQ].
        - exists e, s. split; [|exact X]. apply bind_err. exact R. }
      unfold v_isdraft, v_iscur, v_num. cbn [SigVer v_ver v_cur v_draft].
      destruct Hv as [Hv|Hv]; rewrite Hv; exact K. }
  destruct (parse_unfold o E 2 q cs L (dates_related cs D)) as [[P1 _] _].
  exists e. split; [|exact X]. rewrite P1. unfold tag_body, tag_m. rewrite tag_item_shown, at_new.
  unfold sat in R. unfold no_data. erewrite bind_err by exact R. reflexivity.
Qed.
Print Assumptions C23_truncated_partial.

(** C23 is false of version 3: whatever follows the version octet, and however little of it, no error is reported. *)
Lemma sig3_ok rec o E q cs : sized (x03 :: q) ->
  match fst (tag_body rec o E 2 (x03 :: q) cs) with RErr _ => False | _ => True end.
Proof.
  intro L. unfold tag_body, tag_m. rewrite tag_item_shown, at_new.
  change (mkSt (MonadL.at_ (x03 :: q) (x03 :: q)) cs (packet_shown o 2 (x03 :: q) [])) with (sat (x03 :: q) (x03 :: q) cs (packet_shown o 2 (x03 :: q) [])).
  unfold no_data, tag02. pose proof (suf_refl _ L) as SF.
  rewrite bind_assoc. erewrite bind_ok by (apply rdByte_at; exact SF). cbv zeta. rewrite bind_assoc. erewrite bind_ok by reflexivity. cbv beta.
  change (v_isdraft (SigVer x03)) with false. change (v_iscur (SigVer x03)) with false. change (v_isold (SigVer x03) && (v_num (SigVer x03) =? 3)) with true. cbv iota.
  match goal with |- context [bind _ _ ?s] => generalize s end. intro s. unfold bind at 1, catchM.
  unfold bind at 1. destruct (sigV3 o E s) as [[[]|e| |] s1]; try exact Logic.I.
  unfold addRest, rawData, dumpRest, bind, rdRest, ret. cbn [fst snd].
  destruct (0 <? r_rest (s_rd s1))%Z; [|exact Logic.I]. destruct (oDebug o); [|exact Logic.I].
  unfold r_dumpstring. destruct (_ >=? _)%Z; [exact Logic.I|]. destruct (_ <? 0)%Z; exact Logic.I.
Qed.
Theorem C23_version_3_unreported : forall o E q cs, sized (x03 :: q) -> four_octet_dates cs ->
  exists i cs', parse_tag o E 2 (x03 :: q) cs = (ROk (i, None), cs').
Proof.
  intros o E q cs L D.
  destruct (parse_unfold o E 2 (x03 :: q) cs L (dates_related cs D)) as [[P1 _] _].
  pose proof (sig3_ok (parse_tag o E) o E q cs L) as NE. rewrite <- P1 in NE.
  assert (forall t b, nested E 2 (x03 :: q) t b -> t = 2%N) as NS.
  { intros t b Hn. assert (forall ty b1, ~ sig_sub (x03 :: q) ty b1) as NN.
    { intros ty b1 (area & l0 & c & Ha & _). destruct Ha as [v t0 p h m rest V _ _ EQ | v t0 p h m hashed m' rest V _ _ _ _ EQ];
        injection EQ as <- _; cbn in V; lia. }
    inversion Hn; subst; [reflexivity|..]; exfalso; eapply NN; eassumption. }
  destruct (rel_parse_tag eq eq eq eq eq eq (ropt (RDT eq)) o o E E (leaves_h _ _ _ _ _ _ _ _ _ (leaves_same o E)) (fun t _ => t = 5 \/ t = 7)%N (fun _ tag _ _ H _ _ => H)
     2 (x03 :: q) cs cs L ltac:(intros f l _; reflexivity) (dates_related cs D)) as [H _].
  pose proof (parse_tag_body o E 2 (x03 :: q) cs) as [rec B].
  assert (match fst (parse_tag o E 2 (x03 :: q) cs) with ROk p => snd p = None | _ => True end) as SN.
  { rewrite B. unfold tag_body, tag_m, no_data, bind. destruct (tag02 rec o E _) as [[[]|e| |] s]; try exact Logic.I. reflexivity. }
  destruct (parse_tag o E 2 (x03 :: q) cs) as [[[i x]|e| |] cs']; cbn [fst snd] in *.
  - exists i, cs'. subst x. reflexivity.
  - contradiction.
  - destruct H as (t & b & Hn & [T|T]); apply NS in Hn; rewrite Hn in T; discriminate.
  - contradiction.
Qed.
Print Assumptions C23_version_3_unreported.

(** C23 as stated is false: the two octets 03 05 begin every version 3 signature, and cut there it is no error. *)
Theorem C23_refuted :
  ~ (forall o E cs t tm id a h h2 l q,
       tm < 2 ^ 32 -> length id = 8%nat -> length h2 = 2%nat -> material sig_layout a l ->
       strict_prefix q (x03 :: x05 :: t :: be_enc 4 tm ++ id ++ a :: h :: h2 ++ encs l) -> sized q -> four_octet_dates cs ->
       exists e, fst (parse_tag o E 2 q cs) = RErr e).
Proof.
  intro H. destruct (H o_plain env0 cst_init x00 0 (repeat x00 8) x01 x08 [x00; x00] sig_fields [x03; x05]) as [e X].
  - reflexivity.
  - reflexivity.
  - reflexivity.
  - concrete_material.
  - eexists (x00 :: _). split; [discriminate | reflexivity].
  - vm_compute; reflexivity.
  - intros d [K|K]; discriminate.
  - vm_compute in X. discriminate.
Qed.
Print Assumptions C23_refuted.

(** ** C26: areas *)

(** C26.  An area is split into exactly the sub-packets it is made of, and no area is split otherwise. *)
Theorem C26_split : forall l area, lenN area < 2 ^ 32 -> subpackets area = (l, true) <-> subs_in l area.
Proof. intros l area L. symmetry. apply subpackets_in, L. Qed.
Print Assumptions C26_split.

(** C26.  In particular no octets can be split in two ways, and an area that begins with the length zero cannot be
    split at all. *)
Theorem C26_one_way : forall l1 l2 area, lenN area < 2 ^ 32 -> subs_in l1 area -> subs_in l2 area -> l1 = l2.
Proof.
  intros l1 l2 area L H1 H2. apply subpackets_in in H1, H2; [|assumption..]. rewrite H1 in H2. injection H2 as ->. reflexivity.
Qed.
Print Assumptions C26_one_way.
Theorem C26_zero_length : forall l rest, ~ subs_in l (x00 :: rest).
Proof.
  intros l rest H. inversion H as [|ty body len l' w HL _ E1 E2]; subst.
  destruct HL as [X|X|X]; cbn [app] in E2; apply FramingL.cons_inj in E2 as [E2 _].
  - apply (f_equal b2n) in E2. rewrite b2n_n2b_small in E2 by lia. change (b2n x00) with 0 in E2. lia.
  - apply (f_equal b2n) in E2. rewrite b2n_n2b_small in E2; [change (b2n x00) with 0 in E2; lia|].
    assert ((1 + lenN body - 192) / 256 < 63) by (apply N.div_lt_upper_bound; lia). lia.
  - discriminate.
Qed.
Print Assumptions C26_zero_length.
Theorem C26_too_long : forall l n ty rest, 0 < n < 192 -> lenN (ty :: rest) < n -> ~ subs_in l (n2b n :: ty :: rest).
Proof.
  intros l n ty rest Hn HL H. inversion H as [|ty' body len l' w HS _ E1 E2]; subst. unfold lenN in HL.
  destruct HS as [X|X|X]; cbn [app] in E2; apply FramingL.cons_inj in E2 as [E2 E3].
  - apply (f_equal b2n) in E2. rewrite !b2n_n2b_small in E2 by lia. apply (f_equal (@length byte)) in E3.
    cbn [length] in *. rewrite app_length in E3. unfold lenN in *. lia.
  - apply (f_equal b2n) in E2. assert ((1 + lenN body - 192) / 256 < 63) by (apply N.div_lt_upper_bound; lia).
    rewrite !b2n_n2b_small in E2 by lia. lia.
  - apply (f_equal b2n) in E2. rewrite !b2n_n2b_small in E2 by lia. change (b2n xff) with 255 in E2. lia.
Qed.
Print Assumptions C26_too_long.

Lemma parse_fails_v4 o E v d rest cs cs' e : b2n v = 4 \/ b2n v = 5 -> sized (v :: d ++ rest) -> four_octet_dates cs ->
  fails_at (sig_middle o E) d cs (RErr e) cs' -> parse_tag o E 2 (v :: d ++ rest) cs = (RErr e, cs').
Proof.
  intros Hv L D F. apply parse_at; [assumption | assumption | | discriminate].
  unfold tag_body, tag_m. rewrite tag_item_shown, at_new. set (it := packet_shown o 2 (v :: d ++ rest) []).
  change (mkSt (MonadL.at_ (v :: d ++ rest) (v :: d ++ rest)) cs it) with (sat (v :: d ++ rest) (v :: d ++ rest) cs it).
  pose proof (suf_refl _ L) as SF. unfold no_data, tag02. rewrite bind_assoc. erewrite bind_ok by (apply rdByte_at; exact SF). cbv zeta.
  unfold bind at 1. rewrite tag02_v4 by exact Hv. apply suf_cons in SF. erewrite (bind_ok (add _)) by reflexivity. cbv beta.
  destruct (F _ rest (add_child (v_item (SigVer v) (oDebug o)) it) SF) as (s & R & X). unfold sat in R |- *.
  erewrite bind_err by exact R. rewrite X. reflexivity.
Qed.

(** C26.  An area of a signature that is not a sequence of sub-packets - a length is zero, incomplete, or goes beyond
    the end of the area - is an error, whatever follows it. *)
Theorem C26_hashed_malformed : forall o E cs v t a h A1 rest,
  let body := v :: t :: a :: h :: be_enc 2 (lenN A1) ++ A1 ++ rest in
  b2n v = 4 \/ b2n v = 5 -> lenN A1 < 65536 -> (forall l, ~ subs_in l A1) ->
  sized body -> four_octet_dates cs -> parse_tag o E 2 body cs = (RErr EStruct, cs).
Proof.
  intros o E cs v t a h A1 rest body Hv L1 H1 L D.
  assert (body = v :: ([t; a; h] ++ be_enc 2 (lenN A1) ++ A1) ++ rest) as B
    by (unfold body; cbn [app]; rewrite <- !app_assoc; reflexivity).
  rewrite B in *. apply parse_fails_v4; [assumption..|]. unfold sig_middle.
  eapply fails_at_bind; [apply (runs_to_at _ _ _ _ _ cs (runs_head o E t a h))|].
  exact (fails_at_first _ _ _ _ (RErr EStruct) _ Logic.I (bad_sig_area o E "Hashed Subpacket" A1 cs L1 H1)).
Qed.
Print Assumptions C26_hashed_malformed.
Theorem C26_unhashed_malformed : forall o E cs v t a h A1 l1 r1 cs1 A2 rest,
  let body := v :: t :: a :: h :: be_enc 2 (lenN A1) ++ A1 ++ be_enc 2 (lenN A2) ++ A2 ++ rest in
  b2n v = 4 \/ b2n v = 5 -> lenN A1 < 65536 -> lenN A2 < 65536 ->
  subs_in l1 A1 -> sub_list o E 2 l1 cs = (ROk r1, cs1) -> (forall l, ~ subs_in l A2) ->
  sized body -> four_octet_dates cs -> parse_tag o E 2 body cs = (RErr EStruct, cs1).
Proof.
  intros o E cs v t a h A1 l1 r1 cs1 A2 rest body Hv L1 L2 H1 S1 H2 L D.
  assert (body = v :: ([t; a; h] ++ (be_enc 2 (lenN A1) ++ A1) ++ be_enc 2 (lenN A2) ++ A2) ++ rest) as B
    by (unfold body; cbn [app]; rewrite <- !app_assoc; reflexivity).
  rewrite B in *. apply parse_fails_v4; [assumption..|]. unfold sig_middle.
  eapply fails_at_bind; [apply (runs_to_at _ _ _ _ _ cs (runs_head o E t a h))|].
  eapply fails_at_bind; [exact (runs_sig_area o E "Hashed Subpacket" A1 l1 cs r1 cs1 L1 H1 S1)|].
  exact (fails_at_first _ _ _ _ (RErr EStruct) _ Logic.I (bad_sig_area o E "Unhashed Subpacket" A2 cs1 L2 H2)).
Qed.
Print Assumptions C26_unhashed_malformed.

(** C26.  The error of a sub-packet is the error of the signature. *)
Theorem C26_sub_error : forall o E cs v t a h A1 l1 e cs1 rest,
  let body := v :: t :: a :: h :: be_enc 2 (lenN A1) ++ A1 ++ rest in
  b2n v = 4 \/ b2n v = 5 -> lenN A1 < 65536 -> subs_in l1 A1 -> sub_list o E 2 l1 cs = (RErr e, cs1) ->
  sized body -> four_octet_dates cs -> parse_tag o E 2 body cs = (RErr e, cs1).
Proof.
  intros o E cs v t a h A1 l1 e cs1 rest body Hv L1 H1 S1 L D.
  assert (body = v :: ([t; a; h] ++ be_enc 2 (lenN A1) ++ A1) ++ rest) as B
    by (unfold body; cbn [app]; rewrite <- !app_assoc; reflexivity).
  rewrite B in *. apply parse_fails_v4; [assumption..|]. unfold sig_middle.
  eapply fails_at_bind; [apply (runs_to_at _ _ _ _ _ cs (runs_head o E t a h))|].
  exact (fails_at_first _ _ _ _ (RErr e) _ Logic.I (fails_sig_area o E "Hashed Subpacket" A1 l1 cs cs1 (RErr e) L1 H1 S1 Logic.I)).
Qed.
Print Assumptions C26_sub_error.
Theorem C26_unhashed_sub_error : forall o E cs v t a h A1 l1 r1 cs1 A2 l2 e cs2 rest,
  let body := v :: t :: a :: h :: be_enc 2 (lenN A1) ++ A1 ++ be_enc 2 (lenN A2) ++ A2 ++ rest in
  b2n v = 4 \/ b2n v = 5 -> lenN A1 < 65536 -> lenN A2 < 65536 -> subs_in l1 A1 -> subs_in l2 A2 ->
  sub_list o E 2 l1 cs = (ROk r1, cs1) -> sub_list o E 2 l2 cs1 = (RErr e, cs2) ->
  sized body -> four_octet_dates cs -> parse_tag o E 2 body cs = (RErr e, cs2).
Proof.
  intros o E cs v t a h A1 l1 r1 cs1 A2 l2 e cs2 rest body Hv L1 L2 H1 H2 S1 S2 L D.
  assert (body = v :: ([t; a; h] ++ (be_enc 2 (lenN A1) ++ A1) ++ be_enc 2 (lenN A2) ++ A2) ++ rest) as B
    by (unfold body; cbn [app]; rewrite <- !app_assoc; reflexivity).
  rewrite B in *. apply parse_fails_v4; [assumption..|]. unfold sig_middle.
  eapply fails_at_bind; [apply (runs_to_at _ _ _ _ _ cs (runs_head o E t a h))|].
  eapply fails_at_bind; [exact (runs_sig_area o E "Hashed Subpacket" A1 l1 cs r1 cs1 L1 H1 S1)|].
  exact (fails_at_first _ _ _ _ (RErr e) _ Logic.I (fails_sig_area o E "Unhashed Subpacket" A2 l2 cs1 cs2 (RErr e) L2 H2 S2 Logic.I)).
Qed.
Print Assumptions C26_unhashed_sub_error.

(** C26.  A user attribute packet is one area. *)
Theorem C26_user_attribute : forall o E area l cs, lenN area < 2 ^ 32 -> four_octet_dates cs -> subs_in l area ->
  fst (sub_list o E 17 l cs) <> RPanic ->
  parse_tag o E 17 area cs =
  (map_res (fun r => (packet_shown o 17 area [area_shown o "Subpacket" area r], None)) (fst (sub_list o E 17 l cs)),
   snd (sub_list o E 17 l cs)).
Proof.
  intros o E area l cs L D H N. apply parse_at; [unfold sized, lenZ; unfold lenN in L; lia | assumption | |].
  - unfold tag_body, tag_m. rewrite tag_item_shown. unfold no_data, tag17, getBody, bind. cbn [fst snd s_rd]. change (r_body (r_new area)) with area.
    rewrite (area_eval o E 17 "Subpacket" area l) by assumption. cbn [s_cs s_rd s_cur].
    destruct (sub_list o E 17 l cs) as [[r|e| |] cs']; cbn [fst snd map_res]; reflexivity.
  - destruct (fst (sub_list o E 17 l cs)); cbn [map_res]; congruence.
Qed.
Print Assumptions C26_user_attribute.
Theorem C26_user_attribute_malformed : forall o E area cs, lenN area < 2 ^ 32 -> four_octet_dates cs -> (forall l, ~ subs_in l area) ->
  parse_tag o E 17 area cs = (RErr EStruct, cs).
Proof.
  intros o E area cs L D H. apply parse_at; [unfold sized, lenZ; unfold lenN in L; lia | assumption | |discriminate].
  unfold tag_body, tag_m. rewrite tag_item_shown. unfold no_data, tag17, getBody, bind. cbn [fst snd s_rd]. change (r_body (r_new area)) with area.
  rewrite (area_bad o E 17 "Subpacket" area) by assumption. reflexivity.
Qed.
Print Assumptions C26_user_attribute_malformed.
Example C26_witness : (forall l, ~ subs_in l [x05; x02; x00]) /\ sized (x04 :: x00 :: x01 :: x08 :: be_enc 2 3 ++ [x05; x02; x00] ++ [])
  /\ sub_list o_plain env0 2 [(x02, [x00])] cst_init = (RErr EUnexp, cst_init)
  /\ exists r cs, sub_list o_plain env0 17 [(x65, [x00; x01])] cst_init = (ROk r, cs).
Proof.
  split; [intro l; apply (C26_too_long l 5 x02 [x00]); [lia | reflexivity]|]. split; [vm_compute; reflexivity|]. split; [vm_compute; reflexivity|].
  do 2 eexists. vm_compute. reflexivity.
Qed.
