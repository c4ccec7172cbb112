(** * SigL: signature packets. *)
From Coq Require Import Strings.String Strings.Byte List NArith ZArith Bool Lia ZifyBool ZifyN ZifyNat.
From Verif Require Import Base BaseL SpecBase Item Reader ReaderL Context Env Time Values Opaque Monad MonadL Pubkey Subs Tags SubParse.
From Verif Require Import SpecValues ValuesL SpecPacket ReadsL PacketL TagL SpecSub SubL RelL ParseL UnfoldL.
Import ListNotations.
Local Open Scope Z_scope.

(** As [runs], [ends] and [cuts], but from one context only. *)
Definition runs_at {A} (m : M A) (d : bytes) (a : A) (cs cs' : cst) (ei : item -> item) : Prop :=
  forall B rest it, suf B (d ++ rest) -> m (sat B (d ++ rest) cs it) = (ROk a, sat B rest cs' (ei it)).
Definition ends_at {A} (m : M A) (d extra : bytes) (a : A) (cs cs' : cst) (ei : item -> item) : Prop :=
  forall B it, suf B (d ++ extra) ->
    exists s, m (sat B (d ++ extra) cs it) = (ROk a, s) /\ s_cs s = cs' /\ s_cur s = ei it.
Definition cuts_at {A} (m : M A) (d : bytes) (cs : cst) : Prop :=
  forall B q it, suf B q -> strict_prefix q d -> exists e s, m (sat B q cs it) = (RErr e, s) /\ (e = EEof \/ e = EUnexp).
(** [m] in front of [d] fails with [r]. *)
Definition fails_at {A} (m : M A) (d : bytes) (cs : cst) (r : res A) (cs' : cst) : Prop :=
  forall B rest it, suf B (d ++ rest) -> exists s, m (sat B (d ++ rest) cs it) = (r, s) /\ s_cs s = cs'.
Definition failure {A B} (r : res A) : res B := match r with ROk _ | RFuel => RFuel | RErr e => RErr e | RPanic => RPanic end.

Lemma runs_to_at {A} (m : M A) d a ec ei cs : runs m d a ec ei -> runs_at m d a cs (ec cs) ei.
Proof. intros H B rest it S. apply H, S. Qed.
Lemma ends_to_at {A} (m : M A) d extra a ec ei cs : ends m d extra a ec ei -> ends_at m d extra a cs (ec cs) ei.
Proof. intros H B it S. apply H, S. Qed.
Lemma cuts_to_at {A} (m : M A) d cs : cuts m d -> cuts_at m d cs.
Proof. intros H B q it S. apply H, S. Qed.

Lemma ends_at_bind {A B} (m : M A) (f : A -> M B) d1 d2 extra a b cs cs1 cs2 ei1 ei2 :
  runs_at m d1 a cs cs1 ei1 -> ends_at (f a) d2 extra b cs1 cs2 ei2 ->
  ends_at (bind m f) (d1 ++ d2) extra b cs cs2 (fun i => ei2 (ei1 i)).
Proof.
  intros F1 F2 Bf it H. rewrite <- app_assoc in *. erewrite bind_ok by (apply F1; exact H). apply F2. eapply suf_app. exact H.
Qed.
Lemma runs_at_bind {A B} (m : M A) (f : A -> M B) d1 d2 a b cs cs1 cs2 ei1 ei2 :
  runs_at m d1 a cs cs1 ei1 -> runs_at (f a) d2 b cs1 cs2 ei2 ->
  runs_at (bind m f) (d1 ++ d2) b cs cs2 (fun i => ei2 (ei1 i)).
Proof.
  intros F1 F2 Bf rest it H. rewrite <- app_assoc in *. erewrite bind_ok by (apply F1; exact H). apply F2. eapply suf_app. exact H.
Qed.
Lemma cuts_at_bind {A B} (m : M A) (f : A -> M B) d1 d2 a cs cs1 ei1 :
  cuts_at m d1 cs -> runs_at m d1 a cs cs1 ei1 -> cuts_at (f a) d2 cs1 -> cuts_at (bind m f) (d1 ++ d2) cs.
Proof.
  intros S1 F1 S2 Bf q it H SP. apply strict_prefix_app in SP as [SP|(q2 & -> & SP)].
  - destruct (S1 Bf q it H SP) as (e & s & E & X). exists e, s. split; [|exact X]. apply bind_err. exact E.
  - erewrite bind_ok by (apply F1; exact H). apply S2; [eapply suf_app; exact H | exact SP].
Qed.
Lemma fails_at_bind {A B} (m : M A) (f : A -> M B) d1 d2 a cs cs1 ei1 r cs2 :
  runs_at m d1 a cs cs1 ei1 -> fails_at (f a) d2 cs1 r cs2 -> fails_at (bind m f) (d1 ++ d2) cs r cs2.
Proof.
  intros F1 F2 Bf rest it H. rewrite <- app_assoc in *. erewrite bind_ok by (apply F1; exact H). apply F2. eapply suf_app. exact H.
Qed.
Lemma fails_at_first {A B} (m : M A) (f : A -> M B) d cs r cs1 : match r with ROk _ => False | _ => True end ->
  fails_at m d cs r cs1 -> fails_at (bind m f) d cs (failure r) cs1.
Proof.
  intros N F Bf rest it H. destruct (F Bf rest it H) as (s & E & X). exists s. split; [|exact X]. unfold bind. rewrite E.
  destruct r; [contradiction | reflexivity..].
Qed.

Lemma bind_ext {A B} (m : M A) (f g : A -> M B) s : (forall a s', f a s' = g a s') -> bind m f s = bind m g s.
Proof. intro H. unfold bind. destruct (m s) as [[] ?]; auto. Qed.
Lemma len2Z n : 2 = lenZ (be_enc 2 n).
Proof. unfold lenZ. rewrite be_enc_length. reflexivity. Qed.
Lemma lenZ_N (d : bytes) : lenZ d = Z.of_N (lenN d).
Proof. unfold lenZ, lenN. lia. Qed.

(** ** One sub-packet area *)
Lemma runs_sig_area o E name A l cs r cs' : (lenN A < 65536)%N -> subs_in l A -> sub_list o E 2 l cs = (ROk r, cs') ->
  runs_at (sig_area (parse_tag o E) o E (str name)) (be_enc 2 (lenN A) ++ A) tt cs cs' (adds (sig_area_shown o name A r)).
Proof.
  intros L H S B rest it SF. rewrite <- app_assoc in *. unfold sig_area. erewrite bind_ok by (apply rdBytes_at; [exact SF | apply len2Z]).
  cbv zeta. rewrite TagL.be2 by assumption. apply suf_app in SF.
  destruct A as [|x A].
  - change (0 <? lenN [])%N with false. cbv iota.
    assert (l = [] /\ r = [] /\ cs' = cs) as (-> & -> & ->).
    { inversion H as [|? ? len ? ? HL]; subst; [injection S as <- <-; auto|]. destruct HL; discriminate. }
    cbn [sig_area_shown]. rewrite adds_nil. reflexivity.
  - replace (0 <? lenN (x :: A))%N with true by (unfold lenN; cbn [length]; lia).
    erewrite bind_ok by (apply rdBytes_at; [exact SF | symmetry; apply lenZ_N]).
    unfold bind. rewrite (area_eval o E 2 name (x :: A) l) by (assumption || lia). cbn [sat s_cs]. rewrite S. cbn [fst snd].
    unfold add, upd, sat. cbn [s_rd s_cs s_cur]. rewrite add_child_adds. reflexivity.
Qed.
Lemma cuts_sig_area o E name A cs : (lenN A < 65536)%N -> cuts_at (sig_area (parse_tag o E) o E (str name)) (be_enc 2 (lenN A) ++ A) cs.
Proof.
  intros L B q it SF SP. unfold sig_area. apply strict_prefix_app in SP as [SP|(q2 & -> & SP)].
  - apply (cuts_first (rdBytes 2) _ (be_enc 2 (lenN A)) (cuts_bytes 2 _ (len2Z _) ltac:(reflexivity)) B q cs it SF SP).
  - erewrite bind_ok by (apply rdBytes_at; [exact SF | apply len2Z]). cbv zeta. rewrite TagL.be2 by assumption. apply suf_app in SF.
    destruct A as [|x A]; [destruct (strict_prefix_nil _ SP)|].
    replace (0 <? lenN (x :: A))%N with true by (unfold lenN; cbn [length]; lia).
    refine (cuts_first (rdBytes (Z.of_N (lenN (x :: A)))) _ (x :: A) (cuts_bytes _ _ (eq_sym (lenZ_N _)) _) B q2 cs it SF SP). lia.
Qed.
(** A failing sub-packet, or an area that cannot be split. *)
Lemma fails_sig_area o E name A l cs cs' r : (lenN A < 65536)%N -> subs_in l A -> sub_list o E 2 l cs = (r, cs') ->
  match r with ROk _ => False | _ => True end ->
  fails_at (sig_area (parse_tag o E) o E (str name)) (be_enc 2 (lenN A) ++ A) cs (failure r) cs'.
Proof.
  intros L H S N B rest it SF. rewrite <- app_assoc in *. unfold sig_area. erewrite bind_ok by (apply rdBytes_at; [exact SF | apply len2Z]).
  cbv zeta. rewrite TagL.be2 by assumption. apply suf_app in SF.
  destruct A as [|x A].
  - assert (l = []) as -> by (inversion H as [|? ? len ? ? HL]; subst; [reflexivity|]; destruct HL; discriminate).
    injection S as <- <-. contradiction.
  - replace (0 <? lenN (x :: A))%N with true by (unfold lenN; cbn [length]; lia).
    erewrite bind_ok by (apply rdBytes_at; [exact SF | symmetry; apply lenZ_N]).
    unfold bind. rewrite (area_eval o E 2 name (x :: A) l) by (assumption || lia). cbn [sat s_cs]. rewrite S. cbn [fst snd].
    destruct r; [contradiction|..]; eexists; (split; [reflexivity | reflexivity]).
Qed.
Lemma bad_sig_area o E name A cs : (lenN A < 65536)%N -> (forall l, ~ subs_in l A) ->
  fails_at (sig_area (parse_tag o E) o E (str name)) (be_enc 2 (lenN A) ++ A) cs (RErr EStruct) cs.
Proof.
  intros L H B rest it SF. rewrite <- app_assoc in *. unfold sig_area. erewrite bind_ok by (apply rdBytes_at; [exact SF | apply len2Z]).
  cbv zeta. rewrite TagL.be2 by assumption. apply suf_app in SF.
  destruct A as [|x A]; [destruct (H [] no_sub)|].
  replace (0 <? lenN (x :: A))%N with true by (unfold lenN; cbn [length]; lia).
  erewrite bind_ok by (apply rdBytes_at; [exact SF | symmetry; apply lenZ_N]).
  unfold bind. rewrite area_bad by (assumption || lia). eexists. split; reflexivity.
Qed.

(** ** The whole packet *)
Section V4.
  Variables (o : opts) (E : env) (v t a h : byte) (h2 : bytes) (l : list field) (A1 A2 : bytes) (l1 l2 : list (byte * bytes)) (cs cs1 cs2 : cst) (r1 r2 : list item).
  Hypothesis Hv : (b2n v = 4 \/ b2n v = 5)%N.
  Hypothesis (Hh : length h2 = 2%nat) (Hl : material sig_layout a l).
  Hypothesis (L1 : (lenN A1 < 65536)%N) (L2 : (lenN A2 < 65536)%N) (H1 : subs_in l1 A1) (H2 : subs_in l2 A2).
  Hypothesis (S1 : sub_list o E 2 l1 cs = (ROk r1, cs1)) (S2 : sub_list o E 2 l2 cs1 = (ROk r2, cs2)).

  Definition sig_head : M byte :=
    let* sig := rdByte in
    add (sig_item sig (oDebug o)) ;;
    let* pubid := rdByte in
    add (pub_item pubid (oDebug o)) ;;
    let* hashid := rdByte in
    add (hash_item hashid (oDebug o)) ;; ret pubid.
  Definition sig_tail (pubid : byte) : M unit :=
    let* hv := rdBytes 2 in add (hashleft_item hv) ;; parseSig o pubid.
  Lemma sigV4_split s : sigV4 (parse_tag o E) o E s =
    bind sig_head (fun p => bind (sig_area (parse_tag o E) o E (str "Hashed Subpacket")) (fun _ =>
      bind (sig_area (parse_tag o E) o E (str "Unhashed Subpacket")) (fun _ => sig_tail p))) s.
  Proof.
    unfold sigV4, sig_head, sig_tail.
    do 6 (rewrite bind_assoc; apply bind_ext; intros ? ?; cbv beta). reflexivity.
  Qed.
  Lemma runs_head : runs sig_head [t; a; h] a same (adds (shows o E [FSigType t; FPub a; FHash h])).
  Proof.
    unfold sig_head. eapply runs_ext0; [do 3 (do 2 step); step | reflexivity|].
    intro i. rewrite (show_sigtype o E). fin_items.
  Qed.
  Lemma cuts_head : cuts sig_head [t; a; h].
  Proof. unfold sig_head. repeat step. Qed.
  Lemma runs_tail : runs (sig_tail a) (h2 ++ encs l) tt same (adds (shows o E (FHash2 h2 :: l))).
  Proof.
    unfold sig_tail. eapply runs_ext0; [step; [apply lenZ_2, Hh|]; step; exact (runs_parseSig o E a l Hl) | reflexivity|].
    intro i. rewrite (show_hash2 o E). fin_items.
  Qed.
  Lemma cuts_tail : cuts (sig_tail a) (h2 ++ encs l).
  Proof. unfold sig_tail. step; [apply lenZ_2, Hh | reflexivity |]. step. apply (cuts_parseSig o E), Hl. Qed.
  Let w := [t; a; h] ++ (be_enc 2 (lenN A1) ++ A1) ++ (be_enc 2 (lenN A2) ++ A2) ++ h2 ++ encs l.
  Lemma sig_w : sig_octets v t a h A1 A2 h2 l = v :: w.
  Proof. unfold sig_octets, w. cbn [app]. rewrite <- !app_assoc. reflexivity. Qed.

  Lemma runs_sigV4 : runs_at (sigV4 (parse_tag o E) o E) w tt cs cs2
    (adds (shows o E [FSigType t; FPub a; FHash h] ++ sig_area_shown o "Hashed Subpacket" A1 r1 ++
           sig_area_shown o "Unhashed Subpacket" A2 r2 ++ shows o E (FHash2 h2 :: l))).
  Proof.
    intros B rest it SF. rewrite sigV4_split. unfold w in *.
    eassert (runs_at (bind sig_head (fun p => bind (sig_area (parse_tag o E) o E (str "Hashed Subpacket")) (fun _ =>
      bind (sig_area (parse_tag o E) o E (str "Unhashed Subpacket")) (fun _ => sig_tail p)))) _ tt cs cs2 _) as K.
    { eapply runs_at_bind; [apply (runs_to_at _ _ _ _ _ cs runs_head)|].
      eapply runs_at_bind; [exact (runs_sig_area o E "Hashed Subpacket" A1 l1 cs r1 cs1 L1 H1 S1)|].
      eapply runs_at_bind; [exact (runs_sig_area o E "Unhashed Subpacket" A2 l2 cs1 r2 cs2 L2 H2 S2)|].
      apply (runs_to_at _ _ _ _ _ cs2 runs_tail). }
    rewrite (K B rest it SF). cbv beta. rewrite !adds_adds, <- ?app_assoc. reflexivity.
  Qed.
  Lemma cuts_sigV4 : cuts_at (sigV4 (parse_tag o E) o E) w cs.
  Proof.
    intros B q it SF SP. rewrite sigV4_split. revert B q it SF SP. change (cuts_at (bind sig_head (fun p => bind (sig_area (parse_tag o E) o E (str "Hashed Subpacket")) (fun _ =>
      bind (sig_area (parse_tag o E) o E (str "Unhashed Subpacket")) (fun _ => sig_tail p)))) w cs).
    unfold w. eapply cuts_at_bind; [apply cuts_to_at, cuts_head | apply (runs_to_at _ _ _ _ _ cs runs_head)|].
    eapply cuts_at_bind; [apply cuts_sig_area; exact L1 | exact (runs_sig_area o E "Hashed Subpacket" A1 l1 cs r1 cs1 L1 H1 S1) |].
    eapply cuts_at_bind; [apply cuts_sig_area; exact L2 | exact (runs_sig_area o E "Unhashed Subpacket" A2 l2 cs1 r2 cs2 L2 H2 S2) |].
    apply cuts_to_at, cuts_tail.
  Qed.
End V4.

(** Versions 4 and 5 with any continuation after the areas. *)
Definition sig_middle (o : opts) (E : env) : M byte :=
  bind (sig_head o) (fun p => bind (sig_area (parse_tag o E) o E (str "Hashed Subpacket")) (fun _ =>
    bind (sig_area (parse_tag o E) o E (str "Unhashed Subpacket")) (fun _ => ret p))).
Lemma tag02_v4 o E v s : (b2n v = 4 \/ b2n v = 5)%N ->
  bind (add (v_item (SigVer v) (oDebug o))) (fun _ =>
    if v_isdraft (SigVer v) then sigV4 (parse_tag o E) o E ;; addRest sUnknownData (oDebug o)
    else if v_iscur (SigVer v) then sigV4 (parse_tag o E) o E ;; addRest sUnknownData (oDebug o)
    else if v_isold (SigVer v) && (v_num (SigVer v) =? 3)%N then
      let* r := catchM (sigV3 o E) in
      match r with
      | Some _ => addRest sUnknownData (oDebug o)
      | None => ret tt
      end
    else addRest sUnknownData (oDebug o)) s =
  bind (add (v_item (SigVer v) (oDebug o))) (fun _ => bind (sig_middle o E) (fun p => bind (sig_tail o p) (fun _ => addRest sUnknownData (oDebug o)))) s.
Proof.
  intro H. apply bind_ext. intros _ s'.
  assert (bind (sigV4 (parse_tag o E) o E) (fun _ => addRest sUnknownData (oDebug o)) s' =
          bind (sig_middle o E) (fun p => bind (sig_tail o p) (fun _ => addRest sUnknownData (oDebug o))) s') as K.
  { unfold bind at 1. rewrite sigV4_split. unfold sig_middle.
    match goal with |- _ = bind ?m ?f s' => change (bind (bind (sig_head o) (fun p => bind (sig_area (parse_tag o E) o E (str "Hashed Subpacket")) (fun _ =>
      bind (sig_area (parse_tag o E) o E (str "Unhashed Subpacket")) (fun _ => sig_tail o p)))) (fun _ => addRest sUnknownData (oDebug o)) s' = bind m f s') end.
    do 3 (rewrite !bind_assoc; apply bind_ext; intros ? ?; cbv beta). reflexivity. }
  unfold v_isdraft, v_iscur, v_num. cbn [SigVer v_ver v_cur v_draft].
  destruct H as [H|H]; rewrite H; exact K.
Qed.
Lemma runs_middle o E t a h A1 A2 l1 l2 cs cs1 cs2 r1 r2 :
  (lenN A1 < 65536)%N -> (lenN A2 < 65536)%N -> subs_in l1 A1 -> subs_in l2 A2 ->
  sub_list o E 2 l1 cs = (ROk r1, cs1) -> sub_list o E 2 l2 cs1 = (ROk r2, cs2) ->
  runs_at (sig_middle o E) ([t; a; h] ++ (be_enc 2 (lenN A1) ++ A1) ++ (be_enc 2 (lenN A2) ++ A2) ++ []) a cs cs2
    (adds (shows o E [FSigType t; FPub a; FHash h] ++ sig_area_shown o "Hashed Subpacket" A1 r1 ++ sig_area_shown o "Unhashed Subpacket" A2 r2)).
Proof.
  intros L1 L2 H1 H2 S1 S2 B rest it SF.
  eassert (runs_at (sig_middle o E) _ a cs cs2 _) as K.
  { unfold sig_middle. eapply runs_at_bind; [apply (runs_to_at _ _ _ _ _ cs (runs_head o E t a h))|].
    eapply runs_at_bind; [exact (runs_sig_area o E "Hashed Subpacket" A1 l1 cs r1 cs1 L1 H1 S1)|].
    eapply runs_at_bind; [exact (runs_sig_area o E "Unhashed Subpacket" A2 l2 cs1 r2 cs2 L2 H2 S2)|].
    apply (runs_to_at _ _ _ _ _ cs2 (runs_ret a)). }
  rewrite (K B rest it SF). cbv beta. unfold same. rewrite !adds_adds, <- ?app_assoc. reflexivity.
Qed.

Lemma ends_v4 o E v t a h A1 A2 l1 l2 cs cs1 cs2 r1 r2 d extra k :
  (b2n v = 4 \/ b2n v = 5)%N ->
  (lenN A1 < 65536)%N -> (lenN A2 < 65536)%N -> subs_in l1 A1 -> subs_in l2 A2 ->
  sub_list o E 2 l1 cs = (ROk r1, cs1) -> sub_list o E 2 l2 cs1 = (ROk r2, cs2) ->
  ends (bind (sig_tail o a) (fun _ => addRest sUnknownData (oDebug o))) d extra tt same (adds k) ->
  ends_at (tag02 (parse_tag o E) o E) (v :: t :: a :: h :: be_enc 2 (lenN A1) ++ A1 ++ be_enc 2 (lenN A2) ++ A2 ++ d) extra tt cs cs2
    (adds (shows o E [FVersion KSignature v; FSigType t; FPub a; FHash h] ++ sig_area_shown o "Hashed Subpacket" A1 r1 ++
           sig_area_shown o "Unhashed Subpacket" A2 r2 ++ k)).
Proof.
  intros Hv L1 L2 H1 H2 S1 S2 T B it SF. unfold tag02. cbn [app] in *.
  erewrite bind_ok by (apply rdByte_at; exact SF). cbv zeta. rewrite tag02_v4 by exact Hv. apply suf_cons in SF.
  erewrite bind_ok by reflexivity. cbv beta.
  eassert (ends_at (bind (sig_middle o E) (fun p => bind (sig_tail o p) (fun _ => addRest sUnknownData (oDebug o)))) _ extra tt cs cs2 _) as K.
  { eapply ends_at_bind; [exact (runs_middle o E t a h A1 A2 l1 l2 cs cs1 cs2 r1 r2 L1 L2 H1 H2 S1 S2)|].
    exact (ends_to_at _ d extra tt _ _ cs2 T). }
  cbn [app] in K. rewrite app_nil_r in K. rewrite <- ?app_assoc in K. cbn [app] in K. rewrite <- ?app_assoc in K.
  rewrite <- ?app_assoc in SF. rewrite <- ?app_assoc.
  destruct (K B (add_child (v_item (SigVer v) (oDebug o)) it)) as (s & R & C & I).
  { cbn [app]. rewrite <- ?app_assoc. cbn [app]. rewrite <- ?app_assoc. exact SF. }
  exists s. split; [|split; [exact C|]].
  - rewrite <- R. f_equal. unfold sat. cbn [s_rd s_cs s_cur app]. rewrite <- ?app_assoc. cbn [app]. rewrite <- ?app_assoc. reflexivity.
  - rewrite I. cbv beta. unfold same. rewrite (show_version o E KSignature v) by tauto. rewrite add_child_adds, !adds_adds.
    unfold shows. cbn [map app]. rewrite <- !app_assoc. reflexivity.
Qed.
