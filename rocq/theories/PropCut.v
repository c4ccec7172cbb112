(** * PropCut: keys and session keys that end early, ECDH and version 5 included (C21, C24, C25).

    [C21_pubkey_session_truncated] and [C24_truncated] leave ECDH out, because one cut of an ECDH key is accepted.
    Here that cut is shown to be the only one, for every ECDH key and session key, with what is shown for it. *)
From Coq Require Import Strings.String Strings.Byte List NArith ZArith Bool Lia ZifyBool ZifyN ZifyNat.
From Verif Require Import Base BaseL SpecBase Item Reader ReaderL Context Env Time Values Monad MonadL Pubkey S2k Subs Tags
  SpecValues SpecPacket SpecSecret ReadsL PacketL TagL Witness PropPacket PropSecret.
Import ListNotations.
Local Open Scope N_scope.

(** If the input ends inside [d1 ++ d2], and not exactly between the two, [m] fails. *)
Definition cuts_but {A} (m : M A) (d1 d2 : bytes) : Prop :=
  forall B q cs it, suf B q -> strict_prefix q (d1 ++ d2) -> q <> d1 ->
    exists e s, m (sat B q cs it) = (RErr e, s) /\ (e = EEof \/ e = EUnexp).

Lemma but_bind {A B} (m : M A) (f : A -> M B) d d1 d2 a ec ei :
  cuts m d -> runs m d a ec ei -> cuts_but (f a) d1 d2 -> cuts_but (bind m f) (d ++ d1) d2.
Proof.
  intros S1 F1 S2 Bf q cs it H SP N. rewrite <- app_assoc in SP. apply strict_prefix_app in SP as [SP|(q2 & -> & SP)].
  - destruct (S1 Bf q cs it H SP) as (e & s & E & X). exists e, s. split; [|exact X]. apply bind_err. exact E.
  - erewrite bind_ok by (apply F1; exact H). apply S2; [eapply suf_app; exact H | exact SP|]. congruence.
Qed.
Lemma but_first {A B} (m : M A) (f : A -> M B) d1 d2 : cuts_but m d1 d2 -> cuts_but (bind m f) d1 d2.
Proof.
  intros S Bf q cs it H SP N. destruct (S Bf q cs it H SP N) as (e & s & E & X). exists e, s. split; [|exact X]. apply bind_err. exact E.
Qed.
Lemma but_rest {A} (f : Z -> M A) d1 d2 : (forall n, cuts_but (f n) d1 d2) -> cuts_but (bind rdRest f) d1 d2.
Proof. intros F B q cs it H SP N. erewrite bind_ok by (apply rdRest_at; assumption). apply F; assumption. Qed.
Lemma but_byte {A} (f : byte -> M A) b d1 d2 : cuts_but (f b) d1 d2 -> cuts_but (bind rdByte f) (b :: d1) d2.
Proof. intro F. exact (but_bind _ f [b] d1 d2 b same same (cuts_byte b) (runs_byte b) F). Qed.
Lemma but_bytes {A} n (f : bytes -> M A) x d1 d2 : n = lenZ x -> (n < 2 ^ 62)%Z -> cuts_but (f x) d1 d2 ->
  cuts_but (bind (rdBytes n) f) (x ++ d1) d2.
Proof. intros E L F. exact (but_bind _ f x d1 d2 x same same (cuts_bytes n x E L) (runs_bytes n x E) F). Qed.
Lemma but_add {A} c (k : unit -> M A) d1 d2 : cuts_but (k tt) d1 d2 -> cuts_but (bind (add c) k) d1 d2.
Proof. intro F. exact (but_bind _ k [] d1 d2 tt same (adds [c]) (cuts_nil _) (runs_add c) F). Qed.
Lemma but_mode {A} x (k : unit -> M A) d1 d2 : cuts_but (k tt) d1 d2 -> cuts_but (bind (setMode x) k) d1 d2.
Proof. intro F. exact (but_bind _ k [] d1 d2 tt _ _ (cuts_nil _) (runs_setMode x) F). Qed.
Lemma but_ext {A} (m : M A) d1 d1' d2 : cuts_but m d1 d2 -> d1 = d1' -> cuts_but m d1' d2.
Proof. intros F <-. exact F. Qed.

Lemma but_ecparm d : lenN d < 256 -> cuts_but newECParm [] (len1 d).
Proof.
  intros H B q cs it Hs SP N. destruct q as [|c q]; [congruence|]. unfold len1 in SP. cbn [app] in SP.
  destruct SP as (t & NE & X). cbn [app] in X. injection X as <- X.
  unfold newECParm. rewrite rdByte_at by assumption. rewrite b2n_len1 by assumption.
  assert (strict_prefix q d) as SP by (exists t; auto). apply strict_prefix_len in SP. rewrite !lenZ_lenN in SP.
  destruct (N.eqb_spec (lenN d) 0) as [Z|Z]; [lia|].
  assert (strict_prefix q d) as SP' by (exists t; auto).
  apply (cuts_bytes (Z.of_N (lenN d)) d); [rewrite lenZ_lenN; reflexivity | lia | eapply suf_cons; exact Hs | exact SP'].
Qed.
Lemma drains_ecparm : drains newECParm [] [] same same.
Proof. intros B cs it H. unfold newECParm. rewrite rdByte_eof by exact H. reflexivity. Qed.

(** ** ECDH session keys *)
Lemma but_parseSes o bits p d : wf (FPoint "ECDH" bits p) -> lenN d < 256 ->
  cuts_but (parseSes o x12) (enc (FPoint "ECDH" bits p)) (len1 d).
Proof.
  intros Wp Hd. unfold parseSes. apply but_rest. intro n. run_if.
  eapply but_ext; [eapply but_bind; [apply cuts_addPoint; exact Wp | apply (runs_addPoint o env0); exact Wp|] | apply app_nil_r].
  cbv beta. apply but_first, but_ecparm. exact Hd.
Qed.
Lemma drains_rest {A} (f : Z -> M A) d a ec ei : (forall n, drains (f n) d a ec ei) -> drains (bind rdRest f) d a ec ei.
Proof. intros F B cs it H. erewrite bind_ok by (apply rdRest_at; assumption). apply F; assumption. Qed.
Lemma drains_add c : drains (add c) [] tt same (adds [c]).
Proof. apply runs_drains, runs_add. Qed.
Lemma drains_bind0 {A B} (m : M A) (f : A -> M B) d a b ec1 ec2 ei1 ei2 :
  runs m d a ec1 ei1 -> drains (f a) [] b ec2 ei2 -> drains (bind m f) d b (fun c => ec2 (ec1 c)) (fun i => ei2 (ei1 i)).
Proof. intros R D. pose proof (drains_bind m f d [] a b ec1 ec2 ei1 ei2 R D) as X. rewrite app_nil_r in X. exact X. Qed.
Lemma ends_then {A B} (m : M A) (f : A -> M B) d a b ec1 ec2 ei1 ei2 :
  drains m d a ec1 ei1 -> ends (f a) [] [] b ec2 ei2 -> ends (bind m f) d [] b (fun c => ec2 (ec1 c)) (fun i => ei2 (ei1 i)).
Proof.
  intros D F Bf cs it H. rewrite app_nil_r in *. erewrite bind_ok by (apply D; exact H).
  apply (F Bf). cbn [app]. rewrite <- (app_nil_r d) in H. eapply suf_app. exact H.
Qed.
Lemma drains_parseSes o E bits p : wf (FPoint "ECDH" bits p) ->
  drains (parseSes o x12) (enc (FPoint "ECDH" bits p)) tt same
         (adds (shows o E [FPoint "ECDH" bits p; FParm "symmetric key (encoded)" []])).
Proof.
  intros Wp. unfold parseSes. apply drains_rest. intro n. run_if. eapply drains_ext0.
  - eapply drains_bind0; [apply (runs_addPoint o E); exact Wp|]. cbv beta.
    eapply drains_then; [apply drains_ecparm|]. cbv beta. apply drains_add.
  - reflexivity.
  - intro i. fin_items.
Qed.
Lemma but_tag01 o v id bits p d : length id = 8%nat -> wf (FPoint "ECDH" bits p) -> lenN d < 256 ->
  cuts_but (tag01 o) (v :: id ++ x12 :: enc (FPoint "ECDH" bits p)) (len1 d).
Proof.
  intros Hid Wp Hd. unfold tag01. apply but_mode, but_byte, but_add, but_bytes; [apply lenZ_8, Hid | reflexivity|].
  apply but_add, but_byte, but_add, but_first, but_parseSes; assumption.
Qed.
Lemma ends_tag01_cut o E v id bits p : length id = 8%nat -> wf (FPoint "ECDH" bits p) ->
  ends (tag01 o) (v :: id ++ x12 :: enc (FPoint "ECDH" bits p)) [] tt (with_mode ModePubEnc)
       (adds (shows o E ([FVersion KPubSession v; FKeyID id; FPub x12] ++ [FPoint "ECDH" bits p; FParm "symmetric key (encoded)" []]))).
Proof.
  intros Hid Wp. unfold tag01. eapply ends_ext0.
  - do 3 step. step; [apply lenZ_8, Hid|]. do 3 step.
    eapply ends_then; [apply (drains_parseSes o E); exact Wp|]. step.
  - reflexivity.
  - intro i. rewrite (show_version o E KPubSession v) by tauto. rewrite (show_keyid o E) by assumption. fin_items.
Qed.

Lemma parse_but o E tag d1 d2 q cs (m : M unit) : (forall rec, tag_m rec o E tag = no_data m) -> cuts_but m d1 d2 ->
  strict_prefix q (d1 ++ d2) -> q <> d1 -> in_memory q ->
  exists e, fst (parse_tag o E tag q cs) = RErr e /\ (e = EEof \/ e = EUnexp).
Proof.
  intros T F P N L. destruct (parse_tag_body o E tag q cs) as [rec ->].
  unfold tag_body. rewrite T, tag_item_shown, at_new.
  change (mkSt (at_ q q) cs (packet_shown o tag q [])) with (sat q q cs (packet_shown o tag q [])).
  destruct (F q q cs (packet_shown o tag q []) (suf_refl _ L) P N) as (e & s & R & X).
  exists e. unfold no_data. erewrite bind_err by exact R. auto.
Qed.

Lemma ses_x12 bits p d : material ses_layout x12 [FPoint "ECDH" bits p; FParm "symmetric key (encoded)" d] ->
  wf (FPoint "ECDH" bits p) /\ lenN d < 256.
Proof. intros (s & X & F). cbv in X. injection X as <-. inversion_clear F as [|? ? ? ? H1 F']. inversion_clear F' as [|? ? ? ? H2 _]. split; [apply H1 | apply H2]. Qed.
Lemma pub_x12 c bits p d : material pub_layout x12 [FCurve c; FPoint "ECDH" bits p; FKdf d] ->
  wf (FCurve c) /\ wf (FPoint "ECDH" bits p) /\ lenN d < 256.
Proof.
  intros (s & X & F). cbv in X. injection X as <-. inversion_clear F as [|? ? ? ? H1 F']. inversion_clear F' as [|? ? ? ? H2 F''].
  inversion_clear F'' as [|? ? ? ? H3 _]. split; [apply H1 | split; [apply H2 | apply H3]].
Qed.

(** C21.  An ECDH session key that ends inside its fields is an error, unless it ends exactly before the length of the
    encoded key; then it is shown as if that field were there and empty. *)
Theorem C21_ecdh_session_truncated : forall o E cs v id bits p d q,
  let head := [FVersion KPubSession v; FKeyID id; FPub x12; FPoint "ECDH" bits p] in
  length id = 8%nat -> material ses_layout x12 [FPoint "ECDH" bits p; FParm "symmetric key (encoded)" d] ->
  strict_prefix q (encs (head ++ [FParm "symmetric key (encoded)" d])) -> in_memory q ->
  (q <> encs head -> exists e, fst (parse_tag o E 1 q cs) = RErr e /\ (e = EEof \/ e = EUnexp))
  /\ (q = encs head ->
      parse_tag o E 1 q cs =
      (ROk (packet_shown o 1 q (shows o E (head ++ [FParm "symmetric key (encoded)" []])), None), with_mode ModePubEnc cs)).
Proof.
  intros o E cs v id bits p d q head Hid M P L. apply ses_x12 in M as [Wp Wd].
  assert (encs (head ++ [FParm "symmetric key (encoded)" d]) = (v :: id ++ x12 :: enc (FPoint "ECDH" bits p)) ++ len1 d) as X.
  { unfold head, encs. cbn [flat_map app]. rewrite ?app_nil_r. cbn [enc app]. rewrite <- ?app_assoc. cbn [app]. rewrite <- ?app_assoc. reflexivity. }
  assert (encs head = v :: id ++ x12 :: enc (FPoint "ECDH" bits p)) as Xh.
  { unfold head, encs. cbn [flat_map app]. rewrite ?app_nil_r. reflexivity. }
  rewrite X in P. rewrite Xh. split.
  - intro N. refine (parse_but o E 1 _ _ q cs (tag01 o) ltac:(is_tag) (but_tag01 o v id bits p d Hid _ _) P N L); assumption.
  - intros ->. refine (done0 o E 1 _ cs _ _ (tag01 o) ltac:(is_tag) (ends_tag01_cut o E v id bits p Hid _) L); assumption.
Qed.
Print Assumptions C21_ecdh_session_truncated.
(** Both cases occur. *)
Example C21_ecdh_session_truncated_used :
  let l := [FPoint "ECDH" 3 [x07]; FParm "symmetric key (encoded)" [x2a; x2b]] in
  let head := [FVersion KPubSession x03; FKeyID (repeat x11 8); FPub x12; FPoint "ECDH" 3 [x07]] in
  material ses_layout x12 l
  /\ strict_prefix (encs head) (encs (head ++ [FParm "symmetric key (encoded)" [x2a; x2b]]))
  /\ strict_prefix (encs head ++ [x02]) (encs (head ++ [FParm "symmetric key (encoded)" [x2a; x2b]])).
Proof.
  split; [concrete_material|]. split; [exists [x02; x2a; x2b] | exists [x2a; x2b]]; (split; [discriminate | reflexivity]).
Qed.

(** ** ECDH keys *)
Lemma but_parsePub o c bits p d : wf (FCurve c) -> wf (FPoint "ECDH" bits p) -> lenN d < 256 ->
  cuts_but (parsePub o x12) (enc (FCurve c) ++ enc (FPoint "ECDH" bits p)) (len1 d).
Proof.
  intros Wc Wp Hd. unfold parsePub. apply but_rest. intro n. run_if. unfold ecdhPub.
  eapply but_bind; [apply cuts_addOID; exact Wc | apply (runs_addOID o env0); exact Wc|]. cbv beta.
  eapply but_ext; [eapply but_bind; [apply cuts_addPoint; exact Wp | apply (runs_addPoint o env0); exact Wp|] | apply app_nil_r].
  cbv beta. apply but_first, but_ecparm. exact Hd.
Qed.
Lemma drains_parsePub o E c bits p : wf (FCurve c) -> wf (FPoint "ECDH" bits p) ->
  drains (parsePub o x12) (enc (FCurve c) ++ enc (FPoint "ECDH" bits p)) tt same
         (adds (shows o E [FCurve c; FPoint "ECDH" bits p; FKdf []])).
Proof.
  intros Wc Wp. unfold parsePub. apply drains_rest. intro n. run_if. unfold ecdhPub. eapply drains_ext0.
  - eapply drains_bind; [apply (runs_addOID o E); exact Wc|]. cbv beta.
    eapply drains_bind0; [apply (runs_addPoint o E); exact Wp|]. cbv beta.
    eapply drains_then; [apply drains_ecparm|]. cbv beta. apply drains_add.
  - reflexivity.
  - intro i. fin_items.
Qed.

Lemma but_pubV4 o E t c bits p d : t < 2 ^ 32 -> wf (FCurve c) -> wf (FPoint "ECDH" bits p) -> lenN d < 256 ->
  cuts_but (pubV4 o E) (be_enc 4 t ++ x12 :: enc (FCurve c) ++ enc (FPoint "ECDH" bits p)) (len1 d).
Proof.
  intros Ht Wc Wp Hd. unfold pubV4.
  eapply but_bind; [apply cuts_keyTime | apply (runs_keyTime o E); exact Ht|]. cbv beta.
  change (x12 :: ?x) with ([x12] ++ x). eapply but_bind; [apply cuts_keyAlg | apply (runs_keyAlg o E)|]. cbv beta.
  apply but_first, but_parsePub; assumption.
Qed.
Lemma but_pubV3 o E t days c bits p d : t < 2 ^ 32 -> wf (FCurve c) -> wf (FPoint "ECDH" bits p) -> lenN d < 256 ->
  cuts_but (pubV3 o E) (be_enc 4 t ++ be_enc 2 days ++ x12 :: enc (FCurve c) ++ enc (FPoint "ECDH" bits p)) (len1 d).
Proof.
  intros Ht Wc Wp Hd. unfold pubV3.
  eapply but_bind; [apply cuts_keyTime | apply (runs_keyTime o E); exact Ht|]. cbv beta.
  apply but_bytes; [apply len2|reflexivity|]. apply but_add.
  change (x12 :: ?x) with ([x12] ++ x). eapply but_bind; [apply cuts_keyAlg | apply (runs_keyAlg o E)|]. cbv beta.
  apply but_first, but_parsePub; assumption.
Qed.
Lemma drains_pubV4 o E t c bits p : t < 2 ^ 32 -> wf (FCurve c) -> wf (FPoint "ECDH" bits p) ->
  drains (pubV4 o E) (be_enc 4 t ++ x12 :: enc (FCurve c) ++ enc (FPoint "ECDH" bits p)) x12 (with_key (key_time o t))
         (adds (shows o E (key_fields 4 t 0 x12 [FCurve c; FPoint "ECDH" bits p; FKdf []]))).
Proof.
  intros Ht Wc Wp. unfold pubV4, key_fields. cbn [N.eqb Pos.eqb app]. eapply drains_ext0.
  - eapply drains_bind; [apply (runs_keyTime o E); exact Ht|]. cbv beta.
    change (x12 :: ?x) with ([x12] ++ x). eapply drains_bind; [apply (runs_keyAlg o E)|]. cbv beta.
    eapply drains_then; [apply (drains_parsePub o E); assumption|]. apply runs_drains, runs_ret.
  - reflexivity.
  - intro i. fin_items.
Qed.
Lemma drains_pubV3 o E t days c bits p : t < 2 ^ 32 -> days < 65536 -> wf (FCurve c) -> wf (FPoint "ECDH" bits p) ->
  drains (pubV3 o E) (be_enc 4 t ++ be_enc 2 days ++ x12 :: enc (FCurve c) ++ enc (FPoint "ECDH" bits p)) x12 (with_key (key_time o t))
         (adds (shows o E (key_fields 3 t days x12 [FCurve c; FPoint "ECDH" bits p; FKdf []]))).
Proof.
  intros Ht Hd Wc Wp. unfold pubV3, key_fields. cbn [N.eqb Pos.eqb app]. eapply drains_ext0.
  - eapply drains_bind; [apply (runs_keyTime o E); exact Ht|]. cbv beta.
    eapply drains_bytes_bind; [apply len2|]. cbv beta. eapply drains_add_bind.
    change (x12 :: ?x) with ([x12] ++ x). eapply drains_bind; [apply (runs_keyAlg o E)|]. cbv beta.
    eapply drains_then; [apply (drains_parsePub o E); assumption|]. apply runs_drains, runs_ret.
  - reflexivity.
  - intro i. rewrite be2 by assumption. fin_items.
Qed.

Lemma encs_ecdh v t days c bits p d : (v = 3 \/ v = 4) ->
  encs (FVersion KPublicKey (n2b v) :: key_fields v t days x12 [FCurve c; FPoint "ECDH" bits p; FKdf d])
  = encs (FVersion KPublicKey (n2b v) :: key_fields v t days x12 [FCurve c; FPoint "ECDH" bits p]) ++ len1 d.
Proof.
  intros [-> | ->]; unfold key_fields, encs; cbn [N.eqb Pos.eqb flat_map app enc]; rewrite ?app_nil_r; rewrite <- ?app_assoc; cbn [app]; rewrite <- ?app_assoc; reflexivity.
Qed.

(** C24.  An ECDH key that ends inside its fields is an error, unless it ends exactly before the KDF parameters; then it is
    shown as if that field were there and empty. *)
Theorem C24_ecdh_truncated : forall o E cs tag v t days c bits p d q,
  let keep := FVersion KPublicKey (n2b v) :: key_fields v t days x12 [FCurve c; FPoint "ECDH" bits p] in
  is_public tag -> t < 2 ^ 32 -> days < 65536 -> (v = 3 \/ v = 4) ->
  material pub_layout x12 [FCurve c; FPoint "ECDH" bits p; FKdf d] ->
  strict_prefix q (encs (FVersion KPublicKey (n2b v) :: key_fields v t days x12 [FCurve c; FPoint "ECDH" bits p; FKdf d])) ->
  in_memory q ->
  (q <> encs keep -> exists e, fst (parse_tag o E tag q cs) = RErr e /\ (e = EEof \/ e = EUnexp))
  /\ (q = encs keep ->
      parse_tag o E tag q cs =
      (ROk (packet_shown o tag q (shows o E (keep ++ [FKdf []])), None), with_key (key_time o t) cs)).
Proof.
  intros o E cs tag v t days c bits p d q keep Hg Ht Hd Hv M P L. apply pub_x12 in M as (Wc & Wp & Wd).
  rewrite encs_ecdh in P by exact Hv. fold keep in P.
  assert (exists k, encs keep = n2b v :: k /\ cuts_but (tag06 o E) (n2b v :: k) (len1 d) /\
    ends (tag06 o E) (n2b v :: k) [] tt (with_key (key_time o t)) (adds (shows o E (keep ++ [FKdf []])))) as (k & Xk & C & D).
  { unfold keep. destruct Hv as [-> | ->]; eexists; (split; [|split]).
    - unfold key_fields, encs. cbn [N.eqb Pos.eqb flat_map app enc]. rewrite ?app_nil_r. reflexivity.
    - unfold tag06, pub_parse. apply but_byte, but_add. change (n2b 3) with x03. ver_if. apply but_first, but_pubV3; assumption.
    - change (n2b 3) with x03. unfold tag06, pub_parse. eapply ends_ext0.
      + do 2 step. ver_if. eapply ends_then; [apply drains_pubV3; eassumption|]. step.
      + reflexivity.
      + intro i. rewrite (show_version o E KPublicKey x03) by tauto. fin_items.
    - unfold key_fields, encs. cbn [N.eqb Pos.eqb flat_map app enc]. rewrite ?app_nil_r. reflexivity.
    - unfold tag06, pub_parse. apply but_byte, but_add. change (n2b 4) with x04. ver_if. apply but_first, but_pubV4; assumption.
    - change (n2b 4) with x04. unfold tag06, pub_parse. eapply ends_ext0.
      + do 2 step. ver_if. eapply ends_then; [apply drains_pubV4; eassumption|]. step.
      + reflexivity.
      + intro i. rewrite (show_version o E KPublicKey x04) by tauto. fin_items. }
  rewrite Xk in *. split.
  - intro N. exact (parse_but o E tag _ _ q cs (tag06 o E) (public_tag o E tag Hg) C P N L).
  - intros ->. exact (done0 o E tag _ cs _ _ (tag06 o E) (public_tag o E tag Hg) D L).
Qed.
Print Assumptions C24_ecdh_truncated.
Example C24_ecdh_truncated_used :
  let l := [FCurve [x2b; x81; x04; x00; x22]; FPoint "ECDH" 3 [x04]; FKdf [x01; x08; x09]] in
  let keep := FVersion KPublicKey x04 :: key_fields 4 0 0 x12 [FCurve [x2b; x81; x04; x00; x22]; FPoint "ECDH" 3 [x04]] in
  material pub_layout x12 l
  /\ strict_prefix (encs keep) (encs (FVersion KPublicKey x04 :: key_fields 4 0 0 x12 l))
  /\ strict_prefix (encs keep ++ [x03; x01]) (encs (FVersion KPublicKey x04 :: key_fields 4 0 0 x12 l)).
Proof.
  split; [concrete_material|]. split; [exists [x03; x01; x08; x09] | exists [x08; x09]]; (split; [discriminate | reflexivity]).
Qed.

(** ** Version 5 keys *)
Lemma cuts_pubV5 o E t a w : t < 2 ^ 32 -> lenN w < 2 ^ 32 ->
  cuts (pubV5 o E) (be_enc 4 t ++ a :: be_enc 4 (lenN w) ++ w).
Proof.
  intros Ht Hw. unfold pubV5.
  eapply cuts_bind; [apply cuts_keyTime | apply (runs_keyTime o E); exact Ht|]. cbv beta.
  change (a :: ?x) with ([a] ++ x). eapply cuts_bind; [apply cuts_keyAlg | apply (runs_keyAlg o E)|]. cbv beta.
  step; [apply len4|reflexivity|]. cbv beta. rewrite be4 by assumption.
  apply cuts_first, cuts_bytes; [rewrite lenZ_lenN; reflexivity | lia].
Qed.
(** C24.  A version 5 key that ends before the octets it counts have all been read is an error, whatever they are and
    whatever its algorithm. *)
Theorem C24_v5_truncated : forall o E cs tag t a w q,
  is_public tag -> t < 2 ^ 32 -> lenN w < 2 ^ 32 ->
  strict_prefix q (x05 :: be_enc 4 t ++ a :: be_enc 4 (lenN w) ++ w) -> in_memory q ->
  exists e, fst (parse_tag o E tag q cs) = RErr e /\ (e = EEof \/ e = EUnexp).
Proof.
  intros o E cs tag t a w q Hg Ht Hw P L.
  refine (parse_cuts o E tag _ q cs (tag06 o E) (public_tag o E tag Hg) _ P L).
  unfold tag06, pub_parse. do 2 step. ver_if. apply cuts_first, cuts_pubV5; assumption.
Qed.
Print Assumptions C24_v5_truncated.

Lemma err_with_rd {A} (m : M A) d w : cuts m d -> strict_prefix w d -> (lenZ w < 2 ^ 62)%Z ->
  forall s, exists e s', with_rd (r_new w) m s = (RErr e, s') /\ (e = EEof \/ e = EUnexp).
Proof.
  intros C P L s. unfold with_rd. rewrite at_new.
  destruct (C w w (s_cs s) (s_cur s) (suf_refl _ L) P) as (e & s' & R & X). unfold sat in R. rewrite R. eauto.
Qed.
(** C24.  A version 5 key that counts too few octets for its fields is an error, even if more octets follow. *)
Theorem C24_v5_short_count : forall o E cs tag t a l w extra,
  let body := x05 :: be_enc 4 t ++ a :: be_enc 4 (lenN w) ++ w ++ extra in
  is_public tag -> t < 2 ^ 32 -> lenN w < 2 ^ 32 -> material pub_layout a l -> b2n a <> 18 ->
  strict_prefix w (encs l) -> in_memory body ->
  exists e, fst (parse_tag o E tag body cs) = RErr e /\ (e = EEof \/ e = EUnexp).
Proof.
  intros o E cs tag t a l w extra body Hg Ht Hw Hl Ha P L.
  destruct (parse_tag_body o E tag body cs) as [rec ->].
  unfold tag_body. rewrite (public_tag o E tag Hg), tag_item_shown, at_new.
  change (mkSt (at_ body body) cs (packet_shown o tag body [])) with (sat body body cs (packet_shown o tag body [])).
  assert (forall B q it, suf B q -> q = body -> exists e s, tag06 o E (sat B q cs it) = (RErr e, s) /\ (e = EEof \/ e = EUnexp)) as K.
  { intros B q it S ->. unfold body in *. clear L body.
    unfold tag06, pub_parse. erewrite bind_ok by (apply rdByte_at; exact S). apply suf_cons in S.
    erewrite bind_ok by apply add_at. ver_if.
    assert (exists e s, pubV5 o E (sat B (be_enc 4 t ++ a :: be_enc 4 (lenN w) ++ w ++ extra) cs
      (add_child (v_item (PubVer x05) (oDebug o)) it)) = (RErr e, s) /\ (e = EEof \/ e = EUnexp)) as (e & s & R & X).
    { unfold pubV5. erewrite bind_ok by (apply (runs_keyTime o E); [exact Ht | exact S]). apply suf_app in S.
      change (a :: ?x) with ([a] ++ x) in *.
      erewrite bind_ok by (apply (runs_keyAlg o E); exact S). apply suf_app in S. cbv beta.
      erewrite bind_ok by (apply (runs_bytes 4); [apply len4 | exact S]). apply suf_app in S. cbv beta. rewrite be4 by assumption.
      erewrite bind_ok by (apply runs_bytes; [rewrite lenZ_lenN; reflexivity | exact S]). apply suf_app in S. cbv beta.
      match goal with |- context [bind _ _ ?st] =>
        destruct (err_with_rd (parsePub o a) (encs l) w (cuts_parsePub o E a l Hl Ha) P ltac:(rewrite lenZ_lenN; lia) st) as (e & s & R & X) end.
      exists e, s. split; [apply bind_err; exact R | exact X]. }
    exists e, s. split; [apply bind_err; exact R | exact X]. }
  destruct (K body body (packet_shown o tag body []) (suf_refl _ L) eq_refl) as (e & s & R & X).
  exists e. unfold no_data. erewrite bind_err by exact R. auto.
Qed.
Print Assumptions C24_v5_short_count.
Example C24_v5_truncated_used :
  let l := [FMpi "RSA public modulus n" 9 [x01; x80]; FMpi "RSA public encryption exponent e" 2 [x03]] in
  material pub_layout x01 l /\ lenN (encs l) < 2 ^ 32 /\ strict_prefix [x00; x09; x01] (encs l)
  /\ strict_prefix [x05; x00; x00; x00; x00; x01; x00; x00; x00; x07; x00] (x05 :: be_enc 4 0 ++ x01 :: be_enc 4 (lenN (encs l)) ++ encs l).
Proof.
  split; [concrete_material|]. split; [reflexivity|].
  split; [exists [x80; x00; x02; x03] | exists [x09; x01; x80; x00; x02; x03]]; (split; [discriminate | reflexivity]).
Qed.

(** ** Secret keys *)
Lemma but_child {A} it0 (m : M A) d1 d2 : cuts_but m d1 d2 -> cuts_but (child it0 m) d1 d2.
Proof.
  intros S B q cs it H SP N. destruct (S B q cs it0 H SP N) as (e & s & E & X). exists e. eexists. split; [|exact X].
  unfold child. change (mkSt (s_rd (sat B q cs it)) (s_cs (sat B q cs it)) it0) with (sat B q cs it0). rewrite E. reflexivity.
Qed.
Lemma cuts_bind_but {A B} (m : M A) (f : A -> M B) d1 d2 d3 a ec ei a' ec' ei' :
  cuts_but m d1 d2 -> runs m (d1 ++ d2) a ec ei -> drains m d1 a' ec' ei' ->
  (forall Bf cs it, suf Bf [] -> exists s, f a' (sat Bf [] cs it) = (RErr EEof, s)) -> cuts (f a) d3 ->
  cuts (bind m f) ((d1 ++ d2) ++ d3).
Proof.
  intros C R D Z K Bf q cs it H SP. destruct (list_eq_dec Byte.byte_eq_dec q d1) as [->|N].
  - erewrite bind_ok by (apply D; exact H).
    destruct (Z Bf (ec' cs) (ei' it)) as (s & X); [rewrite <- (app_nil_r d1) in H; eapply suf_app; exact H|].
    exists EEof, s. rewrite X. auto.
  - apply strict_prefix_app in SP as [SP|(q2 & -> & SP)].
    + destruct (C Bf q cs it H SP N) as (e & s & E & X). exists e, s. split; [|exact X]. apply bind_err. exact E.
    + erewrite bind_ok by (apply R; exact H). apply K; [eapply suf_app; exact H | exact SP].
Qed.
Lemma pub_x12_inv l : material pub_layout x12 l -> exists c bits p d, l = [FCurve c; FPoint "ECDH" bits p; FKdf d].
Proof. intros (s & X & F). cbv in X. injection X as <-. forall2_inv. repeat eexists. Qed.

Lemma cuts_tag05 o E v t days a l rest : old_version v -> t < 2 ^ 32 -> days < 65536 -> material pub_layout a l ->
  cuts (sec_parse o (PubVer v) a) rest ->
  cuts (tag05 o E) (v :: encs (key_fields (b2n v) t days a l) ++ rest).
Proof.
  intros Hv Ht Hd Hl Hr. unfold tag05. do 2 step. destruct (N.eq_dec (b2n a) 18) as [Ha|Ha].
  - assert (a = x12) as -> by (rewrite <- (n2b_b2n a), Ha; reflexivity).
    pose proof Hl as M. apply pub_x12_inv in M as (c & bits & p & d & ->). pose proof Hl as M. apply pub_x12 in M as (Wc & Wp & Wd).
    assert (exists k, encs (key_fields (b2n v) t days x12 [FCurve c; FPoint "ECDH" bits p; FKdf d]) = k ++ len1 d /\
      cuts_but (pub_parse o E (PubVer v)) k (len1 d) /\
      drains (pub_parse o E (PubVer v)) k x12 (with_key (key_time o t))
             (adds (shows o E (key_fields (b2n v) t days x12 [FCurve c; FPoint "ECDH" bits p; FKdf []])))) as (k & Xk & C & D).
    { destruct Hv as [-> | ->]; eexists; (split; [|split]); unfold pub_parse; ver_if.
      2: exact (but_pubV3 o E t days c bits p d Ht Wc Wp Wd). 2: exact (drains_pubV3 o E t days c bits p Ht Hd Wc Wp).
      3: exact (but_pubV4 o E t c bits p d Ht Wc Wp Wd). 3: exact (drains_pubV4 o E t c bits p Ht Wc Wp).
      all: change (b2n x03) with 3; change (b2n x04) with 4; unfold key_fields, encs; cbn [N.eqb Pos.eqb flat_map app enc]; rewrite ?app_nil_r; rewrite <- ?app_assoc; cbn [app]; rewrite <- ?app_assoc; reflexivity. }
    rewrite Xk. eapply cuts_bind_but.
    + apply but_child, C.
    + rewrite <- Xk. apply runs_pub4; assumption.
    + apply drains_child, D.
    + intros Bf cs it S. cbv beta. eexists. erewrite bind_err; [reflexivity|].
      unfold child. cbn [s_rd s_cs sat].
      match goal with |- context [sec_parse _ _ _ ?st] => assert (sec_parse o (PubVer v) x12 st = (RErr EEof, st)) as -> end; [|reflexivity].
      unfold sec_parse. apply bind_err, rdByte_eof, S.
    + cbv beta. apply cuts_first, cuts_child, Hr.
  - eapply cuts_bind; [apply cuts_pub4; assumption | apply runs_pub4; assumption|]. cbv beta. apply cuts_first, cuts_child, Hr.
Qed.
Lemma cuts_sec_enc o (E : env) v a u c x s iv : old_version v ->
  (match x with Some _ => b2n u = 253 | None => b2n u = 254 \/ b2n u = 255 end) -> s2k_wf s ->
  s2k_iv s = true -> lenN iv = cipher_iv_octets (b2n c) ->
  cuts (sec_parse o (PubVer v) a) (u :: protection_octets c x s iv).
Proof.
  intros Hv Hu Hs NG Hiv. unfold sec_parse. step. cbv zeta. unfold getField1.
  rewrite (old_not5 v Hv). cbv iota. step. cbv iota. apply cuts_first, cuts_secopts; try assumption; [apply old_not5, Hv | | rewrite NG; exact Hiv].
  destruct s; try exact I; discriminate.
Qed.
Lemma cuts_sec_plain o (E : env) v a sec chk : old_version v -> material sec_layout a sec -> length chk = 2%nat ->
  cuts (sec_parse o (PubVer v) a) (x00 :: encs sec ++ chk).
Proof.
  intros Hv Hs Hc. unfold sec_parse. step. change (b2n x00) with 0. cbv zeta.
  unfold getField1, getField2. rewrite (old_not5 v Hv). cbv iota. step. cbv iota.
  unfold sec_opts. rewrite (old_not5 v Hv). cbn [N.eqb negb andb]. do 10 step.
  cbv iota. unfold sec_material. rewrite (old_not5 v Hv). cbv iota. cbn [N.eqb].
  unfold setNote. step. unfold opt_run. do 2 step.
  eapply cuts_bind; [apply (cuts_parseSec o E); assumption | exact (runs_parseSec o E a sec Hs)|]. do 2 step.
  apply cuts_first, cuts_bytes; [apply lenZ_2, Hc | reflexivity].
Qed.
(** With usage octets 1 to 252 the program reads a cipher octet and an IV of that cipher. *)
Lemma cuts_sec_legacy o (E : env) v a u c iv : old_version v -> 1 <= b2n u <= 252 -> lenN iv = cipher_iv_octets (b2n c) ->
  cuts (sec_parse o (PubVer v) a) (u :: c :: iv).
Proof.
  intros Hv Hu Hiv. unfold sec_parse. step. cbv zeta. unfold getField1, getField2. rewrite (old_not5 v Hv). cbv iota. step. cbv iota.
  apply cuts_first. unfold sec_opts. rewrite (old_not5 v Hv).
  replace (b2n u =? 0) with false by lia. replace (b2n u =? 253) with false by lia.
  assert (usage_s2k (b2n u) = false) as -> by (unfold usage_s2k; lia). cbn [negb andb]. unfold opt_run, sec_iv. cbv iota.
  repeat (step; cbv iota). apply cuts_first, cuts_bytes; [rewrite lenZ_lenN, Hiv; apply cipher_iv_eq|].
  rewrite cipher_iv_eq. unfold cipher_iv_octets. destruct (b2n c <=? 6), (b2n c <=? 13); lia.
Qed.

(** C25.  A secret key of version 3 or 4 that is cut anywhere before its encrypted part is an error, and one that is not
    encrypted is an error when it is cut anywhere; for every algorithm, ECDH included. *)
Theorem C25_truncated : forall o E cs tag v t days a pub rest q,
  is_secret tag -> key_ok v t days a pub -> v <> x05 ->
  (exists sec chk, rest = x00 :: encs sec ++ chk /\ material sec_layout a sec /\ length chk = 2%nat)
  \/ (exists u c x s iv, rest = u :: optional_octets c x (Some s) ++ iv /\ usage_fields (b2n u) x (Some s) /\ s2k_wf s
        /\ s2k_iv s = true /\ lenN iv = cipher_iv_octets (b2n c))
  \/ (exists u c iv, rest = u :: c :: iv /\ 1 <= b2n u <= 252 /\ lenN iv = cipher_iv_octets (b2n c)) ->
  strict_prefix q (v :: public_part v t days a pub ++ rest) -> in_memory q ->
  exists e, fst (parse_tag o E tag q cs) = RErr e /\ (e = EEof \/ e = EUnexp).
Proof.
  intros o E cs tag v t days a pub rest q Hg (Hv & Ht & Hd & Hl) N5 Hr P L.
  assert (old_version v) as OV by (destruct Hv as [-> | [-> | ->]]; [left | right | congruence]; reflexivity).
  assert (public_part v t days a pub = encs (key_fields (b2n v) t days a pub)) as X by (destruct OV as [-> | ->]; reflexivity). rewrite X in P.
  refine (parse_cuts o E tag _ q cs (tag05 o E) (secret_tag o E tag Hg) (cuts_tag05 o E v t days a pub rest OV Ht Hd Hl _) P L).
  destruct Hr as [(sec & chk & -> & Hs & Hc)|[(u & c & x & s & iv & -> & Hu & Hs & Hi & Hn)|(u & c & iv & -> & Hu & Hn)]].
  - apply (cuts_sec_plain o E); assumption.
  - assert (optional_octets c x (Some s) ++ iv = protection_octets c x s iv) as ->.
    { unfold optional_octets, protection_octets. destruct x; cbn; rewrite <- ?app_assoc; reflexivity. }
    apply (cuts_sec_enc o E); assumption.
  - apply (cuts_sec_legacy o E); assumption.
Qed.
Print Assumptions C25_truncated.
(** The cut that an ECDH public key is accepted with, before the KDF parameters, is among them. *)
Example C25_truncated_used :
  let pub := [FCurve [x2b; x81; x04; x00; x22]; FPoint "ECDH" 3 [x04]; FKdf [x01; x08; x09]] in
  let sec := [FMpi "ECDH secret key" 3 [x05]] in
  key_ok x04 0 0 x12 pub /\ material sec_layout x12 sec
  /\ strict_prefix [x04; x00; x00; x00; x00; x12; x05; x2b; x81; x04; x00; x22; x00; x03; x04]
       (x04 :: public_part x04 0 0 x12 pub ++ x00 :: encs sec ++ [x00; x05]).
Proof.
  split; [|split].
  - unfold key_ok. split; [right; left; reflexivity|]. split; [reflexivity|]. split; [reflexivity | concrete_material].
  - concrete_material.
  - eexists. split; [|vm_compute; reflexivity]. discriminate.
Qed.
