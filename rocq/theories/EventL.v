(** * EventL: the state behind packets and sub-packets (C10, C11). *)
From Coq Require Import Strings.String Strings.Byte List NArith ZArith Bool Lia ZifyBool ZifyN ZifyNat.
From Verif Require Import Base BaseL Item Reader Context Env Time Values Opaque Monad Pubkey S2k Subs Tags SubParse Parse ReaderL MonadL.
From Verif Require Import SpecBase SpecSub SpecSubs SpecFrame SubL SubsL KeyL KeyTailL SpecReader SpecNest SpecParse SpecPacket SpecComp TagL UnfoldL PropParse PropSig PropSub PropKeyBlock PropComp SpecState StateL.
Import ListNotations.
Local Open Scope N_scope.

Notation whole := (fun c : cst => c).

Lemma cs_of_bind {A B} (m : M A) (g : A -> M B) s a s' : m s = (ROk a, s') -> snd (bind m g s) = snd (g a s').
Proof. intro H. rewrite (bind_ok _ _ _ _ _ H). reflexivity. Qed.
Lemma bind_done {A B} (m : M A) (g : A -> M B) s b s2 : bind m g s = (ROk b, s2) -> exists a s1, m s = (ROk a, s1) /\ g a s1 = (ROk b, s2).
Proof. unfold bind. destruct (m s) as [[a|e| |] s1]; try discriminate. eauto. Qed.
Lemma keeps_done {A} (m : M A) s a s' : keeps whole m -> m s = (ROk a, s') -> s_cs s' = s_cs s.
Proof. intros K H. specialize (K s). rewrite H in K. exact K. Qed.

(** ** Sub-packets *)
Lemma after_other o ty b cs : sub_type ty <> 2 -> sub_type ty <> 3 -> sub_type ty <> 9 -> after_event o cs (EvSub ty b) = cs.
Proof.
  intros N2 N3 N9. destruct cs. unfold after_event, after_sig_time, after_key_time. cbn [Context.c_mode Context.c_sig Context.c_key].
  destruct (sub_type ty) as [|p]; [reflexivity|]. do 4 (try destruct p as [p|p|]); try reflexivity; congruence.
Qed.
Lemma sub_state o E ty b cs i cs' : sized b -> sub_type ty <> 32 -> sub_type ty <> 38 -> parse_sub o E 2 ty b cs = (ROk i, cs') ->
  cs' = after_event o cs (EvSub ty b) /\ (four_octet_dates cs -> four_octet_dates cs').
Proof.
  intros L N32 N38 H.
  assert (sub_type ty = 2 \/ sub_type ty = 3 \/ sub_type ty = 9 -> exists t extra, b = be_enc 4 t ++ extra /\ t < 2 ^ 32) as S4.
  { intro T. destruct (N.lt_ge_cases (lenN b) 4) as [G|G].
    - exfalso. destruct (C50_too_short o E ty b cs) as (e & X & _); [|exact L | rewrite H in X; discriminate X].
      unfold fields_need. destruct T as [T|[T|T]]; rewrite T; exact G.
    - exists (be (firstn 4 b)), (skipn 4 b).
      assert (length (firstn 4 b) = 4%nat) as F4 by (unfold lenN in G; rewrite firstn_length; lia).
      rewrite (be_of 4 (firstn 4 b) F4), firstn_skipn. split; [reflexivity|].
      exact (be_small 4 (firstn 4 b) F4). }
  destruct (N.eq_dec (sub_type ty) 2) as [T|N2].
  { destruct S4 as (t & extra & -> & Ht); [auto|]. rewrite (parse_02 o E ty t extra cs T Ht L) in H. apply (f_equal snd) in H. cbn [snd] in H. subst cs'.
    unfold after_event, after_sig_time, after_key_time. rewrite T. rewrite firstn_app, be_enc_length, Nat.sub_diag, firstn_O, app_nil_r.
    rewrite (firstn_all2 (be_enc 4 t)) by (rewrite be_enc_length; lia). split; [destruct cs; reflexivity|].
    intros D d [Q|Q]; [|apply D; destruct cs; auto]. assert (d = mkDT (be_enc 4 t) (oUTC o)) as -> by (destruct cs; cbn [with_sig Context.c_sig] in Q; congruence). cbn [dt_tm]. rewrite be_enc_length. lia. }
  destruct (N.eq_dec (sub_type ty) 3) as [T|N3].
  { destruct S4 as (t & extra & -> & Ht); [auto|]. rewrite (parse_03 o E ty t extra cs T Ht L) in H. apply (f_equal snd) in H. cbn [snd] in H. subst cs'.
    unfold after_event, after_sig_time, after_key_time. rewrite T. split; [destruct cs; reflexivity|].
    intros D d [Q|Q]; [|apply D; destruct cs; auto]. destruct cs. discriminate. }
  destruct (N.eq_dec (sub_type ty) 9) as [T|N9].
  { destruct S4 as (t & extra & -> & Ht); [auto|]. rewrite (parse_09 o E ty t extra cs T Ht L) in H. apply (f_equal snd) in H. cbn [snd] in H. subst cs'.
    unfold after_event, after_sig_time, after_key_time. rewrite T. split; [destruct cs; reflexivity|].
    intros D d [Q|Q]; [apply D; destruct cs; auto|]. destruct cs. discriminate. }
  rewrite after_other by assumption. assert (cs' = cs) as ->; [|auto].
  pose proof (keeps_sub whole (parse_tag o E) o E ty ltac:(intros [Q|Q]; contradiction) ltac:(intro Q; contradiction) N32 N38 (mkSt (r_new b) cs (sub_item ty b (oDebug o)))) as K.
  unfold parse_sub in H. destruct (sub_m _ _ _ _ _ _) as [[]]; inversion H; subst. exact K.
Qed.

(** ** Packets other than signatures *)
Lemma alg_other o tag body cs : after_tag (c_mode cs) tag = c_mode cs -> is_key tag = false -> after_event o cs (EvPacket tag body) = cs.
Proof. intros M K. destruct cs. unfold after_event, after_sig_time, after_key_time. cbn [Context.c_mode Context.c_sig Context.c_key] in *. rewrite M, K. destruct body; reflexivity. Qed.
Lemma mode_other m tag : ~ In tag [1; 3; 9; 18] -> after_tag m tag = m.
Proof. intro H. unfold after_tag. cbn [In] in H. destruct tag as [|p]; [reflexivity|]. do 5 (try destruct p as [p|p|]); try reflexivity; exfalso; apply H; auto 6. Qed.

Lemma keeps_pub o pub : keeps whole (parsePub o pub). Proof. kp. Qed.
Lemma keeps_secparse o v pub : keeps whole (sec_parse o v pub). Proof. kp. Qed.
Lemma keeps_rest_whole n b : keeps whole (addRest n b). Proof. kp. Qed.

(** The key material behind the version octet. *)
Lemma pub_state o E B v rest cs it a s : suf B rest -> pub_parse o E (PubVer v) (sat B rest cs it) = (ROk a, s) ->
  s_cs s = after_event o cs (EvPacket 6 (v :: rest)) /\ (four_octet_dates cs -> four_octet_dates (s_cs s)).
Proof.
  intros S H. unfold pub_parse in H. unfold v_isdraft, v_iscur, v_isold, v_num, PubVer in H. cbn [v_ver v_draft v_cur] in H. change (5 =? 0) with false in H. cbv iota in H.
  assert (forall (g : unit -> M byte), (forall u, keeps whole (g u)) -> bind (keyTime o E) g (sat B rest cs it) = (ROk a, s) ->
    3 <= b2n v <= 5 -> s_cs s = after_event o cs (EvPacket 6 (v :: rest)) /\ (four_octet_dates cs -> four_octet_dates (s_cs s))) as KT.
  { clear H. intros g G H V. apply bind_done in H as (u & s1 & H1 & H2). rewrite (keeps_done _ _ _ _ (G u) H2). clear H2 G.
    unfold keyTime, newDateTime in H1. rewrite bind_assoc in H1. apply bind_done in H1 as (d & s2 & R & H1).
    destruct (ok_bytes whole B rest 4 cs it d s2 S ltac:(lia) R) as (r & -> & Ld & ->). inversion H1; subst. cbn [s_cs sat].
    unfold after_event, after_sig_time, after_key_time. change (is_key 6) with true. replace (3 <=? b2n v) with true by lia. replace (b2n v <=? 5) with true by lia. cbn [andb].
    assert (firstn 4 (d ++ r) = d) as -> by (rewrite firstn_app, (firstn_all2 d) by (unfold lenN in Ld; lia); replace (4 - length d)%nat with 0%nat by (unfold lenN in Ld; lia); rewrite firstn_O, app_nil_r; reflexivity).
    split; [destruct cs; reflexivity|]. intros D x [Q|Q]; [apply D; destruct cs; auto|]. destruct cs. cbn in Q. inversion Q; subst. cbn [dt_tm]. unfold lenN in Ld. lia. }
  destruct (b2n v =? 5) eqn:V5; [apply (KT (fun _ => _)) in H; [exact H | intro; kp | lia]|].
  destruct (b2n v =? 4) eqn:V4; [apply (KT (fun _ => _)) in H; [exact H | intro; kp | lia]|].
  destruct ((b2n v <? 4) && (b2n v =? 3)) eqn:V3; [apply (KT (fun _ => _)) in H; [exact H | intro; kp | lia]|].
  inversion H; subst. cbn [s_cs sat]. split; [|auto]. destruct cs. unfold after_event, after_sig_time, after_key_time.
  cbn [Context.c_mode Context.c_sig Context.c_key]. change (is_key 6) with true.
  replace (true && (3 <=? b2n v) && (b2n v <=? 5)) with false by lia. reflexivity.
Qed.
Lemma key_same o tag v b cs : In tag [5; 6; 7; 14] -> after_event o cs (EvPacket 6 (v :: b)) = after_event o cs (EvPacket tag (v :: b)).
Proof. intro I. cbn [In] in I. repeat destruct I as [<-|I]; try reflexivity. destruct I. Qed.

Lemma tag_of_body rec o E tag body cs i x cs' : tag_body rec o E tag body cs = (ROk (i, x), cs') ->
  exists s, tag_m rec o E tag (mkSt (r_new body) cs (tag_item tag body (tag_dumpflag o tag))) = (ROk x, s) /\ s_cs s = cs'.
Proof. unfold tag_body. destruct (tag_m _ _ _ _ _) as [[] s]; intro H; inversion H; subst. exists s. split; reflexivity. Qed.

Lemma packet_state o E tag body cs i x cs' : sized body -> tag <> 2 -> parse_tag o E tag body cs = (ROk (i, x), cs') ->
  cs' = after_event o cs (EvPacket tag body) /\ (four_octet_dates cs -> four_octet_dates cs').
Proof.
  intros L N2 H. destruct (parse_tag_body o E tag body cs) as [rec R]. rewrite R in H. clear R.
  destruct (tag_of_body _ _ _ _ _ _ _ _ _ H) as (s & R & <-). clear H. rewrite at_new in R. fold (sat body body cs (tag_item tag body (tag_dumpflag o tag))) in R.
  destruct (in_dec N.eq_dec tag [1; 3; 9; 18]) as [I|N1].
  { assert (is_key tag = false) as KF by (cbn [In] in I; repeat destruct I as [<-|I]; try reflexivity; destruct I).
    assert (s_cs s = with_mode (after_tag (c_mode cs) tag) cs) as EQ.
    { cbn [In] in I. repeat destruct I as [<-|I]; [| | | | destruct I].
      - apply bind_done in R as (u & s1 & R & Q). inversion Q; subst. apply bind_done in R as (u' & s2 & R & Q'). inversion R; subst.
        eapply keeps_done in Q'; [rewrite Q'; destruct cs; reflexivity | kp].
      - apply bind_done in R as (u & s1 & R & Q). inversion Q; subst. apply bind_done in R as (u' & s2 & R & Q'). inversion R; subst.
        eapply keeps_done in Q'; [rewrite Q'; destruct cs; reflexivity | kp].
      - apply bind_done in R as (u & s1 & R & Q). inversion Q; subst. unfold tag09 in R.
        apply bind_done in R as (r & s2 & R1 & R). apply bind_done in R as (c & s3 & R2 & R). apply bind_done in R as (u' & s4 & R3 & R).
        apply keeps_done in R1; [|kp]. apply keeps_done in R2; [|kp]. apply keeps_done in R3; [|kp].
        inversion R; subst. cbn [s_cs]. rewrite R3, R2, R1. destruct cs; reflexivity.
      - apply bind_done in R as (u & s1 & R & Q). inversion Q; subst. unfold tag18 in R.
        apply bind_done in R as (r & s2 & R1 & R). apply bind_done in R as (c & s3 & R2 & R). apply bind_done in R as (u' & s4 & R3 & R).
        apply keeps_done in R1; [|kp]. apply keeps_done in R2; [|kp]. apply keeps_done in R3; [|kp].
        inversion R; subst. cbn [s_cs]. rewrite R3, R2, R1. destruct cs; reflexivity. }
    rewrite EQ. split; [|intros D d [Q|Q]; apply D; destruct cs; auto].
    destruct cs. unfold after_event, after_sig_time, after_key_time, with_mode. cbn [Context.c_mode Context.c_sig Context.c_key]. rewrite KF. destruct body; reflexivity. }
  destruct (in_dec N.eq_dec tag [5; 6; 7; 14]) as [I|N5].
  2: { rewrite alg_other; [|apply mode_other, N1 | unfold is_key; cbn [In] in N5; lia].
    apply keeps_done in R; [rewrite R; auto|]. apply keeps_tag; [exact N2 | intro; contradiction..]. }
  pose proof (suf_refl body L) as S.
  assert (tag_m rec o E tag = no_data (tag05 o E) \/ tag_m rec o E tag = no_data (tag06 o E)) as T.
  { cbn [In] in I. repeat destruct I as [<-|I]; [left | right | left | right | destruct I]; reflexivity. }
  destruct T as [T|T]; rewrite T in R; apply bind_done in R as (u & s1 & R & Q); inversion Q; subst; clear Q T.
  - unfold tag05 in R. apply bind_done in R as (v & s1 & R1 & R). destruct (ok_byte _ _ _ _ _ _ S R1) as (r & -> & ->).
    pose proof (suf_cons _ _ _ S) as S1. cbv zeta in R.
    erewrite bind_ok in R by apply add_at. apply bind_done in R as (p & s2 & R2 & R).
    unfold child in R2. match type of R2 with context [pub_parse o E (PubVer v) ?st] => destruct (pub_parse o E (PubVer v) st) as [[a|e| |] s3] eqn:RP end; inversion R2; subst.
    apply keeps_done in R; [|kp]. rewrite R. cbn [s_cs]. rewrite <- (key_same o tag) by exact I.
    exact (pub_state o E _ v r cs _ _ _ S1 RP).
  - unfold tag06 in R. apply bind_done in R as (v & s1 & R1 & R). destruct (ok_byte _ _ _ _ _ _ S R1) as (r & -> & ->).
    pose proof (suf_cons _ _ _ S) as S1. cbv zeta in R.
    erewrite bind_ok in R by apply add_at. apply bind_done in R as (p & s2 & R2 & R).
    apply keeps_done in R; [|kp]. rewrite R. rewrite <- (key_same o tag) by exact I.
    exact (pub_state o E _ v r cs _ _ _ S1 R2).
Qed.

(** ** Lists *)
Definition dated (cs cs' : cst) : Prop := four_octet_dates cs -> four_octet_dates cs'.
Lemma sub_list_cons o E tagid ty b l cs r cs' : sub_list o E tagid ((ty, b) :: l) cs = (ROk r, cs') ->
  exists i cs1 r', parse_sub o E tagid ty b cs = (ROk i, cs1) /\ sub_list o E tagid l cs1 = (ROk r', cs').
Proof.
  cbn [sub_list]. destruct (parse_sub _ _ _ _ _ _) as [[i|e| |] cs1]; try discriminate.
  destruct (sub_list o E tagid l cs1) as [[r'|e| |] cs2] eqn:F; try discriminate. intro H. inversion H; subst. exists i, cs1, r'. auto.
Qed.
Lemma flat_list_cons o E tag b l cs r cs' : flat_list o E ((tag, b) :: l) cs = (ROk r, cs') ->
  exists i x cs1 r', parse_tag o E tag b cs = (ROk (i, x), cs1) /\ flat_list o E l cs1 = (ROk r', cs').
Proof.
  cbn [flat_list]. destruct (parse_tag _ _ _ _ _) as [[[i x]|e| |] cs1]; try discriminate.
  destruct (flat_list o E l cs1) as [[r'|e| |] cs2] eqn:F; try discriminate. intro H. inversion H; subst. exists i, x, cs1, r'. auto.
Qed.
Lemma subs_sizes l A : subs_in l A -> Forall (fun p => lenN (snd p) <= lenN A) l.
Proof.
  induction 1 as [|ty b len l w HL _ IH]; constructor.
  - cbn [snd]. unfold lenN. rewrite app_length. cbn [length]. rewrite app_length. lia.
  - eapply Forall_impl; [|exact IH]. intros [t b'] H. cbn [snd] in *. unfold lenN in *. rewrite app_length. cbn [length]. rewrite app_length. lia.
Qed.
Lemma packets_sizes l w : packets_in l w -> Forall (fun p => lenN (snd p) <= lenN w) l.
Proof.
  induction 1 as [|tag b l w w' F _ IH]; constructor.
  - cbn [snd]. apply FramingL.framed_longer in F. unfold lenN. rewrite app_length. lia.
  - eapply Forall_impl; [|exact IH]. intros [t b'] H. cbn [snd] in *. unfold lenN in *. rewrite app_length. lia.
Qed.
Definition all_sized {X} (l : list (X * bytes)) : Prop := Forall (fun p => sized (snd p)) l.
Lemma all_sized_of {X} (l : list (X * bytes)) (w : bytes) : Forall (fun p => lenN (snd p) <= lenN w) l -> sized w -> all_sized l.
Proof. intros F S. eapply Forall_impl; [|exact F]. intros [t b] H. cbn [snd] in *. unfold sized, lenZ, lenN in *. lia. Qed.

Lemma sig_state o E v t a h A1 A2 rest l1 l2 cs i x cs' :
  let body := v :: t :: a :: h :: be_enc 2 (lenN A1) ++ A1 ++ be_enc 2 (lenN A2) ++ A2 ++ rest in
  b2n v = 4 \/ b2n v = 5 -> lenN A1 < 2 ^ 16 -> lenN A2 < 2 ^ 16 -> subs_in l1 A1 -> subs_in l2 A2 -> sized body -> four_octet_dates cs ->
  parse_tag o E 2 body cs = (ROk (i, x), cs') ->
  exists r1 cs1 r2, sub_list o E 2 l1 cs = (ROk r1, cs1) /\ sub_list o E 2 l2 cs1 = (ROk r2, cs').
Proof.
  intros body V L1 L2 S1 S2 L D H. change (2 ^ 16) with 65536 in *.
  assert (tag_body (parse_tag o E) o E 2 body cs = (ROk (i, x), cs')) as T.
  { destruct (parse_unfold o E 2 body cs L (dates_related cs D)) as [[H1 H2] _]. rewrite H in H1, H2. cbn [fst snd] in *.
    specialize (H2 ltac:(discriminate)). destruct (tag_body _ _ _ _ _ _). cbn [fst snd] in *. congruence. }
  destruct (tag_of_body _ _ _ _ _ _ _ _ _ T) as (s & R & <-). clear H T.
  rewrite at_new in R. fold (sat body body cs (tag_item 2 body (tag_dumpflag o 2))) in R.
  apply bind_done in R as (u & s0 & R & Q). inversion Q; subst s0 x. clear Q.
  pose proof (suf_refl _ L) as SF. unfold tag02 in R. unfold body at 2 in R. erewrite bind_ok in R by (apply rdByte_at; exact SF). cbv zeta in R.
  rewrite SigL.tag02_v4 in R by exact V. erewrite bind_ok in R by apply add_at. apply bind_done in R as (p & s1 & R & Q).
  apply keeps_done in Q; [|unfold SigL.sig_tail; kp]. rewrite Q. clear Q.
  unfold SigL.sig_middle in R. apply suf_cons in SF.
  match type of R with context [sat body ?r cs ?it] => change r with ([t; a; h] ++ be_enc 2 (lenN A1) ++ A1 ++ be_enc 2 (lenN A2) ++ A2 ++ rest) in R; set (it0 := it) in R end.
  erewrite bind_ok in R by (apply (SigL.runs_head o E t a h body _ cs it0); exact SF).
  cbv beta in R. change (t :: a :: h :: ?z) with ([t; a; h] ++ z) in SF. apply suf_app in SF.
  assert (be_enc 2 (lenN A1) ++ A1 ++ be_enc 2 (lenN A2) ++ A2 ++ rest = (be_enc 2 (lenN A1) ++ A1) ++ (be_enc 2 (lenN A2) ++ A2) ++ rest) as AA by (rewrite <- !app_assoc; reflexivity).
  rewrite AA in R, SF. unfold ReadsL.same in R.
  match type of R with context [sat body _ cs ?it] => generalize dependent it; intros it1 R end.
  destruct (sub_list o E 2 l1 cs) as [r1 cs1] eqn:Q1.
  assert (forall (A : bytes) l c c' r name rest' it, lenN A < 65536 -> subs_in l A -> sub_list o E 2 l c = (r, c') -> suf body ((be_enc 2 (lenN A) ++ A) ++ rest') ->
    forall u s', sig_area (parse_tag o E) o E (str name) (sat body ((be_enc 2 (lenN A) ++ A) ++ rest') c it) = (ROk u, s') ->
    exists rr it', r = ROk rr /\ s' = sat body rest' c' it') as AR.
  { intros A l c c' r name rest' it LA SI SL SFA u' s' X. destruct r as [rr|e| |].
    - rewrite (SigL.runs_sig_area o E name A l c rr c' LA SI SL body rest' it SFA) in X. inversion X; subst. eauto.
    - destruct (SigL.fails_sig_area o E name A l c c' _ LA SI SL Logic.I body rest' it SFA) as (s2 & Y & _). rewrite Y in X. discriminate.
    - destruct (SigL.fails_sig_area o E name A l c c' _ LA SI SL Logic.I body rest' it SFA) as (s2 & Y & _). rewrite Y in X. discriminate.
    - destruct (SigL.fails_sig_area o E name A l c c' _ LA SI SL Logic.I body rest' it SFA) as (s2 & Y & _). rewrite Y in X. discriminate. }
  apply bind_done in R as (u1 & s2 & X1 & R). destruct (AR A1 l1 cs cs1 r1 _ _ _ L1 S1 Q1 SF _ _ X1) as (rr1 & it2 & -> & ->).
  apply suf_app in SF. destruct (sub_list o E 2 l2 cs1) as [r2 cs2] eqn:Q2.
  apply bind_done in R as (u2 & s3 & X2 & R). destruct (AR A2 l2 cs1 cs2 r2 _ _ _ L2 S2 Q2 SF _ _ X2) as (rr2 & it3 & -> & ->).
  inversion R; subst. cbn [s_cs sat]. eauto 6.
Qed.

Lemma after_app o e1 e2 cs : after_events o (e1 ++ e2) cs = after_events o e2 (after_events o e1 cs).
Proof. apply fold_left_app. Qed.

(** A key block whose packets do not all parse fails. *)
Lemma key_prefix o E ty l w q cs i cs' : sub_type ty = 38 -> sized (x00 :: w ++ q) -> packets_in l w ->
  parse_sub o E 2 ty (x00 :: w ++ q) cs = (ROk i, cs') -> exists r cs1, flat_list o E l cs = (ROk r, cs1).
Proof.
  intros T L P H. destruct (sub38_start o E ty (w ++ q) cs T L) as (r & fuel & PS & D & LF & K).
  pose proof (key_packets o E l w P fuel (mkSt r cs (key_item o (w ++ q))) q PS D LF) as X. cbn [s_cs s_cur] in X.
  destruct (flat_list o E l cs) as [[is|e| |] cs1]; [eauto| exfalso ..]; destruct X as [X1 X2];
    destruct (key_loop (parse_tag o E) E fuel (mkSt r cs (key_item o (w ++ q)))) as [y s]; cbn [fst snd] in *; subst y;
    (erewrite (K _ cs1) in H; [|split; [exact X2 | split; [reflexivity | discriminate]]]; discriminate H).
Qed.
Lemma unknown_key_state o E ty k w cs i cs' : sub_type ty = 38 -> k <> x00 -> parse_sub o E 2 ty (k :: w) cs = (ROk i, cs') -> sized (k :: w) -> cs' = cs.
Proof.
  intros T NK H L. rewrite (parse_sub_start o E 2 ty _ cs _ (sub_case o E ty 38 T)) in H. unfold sub38 in H.
  pose proof (suf_refl _ L) as SF. erewrite bind_ok in H by (apply rdByte_at; exact SF). erewrite bind_ok in H by (apply add_at). apply suf_cons in SF.
  erewrite bind_ok in H by (apply rawData_at; exact SF).
  assert (b2n k =? 0 = false) as KZ. { destruct (b2n k =? 0) eqn:Q; [|reflexivity]. exfalso. apply NK. apply b2n_inj. change (b2n x00) with 0. lia. }
  rewrite KZ in H. inversion H. reflexivity.
Qed.

Lemma next_rd_unread E q : unread q -> forall s, posn (s_rd s) -> remaining (s_rd s) = q ->
  exists r' y, next_rd E s = (y, mkSt r' (s_cs s) (s_cur s)) /\ (y = ROk None \/ exists e, y = RErr e).
Proof.
  intros U s PS DD. destruct U as [tag body q x F NX SX | tag body T].
  - destruct (next_rd_short E tag body q x s F NX SX PS DD) as (r' & [R|R]); exists r'; eexists; (split; [exact R|]); eauto.
  - exact (next_rd_raw E tag body s T PS DD).
Qed.

Definition state_is (o : opts) (E : env) (t : thing) (evs : list event) : Prop :=
  match t with
  | Packet tag body => forall cs i x cs', sized body -> four_octet_dates cs -> parse_tag o E tag body cs = (ROk (i, x), cs') ->
      cs' = after_events o evs cs /\ four_octet_dates cs'
  | Packets l => forall cs r cs', all_sized l -> four_octet_dates cs -> flat_list o E l cs = (ROk r, cs') ->
      cs' = after_events o evs cs /\ four_octet_dates cs'
  | Subs l => forall cs r cs', all_sized l -> four_octet_dates cs -> sub_list o E 2 l cs = (ROk r, cs') ->
      cs' = after_events o evs cs /\ four_octet_dates cs'
  | Stream l => forall cs is, all_sized l -> four_octet_dates cs -> parse_list o E l cs = (is, ROk tt) ->
      list_state o E l cs = after_events o evs cs /\ four_octet_dates (list_state o E l cs)
  end.

Lemma parse_list_cons o E tag b l cs is : parse_list o E ((tag, b) :: l) cs = (is, ROk tt) ->
  exists i cs1 r', packets_parse o E tag b cs = (ROk i, cs1) /\ parse_list o E l cs1 = (r', ROk tt).
Proof.
  cbn [parse_list]. destruct (packets_parse _ _ _ _ _) as [[i|e| |] cs1]; try discriminate.
  destruct (parse_list o E l cs1) as [r' y] eqn:F. intro H. inversion H; subst. exists i, cs1, r'. auto.
Qed.
Lemma packets_parse_other o E tag b cs i cs1 : tag <> 8 -> packets_parse o E tag b cs = (ROk i, cs1) ->
  exists x, parse_tag o E tag b cs = (ROk (i, x), cs1).
Proof.
  intros N H. unfold packets_parse in H. destruct (parse_tag o E tag b cs) as [[[j x]|e| |] c] eqn:R; try discriminate.
  assert (x = None) as ->.
  { destruct (parse_tag_body o E tag b cs) as [rec Q]. rewrite Q in R. destruct (tag_of_body _ _ _ _ _ _ _ _ _ R) as (s & T & _).
    revert T N. unfold tag_m. destruct tag as [|p]; [intros T _; exact (CompL.no_data_none _ _ _ _ T)|].
    do 5 (try (destruct p as [p|p|])); intros T N8; try exact (CompL.no_data_none _ _ _ _ T); congruence. }
  inversion H; subst. eauto.
Qed.

Theorem state_after o E t evs : meets E t evs -> state_is o E t evs.
Proof.
  induction 1 as [tag body N2 | v rest N4 N5 | v t a h A1 A2 rest l1 l2 e1 e2 V L1 L2 S1 S2 _ IH1 _ IH2 | | tag body l e1 e2 _ IH1 _ IH2
    | | ty b l e N32 N38 _ IH | ty b l e1 e2 T _ IH1 _ IH2 | ty k w l e T NK _ IH | ty w inner l e1 e2 T P _ IH1 _ IH2
    | ty w q inner l e1 e2 T P U _ IH1 _ IH2 | | tag body l e1 e2 N8 _ IH1 _ IH2
    | z d inner l e1 e2 C I _ IH1 _ IH2 | z l e NC _ IH]; cbn [state_is] in *.
  - intros cs i x cs' L D H. destruct (packet_state o E tag body cs i x cs' L N2 H) as [-> K]. auto.
  - intros cs i x cs' L D H. assert (cs' = cs) as ->; [|auto]. destruct (parse_tag_body o E 2 (v :: rest) cs) as [rec R]. rewrite R in H.
    destruct (tag_of_body _ _ _ _ _ _ _ _ _ H) as (s & Q & <-). apply bind_done in Q as (u & s1 & Q & Q'). inversion Q'; subst.
    pose proof (kept_sig whole rec o E (v :: rest) cs (tag_item 2 (v :: rest) (tag_dumpflag o 2)) L) as K. rewrite Q in K. apply K.
    intros area l AO. inversion AO; subst; lia.
  - intros cs i x cs' L D H.
    destruct (sig_state o E v t a h A1 A2 rest l1 l2 cs i x cs' V L1 L2 S1 S2 L D H) as (r1 & cs1 & r2 & H1 & H2).
    assert (forall A : bytes, lenN A < 2 ^ 16 -> sized A) as SZ by (intros A LA; change (2 ^ 16) with 65536 in LA; unfold sized, lenZ, lenN in *; lia).
    destruct (IH1 cs r1 cs1 (all_sized_of _ _ (subs_sizes _ _ S1) (SZ _ L1)) D H1) as [-> D1].
    destruct (IH2 _ r2 cs' (all_sized_of _ _ (subs_sizes _ _ S2) (SZ _ L2)) D1 H2) as [-> D2]. rewrite after_app. auto.
  - intros cs r cs' _ D H. inversion H; subst. auto.
  - intros cs r cs' L D H. apply flat_list_cons in H as (i & x & cs1 & r' & H1 & H2). inversion L; subst.
    destruct (IH1 cs i x cs1 ltac:(assumption) D H1) as [-> D1]. destruct (IH2 _ r' cs' ltac:(assumption) D1 H2) as [-> D2]. rewrite after_app. auto.
  - intros cs r cs' _ D H. inversion H; subst. auto.
  - intros cs r cs' L D H. apply sub_list_cons in H as (i & cs1 & r' & H1 & H2). inversion L; subst.
    destruct (sub_state o E ty b cs i cs1 ltac:(assumption) N32 N38 H1) as [-> D1]. destruct (IH _ r' cs' ltac:(assumption) (D1 D) H2) as [-> D2]. auto.
  - intros cs r cs' L D H. apply sub_list_cons in H as (i & cs1 & r' & H1 & H2). inversion L; subst.
    rewrite (C49_embedded o E ty b cs T) in H1. destruct (parse_tag o E 2 b cs) as [[[j x]|e| |] c] eqn:R; try discriminate. inversion H1; subst.
    destruct (IH1 cs j x cs1 ltac:(assumption) D R) as [-> D1]. destruct (IH2 _ r' cs' ltac:(assumption) D1 H2) as [-> D2]. rewrite after_app. auto.
  - intros cs r cs' L D H. apply sub_list_cons in H as (i & cs1 & r' & H1 & H2). inversion L; subst.
    rewrite (unknown_key_state o E ty k w cs i cs1 T NK H1 ltac:(assumption)) in H2. apply (IH cs r' cs'); assumption.
  - intros cs r cs' L D H. apply sub_list_cons in H as (i & cs1 & r' & H1 & H2). inversion L as [|? ? LH LT]; subst. cbn [snd] in LH.
    rewrite (C34_complete o E ty inner w cs T LH P) in H1. destruct (flat_list o E inner cs) as [[is|e| |] c] eqn:R; try discriminate. inversion H1; subst.
    assert (sized w) as LW by (unfold sized, lenZ in *; cbn [length] in LH; lia).
    destruct (IH1 cs is cs1 (all_sized_of _ _ (packets_sizes _ _ P) LW) D R) as [-> D1]. destruct (IH2 _ r' cs' LT D1 H2) as [-> D2]. rewrite after_app. auto.
  - intros cs r cs' L D H. apply sub_list_cons in H as (i & cs1 & r' & H1 & H2). inversion L as [|? ? LH LT]; subst. cbn [snd] in LH.
    destruct (key_prefix o E ty inner w q cs i cs1 T LH P H1) as (is & c & R).
    assert (cs1 = c) as ->.
    { destruct (key_rest_y o E ty inner w q is cs c T LH P R) as [[e Q]|Q]; [|rewrite Q in H1; discriminate | rewrite Q in H1; inversion H1; reflexivity].
      apply next_rd_unread, U. }
    assert (sized w) as LW by (unfold sized, lenZ in *; cbn [length] in LH; rewrite app_length in LH; lia).
    destruct (IH1 cs is c (all_sized_of _ _ (packets_sizes _ _ P) LW) D R) as [-> D1]. destruct (IH2 _ r' cs' LT D1 H2) as [-> D2]. rewrite after_app. auto.
  - intros cs is _ D H. auto.
  - intros cs is L D H. apply parse_list_cons in H as (i & cs1 & r' & H1 & H2). inversion L; subst. cbn [list_state]. rewrite H1. cbn [snd].
    apply packets_parse_other in H1 as (x & H1); [|assumption].
    destruct (IH1 cs i x cs1 ltac:(assumption) D H1) as [-> D1]. rewrite after_app. apply (IH2 _ r'); assumption.
  - intros cs is L D H. apply parse_list_cons in H as (i & cs1 & r' & H1 & H2). inversion L as [|? ? LH LT]; subst. cbn [snd] in LH. cbn [list_state]. rewrite H1. cbn [snd].
    assert (sized d) as LD. { inversion C; subst; [unfold sized, lenZ in *; cbn [length] in LH; lia | unfold sized, lenZ, lenN in *; lia]. }
    destruct z as [|a z]; [inversion C|]. destruct (C35_expanded o E a z d inner cs LH C I) as [X1 X2]. rewrite H1 in X1, X2. cbn [fst snd] in X1, X2.
    destruct (flat_list o E inner cs) as [[is'|e| |] c] eqn:R; try discriminate. cbn [snd] in X2. subst c.
    assert (all_sized inner) as AI.
    { inversion I as [l0 w P | l0 w tag body P TT]; subst; [exact (all_sized_of _ _ (packets_sizes _ _ P) LD)|].
      apply Forall_app. split; [|repeat constructor; cbn [snd]; unfold sized, lenZ in *; rewrite app_length in LD; cbn [length] in LD; lia].
      refine (all_sized_of _ _ (packets_sizes _ _ P) _). unfold sized, lenZ in *. rewrite app_length in LD. lia. }
    destruct (IH1 cs is' cs1 AI D R) as [-> D1]. rewrite after_app. apply (IH2 _ r'); assumption.
  - intros cs is L D H. apply parse_list_cons in H as (i & cs1 & r' & H1 & H2). inversion L as [|? ? LH LT]; subst. cbn [snd] in LH. cbn [list_state]. rewrite H1. cbn [snd].
    assert (cs1 = cs) as ->; [|apply (IH cs r'); assumption].
    destruct z as [|a z]; [discriminate H1|].
    destruct (N.lt_ge_cases 3 (b2n a)) as [A3|A3]; [rewrite C35_unknown_algorithm in H1 by auto; inversion H1; reflexivity|].
    destruct (N.eq_dec (b2n a) 0) as [A0|A0]. { exfalso. apply (NC z). assert (a = x00) as -> by (apply b2n_inj; exact A0). constructor. }
    assert (z = [] \/ z <> []) as [->|Z] by (destruct z; [left; reflexivity | right; discriminate]); [rewrite C35_unknown_algorithm in H1 by auto; inversion H1; reflexivity|].
    destruct (e_inflate E (b2n a) z) as [|d ok] eqn:EI.
    + rewrite (C35_bad_data o E a z cs) in H1; [discriminate | assumption | lia | assumption | rewrite EI; auto].
    + destruct (N.le_gt_cases (2 ^ 30) (lenN d)) as [G|G]; [rewrite (C35_too_large o E a z d ok cs) in H1 by (assumption || lia); inversion H1; reflexivity|].
      destruct ok; [exfalso; apply (NC d); apply contents_inflated; assumption || lia|].
      rewrite (C35_bad_data o E a z cs) in H1; [discriminate | assumption | lia | assumption | rewrite EI; auto].
Qed.
