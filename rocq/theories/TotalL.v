(** * TotalL: whatever parses has events (C10, C11). *)
From Coq Require Import Strings.String Strings.Byte List NArith ZArith Bool Lia ZifyBool ZifyN ZifyNat.
From Verif Require Import Base BaseL Item Reader Context Env Time Values Opaque Monad Pubkey S2k Subs Tags SubParse Parse ReaderL MonadL.
From Verif Require Import SpecBase SpecSub SpecSubs SpecFrame GrammarL SubL SubsL KeyL KeyTailL SpecReader SpecNest SpecParse SpecPacket SpecComp TagL UnfoldL PropParse PropSig PropSub PropKeyBlock PropComp SpecState StateL EventL.
Import ListNotations.
Local Open Scope N_scope.

Definition nothing (_ : cst) : unit := tt.
Lemma sig_areas o E v rest cs i x cs' : b2n v = 4 \/ b2n v = 5 -> sized (v :: rest) -> parse_tag o E 2 (v :: rest) cs = (ROk (i, x), cs') ->
  exists t a h A1 A2 r l1 l2, rest = t :: a :: h :: be_enc 2 (lenN A1) ++ A1 ++ be_enc 2 (lenN A2) ++ A2 ++ r /\
    lenN A1 < 2 ^ 16 /\ lenN A2 < 2 ^ 16 /\ subs_in l1 A1 /\ subs_in l2 A2.
Proof.
  intros V L H. destruct (parse_tag_body o E 2 (v :: rest) cs) as [rec Q]. rewrite Q in H. destruct (tag_of_body _ _ _ _ _ _ _ _ _ H) as (s & R & _). clear H Q.
  rewrite at_new in R. fold (sat (v :: rest) (v :: rest) cs (tag_item 2 (v :: rest) (tag_dumpflag o 2))) in R.
  apply bind_done in R as (u & s0 & R & _). pose proof (suf_refl _ L) as S. unfold tag02 in R.
  erewrite bind_ok in R by (apply rdByte_at; exact S). apply suf_cons in S. cbv zeta in R. erewrite bind_ok in R by apply add_at.
  match type of R with context [add_child ?c0 ?it0] => generalize dependent (add_child c0 it0); intros it R end.
  assert (exists a s1, sigV4 rec o E (sat (v :: rest) rest cs it) = (ROk a, s1)) as (a' & s1 & R1).
  { unfold v_isdraft, v_iscur, v_num, SigVer in R. cbn [v_ver v_draft v_cur] in R. change (5 =? 0) with false in R. cbv iota in R.
    destruct V as [V|V]; rewrite V in R; cbn [N.eqb Pos.eqb negb andb orb] in R; apply bind_done in R as (a' & s1 & R1 & _); eauto. }
  clear R. unfold sigV4 in R1.
  apply bind_done in R1 as (t & s2 & R & R1). destruct (ok_byte _ _ _ _ _ _ S R) as (r1 & -> & ->). apply suf_cons in S. clear R.
  erewrite bind_ok in R1 by apply add_at. cbn beta in R1. match type of R1 with context [add_child ?c0 ?it0] => generalize dependent (add_child c0 it0); clear it; intros it R1 end.
  apply bind_done in R1 as (a & s3 & R & R1). destruct (ok_byte _ _ _ _ _ _ S R) as (r2 & -> & ->). apply suf_cons in S. clear R.
  erewrite bind_ok in R1 by apply add_at. cbn beta in R1. match type of R1 with context [add_child ?c0 ?it0] => generalize dependent (add_child c0 it0); clear it; intros it R1 end.
  apply bind_done in R1 as (h & s4 & R & R1). destruct (ok_byte _ _ _ _ _ _ S R) as (r3 & -> & ->). apply suf_cons in S. clear R.
  erewrite bind_ok in R1 by apply add_at. cbn beta in R1. match type of R1 with context [add_child ?c0 ?it0] => generalize dependent (add_child c0 it0); clear it; intros it R1 end.
  apply bind_done in R1 as ([] & s5 & R & R1).
  destruct (kept_area nothing rec o E _ _ cs it (str "Hashed Subpacket") S) as [_ O1].
  { intros A l r _ _ _. apply Forall_forall. intros p _ c. reflexivity. }
  destruct (O1 _ R) as (A1 & l1 & r4 & cs1 & it1 & -> & L1 & SI1 & ->). clear O1 R. do 2 apply suf_app in S.
  apply bind_done in R1 as ([] & s6 & R & R1).
  destruct (kept_area nothing rec o E _ _ cs1 it1 (str "Unhashed Subpacket") S) as [_ O2].
  { intros A l r _ _ _. apply Forall_forall. intros p _ c. reflexivity. }
  destruct (O2 _ R) as (A2 & l2 & r5 & cs2 & it2 & -> & L2 & SI2 & ->).
  exists t, a, h, A1, A2, r5, l1, l2. auto.
Qed.

Lemma subs_small l A : subs_in l A -> Forall (fun p => (length (snd p) <= length A)%nat) l.
Proof. intro H. eapply Forall_impl; [|exact (subs_sizes _ _ H)]. intros p Q. cbn in Q. unfold lenN in Q. lia. Qed.
Lemma packets_small l w : packets_in l w -> Forall (fun p => (length (snd p) <= length w)%nat) l.
Proof. intro H. eapply Forall_impl; [|exact (packets_sizes _ _ H)]. intros p Q. cbn in Q. unfold lenN in Q. lia. Qed.

Lemma packets_meet o E (n : nat)
  (IH : forall tag body cs i x cs', (length body < n)%nat -> sized body -> four_octet_dates cs -> parse_tag o E tag body cs = (ROk (i, x), cs') -> exists evs, meets E (Packet tag body) evs) :
  forall l cs r cs', Forall (fun p => (length (snd p) < n)%nat) l -> all_sized l -> four_octet_dates cs -> flat_list o E l cs = (ROk r, cs') -> exists evs, meets E (Packets l) evs.
Proof.
  induction l as [|[tag b] l IL]; intros cs r cs' LN L D H; [exists []; constructor|].
  apply flat_list_cons in H as (i & x & cs1 & r' & H1 & H2). inversion LN as [|? ? LN1 LN2]; inversion L as [|? ? L1 L2]; subst. cbn [snd] in *.
  destruct (IH tag b cs i x cs1 LN1 L1 D H1) as (e1 & M1). destruct (state_after o E _ _ M1 cs i x cs1 L1 D H1) as [_ D1].
  destruct (IL cs1 r' cs' LN2 L2 D1 H2) as (e2 & M2). exists (e1 ++ e2). constructor; assumption.
Qed.
Lemma subs_meet o E (n : nat)
  (IH : forall tag body cs i x cs', (length body < n)%nat -> sized body -> four_octet_dates cs -> parse_tag o E tag body cs = (ROk (i, x), cs') -> exists evs, meets E (Packet tag body) evs) :
  forall l cs r cs', Forall (fun p => (length (snd p) < n)%nat /\ lenN (snd p) < 65536) l -> four_octet_dates cs -> sub_list o E 2 l cs = (ROk r, cs') -> exists evs, meets E (Subs l) evs.
Proof.
  induction l as [|[ty b] l IL]; intros cs r cs' LN D H; [exists []; constructor|].
  apply sub_list_cons in H as (i & cs1 & r' & H1 & H2). inversion LN as [|? ? [LN1 S1] LN2]; subst. cbn [snd] in *.
  assert (sized b) as L1 by (unfold sized, lenZ, lenN in *; lia).
  assert ((exists e1, forall e, meets E (Subs l) e -> meets E (Subs ((ty, b) :: l)) (e1 ++ e)) /\ four_octet_dates cs1) as [[e1 M1] D1].
  { destruct (N.eq_dec (sub_type ty) 32) as [T|N32].
    { rewrite (C49_embedded o E ty b cs T) in H1. destruct (parse_tag o E 2 b cs) as [[[j x]|e| |] c] eqn:R; try discriminate. inversion H1; subst.
      destruct (IH 2 b cs j x cs1 LN1 L1 D R) as (e1 & M1). destruct (state_after o E _ _ M1 cs j x cs1 L1 D R) as [_ D1].
      split; [|exact D1]. exists e1. intros e M. apply meets_embedded; assumption. }
    destruct (N.eq_dec (sub_type ty) 38) as [T|N38].
    2: { destruct (sub_state o E ty b cs i cs1 L1 N32 N38 H1) as [-> D1]. split; [|auto]. exists [EvSub ty b]. intros e M. apply meets_sub; assumption. }
    destruct b as [|k w]; [rewrite (parse_sub_start o E 2 ty _ cs _ (sub_case o E ty 38 T)) in H1; discriminate H1|].
    destruct (Byte.byte_eq_dec k x00) as [->|NK].
    2: { rewrite (unknown_key_state o E ty k w cs i cs1 T NK H1 L1). split; [|exact D]. exists []. intros e M. apply meets_unknown_key; assumption. }
    destruct (octets_are_packets w) as (inner & w1 & rest & -> & P & TL).
    destruct (key_prefix o E ty inner w1 rest cs i cs1 T L1 P H1) as (is & c & R).
    assert (sized w1) as LW by (unfold sized, lenZ in *; cbn [length] in L1; rewrite app_length in L1; lia).
    assert (all_sized inner) as AI by exact (all_sized_of _ _ (packets_sizes _ _ P) LW).
    destruct (packets_meet o E n IH inner cs is c) with (2 := AI) (3 := D) (4 := R) as (e1 & M1).
    { eapply Forall_impl; [|exact (packets_small _ _ P)]. intros p Q. cbn beta in Q. cbn [length] in LN1. rewrite app_length in LN1. lia. }
    destruct (state_after o E _ _ M1 cs is c AI D R) as [_ D1].
    assert (forall q, unread q -> sized (x00 :: w1 ++ q) -> parse_sub o E 2 ty (x00 :: w1 ++ q) cs = (ROk i, cs1) -> cs1 = c) as CU.
    { intros q U LQ HQ. destruct (key_rest_y o E ty inner w1 q is cs c T LQ P R) as [[e Q]|Q]; [|rewrite Q in HQ; discriminate | rewrite Q in HQ; inversion HQ; reflexivity].
      apply next_rd_unread, U. }
    destruct TL as [|b t B|tag body TT|q tag body x Q X F LX].
    - rewrite app_nil_r in *. rewrite (C34_complete o E ty inner w1 cs T L1 P), R in H1. inversion H1; subst.
      split; [|exact D1]. exists e1. intros e M. apply (meets_key E ty w1 inner); assumption.
    - rewrite (key_rest_bad o E ty inner w1 b t is cs c T L1 P R B) in H1. discriminate.
    - rewrite (CU _ (unread_to_end tag body TT) L1 H1). split; [|exact D1]. exists e1. intros e M. apply (meets_cut_key E ty w1 _ inner); try assumption. constructor. exact TT.
    - assert (unread q) as U.
      { apply (unread_cut tag body q x F X). change (2 ^ 32) with 4294967296 in LX. unfold sized, lenZ, lenN in *. cbn [length] in *. rewrite !app_length in *. lia. }
      rewrite (CU _ U L1 H1). split; [|exact D1]. exists e1. intros e M. apply (meets_cut_key E ty w1 _ inner); assumption. }
  destruct (IL cs1 r' cs' LN2 D1 H2) as (e2 & M2). exists (e1 ++ e2). apply M1, M2.
Qed.

Lemma packet_meets o E (n : nat) : forall tag body cs i x cs', (length body < n)%nat -> sized body -> four_octet_dates cs ->
  parse_tag o E tag body cs = (ROk (i, x), cs') -> exists evs, meets E (Packet tag body) evs.
Proof.
  induction n as [|n IH]; intros tag body cs i x cs' LN L D H; [lia|].
  destruct (N.eq_dec tag 2) as [->|N2]; [|exists [EvPacket tag body]; constructor; exact N2].
  destruct body as [|v rest]. { destruct (parse_tag_body o E 2 [] cs) as [rec R]. rewrite R in H. discriminate H. }
  destruct (N.eq_dec (b2n v) 4) as [V4|V4]; [|destruct (N.eq_dec (b2n v) 5) as [V5|V5]; [|exists []; constructor; assumption]].
  all: assert (b2n v = 4 \/ b2n v = 5) as V by auto.
  all: destruct (sig_areas o E v rest cs i x cs' V L H) as (t & a & h & A1 & A2 & r & l1 & l2 & -> & L1 & L2 & S1 & S2).
  all: destruct (sig_state o E v t a h A1 A2 r l1 l2 cs i x cs' V L1 L2 S1 S2 L D H) as (r1 & cs1 & r2 & H1 & H2).
  all: change (2 ^ 16) with 65536 in *.
  all: assert (forall l (A : bytes), subs_in l A -> lenN A < 65536 -> (length A < n)%nat -> Forall (fun p => (length (snd p) < n)%nat /\ lenN (snd p) < 65536) l) as SM
    by (intros l A SI LA LN'; eapply Forall_impl; [|exact (subs_small _ _ SI)]; intros p Q; cbn beta in Q; unfold lenN in *; lia).
  all: assert (length A1 < n /\ length A2 < n)%nat as [N1 N2] by (cbn [length] in LN; rewrite !app_length in LN; lia).
  all: destruct (subs_meet o E n IH l1 cs r1 cs1 (SM l1 A1 S1 L1 N1) D H1) as (e1 & M1).
  all: assert (forall l (A : bytes), subs_in l A -> lenN A < 65536 -> all_sized l) as SZ
    by (intros l A SI LA; refine (all_sized_of _ _ (subs_sizes _ _ SI) _); unfold sized, lenZ, lenN in *; lia).
  all: destruct (state_after o E _ _ M1 cs r1 cs1 (SZ l1 A1 S1 L1) D H1) as [_ D1].
  all: destruct (subs_meet o E n IH l2 cs1 r2 cs' (SM l2 A2 S2 L2 N2) D1 H2) as (e2 & M2).
  all: exists (e1 ++ e2); apply (meets_signature E v t a h A1 A2 r l1 l2); assumption.
Qed.

Lemma contents_sized E z d : contents E z d -> sized z -> sized d.
Proof. intros C LH. inversion C; subst; [unfold sized, lenZ in *; cbn [length] in LH; lia | unfold sized, lenZ, lenN in *; lia]. Qed.
Lemma contents_or_not E z : (exists d, contents E z d) \/ (forall d, ~ contents E z d).
Proof.
  destruct z as [|a z]; [right; intros d C; inversion C|].
  destruct (N.eq_dec (b2n a) 0) as [A0|A0]. { left. exists z. assert (a = x00) as -> by (apply b2n_inj; exact A0). constructor. }
  destruct (N.lt_ge_cases 3 (b2n a)) as [A3|A3]. { right. intros d C. inversion C; subst; try lia. apply A0. reflexivity. }
  destruct z as [|y z]. { right. intros d C. inversion C; subst; [apply A0; reflexivity | congruence]. }
  destruct (e_inflate E (b2n a) (y :: z)) as [|d ok] eqn:EI.
  { right. intros d C. inversion C; subst; [apply A0; reflexivity|]. congruence. }
  destruct ok; [|right; intros d' C; inversion C; subst; [apply A0; reflexivity | congruence]].
  destruct (N.le_gt_cases (2 ^ 30) (lenN d)) as [G|G].
  - right. intros d' C. inversion C; subst; [apply A0; reflexivity|]. assert (d' = d) by congruence. subst. lia.
  - left. exists d. apply contents_inflated; (lia || assumption || discriminate).
Qed.

Theorem stream_meets o E : forall l cs is, all_sized l -> four_octet_dates cs -> parse_list o E l cs = (is, ROk tt) -> exists evs, meets E (Stream l) evs.
Proof.
  induction l as [|[tag b] l IL]; intros cs is L D H; [exists []; constructor|].
  inversion L as [|? ? LH LT]; subst. cbn [snd] in LH. pose proof H as H0. apply parse_list_cons in H as (i & cs1 & r' & H1 & H2).
  assert ((exists e1, forall l e, meets E (Stream l) e -> meets E (Stream ((tag, b) :: l)) (e1 ++ e))) as [e1 M1].
  { destruct (N.eq_dec tag 8) as [->|N8].
    2: { apply packets_parse_other in H1 as (x & H1); [|assumption]. destruct (packet_meets o E (S (length b)) tag b cs i x cs1 ltac:(lia) LH D H1) as (e1 & M1).
         exists e1. intros l' e M. apply meets_next; assumption. }
    destruct (contents_or_not E b) as [[d C]|NC].
    2: { exists []. intros l' e M. apply meets_unopened; assumption. }
    pose proof (contents_sized E b d C LH) as LD. destruct b as [|a z]; [inversion C|].
    assert (forall inner, input_of inner d -> all_sized inner -> exists e1, meets E (Packets inner) e1) as IM.
    { intros inner I AI. destruct (C35_expanded o E a z d inner cs LH C I) as [X1 X2]. rewrite H1 in X1. cbn [fst] in X1.
      destruct (flat_list o E inner cs) as [[is'|e| |] c] eqn:R; try discriminate.
      refine (packets_meet o E (S (fold_right (fun p m => (length (snd p) + m)%nat) 0%nat inner)) _ inner cs is' c _ AI D R).
      - intros t' b' c1 i' x' c2 LN. apply (packet_meets o E (S (length b'))). lia.
      - clear. induction inner as [|p inner IH]; constructor; cbn [fold_right]; [lia|]. eapply Forall_impl; [|exact IH]. intros q Q. cbn beta in *. lia. }
    destruct (octets_are_packets d) as (inner & w1 & rest & -> & P & TL).
    assert (sized w1) as LW by (unfold sized, lenZ in *; rewrite app_length in LD; lia).
    pose proof (all_sized_of _ _ (packets_sizes _ _ P) LW) as AI.
    pose proof (C35_failing_inside o E a z inner w1 rest cs LH C P) as FI. rewrite H1 in FI. cbn [fst] in FI.
    destruct (flat_list o E inner cs) as [[is'|e| |] c] eqn:R; cbn [fst map_res] in FI; try discriminate FI.
    assert (fst (flat_list o E inner cs) = ROk is') as R1 by (rewrite R; reflexivity).
    destruct TL as [|b t B|tag body TT|q tag body x Q X F LX].
    - rewrite app_nil_r in *. pose proof (all_definite inner w1 P) as I. destruct (IM inner I AI) as (e1 & M1). exists e1. intros l' e M. apply (meets_compressed E _ w1 inner); assumption.
    - pose proof (C35_no_packet_inside o E a z inner w1 b t is' cs LH C P B R1) as Y. rewrite H1 in Y. discriminate Y.
    - pose proof (last_to_end inner w1 tag body P TT) as I. destruct (IM _ I) as (e1 & M1).
      { apply Forall_app. split; [exact AI|]. repeat constructor. cbn [snd]. unfold sized, lenZ in *. rewrite app_length in LD. cbn [length] in LD. lia. }
      exists e1. intros l' e M. apply (meets_compressed E _ _ (inner ++ [(tag, body)]) _ _ _ C); assumption.
    - pose proof (C35_cut_inside o E a z inner w1 tag body q x is' cs LH C P F Q X R1) as Y. rewrite H1 in Y. discriminate Y. }
  assert (four_octet_dates cs1) as D1.
  { assert (parse_list o E [(tag, b)] cs = ([i], ROk tt)) as PL by (cbn [parse_list]; rewrite H1; reflexivity).
    pose proof (M1 [] [] (meets_end E)) as M2.
    destruct (state_after o E _ _ M2 cs [i]) as [_ D2]; [repeat constructor; exact LH | exact D | exact PL|].
    cbn [list_state] in D2. rewrite H1 in D2. exact D2. }
  destruct (IL cs1 r' LT D1 H2) as (e2 & M2). exists (e1 ++ e2). apply M1, M2.
Qed.
Lemma sum_bound {X} (l : list (X * bytes)) : Forall (fun p => (length (snd p) < S (fold_right (fun p m => (length (snd p) + m)%nat) 0%nat l))%nat) l.
Proof. induction l as [|p l IH]; constructor; cbn [fold_right]; [lia|]. eapply Forall_impl; [|exact IH]. intros q Q. cbn beta in *. lia. Qed.
Theorem list_meets o E l cs r cs' : all_sized l -> four_octet_dates cs -> flat_list o E l cs = (ROk r, cs') -> exists evs, meets E (Packets l) evs.
Proof.
  intros L D H. refine (packets_meet o E _ _ l cs r cs' (sum_bound l) L D H).
  intros t b c i x c' _. apply (packet_meets o E (S (length b))). lia.
Qed.
Theorem subs_list_meets o E l cs r cs' : Forall (fun p => lenN (snd p) < 2 ^ 16) l -> four_octet_dates cs -> sub_list o E 2 l cs = (ROk r, cs') ->
  exists evs, meets E (Subs l) evs.
Proof.
  intros L D H. refine (subs_meet o E (S (fold_right (fun p m => (length (snd p) + m)%nat) 0%nat l)) _ l cs r cs' _ D H).
  - intros t b c i x c' _. apply (packet_meets o E (S (length b))). lia.
  - pose proof (sum_bound l) as B. rewrite Forall_forall in *. intros p I. split; [apply B, I | apply L, I].
Qed.
