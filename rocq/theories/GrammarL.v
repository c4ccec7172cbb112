(** * GrammarL: every string of octets is some complete packets and one kind of rest (C01, C02). *)
From Coq Require Import Strings.String Strings.Byte List NArith ZArith Bool Lia ZifyBool ZifyN ZifyNat.
From Verif Require Import Base BaseL SpecBase SpecFrame.
Import ListNotations.
Local Open Scope N_scope.

Lemma split_at (n : N) (t : bytes) : n <= lenN t -> exists a r, t = a ++ r /\ lenN a = n.
Proof.
  intro H. exists (firstn (N.to_nat n) t), (skipn (N.to_nat n) t). rewrite firstn_skipn. split; [reflexivity|].
  unfold lenN in *. rewrite firstn_length. lia.
Qed.
Lemma fill_to (n : N) (t : bytes) : lenN t < n -> exists x, x <> [] /\ lenN (t ++ x) = n /\ lenN x <= n.
Proof.
  intro H. exists (repeat x00 (N.to_nat (n - lenN t))). unfold lenN in *. rewrite app_length, repeat_length. split; [|lia].
  destruct (N.to_nat (n - N.of_nat (length t))) eqn:Q; [lia | discriminate].
Qed.
Lemma be_code k (d : bytes) : lenN d = N.of_nat k -> be_enc k (be d) = d /\ be d < 256 ^ N.of_nat k.
Proof.
  intro H. assert (length d = k) as L by (unfold lenN in H; lia). split; [rewrite <- L; apply be_enc_be|].
  rewrite <- (be_enc_be d), L, be_be_enc. apply N.mod_upper_bound. apply N.pow_nonzero. discriminate.
Qed.
(** A body behind [k] length octets. *)
Lemma counted (k : nat) (t : bytes) : (k <= 4)%nat ->
  (exists body rest, lenN body < 256 ^ N.of_nat k /\ t = (be_enc k (lenN body) ++ body) ++ rest) \/
  (exists body x, lenN body < 256 ^ N.of_nat k /\ x <> [] /\ lenN x <= 2 ^ 32 + 4 /\ be_enc k (lenN body) ++ body = t ++ x).
Proof.
  intro K. assert (256 ^ N.of_nat k <= 2 ^ 32) as KB.
  { change (2 ^ 32) with (256 ^ 4). apply N.pow_le_mono_r; lia. }
  destruct (N.lt_ge_cases (lenN t) (N.of_nat k)) as [G|G].
  - destruct (fill_to (N.of_nat k) t G) as (y & NY & LY & _). destruct (be_code k (t ++ y) LY) as [C1 C2].
    right. set (body := repeat x00 (N.to_nat (be (t ++ y)))). assert (lenN body = be (t ++ y)) as LB by (unfold lenN, body; rewrite repeat_length; lia).
    exists body, (y ++ body). rewrite LB, C1, app_assoc. split; [exact C2|]. split; [destruct y; [congruence|discriminate]|].
    split; [|reflexivity]. unfold lenN in *. rewrite app_length in *. lia.
  - destruct (split_at (N.of_nat k) t G) as (d & r & -> & Ld). destruct (be_code k d Ld) as [C1 C2].
    destruct (N.lt_ge_cases (lenN r) (be d)) as [G2|G2].
    + right. destruct (fill_to (be d) r G2) as (x & NX & LX & BX). exists (r ++ x), x. rewrite LX, C1, <- app_assoc. split; [exact C2|]. split; [exact NX|]. split; [lia | reflexivity].
    + left. destruct (split_at (be d) r G2) as (body & rest & -> & LB). exists body, rest. rewrite LB, C1, <- app_assoc. auto.
Qed.
Lemma plain_length (n : N) (len t : bytes) : new_length n len ->
  (exists body rest, in_parts body (len ++ body) /\ t = body ++ rest) \/
  (exists body x, in_parts body (len ++ t ++ x) /\ x <> [] /\ lenN x <= n).
Proof.
  intros H. destruct (N.lt_ge_cases (lenN t) n) as [G|G].
  - right. destruct (fill_to n t G) as (x & NX & LX & BX). exists (t ++ x), x. split; [constructor; rewrite LX; exact H|]. split; [exact NX | lia].
  - left. destruct (split_at n t G) as (body & rest & -> & LB). exists body, rest. split; [constructor; rewrite LB; exact H | reflexivity].
Qed.
Lemma two_length c d : 192 <= b2n c < 224 -> new_length ((b2n c - 192) * 256 + b2n d + 192) [c; d].
Proof.
  intro G. pose proof (b2n_lt d) as BD. assert (192 <= (b2n c - 192) * 256 + b2n d + 192 < 8384) as R by lia. pose proof (len_two _ R) as H.
  replace ((b2n c - 192) * 256 + b2n d + 192 - 192) with (b2n d + (b2n c - 192) * 256) in H by lia.
  rewrite N.div_add, N.mod_add in H by discriminate. rewrite N.div_small, N.mod_small in H by exact BD.
  replace (192 + (0 + (b2n c - 192))) with (b2n c) in H by lia. rewrite !n2b_b2n in H. exact H.
Qed.

Definition cut_bound : N := 2 ^ 32 + 8.
Lemma parts_or_cut : forall n t, (length t <= n)%nat ->
  (exists body w rest, in_parts body w /\ t = w ++ rest) \/
  (exists body x, in_parts body (t ++ x) /\ x <> [] /\ lenN x <= cut_bound).
Proof.
  assert (forall (n : N) len t, new_length n len -> n <= 2 ^ 32 ->
    (exists body w rest, in_parts body w /\ len ++ t = w ++ rest) \/
    (exists body x, in_parts body ((len ++ t) ++ x) /\ x <> [] /\ lenN x <= cut_bound)) as J.
  { intros n len t H B. destruct (plain_length n len t H) as [(body & rest & P & ->) | (body & x & P & NX & Q)].
    - left. exists body, (len ++ body), rest. rewrite <- app_assoc. auto.
    - right. exists body, x. rewrite <- app_assoc. split; [exact P|]. split; [exact NX | unfold cut_bound; lia]. }
  assert (exists body x, in_parts body ([] ++ x) /\ x <> [] /\ lenN x <= cut_bound) as J0.
  { exists [], [x00]. split; [apply (part_last [] [x00]); apply (len_one 0); lia|]. split; [discriminate | unfold cut_bound; cbn; lia]. }
  induction n as [|n IH]; intros t L.
  { destruct t; [|cbn [length] in L; lia]. right. exact J0. }
  destruct t as [|c t]; [right; exact J0|].
  cbn [length] in L. pose proof (b2n_lt c) as BC.
  destruct (N.lt_ge_cases (b2n c) 192) as [G1|G1].
  { apply (J (b2n c) [c] t); [|lia]. rewrite <- (n2b_b2n c) at 2. constructor. exact G1. }
  destruct (N.lt_ge_cases (b2n c) 224) as [G2|G2].
  { destruct t as [|d t].
    - right. destruct (fill_to ((b2n c - 192) * 256 + b2n x00 + 192) [] ltac:(change (lenN []) with 0; lia)) as (x & NX & LX & BX). cbn [app] in LX.
      exists x, (x00 :: x). split; [|split; [discriminate | unfold cut_bound, lenN in *; cbn [length]; change (b2n x00) with 0 in *; lia]].
      apply (part_last x [c; x00]). rewrite LX. apply two_length. lia.
    - apply (J ((b2n c - 192) * 256 + b2n d + 192) [c; d] t); [apply two_length; lia | pose proof (b2n_lt d); lia]. }
  destruct (N.eq_dec (b2n c) 255) as [G3|G3].
  { assert (c = xff) as -> by (apply b2n_inj; exact G3).
    destruct (counted 4 t ltac:(lia)) as [(body & rest & B & ->)|(body & x & B & NX & BX & Q)].
    - left. exists body, (xff :: be_enc 4 (lenN body) ++ body), rest. split; [|reflexivity].
      apply (part_last body (xff :: be_enc 4 (lenN body))). constructor. exact B.
    - right. exists body, x. split; [|split; [exact NX | unfold cut_bound; lia]]. cbn [app]. rewrite <- Q.
      apply (part_last body (xff :: be_enc 4 (lenN body))). constructor. exact B. }
  assert (c = n2b (224 + (b2n c - 224))) as EC by (replace (224 + (b2n c - 224)) with (b2n c) by lia; symmetry; apply n2b_b2n).
  set (k := b2n c - 224) in *. assert (k <= 30) as K by (unfold k; lia). clearbody k.
  assert (2 ^ k <= 2 ^ 30) as PB by (apply N.pow_le_mono_r; lia).
  destruct (N.lt_ge_cases (lenN t) (2 ^ k)) as [G|G].
  - right. destruct (fill_to (2 ^ k) t G) as (x & NX & LX & BX). exists ((t ++ x) ++ []), (x ++ [x00]).
    split; [|split; [destruct x; discriminate | unfold cut_bound, lenN in *; rewrite app_length; cbn [length]; lia]].
    rewrite EC. cbn [app]. rewrite (app_assoc t x [x00]). apply (part_more k (t ++ x) [] [x00] K LX). apply (part_last [] [x00]). apply (len_one 0). lia.
  - destruct (split_at (2 ^ k) t G) as (part & r & -> & LP). rewrite app_length in L.
    destruct (IH r ltac:(lia)) as [(body & w & rest & P & ->)|(body & x & P & NX & BX)].
    + left. exists (part ++ body), (c :: part ++ w), rest. split; [rewrite EC; apply part_more; assumption|]. cbn [app]. rewrite <- app_assoc. reflexivity.
    + right. exists (part ++ body), x. split; [|auto]. rewrite EC. cbn [app]. rewrite <- app_assoc. apply part_more; assumption.
Qed.

Lemma old_octet b : 128 <= b2n b < 192 -> exists tag lt, tag < 16 /\ lt < 4 /\ b = n2b (128 + lt + 4 * tag).
Proof.
  intro H. exists ((b2n b - 128) / 4), ((b2n b - 128) mod 4).
  pose proof (N.div_mod (b2n b - 128) 4 ltac:(lia)). pose proof (N.mod_upper_bound (b2n b - 128) 4 ltac:(lia)).
  split; [lia|]. split; [lia|]. replace (128 + (b2n b - 128) mod 4 + 4 * ((b2n b - 128) / 4)) with (b2n b) by lia. symmetry. apply n2b_b2n.
Qed.

(** One packet from the front. *)
Lemma front b t : b2n b < 128 \/ (exists tag, tag < 16 /\ b = n2b (131 + 4 * tag)) \/
  (exists tag body w rest, framed tag body w /\ b :: t = w ++ rest) \/
  (exists tag body x, framed tag body ((b :: t) ++ x) /\ x <> [] /\ lenN x <= cut_bound).
Proof.
  pose proof (b2n_lt b) as BB. destruct (N.lt_ge_cases (b2n b) 128) as [G0|G0]; [auto|]. right.
  destruct (N.lt_ge_cases (b2n b) 192) as [G1|G1].
  - destruct (old_octet b ltac:(lia)) as (tag & lt & T & LT & ->).
    assert (lt = 3 \/ lt = 0 \/ lt = 1 \/ lt = 2) as [->|OT] by lia.
    { left. exists tag. split; [exact T | reflexivity]. }
    right.
    assert (exists k, (k <= 4)%nat /\ forall body, lenN body < 256 ^ N.of_nat k -> framed tag body (n2b (128 + lt + 4 * tag) :: be_enc k (lenN body) ++ body)) as (k & K & FK).
    { destruct OT as [OT|[OT|OT]]; subst lt.
      - exists 1%nat. split; [lia|]. intros body B. replace (128 + 0 + 4 * tag) with (128 + 4 * tag) by lia. apply old_one; assumption.
      - exists 2%nat. split; [lia|]. intros body B. replace (128 + 1 + 4 * tag) with (129 + 4 * tag) by lia. apply old_two; assumption.
      - exists 4%nat. split; [lia|]. intros body B. replace (128 + 2 + 4 * tag) with (130 + 4 * tag) by lia. apply old_four; assumption. }
    destruct (counted k t K) as [(body & rest & B & ->)|(body & x & B & NX & BX & Q)].
    + left. exists tag, body, (n2b (128 + lt + 4 * tag) :: be_enc k (lenN body) ++ body), rest. split; [apply FK, B | reflexivity].
    + right. exists tag, body, x. split; [cbn [app]; rewrite <- Q; apply FK, B|]. split; [exact NX | unfold cut_bound; lia].
  - right. assert (b = n2b (192 + (b2n b - 192))) as EB by (replace (192 + (b2n b - 192)) with (b2n b) by lia; symmetry; apply n2b_b2n).
    set (tag := b2n b - 192) in *. assert (tag < 64) as T by (unfold tag; lia). clearbody tag.
    destruct (parts_or_cut (length t) t (le_n _)) as [(body & w & rest & P & ->)|(body & x & P & NX & BX)].
    + left. exists tag, body, (b :: w), rest. split; [rewrite EB; constructor; assumption | reflexivity].
    + right. exists tag, body, x. split; [|auto]. rewrite EB. cbn [app]. constructor; assumption.
Qed.

Lemma framed_octets tag body w : framed tag body w -> w <> [].
Proof. destruct 1; discriminate. Qed.

Theorem octets_are_packets : forall w : bytes, exists l w1 rest, w = w1 ++ rest /\ packets_in l w1 /\ tail_of rest.
Proof.
  assert (forall n (w : bytes), (length w <= n)%nat -> exists l w1 rest, w = w1 ++ rest /\ packets_in l w1 /\ tail_of rest) as K; [|intro w; apply (K (length w)), le_n].
  induction n as [|n IH]; intros w L.
  { destruct w; [|cbn [length] in L; lia]. exists [], [], []. repeat constructor. }
  destruct w as [|b t]; [exists [], [], []; repeat constructor|].
  destruct (front b t) as [G|[(tag & T & ->)|[(tag & body & w & rest & F & Q)|(tag & body & x & F & NX & BX)]]].
  - exists [], [], (b :: t). split; [reflexivity|]. split; constructor; assumption.
  - exists [], [], (n2b (131 + 4 * tag) :: t). split; [reflexivity|]. split; constructor; assumption.
  - assert (length rest <= n)%nat as LR.
    { apply (f_equal (@length byte)) in Q. rewrite app_length in Q. apply framed_octets in F. destruct w; [congruence|]. cbn [length] in *. lia. }
    destruct (IH rest LR) as (l & w1 & r & -> & P & T). exists ((tag, body) :: l), (w ++ w1), r. rewrite Q, app_assoc. split; [reflexivity|]. split; [constructor; assumption | exact T].
  - exists [], [], (b :: t). split; [reflexivity|]. split; [constructor|]. apply (tail_cut _ tag body x); [discriminate | exact NX | exact F | exact BX].
Qed.
