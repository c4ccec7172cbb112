(** * FloatL: the days of an expiration time. *)
From Coq Require Import Strings.String Strings.Byte List NArith ZArith QArith Qabs Qfield Lqa Bool Arith Lia ZifyBool ZifyN ZifyNat.
From Coq Require Decimal DecimalPos.
From Coq Require Import DecimalString.
From Verif Require Import Base SpecBase BaseL TimeL Float SpecFloat.

Import ListNotations.
Local Open Scope N_scope.

Lemma half_even_near n d : 0 < d -> 2 * half_even n d * d <= 2 * n + d /\ 2 * n <= 2 * half_even n d * d + d.
Proof.
  intro D. unfold half_even. pose proof (N.div_mod n d ltac:(lia)) as E. pose proof (N.mod_lt n d ltac:(lia)) as L.
  set (q := n / d) in *. set (r := n mod d) in *. clearbody q r. subst n.
  destruct (2 * r <? d) eqn:A; [nia|]. destruct (d <? 2 * r) eqn:B; [nia|]. destruct (N.even q); nia.
Qed.
Lemma scale_spec p : forall fuel k, 86400 * 2 ^ 52 <= p * 2 ^ (k + N.of_nat fuel) ->
  let k' := scale_from fuel k p in
  k <= k' <= k + N.of_nat fuel /\ 86400 * 2 ^ 52 <= p * 2 ^ k' /\ (k < k' -> p * 2 ^ (k' - 1) < 86400 * 2 ^ 52).
Proof.
  induction fuel as [|fuel IH]; intros k H; cbn [scale_from]; cbv zeta.
  - rewrite N.add_0_r in H. split; [lia|]. split; [exact H|lia].
  - destruct (86400 * 2 ^ 52 <=? p * 2 ^ k) eqn:T; [split; [lia|]; split; lia|].
    specialize (IH (k + 1)). replace (k + 1 + N.of_nat fuel) with (k + N.of_nat (S fuel)) in IH by lia. specialize (IH H). cbv zeta in IH.
    destruct IH as (A & B & C). split; [lia|]. split; [exact B|]. intro L. destruct (N.eq_dec (scale_from fuel (k + 1) p) (k + 1)) as [Q|Q]; [rewrite Q|apply C; lia].
    replace (k + 1 - 1) with k by lia. lia.
Qed.
(** The quotient: 53 binary digits, within half a unit of the last one. *)
Lemma float_days_range p : 0 < p < 2 ^ 32 ->
  let '(m, k) := float_days p in
  2 ^ 52 <= m < 2 ^ 53 /\ 37 <= k <= 69 /\ 2 * m * 86400 <= 2 * (p * 2 ^ k) + 86400 /\ 2 * (p * 2 ^ k) <= 2 * m * 86400 + 86400.
Proof.
  intro P. unfold float_days. pose proof (scale_spec p 70 0) as S. cbv zeta in S. change (0 + N.of_nat 70) with 70 in S.
  assert (86400 * 2 ^ 52 <= p * 2 ^ 70) as S0 by (change (2 ^ 70) with (262144 * 2 ^ 52); lia). specialize (S S0). destruct S as (A & B & C).
  set (k := scale_from 70 0 p) in *. clearbody k.
  assert (37 <= k) as K1.
  { destruct (N.le_gt_cases 37 k) as [L|L]; [exact L|]. exfalso. assert (2 ^ k <= 2 ^ 36) as E by (apply N.pow_le_mono_r; lia).
    change (2 ^ 36) with 68719476736 in E. change (2 ^ 52) with 4503599627370496 in B. change (2 ^ 32) with 4294967296 in P. nia. }
  specialize (C ltac:(lia)).
  assert (k <= 69) as K2.
  { destruct (N.le_gt_cases k 69) as [L|L]; [exact L|]. exfalso. assert (2 ^ 69 <= 2 ^ (k - 1)) as E by (apply N.pow_le_mono_r; lia).
    change (2 ^ 69) with (131072 * 2 ^ 52) in E. nia. }
  pose proof (half_even_near (p * 2 ^ k) 86400 ltac:(lia)) as [H1 H2]. set (m := half_even (p * 2 ^ k) 86400) in *. clearbody m.
  split; [|split; [lia|split; assumption]].
  assert (exists j, 2 ^ (k - 1) = 2 ^ 36 * j) as [j J]. { exists (2 ^ (k - 37)). rewrite <- N.pow_add_r. f_equal. lia. }
  assert (2 ^ k = 2 * 2 ^ (k - 1)) as K3. { rewrite <- N.pow_succ_r'. f_equal. lia. }
  rewrite K3 in *. rewrite J in *. change (2 ^ 53) with (2 * 2 ^ 52). change (2 ^ 36) with 68719476736 in *. change (2 ^ 52) with (65536 * 68719476736) in *.
  (* p * j * 2^36 < 86400 * 2^16 * 2^36 *)
  assert (p * j < 86400 * 65536) as PJ by nia. assert (p * (68719476736 * j) <= (86400 * 65536 - 1) * 68719476736) as PJ2 by nia. lia.
Qed.
(** The position of the decimal point. *)
Lemma up10_pos z : 0 < up10 z.
Proof. unfold up10. apply N.neq_0_lt_0, N.pow_nonzero. discriminate. Qed.
Lemma up10_step z : (0 <= z)%Z -> up10 (z + 1) = 10 * up10 z.
Proof. intro H. unfold up10. rewrite <- N.pow_succ_r'. f_equal. lia. Qed.
Lemma up10_neg z : (z <= 0)%Z -> up10 z = 1.
Proof. intro H. unfold up10. replace (Z.to_N z) with 0 by lia. reflexivity. Qed.
(** x * 10^z and x, and so on, in terms of up10. *)
Lemma up10_shift a b : (0 <= b)%Z -> up10 (a + b) * up10 (- a) = up10 a * up10 (- (a + b)) * up10 b.
Proof.
  intro B. unfold up10. destruct (Z.le_gt_cases 0 a).
  - replace (Z.to_N (- a)) with 0 by lia. replace (Z.to_N (- (a + b))) with 0 by lia. rewrite Z2N.inj_add, N.pow_add_r by lia. cbn [N.pow]. lia.
  - replace (Z.to_N a) with 0 by lia. destruct (Z.le_gt_cases 0 (a + b)).
    + replace (Z.to_N (- (a + b))) with 0 by lia. rewrite <- N.pow_add_r. cbn [N.pow]. rewrite !N.mul_1_r, ?N.mul_1_l. f_equal. lia.
    + replace (Z.to_N (a + b)) with 0 by lia. cbn [N.pow]. rewrite !N.mul_1_l, <- N.pow_add_r. f_equal. lia.
Qed.
Lemma point_spec m k : forall fuel dp, 2 ^ k * up10 (dp - 1) <= m * up10 (- (dp - 1)) ->
  let dp' := point_from fuel dp m k in (dp <= dp' <= dp + Z.of_nat fuel)%Z /\ 2 ^ k * up10 (dp' - 1) <= m * up10 (- (dp' - 1)).
Proof.
  induction fuel as [|fuel IH]; intros dp H; cbn [point_from]; cbv zeta; [split; [lia|exact H]|].
  destruct (m * up10 (- dp) <? 2 ^ k * up10 dp) eqn:T; [split; [lia|exact H]|].
  specialize (IH (dp + 1)%Z). replace (dp + 1 - 1)%Z with dp in IH by lia. specialize (IH ltac:(lia)). cbv zeta in IH. destruct IH. split; [lia|assumption].
Qed.
(** The digits: within half a unit of the last binary digit. *)
Definition near (m k d : N) (s : Z) : Prop :=
  d * up10 (- s) * 2 ^ (k + 2) <= 4 * m * up10 s + 2 * up10 s /\ 4 * m * up10 s <= d * up10 (- s) * 2 ^ (k + 2) + 2 * up10 s.
Lemma reads_near m k d s : reads_back m k d s = true -> near m k d s.
Proof.
  unfold reads_back, near. set (x := d * up10 (- s) * 2 ^ (k + 2)). set (y := 4 * m * up10 s). pose proof (up10_pos s) as U. set (u := up10 s) in *.
  clearbody x y u. intro H. destruct (N.even m), (x <? y) eqn:XY, (m =? 2 ^ 52); cbn [andb] in H; lia.
Qed.
Lemma shortest_spec m k dp : m < 2 ^ 53 -> 2 ^ k * up10 (dp - 1) <= m * up10 (- (dp - 1)) ->
  forall fuel n, (n + Z.of_nat fuel = 17)%Z -> let '(d, s) := shortest_from fuel n dp m k in near m k d s /\ (n - dp <= s <= 17 - dp)%Z.
Proof.
  intros M DP. induction fuel as [|fuel IH]; intros n F; cbn [shortest_from]; cbv zeta.
  - split; [|lia]. set (s := (n - dp)%Z).
    pose proof (half_even_near (m * up10 s) (2 ^ k * up10 (- s))) as H. pose proof (up10_pos (- s)) as U1. pose proof (up10_pos s) as U2.
    assert (0 < 2 ^ k) as K by (apply N.neq_0_lt_0, N.pow_nonzero; discriminate). specialize (H ltac:(nia)).
    set (d := half_even _ _) in *. clearbody d.
    assert (2 ^ k * up10 (- s) <= up10 s) as Q.
    { (* 10^16 <= m/2^k * 10^s, and m < 2^53 *)
      assert (up10 s * up10 (dp - 1) = up10 (- s) * up10 (- (dp - 1)) * up10 16) as W.
      { pose proof (up10_shift (1 - dp) 16 ltac:(lia)) as W. replace (1 - dp + 16)%Z with s in W by lia.
        replace (- (1 - dp))%Z with (dp - 1)%Z in W by lia. replace (- (dp - 1))%Z with (1 - dp)%Z by lia. rewrite W. lia. }
      change (up10 16) with 10000000000000000 in W. change (2 ^ 53) with 9007199254740992 in M.
      pose proof (up10_pos (dp - 1)) as U3. pose proof (up10_pos (- (dp - 1))) as U4.
      set (a := up10 s) in *. set (b := up10 (- s)) in *. set (e := up10 (dp - 1)) in *. set (f := up10 (- (dp - 1))) in *. set (T := 2 ^ k) in *. clearbody a b e f T.
      (* T * e <= m * f ; a * e = b * f * 10^16 ; goal T * b <= a *)
      assert (T * b * (f * 10000000000000000) <= a * (f * 10000000000000000)) as G; [|nia].
      replace (T * b * (f * 10000000000000000)) with (T * (b * f * 10000000000000000)) by lia. rewrite <- W.
      replace (T * (a * e)) with (a * (T * e)) by lia. assert (a * (T * e) <= a * (m * f)) by nia. nia. }
    unfold near. rewrite N.pow_add_r. change (2 ^ 2) with 4. set (T := 2 ^ k) in *. clearbody T. destruct H as [H1 H2]. split; nia.
  - destruct (reads_back _ _ _ _) eqn:R; [split; [apply reads_near, R|lia]|].
    specialize (IH (n + 1)%Z ltac:(lia)). destruct (shortest_from _ _ _ _ _) as [d s]. destruct IH. split; [assumption|lia].
Qed.
(** Together: the decimal d * 10^-s is within a millionth of a second. *)
Lemma days_decimal p : 0 < p < 2 ^ 32 ->
  let '(m, k) := float_days p in
  let '(d, s) := shortest_from 16 1 (point_from 9 (-4) m k) m k in
  10 ^ 6 * (d * up10 (- s) * 86400) <= 10 ^ 6 * (p * up10 s) + up10 s /\ 10 ^ 6 * (p * up10 s) <= 10 ^ 6 * (d * up10 (- s) * 86400) + up10 s /\
  (-4 <= s <= 21)%Z.
Proof.
  intro P. pose proof (float_days_range p P) as F. destruct (float_days p) as [m k]. destruct F as (M & K & F1 & F2).
  assert (2 ^ 37 <= 2 ^ k) as K37 by (apply N.pow_le_mono_r; lia).
  pose proof (point_spec m k 9 (-4)) as D. cbv zeta in D.
  assert (2 ^ k * up10 (-4 - 1) <= m * up10 (- (-4 - 1))) as D0.
  { change (up10 (-4 - 1)) with 1. change (up10 (- (-4 - 1))) with 100000. change (2 ^ 37) with 137438953472 in K37. nia. }
  specialize (D D0). set (dp := point_from 9 (-4) m k) in *. clearbody dp. destruct D as [D1 D2].
  pose proof (shortest_spec m k dp ltac:(lia) D2 16 1 ltac:(lia)) as S. destruct (shortest_from 16 1 dp m k) as [d s]. destruct S as [[S1 S2] S3].
  rewrite N.pow_add_r in S1, S2. change (2 ^ 2) with 4 in *. change (2 ^ 37) with 137438953472 in K37. change (10 ^ 6) with 1000000.
  pose proof (up10_pos s) as U. set (a := up10 s) in *. set (x := d * up10 (- s)) in *. set (T := 2 ^ k) in *. clearbody a x T.
  (* |x T - m a| <= a/2 ; |m 86400 - p T| <= 43200 *)
  assert (2 * (x * T) <= 2 * (m * a) + a) as S1' by lia. assert (2 * (m * a) <= 2 * (x * T) + a) as S2' by lia. clear S1 S2.
  assert (x * T * 86400 <= p * T * a + 86400 * a) as B1 by nia. assert (p * T * a <= x * T * 86400 + 86400 * a) as B2 by nia.
  split; [|split; [|lia]].
  - assert (T * (1000000 * (x * 86400)) <= T * (1000000 * (p * a) + a)) as G by nia. nia.
  - assert (T * (1000000 * (p * a)) <= T * (1000000 * (x * 86400) + a)) as G by nia. nia.
Qed.
(** ** The text. *)
Lemma read_zeros n : forall acc l, read_dec_from acc (repeat x30 n ++ l) = read_dec_from (acc * 10 ^ N.of_nat n) l.
Proof.
  induction n as [|n IH]; intros acc l; [cbn [repeat app N.of_nat N.pow]; f_equal; lia|].
  cbn [repeat app read_dec_from digit_val]. change (digit_val x30) with (Some 0). cbv iota. rewrite IH. f_equal.
  rewrite Nat2N.inj_succ, N.pow_succ_r'. lia.
Qed.
Lemma read_dec_from_dec d : read_dec_from 0 (dec d) = Some d.
Proof. pose proof (read_dec_dec d) as H. pose proof (dec_nonempty d) as K. unfold read_dec in H. destruct (dec d); [congruence|exact H]. Qed.
Lemma read_dec_cons l : l <> [] -> read_dec l = read_dec_from 0 l.
Proof. destruct l; [congruence|reflexivity]. Qed.

Definition ten (n : Z) : Q := inject_Z (10 ^ n).
Lemma ten_nz n : (0 <= n)%Z -> ~ (ten n == 0)%Q.
Proof. intros H K. unfold ten in K. change 0%Q with (inject_Z 0) in K. rewrite inject_Z_injective in K. pose proof (Z.pow_pos_nonneg 10 n ltac:(lia) H). lia. Qed.
Lemma ten_add a b : (0 <= a)%Z -> (0 <= b)%Z -> (ten (a + b) == ten a * ten b)%Q.
Proof. intros A B. unfold ten. rewrite Z.pow_add_r by assumption. rewrite inject_Z_mult. reflexivity. Qed.
Lemma ten_up z : (0 <= z)%Z -> inject_Z (Z.of_N (up10 z)) = ten z.
Proof. intro H. unfold ten, up10. rewrite N2Z.inj_pow, Z2N.id by assumption. reflexivity. Qed.

Lemma decimal_text_value d s : (s <= 21)%Z ->
  exists q, decimal (decimal_text d s) q /\ (q * inject_Z (Z.of_N (up10 s)) == inject_Z (Z.of_N (d * up10 (- s))))%Q.
Proof.
  intro S21. unfold decimal_text. pose proof (dec_nonempty d) as NE. pose proof (read_dec_dec d) as RD. pose proof (read_dec_from_dec d) as RF.
  set (ds := dec d) in *. clearbody ds. cbv zeta.
  assert (1 <= lenZ ds)%Z as L1 by (unfold lenZ; destruct ds; [congruence|cbn [length]; lia]).
  set (nd := lenZ ds) in *. set (dp := (nd - s)%Z). destruct (dp - 1 <? -4)%Z eqn:C1; [|destruct (dp <=? 0)%Z eqn:C2; [|destruct (nd <=? dp)%Z eqn:C3]].
  - (* exponent *)
    assert (read_dec (decw 2 (Z.to_N (1 - dp))) = Some (Z.to_N (1 - dp))) as RE.
    { rewrite read_dec_cons by (intro K; apply (f_equal (@length byte)) in K; rewrite decw_length in K; discriminate).
      rewrite read_decw; [f_equal; lia|]. change (10 ^ N.of_nat 2) with 100. lia. }
    rewrite (up10_neg (- s)), N.mul_1_r, ten_up by lia. destruct (1 <? nd)%Z eqn:C4.
    + exists (inject_Z (Z.of_N d) / inject_Z (10 ^ Z.of_nat (length (skipn 1 ds))) / inject_Z (10 ^ Z.of_N (Z.to_N (1 - dp))))%Q. split.
      * rewrite app_assoc. apply decimal_exp; [|exact RE]. apply fixed_point.
        -- destruct ds; [congruence|discriminate].
        -- intro K. apply (f_equal (@length byte)) in K. rewrite skipn_length in K. cbn [length] in K. unfold nd, lenZ in C4. lia.
        -- rewrite firstn_skipn. exact RD.
      * rewrite skipn_length, Z2N.id by lia. replace (Z.of_nat (length ds - 1)) with (nd - 1)%Z by (unfold nd, lenZ; unfold nd, lenZ in L1; lia).
        fold (ten (nd - 1)) (ten (1 - dp)). replace s with ((nd - 1) + (1 - dp))%Z by lia. rewrite ten_add by lia. field. split; apply ten_nz; lia.
    + exists (inject_Z (Z.of_N d) / inject_Z (10 ^ Z.of_N (Z.to_N (1 - dp))))%Q. split.
      * rewrite app_nil_l, firstn_all2 by (unfold nd, lenZ in C4; lia). apply decimal_exp; [apply fixed_int, RD|exact RE].
      * rewrite Z2N.id by lia. fold (ten (1 - dp)). replace s with (1 - dp)%Z by lia. field. apply ten_nz; lia.
  - (* 0.00ddd *)
    rewrite (up10_neg (- s)), N.mul_1_r, ten_up by lia. exists (inject_Z (Z.of_N d) / inject_Z (10 ^ Z.of_nat (length (zeros (- dp) ++ ds))))%Q. split.
    + change (str "0." ++ zeros (- dp) ++ ds) with (str "0" ++ str "." ++ (zeros (- dp) ++ ds)). apply decimal_fixed, fixed_point; [discriminate| |].
      * intro K. apply app_eq_nil in K as [_ K]. congruence.
      * rewrite read_dec_cons by discriminate. change (str "0" ++ zeros (- dp) ++ ds) with (repeat x30 1 ++ (zeros (- dp) ++ ds)).
        rewrite read_zeros. unfold zeros. rewrite read_zeros. rewrite !N.mul_0_l. exact RF.
    + rewrite app_length. unfold zeros. rewrite repeat_length. replace (Z.of_nat (Z.to_nat (- dp) + length ds)) with s by (unfold dp, nd, lenZ in *; lia).
      fold (ten s). field. apply ten_nz. lia.
  - (* whole number *)
    rewrite (up10_neg s) by lia. exists (inject_Z (Z.of_N (d * up10 (- s)))). split.
    + apply decimal_fixed, fixed_int. rewrite read_dec_cons by (intro K; apply app_eq_nil in K as [K _]; congruence).
      rewrite read_dec_from_app, RF. unfold zeros. rewrite <- (app_nil_r (repeat _ _)), read_zeros. cbn [read_dec_from]. unfold up10. do 3 f_equal. lia.
    + change (inject_Z (Z.of_N 1)) with 1%Q. ring.
  - (* point inside *)
    rewrite (up10_neg (- s)), N.mul_1_r, ten_up by lia. exists (inject_Z (Z.of_N d) / inject_Z (10 ^ Z.of_nat (length (skipn (Z.to_nat dp) ds))))%Q. split.
    + apply decimal_fixed, fixed_point.
      * intro K. apply (f_equal (@length byte)) in K. rewrite firstn_length in K. cbn [length] in K. unfold dp, nd, lenZ in *. lia.
      * intro K. apply (f_equal (@length byte)) in K. rewrite skipn_length in K. cbn [length] in K. unfold dp, nd, lenZ in *. lia.
      * rewrite firstn_skipn. exact RD.
    + rewrite skipn_length. replace (Z.of_nat (length ds - Z.to_nat dp)) with s by (unfold dp, nd, lenZ in *; lia). fold (ten s). field. apply ten_nz. lia.
Qed.

(** The days of t seconds, within a millionth of a second. *)
Lemma days_text_value t : t < 2 ^ 32 ->
  exists q, decimal (days_text t) q /\ (Qabs (q * 86400 - inject_Z (Z.of_N t)) <= 1 # 1000000)%Q.
Proof.
  intro T. unfold days_text. destruct (t =? 0) eqn:T0.
  - apply N.eqb_eq in T0. subst t. exists (inject_Z (Z.of_N 0)). split; [apply decimal_fixed, fixed_int; reflexivity|]. vm_compute. discriminate.
  - pose proof (days_decimal t ltac:(lia)) as D. destruct (float_days t) as [m k]. destruct (shortest_from _ _ _ _ _) as [d s]. destruct D as (D1 & D2 & D3).
    destruct (decimal_text_value d s ltac:(lia)) as [q [Q1 Q2]]. exists q. split; [exact Q1|]. pose proof (up10_pos s) as U.
    set (x := d * up10 (- s)) in *. set (a := up10 s) in *. clearbody x a. apply Qabs_Qle_condition.
    change (10 ^ 6) with 1000000 in *.
    assert (0 < inject_Z (Z.of_N a))%Q as A by (change 0%Q with (inject_Z 0); rewrite <- Zlt_Qlt; lia).
    assert (inject_Z (1000000 * (Z.of_N x * 86400)) <= inject_Z (1000000 * (Z.of_N t * Z.of_N a) + Z.of_N a))%Q as E1 by (rewrite <- Zle_Qle; lia).
    assert (inject_Z (1000000 * (Z.of_N t * Z.of_N a)) <= inject_Z (1000000 * (Z.of_N x * 86400) + Z.of_N a))%Q as E2 by (rewrite <- Zle_Qle; lia).
    repeat rewrite ?inject_Z_mult, ?inject_Z_plus in E1, E2. rewrite <- Q2 in E1, E2.
    set (A' := inject_Z (Z.of_N a)) in *. set (T' := inject_Z (Z.of_N t)) in *. clearbody A' T'.
    change (inject_Z 1000000) with 1000000%Q in *. change (inject_Z 86400) with 86400%Q in *. clear Q2 D1 D2.
    split.
    + apply (Qmult_le_r _ _ (1000000 * A')); [nra|]. setoid_replace (- (1 # 1000000) * (1000000 * A'))%Q with (- A')%Q by ring. lra.
    + apply (Qmult_le_r _ _ (1000000 * A')); [nra|]. setoid_replace ((1 # 1000000) * (1000000 * A'))%Q with A' by ring. lra.
Qed.

(** ** A text has one value. *)
Definition plainb (b : byte) : bool := is_digit b || Byte.eqb b x2e.
Lemma fixed_plain t q : fixed t q -> t <> [] /\ forallb plainb t = true.
Proof.
  assert (forall l, forallb is_digit l = true -> forallb plainb l = true) as W.
  { intros l H. rewrite forallb_forall in *. intros b Hb. unfold plainb. rewrite (H b Hb). reflexivity. }
  destruct 1 as [ip n R|ip fp n I F R].
  - destruct ip as [|b ip]; [discriminate|]. split; [discriminate|]. apply W, (read_dec_from_digits _ 0 n R).
  - split; [destruct ip; [congruence|discriminate]|]. rewrite read_dec_cons in R by (destruct ip; [congruence|discriminate]).
    apply read_dec_from_digits in R. rewrite forallb_app in R. apply andb_true_iff in R as [R1 R2]. rewrite !forallb_app, (W ip R1), (W fp R2). reflexivity.
Qed.
Lemma split_at (p : byte -> bool) c l1 : forall l2 r1 r2, forallb p l1 = true -> forallb p l2 = true -> p c = false ->
  l1 ++ c :: r1 = l2 ++ c :: r2 -> l1 = l2 /\ r1 = r2.
Proof.
  induction l1 as [|b l1 IH]; intros l2 r1 r2 H1 H2 C E; destruct l2 as [|b2 l2]; cbn [app forallb] in *.
  - injection E as E. auto.
  - injection E as E1 E2. subst b2. rewrite C in H2. discriminate.
  - injection E as E1 E2. subst b. rewrite C in H1. discriminate.
  - injection E as E1 E2. subst b2. apply andb_true_iff in H1 as [_ H1]. apply andb_true_iff in H2 as [_ H2]. destruct (IH l2 r1 r2 H1 H2 C E2). subst. auto.
Qed.
Lemma point_digits ip fp n : ip <> [] -> read_dec (ip ++ fp) = Some n -> forallb is_digit ip = true /\ forallb is_digit fp = true.
Proof.
  intros I R. rewrite read_dec_cons in R by (destruct ip; [congruence|discriminate]).
  apply read_dec_from_digits in R. rewrite forallb_app in R. apply andb_true_iff in R. exact R.
Qed.
Lemma fixed_unique t q t' q' : fixed t q -> fixed t' q' -> t = t' -> q = q'.
Proof.
  intros H H'. destruct H as [ip n R|ip fp n I F R], H' as [ip' n' R'|ip' fp' n' I' F' R']; intro E.
  - subst. congruence.
  - exfalso. assert (forallb is_digit ip = true) as D by (destruct ip; [discriminate|]; apply (read_dec_from_digits _ 0 n R)).
    rewrite E, !forallb_app in D. cbn in D. rewrite andb_false_r in D. discriminate.
  - exfalso. assert (forallb is_digit ip' = true) as D by (destruct ip'; [discriminate|]; apply (read_dec_from_digits _ 0 n' R')).
    rewrite <- E, !forallb_app in D. cbn in D. rewrite andb_false_r in D. discriminate.
  - destruct (point_digits _ _ _ I R) as [D1 _]. destruct (point_digits _ _ _ I' R') as [D1' _].
    destruct (split_at is_digit x2e ip ip' fp fp' D1 D1' eq_refl E) as [-> ->]. congruence.
Qed.
Lemma decimal_unique t q q' : decimal t q -> decimal t q' -> q = q'.
Proof.
  intros H H'. destruct H as [t q H|t q x e H R]; inversion H' as [t2 q2 K|t2 q2 x2 e2 K R2 E]; subst.
  - eapply fixed_unique; eauto.
  - exfalso. apply fixed_plain in H as [_ H]. rewrite !forallb_app in H. cbn in H. rewrite andb_false_r in H. discriminate.
  - exfalso. apply fixed_plain in K as [_ K]. rewrite !forallb_app in K. cbn in K. rewrite andb_false_r in K. discriminate.
  - destruct (fixed_plain _ _ H) as [_ P]. destruct (fixed_plain _ _ K) as [_ P2].
    destruct (split_at plainb x65 t2 t (x2d :: x2) (x2d :: x) P2 P eq_refl E) as [-> E']. injection E' as ->.
    rewrite R in R2. injection R2 as ->. rewrite (fixed_unique _ _ _ _ H K eq_refl). reflexivity.
Qed.
Lemma days_text_inj t t' : t < 2 ^ 32 -> t' < 2 ^ 32 -> days_text t = days_text t' -> t = t'.
Proof.
  intros T T' E. destruct (days_text_value t T) as [q [Q1 Q2]]. destruct (days_text_value t' T') as [q' [Q1' Q2']]. rewrite <- E in Q1'.
  rewrite (decimal_unique _ _ _ Q1' Q1) in Q2'. apply Qabs_Qle_condition in Q2 as [A B]. apply Qabs_Qle_condition in Q2' as [A' B'].
  assert (inject_Z (Z.of_N t) < inject_Z (Z.of_N t' + 1))%Q as L1 by (rewrite inject_Z_plus; change (inject_Z 1) with 1%Q; lra).
  assert (inject_Z (Z.of_N t') < inject_Z (Z.of_N t + 1))%Q as L2 by (rewrite inject_Z_plus; change (inject_Z 1) with 1%Q; lra).
  rewrite <- Zlt_Qlt in L1, L2. lia.
Qed.

(** ** Whole days. *)
Lemma uint_snoc u : forall s, str (NilEmpty.string_of_uint (Decimal.revapp u s)) = str (NilEmpty.string_of_uint (Decimal.rev u)) ++ str (NilEmpty.string_of_uint s).
Proof.
  unfold Decimal.rev. induction u; intro s; cbn [Decimal.revapp]; [reflexivity|..];
    (rewrite IHu; rewrite (IHu (_ Decimal.Nil)); rewrite <- app_assoc; reflexivity).
Qed.
Lemma dec_pos p : dec (Npos p) = str (NilEmpty.string_of_uint (Pos.to_uint p)).
Proof. unfold dec. cbn [N.to_uint]. pose proof (DecimalPos.Unsigned.to_uint_nonnil p) as H. destruct (Pos.to_uint p); [congruence|reflexivity..]. Qed.
Lemma dec_ten n : 0 < n -> dec (10 * n) = dec n ++ [x30].
Proof.
  intro H. destruct n as [|p]; [lia|]. pose proof (DecimalPos.Unsigned.to_ldec_tenfold p) as T.
  change (10 * Npos p) with (Npos (10 * p)) in *. rewrite !dec_pos. unfold Pos.to_uint. unfold DecimalPos.Unsigned.to_lu in T. rewrite T.
  change (Decimal.rev (Decimal.D0 (Pos.to_little_uint p))) with (Decimal.revapp (Pos.to_little_uint p) (Decimal.D0 Decimal.Nil)).
  rewrite uint_snoc. reflexivity.
Qed.
Lemma dec_zeros n j : 0 < n -> dec (n * 10 ^ N.of_nat j) = dec n ++ repeat x30 j.
Proof.
  intro H. induction j as [|j IH]; [cbn [N.of_nat N.pow repeat]; rewrite N.mul_1_r, app_nil_r; reflexivity|].
  rewrite Nat2N.inj_succ, N.pow_succ_r'. replace (n * (10 * 10 ^ N.of_nat j)) with (10 * (n * 10 ^ N.of_nat j)) by lia.
  assert (0 < 10 ^ N.of_nat j) by (apply N.neq_0_lt_0, N.pow_nonzero; discriminate).
  rewrite dec_ten, IH by nia. rewrite <- app_assoc. f_equal. rewrite <- repeat_cons. reflexivity.
Qed.
Lemma half_even_exact q d : 0 < d -> half_even (q * d) d = q.
Proof. intro D. unfold half_even. rewrite N.div_mul, N.mod_mul by lia. replace (2 * 0 <? d) with true by lia. reflexivity. Qed.
Lemma point_end m k : forall fuel dp, let dp' := point_from fuel dp m k in dp' = (dp + Z.of_nat fuel)%Z \/ m * up10 (- dp') < 2 ^ k * up10 dp'.
Proof.
  induction fuel as [|fuel IH]; intro dp; cbn [point_from]; cbv zeta; [left; lia|].
  destruct (m * up10 (- dp) <? 2 ^ k * up10 dp) eqn:T; [right; lia|]. specialize (IH (dp + 1)%Z). cbv zeta in IH. destruct IH as [IH|IH]; [left; lia|right; exact IH].
Qed.
Lemma shortest_whole w k dp : 0 < w -> forall fuel n, (n <= dp <= n + Z.of_nat fuel)%Z ->
  let '(d, s) := shortest_from fuel n dp (w * 2 ^ k) k in (s <= 0)%Z /\ d * up10 (- s) = w.
Proof.
  intro W. assert (0 < 2 ^ k) as K by (apply N.neq_0_lt_0, N.pow_nonzero; discriminate).
  induction fuel as [|fuel IH]; intros n F; cbn [shortest_from]; cbv zeta.
  - replace (n - dp)%Z with 0%Z by lia. split; [lia|]. change (up10 (- 0)) with 1. change (up10 0) with 1. rewrite !N.mul_1_r. apply half_even_exact, K.
  - destruct (reads_back _ _ _ _) eqn:R.
    + split; [lia|]. apply reads_near in R. destruct R as [R1 R2]. rewrite (up10_neg (n - dp)) in R1, R2 by lia. rewrite N.pow_add_r in R1, R2. change (2 ^ 2) with 4 in *.
      rewrite (up10_neg (n - dp)) by lia. set (x := half_even _ _ * up10 _) in *. set (T := 2 ^ k) in *. clearbody x T. nia.
    + apply IH. destruct (Z.eq_dec n dp) as [->|]; [|lia]. exfalso. revert R. rewrite Z.sub_diag. change (up10 (- 0)) with 1. change (up10 0) with 1.
      rewrite !N.mul_1_r, half_even_exact by exact K. unfold reads_back. change (up10 (- 0)) with 1. change (up10 0) with 1. rewrite N.pow_add_r. change (2 ^ 2) with 4.
      replace (w * 1 * (2 ^ k * 4)) with (4 * (w * 2 ^ k) * 1) by lia. rewrite N.ltb_irrefl, N.sub_diag. cbn [andb]. destruct (N.even _); discriminate.
Qed.
Lemma days_text_whole d : 86400 * d < 2 ^ 32 -> days_text (86400 * d) = dec d.
Proof.
  intro D. unfold days_text. destruct (86400 * d =? 0) eqn:Z0; [apply N.eqb_eq in Z0; replace d with 0 by lia; reflexivity|].
  assert (0 < d) as D0 by lia. pose proof (float_days_range (86400 * d) ltac:(lia)) as R.
  unfold float_days in *. set (k := scale_from 70 0 (86400 * d)) in *. clearbody k. 
  replace (86400 * d * 2 ^ k) with (d * 2 ^ k * 86400) in * by lia. rewrite half_even_exact in * by lia. destruct R as (R1 & R2 & _).
  assert (0 < 2 ^ k) as K by (apply N.neq_0_lt_0, N.pow_nonzero; discriminate).
  pose proof (point_end (d * 2 ^ k) k 9 (-4)) as P. cbv zeta in P. pose proof (point_spec (d * 2 ^ k) k 9 (-4)) as P2. cbv zeta in P2.
  assert (2 ^ k * up10 (-4 - 1) <= d * 2 ^ k * up10 (- (-4 - 1))) as P0.
  { change (up10 (-4 - 1)) with 1. change (up10 (- (-4 - 1))) with 100000. nia. }
  specialize (P2 P0). destruct P2 as [P2 _]. set (dp := point_from 9 (-4) (d * 2 ^ k) k) in *. clearbody dp.
  assert (1 <= dp)%Z as P1.
  { destruct P as [P|P]; [lia|]. destruct (Z.le_gt_cases 1 dp) as [|L]; [assumption|]. rewrite (up10_neg dp) in P by lia. pose proof (up10_pos (- dp)). nia. }
  pose proof (shortest_whole d k dp D0 16 1 ltac:(lia)) as S. destruct (shortest_from _ _ _ _ _) as [x s]. destruct S as [S1 S2].
  assert (0 < x) as X by (destruct x; [lia|lia]). unfold decimal_text. cbv zeta.
  assert (1 <= lenZ (dec x))%Z as L1 by (pose proof (dec_nonempty x); unfold lenZ; destruct (dec x); [congruence|cbn [length]; lia]).
  replace (lenZ (dec x) - s - 1 <? -4)%Z with false by lia. replace (lenZ (dec x) - s <=? 0)%Z with false by lia. replace (lenZ (dec x) <=? lenZ (dec x) - s)%Z with true by lia.
  unfold zeros. rewrite <- dec_zeros by exact X. rewrite <- S2. unfold up10. do 3 f_equal. lia.
Qed.
