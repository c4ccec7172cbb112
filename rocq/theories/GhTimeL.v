(** * GhTimeL: the reader of times and the texts of times. *)
From Coq Require Import Strings.String Strings.Byte List NArith ZArith Bool Lia ZifyBool ZifyN ZifyNat.
From Verif Require Import Base BaseL Time SpecBase SpecTime GhTime SpecGhTime.
Import ListNotations.
Local Open Scope Z_scope.

Lemma tdigit_some b x : tdigit b = Some x <-> decimal_digit b /\ x = Z.of_N (b2n b) - 48.
Proof.
  unfold tdigit, decimal_digit. destruct (_ && _) eqn:E; split.
  - intro H. injection H as <-. lia.
  - intros [_ ->]. reflexivity.
  - discriminate.
  - lia.
Qed.
Lemma tdigit_none b : tdigit b = None <-> ~ decimal_digit b.
Proof.
  destruct (tdigit b) as [x|] eqn:E.
  - split; [discriminate|]. intro N. exfalso. apply N. apply tdigit_some in E. apply E.
  - split; [|reflexivity]. intros _ D. pose proof (proj2 (tdigit_some b _) (conj D eq_refl)). congruence.
Qed.

Lemma tnumber_spec s : forall acc n, tnumber acc s = Some n <-> Forall decimal_digit s /\ n = fold_left (fun a b => 10 * a + (Z.of_N (b2n b) - 48)) s acc.
Proof.
  induction s as [|b s IH]; intros acc n; cbn [tnumber fold_left].
  - split; [intro H; injection H as <-; auto | intros [_ ->]; reflexivity].
  - destruct (tdigit b) as [x|] eqn:E.
    + apply tdigit_some in E as [D ->]. rewrite IH. replace (acc * 10 + (Z.of_N (b2n b) - 48)) with (10 * acc + (Z.of_N (b2n b) - 48)) by lia.
      split; intros [F H]; (split; [|exact H]); [constructor; assumption | inversion F; assumption].
    + apply tdigit_none in E. split; [discriminate|]. intros [F _]. inversion F; contradiction.
Qed.
Lemma tnumber_worth s n : tnumber 0 s = Some n <-> Forall decimal_digit s /\ n = worth s.
Proof. apply tnumber_spec. Qed.

Lemma decimals_two x : decimals 2 x <-> exists a b, x = [a; b] /\ decimal_digit a /\ decimal_digit b.
Proof.
  split.
  - intros [L F]. destruct x as [|a [|b [|c x]]]; try discriminate. exists a, b. inversion F as [|? ? ? F2]; subst. inversion F2; subst. auto.
  - intros (a & b & -> & A & B). split; [reflexivity | auto].
Qed.
Lemma decimals_one x : decimals 1 x <-> exists a, x = [a] /\ decimal_digit a.
Proof.
  split.
  - intros [L F]. destruct x as [|a [|b x]]; try discriminate. exists a. inversion F; subst. auto.
  - intros (a & -> & A). split; [reflexivity | auto].
Qed.

Lemma getnum_fixed s n r : getnum true s = Some (n, r) <-> exists x, s = x ++ r /\ decimals 2 x /\ n = worth x.
Proof.
  split.
  - unfold getnum. destruct s as [|a [|b u]]; [discriminate| |].
    + destruct (tdigit a); discriminate.
    + destruct (tdigit a) as [x|] eqn:A; [|discriminate]. destruct (tdigit b) as [y|] eqn:B; [|discriminate].
      intro H. injection H as <- <-. apply tdigit_some in A as [A ->]. apply tdigit_some in B as [B ->].
      exists [a; b]. split; [reflexivity|]. split; [apply decimals_two; eauto|]. unfold worth. cbn [fold_left]. lia.
  - intros (x & -> & D & ->). apply decimals_two in D as (a & b & -> & A & B). unfold getnum. cbn [app].
    rewrite (proj2 (tdigit_some a _) (conj A eq_refl)), (proj2 (tdigit_some b _) (conj B eq_refl)). f_equal. f_equal. unfold worth. cbn [fold_left]. lia.
Qed.
Lemma getnum_hour_sound s n r : getnum false s = Some (n, r) -> exists x, s = x ++ r /\ loose_hour x /\ n = worth x.
Proof.
  unfold getnum. destruct s as [|a t]; [discriminate|]. destruct (tdigit a) as [x|] eqn:A; [|discriminate]. apply tdigit_some in A as [A ->].
  assert (forall r n, Some (Z.of_N (b2n a) - 48, t) = Some (n, r) -> exists x, a :: t = x ++ r /\ loose_hour x /\ n = worth x) as ONE.
  { intros r' n' H. injection H as <- <-. exists [a]. split; [reflexivity|]. split; [left; apply decimals_one; eauto|]. unfold worth. cbn [fold_left]. lia. }
  destruct t as [|b u]; [apply ONE|]. destruct (tdigit b) as [y|] eqn:B; [|apply ONE]. apply tdigit_some in B as [B ->].
  intro H. injection H as <- <-. exists [a; b]. split; [reflexivity|]. split; [right; apply decimals_two; eauto|]. unfold worth. cbn [fold_left]. lia.
Qed.
Lemma getnum_hour_complete x r : loose_hour x -> getnum false (x ++ ":"%byte :: r) = Some (worth x, ":"%byte :: r).
Proof.
  intros [D|D].
  - apply decimals_one in D as (a & -> & A). unfold getnum. cbn [app]. rewrite (proj2 (tdigit_some a _) (conj A eq_refl)).
    cbv beta iota. change (tdigit ":"%byte) with (@None Z). cbv iota. reflexivity.
  - apply decimals_two in D as (a & b & -> & A & B). unfold getnum. cbn [app].
    rewrite (proj2 (tdigit_some a _) (conj A eq_refl)), (proj2 (tdigit_some b _) (conj B eq_refl)). f_equal. f_equal. unfold worth. cbn [fold_left]. lia.
Qed.
Lemma tskip_some c s r : tskip c s = Some r <-> s = c :: r.
Proof.
  unfold tskip. destruct s as [|b t]; [split; discriminate|]. destruct (Byte.eqb b c) eqn:E.
  - apply Byte.byte_dec_bl in E. subst b. split; intro H; injection H as <-; reflexivity.
  - split; [discriminate|]. intro H. injection H as -> _. rewrite (Byte.byte_dec_lb eq_refl) in E. discriminate.
Qed.

Lemma tdigits_sound s : forall d r, tdigits s = (d, r) -> s = d ++ r /\ Forall decimal_digit d.
Proof.
  induction s as [|b s IH]; intros d r; cbn [tdigits].
  - intro H. injection H as <- <-. auto.
  - destruct (tdigit b) as [x|] eqn:E.
    + destruct (tdigits s) as [d' r'] eqn:T. intro H. injection H as <- <-. destruct (IH _ _ eq_refl) as [-> F]. apply tdigit_some in E as [E _]. auto.
    + intro H. injection H as <- <-. auto.
Qed.
Lemma tdigits_complete d r : Forall decimal_digit d -> (forall b t, r = b :: t -> ~ decimal_digit b) -> tdigits (d ++ r) = (d, r).
Proof.
  intros F N. induction F as [|b d D F IH]; cbn [app].
  - destruct r as [|b t]; [reflexivity|]. cbn [tdigits]. rewrite (proj2 (tdigit_none b) (N b t eq_refl)). reflexivity.
  - cbn [tdigits]. rewrite (proj2 (tdigit_some b _) (conj D eq_refl)), IH. reflexivity.
Qed.

Lemma byte_is a b : Byte.eqb a b = true <-> a = b.
Proof. split; [apply Byte.byte_dec_bl | apply Byte.byte_dec_lb]. Qed.

Lemma tfraction_sound s r : tfraction s = Some r -> exists f, s = f ++ r /\ loose_fraction f.
Proof.
  unfold tfraction. assert (forall r, Some s = Some r -> exists f, s = f ++ r /\ loose_fraction f) as NONE.
  { intros r' H. injection H as <-. exists []. split; [reflexivity | left; reflexivity]. }
  destruct s as [|p t]; [apply NONE|]. destruct (Byte.eqb p ".") eqn:P; [|apply NONE]. apply byte_is in P. subst p.
  destruct (tdigits t) as [d u] eqn:T. apply tdigits_sound in T as [-> F]. destruct d as [|b d]; [apply NONE|].
  destruct (tnumber 0 (b :: d)) as [n|] eqn:E; [|discriminate]. apply tnumber_worth in E as [_ ->].
  destruct (Z.ltb_spec (worth (b :: d)) (10 ^ 9)) as [L|L]; [|discriminate]. intro H. injection H as <-. exists (str "." ++ b :: d). split; [reflexivity|].
  right. exists (List.length (b :: d)), (b :: d). split; [reflexivity|]. split; [split; [reflexivity | exact F]|]. split; [cbn [List.length]; lia | exact L].
Qed.
Lemma tfraction_complete f z : loose_fraction f -> (forall b t, z = b :: t -> ~ decimal_digit b /\ b <> "."%byte) -> tfraction (f ++ z) = Some z.
Proof.
  intros [->|(n & d & -> & [DL DF] & L & W)] N.
  - cbn [app]. unfold tfraction. destruct z as [|p t]; [reflexivity|]. destruct (N p t eq_refl) as [_ P].
    destruct (Byte.eqb p ".") eqn:E; [apply byte_is in E; contradiction | reflexivity].
  - change ((str "." ++ d) ++ z) with ("."%byte :: (d ++ z)). unfold tfraction. change (Byte.eqb "." ".") with true. cbn [orb].
    rewrite (tdigits_complete d z DF) by (intros b t E; apply (N b t E)). destruct d as [|b d]; [cbn in DL; lia|].
    rewrite (proj2 (tnumber_worth (b :: d) _) (conj DF eq_refl)). rewrite (proj2 (Z.ltb_lt _ _) W). reflexivity.
Qed.

Lemma tatoi_two a b : (exists n, tatoi [a; b] = Some n) <-> loose_two [a; b].
Proof.
  unfold tatoi, loose_two. destruct (Byte.eqb a "-" || Byte.eqb a "+") eqn:E.
  - assert (a = "+"%byte \/ a = "-"%byte) as S.
    { apply orb_true_iff in E as [E|E]; apply byte_is in E; auto. }
    split.
    + intros [n H]. apply tnumber_worth in H as [F _]. right. exists a, [b]. inversion F; subst. split; [reflexivity|]. split; [exact S|]. apply decimals_one. eauto.
    + intros [D|(s & d & Q & _ & D)].
      * apply decimals_two in D as (x & y & Q & X & _). injection Q as -> ->. exfalso. destruct S as [-> | ->]; unfold decimal_digit in X; cbn in X; lia.
      * apply decimals_one in D as (x & -> & X). injection Q as -> ->. eexists. apply tnumber_worth. split; [constructor; [exact X | constructor] | reflexivity].
  - split.
    + intros [n H]. apply tnumber_worth in H as [F _]. left. split; [reflexivity | exact F].
    + intros [[_ F]|(s & d & Q & S & D)]; [eexists; apply tnumber_worth; eauto|]. apply decimals_one in D as (x & -> & X). injection Q as -> ->.
      exfalso. destruct S as [-> | ->]; discriminate E.
Qed.
Lemma loose_two_two x : loose_two x -> exists a b, x = [a; b].
Proof.
  intros [D|(s & d & -> & _ & D)].
  - apply decimals_two in D as (a & b & -> & _). eauto.
  - apply decimals_one in D as (a & -> & _). exists s, a. reflexivity.
Qed.
Lemma tzone_spec s r : tzone s = Some r <-> exists z, s = z ++ r /\ loose_zone z.
Proof.
  split.
  - unfold tzone. destruct s as [|z t]; [discriminate|]. destruct (Byte.eqb z "Z") eqn:Z.
    + apply byte_is in Z. subst z. intro H. injection H as <-. exists (str "Z"). split; [reflexivity | left; reflexivity].
    + destruct t as [|h1 [|h2 [|c [|m1 [|m2 u]]]]]; try discriminate. destruct (_ && _) eqn:E; [|discriminate].
      apply andb_prop in E as [C S]. apply byte_is in C. subst c.
      destruct (tatoi [h1; h2]) as [x|] eqn:H1; [|discriminate]. destruct (tatoi [m1; m2]) as [y|] eqn:H2; [|discriminate].
      intro H. injection H as <-. exists ([z] ++ [h1; h2] ++ str ":" ++ [m1; m2]). split; [reflexivity|]. right. exists z, [h1; h2], [m1; m2]. split; [reflexivity|].
      split; [apply orb_true_iff in S as [S|S]; apply byte_is in S; auto|]. split; apply tatoi_two; eauto.
  - intros (z & -> & [->|(sign & h & m & -> & S & H & M)]); [reflexivity|].
    pose proof (loose_two_two h H) as (h1 & h2 & ->). pose proof (loose_two_two m M) as (m1 & m2 & ->).
    apply tatoi_two in H as [x H]. apply tatoi_two in M as [y M].
    change (tzone (sign :: h1 :: h2 :: ":"%byte :: m1 :: m2 :: r) = Some r). unfold tzone.
    destruct S as [-> | ->]; cbn [Byte.eqb andb orb]; rewrite H, M; reflexivity.
Qed.
Lemma zone_head z : loose_zone z -> forall b t, z = b :: t -> ~ decimal_digit b /\ b <> "."%byte.
Proof.
  intros [->|(sign & h & m & -> & S & _)] b t Q.
  - injection Q as <- _. split; [unfold decimal_digit; cbn; lia | discriminate].
  - injection Q as <- _. destruct S as [-> | ->]; split; try discriminate; unfold decimal_digit; cbn; lia.
Qed.

Lemma days_month m y : 1 <= m <= 12 -> days_in m y = month_days (leap_year y) m.
Proof.
  intros L. assert (is_leap y = leap_year y) as E by (unfold is_leap, leap_year; destruct (y mod 400 =? 0) eqn:A, (y mod 4 =? 0) eqn:B, (y mod 100 =? 0) eqn:C; try reflexivity; exfalso; lia || (zify; Z.to_euclidean_division_equations; lia)).
  unfold days_in. rewrite E. assert (m = 1 \/ m = 2 \/ m = 3 \/ m = 4 \/ m = 5 \/ m = 6 \/ m = 7 \/ m = 8 \/ m = 9 \/ m = 10 \/ m = 11 \/ m = 12) as C by lia.
  repeat (destruct C as [-> | C]; [destruct (leap_year y); reflexivity|]). subst m. reflexivity.
Qed.

Lemma time_ok_spec s : time_ok s = true <-> loose_time s.
Proof.
  split.
  - unfold time_ok. intro H.
    destruct s as [|y1 [|y2 [|y3 [|y4 s1]]]]; try discriminate H. destruct (tnumber 0 [y1; y2; y3; y4]) as [year|] eqn:EY; [|discriminate H]. apply tnumber_worth in EY as [FY ->].
    cbn [obind skipn] in H. destruct (tskip "-" s1) as [s2|] eqn:E; [|discriminate H]. apply tskip_some in E. subst s1. cbn [obind] in H.
    destruct (getnum true s2) as [[month s3]|] eqn:E; [|discriminate H]. apply getnum_fixed in E as (xm & -> & DM & ->). cbn [obind] in H.
    destruct (tskip "-" s3) as [s4|] eqn:E; [|discriminate H]. apply tskip_some in E. subst s3. cbn [obind] in H.
    destruct (getnum true s4) as [[day s5]|] eqn:E; [|discriminate H]. apply getnum_fixed in E as (xd & -> & DD & ->). cbn [obind] in H.
    destruct (tskip "T" s5) as [s6|] eqn:E; [|discriminate H]. apply tskip_some in E. subst s5. cbn [obind] in H.
    destruct (getnum false s6) as [[hour s7]|] eqn:E; [|discriminate H]. apply getnum_hour_sound in E as (xh & -> & DH & ->). cbn [obind] in H.
    destruct (tskip ":" s7) as [s8|] eqn:E; [|discriminate H]. apply tskip_some in E. subst s7. cbn [obind] in H.
    destruct (getnum true s8) as [[min s9]|] eqn:E; [|discriminate H]. apply getnum_fixed in E as (xmi & -> & DMI & ->). cbn [obind] in H.
    destruct (tskip ":" s9) as [s10|] eqn:E; [|discriminate H]. apply tskip_some in E. subst s9. cbn [obind] in H.
    destruct (getnum true s10) as [[sec s11]|] eqn:E; [|discriminate H]. apply getnum_fixed in E as (xs & -> & DS & ->). cbn [obind] in H.
    destruct (tfraction s11) as [s12|] eqn:E; [|discriminate H]. apply tfraction_sound in E as (f & -> & DF). cbn [obind] in H.
    destruct (tzone s12) as [s13|] eqn:E; [|discriminate H]. apply tzone_spec in E as (z & -> & DZ). cbn [obind] in H.
    destruct s13 as [|b s13]; [|rewrite andb_false_r in H; discriminate H]. rewrite andb_true_r in H.
    destruct (_ && _) eqn:B in H; [clear H|discriminate H]. repeat (apply andb_prop in B as [B ?]).
    exists [y1; y2; y3; y4], xm, xd, xh, xmi, xs, f, z. rewrite app_nil_r. split; [reflexivity|]. split; [split; [reflexivity | exact FY]|].
    rewrite days_month in * by lia. repeat (split; [assumption || lia|]). lia.
  - intros (year & month & day & hh & mm & ss & f & z & -> & [LY FY] & DM & DD & DH & DMI & DS & DF & DZ & BM & BD & BH & BMI & BS).
    destruct year as [|y1 [|y2 [|y3 [|y4 [|y5 year]]]]]; try discriminate LY. unfold time_ok. change (str "-") with ["-"%byte]. change (str "T") with ["T"%byte]. change (str ":") with [":"%byte]. cbn [app skipn].
    rewrite (proj2 (tnumber_worth _ _) (conj FY eq_refl)). cbn [obind].
    rewrite (proj2 (tskip_some "-" _ _) eq_refl). cbn [obind]. rewrite (proj2 (getnum_fixed _ _ _) (ex_intro _ month (conj eq_refl (conj DM eq_refl)))). cbn [obind].
    rewrite (proj2 (tskip_some "-" _ _) eq_refl). cbn [obind]. rewrite (proj2 (getnum_fixed _ _ _) (ex_intro _ day (conj eq_refl (conj DD eq_refl)))). cbn [obind].
    rewrite (proj2 (tskip_some "T" _ _) eq_refl). cbn [obind]. rewrite (getnum_hour_complete hh _ DH). cbn [obind].
    rewrite (proj2 (tskip_some ":" _ _) eq_refl). cbn [obind]. rewrite (proj2 (getnum_fixed _ _ _) (ex_intro _ mm (conj eq_refl (conj DMI eq_refl)))). cbn [obind].
    rewrite (proj2 (tskip_some ":" _ _) eq_refl). cbn [obind]. rewrite (proj2 (getnum_fixed _ _ _) (ex_intro _ ss (conj eq_refl (conj DS eq_refl)))). cbn [obind].
    rewrite (tfraction_complete f z DF (zone_head z DZ)). cbn [obind]. rewrite (proj2 (tzone_spec z []) (ex_intro _ z (conj (eq_sym (app_nil_r z)) DZ))). cbn [obind].
    rewrite days_month by lia. rewrite andb_true_r.
    destruct (_ && _) eqn:B; [reflexivity|]. exfalso. lia.
Qed.
