(** * TimeL: the calendar of Time.v agrees with SpecTime.v. *)
From Coq Require Import Strings.String Strings.Byte List NArith ZArith Bool Lia ZifyBool ZifyN ZifyNat.
From Verif Require Import Base BaseL SpecBase Item Context Env Values Time SpecTime.
Import ListNotations.
Local Open Scope Z_scope.

Lemma leap_same y : is_leap y = leap_year y.
Proof.
  unfold is_leap, leap_year.
  destruct (y mod 400 =? 0) eqn:E4; [|rewrite orb_false_r; reflexivity].
  assert (y mod 4 = 0) as ->; [|simpl; rewrite orb_true_r; reflexivity].
  pose proof (Z.div_mod y 400). assert (y = 400 * (y / 400)) as Hy by lia.
  rewrite Hy. replace (400 * (y / 400)) with ((100 * (y / 400)) * 4) by lia. apply Z.mod_mul. lia.
Qed.

Lemma div_mod_fact a b : 0 < b -> a = b * (a / b) + a mod b /\ 0 <= a mod b < b.
Proof. intro H. split; [apply Z.div_mod; lia | apply Z.mod_pos_bound; lia]. Qed.

Lemma div_step (n k : Z) : 0 < k -> 0 <= n ->
  (n + 1) / k = n / k + (if (n + 1) mod k =? 0 then 1 else 0).
Proof.
  intros Hk Hn.
  destruct (div_mod_fact n k Hk) as [E1 B1]. destruct (div_mod_fact (n + 1) k Hk) as [E2 B2].
  set (q1 := n / k) in *. set (q2 := (n + 1) / k) in *.
  set (r1 := n mod k) in *. set (r2 := (n + 1) mod k) in *.
  destruct (Z.eqb_spec r2 0).
  - assert (k * q2 = k * q1 + r1 + 1) by lia.
    assert (r1 + 1 = k * (q2 - q1)) by lia. assert (q2 - q1 = 1) by nia. lia.
  - assert (k * q2 + r2 = k * q1 + r1 + 1) by lia.
    assert (k * (q2 - q1) = r1 + 1 - r2) by lia. assert (q2 - q1 = 0) by nia. lia.
Qed.

Lemma days_of_years_closed n :
  days_of_years n = 365 * Z.of_nat n + Z.of_nat n / 4 - Z.of_nat n / 100 + Z.of_nat n / 400.
Proof.
  induction n as [|n IH]; [reflexivity|].
  cbn [days_of_years]. rewrite IH. rewrite Nat2Z.inj_succ. unfold Z.succ. set (m := Z.of_nat n).
  assert (0 <= m) by (unfold m; lia).
  rewrite (div_step m 4), (div_step m 100), (div_step m 400) by lia.
  unfold year_days. rewrite <- leap_same. unfold is_leap.
  destruct (div_mod_fact (m + 1) 4 eq_refl) as [A1 A2].
  destruct (div_mod_fact (m + 1) 100 eq_refl) as [B1 B2].
  destruct (div_mod_fact (m + 1) 400 eq_refl) as [C1 C2].
  destruct ((m + 1) mod 4 =? 0) eqn:E4; destruct ((m + 1) mod 100 =? 0) eqn:E100; destruct ((m + 1) mod 400 =? 0) eqn:E400;
    cbn [andb orb negb]; lia.
Qed.

(** The month part of abs_date, for a day of the year. *)
Definition month_part (leap : bool) (d : Z) : Z * Z :=
  if leap && (d =? 59) then (2, 29) else
  let day := if leap && (d >? 59) then d - 1 else d in
  let m := day / 31 in
  let e := days_before (m + 1) in
  if day >=? e then (m + 2, day - e + 1)
  else (m + 1, day - days_before m + 1).

Lemma month_part_spec (leap : bool) (d : Z) : 0 <= d < (if leap then 366 else 365) ->
  let '(m, k) := month_part leap d in
  1 <= m <= 12 /\ 1 <= k <= month_days leap m /\ days_of_months leap (Z.to_nat (m - 1)) + (k - 1) = d.
Proof.
  intro H.
  assert (E : forall l : bool, forallb (fun n => let d := Z.of_nat n in
    implb (d <? (if l then 366 else 365))
    (let '(m, k) := month_part l d in
    (1 <=? m) && (m <=? 12) && (1 <=? k) && (k <=? month_days l m) && (days_of_months l (Z.to_nat (m - 1)) + (k - 1) =? d)))
    (seq 0 366) = true) by (intros []; vm_compute; reflexivity).
  specialize (E leap). rewrite forallb_forall in E.
  assert (d < 366) by (destruct leap; lia).
  specialize (E (Z.to_nat d)). rewrite in_seq in E. specialize (E ltac:(lia)). cbv zeta in E.
  rewrite Z2Nat.id in E by lia.
  replace (d <? (if leap then 366 else 365)) with true in E by (destruct leap; lia). cbn [implb] in E.
  destruct (month_part leap d) as [m k].
  repeat (apply andb_true_iff in E as [E ?]). lia.
Qed.

Lemma abs_date_month d0 :
  abs_date d0 =
  (let n := d0 / 146097 in let y := 400 * n in let d := d0 - 146097 * n in
   let n := d / 36524 in let n := n - n / 4 in let y := y + 100 * n in let d := d - 36524 * n in
   let n := d / 1461 in let y := y + 4 * n in let d := d - 1461 * n in
   let n := d / 365 in let n := n - n / 4 in let y := y + n in let d := d - 365 * n in
   (y + 1, fst (month_part (is_leap (y + 1)) d), snd (month_part (is_leap (y + 1)) d))).
Proof.
  unfold abs_date, month_part. cbv zeta.
  match goal with |- context [is_leap ?y && (?d =? 59)] => set (dd := d); set (yy := y) end.
  destruct (is_leap yy && (dd =? 59)); [reflexivity|].
  match goal with |- context [?a >=? ?b] => destruct (a >=? b) end; reflexivity.
Qed.

Lemma abs_date_spec d0 : 0 <= d0 ->
  let '(y, m, d) := abs_date d0 in valid_date y m d = true /\ day_number y m d = d0 /\ y <= d0 / 365 + 1.
Proof.
  intro H0. rewrite abs_date_month. cbv zeta.
  set (a := d0 / 146097). set (d1 := d0 - 146097 * a).
  set (b0 := d1 / 36524). set (b := b0 - b0 / 4). set (d2 := d1 - 36524 * b).
  set (c := d2 / 1461). set (d3 := d2 - 1461 * c).
  set (e0 := d3 / 365). set (e := e0 - e0 / 4). set (d4 := d3 - 365 * e).
  assert (0 <= a /\ 0 <= d1 < 146097) as [Ha Hd1].
  { destruct (div_mod_fact d0 146097 eq_refl). fold a in H. unfold d1. split; [apply Z.div_pos; lia | lia]. }
  assert (0 <= b <= 3 /\ 0 <= d2 <= 36524 /\ (b < 3 -> d2 < 36524)) as (Hb & Hd2 & Hb3).
  { destruct (div_mod_fact d1 36524 eq_refl) as [E1 E2]. fold b0 in E1.
    destruct (div_mod_fact b0 4 eq_refl) as [E3 E4]. unfold d2, b. lia. }
  assert (0 <= c <= 24 /\ 0 <= d3 < 1461 /\ d3 = d2 - 1461 * c) as (Hc & Hd3 & Ed3).
  { destruct (div_mod_fact d2 1461 eq_refl) as [E1 E2]. fold c in E1. unfold d3. lia. }
  assert (0 <= e <= 3 /\ 0 <= d4 <= 365 /\ (d4 = 365 -> e = 3 /\ d3 = 1460)) as (He & Hd4 & He3).
  { destruct (div_mod_fact d3 365 eq_refl) as [E1 E2]. fold e0 in E1.
    destruct (div_mod_fact e0 4 eq_refl) as [E3 E4]. unfold d4, e. lia. }
  set (Y := 400 * a + 100 * b + 4 * c + e).
  assert (Y / 4 = 100 * a + 25 * b + c) as Y4 by (symmetry; apply Z.div_unique with (r := e); unfold Y; lia).
  assert (Y / 100 = 4 * a + b) as Y100 by (symmetry; apply Z.div_unique with (r := 4 * c + e); unfold Y; lia).
  assert (Y / 400 = a) as Y400 by (symmetry; apply Z.div_unique with (r := 100 * b + 4 * c + e); unfold Y; lia).
  assert (0 <= d4 < (if is_leap (Y + 1) then 366 else 365)) as Hd.
  { destruct (is_leap (Y + 1)) eqn:L; [lia|]. destruct (Z.eq_dec d4 365) as [Q|Q]; [|lia]. exfalso.
    destruct (He3 Q) as [Ee Ed]. unfold is_leap in L.
    assert ((Y + 1) mod 4 = 0) as M4 by (symmetry; apply Z.mod_unique with (q := 100 * a + 25 * b + c + 1); unfold Y; lia).
    rewrite M4 in L. cbn [Z.eqb andb] in L.
    apply orb_false_iff in L as [L1 L2]. apply negb_false_iff in L1.
    assert (c = 24).
    { apply Z.eqb_eq in L1. apply Z.mod_divide in L1; [|lia]. destruct L1 as [q Hq]. unfold Y in Hq. lia. }
    assert (b < 3 \/ b = 3) as [B3|B3] by lia; [specialize (Hb3 B3); lia|].
    assert ((Y + 1) mod 400 = 0) as M400 by (symmetry; apply Z.mod_unique with (q := a + 1); unfold Y; lia).
    rewrite M400 in L2. discriminate. }
  pose proof (month_part_spec (is_leap (Y + 1)) d4 Hd) as MP. rewrite leap_same in *.
  destruct (month_part (leap_year (Y + 1)) d4) as [m k]. cbn [fst snd].
  destruct MP as (M1 & M2 & M3).
  split; [|split].
  - unfold valid_date. lia.
  - unfold day_number. replace (Z.to_nat (Y + 1 - 1)) with (Z.to_nat Y) by lia.
    rewrite days_of_years_closed. rewrite Z2Nat.id by (unfold Y; lia). rewrite Y4, Y100, Y400.
    rewrite <- Z.add_assoc, M3. unfold Y, d4, d3, d2, d1. lia.
  - assert (Y <= d0 / 365); [|lia]. apply Z.div_le_lower_bound; [lia|].
    unfold Y, d4, d3, d2, d1 in *. lia.
Qed.

(** ** Digits *)

Lemma decw_length w : forall n, length (decw w n) = w.
Proof. induction w; intro n; simpl; [reflexivity|]. rewrite app_length, IHw. simpl. lia. Qed.

Lemma digit_val_n2b d : (d < 10)%N -> digit_val (n2b (48 + d)) = Some d.
Proof.
  intro H. unfold digit_val. rewrite b2n_n2b_small by lia.
  replace ((48 <=? 48 + d)%N && (48 + d <=? 57)%N) with true by lia. f_equal. lia.
Qed.

Lemma read_dec_from_app l1 : forall acc l2,
  read_dec_from acc (l1 ++ l2) =
  match read_dec_from acc l1 with Some a => read_dec_from a l2 | None => None end.
Proof.
  induction l1 as [|b l1 IH]; intros acc l2; [reflexivity|]. cbn [app read_dec_from].
  destruct (digit_val b); [apply IH | reflexivity].
Qed.

Lemma read_decw w : forall n acc, (n < 10 ^ N.of_nat w)%N ->
  read_dec_from acc (decw w n) = Some (acc * 10 ^ N.of_nat w + n)%N.
Proof.
  induction w as [|w IH]; intros n acc H.
  - cbn in *. f_equal. lia.
  - cbn [decw]. rewrite read_dec_from_app.
    rewrite Nat2N.inj_succ, N.pow_succ_r' in *.
    rewrite IH by (apply N.div_lt_upper_bound; lia). cbn [read_dec_from].
    pose proof (N.mod_lt n 10 ltac:(discriminate)). rewrite digit_val_n2b by assumption. f_equal.
    pose proof (N.div_mod n 10 ltac:(discriminate)). lia.
Qed.

Lemma num_zw w n : 0 <= n < 10 ^ Z.of_nat w -> (0 < w)%nat -> num (zw w n) = n.
Proof.
  intros H Hw. unfold num, zw, read_dec.
  assert (decw w (Z.to_N n) <> []) as NE.
  { intro E. apply (f_equal (@length _)) in E. rewrite decw_length in E. cbn in E. lia. }
  destruct (decw w (Z.to_N n)) eqn:D; [congruence|]. rewrite <- D.
  rewrite read_decw; [lia|].
  assert (Z.of_N (10 ^ N.of_nat w) = 10 ^ Z.of_nat w) by (rewrite N2Z.inj_pow, nat_N_Z; reflexivity). lia.
Qed.

Lemma zw2 n : 0 <= n < 100 -> exists a b, zw 2 n = [a; b] /\ num [a; b] = n.
Proof.
  intro H. pose proof (num_zw 2 n H ltac:(lia)) as E. unfold zw in *. cbn [decw app] in *. eauto.
Qed.
Lemma zw4 n : 0 <= n < 10000 -> exists a b c d, zw 4 n = [a; b; c; d] /\ num [a; b; c; d] = n.
Proof.
  intro H. pose proof (num_zw 4 n H ltac:(lia)) as E. unfold zw in *. cbn [decw app] in *. eauto 6.
Qed.

Lemma zone_read off : real_offset off ->
  read_zone (if off =? 0 then str "Z" else
    (if Z.quot off 60 <? 0 then str "-" else str "+") ++
    zw 2 (Z.abs (Z.quot off 60) / 60) ++ str ":" ++ zw 2 (Z.abs (Z.quot off 60) mod 60))
  = Some (60 * Z.quot off 60).
Proof.
  intros [H1 H2]. destruct (Z.eqb_spec off 0) as [->|NZ]; [reflexivity|].
  pose proof (Z.quot_rem' off 60) as Q. set (q := Z.quot off 60) in *.
  assert (-60 < Z.rem off 60 < 60) as R.
  { destruct (Z_le_dec 0 off); [pose proof (Z.rem_bound_pos off 60) | pose proof (Z.rem_bound_neg_pos off 60)]; lia. }
  assert (-1440 < q < 1440) by lia.
  destruct (div_mod_fact (Z.abs q) 60 eq_refl) as [E B].
  assert (0 <= Z.abs q / 60 < 24) as Hh by (split; [apply Z.div_pos; lia | apply Z.div_lt_upper_bound; lia]).
  destruct (zw2 (Z.abs q / 60)) as (a & b & -> & N1); [lia|].
  destruct (zw2 (Z.abs q mod 60)) as (c & d & -> & N2); [lia|].
  change (str ":") with [x3a].
  destruct (q <? 0) eqn:S; [change (str "-") with [x2d] | change (str "+") with [x2b]]; cbn [app read_zone];
    rewrite N1, N2.
  all: replace ((0 <=? Z.abs q / 60) && (Z.abs q / 60 <? 24) && (0 <=? Z.abs q mod 60) && (Z.abs q mod 60 <? 60)) with true by lia.
  all: f_equal; lia.
Qed.

Lemma epoch_day : day_number 1970 1 1 = 719162.
Proof. vm_compute. reflexivity. Qed.

Lemma month_days_le l m : month_days l m <= 31.
Proof.
  destruct (Z_lt_dec m 13) as [H|H]; [destruct (Z_lt_dec m 1) as [L|L]|].
  - destruct m; [| lia |]; discriminate.
  - assert (m = 1 \/ m = 2 \/ m = 3 \/ m = 4 \/ m = 5 \/ m = 6 \/ m = 7 \/ m = 8 \/ m = 9 \/ m = 10 \/ m = 11 \/ m = 12) as C by lia.
    repeat (destruct C as [->|C]); [..|subst m]; destruct l; discriminate.
  - assert (month_days l m = 0) as ->; [|discriminate].
    destruct m as [|p|p]; [lia| |lia].
    destruct p as [[[[p|p|]|[p|p|]|]|[[p|p|]|[p|p|]|]|]|[[[p|p|]|[p|p|]|]|[[p|p|]|[p|p|]|]|]|]; try reflexivity; lia.
Qed.

(** The year range in which RFC 3339 has four digits. *)
Lemma rfc3339_reads ut off : 0 <= ut < 2 ^ 32 -> real_offset off ->
  read_rfc3339 (rfc3339 ut off) = Some (ut + Z.rem off 60).
Proof.
  intros Hu Ho. unfold rfc3339. destruct Ho as [O1 O2].
  set (t := ut + off). set (D := t / 86400 + epoch_days).
  assert (719161 <= D <= 719162 + 49712) as HD.
  { unfold D, epoch_days, t.
    assert (-1 <= (ut + off) / 86400) by (apply Z.div_le_lower_bound; lia).
    assert ((ut + off) / 86400 < 49712) by (apply Z.div_lt_upper_bound; lia). lia. }
  pose proof (abs_date_spec D ltac:(lia)) as AD. destruct (abs_date D) as [[y m] d] eqn:ED.
  destruct AD as (V & DN & Y).
  assert (y < 10000) as Hy.
  { assert (D / 365 < 2200) by (apply Z.div_lt_upper_bound; lia). lia. }
  pose proof V as V'. unfold valid_date in V. repeat (apply andb_true_iff in V as [V ?]).
  assert (month_days (leap_year y) m <= 31) as Hmd.
  { apply month_days_le. }
  destruct (div_mod_fact t 86400 eq_refl) as [ET BT]. set (sod := t mod 86400) in *.
  destruct (zw4 y) as (y1 & y2 & y3 & y4 & -> & Ny); [lia|].
  destruct (zw2 m) as (m1 & m2 & -> & Nm); [lia|].
  destruct (zw2 d) as (d1 & d2 & -> & Nd); [lia|].
  destruct (div_mod_fact sod 3600 eq_refl) as [EH BH].
  destruct (div_mod_fact sod 60 eq_refl) as [EM BM].
  destruct (div_mod_fact (sod / 60) 60 eq_refl) as [EN BN].
  assert (0 <= sod / 3600 < 24) as HH by lia.
  assert (sod / 3600 = sod / 60 / 60) as HD2 by (rewrite Z.div_div by lia; reflexivity).
  destruct (zw2 (sod / 3600)) as (h1 & h2 & -> & Nh); [lia|].
  destruct (zw2 (sod / 60 mod 60)) as (i1 & i2 & -> & Ni); [lia|].
  destruct (zw2 (sod mod 60)) as (s1 & s2 & -> & Ns); [lia|].
  pose proof (zone_read off (conj O1 O2)) as ZR.
  set (zone := if off =? 0 then _ else _) in *.
  change (str "-") with [x2d]. change (str "T") with [x54]. change (str ":") with [x3a].
  cbn [app read_rfc3339]. rewrite Ny, Nm, Nd, Nh, Ni, Ns, V', ZR.
  replace (true && (0 <=? sod / 3600) && (sod / 3600 <? 24) && (0 <=? sod / 60 mod 60) && (sod / 60 mod 60 <? 60) && (0 <=? sod mod 60) && (sod mod 60 <? 60)) with true by lia.
  f_equal. unfold unix_seconds. rewrite DN. rewrite epoch_day. 
  unfold D, epoch_days. pose proof (Z.quot_rem' off 60). unfold t in *. lia.
Qed.

(** The zone is what follows the 19 octets of date and time. *)
Lemma rfc3339_zone ut off : 0 <= ut < 2 ^ 32 -> real_offset off ->
  skipn 19 (rfc3339 ut off) =
  (if off =? 0 then str "Z" else
   (if Z.quot off 60 <? 0 then str "-" else str "+") ++
   zw 2 (Z.abs (Z.quot off 60) / 60) ++ str ":" ++ zw 2 (Z.abs (Z.quot off 60) mod 60)).
Proof.
  intros Hu Ho. unfold rfc3339.
  destruct (abs_date ((ut + off) / 86400 + epoch_days)) as [[y m] d].
  set (zone := if off =? 0 then _ else _).
  assert (forall w n, length (zw w n) = w) as L by (intros; unfold zw; apply decw_length).
  repeat rewrite app_assoc. rewrite skipn_app.
  match goal with |- skipn 19 ?p ++ _ = _ => assert (length p = 19%nat) as LP by (repeat rewrite app_length; repeat rewrite L; reflexivity) end.
  rewrite skipn_all2 by lia. rewrite LP. reflexivity.
Qed.

Lemma be_enc4 t : (t < 2 ^ 32)%N -> be (be_enc 4 t) = t.
Proof. intro H. rewrite be_be_enc. apply N.mod_small. exact H. Qed.

Lemma text_utc tz t : (t < 2 ^ 32)%N ->
  read_rfc3339 (unixtime2rfc3339 tz t true) = Some (Z.of_N t) /\
  skipn 19 (unixtime2rfc3339 tz t true) = str "Z".
Proof.
  intro H. unfold unixtime2rfc3339. assert (0 <= Z.of_N t < 2 ^ 32) as B by lia.
  assert (real_offset 0) as R by (split; reflexivity).
  rewrite rfc3339_reads by assumption. rewrite rfc3339_zone by assumption. split; [f_equal; cbn; lia | reflexivity].
Qed.

Lemma text_local tz t : (t < 2 ^ 32)%N -> real_offset (tz t) ->
  read_rfc3339 (unixtime2rfc3339 tz t false) = Some (Z.of_N t + Z.rem (tz t) 60) /\
  read_zone (skipn 19 (unixtime2rfc3339 tz t false)) = Some (tz t - Z.rem (tz t) 60).
Proof.
  intros H R. unfold unixtime2rfc3339. assert (0 <= Z.of_N t < 2 ^ 32) as B by lia.
  rewrite rfc3339_reads by assumption. rewrite rfc3339_zone by assumption. split; [reflexivity|].
  rewrite zone_read by assumption. f_equal. pose proof (Z.quot_rem' (tz t) 60). lia.
Qed.
