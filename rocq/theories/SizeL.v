(** * SizeL: how long the fields of items are. *)
From Coq Require Import Strings.String Strings.Byte List NArith ZArith Bool Arith Lia ZifyBool ZifyN ZifyNat.
From Coq Require Decimal DecimalPos.
From Coq Require Import DecimalString.
From Verif Require Import Base Utf8 Item Reader Context Env Time Float Values.
From Verif Require Import BaseL TimeL Utf8L.
Import ListNotations.
Local Open Scope Z_scope.

Lemma lenZ_app {A} (a b : list A) : lenZ (a ++ b) = lenZ a + lenZ b.
Proof. unfold lenZ. rewrite app_length. lia. Qed.
(** Numbers in decimal. *)
Lemma str_uint_len u : length (str (NilEmpty.string_of_uint u)) = Decimal.nb_digits u.
Proof. induction u; cbn; try rewrite <- IHu; reflexivity. Qed.
Lemma to_lu_step p r : (r < 10)%N -> (0 < p)%N -> Decimal.nb_digits (DecimalPos.Unsigned.to_lu (10 * p + r)) = S (Decimal.nb_digits (DecimalPos.Unsigned.to_lu p)).
Proof.
  intros R P. destruct p as [|p]; [lia|]. pose proof (DecimalPos.Unsigned.to_ldec_tenfold p) as T. change (Npos (10 * p)) with (10 * Npos p)%N in T.
  assert (r = 0 \/ r = 1 \/ r = 2 \/ r = 3 \/ r = 4 \/ r = 5 \/ r = 6 \/ r = 7 \/ r = 8 \/ r = 9)%N as C by lia.
  repeat (destruct C as [->|C]); try subst r;
  rewrite ?N.add_0_r;
  repeat match goal with |- context [(10 * N.pos p + ?k)%N] => let j := eval vm_compute in (N.pred k) in
    replace (10 * N.pos p + k)%N with (N.succ (10 * N.pos p + j)) by lia; rewrite DecimalPos.Unsigned.to_lu_succ; rewrite ?N.add_0_r end;
  rewrite T; reflexivity.
Qed.
Lemma nb_rev u : Decimal.nb_digits (Decimal.rev u) = Decimal.nb_digits u.
Proof.
  unfold Decimal.rev. assert (forall v, Decimal.nb_digits (Decimal.revapp u v) = (Decimal.nb_digits u + Decimal.nb_digits v)%nat) as H.
  { induction u; intro v; cbn [Decimal.revapp]; [reflexivity|..]; rewrite IHu; cbn [Decimal.nb_digits]; lia. }
  rewrite H. cbn. lia.
Qed.
Lemma dec_lu n : (0 < n)%N -> length (dec n) = Decimal.nb_digits (DecimalPos.Unsigned.to_lu n).
Proof.
  intro H. destruct n as [|p]; [lia|]. unfold dec. cbn [N.to_uint]. pose proof (DecimalPos.Unsigned.to_uint_nonnil p) as NN.
  cbn [DecimalPos.Unsigned.to_lu]. rewrite <- nb_rev. change (Decimal.rev (Pos.to_little_uint p)) with (Pos.to_uint p).
  rewrite <- str_uint_len. destruct (Pos.to_uint p); [congruence|reflexivity..].
Qed.
Lemma dec_len k : forall n, (n < 10 ^ N.of_nat (S k))%N -> (length (dec n) <= S k)%nat.
Proof.
  induction k as [|k IH]; intros n H.
  - change (10 ^ N.of_nat 1)%N with 10%N in H.
    assert (n = 0 \/ n = 1 \/ n = 2 \/ n = 3 \/ n = 4 \/ n = 5 \/ n = 6 \/ n = 7 \/ n = 8 \/ n = 9)%N as C by lia.
    repeat (destruct C as [->|C]); try subst n; cbn; lia.
  - destruct (N.lt_ge_cases n 10) as [L|L].
    + specialize (IH n). rewrite Nat2N.inj_succ, N.pow_succ_r' in IH. assert (0 < 10 ^ N.of_nat k)%N by (apply N.neq_0_lt_0, N.pow_nonzero; discriminate).
      specialize (IH ltac:(nia)). lia.
    + pose proof (N.div_mod n 10 ltac:(discriminate)) as D. pose proof (N.mod_lt n 10 ltac:(discriminate)) as M.
      assert (1 <= n / 10)%N as Q by (apply N.div_le_lower_bound; lia).
      rewrite dec_lu by lia. rewrite D at 1. rewrite to_lu_step by lia. rewrite <- dec_lu by lia.
      specialize (IH (n / 10)%N). rewrite Nat2N.inj_succ, N.pow_succ_r' in H. assert (n / 10 < 10 ^ N.of_nat (S k))%N as K by (apply N.div_lt_upper_bound; lia).
      specialize (IH K). lia.
Qed.
Lemma dec_le (k : nat) n m : (n < m)%N -> (m <= 10 ^ N.of_nat (S k))%N -> lenZ (dec n) <= Z.of_nat (S k).
Proof. intros A B. pose proof (dec_len k n ltac:(lia)). unfold lenZ. lia. Qed.
Lemma dec_byte b : lenZ (dec (b2n b)) <= 3.
Proof. apply (dec_le 2 _ 256); [pose proof (b2n_lt b); lia|vm_compute; discriminate]. Qed.
Lemma n_bytes_len z : - 2 ^ 64 <= z <= 2 ^ 64 -> lenZ (n_bytes z) <= 32.
Proof.
  intro H. unfold n_bytes. rewrite lenZ_app. assert (lenZ (decZ z) <= 21).
  { unfold decZ. destruct z as [|p|p]; [vm_compute; discriminate| |].
    - pose proof (dec_le 19 (Z.to_N (Zpos p)) (2 ^ 64 + 1) ltac:(lia) ltac:(vm_compute; discriminate)). lia.
    - rewrite lenZ_app. pose proof (dec_le 19 (Npos p) (2 ^ 64 + 1) ltac:(lia) ltac:(vm_compute; discriminate)). change (lenZ (str "-")) with 1. lia. }
  change (lenZ (str " bytes")) with 6. lia.
Qed.

(** Dumps and texts. *)
Lemma hexdump_len l : lenZ (hexdump l) <= 3 * lenZ l.
Proof.
  assert (forall l, lenZ (hexdump_from (str " ") l) = 3 * lenZ l) as H.
  { clear. induction l as [|b l IH]; [reflexivity|]. cbn [hexdump_from]. rewrite !lenZ_app, IH. unfold lenZ at 1 2 4. unfold hex2. rewrite hexw_length. cbn [length str list_byte_of_string]. 
    change (length (str " ")) with 1%nat. unfold lenZ. cbn [length]. lia. }
  unfold hexdump. destruct l as [|b l]; [reflexivity|]. cbn [hexdump_from]. rewrite !lenZ_app, H. unfold hex2, lenZ. rewrite hexw_length. cbn [length]. lia.
Qed.
Lemma dump_bytes_len l f : lenZ (dump_bytes l f) <= 3 * lenZ l.
Proof. destruct f; [apply hexdump_len|]. unfold lenZ. cbn [dump_bytes length]. lia. Qed.
Lemma dump_byte_len b f : lenZ (dump_byte b f) <= 2.
Proof. destruct f; unfold lenZ; cbn [dump_byte]; [unfold hex2; rewrite hexw_length|cbn [length]]; lia. Qed.
Lemma enc_rune_len r : lenZ (enc_rune r) <= 4.
Proof. unfold enc_rune. repeat destruct (_ <? _)%N; unfold lenZ; cbn [length]; lia. Qed.
Lemma sanitize_rune_len x : lenZ (sanitize_rune x) <= 8.
Proof.
  destruct x as [r|]; cbn [sanitize_rune]; [|vm_compute; discriminate]. destruct (is_control r).
  - unfold fmtU. rewrite !lenZ_app. unfold lenZ at 3. rewrite hexw_length. vm_compute. discriminate.
  - pose proof (enc_rune_len r). lia.
Qed.
Lemma scan_len s : (length (scan s) <= length s)%nat.
Proof.
  assert (forall n s, (length s <= n)%nat -> (length (scan s) <= length s)%nat) as H; [|apply (H (length s)); lia]. clear s.
  induction n as [|n IH]; intros [|b0 t0] L; cbn [length] in *; try (cbn [scan length]; lia). cbn [scan].
  pose proof (IH t0 ltac:(lia)). destruct (b2n b0 <? 128)%N; [cbn [length]; lia|]. destruct t0 as [|b1 t1]; [cbn [length scan]; lia|]. cbn [length] in *.
  destruct (decode2 _ _); [pose proof (IH t1 ltac:(lia)); cbn [length]; lia|]. destruct t1 as [|b2 t2]; [cbn [length] in *; lia|]. cbn [length] in *.
  destruct (decode3 _ _ _); [pose proof (IH t2 ltac:(lia)); cbn [length]; lia|]. destruct t2 as [|b3 t3]; [cbn [length] in *; lia|]. cbn [length] in *.
  destruct (decode4 _ _ _ _); [pose proof (IH t3 ltac:(lia)); cbn [length]; lia|cbn [length]; lia].
Qed.
Lemma flat_len {A} (f : A -> bytes) k l : 0 <= k -> (forall x, lenZ (f x) <= k) -> lenZ (flat_map f l) <= k * lenZ l.
Proof.
  intros K H. induction l as [|x l IH]; [unfold lenZ; cbn [flat_map length]; lia|]. cbn [flat_map]. rewrite lenZ_app. specialize (H x).
  unfold lenZ in *. cbn [length]. lia.
Qed.
Lemma sanitize_len s : lenZ (sanitize s) <= 8 * lenZ s.
Proof.
  unfold sanitize. pose proof (flat_len sanitize_rune 8 (scan s) ltac:(lia) sanitize_rune_len). pose proof (scan_len s). unfold lenZ in *. lia.
Qed.

(** Times. *)
Lemma rfc3339_len ut off : lenZ (rfc3339 ut off) <= 25.
Proof.
  unfold rfc3339. destruct (abs_date _) as [[y m] d]. cbv zeta. assert (forall w n, lenZ (zw w n) = Z.of_nat w) as L by (intros; unfold lenZ, zw; rewrite decw_length; reflexivity).
  rewrite !lenZ_app, !L. change (lenZ (str "-")) with 1. change (lenZ (str "T")) with 1. change (lenZ (str ":")) with 1.
  destruct (off =? 0); [vm_compute; discriminate|]. rewrite !lenZ_app, !L. destruct (_ <? 0); vm_compute; discriminate.
Qed.
Lemma scale_le fuel : forall k p, (scale_from fuel k p <= k + N.of_nat fuel)%N.
Proof. induction fuel as [|fuel IH]; intros k p; cbn [scale_from]; [lia|]. destruct (_ <=? _)%N; [lia|]. specialize (IH (k + 1)%N p). lia. Qed.
Lemma half_even_le n d : (half_even n d <= n / d + 1)%N.
Proof. unfold half_even. destruct (_ <? _)%N; [lia|]. destruct (_ <? _)%N; [lia|]. destruct (N.even _); lia. Qed.
Lemma point_range m k : forall fuel dp, (dp <= point_from fuel dp m k <= dp + Z.of_nat fuel).
Proof. induction fuel as [|fuel IH]; intro dp; cbn [point_from]; [lia|]. destruct (_ <? _)%N; [lia|]. specialize (IH (dp + 1)). lia. Qed.
Lemma shortest_range m k dp fuel : forall n, let '(d, s) := shortest_from fuel n dp m k in
  n - dp <= s <= n + Z.of_nat fuel - dp /\ (d <= m * up10 (n + Z.of_nat fuel - dp) + 1)%N.
Proof.
  assert (forall s b, s <= b -> (half_even (m * up10 s) (2 ^ k * up10 (- s)) <= m * up10 b + 1)%N) as H.
  { intros s b L. etransitivity; [apply half_even_le|]. apply N.add_le_mono_r. etransitivity; [apply N.div_le_upper_bound with (q := (m * up10 s)%N)|].
    - apply N.neq_mul_0. split; apply N.pow_nonzero; discriminate.
    - assert (0 < 2 ^ k * up10 (- s))%N as X by (apply N.neq_0_lt_0, N.neq_mul_0; split; apply N.pow_nonzero; discriminate).
      set (x := (2 ^ k * up10 (- s))%N) in *. set (y := (m * up10 s)%N). clearbody x y. nia.
    - apply N.mul_le_mono_l. unfold up10. apply N.pow_le_mono_r; lia. }
  induction fuel as [|fuel IH]; intro n; cbn [shortest_from]; cbv zeta.
  - split; [lia|]. apply H. lia.
  - destruct (reads_back _ _ _ _); [split; [lia|apply H; lia]|]. specialize (IH (n + 1)). destruct (shortest_from fuel (n + 1) dp m k) as [d s].
    replace (n + Z.of_nat (S fuel) - dp) with (n + 1 + Z.of_nat fuel - dp) by lia. destruct IH as [I1 I2]. split; [lia|exact I2].
Qed.
Lemma decimal_len d s : -4 <= s -> lenZ (decimal_text d s) <= lenZ (dec d) + 9.
Proof.
  intro S. unfold decimal_text. cbv zeta. assert (0 <= lenZ (dec d)) as P by (unfold lenZ; lia).
  assert (forall a b, lenZ (firstn a (dec d) ++ b) <= lenZ (dec d) + lenZ b) as FI by (intros; rewrite lenZ_app; unfold lenZ; rewrite firstn_length; lia).
  destruct (lenZ (dec d) - s - 1 <? -4) eqn:C1.
  - rewrite !lenZ_app. unfold lenZ at 5. rewrite decw_length. change (lenZ (str "e-")) with 2.
    assert (lenZ (firstn 1 (dec d)) + lenZ (if 1 <? lenZ (dec d) then str "." ++ skipn 1 (dec d) else []) <= lenZ (dec d) + 1).
    { destruct (1 <? lenZ (dec d)); rewrite ?lenZ_app; unfold lenZ; rewrite firstn_length, ?skipn_length; change (length (str ".")) with 1%nat; cbn [length]; lia. }
    lia.
  - destruct (lenZ (dec d) - s <=? 0) eqn:C2.
    + rewrite !lenZ_app. change (lenZ (str "0.")) with 2. unfold zeros. unfold lenZ at 1. rewrite repeat_length. lia.
    + destruct (lenZ (dec d) <=? lenZ (dec d) - s) eqn:C3.
      * rewrite (lenZ_app (dec d)). unfold zeros. unfold lenZ at 2. rewrite repeat_length. lia.
      * rewrite !lenZ_app. change (lenZ (str ".")) with 1. unfold lenZ. rewrite firstn_length, skipn_length. lia.
Qed.
Lemma days_len p : (p < 2 ^ 32)%N -> lenZ (days_text p) <= 70.
Proof.
  intro P. unfold days_text. destruct (p =? 0)%N; [vm_compute; discriminate|]. unfold float_days.
  pose proof (scale_le 70 0 p) as K. set (k := scale_from 70 0 p) in *. clearbody k. pose proof (half_even_le (p * 2 ^ k) 86400) as M.
  set (m := half_even (p * 2 ^ k) 86400) in *. clearbody m. pose proof (point_range m k 9 (-4)) as D. set (dp := point_from 9 (-4) m k) in *. clearbody dp.
  pose proof (shortest_range m k dp 16 1) as R. destruct (shortest_from 16 1 dp m k) as [d s]. destruct R as [R1 R2].
  pose proof (decimal_len d s ltac:(lia)) as L.
  assert (m <= 2 ^ 102 + 1)%N as MB.
  { assert (2 ^ k <= 2 ^ 70)%N by (apply N.pow_le_mono_r; lia). assert (p * 2 ^ k / 86400 <= p * 2 ^ k)%N by (apply N.div_le_upper_bound; lia).
    assert (p * 2 ^ k <= 2 ^ 32 * 2 ^ 70)%N by nia. change (2 ^ 32 * 2 ^ 70)%N with (2 ^ 102)%N in *. lia. }
  assert (up10 (1 + Z.of_nat 16 - dp) <= 10 ^ 21)%N as UB by (unfold up10; apply N.pow_le_mono_r; lia).
  assert (d <= (2 ^ 102 + 1) * 10 ^ 21 + 1)%N as DB by nia.
  pose proof (dec_le 59 d (10 ^ 60) ltac:(eapply N.le_lt_trans; [exact DB|reflexivity]) ltac:(vm_compute; discriminate)). lia.
Qed.
