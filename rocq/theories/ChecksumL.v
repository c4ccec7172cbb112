(** * ChecksumL: the checksum of armored texts (C52, C53). *)
From Coq Require Import Strings.Byte List NArith ZArith Bool Arith Lia ZifyBool ZifyN ZifyNat.
From Verif Require Import Base BaseL SpecBase Radix64 SpecRadix64.
Import ListNotations.
Local Open Scope N_scope.

Definition small (x : N) : Prop := x < 2 ^ 24.
Lemma small_bits x : small x <-> forall i, 24 <= i -> N.testbit x i = false.
Proof.
  unfold small. split.
  - intros H i Hi. destruct (N.eq_dec x 0) as [->|NZ]; [apply N.bits_0|]. apply N.bits_above_log2.
    apply N.log2_lt_pow2 in H; lia.
  - intro H. destruct (N.eq_dec x 0) as [->|NZ]; [reflexivity|]. apply N.log2_lt_pow2; [lia|].
    destruct (N.lt_ge_cases (N.log2 x) 24) as [L|L]; [exact L|]. pose proof (N.bit_log2 x NZ) as B. rewrite (H _ L) in B. discriminate.
Qed.
Lemma small_lxor x y : small x -> small y -> small (N.lxor x y).
Proof. rewrite !small_bits. intros X Y i Hi. rewrite N.lxor_spec, X, Y by exact Hi. reflexivity. Qed.
Lemma shift_bit x i : N.testbit (N.shiftl x 1) i = if i =? 0 then false else N.testbit x (i - 1).
Proof.
  destruct (i =? 0) eqn:E.
  - apply N.eqb_eq in E. subst. apply N.shiftl_spec_low. lia.
  - apply N.eqb_neq in E. apply N.shiftl_spec_high'. lia.
Qed.
Lemma poly_high i : 24 < i -> N.testbit 0x1864cfb i = false.
Proof. intro H. apply N.bits_above_log2. change (N.log2 0x1864cfb) with 24. exact H. Qed.
Lemma crc_shift_bit x i : N.testbit (crc_shift x) i =
  xorb (if i =? 0 then false else N.testbit x (i - 1)) (N.testbit x 23 && N.testbit 0x1864cfb i).
Proof.
  unfold crc_shift. rewrite shift_bit. change (24 =? 0) with false. change (24 - 1) with 23. cbv match.
  destruct (N.testbit x 23); rewrite ?N.lxor_spec, shift_bit; cbn [andb]; [reflexivity|]. rewrite xorb_false_r. reflexivity.
Qed.
Lemma crc_shift_small x : small x -> small (crc_shift x).
Proof.
  rewrite !small_bits. intros H i Hi. rewrite crc_shift_bit. replace (i =? 0) with false by lia.
  destruct (N.eq_dec i 24) as [->|NE].
  - change (24 - 1) with 23. change (N.testbit 0x1864cfb 24) with true. rewrite andb_true_r. apply xorb_nilpotent.
  - rewrite poly_high by lia. rewrite andb_false_r, (H (i - 1)) by lia. reflexivity.
Qed.
Lemma crc_shift_lxor x y : crc_shift (N.lxor x y) = N.lxor (crc_shift x) (crc_shift y).
Proof.
  apply N.bits_inj. intro i. rewrite N.lxor_spec, !crc_shift_bit, !N.lxor_spec.
  destruct (i =? 0), (N.testbit x (i - 1)), (N.testbit y (i - 1)), (N.testbit x 23), (N.testbit y 23), (N.testbit 0x1864cfb i); reflexivity.
Qed.
Lemma crc_shift_double x : x < 2 ^ 23 -> crc_shift x = 2 * x.
Proof.
  intro H. unfold crc_shift. rewrite shift_bit. change (24 =? 0) with false. change (24 - 1) with 23. cbv match.
  replace (N.testbit x 23) with false; [rewrite N.shiftl_mul_pow2; lia|].
  symmetry. destruct (N.eq_dec x 0) as [->|NZ]; [apply N.bits_0|]. apply N.bits_above_log2. apply N.log2_lt_pow2 in H; lia.
Qed.
Lemma crc_shift_inj x y : small x -> small y -> crc_shift x = crc_shift y -> x = y.
Proof.
  rewrite !small_bits. intros X Y E.
  assert (forall i, N.testbit (crc_shift x) i = N.testbit (crc_shift y) i) as B by (intro i; rewrite E; reflexivity).
  assert (N.testbit x 23 = N.testbit y 23) as T.
  { specialize (B 0). rewrite !crc_shift_bit in B. cbn in B. destruct (N.testbit x 23), (N.testbit y 23); cbn in B; congruence. }
  apply N.bits_inj. intro i. specialize (B (i + 1)). rewrite !crc_shift_bit in B. replace (i + 1 =? 0) with false in B by lia.
  replace (i + 1 - 1) with i in B by lia. rewrite T in B.
  destruct (N.testbit x i), (N.testbit y i), (N.testbit y 23 && N.testbit 0x1864cfb (i + 1)); cbn in B; congruence.
Qed.

(** One bit of the specification is one shift of the code. *)
Definition top (b : bool) : N := if b then 2 ^ 23 else 0.
Lemma top_bit b i : N.testbit (top b) i = (i =? 23) && b.
Proof.
  destruct b; unfold top; [rewrite andb_true_r, N.pow2_bits_eqb, N.eqb_sym; reflexivity | rewrite andb_false_r; apply N.bits_0].
Qed.
Lemma crc_bit_shift r b : small r -> crc_bit r b = crc_shift (N.lxor r (top b)).
Proof.
  intro S. rewrite small_bits in S. apply N.bits_inj. intro i. rewrite crc_shift_bit, !N.lxor_spec, !top_bit.
  change (23 =? 23) with true. cbn [andb]. unfold crc_bit.
  assert (forall j, N.testbit ((2 * r) mod 2 ^ 24) j = if (j =? 0) || (24 <=? j) then false else N.testbit r (j - 1)) as D.
  { intro j. destruct (24 <=? j) eqn:J.
    - rewrite orb_true_r. apply N.mod_pow2_bits_high. lia.
    - rewrite orb_false_r. rewrite N.mod_pow2_bits_low by lia. destruct (j =? 0) eqn:Z.
      + apply N.eqb_eq in Z. subst. apply N.testbit_even_0.
      + replace j with (N.succ (j - 1)) at 1 by lia. apply N.testbit_even_succ. lia. }
  assert (N.testbit 0x1864cfb i = xorb (i =? 24) (N.testbit 0x864CFB i)) as P.
  { change 0x1864cfb with (N.lxor (2 ^ 24) 0x864CFB). rewrite N.lxor_spec, N.pow2_bits_eqb, N.eqb_sym. reflexivity. }
  rewrite P.
  destruct (xorb (N.testbit r 23) b) eqn:X; [rewrite N.lxor_spec|]; rewrite D; cbn [andb].
  - destruct (i =? 0) eqn:I0; cbn [orb].
    + replace (i =? 24) with false by lia. destruct (N.testbit 0x864CFB i); reflexivity.
    + destruct (24 <=? i) eqn:I24.
      * destruct (i =? 24) eqn:E.
        -- apply N.eqb_eq in E. subst i. change (24 - 1) with 23. change (23 =? 23) with true. cbn [andb]. rewrite X.
           destruct (N.testbit 0x864CFB 24); reflexivity.
        -- rewrite (S (i - 1)) by lia. replace (i - 1 =? 23) with false by lia. cbn [andb]. destruct (N.testbit 0x864CFB i); reflexivity.
      * replace (i =? 24) with false by lia. replace (i - 1 =? 23) with false by lia. cbn [andb xorb].
        rewrite xorb_false_r. destruct (N.testbit r (i - 1)), (N.testbit 0x864CFB i); reflexivity.
  - rewrite xorb_false_r. destruct (i =? 0) eqn:I0; cbn [orb]; [reflexivity|].
    destruct (24 <=? i) eqn:I24.
    + destruct (N.eq_dec i 24) as [->|NE]; [change (24 - 1) with 23; change (23 =? 23) with true; cbn [andb]; rewrite X; reflexivity|].
      rewrite (S (i - 1)) by lia. replace (i - 1 =? 23) with false by lia. reflexivity.
    + replace (i - 1 =? 23) with false by lia. cbn [andb]. rewrite xorb_false_r. reflexivity.
Qed.

(** The number that bits denote, most significant first. *)
Fixpoint bits_value (w : list bool) : N :=
  match w with [] => 0 | b :: t => (if b then 2 ^ lenN t else 0) + bits_value t end.
Lemma bits_value_lt w : bits_value w < 2 ^ lenN w.
Proof.
  induction w as [|b t IH]; [reflexivity|]. cbn [bits_value]. rewrite lenN_cons, N.add_1_l, N.pow_succ_r'. destruct b; lia.
Qed.
Lemma lxor_top b x : x < 2 ^ 23 -> N.lxor (top b) x = top b + x.
Proof.
  intro H. destruct b; unfold top; [|rewrite N.lxor_0_l; reflexivity]. symmetry. apply N.add_nocarry_lxor. apply N.bits_inj. intro i.
  rewrite N.land_spec, N.pow2_bits_eqb, N.bits_0. destruct (23 =? i) eqn:E; [|reflexivity]. apply N.eqb_eq in E. subst i. cbn [andb].
  destruct (N.eq_dec x 0) as [->|NZ]; [apply N.bits_0|]. apply N.bits_above_log2. apply N.log2_lt_pow2 in H; lia.
Qed.
Lemma iter_shift_lxor k : forall x y, Nat.iter k crc_shift (N.lxor x y) = N.lxor (Nat.iter k crc_shift x) (Nat.iter k crc_shift y).
Proof. induction k as [|k IH]; intros x y; [reflexivity|]. cbn [Nat.iter nat_rect]. change (crc_shift (Nat.iter k crc_shift (N.lxor x y)) = N.lxor (crc_shift (Nat.iter k crc_shift x)) (crc_shift (Nat.iter k crc_shift y))). rewrite IH. apply crc_shift_lxor. Qed.
Lemma iter_succ k x : Nat.iter (S k) crc_shift x = Nat.iter k crc_shift (crc_shift x).
Proof. induction k as [|k IH]; [reflexivity|]. change (crc_shift (Nat.iter (S k) crc_shift x) = crc_shift (Nat.iter k crc_shift (crc_shift x))). rewrite IH. reflexivity. Qed.
Lemma iter_small k : forall x, small x -> small (Nat.iter k crc_shift x).
Proof. induction k as [|k IH]; intros x H; [exact H|]. apply (crc_shift_small (Nat.iter k crc_shift x)), IH, H. Qed.
Lemma iter_inj k : forall x y, small x -> small y -> Nat.iter k crc_shift x = Nat.iter k crc_shift y -> x = y.
Proof.
  induction k as [|k IH]; intros x y X Y E; [exact E|]. rewrite !iter_succ in E.
  apply crc_shift_inj; [assumption ..|]. apply IH; auto using crc_shift_small.
Qed.

(** The register after up to 24 bits. *)
Lemma fold_bits w : forall r, small r -> (length w <= 24)%nat ->
  fold_left crc_bit w r = Nat.iter (length w) crc_shift (N.lxor r (bits_value w * 2 ^ (24 - lenN w))).
Proof.
  induction w as [|b t IH]; intros r S L.
  - cbn. rewrite N.lxor_0_r. reflexivity.
  - cbn [length] in L. cbn [fold_left]. change (length (b :: t)) with (Datatypes.S (length t)). rewrite iter_succ. rewrite crc_bit_shift by exact S.
    assert (bits_value t * 2 ^ (24 - lenN (b :: t)) < 2 ^ 23) as V.
    { pose proof (bits_value_lt t) as H. rewrite lenN_cons. unfold lenN in *.
      replace 23 with (N.of_nat (length t) + (24 - (1 + N.of_nat (length t)))) at 1 by lia.
      rewrite N.pow_add_r. apply N.mul_lt_mono_pos_r; [|exact H]. apply N.neq_0_lt_0, N.pow_nonzero. discriminate. }
    rewrite IH; [| apply crc_shift_small, small_lxor; [exact S | unfold small, top; destruct b; reflexivity] | lia].
    f_equal. replace (bits_value t * 2 ^ (24 - lenN t)) with (crc_shift (bits_value t * 2 ^ (24 - lenN (b :: t)))).
    2: { rewrite crc_shift_double by exact V. rewrite lenN_cons. unfold lenN.
         replace (24 - N.of_nat (length t)) with (N.succ (24 - (1 + N.of_nat (length t)))) by lia. rewrite N.pow_succ_r'. lia. }
    rewrite <- crc_shift_lxor. f_equal. rewrite N.lxor_assoc. f_equal. rewrite lxor_top by exact V.
    cbn [bits_value]. rewrite N.mul_add_distr_r. f_equal. unfold top. destruct b; [|reflexivity].
    rewrite <- N.pow_add_r. f_equal. rewrite lenN_cons. unfold lenN. lia.
Qed.
Lemma fold_small w : forall r, small r -> small (fold_left crc_bit w r).
Proof.
  induction w as [|b t IH]; intros r S; [exact S|]. cbn [fold_left]. apply IH. rewrite crc_bit_shift by exact S.
  apply crc_shift_small, small_lxor; [exact S | unfold small, top; destruct b; reflexivity].
Qed.
Lemma octet_value b : bits_value (octet_bits b) = b2n b.
Proof.
  apply N.eqb_eq. apply (byte_all (fun b => bits_value (octet_bits b) =? b2n b)). vm_compute. reflexivity.
Qed.
Lemma crc_octet_bits r b : small r -> crc_octet r b = fold_left crc_bit (octet_bits b) r.
Proof.
  intro S. rewrite fold_bits; [|exact S | cbn; lia]. rewrite octet_value. unfold crc_octet. rewrite N.shiftl_mul_pow2. reflexivity.
Qed.
Lemma crc24_bits d : forall r, small r -> crc24 r d = fold_left crc_bit (flat_map octet_bits d) r.
Proof.
  induction d as [|b d IH]; intros r S; [reflexivity|]. cbn [flat_map]. rewrite fold_left_app. unfold crc24. cbn [fold_left].
  rewrite crc_octet_bits by exact S. apply IH, fold_small, S.
Qed.
Lemma init_small : small crc24_init. Proof. reflexivity. Qed.
Lemma crc24_checksum d : crc24 crc24_init d = checksum d.
Proof. apply crc24_bits, init_small. Qed.
Lemma checksum_small d : checksum d < 2 ^ 24.
Proof. apply (fold_small _ _ init_small). Qed.

(** Different registers stay different. *)
Lemma fold_inj w : forall r r', small r -> small r' -> fold_left crc_bit w r = fold_left crc_bit w r' -> r = r'.
Proof.
  induction w as [|b t IH]; intros r r' S S' E; [exact E|]. cbn [fold_left] in E.
  assert (small (top b)) as T by (unfold small, top; destruct b; reflexivity).
  rewrite !crc_bit_shift in E by assumption. apply IH in E; [|apply crc_shift_small, small_lxor; assumption ..].
  apply crc_shift_inj in E; [|apply small_lxor; assumption ..].
  assert (N.lxor (N.lxor r (top b)) (top b) = N.lxor (N.lxor r' (top b)) (top b)) as X by (rewrite E; reflexivity).
  rewrite !N.lxor_assoc, N.lxor_nilpotent, !N.lxor_0_r in X. exact X.
Qed.
Lemma octets_len d : length (flat_map octet_bits d) = (8 * length d)%nat.
Proof. induction d as [|b d IH]; [reflexivity|]. cbn [flat_map]. rewrite app_length, IH. cbn [length octet_bits map]. lia. Qed.
Lemma bits_value_app a b : bits_value (a ++ b) = bits_value a * 2 ^ lenN b + bits_value b.
Proof.
  induction a as [|x a IH]; [reflexivity|]. cbn [app bits_value]. rewrite IH, lenN_app, N.pow_add_r. destruct x; lia.
Qed.
Lemma bits_value_octets d : bits_value (flat_map octet_bits d) = be d.
Proof.
  induction d as [|b d IH]; [reflexivity|]. cbn [flat_map]. rewrite bits_value_app, octet_value, IH, be_cons. f_equal. f_equal.
  unfold lenN. rewrite octets_len. replace (N.of_nat (8 * length d)) with (8 * N.of_nat (length d)) by lia. rewrite N.pow_mul_r. reflexivity.
Qed.
(** Up to three octets: different octets give different registers. *)
Lemma octets_inj x x' r : small r -> length x = length x' -> (length x <= 3)%nat ->
  fold_left crc_bit (flat_map octet_bits x) r = fold_left crc_bit (flat_map octet_bits x') r -> x = x'.
Proof.
  intros S L L3 E. rewrite !fold_bits in E by (rewrite ?octets_len; try exact S; lia).
  rewrite !octets_len, <- L in E. rewrite !bits_value_octets in E.
  assert (lenN (flat_map octet_bits x) = lenN (flat_map octet_bits x')) as LB by (unfold lenN; rewrite !octets_len, L; reflexivity).
  rewrite <- LB in E. set (k := 24 - lenN (flat_map octet_bits x)) in *.
  assert (lenN (flat_map octet_bits x) = 8 * lenN x) as LX by (unfold lenN; rewrite octets_len; lia).
  assert (lenN x = lenN x') as LN by (unfold lenN; rewrite L; reflexivity).
  assert (forall y, lenN y = lenN x -> small (be y * 2 ^ k)) as B.
  { intros y Hy. pose proof (be_lt y) as H. unfold small.
    replace (2 ^ 24) with (256 ^ lenN y * 2 ^ k).
    - apply N.mul_lt_mono_pos_r; [|exact H]. apply N.neq_0_lt_0, N.pow_nonzero. discriminate.
    - change 256 with (2 ^ 8). rewrite <- N.pow_mul_r, <- N.pow_add_r. f_equal. unfold k. rewrite LX, Hy. unfold lenN. lia. }
  apply iter_inj in E; [|apply small_lxor; auto ..].
  assert (be x * 2 ^ k = be x' * 2 ^ k) as X.
  { apply (f_equal (N.lxor r)) in E. rewrite <- !N.lxor_assoc, N.lxor_nilpotent, !N.lxor_0_l in E. exact E. }
  apply N.mul_cancel_r in X; [|apply N.pow_nonzero; discriminate]. apply be_inj; assumption.
Qed.
(** A change of up to three octets in a row changes the checksum. *)
Lemma damage_changes d d' : damaged d d' -> checksum d <> checksum d'.
Proof.
  intros (p & x & x' & q & -> & -> & L & L3 & NE) E. apply NE. unfold checksum in E. rewrite !flat_map_app, !fold_left_app in E.
  assert (small (fold_left crc_bit (flat_map octet_bits p) 0xB704CE)) as S by apply (fold_small _ _ init_small).
  apply fold_inj in E; [|apply fold_small, S ..]. eapply octets_inj; eassumption.
Qed.
