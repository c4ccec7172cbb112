(** * BaseL: lemmas about Base.v (no model definitions here). *)
From Coq Require Import Decimal DecimalString DecimalN.
From Coq Require Import Strings.Ascii Strings.String Strings.Byte List NArith ZArith Bool Lia ZifyBool ZifyN ZifyNat.
From Verif Require Import Base SpecBase.
Import ListNotations.
Local Open Scope N_scope.

(** ** Bytes *)

Definition all_bytes : list byte := map (fun k => n2b (N.of_nat k)) (seq 0 256).

Lemma all_bytes_complete : forall b, In b all_bytes.
Proof.
  assert (H : forall b, existsb (Byte.eqb b) all_bytes = true) by (intros []; vm_compute; reflexivity).
  intro b. specialize (H b). apply existsb_exists in H. destruct H as (x & Hx & E).
  apply Byte.byte_dec_bl in E. subst; assumption.
Qed.

Lemma byte_all (P : byte -> bool) : forallb P all_bytes = true -> forall b, P b = true.
Proof.
  intros H b. rewrite forallb_forall in H. apply H, all_bytes_complete.
Qed.

Lemma b2n_lt b : b2n b < 256.
Proof. apply N.ltb_lt. revert b. apply byte_all. vm_compute. reflexivity. Qed.

Lemma n2b_b2n b : n2b (b2n b) = b.
Proof.
  apply Byte.byte_dec_bl. revert b.
  apply (byte_all (fun b => Byte.eqb (n2b (b2n b)) b)). vm_compute. reflexivity.
Qed.

Lemma b2n_n2b n : b2n (n2b n) = n mod 256.
Proof.
  unfold b2n, n2b.
  destruct (Byte.of_N (n mod 256)) eqn:E.
  - apply Byte.to_of_N in E. assumption.
  - exfalso. apply Byte.of_N_None_iff in E.
    assert (n mod 256 < 256) by (apply N.mod_lt; discriminate). lia.
Qed.

Lemma b2n_n2b_small n : n < 256 -> b2n (n2b n) = n.
Proof. intro. rewrite b2n_n2b. apply N.mod_small. assumption. Qed.

Lemma b2n_inj a b : b2n a = b2n b -> a = b.
Proof. intro H. rewrite <- (n2b_b2n a), <- (n2b_b2n b), H. reflexivity. Qed.

Lemma byte_eqb_spec a b : Byte.eqb a b = true <-> a = b.
Proof. split; [apply Byte.byte_dec_bl | apply Byte.byte_dec_lb]. Qed.

Lemma byte_eqb_refl a : Byte.eqb a a = true.
Proof. apply byte_eqb_spec; reflexivity. Qed.

Lemma beqs_spec a : forall b, beqs a b = true <-> a = b.
Proof.
  induction a as [|x a IH]; intros [|y b]; simpl; try (split; congruence).
  rewrite andb_true_iff, byte_eqb_spec, IH. split.
  - intros [? ?]; congruence.
  - intro H; inversion H; auto.
Qed.

Lemma beqs_refl a : beqs a a = true.
Proof. apply beqs_spec; reflexivity. Qed.

Lemma has_prefix_spec p : forall s, has_prefix p s = true <-> exists t, s = p ++ t.
Proof.
  induction p as [|x p IH]; intros s; simpl.
  - split; [intros _; exists s; reflexivity | reflexivity].
  - destruct s as [|y s].
    + split; [discriminate | intros [t H]; discriminate].
    + rewrite andb_true_iff, byte_eqb_spec, IH. split.
      * intros [-> [t ->]]. exists t; reflexivity.
      * intros [t H]. inversion H; subst. split; [reflexivity | exists t; reflexivity].
Qed.

(** ** Lengths *)

Lemma lenN_nil {A} : lenN (@nil A) = 0. Proof. reflexivity. Qed.
Lemma lenN_cons {A} (x : A) l : lenN (x :: l) = 1 + lenN l.
Proof. unfold lenN; simpl length; lia. Qed.
Lemma lenN_app {A} (a b : list A) : lenN (a ++ b) = lenN a + lenN b.
Proof. unfold lenN; rewrite app_length; lia. Qed.
Lemma lenZ_nil {A} : lenZ (@nil A) = 0%Z. Proof. reflexivity. Qed.
Lemma lenZ_cons {A} (x : A) l : lenZ (x :: l) = (1 + lenZ l)%Z.
Proof. unfold lenZ; simpl length; lia. Qed.
Lemma lenZ_app {A} (a b : list A) : lenZ (a ++ b) = (lenZ a + lenZ b)%Z.
Proof. unfold lenZ; rewrite app_length; lia. Qed.
Lemma lenZ_nonneg {A} (a : list A) : (0 <= lenZ a)%Z.
Proof. unfold lenZ; lia. Qed.
Lemma lenZ_lenN {A} (a : list A) : lenZ a = Z.of_N (lenN a).
Proof. unfold lenZ, lenN; lia. Qed.
Lemma lenZ_0 {A} (l : list A) : (lenZ l <= 0)%Z -> l = [].
Proof. destruct l; [reflexivity|]. rewrite lenZ_cons. pose proof (lenZ_nonneg l). lia. Qed.
Lemma lenN_0 {A} (l : list A) : lenN l = 0 -> l = [].
Proof. destruct l; [reflexivity|]. rewrite lenN_cons. lia. Qed.

(** ** Big-endian numbers *)

Lemma be_fold l : forall a, fold_left (fun a b => a * 256 + b2n b) l a = a * 256 ^ lenN l + be l.
Proof.
  unfold be. induction l as [|b l IH]; intro a.
  - cbn [fold_left]. rewrite lenN_nil. change (256 ^ 0) with 1. lia.
  - cbn [fold_left]. rewrite IH, (IH (0 * 256 + b2n b)), lenN_cons.
    rewrite N.pow_add_r. change (256 ^ 1) with 256. nia.
Qed.

Lemma be_nil : be [] = 0. Proof. reflexivity. Qed.
Lemma be_cons b l : be (b :: l) = b2n b * 256 ^ lenN l + be l.
Proof. unfold be at 1. cbn [fold_left]. rewrite be_fold. f_equal. Qed.
Lemma be_app a b : be (a ++ b) = be a * 256 ^ lenN b + be b.
Proof. unfold be at 1. rewrite fold_left_app. apply be_fold. Qed.
Lemma be_lt l : be l < 256 ^ lenN l.
Proof.
  induction l as [|b l IH].
  - vm_compute. reflexivity.
  - rewrite be_cons, lenN_cons, N.pow_add_r. change (256 ^ 1) with 256.
    pose proof (b2n_lt b). nia.
Qed.

Lemma be_inj a : forall b, length a = length b -> be a = be b -> a = b.
Proof.
  induction a as [|x a IH]; intros [|y b] L H; try discriminate; [reflexivity|].
  injection L as L. rewrite !be_cons in H.
  assert (lenN a = lenN b) as E by (unfold lenN; rewrite L; reflexivity).
  rewrite E in H.
  pose proof (be_lt a). pose proof (be_lt b). rewrite E in H0.
  assert (b2n x = b2n y) by nia.
  assert (be a = be b) by nia.
  f_equal; [apply b2n_inj; assumption | apply IH; assumption].
Qed.


Lemma be_enc_length w : forall n, length (be_enc w n) = w.
Proof. induction w; intro n; simpl; [reflexivity|]. rewrite app_length, IHw. simpl. lia. Qed.

Lemma be_be_enc w : forall n, be (be_enc w n) = n mod 256 ^ N.of_nat w.
Proof.
  induction w as [|w IH]; intro n.
  - simpl. rewrite N.mod_1_r. reflexivity.
  - cbn [be_enc]. rewrite be_app, IH, be_cons, be_nil, b2n_n2b, lenN_cons, !lenN_nil.
    change (256 ^ (1 + 0)) with 256. change (256 ^ 0) with 1.
    rewrite Nat2N.inj_succ, N.pow_succ_r'.
    rewrite N.mod_mul_r by (try apply N.pow_nonzero; discriminate). lia.
Qed.

Lemma be_enc_be l : be_enc (length l) (be l) = l.
Proof.
  apply be_inj; [apply be_enc_length|].
  rewrite be_be_enc, N.mod_small; [reflexivity | apply be_lt].
Qed.

(** ** wrap64 *)

Lemma wrap64_small z : (- 2 ^ 63 <= z < 2 ^ 63)%Z -> wrap64 z = z.
Proof. intro H. unfold wrap64. rewrite Z.mod_small; lia. Qed.

Lemma wrap64_range z : (- 2 ^ 63 <= wrap64 z < 2 ^ 63)%Z.
Proof. unfold wrap64. pose proof (Z.mod_pos_bound (z + 2 ^ 63) (2 ^ 64)). lia. Qed.

(** ** Hexadecimal digits *)

Lemma hexw_length dig w : forall n, length (hexw dig w n) = w.
Proof. induction w; intro n; simpl; [reflexivity|]. rewrite app_length, IHw. simpl. lia. Qed.

Lemma hexw_app dig v w : forall n,
  hexw dig (v + w) n = hexw dig v (n / 16 ^ N.of_nat w) ++ hexw dig w n.
Proof.
  induction w as [|w IH]; intro n.
  - rewrite Nat.add_0_r. simpl. rewrite N.div_1_r, app_nil_r. reflexivity.
  - rewrite Nat.add_succ_r. cbn [hexw]. rewrite IH.
    rewrite Nat2N.inj_succ, N.pow_succ_r', N.div_div by (try apply N.pow_nonzero; discriminate).
    rewrite app_assoc. reflexivity.
Qed.

(** ** Decimal numbers *)


Lemma str_cons a s : str (String a s) = Ascii.byte_of_ascii a :: str s.
Proof. reflexivity. Qed.

Lemma read_dec_acc u : forall p,
  read_dec_from (Npos p) (str (NilEmpty.string_of_uint u)) = Some (Npos (Pos.of_uint_acc u p)).
Proof.
  induction u; intro p; cbn [NilEmpty.string_of_uint]; [reflexivity| ..];
  rewrite str_cons; cbn [read_dec_from];
  match goal with |- context [digit_val ?b] => let v := eval vm_compute in (digit_val b) in change (digit_val b) with v end;
  cbv iota beta; cbn [Pos.of_uint_acc]; rewrite <- IHu; f_equal; lia.
Qed.

Lemma read_dec_0 u : read_dec_from 0 (str (NilEmpty.string_of_uint u)) = Some (N.of_uint u).
Proof.
  induction u; cbn [NilEmpty.string_of_uint]; [reflexivity| ..];
  rewrite str_cons; cbn [read_dec_from];
  match goal with |- context [digit_val ?b] => let v := eval vm_compute in (digit_val b) in change (digit_val b) with v end;
  cbv iota beta; [exact IHu | ..]; apply read_dec_acc.
Qed.

Lemma dec_nonempty n : dec n <> [].
Proof.
  unfold dec. destruct (N.to_uint n); cbn; discriminate.
Qed.

Lemma read_dec_dec n : read_dec (dec n) = Some n.
Proof.
  pose proof (dec_nonempty n) as H. unfold read_dec.
  destruct (dec n) eqn:E; [congruence|]. rewrite <- E. clear E H.
  unfold dec, NilZero.string_of_uint.
  rewrite <- (Unsigned.of_to n) at 2.
  destruct (N.to_uint n); [reflexivity | apply read_dec_0 ..].
Qed.

Lemma dec_inj a b : dec a = dec b -> a = b.
Proof. intro H. pose proof (read_dec_dec a) as A. rewrite H, read_dec_dec in A. congruence. Qed.

Definition is_digit (b : byte) : bool := match digit_val b with Some _ => true | None => false end.

Lemma read_dec_from_digits l : forall a n, read_dec_from a l = Some n -> forallb is_digit l = true.
Proof.
  induction l as [|b l IH]; intros a n H; [reflexivity|].
  cbn [read_dec_from forallb] in *. unfold is_digit at 1.
  destruct (digit_val b); [|discriminate]. simpl. eauto.
Qed.

Lemma dec_digits n : forallb is_digit (dec n) = true.
Proof.
  pose proof (read_dec_dec n) as H. unfold read_dec in H.
  destruct (dec n) eqn:E; [reflexivity|]. eapply read_dec_from_digits; eassumption.
Qed.

Lemma span_digits_app d : forallb is_digit d = true -> forall b r, is_digit b = false ->
  span_digits (d ++ b :: r) = (d, b :: r).
Proof.
  induction d as [|x d IH]; intros H b r Hb.
  - cbn. unfold is_digit in Hb. destruct (digit_val b); [discriminate | reflexivity].
  - cbn in *. apply andb_true_iff in H as [Hx H]. unfold is_digit in Hx.
    destruct (digit_val x); [|discriminate]. rewrite (IH H b r Hb). reflexivity.
Qed.

Lemma forallb_rev {A} (f : A -> bool) l : forallb f (rev l) = forallb f l.
Proof.
  induction l; simpl; [reflexivity|]. rewrite forallb_app, IHl. simpl. rewrite andb_true_r. apply andb_comm.
Qed.

(** Any text that ends in " (label number)" gives back the number. *)
Lemma read_id_correct label pre n : read_id label (pre ++ str "(" ++ label ++ str " " ++ dec n ++ str ")") = Some n.
Proof.
  unfold read_id. rewrite !rev_app_distr.
  change (rev (str ")")) with [x29]. change (rev (str " ")) with [x20]. change (rev (str "(")) with [x28].
  cbn [app]. rewrite <- !app_assoc. cbn [app].
  rewrite span_digits_app; [|rewrite forallb_rev; apply dec_digits|reflexivity].
  rewrite rev_involutive, read_dec_dec.
  match goal with |- (if ?c then _ else _) = _ => assert (c = true) as -> end; [|reflexivity].
  apply has_prefix_spec. exists (rev pre). cbn [app]. rewrite <- ?app_assoc. reflexivity.
Qed.

Lemma skipn_add {A} a b (l : list A) : skipn (a + b) l = skipn b (skipn a l).
Proof.
  revert l. induction a as [|a IH]; intros l; [reflexivity|].
  destruct l; simpl; [rewrite skipn_nil; reflexivity | apply IH].
Qed.
