(** * ArmorSizeL: the armor decoder delivers no more octets than the text has. *)
From Coq Require Import Strings.String Strings.Byte List NArith ZArith Bool Arith Lia ZifyBool ZifyN ZifyNat.
From Verif Require Import Base Env Parse SpecParse StreamL Radix64 PropRadix64.
Import ListNotations.

Lemma find_lf_len : forall n l a r, find_lf n l = Some (a, r) -> (length a + length r < length l)%nat.
Proof.
  induction n as [|n IH]; intros [|b t] a r H; cbn [find_lf] in H; try discriminate. destruct (Byte.eqb b x0a).
  - inversion H; subst. cbn. lia.
  - destruct (find_lf n t) as [[a' r']|] eqn:F; [|discriminate]. inversion H; subst. apply IH in F. cbn [length]. lia.
Qed.
Lemma read_line_len l line p r : read_line l = Some (line, p, r) -> (length line + length r <= length l)%nat.
Proof.
  unfold read_line. destruct l as [|b t]; [discriminate|]. set (l := b :: t). clearbody l. destruct (find_lf 100 l) as [[a r']|] eqn:F.
  - intro H. inversion H; subst. apply find_lf_len in F. pose proof (drop_cr_le (rev a)) as D. rewrite rev_length in D. lia.
  - destruct (100 <=? length l)%nat eqn:L.
    + intro H. assert (exists k, line = firstn k l /\ r = skipn k l) as (k & -> & ->).
      { revert H. generalize 99%nat, 100%nat. intros i j H. destruct (nth_error l i) as [x|]; [|injection H as <- _ <-; eauto]. destruct x; injection H as <- _ <-; eauto. }
      rewrite <- app_length, firstn_skipn. lia.
    + intro H. inversion H; subst. cbn. lia.
Qed.
Lemma armor_head_len : forall fuel m l r, armor_head fuel m l = Some r -> (length r <= length l)%nat.
Proof.
  induction fuel as [|f IH]; intros m l r H; cbn [armor_head] in H; [discriminate|].
  destruct (read_line l) as [[[line p] rest]|] eqn:R; [|discriminate]. apply read_line_len in R.
  destruct m as [ig|co].
  - destruct (p || ig)%bool; [apply IH in H; lia|]. cbv zeta in H. destruct (_ && _)%bool; apply IH in H; lia.
  - destruct co; [apply IH in H; lia|]. cbv zeta in H. destruct (is_nil _); [inversion H; subst; lia|]. destruct (has_colon _); apply IH in H; lia.
Qed.
Lemma armor_lines_len : forall fuel l c e, armor_lines fuel l = (c, e) -> (length c <= length l)%nat.
Proof.
  induction fuel as [|f IH]; intros l c e H; cbn [armor_lines] in H; [inversion H; cbn; lia|].
  destruct (read_line l) as [[[line p] rest]|] eqn:R; [|inversion H; cbn; lia]. apply read_line_len in R.
  destruct p; [inversion H; cbn; lia|]. destruct (has_prefix _ _); [inversion H; cbn; lia|].
  destruct (read_crc line).
  - destruct (96 <? lenN line)%N; [inversion H; cbn; lia|]. destruct (armor_lines f rest) as [c' e'] eqn:A. inversion H; subst. apply IH in A. rewrite app_length. lia.
  - inversion H; cbn; lia.
  - apply IH in H. lia.
  - destruct (read_line rest) as [[[l2 p2] r2]|]; inversion H; cbn; lia.
Qed.
Lemma quantum_len a b c d r p : quantum a b c d = Some (r, p) -> (length r <= 3)%nat.
Proof.
  unfold quantum. destruct (b64_value a); [|discriminate]. destruct (b64_value b); [|discriminate]. destruct (b64_value c).
  - destruct (b64_value d); [intro H; inversion H; cbn; lia|]. destruct (Byte.eqb d x3d); [intro H; inversion H; cbn; lia | discriminate].
  - destruct (_ && _)%bool; [intro H; inversion H; cbn; lia | discriminate].
Qed.
Lemma decode_buf_len : forall n l d ok, (length l <= n)%nat -> decode_buf l = (d, ok) -> (length d <= length l)%nat.
Proof.
  induction n as [|n IH]; intros l d ok L H.
  - destruct l; [inversion H; cbn; lia | cbn in L; lia].
  - destruct l as [|a [|b [|c [|e t]]]]; cbn [decode_buf] in H; try (inversion H; cbn; lia).
    destruct (quantum a b c e) as [[r p]|] eqn:Q; [|inversion H; cbn; lia]. apply quantum_len in Q. destruct p; [inversion H; subst; cbn [length]; lia|].
    destruct (decode_buf t) as [r' ok'] eqn:D. inversion H; subst. apply IH in D; [|cbn [length] in L; lia]. rewrite app_length. cbn [length]. lia.
Qed.
Lemma b64_body_len : forall fuel cuts l eof d ok, b64_body fuel cuts l eof = (d, ok) -> (length d <= length l)%nat.
Proof.
  induction fuel as [|f IH]; intros cuts l eof d ok H; cbn [b64_body] in H; [inversion H; cbn; lia|].
  destruct (length l <? 4)%nat; [inversion H; cbn; lia|]. cbv zeta in H. set (k := Nat.min _ _) in H. clearbody k.
  destruct (decode_buf (firstn (4 * k) l)) as [d1 ok1] eqn:D. apply (decode_buf_len _ _ _ _ (le_n _)) in D.
  assert (length l = length (firstn (4 * k) l) + length (skipn (4 * k) l))%nat as LL by (rewrite <- app_length, firstn_skipn; reflexivity).
  destruct ok1; [|inversion H; subst; lia]. destruct (b64_body f (tl cuts) (skipn (4 * k) l) eof) as [r e] eqn:B. inversion H; subst. apply IH in B. rewrite app_length. lia.
Qed.
Lemma armor_decode_len cuts txt d ok : armor_decode cuts txt = Some (d, ok) -> (length d <= length txt)%nat.
Proof.
  unfold armor_decode. destruct (armor_head _ _ txt) as [rest|] eqn:H; [|discriminate]. apply armor_head_len in H.
  destruct (armor_lines _ rest) as [c e] eqn:A. apply armor_lines_len in A. destruct (b64_body _ _ _ _) as [d' ok'] eqn:B. apply b64_body_len in B.
  intro Q. inversion Q; subst. assert (length (filter not_newline c) <= length c)%nat; [|lia].
  clear. induction c as [|b c IH]; [cbn; lia|]. cbn [filter]. destruct (not_newline b); cbn [length]; lia.
Qed.
(** With this decoder everything fits if the input does. *)
Lemma decoder_fits E src : decodes_armor E -> (lenZ (st_data src) < 2 ^ 62 - 1)%Z -> fits E src.
Proof.
  intros D L. split; [unfold sized; lia|]. intros txt pieces ok T A. destruct (D txt) as (cuts & H). rewrite A in H. apply armor_decode_len in H.
  unfold sized, lenZ, lenN in *. lia.
Qed.
