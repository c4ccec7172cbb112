(** * UnfoldL: the packet parser calls itself on the packets nested in a packet. *)
From Coq Require Import Strings.String Strings.Byte List NArith ZArith Bool Lia ZifyBool ZifyN ZifyNat.
From Verif Require Import Base Utf8 Item Reader Context Env Time Values Opaque Monad Subs Tags Parse.
From Verif Require Import SpecBase BaseL ReaderL SpecNest FrameL CompL RelL ParseL SpecParse StreamL PropParse.
Import ListNotations.
Local Open Scope Z_scope.

Definition ends_alike {A} (x y : res A * cst) : Prop := fst x = fst y /\ (fst x <> RPanic -> snd x = snd y).

Lemma RDT_eq d d' : RDT eq d d' -> d = d'.
Proof. destruct d, d'. intros (H1 & H2 & _). cbn in *. congruence. Qed.
Lemma RC_eq c c' : RC eq (ropt (RDT eq)) c c' -> c = c'.
Proof.
  destruct c as [m s k], c' as [m' s' k']. intros (H1 & H2 & H3). cbn in *.
  destruct s, s', k, k'; cbn in *; try contradiction; repeat match goal with H : RDT _ _ _ |- _ => apply RDT_eq in H end; congruence.
Qed.
Lemma RC_dates c c' : RC eq (ropt (RDT eq)) c c' -> RC eq (ropt (RDT eq)) c' c'.
Proof. intro H. pose proof (RC_eq _ _ H). subst. exact H. Qed.

Lemma rres_eq (P : Prop) (a b : res (item * option bytes)) : rres P (RP eq eq eq eq) a b -> a = b.
Proof.
  destruct a as [[i x]|e| |], b as [[j y]|e'| |]; cbn; try contradiction; try reflexivity; [|congruence].
  intros (H1 & H2 & _). cbn [fst snd] in *. apply RI_eq in H1. congruence.
Qed.

(** A packet parser with more depth than needed, in states that agree. *)
Lemma fuel_same o E n m tag body c : (length body < n)%nat -> (length body < m)%nat -> lenZ body < 2 ^ 62 -> RC eq (ropt (RDT eq)) c c ->
  ends_alike (parse_tag_fuel n o E tag body c) (parse_tag_fuel m o E tag body c) /\
  (fst (parse_tag_fuel n o E tag body c) <> RPanic -> RC eq (ropt (RDT eq)) (snd (parse_tag_fuel n o E tag body c)) (snd (parse_tag_fuel m o E tag body c))).
Proof.
  intros Ln Lm L C.
  destruct (rel_parse_fuel eq eq eq eq eq eq (ropt (RDT eq)) o o E E (leaves_h _ _ _ _ _ _ _ _ _ (leaves_same o E)) (fun _ _ => True) (fun _ _ _ _ _ _ _ => Logic.I) n m tag body c c
    Ln Lm L ltac:(unfold Good; auto) C) as [H K].
  apply rres_eq in H. split; [split; [exact H | intro N; apply RC_eq, K, N] | exact K].
Qed.

Lemma parse_unfold o E tag body c : lenZ body < 2 ^ 62 -> RC eq (ropt (RDT eq)) c c ->
  ends_alike (parse_tag o E tag body c) (tag_body (parse_tag o E) o E tag body c) /\
  (fst (parse_tag o E tag body c) <> RPanic ->
   RC eq (ropt (RDT eq)) (snd (parse_tag o E tag body c)) (snd (tag_body (parse_tag o E) o E tag body c))).
Proof.
  intros L C. unfold parse_tag at 1 3 4. cbn [parse_tag_fuel].
  set (Qrec := fun (t : N) (b : bytes) => (length b < length body)%nat).
  assert (rres True (RP eq eq eq eq) (fst (tag_body (parse_tag_fuel (length body) o E) o E tag body c)) (fst (tag_body (parse_tag o E) o E tag body c)) /\
    (fst (tag_body (parse_tag_fuel (length body) o E) o E tag body c) <> RPanic ->
     RC eq (ropt (RDT eq)) (snd (tag_body (parse_tag_fuel (length body) o E) o E tag body c)) (snd (tag_body (parse_tag o E) o E tag body c)))) as [H K].
  { destruct (leaves_h _ _ _ _ _ _ _ _ _ (leaves_same o E)).
    apply (rel_tag_body eq eq eq eq eq eq (ropt (RDT eq)) o o E E True) with (Qrec := Qrec); try assumption; auto.
    - intros t b d1 d2 Lb Hd. pose proof (RC_eq _ _ Hd). subst d2. unfold parse_tag.
      destruct (rel_parse_fuel eq eq eq eq eq eq (ropt (RDT eq)) o o E E (leaves_h _ _ _ _ _ _ _ _ _ (leaves_same o E)) (fun _ _ => True) (fun _ _ _ _ _ _ _ => Logic.I) (length body) (S (length b)) t b d1 d1
        Lb ltac:(lia) ltac:(unfold Qrec, lenZ in *; lia) ltac:(unfold Good; auto) Hd) as [H1 H2].
      split; [|exact H2]. revert H1. apply rres_impl; auto.
    - intros b -> Hs. exact (sig_sub_shorter _ _ _ Hs).
    - intros b t b' -> Hs Hk. pose proof (sig_sub_shorter _ _ _ Hs).
      pose proof (key_block_shorter _ _ _ _ Hk ltac:(unfold lenZ in *; lia)). unfold Qrec. lia. }
  apply rres_eq in H. split; [split; [exact H | intro N; apply RC_eq, K, N] | exact K].
Qed.
