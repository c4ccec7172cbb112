(** * HistoryL: runs that start with different histories. *)
From Coq Require Import Strings.String Strings.Byte List NArith ZArith Bool Lia ZifyBool ZifyN ZifyNat.
From Verif Require Import Base Utf8 Item Reader Context Env Time Values Opaque Monad Subs Tags Parse.
From Verif Require Import SpecBase BaseL ReaderL SpecTime TimeL SpecFrame FramingL SpecNest FrameL CompL RelL ParseL SpecParse StreamL PropParse PropFrame SpecHistory.
Import ListNotations.
Local Open Scope Z_scope.

Lemma date_note E t u : minute_zone (e_tz E) -> (t < 2 ^ 32)%N -> expiry_note (unixtime2rfc3339 (e_tz E) t u).
Proof.
  intros MZ L. right. exists (Z.of_N t). split; [lia|]. destruct u; [apply text_utc; exact L|].
  destruct (MZ t L) as [R M]. destruct (text_local (e_tz E) t L R) as [T1 _]. rewrite M, Z.add_0_r in T1. exact T1.
Qed.
Lemma FL_same o f1 f2 : FL o o f1 f2 -> f1 = f2. Proof. destruct 1; reflexivity. Qed.

Lemma history_leaves o E : minute_zone (e_tz E) ->
  hleaves eq value_but_history eq note_but_history eq any any o o E E.
Proof.
  intro MZ. split; unfold any, value_but_history, note_but_history; try (intros; auto; fail).
  - intros l f1 f2 F. rewrite (FL_same _ _ _ F). reflexivity.
  - intros t u1 u2 _ ->. left. reflexivity.
  - intros s1 s2 n _. right. left. assert (forall s, expiry_note (expire_text E s n)) as K; [|auto].
    intro s. unfold expire_text. destruct (_ <? _)%N; [|left; reflexivity]. apply date_note; [exact MZ | apply N.mod_lt; discriminate].
  - intros m1 m2 _. right. destruct m1, m2; unfold key_kind_value; cbn [In mode_value]; auto 10.
  - intros m1 m2 z _. right. right. assert (forall m, key_kind_note (mode_note m (n_bytes z))) as K; [|auto].
    intros []; unfold key_kind_note; cbn [In mode_note]; auto. right. exists (decZ z). reflexivity.
Qed.

Definition all_short (l : list (N * bytes)) : Prop := Forall (fun p => lenZ (snd p) < 2 ^ 62) l.
Lemma list_history o E l : minute_zone (e_tz E) -> all_short l -> forall c1 c2,
  snd (parse_list o E l c1) = snd (parse_list o E l c2) /\ Forall2 same_but_history (fst (parse_list o E l c1)) (fst (parse_list o E l c2)).
Proof.
  intros MZ. induction 1 as [|[tag b] l L _ IH]; intros c1 c2; [split; [reflexivity | constructor]|]. cbn [parse_list].
  destruct (rel_packets eq value_but_history eq note_but_history eq any any o o E E (history_leaves o E MZ) (fun _ _ => True) (fun _ _ _ _ _ _ _ => Logic.I)
    tag b c1 c2 L) as [H1 _]; [intros f t _; left; reflexivity | repeat split|].
  destruct (packets_parse o E tag b c1) as [r1 d1], (packets_parse o E tag b c2) as [r2 d2]. cbn [fst snd] in *.
  destruct r1 as [j1|e1| |], r2 as [j2|e2| |]; cbn in H1; try contradiction; try (subst; split; [reflexivity | constructor]).
  specialize (IH d1 d2). destruct (parse_list o E l d1) as [i1 x1], (parse_list o E l d2) as [i2 x2]. cbn [fst snd] in *.
  destruct IH as [-> IH]. split; [reflexivity|]. constructor; [apply RI_alike; exact H1 | exact IH].
Qed.

(** Packets that do not look back. *)
Lemma free_tag o E tag b c1 c2 : tag <> 2%N -> tag <> 9%N -> tag <> 18%N -> lenZ b < 2 ^ 62 ->
  fst (parse_tag o E tag b c1) = fst (parse_tag o E tag b c2).
Proof.
  intros X2 X9 X18 L. unfold parse_tag. cbn [parse_tag_fuel].
  destruct (rel_tag_body_free eq eq eq eq eq any any o o E E True) with
    (rec1 := parse_tag_fuel (length b) o E) (rec2 := parse_tag_fuel (length b) o E) (Qrec := fun (_ : N) (_ : bytes) => False)
    (body := b) (tag := tag) (c1 := c1) (c2 := c2) as [H _]; unfold any; auto.
  - intros l f1 f2 F. rewrite (FL_same _ _ _ F). reflexivity.
  - intros t u1 u2 _ ->. reflexivity.
  - intros ? ? ? ? [].
  - repeat split.
  - destruct (fst (tag_body _ o E tag b c1)) as [[i x]|e| |], (fst (tag_body _ o E tag b c2)) as [[j y]|e'| |]; cbn in H; try contradiction; try congruence; try reflexivity.
    destruct H as [H1 [H2 _]]. cbn [fst snd] in *. apply RI_eq in H1. congruence.
Qed.
