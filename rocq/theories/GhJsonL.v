(** * GhJsonL: the JSON reader reads exactly the documents of the specification (C69). *)
From Coq Require Import Strings.String Strings.Byte List NArith ZArith Bool Arith Lia ZifyBool ZifyN ZifyNat.
From Verif Require Import Base BaseL SpecBase SpecText Utf8 Utf8L Json SpecJson JsonL Github GhJson SpecGhJson.
Import ListNotations.
Local Open Scope N_scope.

Lemma beq_spec a b : reflect (a = b) (Byte.eqb a b).
Proof. destruct (Byte.eqb a b) eqn:E; constructor; [apply byte_eqb_spec; exact E | intro H; apply byte_eqb_spec in H; congruence]. Qed.

(** ** Strings *)

Definition plainb (b : byte) : Prop := 0x20 <= b2n b /\ b <> x22 /\ b <> x5c.
Inductive rawp : bytes -> Prop :=
| rawp_nil : rawp []
| rawp_plain b s : plainb b -> rawp s -> rawp (b :: s)
| rawp_short e s : is_jescape e = true -> rawp s -> rawp (x5c :: e :: s)
| rawp_hex a b c d s : is_jhex a = true -> is_jhex b = true -> is_jhex c = true -> is_jhex d = true -> rawp s ->
    rawp (x5c :: x75 :: a :: b :: c :: d :: s).

Lemma pre_inv p o x t : pre p o = Some (x, t) -> exists y, o = Some (y, t) /\ x = p ++ y.
Proof. destruct o as [[y u]|]; cbn; [|discriminate]. intro H; injection H as <- <-. eauto. Qed.

Lemma jstring_sound s x t : jstring s = Some (x, t) -> s = x ++ x22 :: t /\ rawp x.
Proof.
  assert (forall n s x t, (length s <= n)%nat -> jstring s = Some (x, t) -> s = x ++ x22 :: t /\ rawp x) as A.
  { clear. induction n as [|n IH]; intros s x t L H.
    { destruct s; [discriminate | cbn in L; lia]. }
    destruct s as [|b s]; [discriminate|]. cbn [jstring] in H. cbn [length] in L.
    destruct (beq_spec b x22) as [->|N1]; [injection H as <- <-; split; [reflexivity|constructor]|].
    destruct (beq_spec b x5c) as [->|N2].
    - destruct s as [|e s]; [discriminate|]. destruct (is_jescape e) eqn:E.
      + apply pre_inv in H as (y & H & ->). apply IH in H as (-> & R); [|cbn in L; lia].
        split; [reflexivity|constructor; assumption].
      + destruct (beq_spec e x75) as [->|]; [|discriminate].
        destruct s as [|h1 [|h2 [|h3 [|h4 s]]]]; try discriminate.
        destruct (is_jhex h1) eqn:E1; [|discriminate]. destruct (is_jhex h2) eqn:E2; [|discriminate].
        destruct (is_jhex h3) eqn:E3; [|discriminate]. destruct (is_jhex h4) eqn:E4; [|discriminate].
        cbn [andb] in H. apply pre_inv in H as (y & H & ->). apply IH in H as (-> & R); [|cbn in L; lia].
        split; [reflexivity|constructor; assumption].
    - destruct (N.ltb_spec (b2n b) 32); [discriminate|]. apply pre_inv in H as (y & H & ->).
      apply IH in H as (-> & R); [|cbn in L; lia]. split; [reflexivity|]. constructor; [|assumption]. repeat split; assumption. }
  intro H. exact (A (length s) s x t (le_n _) H).
Qed.

Lemma jstring_complete x t : rawp x -> jstring (x ++ x22 :: t) = Some (x, t).
Proof.
  induction 1 as [|b s (P & Q & R) H IH|e s E H IH|a b c d s A B C D H IH].
  - reflexivity.
  - cbn [app jstring]. destruct (beq_spec b x22); [contradiction|]. destruct (beq_spec b x5c); [contradiction|].
    replace (b2n b <? 32) with false by lia. rewrite IH. reflexivity.
  - cbn [app jstring]. change (Byte.eqb x5c x22) with false. cbn iota. rewrite byte_eqb_refl, E, IH. reflexivity.
  - cbn [app jstring]. change (Byte.eqb x5c x22) with false. change (is_jescape x75) with false. cbn iota.
    rewrite !byte_eqb_refl, A, B, C, D, IH. reflexivity.
Qed.

Lemma jhex_hex b : jhex (b2n b) = hex_value b.
Proof.
  unfold jhex, hex_value, inr. pose proof (b2n_lt b).
  repeat match goal with |- context [if ?c then _ else _] => destruct c eqn:? end; try reflexivity; lia.
Qed.

Lemma jescape_short b : jescape (b2n b) = short_escape b.
Proof. destruct b; reflexivity. Qed.

Lemma is_jhex_hex b : is_jhex b = true <-> exists n, hex_value b = Some n.
Proof. unfold is_jhex. rewrite jhex_hex. destruct (hex_value b); split; intro H; [eauto|reflexivity|discriminate|destruct H; discriminate]. Qed.

Lemma hex_value_lt b n : hex_value b = Some n -> n < 16.
Proof. unfold hex_value. repeat match goal with |- context [if ?c then _ else _] => destruct c eqn:? end; intro H; try discriminate; injection H as <-; lia. Qed.

Lemma hex4_ok a b c d : is_jhex a = true -> is_jhex b = true -> is_jhex c = true -> is_jhex d = true -> exists n, hex4 a b c d n.
Proof.
  rewrite !is_jhex_hex. intros (w & A) (x & B) (y & C) (z & D). exists (w * 4096 + x * 256 + y * 16 + z), w, x, y, z. auto.
Qed.
Lemma ok_hex4 a b c d n : hex4 a b c d n -> is_jhex a = true /\ is_jhex b = true /\ is_jhex c = true /\ is_jhex d = true /\ n < 65536 /\
  jhex4 (b2n a) (b2n b) (b2n c) (b2n d) = Some n.
Proof.
  intros (w & x & y & z & A & B & C & D & ->). rewrite !is_jhex_hex. unfold jhex4. rewrite !jhex_hex, A, B, C, D.
  apply hex_value_lt in A as A', B as B', C as C', D as D'.
  split; [eauto|]. split; [eauto|]. split; [eauto|]. split; [eauto|]. split; [lia|reflexivity].
Qed.
Lemma hex4_inj a b c d n m : hex4 a b c d n -> hex4 a b c d m -> n = m.
Proof. intros H K. apply ok_hex4 in H as (_ & _ & _ & _ & _ & H), K as (_ & _ & _ & _ & _ & K). congruence. Qed.

Lemma rawp_app p s : Forall plainb p -> rawp s -> rawp (p ++ s).
Proof. induction 1; [auto|]. intro. cbn. constructor; auto. Qed.
Lemma rawp_high p s : Forall (fun b => 128 <= b2n b) p -> rawp (p ++ s) -> rawp s.
Proof.
  induction 1 as [|b p Hb Hp IH]; [auto|]. cbn [app]. intro H. inversion H; subst; [auto|cbn in Hb; lia|cbn in Hb; lia].
Qed.

Lemma utf8_high c : 128 <= c -> scalar c -> Forall (fun b => 128 <= b2n b) (utf8 c).
Proof.
  intros H S. assert (c < 0x110000) by (destruct S; lia). unfold utf8.
  replace (c <? 128) with false by lia.
  assert (c / 262144 < 5) by (apply N.div_lt_upper_bound; lia).
  assert (c <? 65536 = true -> c / 4096 < 16) by (intro; apply N.div_lt_upper_bound; lia).
  assert (c <? 2048 = true -> c / 64 < 32) by (intro; apply N.div_lt_upper_bound; lia).
  pose proof (N.mod_lt c 64 ltac:(lia)). pose proof (N.mod_lt (c / 64) 64 ltac:(lia)). pose proof (N.mod_lt (c / 4096) 64 ltac:(lia)).
  destruct (c <? 2048) eqn:?; [|destruct (c <? 65536) eqn:?]; repeat (constructor; [rewrite b2n_n2b_small; lia|]); constructor.
Qed.
Lemma utf8_low c : c < 128 -> utf8 c = [n2b c].
Proof. intro H. unfold utf8. replace (c <? 128) with true by lia. reflexivity. Qed.
Lemma high_plain b : 128 <= b2n b -> plainb b.
Proof. intro H. split; [lia|]. split; intros ->; cbn in H; lia. Qed.

Lemma char_rawp c b s : char c b -> rawp s -> rawp (b ++ s).
Proof.
  intros H R. destruct H as [c S L Q B|e c E|a b d e n H S|a b d e a' b' d' e' h l H K _ _].
  - destruct (N.lt_ge_cases c 128).
    + rewrite utf8_low by assumption. cbn [app]. constructor; [|assumption].
      split; [rewrite b2n_n2b_small; lia|]. split; intro X; apply (f_equal b2n) in X; rewrite b2n_n2b_small in X by lia; cbn in X; lia.
    + apply rawp_app; [|assumption]. eapply Forall_impl; [|apply utf8_high; assumption]. exact high_plain.
  - cbn. constructor; [|assumption]. unfold is_jescape. rewrite jescape_short, E. reflexivity.
  - apply ok_hex4 in H as (A & B & C & D & _). cbn. constructor; assumption.
  - apply ok_hex4 in H as (A & B & C & D & _), K as (A' & B' & C' & D' & _). cbn. apply rawp_hex; try assumption. apply rawp_hex; assumption.
Qed.

Lemma string_chars_rawp l s : string_chars l s -> rawp s.
Proof.
  induction 1 as [|c b l s C H IH|b l s B N H IH|a b c d n l s X R N H IH].
  - constructor.
  - eapply char_rawp; eauto.
  - constructor; [apply high_plain; exact B|exact IH].
  - apply ok_hex4 in X as (A & B & C & D & _). cbn. constructor; assumption.
Qed.

(** What follows an escaped high surrogate: either an escaped low surrogate or not. *)
Lemma low_next s : (exists a b c d m s', hex4 a b c d m /\ 0xDC00 <= m < 0xE000 /\ s = [x5c; x75; a; b; c; d] ++ s') \/
  (forall a b c d m s', hex4 a b c d m -> 0xDC00 <= m < 0xE000 -> s <> [x5c; x75; a; b; c; d] ++ s').
Proof.
  destruct s as [|y1 [|y2 [|a [|b [|c [|d s]]]]]]; try (right; intros; discriminate).
  destruct (beq_spec y1 x5c) as [->|N]; [|right; intros; intro E; injection E; intros; subst; contradiction].
  destruct (beq_spec y2 x75) as [->|N]; [|right; intros; intro E; injection E; intros; subst; contradiction].
  destruct (jhex4 (b2n a) (b2n b) (b2n c) (b2n d)) as [m|] eqn:E.
  - assert (hex4 a b c d m) as H.
    { unfold jhex4 in E. rewrite !jhex_hex in E. destruct (hex_value a) as [w|] eqn:A; [|discriminate]. destruct (hex_value b) as [x|] eqn:B; [|discriminate].
      destruct (hex_value c) as [y|] eqn:C; [|discriminate]. destruct (hex_value d) as [z|] eqn:D; [|discriminate]. injection E as <-. exists w, x, y, z. auto. }
    destruct (N.le_gt_cases 0xDC00 m); [destruct (N.lt_ge_cases m 0xE000)|].
    + left. exists a, b, c, d, m, s. split; [exact H|]. split; [lia|reflexivity].
    + right. intros a' b' c' d' m' s' H' R X. injection X as -> -> -> -> ->. pose proof (hex4_inj _ _ _ _ _ _ H H'). lia.
    + right. intros a' b' c' d' m' s' H' R X. injection X as -> -> -> -> ->. pose proof (hex4_inj _ _ _ _ _ _ H H'). lia.
  - right. intros a' b' c' d' m' s' H' R X. injection X as -> -> -> -> ->. apply ok_hex4 in H' as (_ & _ & _ & _ & _ & H'). congruence.
Qed.

Lemma rawp_string_chars s : rawp s -> exists l, string_chars l s.
Proof.
  assert (forall n s, (length s <= n)%nat -> rawp s -> exists l, string_chars l s) as A.
  { clear. induction n as [|n IH]; intros s L H.
    { destruct s; [exists []; constructor | cbn in L; lia]. }
    destruct H as [|b s P H|e s E H|a b c d s A B C D H].
    - exists []; constructor.
    - destruct (N.lt_ge_cases (b2n b) 128) as [Lb|Gb].
      + destruct (IH s ltac:(cbn in L; lia) H) as (l & Hl). exists (b2n b :: l).
        change (b :: s) with ([b] ++ s). replace [b] with (utf8 (b2n b)) by (rewrite utf8_low by assumption; rewrite n2b_b2n; reflexivity).
        constructor; [|exact Hl]. destruct P as (P1 & P2 & P3).
        constructor; [left; lia|lia|intro X; apply P2; apply b2n_inj; exact X|intro X; apply P3; apply b2n_inj; exact X].
      + destruct (scan_step (b :: s) ltac:(discriminate)) as [(r & t & Sr & E & Es)|(t & _ & Es)].
        * assert (128 <= r) as Hr.
          { destruct (N.lt_ge_cases r 128) as [K|K]; [|exact K]. rewrite utf8_low in E by assumption. injection E as -> ->. rewrite b2n_n2b_small in Gb; lia. }
          assert (rawp t) as Rt. { apply (rawp_high (utf8 r)); [apply utf8_high; assumption|]. rewrite <- E. constructor; assumption. }
          destruct (IH t) as (l & Hl); [|exact Rt|].
          { apply (f_equal (@length _)) in E. rewrite app_length in E. pose proof (utf8_length r). cbn [length] in *. lia. }
          exists (r :: l). rewrite E. constructor; [|exact Hl]. constructor; [assumption|lia|lia|lia].
        * destruct (IH s ltac:(cbn in L; lia) H) as (l & Hl). exists (0xFFFD :: l). constructor; [exact Gb| |exact Hl].
          intros c s' Sc Q. rewrite Q, scan_utf8 in Es by assumption. discriminate.
    - destruct (IH s ltac:(cbn in L; lia) H) as (l & Hl). unfold is_jescape in E. rewrite jescape_short in E.
      destruct (short_escape e) as [c|] eqn:Ec; [|discriminate]. exists (c :: l). change (x5c :: e :: s) with ([x5c; e] ++ s). constructor; [constructor; exact Ec|exact Hl].
    - destruct (hex4_ok _ _ _ _ A B C D) as (m & X). pose proof (ok_hex4 _ _ _ _ _ X) as (_ & _ & _ & _ & Lm & _).
      change (x5c :: x75 :: a :: b :: c :: d :: s) with ([x5c; x75; a; b; c; d] ++ s).
      destruct (N.lt_ge_cases m 0xD800) as [M1|M1]; [|destruct (N.lt_ge_cases m 0xE000) as [M2|M2]].
      + destruct (IH s ltac:(cbn in L; lia) H) as (l & Hl). exists (m :: l). constructor; [|exact Hl]. constructor; [exact X|left; lia].
      + destruct (low_next s) as [(a' & b' & c' & d' & m' & s' & X' & R & ->)|N].
        * destruct (N.lt_ge_cases m 0xDC00) as [M3|M3].
          { apply ok_hex4 in X' as Y. destruct Y as (A' & B' & C' & D' & _).
            assert (rawp s') as R'.
            { cbn [app] in H. inversion H as [|? ? P ?|? ? E ?|]; subst; [exfalso; destruct P as (_ & _ & P); apply P; reflexivity| discriminate E|assumption]. }
            destruct (IH s') as (l & Hl); [cbn in L; lia|exact R'|].
            eexists (_ :: l). change ([x5c; x75; a; b; c; d] ++ [x5c; x75; a'; b'; c'; d'] ++ s') with ([x5c; x75; a; b; c; d; x5c; x75; a'; b'; c'; d'] ++ s').
            constructor; [|exact Hl]. eapply char_pair; [exact X|exact X'|lia|lia]. }
          { destruct (IH ([x5c; x75; a'; b'; c'; d'] ++ s') ltac:(cbn [length app] in L |- *; lia) H) as (l & Hl). exists (0xFFFD :: l).
            eapply chars_surrogate; [exact X|lia|intro; exfalso; lia|exact Hl]. }
        * destruct (IH s ltac:(cbn in L; lia) H) as (l & Hl). exists (0xFFFD :: l).
          eapply chars_surrogate; [exact X|lia|intros _; exact N|exact Hl].
      + destruct (IH s ltac:(cbn in L; lia) H) as (l & Hl). exists (m :: l). constructor; [|exact Hl]. constructor; [exact X|right; lia]. }
  intro H. exact (A (length s) s (le_n _) H).
Qed.

Lemma rawp_body s : rawp s <-> string_body s.
Proof. split; [apply rawp_string_chars|]. intros (l & H). eapply string_chars_rawp; exact H. Qed.

(** ** The code points of a string *)

Lemma runes_utf8 c s : scalar c -> runes (utf8 c ++ s) = c :: runes s.
Proof. intro S. unfold runes. rewrite scan_utf8 by assumption. reflexivity. Qed.
Lemma runes_ascii b s : b2n b < 128 -> runes (b :: s) = b2n b :: runes s.
Proof. intro H. unfold runes. cbn [scan]. replace (b2n b <? 128) with true by lia. reflexivity. Qed.
Lemma runes_bad b s : (forall c s', scalar c -> b :: s <> utf8 c ++ s') -> runes (b :: s) = 0xFFFD :: runes s.
Proof.
  intro N. destruct (scan_step (b :: s) ltac:(discriminate)) as [(r & t & Sr & E & Es)|(t & _ & Es)]; [exfalso; exact (N r t Sr E)|].
  unfold runes. rewrite scan_none by (rewrite Es; reflexivity). reflexivity.
Qed.
Lemma runes_front n R s : runes s = n :: R -> n < 128 -> exists s', s = n2b n :: s' /\ runes s' = R.
Proof.
  intros H L. destruct s as [|b s]; [discriminate|].
  destruct (scan_step (b :: s) ltac:(discriminate)) as [(r & t & Sr & E & Es)|(t & _ & Es)].
  - rewrite E, runes_utf8 in H by assumption. injection H as <- <-. rewrite E, utf8_low by assumption. exists t. split; reflexivity.
  - unfold runes in H. rewrite scan_none in H by (rewrite Es; reflexivity). injection H as <- _. lia.
Qed.
Lemma jhex_lt n m : jhex n = Some m -> n < 128.
Proof. unfold jhex, inr. repeat match goal with |- context [if ?c then _ else _] => destruct c eqn:? end; intros; try discriminate; lia. Qed.
Lemma hex_ascii a : is_jhex a = true -> b2n a < 128.
Proof. unfold is_jhex. destruct (jhex (b2n a)) eqn:E; [intros _; eapply jhex_lt; exact E|discriminate]. Qed.

Lemma runes_u a b c d n s : hex4 a b c d n -> runes ([x5c; x75; a; b; c; d] ++ s) = [0x5c; 0x75; b2n a; b2n b; b2n c; b2n d] ++ runes s.
Proof.
  intro X. apply ok_hex4 in X as (A & B & C & D & _). cbn [app].
  rewrite (runes_ascii x5c), (runes_ascii x75) by (cbn; lia).
  rewrite (runes_ascii a), (runes_ascii b), (runes_ascii c), (runes_ascii d) by (apply hex_ascii; assumption). reflexivity.
Qed.
Lemma getu4_u a b c d n R : hex4 a b c d n -> getu4 ([0x5c; 0x75; b2n a; b2n b; b2n c; b2n d] ++ R) = Some (n, R).
Proof. intro X. apply ok_hex4 in X as (_ & _ & _ & _ & _ & H). cbn [app getu4]. rewrite H. reflexivity. Qed.

Lemma getu4_inv s n R : getu4 (runes s) = Some (n, R) -> exists a b c d s', hex4 a b c d n /\ s = [x5c; x75; a; b; c; d] ++ s' /\ runes s' = R.
Proof.
  unfold getu4. destruct (runes s) as [|y1 [|y2 [|a [|b [|c [|d r]]]]]] eqn:E; try discriminate.
  destruct (N.eqb_spec y1 0x5c) as [->|]; [|discriminate]. destruct (N.eqb_spec y2 0x75) as [->|]; [|discriminate].
  cbn [andb]. destruct (jhex4 a b c d) as [m|] eqn:J; [|discriminate]. intro H; injection H as -> ->.
  unfold jhex4 in J. destruct (jhex a) as [w|] eqn:A; [|discriminate]. destruct (jhex b) as [x|] eqn:B; [|discriminate].
  destruct (jhex c) as [y|] eqn:C; [|discriminate]. destruct (jhex d) as [z|] eqn:D; [|discriminate]. injection J as <-.
  apply jhex_lt in A as A', B as B', C as C', D as D'.
  apply runes_front in E as (s1 & -> & E); [|lia]. apply runes_front in E as (s2 & -> & E); [|lia].
  apply runes_front in E as (s3 & -> & E); [|assumption]. apply runes_front in E as (s4 & -> & E); [|assumption].
  apply runes_front in E as (s5 & -> & E); [|assumption]. apply runes_front in E as (s6 & -> & E); [|assumption].
  exists (n2b a), (n2b b), (n2b c), (n2b d), s6. split; [|split; [reflexivity|exact E]].
  exists w, x, y, z. rewrite <- !jhex_hex, !b2n_n2b_small by lia. auto.
Qed.

Lemma unescape_points l s : string_chars l s -> forall f, (length (runes s) <= f)%nat -> unescape f (runes s) = l.
Proof.
  induction 1 as [|c b l s C H IH|b l s B N H IH|a b c d n l s X R N H IH]; intros f F.
  - destruct f; reflexivity.
  - destruct C as [c S L Q K|e c E|a b d e n X S|a b d e a' b' d' e' h o X Y P1 P2].
    + rewrite runes_utf8 in * by assumption. destruct f as [|f]; [cbn in F; lia|]. cbn [unescape].
      replace (c =? 92) with false by lia. rewrite IH by (cbn in F; lia). reflexivity.
    + assert (b2n e < 128 /\ b2n e <> 0x75) as (E1 & E2) by (destruct e; try discriminate E; cbn; lia).
      cbn [app] in *. rewrite (runes_ascii x5c), (runes_ascii e) in * by (try assumption; cbn; lia).
      destruct f as [|f]; [cbn in F; lia|]. cbn [unescape]. change (b2n x5c =? 92) with true. cbn iota.
      replace (getu4 (b2n x5c :: b2n e :: runes s)) with (@None (N * list N)).
      2:{ cbn [getu4]. destruct (runes s) as [|? [|? [|? [|? ?]]]]; try reflexivity. replace (b2n e =? 0x75) with false by lia. rewrite andb_false_r. reflexivity. }
      rewrite jescape_short, E, IH by (cbn in F; lia). reflexivity.
    + rewrite (runes_u _ _ _ _ _ _ X) in *. destruct f as [|f]; [cbn in F; lia|].
      cbn [unescape app]. change (92 =? 92) with true. cbn iota.
      change (92 :: 117 :: b2n a :: b2n b :: b2n d :: b2n e :: runes s) with ([92; 117; b2n a; b2n b; b2n d; b2n e] ++ runes s).
      rewrite (getu4_u _ _ _ _ _ _ X). unfold inr. replace ((55296 <=? n) && (n <=? 57343)) with false by (destruct S; lia).
      rewrite IH by (cbn [app length] in F; lia). reflexivity.
    + change ([x5c; x75; a; b; d; e; x5c; x75; a'; b'; d'; e'] ++ s) with ([x5c; x75; a; b; d; e] ++ [x5c; x75; a'; b'; d'; e'] ++ s) in *.
      rewrite (runes_u _ _ _ _ _ _ X), (runes_u _ _ _ _ _ _ Y) in *. destruct f as [|f]; [cbn in F; lia|].
      cbn [unescape app]. change (92 =? 92) with true. cbn iota.
      change (92 :: 117 :: b2n a :: b2n b :: b2n d :: b2n e :: 92 :: 117 :: b2n a' :: b2n b' :: b2n d' :: b2n e' :: runes s)
        with ([92; 117; b2n a; b2n b; b2n d; b2n e] ++ [92; 117; b2n a'; b2n b'; b2n d'; b2n e'] ++ runes s).
      rewrite (getu4_u _ _ _ _ _ _ X), (getu4_u _ _ _ _ _ _ Y). unfold inr.
      replace ((55296 <=? h) && (h <=? 57343)) with true by lia. replace ((55296 <=? h) && (h <=? 56319) && ((56320 <=? o) && (o <=? 57343))) with true by lia.
      rewrite IH by (cbn [app length] in F; lia). reflexivity.
  - rewrite runes_bad in * by exact N. destruct f as [|f]; [cbn in F; lia|]. cbn [unescape]. change (65533 =? 92) with false. cbn iota.
    rewrite IH by (cbn in F; lia). reflexivity.
  - rewrite (runes_u _ _ _ _ _ _ X) in *. destruct f as [|f]; [cbn in F; lia|].
    cbn [unescape app]. change (92 =? 92) with true. cbn iota.
    change (92 :: 117 :: b2n a :: b2n b :: b2n c :: b2n d :: runes s) with ([92; 117; b2n a; b2n b; b2n c; b2n d] ++ runes s).
    rewrite (getu4_u _ _ _ _ _ _ X). unfold inr. replace ((55296 <=? n) && (n <=? 57343)) with true by lia.
    assert (unescape f (runes s) = l) as IH' by (apply IH; cbn [app length] in F; lia).
    destruct (getu4 (runes s)) as [[lo t']|] eqn:G; [|rewrite IH'; reflexivity].
    apply getu4_inv in G as (a' & b' & c' & d' & s' & Y & E & _).
    destruct ((55296 <=? n) && (n <=? 56319) && ((56320 <=? lo) && (lo <=? 57343))) eqn:Z; [|rewrite IH'; reflexivity].
    exfalso. eapply (N ltac:(lia)); [exact Y|lia|exact E].
Qed.

Lemma points_chars l s : string_chars l s -> points s = l.
Proof. intro H. unfold points. apply unescape_points; [exact H|lia]. Qed.
Lemma chars_points s : string_body s -> string_chars (points s) s.
Proof. intros (l & H). rewrite (points_chars l s H). exact H. Qed.
Lemma junquote_says s t : string_says s t -> junquote s = t.
Proof.
  intros (l & H & ->). unfold junquote. rewrite (points_chars l s H). unfold utf8s.
  clear H. induction l as [|c l IH]; [reflexivity|]. cbn. rewrite enc_rune_utf8, IH. reflexivity.
Qed.
Lemma says_junquote s : string_body s -> string_says s (junquote s).
Proof. intro H. destruct H as (l & H). replace (junquote s) with (utf8s l); [exists l; auto|]. symmetry. apply junquote_says. exists l; auto. Qed.

(** ** White space *)

Lemma jspace_ws b : jspace b = true <-> is_ws b.
Proof.
  unfold jspace, is_ws. rewrite !orb_true_iff, !byte_eqb_spec. tauto.
Qed.
Lemma jskip_ws w s : ws w -> jskip (w ++ s) = jskip s.
Proof. induction 1 as [|b w B W IH]; [reflexivity|]. cbn [app jskip]. apply jspace_ws in B. rewrite B. exact IH. Qed.
Lemma jskip_stop b s : jspace b = false -> jskip (b :: s) = b :: s.
Proof. intro H. cbn. rewrite H. reflexivity. Qed.
Lemma jskip_split s : exists w, ws w /\ s = w ++ jskip s.
Proof.
  induction s as [|b s (w & W & E)]; [exists []; split; [constructor|reflexivity]|].
  cbn [jskip]. destruct (jspace b) eqn:B.
  - exists (b :: w). split; [constructor; [apply jspace_ws; exact B|exact W]|]. cbn. rewrite <- E. reflexivity.
  - exists []. split; [constructor|reflexivity].
Qed.
Lemma jskip_len s : (length (jskip s) <= length s)%nat.
Proof. induction s as [|b s IH]; [cbn; lia|]. cbn [jskip]. destruct (jspace b); cbn [length]; lia. Qed.

(** ** Numbers *)

Lemma jdigit_digit b : jdigit b = true <-> digit b.
Proof. unfold jdigit, digit. apply inr_spec. Qed.

Definition no_digit (t : bytes) : Prop := match t with b :: _ => jdigit b = false | [] => True end.

Lemma span_digits l t : Forall digit l -> no_digit t -> span (l ++ t) = (l, t).
Proof.
  intros D N. induction D as [|b l B D IH].
  - destruct t as [|b t]; [reflexivity|]. cbn in *. rewrite N. reflexivity.
  - cbn. apply jdigit_digit in B. rewrite B, IH. reflexivity.
Qed.
Lemma span_inv s l t : span s = (l, t) -> s = l ++ t /\ Forall digit l /\ no_digit t.
Proof.
  revert l t. induction s as [|b s IH]; intros l t H.
  - cbn in H. injection H as <- <-. repeat split. constructor.
  - cbn in H. destruct (jdigit b) eqn:B.
    + destruct (span s) as [d u] eqn:S. injection H as <- <-. destruct (IH _ _ eq_refl) as (-> & D & N).
      split; [reflexivity|]. split; [constructor; [apply jdigit_digit; exact B|exact D]|exact N].
    + injection H as <- <-. repeat split; [constructor|exact B].
Qed.
Lemma digits1_ok l t : digits_text l -> no_digit t -> digits1 (l ++ t) = Some (l, t).
Proof. intros (N & D) S. unfold digits1. rewrite span_digits by assumption. destruct l; [contradiction|reflexivity]. Qed.
Lemma digits1_inv s l t : digits1 s = Some (l, t) -> s = l ++ t /\ digits_text l /\ no_digit t.
Proof.
  unfold digits1. destruct (span s) as [d u] eqn:S. destruct d as [|b d]; [discriminate|]. intro H; injection H as <- <-.
  apply span_inv in S as (-> & D & N). repeat split; [discriminate|exact D|exact N].
Qed.

(** What may follow a number inside a document. *)
Definition closes (t : bytes) : Prop :=
  match t with b :: _ => is_ws b \/ b = x2c \/ b = x5d \/ b = x7d | [] => True end.
Lemma closes_not t : closes t -> no_digit t /\ hd_error t <> Some x2e /\ hd_error t <> Some x65 /\ hd_error t <> Some x45.
Proof.
  destruct t as [|b t]; [intros _; repeat split; discriminate|]. cbn.
  intros [[->|[->|[->| ->]]]|[->|[->| ->]]]; repeat split; discriminate.
Qed.

Lemma exp_ok e t : (e = [] \/ (exists b s x, (b = x65 \/ b = x45) /\ (s = [] \/ s = [x2b] \/ s = [x2d]) /\ digits_text x /\ e = b :: s ++ x)) ->
  closes t -> exp_part (e ++ t) = Some (e, t).
Proof.
  intros [->|(b & s & x & B & S & D & ->)] C; apply closes_not in C as (C1 & C2 & C3 & C4).
  - destruct t as [|b t]; [reflexivity|]. cbn [app exp_part]. cbn in C3, C4.
    destruct (beq_spec b x65); [congruence|]. destruct (beq_spec b x45); [congruence|]. reflexivity.
  - cbn [app exp_part]. replace (Byte.eqb b x65 || Byte.eqb b x45) with true by (destruct B as [->| ->]; reflexivity).
    rewrite <- app_assoc. destruct S as [->|[->| ->]].
    + cbn [app]. destruct D as (N & D). destruct x as [|c x]; [contradiction|]. cbn [app].
      assert (digit c) as Dc by (inversion D; assumption).
      destruct (beq_spec c x2b) as [->|]; [unfold digit in Dc; cbn in Dc; lia|]. destruct (beq_spec c x2d) as [->|]; [unfold digit in Dc; cbn in Dc; lia|].
      cbn [orb]. change (c :: x ++ t) with ((c :: x) ++ t). rewrite digits1_ok; [reflexivity|split; [discriminate|exact D]|exact C1].
    + cbn [app]. change (Byte.eqb x2b x2b || Byte.eqb x2b x2d) with true. cbn iota. rewrite digits1_ok by assumption. reflexivity.
    + cbn [app]. change (Byte.eqb x2d x2b || Byte.eqb x2d x2d) with true. cbn iota. rewrite digits1_ok by assumption. reflexivity.
Qed.
Lemma exp_inv s e t : exp_part s = Some (e, t) ->
  s = e ++ t /\ (e = [] \/ (exists b s x, (b = x65 \/ b = x45) /\ (s = [] \/ s = [x2b] \/ s = [x2d]) /\ digits_text x /\ e = b :: s ++ x)).
Proof.
  unfold exp_part. destruct s as [|b r]; [intro H; injection H as <- <-; auto|].
  destruct (Byte.eqb b x65 || Byte.eqb b x45) eqn:B.
  - assert (b = x65 \/ b = x45) as B' by (rewrite orb_true_iff, !byte_eqb_spec in B; exact B).
    destruct r as [|c r]; [discriminate|]. destruct (Byte.eqb c x2b || Byte.eqb c x2d) eqn:S; intro H; apply pre_inv in H as (y & H & ->);
      apply digits1_inv in H as (E & D & _).
    + rewrite E. split; [reflexivity|]. right. exists b, [c], y. split; [exact B'|]. split; [|split; [exact D|reflexivity]].
      rewrite orb_true_iff, !byte_eqb_spec in S. destruct S as [->| ->]; auto.
    + rewrite E. split; [reflexivity|]. right. exists b, [], y. auto.
  - intro H; injection H as <- <-. auto.
Qed.

Lemma frac_ok f t : (f = [] \/ (exists x, digits_text x /\ f = x2e :: x)) -> no_digit t -> (f = [] -> hd_error t <> Some x2e) -> frac_part (f ++ t) = Some (f, t).
Proof.
  intros [->|(x & D & ->)] N C.
  - destruct t as [|b t]; [reflexivity|]. cbn [app frac_part]. destruct (beq_spec b x2e) as [->|]; [exfalso; apply C; reflexivity|reflexivity].
  - cbn [app frac_part]. rewrite byte_eqb_refl, digits1_ok by assumption. reflexivity.
Qed.
Lemma frac_inv s f t : frac_part s = Some (f, t) -> s = f ++ t /\ (f = [] \/ (exists x, digits_text x /\ f = x2e :: x)).
Proof.
  unfold frac_part. destruct s as [|b r]; [intro H; injection H as <- <-; auto|].
  destruct (beq_spec b x2e) as [->|]; intro H.
  - apply pre_inv in H as (y & H & ->). apply digits1_inv in H as (-> & D & _). split; [reflexivity|]. right. exists y. auto.
  - injection H as <- <-. auto.
Qed.
Lemma int_ok i t : (i = [x30] \/ (digits_text i /\ hd_error i <> Some x30)) -> no_digit t -> int_part (i ++ t) = Some (i, t).
Proof.
  intros [->|(D & H)] N; [reflexivity|]. pose proof D as D0. destruct D as (E & D). destruct i as [|b i]; [contradiction|].
  cbn [app int_part]. destruct (beq_spec b x30) as [->|]; [exfalso; apply H; reflexivity|]. change (b :: i ++ t) with ((b :: i) ++ t). apply digits1_ok; assumption.
Qed.
Lemma int_inv s i t : int_part s = Some (i, t) -> s = i ++ t /\ (i = [x30] \/ (digits_text i /\ hd_error i <> Some x30)).
Proof.
  unfold int_part. destruct s as [|b r]; [discriminate|]. destruct (beq_spec b x30) as [->|N]; intro H.
  - injection H as <- <-. auto.
  - apply digits1_inv in H as (E & D & _). split; [exact E|]. right. split; [exact D|]. destruct D as (X & D). destruct i as [|c i]; [contradiction|].
    injection E as <- _. cbn. congruence.
Qed.
Lemma part_inv o f x t : then_part o f = Some (x, t) -> exists a y u, o = Some (a, u) /\ f u = Some (y, t) /\ x = a ++ y.
Proof. destruct o as [[a u]|]; [|discriminate]. cbn. intro H. apply pre_inv in H as (y & H & ->). eauto 6. Qed.

Lemma unsigned_ok i f e t :
  (i = [x30] \/ (digits_text i /\ hd_error i <> Some x30)) -> (f = [] \/ (exists x, digits_text x /\ f = x2e :: x)) ->
  (e = [] \/ (exists b s x, (b = x65 \/ b = x45) /\ (s = [] \/ s = [x2b] \/ s = [x2d]) /\ digits_text x /\ e = b :: s ++ x)) ->
  closes t -> unsigned ((i ++ f ++ e) ++ t) = Some (i ++ f ++ e, t).
Proof.
  intros I F E C. pose proof (closes_not t C) as (C1 & C2 & _).
  assert (no_digit (e ++ t) /\ hd_error (e ++ t) <> Some x2e) as (N1 & N2).
  { destruct E as [->|(b & s & x & B & _ & _ & ->)]; [auto|]. cbn. destruct B as [->| ->]; split; (reflexivity || discriminate). }
  assert (no_digit (f ++ e ++ t)) as N3. { destruct F as [->|(x & _ & ->)]; [exact N1|reflexivity]. }
  unfold unsigned. rewrite <- !app_assoc. rewrite int_ok by assumption. cbn [then_part]. rewrite frac_ok by auto. cbn [then_part]. rewrite exp_ok by assumption. reflexivity.
Qed.
Lemma unsigned_inv s x t : unsigned s = Some (x, t) -> exists i f e, s = x ++ t /\ x = i ++ f ++ e /\
  (i = [x30] \/ (digits_text i /\ hd_error i <> Some x30)) /\ (f = [] \/ (exists x, digits_text x /\ f = x2e :: x)) /\
  (e = [] \/ (exists b s x, (b = x65 \/ b = x45) /\ (s = [] \/ s = [x2b] \/ s = [x2d]) /\ digits_text x /\ e = b :: s ++ x)).
Proof.
  intro H. apply part_inv in H as (i & y & u & A & H & ->). apply part_inv in H as (f & e & v & B & C & ->).
  apply int_inv in A as (-> & I). apply frac_inv in B as (-> & F). apply exp_inv in C as (-> & E).
  exists i, f, e. rewrite <- !app_assoc. auto 6.
Qed.

Lemma jnumber_complete n t : number_text n -> closes t -> jnumber (n ++ t) = Some (n, t).
Proof.
  intros [sign i f e S I F E] C. pose proof (unsigned_ok i f e t I F E C) as U.
  destruct S as [->| ->].
  - cbn [app]. unfold jnumber. destruct ((i ++ f ++ e) ++ t) as [|b r] eqn:Q.
    + exact U.
    + destruct (beq_spec b x2d) as [->|]; [exfalso|exact U].
      destruct I as [->|((N & D) & _)]; [discriminate|]. destruct i as [|c i]; [contradiction|]. injection Q as -> _.
      inversion D as [|? ? Dc _]; subst. unfold digit in Dc. cbn in Dc. lia.
  - cbn [app jnumber]. rewrite byte_eqb_refl, U. reflexivity.
Qed.
Lemma jnumber_sound s n t : jnumber s = Some (n, t) -> s = n ++ t /\ number_text n.
Proof.
  unfold jnumber. destruct s as [|b r]; [discriminate|]. destruct (beq_spec b x2d) as [->|]; intro H.
  - apply pre_inv in H as (y & H & ->). apply unsigned_inv in H as (i & f & e & -> & -> & I & F & E).
    split; [reflexivity|]. change ([x2d] ++ i ++ f ++ e) with ([x2d] ++ i ++ f ++ e). constructor; auto.
  - apply unsigned_inv in H as (i & f & e & -> & -> & I & F & E). split; [reflexivity|]. change (i ++ f ++ e) with ([] ++ i ++ f ++ e). constructor; auto.
Qed.
Lemma number_head n : number_text n -> exists b r, n = b :: r /\ (digit b \/ b = x2d).
Proof.
  intros [sign i f e [->| ->] I F E]; [|eexists _, _; split; [reflexivity|auto]].
  destruct I as [->|((N & D) & _)]; [eexists _, _; split; [reflexivity|left; unfold digit; cbn; lia]|].
  destruct i as [|b i]; [contradiction|]. inversion D; subst. eexists _, _; split; [reflexivity|auto].
Qed.

(** ** Values *)

Scheme doc_text_mut := Minimality for doc_text Sort Prop
  with doc_elements_mut := Minimality for doc_elements Sort Prop
  with doc_members_mut := Minimality for doc_members Sort Prop.
Combined Scheme doc_mut from doc_text_mut, doc_elements_mut, doc_members_mut.

Definition nests (l : list jv) : N := fold_right (fun x m => N.max (nesting x) m) 0 l.
Definition nestm (l : list (bytes * jv)) : N := fold_right (fun x m => match x with (_, y) => N.max (nesting y) m end) 0 l.

Lemma doc_head v b : doc_text v b -> exists c r, b = c :: r /\ jspace c = false /\ c <> x5d /\ c <> x7d.
Proof.
  intros [| | |n N|s S|w W|l e E|w W|l e E]; try (eexists _, _; split; [reflexivity|]; split; [reflexivity|]; split; discriminate).
  apply number_head in N as (c & r & -> & [D| ->]); eexists _, _; (split; [reflexivity|]).
  - unfold digit in D. split; [|split; intros ->; cbn in D; lia].
    destruct (jspace c) eqn:J; [|reflexivity]. apply jspace_ws in J. destruct J as [->|[->|[->| ->]]]; cbn in D; lia.
  - split; [reflexivity|]; split; discriminate.
Qed.

Lemma ws_closes w t : ws w -> closes t -> closes (w ++ t).
Proof. intros [|b l B _] C; [exact C|]. cbn. auto. Qed.

Lemma jskip_doc w v b t : ws w -> doc_text v b -> jskip (w ++ b ++ t) = b ++ t.
Proof.
  intros W D. rewrite jskip_ws by assumption. apply doc_head in D as (c & r & -> & J & _). cbn [app]. apply jskip_stop; exact J.
Qed.
Lemma jskip_to w c t : ws w -> jspace c = false -> jskip (w ++ c :: t) = c :: t.
Proof. intros W J. rewrite jskip_ws by assumption. apply jskip_stop; exact J. Qed.

Lemma value_number m f d n t : number_text n -> closes t -> jvalue m (S f) d (n ++ t) = Some (VNum n, t).
Proof.
  intros N C. pose proof (number_head n N) as (b & r & E & D). pose proof (jnumber_complete n t N C) as J. rewrite E in *. cbn [app] in *.
  cbn [jvalue]. 
  assert (forall x, In x [x22; x5b; x7b; x6e; x74; x66] -> Byte.eqb b x = false) as K.
  { intros x Hx. destruct (beq_spec b x) as [Q|]; [exfalso|reflexivity]. clear - D Q Hx. cbn in Hx.
    repeat (destruct Hx as [Hx|Hx]; [subst; destruct D as [D|D]; [unfold digit in D; cbn in D; lia|discriminate]|]). exact Hx. }
  rewrite (K x22), (K x5b), (K x7b) by (cbn; auto).
  change (str "null") with (x6e :: str "ull"). change (str "true") with (x74 :: str "rue"). change (str "false") with (x66 :: str "alse").
  cbn [has_prefix]. 
  assert (forall x, In x [x22; x5b; x7b; x6e; x74; x66] -> Byte.eqb x b = false) as K'.
  { intros x Hx. specialize (K x Hx). destruct (beq_spec x b) as [->|]; [rewrite byte_eqb_refl in K; discriminate|reflexivity]. }
  rewrite (K' x6e), (K' x74), (K' x66) by (cbn; auto 10). cbn [andb]. rewrite J. reflexivity.
Qed.

Lemma doc_complete m :
  (forall v b, doc_text v b -> forall f d t, (2 * length b <= f)%nat -> nesting v + d <= m ->
     (forall n, v = VNum n -> closes t) -> jvalue m f d (b ++ t) = Some (v, t)) /\
  (forall l e, doc_elements l e -> forall f d t, (2 * length e + 1 <= f)%nat -> nests l + d <= m ->
     jelems m f d (e ++ x5d :: t) = Some (l, t) /\ exists c r, jskip (e ++ x5d :: t) = c :: r /\ c <> x5d) /\
  (forall l e, doc_members l e -> forall f d t, (2 * length e + 1 <= f)%nat -> nestm l + d <= m ->
     jmembers m f d (e ++ x7d :: t) = Some (l, t) /\ exists c r, jskip (e ++ x7d :: t) = c :: r /\ c <> x7d).
Proof.
  apply doc_mut.
  - intros f d t F _ _. destruct f; [cbn in F; lia|]. reflexivity.
  - intros f d t F _ _. destruct f; [cbn in F; lia|]. reflexivity.
  - intros f d t F _ _. destruct f; [cbn in F; lia|]. reflexivity.
  - intros n N f d t F _ C. destruct f; [|apply value_number; [exact N|exact (C n eq_refl)]].
    destruct (number_head n N) as (b & r & -> & _). cbn in F. lia.
  - intros s S f d t F _ _. destruct f; [cbn in F; lia|]. rewrite <- !app_assoc. cbn [app jvalue]. rewrite byte_eqb_refl.
    rewrite jstring_complete by (apply rawp_body; exact S). reflexivity.
  - intros w W f d t F D _. destruct f; [cbn in F; lia|]. rewrite <- !app_assoc. cbn [app jvalue].
    change (Byte.eqb x5b x22) with false. rewrite byte_eqb_refl. cbn iota.  cbn [nesting fold_right] in D.
    replace (m <=? d) with false by lia. rewrite jskip_to by (try assumption; reflexivity). rewrite byte_eqb_refl. reflexivity.
  - intros l e _ IH f d t F D _. destruct f; [cbn in F; lia|]. rewrite <- !app_assoc. cbn [app jvalue].
    change (Byte.eqb x5b x22) with false. rewrite byte_eqb_refl. cbn iota.  change (nesting (VArr l)) with (1 + nests l) in D.
    replace (m <=? d) with false by lia. cbn [length app] in F. rewrite app_length in F. cbn [length] in F.
    destruct (IH f (d + 1) t ltac:(lia) ltac:(lia)) as (J & c & r & K & N). rewrite K.
    destruct (beq_spec c x5d); [contradiction|]. rewrite J. reflexivity.
  - intros w W f d t F D _. destruct f; [cbn in F; lia|]. rewrite <- !app_assoc. cbn [app jvalue].
    change (Byte.eqb x7b x22) with false. change (Byte.eqb x7b x5b) with false. rewrite byte_eqb_refl. cbn iota.  cbn [nesting fold_right] in D.
    replace (m <=? d) with false by lia. rewrite jskip_to by (try assumption; reflexivity). rewrite byte_eqb_refl. reflexivity.
  - intros l e _ IH f d t F D _. destruct f; [cbn in F; lia|]. rewrite <- !app_assoc. cbn [app jvalue].
    change (Byte.eqb x7b x22) with false. change (Byte.eqb x7b x5b) with false. rewrite byte_eqb_refl. cbn iota.  change (nesting (VObj l)) with (1 + nestm l) in D.
    replace (m <=? d) with false by lia. cbn [length app] in F. rewrite app_length in F. cbn [length] in F.
    destruct (IH f (d + 1) t ltac:(lia) ltac:(lia)) as (J & c & r & K & N). rewrite K.
    destruct (beq_spec c x7d); [contradiction|]. rewrite J. reflexivity.
  - intros v w b w' W V IH W' f d t F D. rewrite <- !app_assoc. rewrite !app_length in F. cbn [nests fold_right] in D.
    rewrite (jskip_doc w v b) by assumption. split.
    + destruct f as [|f]; [lia|]. cbn [jelems]. rewrite (jskip_doc w v b) by assumption.
      rewrite IH; [|lia|lia|intros; apply ws_closes; [assumption|cbn; auto]].
      rewrite jskip_to by (try assumption; reflexivity). change (Byte.eqb x5d x2c) with false. rewrite byte_eqb_refl. reflexivity.
    + apply doc_head in V as (c & r & -> & _ & N & _). eexists _, _. split; [reflexivity|exact N].
  - intros v l w b w' r W V IH W' _ IHl f d t F D. rewrite <- !app_assoc. rewrite !app_length in F. cbn [length] in F. change (nests (v :: l)) with (N.max (nesting v) (nests l)) in D.
    rewrite (jskip_doc w v b) by assumption. split.
    + destruct f as [|f]; [lia|]. cbn [jelems]. rewrite (jskip_doc w v b) by assumption.
      rewrite IH; [|lia|lia|intros; apply ws_closes; [assumption|cbn; auto]].
      cbn [app]. rewrite jskip_to by (try assumption; reflexivity). rewrite byte_eqb_refl.
      destruct (IHl f d t ltac:(lia) ltac:(lia)) as (J & _). rewrite J. reflexivity.
    + apply doc_head in V as (c & r0 & -> & _ & N & _). eexists _, _. split; [reflexivity|exact N].
  - intros k v w w1 w2 b w' W K W1 W2 V IH W' f d t F D. rewrite <- !app_assoc. rewrite !app_length in F. cbn [length] in F. cbn [nestm fold_right] in D.
    cbn [app]. rewrite jskip_to by (try assumption; reflexivity). split; [|eexists _, _; split; [reflexivity|discriminate]].
    destruct f as [|f]; [lia|]. cbn [jmembers]. rewrite jskip_to by (try assumption; reflexivity). rewrite byte_eqb_refl.
    rewrite jstring_complete by (apply rawp_body; exact K). rewrite jskip_to by (try assumption; reflexivity). rewrite byte_eqb_refl.
    rewrite (jskip_doc w2 v b) by assumption. rewrite IH; [|lia|lia|intros; apply ws_closes; [assumption|cbn; auto]].
    rewrite jskip_to by (try assumption; reflexivity). change (Byte.eqb x7d x2c) with false. rewrite byte_eqb_refl. reflexivity.
  - intros k v l w w1 w2 b w' r W K W1 W2 V IH W' _ IHl f d t F D. rewrite <- !app_assoc. rewrite !app_length in F. cbn [length] in F.
    change (nestm ((k, v) :: l)) with (N.max (nesting v) (nestm l)) in D.
    cbn [app]. rewrite jskip_to by (try assumption; reflexivity). split; [|eexists _, _; split; [reflexivity|discriminate]].
    destruct f as [|f]; [lia|]. cbn [jmembers]. rewrite jskip_to by (try assumption; reflexivity). rewrite byte_eqb_refl.
    rewrite jstring_complete by (apply rawp_body; exact K). rewrite jskip_to by (try assumption; reflexivity). rewrite byte_eqb_refl.
    rewrite (jskip_doc w2 v b) by assumption. rewrite IH; [|lia|lia|intros; apply ws_closes; [assumption|cbn; auto]].
    rewrite jskip_to by (try assumption; reflexivity). rewrite byte_eqb_refl.
    destruct (IHl f d t ltac:(lia) ltac:(lia)) as (J & _). rewrite J. reflexivity.
Qed.

Lemma prefix_split p s : has_prefix p s = true -> s = p ++ skipn (length p) s.
Proof.
  revert s. induction p as [|b p IH]; intros s H; [reflexivity|]. destruct s as [|c s]; [discriminate|].
  cbn in H. apply andb_true_iff in H as (A & B). apply byte_eqb_spec in A as ->. cbn. f_equal. apply IH; exact B.
Qed.

Lemma doc_sound m f :
  (forall d s v t, d <= m -> jvalue m f d s = Some (v, t) -> exists b, s = b ++ t /\ doc_text v b /\ nesting v + d <= m) /\
  (forall d s l t, d <= m -> jelems m f d s = Some (l, t) -> exists e, s = e ++ x5d :: t /\ doc_elements l e /\ nests l + d <= m) /\
  (forall d s l t, d <= m -> jmembers m f d s = Some (l, t) -> exists e, s = e ++ x7d :: t /\ doc_members l e /\ nestm l + d <= m).
Proof.
  induction f as [|f (IHv & IHe & IHm)]; [repeat split; intros; discriminate|].
  split; [|split].
  - intros d s v t D H. cbn [jvalue] in H. destruct s as [|b r]; [discriminate|].
    destruct (beq_spec b x22) as [->|]; [|destruct (beq_spec b x5b) as [->|]; [|destruct (beq_spec b x7b) as [->|]]].
    + destruct (jstring r) as [[x u]|] eqn:J; [|discriminate]. injection H as <- <-. apply jstring_sound in J as (-> & R).
      exists ([x22] ++ x ++ [x22]). split; [cbn; rewrite <- app_assoc; reflexivity|]. split; [apply doc_string; apply rawp_body; exact R|cbn [nesting]; lia].
    +  destruct (N.leb_spec m d); [discriminate|]. destruct (jskip r) as [|c u] eqn:K; [discriminate|].
      destruct (jskip_split r) as (w & W & E). rewrite K in E. destruct (beq_spec c x5d) as [->|].
      * injection H as <- <-. exists ([x5b] ++ w ++ [x5d]). split; [cbn; rewrite E, <- app_assoc; reflexivity|]. split; [apply doc_array_empty; exact W|cbn [nesting fold_right]; lia].
      * destruct (jelems m f (d + 1) r) as [[l u']|] eqn:J; [|discriminate]. injection H as <- <-.
        apply IHe in J as (e & -> & X & N); [|lia]. exists ([x5b] ++ e ++ [x5d]). split; [cbn; rewrite <- app_assoc; reflexivity|].
        split; [apply doc_array; exact X|change (nesting (VArr l)) with (1 + nests l); lia].
    +  destruct (N.leb_spec m d); [discriminate|]. destruct (jskip r) as [|c u] eqn:K; [discriminate|].
      destruct (jskip_split r) as (w & W & E). rewrite K in E. destruct (beq_spec c x7d) as [->|].
      * injection H as <- <-. exists ([x7b] ++ w ++ [x7d]). split; [cbn; rewrite E, <- app_assoc; reflexivity|]. split; [apply doc_object_empty; exact W|cbn [nesting fold_right]; lia].
      * destruct (jmembers m f (d + 1) r) as [[l u']|] eqn:J; [|discriminate]. injection H as <- <-.
        apply IHm in J as (e & -> & X & N); [|lia]. exists ([x7b] ++ e ++ [x7d]). split; [cbn; rewrite <- app_assoc; reflexivity|].
        split; [apply doc_object; exact X|change (nesting (VObj l)) with (1 + nestm l); lia].
    + destruct (has_prefix (str "null") (b :: r)) eqn:P1.
      { apply prefix_split in P1. injection H as <- <-. exists (str "null"). split; [exact P1|]. split; [constructor|cbn [nesting]; lia]. }
      destruct (has_prefix (str "true") (b :: r)) eqn:P2.
      { apply prefix_split in P2. injection H as <- <-. exists (str "true"). split; [exact P2|]. split; [constructor|cbn [nesting]; lia]. }
      destruct (has_prefix (str "false") (b :: r)) eqn:P3.
      { apply prefix_split in P3. injection H as <- <-. exists (str "false"). split; [exact P3|]. split; [constructor|cbn [nesting]; lia]. }
      destruct (jnumber (b :: r)) as [[x u]|] eqn:J; [|discriminate]. injection H as <- <-. apply jnumber_sound in J as (E & N).
      exists x. split; [exact E|]. split; [constructor; exact N|cbn [nesting]; lia].
  - intros d s l t D H. cbn [jelems] in H. destruct (jvalue m f d (jskip s)) as [[v r]|] eqn:V; [|discriminate].
    destruct (jskip_split s) as (w & W & E). apply IHv in V as (b & V & X & N); [|exact D]. rewrite V in E.
    destruct (jskip_split r) as (w' & W' & E'). destruct (jskip r) as [|c u]; [discriminate|].
    destruct (beq_spec c x2c) as [->|]; [|destruct (beq_spec c x5d) as [->|]; [|discriminate]].
    + destruct (jelems m f d u) as [[l' u']|] eqn:J; [|discriminate]. injection H as <- <-. apply IHe in J as (e & -> & Y & M); [|exact D].
      exists (w ++ b ++ w' ++ [x2c] ++ e). split; [rewrite E, E'; rewrite <- !app_assoc; reflexivity|].
      split; [constructor; assumption|change (nests (v :: l')) with (N.max (nesting v) (nests l')); lia].
    + injection H as <- <-. exists (w ++ b ++ w'). split; [rewrite E, E'; rewrite <- !app_assoc; reflexivity|].
      split; [constructor; assumption|cbn [nests fold_right]; lia].
  - intros d s l t D H. cbn [jmembers] in H. destruct (jskip_split s) as (w & W & E). destruct (jskip s) as [|q r]; [discriminate|].
    destruct (beq_spec q x22) as [->|]; [|discriminate]. destruct (jstring r) as [[k r1]|] eqn:K; [|discriminate]. apply jstring_sound in K as (-> & K).
    destruct (jskip_split r1) as (w1 & W1 & E1). destruct (jskip r1) as [|c r2]; [discriminate|].
    destruct (beq_spec c x3a) as [->|]; [|discriminate]. destruct (jvalue m f d (jskip r2)) as [[v r3]|] eqn:V; [|discriminate].
    destruct (jskip_split r2) as (w2 & W2 & E2). apply IHv in V as (b & V & X & N); [|exact D]. rewrite V in E2.
    destruct (jskip_split r3) as (w' & W' & E'). destruct (jskip r3) as [|e u]; [discriminate|]. apply rawp_body in K.
    destruct (beq_spec e x2c) as [->|]; [|destruct (beq_spec e x7d) as [->|]; [|discriminate]].
    + destruct (jmembers m f d u) as [[l' u']|] eqn:J; [|discriminate]. injection H as <- <-. apply IHm in J as (e & -> & Y & M); [|exact D].
      exists (w ++ [x22] ++ k ++ [x22] ++ w1 ++ [x3a] ++ w2 ++ b ++ w' ++ [x2c] ++ e).
      split; [rewrite E, E1, E2, E'; repeat (rewrite <- !app_assoc; cbn [app]); reflexivity|].
      split; [constructor; assumption|change (nestm ((k, v) :: l')) with (N.max (nesting v) (nestm l')); lia].
    + injection H as <- <-. exists (w ++ [x22] ++ k ++ [x22] ++ w1 ++ [x3a] ++ w2 ++ b ++ w').
      split; [rewrite E, E1, E2, E'; repeat (rewrite <- !app_assoc; cbn [app]); reflexivity|].
      split; [constructor; assumption|cbn [nestm fold_right]; lia].
Qed.
