(** * Utf8L: Go's UTF-8 decoding agrees with SpecText.v. *)
From Coq Require Import Strings.String Strings.Byte List NArith ZArith Bool Lia ZifyBool ZifyN ZifyNat.
From Verif Require Import Base BaseL SpecBase SpecValues Utf8 Item SpecText.
Import ListNotations.
Local Open Scope N_scope.

Ltac divmod := zify; Z.to_euclidean_division_equations; lia.

Lemma enc_rune_utf8 r : enc_rune r = utf8 r.
Proof. reflexivity. Qed.

Lemma inr_spec lo hi n : inr lo hi n = true <-> lo <= n <= hi.
Proof. unfold inr. lia. Qed.

(** ** Decoding is the inverse of encoding *)

Lemma decode2_sound n0 n1 r : n0 < 256 -> n1 < 256 -> decode2 n0 n1 = Some r ->
  0x80 <= r < 0x800 /\ n0 = 192 + r / 64 /\ n1 = 128 + r mod 64.
Proof.
  unfold decode2. destruct (inr 0xC2 0xDF n0 && inr 0x80 0xBF n1) eqn:E; [|discriminate].
  unfold inr in E. intros _ _ [= <-]. split; [lia|]. divmod.
Qed.
Lemma decode3_sound n0 n1 n2 r : decode3 n0 n1 n2 = Some r ->
  (0x800 <= r < 0xD800 \/ 0xE000 <= r < 0x10000) /\ n0 = 224 + r / 4096 /\ n1 = 128 + r / 64 mod 64 /\ n2 = 128 + r mod 64.
Proof.
  unfold decode3.
  destruct (inr 0xE0 0xEF n0 && inr (if n0 =? 0xE0 then 0xA0 else 0x80) (if n0 =? 0xED then 0x9F else 0xBF) n1 && inr 0x80 0xBF n2) eqn:E; [|discriminate].
  unfold inr in E. intros [= <-].
  assert (224 <= n0 <= 239 /\ 128 <= n1 <= 191 /\ 128 <= n2 <= 191 /\ (n0 = 224 -> 160 <= n1) /\ (n0 = 237 -> n1 <= 159)) as B.
  { destruct (N.eqb_spec n0 0xE0), (N.eqb_spec n0 0xED); lia. }
  clear E. split; [lia|]. divmod.
Qed.
Lemma decode4_sound n0 n1 n2 n3 r : decode4 n0 n1 n2 n3 = Some r ->
  0x10000 <= r < 0x110000 /\ n0 = 240 + r / 262144 /\ n1 = 128 + r / 4096 mod 64 /\ n2 = 128 + r / 64 mod 64 /\ n3 = 128 + r mod 64.
Proof.
  unfold decode4.
  destruct (inr 0xF0 0xF4 n0 && inr (if n0 =? 0xF0 then 0x90 else 0x80) (if n0 =? 0xF4 then 0x8F else 0xBF) n1 && inr 0x80 0xBF n2 && inr 0x80 0xBF n3) eqn:E; [|discriminate].
  unfold inr in E. intros [= <-].
  assert (240 <= n0 <= 244 /\ 128 <= n1 <= 191 /\ 128 <= n2 <= 191 /\ 128 <= n3 <= 191 /\ (n0 = 240 -> 144 <= n1) /\ (n0 = 244 -> n1 <= 143)) as B.
  { destruct (N.eqb_spec n0 0xF0), (N.eqb_spec n0 0xF4); lia. }
  clear E. split; [lia|]. divmod.
Qed.

Lemma n2b_eq b n : b2n b = n -> b = n2b n.
Proof. intros <-. symmetry. apply n2b_b2n. Qed.

(** One step of [scan]. *)
Lemma scan_step s : s <> [] ->
  (exists r t, scalar r /\ s = utf8 r ++ t /\ scan s = Some r :: scan t) \/
  (exists t, (length t < length s)%nat /\ scan s = None :: scan t).
Proof.
  destruct s as [|b0 t0]; [congruence|]. intros _. cbn [scan].
  pose proof (b2n_lt b0) as H0.
  destruct (N.ltb_spec (b2n b0) 0x80) as [L|L].
  { left. exists (b2n b0), t0. split; [left; lia|]. split; [|reflexivity].
    unfold utf8. replace (b2n b0 <? 0x80) with true by lia. rewrite n2b_b2n. reflexivity. }
  destruct t0 as [|b1 t1]; [right; exists []; split; [cbn; lia | reflexivity]|].
  pose proof (b2n_lt b1) as H1.
  destruct (decode2 (b2n b0) (b2n b1)) as [r|] eqn:D2.
  { left. exists r, t1. destruct (decode2_sound _ _ _ H0 H1 D2) as (R & E0 & E1).
    split; [left; lia|]. split; [|reflexivity]. unfold utf8.
    replace (r <? 0x80) with false by lia. replace (r <? 0x800) with true by lia.
    rewrite <- E0, <- E1, !n2b_b2n. reflexivity. }
  destruct t1 as [|b2 t2]; [right; exists [b1]; split; [cbn; lia | reflexivity]|].
  destruct (decode3 (b2n b0) (b2n b1) (b2n b2)) as [r|] eqn:D3.
  { left. exists r, t2. destruct (decode3_sound _ _ _ _ D3) as (R & E0 & E1 & E2).
    split; [unfold scalar; lia|]. split; [|reflexivity]. unfold utf8.
    replace (r <? 0x80) with false by lia. replace (r <? 0x800) with false by lia. replace (r <? 0x10000) with true by lia.
    rewrite <- E0, <- E1, <- E2, !n2b_b2n. reflexivity. }
  destruct t2 as [|b3 t3]; [right; exists [b1; b2]; split; [cbn; lia | reflexivity]|].
  destruct (decode4 (b2n b0) (b2n b1) (b2n b2) (b2n b3)) as [r|] eqn:D4.
  { left. exists r, t3. destruct (decode4_sound _ _ _ _ _ D4) as (R & E0 & E1 & E2 & E3).
    split; [unfold scalar; lia|]. split; [|reflexivity]. unfold utf8.
    replace (r <? 0x80) with false by lia. replace (r <? 0x800) with false by lia. replace (r <? 0x10000) with false by lia.
    rewrite <- E0, <- E1, <- E2, <- E3, !n2b_b2n. reflexivity. }
  right. exists (b1 :: b2 :: b3 :: t3). split; [cbn; lia | reflexivity].
Qed.

Lemma decode2_complete r : 0x80 <= r < 0x800 -> decode2 (192 + r / 64) (128 + r mod 64) = Some r.
Proof.
  intro H. unfold decode2, inr.
  assert (2 <= r / 64 < 32 /\ r mod 64 < 64 /\ r = 64 * (r / 64) + r mod 64) as (A & B & C) by divmod.
  match goal with |- (if ?c then _ else _) = _ => replace c with true by lia end. f_equal. lia.
Qed.
Lemma decode3_complete r : (0x800 <= r < 0xD800 \/ 0xE000 <= r < 0x10000) ->
  decode3 (224 + r / 4096) (128 + r / 64 mod 64) (128 + r mod 64) = Some r.
Proof.
  intro H. unfold decode3, inr.
  assert (r / 4096 < 16 /\ r / 64 mod 64 < 64 /\ r mod 64 < 64 /\ r = 4096 * (r / 4096) + 64 * (r / 64 mod 64) + r mod 64) as (A & B & C & D) by divmod.
  assert (r / 4096 = 0 -> 32 <= r / 64 mod 64) by lia.
  assert (r / 4096 = 13 -> r / 64 mod 64 < 32) by lia.
  match goal with |- (if ?c then _ else _) = _ => replace c with true end; [f_equal; lia|].
  destruct (N.eqb_spec (224 + r / 4096) 0xE0), (N.eqb_spec (224 + r / 4096) 0xED); lia.
Qed.
Lemma decode4_complete r : 0x10000 <= r < 0x110000 ->
  decode4 (240 + r / 262144) (128 + r / 4096 mod 64) (128 + r / 64 mod 64) (128 + r mod 64) = Some r.
Proof.
  intro H. unfold decode4, inr.
  assert (r / 262144 < 5 /\ r / 4096 mod 64 < 64 /\ r / 64 mod 64 < 64 /\ r mod 64 < 64 /\ r = 262144 * (r / 262144) + 4096 * (r / 4096 mod 64) + 64 * (r / 64 mod 64) + r mod 64) as (A & B & C & D & F) by divmod.
  assert (r / 262144 = 0 -> 16 <= r / 4096 mod 64) by lia.
  assert (r / 262144 = 4 -> r / 4096 mod 64 < 16) by lia.
  match goal with |- (if ?c then _ else _) = _ => replace c with true end; [f_equal; lia|].
  destruct (N.eqb_spec (240 + r / 262144) 0xF0), (N.eqb_spec (240 + r / 262144) 0xF4); lia.
Qed.

Lemma scan_utf8 r t : scalar r -> scan (utf8 r ++ t) = Some r :: scan t.
Proof.
  intro S. unfold utf8.
  destruct (N.ltb_spec r 0x80) as [L1|L1].
  { cbn [app scan]. rewrite b2n_n2b_small by lia. replace (r <? 0x80) with true by lia. reflexivity. }
  destruct (N.ltb_spec r 0x800) as [L2|L2].
  { assert (192 + r / 64 < 256 /\ 128 + r mod 64 < 256) as [B0 B1] by divmod.
    cbn [app scan]. rewrite !b2n_n2b_small by assumption. replace (192 + r / 64 <? 0x80) with false by lia.
    rewrite decode2_complete by lia. reflexivity. }
  destruct (N.ltb_spec r 0x10000) as [L3|L3].
  { assert (224 + r / 4096 < 256 /\ 128 + r / 64 mod 64 < 256 /\ 128 + r mod 64 < 256) as (B0 & B1 & B2) by divmod.
    cbn [app scan]. rewrite !b2n_n2b_small by assumption. replace (224 + r / 4096 <? 0x80) with false by lia.
    replace (decode2 (224 + r / 4096) (128 + r / 64 mod 64)) with (@None N).
    2:{ unfold decode2, inr. replace (224 + r / 4096 <=? 0xDF) with false by lia. rewrite andb_false_r. reflexivity. }
    rewrite decode3_complete by (unfold scalar in S; lia). reflexivity. }
  assert (r < 0x110000) as L4 by (unfold scalar in S; lia).
  assert (240 + r / 262144 < 256 /\ 128 + r / 4096 mod 64 < 256 /\ 128 + r / 64 mod 64 < 256 /\ 128 + r mod 64 < 256) as (B0 & B1 & B2 & B3) by divmod.
  cbn [app scan]. rewrite !b2n_n2b_small by assumption. replace (240 + r / 262144 <? 0x80) with false by lia.
  replace (decode2 (240 + r / 262144) (128 + r / 4096 mod 64)) with (@None N).
  2:{ unfold decode2, inr. replace (240 + r / 262144 <=? 0xDF) with false by lia. rewrite andb_false_r. reflexivity. }
  replace (decode3 (240 + r / 262144) (128 + r / 4096 mod 64) (128 + r / 64 mod 64)) with (@None N).
  2:{ unfold decode3, inr. replace (240 + r / 262144 <=? 0xEF) with false by lia. rewrite andb_false_r. reflexivity. }
  rewrite decode4_complete by lia. reflexivity.
Qed.

Lemma scan_utf8s l : Forall scalar l -> scan (utf8s l) = map Some l.
Proof.
  induction 1 as [|r l Hr Hl IH]; [reflexivity|]. cbn [utf8s flat_map map]. rewrite scan_utf8 by assumption. f_equal. exact IH.
Qed.

(** Whatever the string, its valid prefixes are encodings: [scan] either is all [Some], or contains [None]. *)
Lemma scan_some n : forall s, (length s <= n)%nat -> utf8_valid s = true ->
  exists l, Forall scalar l /\ s = utf8s l /\ scan s = map Some l.
Proof.
  induction n as [|n IH]; intros s Hn V.
  { destruct s; [|cbn in Hn; lia]. exists []. repeat split; constructor. }
  destruct s as [|b s]; [exists []; repeat split; constructor|].
  destruct (scan_step (b :: s) ltac:(discriminate)) as [(r & t & Sr & E & Es)|(t & _ & Es)].
  - unfold utf8_valid in V. rewrite Es in V. cbn [forallb] in V.
    assert (length t <= n)%nat as Ht.
    { assert (1 <= length (utf8 r))%nat by (unfold utf8; repeat (match goal with |- context [if ?c then _ else _] => destruct c end); cbn; lia).
      apply (f_equal (@length _)) in E. rewrite app_length in E. lia. }
    destruct (IH t Ht V) as (l & Fl & El & Sl). exists (r :: l). repeat split.
    + constructor; assumption.
    + rewrite E, El. reflexivity.
    + rewrite Es, Sl. reflexivity.
  - unfold utf8_valid in V. rewrite Es in V. discriminate.
Qed.

Lemma utf8_valid_spec s : utf8_valid s = true <-> is_utf8 s.
Proof.
  split.
  - intro V. destruct (scan_some (length s) s (le_n _) V) as (l & F & E & _). exists l. auto.
  - intros (l & F & ->). unfold utf8_valid. rewrite scan_utf8s by assumption. clear F.
    induction l; [reflexivity|]. cbn. assumption.
Qed.

Lemma utf8s_app a b : utf8s (a ++ b) = utf8s a ++ utf8s b.
Proof. unfold utf8s. apply flat_map_app. Qed.

Lemma is_utf8_app a b : is_utf8 a -> is_utf8 b -> is_utf8 (a ++ b).
Proof.
  intros (la & Fa & ->) (lb & Fb & ->). exists (la ++ lb). rewrite utf8s_app. split; [apply Forall_app; auto|reflexivity].
Qed.
Lemma clean_app a b : clean a -> clean b -> clean (a ++ b).
Proof.
  intros (la & Fa & ->) (lb & Fb & ->). exists (la ++ lb). rewrite utf8s_app. split; [apply Forall_app; auto|reflexivity].
Qed.
Lemma clean_is_utf8 s : clean s -> is_utf8 s.
Proof. intros (l & F & E). exists l. split; [|assumption]. eapply Forall_impl; [|exact F]. intros c Hc. apply Hc. Qed.

(** Printable ASCII. *)
Definition printable (b : byte) : bool := (0x20 <=? b2n b) && (b2n b <=? 0x7e).
Lemma clean_nil : clean [].
Proof. exists []. split; [constructor|reflexivity]. Qed.
Lemma clean_byte b : printable b = true -> clean [b].
Proof.
  intro H. unfold printable in H. exists [b2n b]. split.
  - constructor; [|constructor]. unfold scalar, control. lia.
  - cbn. unfold utf8. replace (b2n b <? 0x80) with true by lia. rewrite n2b_b2n. reflexivity.
Qed.
Lemma clean_ascii s : forallb printable s = true -> clean s.
Proof.
  induction s as [|b s IH]; intro H; [apply clean_nil|]. cbn [forallb] in H. apply andb_true_iff in H as [H1 H2].
  change (b :: s) with ([b] ++ s). apply clean_app; [apply clean_byte; assumption | apply IH; assumption].
Qed.

Lemma controlb_spec c : controlb c = true <-> control c.
Proof. unfold controlb, control. lia. Qed.
