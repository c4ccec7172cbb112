(** * ArmorL: line scanning and armor extraction. *)
From Coq Require Import Strings.String Strings.Byte List NArith ZArith Bool Lia ZifyBool ZifyN ZifyNat.
From Verif Require Import Base BaseL SpecBase Item Reader Context Env Values Opaque Monad Subs Tags Parse SpecText SpecArmor.
Import ListNotations.
Local Open Scope N_scope.

Lemma has_prefix_starts p s : has_prefix p s = true <-> starts_with p s.
Proof.
  revert s. induction p as [|x p IH]; intro s.
  - split; [intros _; exists s; reflexivity | reflexivity].
  - destruct s as [|y s]; cbn [has_prefix].
    + split; [discriminate | intros [t E]; discriminate].
    + rewrite andb_true_iff, IH. split.
      * intros [E [t ->]]. apply byte_eqb_spec in E. subst y. exists t. reflexivity.
      * intros [t E]. cbn in E. injection E as -> ->. split; [apply byte_eqb_spec; reflexivity | exists t; reflexivity].
Qed.

Definition begin_b (s : bytes) : bool := has_prefix armorBoundery s && negb (has_prefix armorBounderyExcept s).
Lemma begin_b_spec s : begin_b s = true <-> begin_line s.
Proof.
  unfold begin_b, begin_line. rewrite andb_true_iff, negb_true_iff. unfold armorBoundery, armorBounderyExcept.
  rewrite <- !has_prefix_starts. destruct (has_prefix (str "-----BEGIN PGP SIGNED") s); intuition congruence.
Qed.
Lemma end_b_spec s : has_prefix armorBounderyTerminate s = true <-> end_line s.
Proof. apply has_prefix_starts. Qed.

(** ** Scanning lines *)

Lemma drop_cr_strip rl : drop_cr rl = strip_cr (rev rl).
Proof. unfold drop_cr, strip_cr. rewrite rev_involutive. destruct rl as [|[] rl]; reflexivity. Qed.

Definition finish (ps : list bytes) : list bytes := map strip_cr (drop_last_empty ps).

Definition push (cur : bytes) (ps : list bytes) : list bytes :=
  match ps with [] => [rev cur] | h :: r => (rev cur ++ h) :: r end.

Lemma split_lines_ne l : split_lines l <> [].
Proof. destruct l as [|b l]; [discriminate|]. cbn. destruct (Byte.eqb b x0a); [discriminate|]. destruct (split_lines l); discriminate. Qed.

Lemma push_cons b cur l : Byte.eqb b x0a = false -> push cur (split_lines (b :: l)) = push (b :: cur) (split_lines l).
Proof.
  intro E. cbn [split_lines]. rewrite E. pose proof (split_lines_ne l). destruct (split_lines l) as [|h r]; [congruence|].
  cbn [push rev]. rewrite <- app_assoc. reflexivity.
Qed.
Lemma push_nil l : push [] (split_lines l) = split_lines l.
Proof. pose proof (split_lines_ne l). destruct (split_lines l); [congruence|reflexivity]. Qed.

Definition shortp (p : bytes) : Prop := lenN p < 65536.

Lemma scan_lines_short l : forall cur n pos, n = lenN cur -> Forall shortp (push cur (split_lines l)) ->
  scan_lines l cur n pos = (finish (push cur (split_lines l)), None).
Proof.
  induction l as [|b l IH]; intros cur n pos -> F.
  - cbn [scan_lines split_lines push]. rewrite app_nil_r. unfold finish.
    destruct cur as [|c cur]; [reflexivity|]. cbn [is_nil drop_last_empty].
    destruct (rev (c :: cur)) eqn:R; [apply (f_equal (@length _)) in R; rewrite rev_length in R; discriminate|].
    rewrite <- R. cbn [map]. rewrite drop_cr_strip. reflexivity.
  - cbn [scan_lines]. destruct (Byte.eqb b x0a) eqn:E.
    + cbn [split_lines] in *. rewrite E in *. cbn [push] in *. rewrite app_nil_r in *.
      inversion_clear F as [|? ? F1 F2].
      rewrite (IH [] 0 (pos + 1)) by (reflexivity || (rewrite push_nil; assumption)). rewrite push_nil.
      pose proof (split_lines_ne l). unfold finish. destruct (split_lines l) as [|h r] eqn:S; [congruence|].
      cbn [map]. rewrite drop_cr_strip. reflexivity.
    + rewrite push_cons in * by assumption.
      assert (lenN (b :: cur) < 65536) as B.
      { pose proof (split_lines_ne l). destruct (split_lines l) as [|h r]; [congruence|]. cbn [push] in F.
        inversion_clear F as [|? ? F1 F2]. unfold shortp, lenN in F1. unfold lenN.
        cbn [rev] in F1. rewrite !app_length, rev_length in F1. cbn [length] in *. lia. }
      rewrite lenN_cons in B. unfold max_token. replace (lenN cur + 1 =? 65536) with false by lia.
      apply IH; [rewrite lenN_cons; lia | assumption].
Qed.

Lemma scan_lines_long l : forall cur n pos, n = lenN cur -> lenN cur < 65536 -> ~ Forall shortp (push cur (split_lines l)) ->
  exists ls k, scan_lines l cur n pos = (ls, Some k).
Proof.
  induction l as [|b l IH]; intros cur n pos -> B F.
  - exfalso. apply F. cbn. rewrite app_nil_r. constructor; [|constructor]. unfold shortp, lenN in *. rewrite rev_length. assumption.
  - cbn [scan_lines]. destruct (Byte.eqb b x0a) eqn:E.
    + cbn [split_lines] in *. rewrite E in *. cbn [push] in *. rewrite app_nil_r in *.
      destruct (IH [] 0 (pos + 1) eq_refl) as (ls & k & Ek); [reflexivity| |rewrite Ek; eauto].
      rewrite push_nil. intro F2. apply F. constructor; [|assumption]. unfold shortp, lenN in *. rewrite rev_length. assumption.
    + rewrite push_cons in * by assumption. unfold max_token.
      destruct (N.eqb_spec (lenN cur + 1) 65536); [eauto|].
      apply IH; [rewrite lenN_cons; lia | rewrite lenN_cons; lia | assumption].
Qed.

Lemma scan_lines_of data : short_lines data -> scan_lines data [] 0 0 = (lines_of data, None).
Proof.
  intro H. rewrite (scan_lines_short data [] 0 0 eq_refl); rewrite push_nil; [reflexivity | exact H].
Qed.

(** A run of 65536 octets without a line feed at the start of a line. *)
Lemma scan_lines_run l : forall cur n pos rest, n = lenN cur -> ~ In x0a l -> lenN cur + lenN l = 65536 -> l <> [] ->
  scan_lines (l ++ rest) cur n pos = ([], Some (pos + lenN l)).
Proof.
  induction l as [|b l IH]; intros cur n pos rest -> NI L NE; [congruence|].
  cbn [app scan_lines]. rewrite lenN_cons in L.
  destruct (Byte.eqb b x0a) eqn:E; [apply byte_eqb_spec in E; subst b; exfalso; apply NI; left; reflexivity|].
  unfold max_token. destruct (N.eqb_spec (lenN cur + 1) 65536) as [Q|Q].
  - assert (lenN l = 0) as Z by lia. rewrite lenN_cons, Z. f_equal.
  - rewrite IH; [rewrite lenN_cons; do 2 f_equal; lia|rewrite lenN_cons; lia| |rewrite lenN_cons; lia|].
    + intro I. apply NI. right. assumption.
    + intros ->. rewrite lenN_nil in L. lia.
Qed.

(** ** The extraction loop *)

Lemma arm_done lines : forall buf, arm_loop lines true true buf = (true, true, buf).
Proof. induction lines as [|s t IH]; intro buf; [reflexivity|]. cbn. apply IH. Qed.

Lemma arm_in mid : forall buf rest, Forall (fun s => ~ end_line s) mid ->
  arm_loop (mid ++ rest) true false buf = arm_loop rest true false (buf ++ unlines mid).
Proof.
  induction mid as [|s mid IH]; intros buf rest F; [cbn; rewrite app_nil_r; reflexivity|].
  inversion_clear F as [|? ? F1 F2]. cbn [app arm_loop orb andb negb].
  destruct (has_prefix armorBounderyTerminate s) eqn:E; [apply end_b_spec in E; contradiction|].
  rewrite IH by assumption. cbn [unlines flat_map]. rewrite <- !app_assoc. reflexivity.
Qed.

Lemma arm_pre pre : forall rest, Forall (fun s => ~ begin_line s) pre ->
  arm_loop (pre ++ rest) false false [] = arm_loop rest false false [].
Proof.
  induction pre as [|s pre IH]; intros rest F; [reflexivity|]. inversion_clear F as [|? ? F1 F2].
  cbn [app arm_loop orb]. fold (begin_b s).
  destruct (begin_b s) eqn:E; [apply begin_b_spec in E; contradiction|]. cbn [andb]. apply IH. assumption.
Qed.

Lemma begin_not_end s : begin_line s -> has_prefix armorBounderyTerminate s = false.
Proof.
  intros [[t ->] _]. unfold armorBounderyTerminate.
  change (str "-----BEGIN PGP") with [x2d; x2d; x2d; x2d; x2d; x42; x45; x47; x49; x4e; x20; x50; x47; x50].
  change (str "-----END PGP") with [x2d; x2d; x2d; x2d; x2d; x45; x4e; x44; x20; x50; x47; x50]. reflexivity.
Qed.

Lemma arm_begin b rest : begin_line b -> arm_loop (b :: rest) false false [] = arm_loop rest true false (b ++ [x0a]).
Proof.
  intro B. cbn [arm_loop]. fold (begin_b b). rewrite (proj2 (begin_b_spec b) B). cbn [orb andb negb app].
  rewrite begin_not_end by assumption. reflexivity.
Qed.

Lemma arm_block lines block : first_block lines block ->
  arm_loop lines false false [] = (true, true, unlines block).
Proof.
  intros (pre & b & mid & e & post & -> & -> & Hp & Hb & Hm & He).
  rewrite arm_pre, arm_begin, arm_in by assumption. cbn [arm_loop orb andb negb].
  rewrite (proj2 (end_b_spec e) He). rewrite arm_done. f_equal. unfold unlines. cbn [flat_map].
  rewrite flat_map_app. cbn [flat_map]. rewrite app_nil_r, <- !app_assoc. reflexivity.
Qed.

(** Either there is a block, or the loop ends without one. *)
Lemma first_split (P : bytes -> Prop) (dec : forall s, {P s} + {~ P s}) (l : list bytes) :
  (Forall (fun s => ~ P s) l) \/ (exists pre b post, l = pre ++ b :: post /\ Forall (fun s => ~ P s) pre /\ P b).
Proof.
  induction l as [|s l IH]; [left; constructor|]. destruct (dec s) as [H|H].
  - right. exists [], s, l. repeat split; [constructor | assumption].
  - destruct IH as [F|(pre & b & post & -> & F & B)]; [left; constructor; assumption|].
    right. exists (s :: pre), b, post. repeat split; [constructor; assumption | assumption].
Qed.
Lemma begin_dec s : {begin_line s} + {~ begin_line s}.
Proof. destruct (begin_b s) eqn:E; [left; apply begin_b_spec; assumption | right; intro H; apply begin_b_spec in H; congruence]. Qed.
Lemma end_dec s : {end_line s} + {~ end_line s}.
Proof. destruct (has_prefix armorBounderyTerminate s) eqn:E; [left; apply end_b_spec; assumption | right; intro H; apply end_b_spec in H; congruence]. Qed.

Lemma arm_cases lines :
  (exists block, first_block lines block) \/
  (~ (exists block, first_block lines block) /\ exists f buf, arm_loop lines false false [] = (f, false, buf)).
Proof.
  destruct (first_split begin_line begin_dec lines) as [F|(pre & b & rest & -> & F & B)].
  - right. split; [|rewrite <- (app_nil_r lines), arm_pre by assumption; cbn; eauto].
    intros (block & pre & b & mid & e & post & -> & _ & _ & Hb & _). apply Forall_app in F as [_ F].
    inversion_clear F. contradiction.
  - destruct (first_split end_line end_dec rest) as [G|(mid & e & post & -> & G & En)].
    + right. split.
      * intros (block & pre2 & b2 & mid2 & e2 & post2 & Eq & _ & Hp & Hb & Hm & He).
        assert (pre = pre2 /\ b = b2 /\ rest = mid2 ++ e2 :: post2) as (-> & -> & ->).
        { clear - Eq F B Hp Hb. revert pre2 Eq Hp. induction pre as [|x pre IH]; intros [|y pre2] Eq Hp; cbn [app] in Eq.
          - injection Eq as -> ->. auto.
          - injection Eq as -> ->. inversion_clear Hp. contradiction.
          - injection Eq as -> Eq. inversion_clear F. contradiction.
          - injection Eq as -> Eq. inversion_clear F. inversion_clear Hp. destruct (IH ltac:(assumption) pre2 Eq) as (-> & -> & ->); auto. }
        apply Forall_app in G as [_ G]. inversion_clear G. contradiction.
      * rewrite arm_pre, arm_begin by assumption. rewrite <- (app_nil_r rest), arm_in by assumption. cbn. eauto.
    + left. exists (b :: mid ++ [e]). exists pre, b, mid, e, post. split; [reflexivity|]. split; [reflexivity|]. auto.
Qed.

Lemma armtext_block data block : short_lines data -> first_block (lines_of data) block ->
  armtext_get (mkStream data true) = ROk (unlines block).
Proof.
  intros S B. unfold armtext_get. cbn [st_data st_ok]. rewrite scan_lines_of by assumption. cbn [negb].
  rewrite (arm_block _ _ B). reflexivity.
Qed.
Lemma armtext_none data : short_lines data -> ~ (exists block, first_block (lines_of data) block) ->
  armtext_get (mkStream data true) = RErr EArmorText.
Proof.
  intros S NB. unfold armtext_get. cbn [st_data st_ok]. rewrite scan_lines_of by assumption. cbn [negb].
  destruct (arm_cases (lines_of data)) as [B|(_ & f & buf & ->)]; [contradiction|]. rewrite orb_true_r. reflexivity.
Qed.
Lemma armtext_long data ok : ~ short_lines data -> armtext_get (mkStream data ok) = RErr ETooLong.
Proof.
  intro NS. unfold armtext_get. cbn [st_data].
  destruct (scan_lines_long data [] 0 0 eq_refl ltac:(reflexivity)) as (ls & k & ->); [rewrite push_nil; exact NS | reflexivity].
Qed.
