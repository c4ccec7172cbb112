(** * OutlineL: reading the text output back. *)
From Coq Require Import Strings.String Strings.Byte List NArith ZArith Bool Lia ZifyBool ZifyN ZifyNat.
From Verif Require Import Base SpecBase SpecValues Item SpecText TextL SpecParse SpecDebug DebugL SpecOutline.
Import ListNotations.

(** Lines of the text: they start with no blank, no tab and no parenthesis; a line feed in them is followed by a line that goes on. *)
Definition starts (s : bytes) : Prop := match s with [] => False | c :: _ => c <> x20 /\ c <> x09 /\ c <> x28 end.
Definition good_line (s : bytes) : Prop :=
  (starts s /\ no_newline s) \/ exists a b, s = a ++ [x0a] ++ b /\ starts a /\ no_newline a /\ no_newline b /\ goes_on b = true.

Lemma starts_app a b : starts a -> starts (a ++ b).
Proof. destruct a; [intros [] | exact (fun H => H)]. Qed.
Lemma good_starts s : good_line s -> starts s.
Proof. intros [[H _]|(a & b & -> & H & _)]; [exact H | apply starts_app, H]. Qed.

Lemma eqb_no a b : a <> b -> Byte.eqb a b = false.
Proof. intro H. destruct (Byte.eqb a b) eqn:K; [|reflexivity]. apply BaseL.byte_eqb_spec in K. contradiction. Qed.
Lemma eqb_yes a : Byte.eqb a a = true.
Proof. apply BaseL.byte_eqb_spec. reflexivity. Qed.

Lemma after_app p l : after p (p ++ l) = Some l.
Proof. induction p as [|a p IH]; [reflexivity|]. cbn [after app]. rewrite eqb_yes. exact IH. Qed.
Lemma after_start ind s : indentation ind -> starts s -> after ind s = None.
Proof.
  intros H S. destruct s as [|c s]; [contradiction S|]. destruct S as (S1 & S2 & _).
  destruct H as [->|([|n] & H & ->)]; [|lia|]; cbn [after repeat]; rewrite eqb_no by congruence; reflexivity.
Qed.
Lemma unindent_line ind k s : indentation ind -> starts s -> forall n, (k <= n)%nat -> unindent ind n (repeat_str ind k ++ s) = (k, s).
Proof.
  intros H S. induction k as [|k IH]; intros n L.
  - cbn [repeat_str app]. destruct n; [reflexivity|]. cbn [unindent]. rewrite after_start by assumption. reflexivity.
  - destruct n as [|n]; [lia|]. cbn [unindent repeat_str]. rewrite <- app_assoc, after_app, IH by lia. reflexivity.
Qed.
Lemma repeat_length_le ind k : ind <> [] -> (k <= length (repeat_str ind k))%nat.
Proof. intro H. induction k as [|k IH]; [lia|]. cbn [repeat_str]. rewrite app_length. destruct ind; [congruence|]. cbn [length]. lia. Qed.
Lemma indentation_ne ind : indentation ind -> ind <> [] /\ no_newline ind.
Proof.
  intros [->|([|n] & H & ->)]; [|lia|]; (split; [discriminate|]).
  - apply no_newline_lit. reflexivity.
  - intro K. apply repeat_spec in K. discriminate K.
Qed.
Lemma level_line ind k s : indentation ind -> starts s -> level ind (repeat_str ind k ++ s) = (k, s).
Proof.
  intros H S. apply unindent_line; [exact H | exact S|]. rewrite app_length.
  pose proof (repeat_length_le ind k (proj1 (indentation_ne ind H))). lia.
Qed.
Lemma not_on ind k s : indentation ind -> starts s -> goes_on (repeat_str ind k ++ s) = false.
Proof.
  intros H S. destruct s as [|c s]; [contradiction S|]. destruct S as (S1 & S2 & S3).
  destruct k as [|k].
  - cbn [repeat_str app goes_on]. destruct s; [reflexivity|]. rewrite eqb_no by assumption. reflexivity.
  - destruct H as [->|([|n] & H & ->)]; [|lia|]; cbn [repeat_str repeat app goes_on].
    + destruct (repeat_str [x09] k ++ c :: s); reflexivity.
    + destruct n as [|n]; cbn [repeat app]; [|reflexivity]. destruct k; cbn [repeat_str app]; [|reflexivity].
      rewrite (eqb_no c) by assumption. apply andb_false_r.
Qed.

Definition head_fresh (L : list bytes) : Prop := match L with [] => True | y :: _ => goes_on y = false end.
Lemma joined_fresh x L : head_fresh L -> joined (x :: L) = x :: joined L.
Proof. intro H. destruct L as [|y L]; [reflexivity|]. cbn [head_fresh] in H. cbn [joined]. rewrite H. reflexivity. Qed.

Lemma joined_lines ind ls : indentation ind -> Forall (fun p => good_line (snd p)) ls ->
  exists L, split_lines (flat_map (line_text ind) ls) = L ++ [[]] /\ joined L = map (fun p => repeat_str ind (fst p) ++ snd p) ls /\ head_fresh L.
Proof.
  intros H F. destruct (indentation_ne ind H) as [_ Hi].
  induction F as [|[k s] ls G F (L & IH1 & IH2 & IH3)]; [exists []; split; [reflexivity | split; [reflexivity | exact I]]|].
  cbn [fst snd] in *. cbn [flat_map map]. unfold line_text at 1. cbn [fst snd]. rewrite <- !app_assoc.
  pose proof (good_starts s G) as St. destruct G as [[_ N]|(a & b & -> & Sa & Na & Nb & Gb)].
  - exists ((repeat_str ind k ++ s) :: L). repeat split.
    + rewrite app_assoc, split_lines_app by (apply no_newline_app; [apply no_newline_repeat|]; assumption). rewrite IH1. reflexivity.
    + rewrite joined_fresh by exact IH3. rewrite IH2. reflexivity.
    + apply not_on; assumption.
  - exists ((repeat_str ind k ++ a) :: b :: L). repeat split.
    + rewrite <- !app_assoc. rewrite app_assoc, split_lines_app by (apply no_newline_app; [apply no_newline_repeat|]; assumption).
      rewrite split_lines_app by assumption. rewrite IH1. reflexivity.
    + cbn [joined]. rewrite Gb, IH2, <- app_assoc. reflexivity.
    + apply not_on; assumption.
Qed.

Lemma read_levels_lines ind ls : indentation ind -> Forall (fun p => good_line (snd p)) ls -> read_levels ind (flat_map (line_text ind) ls) = ls.
Proof.
  intros H F. destruct (joined_lines ind ls H F) as (L & E1 & E2 & _). unfold read_levels. rewrite E1, removelast_last, E2, map_map.
  rewrite <- (map_id ls) at 2. apply map_ext_in. intros [k s] I. cbn [fst snd]. apply level_line; [exact H|].
  rewrite Forall_forall in F. exact (good_starts s (F _ I)).
Qed.

(** The fields of the items. *)
Definition good_item := fields (fun n => starts n /\ no_newline n) plain_value (fun d => (d = [] \/ starts d) /\ no_newline d) no_newline.
Lemma good_item_line n v t : starts n -> no_newline n -> plain_value v -> no_newline t -> good_line (item_line n v t).
Proof.
  intros Sn Hn [Hv| ->] Ht.
  - left. split; [|apply item_line_nn; assumption]. unfold item_line. destruct v, t; [assumption | apply starts_app; assumption ..].
  - right. exists (n ++ str ": "), (match t with [] => [] | _ => str " (" ++ t ++ str ")" end). split; [|split; [apply starts_app, Sn|split; [|split]]].
    + unfold item_line. destruct t; rewrite <- !app_assoc; reflexivity.
    + apply no_newline_app; [exact Hn | apply no_newline_lit; reflexivity].
    + destruct t; [intros []|]. apply no_newline_app; [apply no_newline_lit; reflexivity|]. apply no_newline_app; [exact Ht | apply no_newline_lit; reflexivity].
    + destruct t; reflexivity.
Qed.
Lemma outline_good : forall i k, good_item i -> Forall (fun p => good_line (snd p)) (outline k i).
Proof.
  induction i as [n v d t l IH] using item_rect'. intros k H. inversion_clear H as [? ? ? ? ? [Sn Hn] Hv [Sd Hd] Ht Hl].
  rewrite outline_eq. constructor; [apply good_item_line; assumption|]. apply Forall_app. split.
  - destruct d; constructor; [|constructor]. left. destruct Sd as [Sd|Sd]; [discriminate Sd|]. split; assumption.
  - induction IH as [|c l Hc _ IHl]; [constructor|]. inversion_clear Hl. cbn [flat_map]. apply Forall_app. auto.
Qed.
Lemma outlines_good l k : Forall good_item l -> Forall (fun p => good_line (snd p)) (flat_map (outline k) l).
Proof. induction 1 as [|c l H _ IH]; [constructor|]. cbn [flat_map]. apply Forall_app. split; [apply outline_good; exact H | exact IH]. Qed.

(** The trees of the lines. *)
Lemma nested_deep k ls f : nested k ls f -> Forall (fun p => (k <= fst p)%nat) ls.
Proof.
  induction 1 as [k|k s ls f ls' f' _ IH1 _ IH2]; [constructor|]. constructor; [cbn; lia|]. apply Forall_app. split; [|exact IH2].
  eapply Forall_impl; [|exact IH1]. cbv beta. intros. lia.
Qed.
Lemma nested_split k (a b ls ls' : list (nat * bytes)) :
  Forall (fun p => (S k <= fst p)%nat) a -> Forall (fun p => (S k <= fst p)%nat) b ->
  match ls with [] => True | p :: _ => (fst p <= k)%nat end -> match ls' with [] => True | p :: _ => (fst p <= k)%nat end ->
  a ++ ls = b ++ ls' -> a = b /\ ls = ls'.
Proof.
  intros Fa. revert b ls ls'. induction Fa as [|x a Hx _ IH]; intros b ls ls' Fb L L' E.
  - destruct b as [|y b]; [auto|]. cbn in E. subst ls. inversion Fb; subst. cbn in L. lia.
  - destruct b as [|y b]; cbn in E.
    + subst ls'. cbn in L'. lia.
    + injection E as -> E. inversion Fb; subst. destruct (IH b ls ls') as [-> ->]; auto.
Qed.
Lemma nested_head k ls f : nested k ls f -> match ls with [] => True | p :: _ => (fst p <= k)%nat end.
Proof. destruct 1; [exact I | cbn; lia]. Qed.
Lemma nested_unique k ls f : nested k ls f -> forall f', nested k ls f' -> f = f'.
Proof.
  intro H. induction H as [k|k s ls f ls' f' H1 IH1 H2 IH2]; intros g G.
  - inversion G; reflexivity.
  - inversion G as [|k0 s0 a fa b fb A B E1 E2 E3]; subst.
    destruct (nested_split k a ls b ls') as [-> ->]; [eapply nested_deep; eassumption | eapply nested_deep; eassumption | eapply nested_head; eassumption | eapply nested_head; eassumption | assumption|]. f_equal; [f_equal; apply IH1; assumption | apply IH2; assumption].
Qed.
Lemma nested_app k ls f ls' f' : nested k ls f -> nested k ls' f' -> nested k (ls ++ ls') (f ++ f').
Proof.
  intro H. induction H as [k|k s ls f l2 f2 H1 _ H2 IH2]; intro G; [exact G|].
  cbn [app]. rewrite <- app_assoc. constructor; [exact H1 | apply IH2, G].
Qed.
Lemma nested_outline : forall i k, nested k (outline k i) [shown_tree i].
Proof.
  induction i as [n v d t l IH] using item_rect'. intro k. rewrite outline_eq. cbn [shown_tree].
  rewrite <- (app_nil_r (_ ++ flat_map _ _)). constructor; [|constructor]. apply nested_app.
  - destruct d; [constructor|]. rewrite <- (app_nil_l []). apply (nested_cons (S k) _ [] [] [] []); constructor.
  - induction IH as [|c l Hc _ IHl]; [constructor|]. cbn [flat_map map]. change (shown_tree c :: map shown_tree l) with ([shown_tree c] ++ map shown_tree l).
    apply nested_app; [apply Hc | exact IHl].
Qed.
Lemma nested_outlines l k : nested k (flat_map (outline k) l) (map shown_tree l).
Proof.
  induction l as [|i l IH]; [constructor|]. cbn [flat_map map]. change (shown_tree i :: map shown_tree l) with ([shown_tree i] ++ map shown_tree l).
  apply nested_app; [apply nested_outline | exact IH].
Qed.
