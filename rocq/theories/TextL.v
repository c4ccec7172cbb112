(** * TextL: text items and the text output. *)
From Coq Require Import Strings.String Strings.Byte List NArith ZArith Bool Lia ZifyBool ZifyN ZifyNat.
From Verif Require Import Base BaseL SpecBase SpecValues Utf8 Item Values SpecText Utf8L Reader.
Import ListNotations.
Local Open Scope N_scope.

(** Induction over trees. *)
Lemma item_rect' (P : item -> Prop) :
  (forall n v d t l, Forall P l -> P (Item n v d t l)) -> forall i, P i.
Proof.
  intro H. fix IH 1. intros [n v d t l]. apply H.
  induction l as [|c l IHl]; constructor; [apply IH | exact IHl].
Qed.

(** ** Sanitised text *)

Lemma HEXdig_upper n : n < 16 -> HEXdig n = upper_digit n.
Proof.
  intro H. assert (forallb (fun k => let n := N.of_nat k in Byte.eqb (HEXdig n) (upper_digit n)) (seq 0 16) = true) as E by (vm_compute; reflexivity).
  rewrite forallb_forall in E. specialize (E (N.to_nat n)). rewrite in_seq in E. specialize (E ltac:(lia)).
  cbv zeta in E. rewrite N2Nat.id in E. apply byte_eqb_spec, E.
Qed.

Lemma fmtU_spec c : c < 65536 -> fmtU c = u_plus c.
Proof.
  intro H. unfold fmtU, u_plus. f_equal. cbn [hexw app].
  assert (c / 16 / 16 = c / 256 /\ c / 16 / 16 / 16 = c / 4096) as [E1 E2] by (rewrite !N.div_div by discriminate; split; reflexivity).
  rewrite E2, E1. rewrite !HEXdig_upper by (apply N.mod_lt; discriminate).
  rewrite (N.mod_small (c / 4096) 16) by (apply N.div_lt_upper_bound; [discriminate | lia]). reflexivity.
Qed.

Lemma is_control_spec c : is_control c = controlb c.
Proof. unfold is_control, controlb, inr. lia. Qed.

Lemma sanitize_rune_spec c : sanitize_rune (Some c) = shown_char c.
Proof.
  unfold sanitize_rune, shown_char. rewrite is_control_spec. destruct (controlb c) eqn:E; [|apply enc_rune_utf8].
  rewrite fmtU_spec; [reflexivity|]. unfold controlb in E. lia.
Qed.

Lemma sanitize_spec l : Forall scalar l -> sanitize (utf8s l) = flat_map shown_char l.
Proof.
  intro F. unfold sanitize. rewrite scan_utf8s by assumption. clear F. induction l as [|c l IH]; [reflexivity|].
  cbn [map flat_map]. rewrite IH, sanitize_rune_spec. reflexivity.
Qed.

Lemma printable_upper n : n < 16 -> printable (upper_digit n) = true.
Proof.
  intro H. assert (forallb (fun k => printable (upper_digit (N.of_nat k))) (seq 0 16) = true) as E by (vm_compute; reflexivity).
  rewrite forallb_forall in E. specialize (E (N.to_nat n)). rewrite in_seq in E. specialize (E ltac:(lia)).
  rewrite N2Nat.id in E. exact E.
Qed.

Lemma shown_char_clean c : scalar c -> clean (shown_char c).
Proof.
  intro S. unfold shown_char. destruct (controlb c) eqn:E.
  - apply clean_ascii. unfold u_plus. cbn [app forallb str list_byte_of_string].
    assert (c < 65536) by (unfold controlb in E; lia).
    assert (c / 4096 < 16) by (apply N.div_lt_upper_bound; [discriminate | lia]).
    rewrite !forallb_app. cbn [forallb]. rewrite !printable_upper by (assumption || (apply N.mod_lt; discriminate)).
    reflexivity.
  - exists [c]. split; [|cbn; rewrite app_nil_r; reflexivity]. constructor; [|constructor]. split; [assumption|].
    intro C. apply controlb_spec in C. congruence.
Qed.

Lemma sanitize_clean body : utf8_valid body = true -> clean (sanitize body).
Proof.
  intro V. apply utf8_valid_spec in V as (l & F & ->). rewrite sanitize_spec by assumption.
  induction F as [|c l Hc F IH]; [apply clean_nil|]. cbn [flat_map]. apply clean_app; [apply shown_char_clean; assumption | exact IH].
Qed.

Lemma text_item_valid name l f : Forall scalar l -> l <> [] ->
  text_item name (utf8s l) f = Item name (flat_map shown_char l) (dump_bytes (utf8s l) f) [] [].
Proof.
  intros F NE. unfold text_item.
  assert (utf8_valid (utf8s l) = true) as -> by (apply utf8_valid_spec; exists l; auto).
  assert (is_nil (utf8s l) = false) as ->.
  { destruct l as [|c l]; [congruence|]. cbn. unfold utf8. repeat (match goal with |- context [if ?c then _ else _] => destruct c end); reflexivity. }
  cbn [negb]. rewrite sanitize_spec by assumption. reflexivity.
Qed.

Lemma text_item_invalid name body f : ~ is_utf8 body ->
  text_item name body f = Item name [] (hexdump body) (str "invalid text string") [].
Proof.
  intro NV. unfold text_item.
  destruct body as [|b body]; [exfalso; apply NV; exists []; split; [constructor|reflexivity]|]. cbn [is_nil].
  destruct (utf8_valid (b :: body)) eqn:V; [exfalso; apply NV, utf8_valid_spec, V|]. reflexivity.
Qed.

(** ** Text output *)

Lemma item_text_eq ind lvl n v d t l :
  item_text ind lvl (Item n v d t l) =
  repeat_bytes ind lvl ++ item_line n v t ++ [x0a]
  ++ (if is_nil d then [] else repeat_bytes ind (S lvl) ++ d ++ [x0a])
  ++ flat_map (item_text ind (S lvl)) l.
Proof.
  cbn [item_text]. assert (forall X Y : bytes, repeat_bytes ind lvl ++ n ++ (if is_nil v then [] else str ": " ++ v) ++ (if is_nil t then [] else str " (" ++ t ++ str ")") ++ X = repeat_bytes ind lvl ++ item_line n v t ++ X) as E.
  { intros X _. f_equal. unfold item_line. destruct v, t; cbn [is_nil]; rewrite ?app_nil_r, <- ?app_assoc; reflexivity. }
  rewrite (E _ []). reflexivity.
Qed.

Lemma outline_eq k n v d t l :
  outline k (Item n v d t l) =
  (k, item_line n v t) :: (match d with [] => [] | _ => [(S k, d)] end) ++ flat_map (outline (S k)) l.
Proof.
  reflexivity.
Qed.

(** The text of a list of lines. *)
Definition line_text (ind : bytes) (p : nat * bytes) : bytes := repeat_str ind (fst p) ++ snd p ++ [x0a].

Lemma repeat_same s n : repeat_bytes s n = repeat_str s n.
Proof. induction n; [reflexivity|]. cbn. rewrite IHn. reflexivity. Qed.

Lemma item_text_outline ind : forall i k, item_text ind k i = flat_map (line_text ind) (outline k i).
Proof.
  induction i as [n v d t l IH] using item_rect'. intro k.
  rewrite item_text_eq, outline_eq. cbn [flat_map]. unfold line_text at 1. cbn [fst snd]. rewrite <- !app_assoc, repeat_same.
  do 3 f_equal. rewrite flat_map_app. f_equal.
  - destruct d; [reflexivity|]. cbn [is_nil flat_map]. unfold line_text. cbn [fst snd]. rewrite repeat_same, app_nil_r. reflexivity.
  - induction IH as [|c l Hc _ IHl]; [reflexivity|]. cbn [flat_map]. rewrite flat_map_app, <- Hc, IHl. reflexivity.
Qed.

Lemma info_text_outline ind l : info_text ind l = flat_map (line_text ind) (flat_map (outline 0) l).
Proof.
  unfold info_text. induction l as [|i l IH]; [reflexivity|]. cbn [flat_map]. rewrite flat_map_app, <- item_text_outline, IH. reflexivity.
Qed.

Lemma split_lines_app s rest : no_newline s ->
  split_lines (s ++ [x0a] ++ rest) = s :: split_lines rest.
Proof.
  induction s as [|b s IH]; intro H; [reflexivity|]. cbn [app] in *. cbn [split_lines].
  destruct (Byte.eqb b x0a) eqn:E; [exfalso; apply H; left; symmetry; apply byte_eqb_spec; rewrite <- E; destruct b; reflexivity|].
  rewrite IH; [reflexivity|]. intro I. apply H. right. assumption.
Qed.

Lemma no_newline_app a b : no_newline a -> no_newline b -> no_newline (a ++ b).
Proof. intros Ha Hb I. apply in_app_or in I as [I|I]; auto. Qed.
Lemma no_newline_repeat s n : no_newline s -> no_newline (repeat_str s n).
Proof. intro H. induction n; [intros []|]. cbn. apply no_newline_app; assumption. Qed.
Lemma no_newline_lit s : forallb (fun b => negb (Byte.eqb b x0a)) s = true -> no_newline s.
Proof.
  intros H I. rewrite forallb_forall in H. specialize (H _ I). discriminate.
Qed.

Lemma split_lines_outline ind ls : no_newline ind -> Forall (fun p => no_newline (snd p)) ls ->
  split_lines (flat_map (line_text ind) ls) = map (fun p => repeat_str ind (fst p) ++ snd p) ls ++ [[]].
Proof.
  intros Hi F. induction F as [|p ls Hp F IH]; [reflexivity|].
  cbn [flat_map map app]. unfold line_text at 1. rewrite <- app_assoc, <- app_assoc.
  rewrite app_assoc. rewrite split_lines_app; [rewrite IH; reflexivity|].
  apply no_newline_app; [apply no_newline_repeat; assumption | assumption].
Qed.

Lemma item_line_nn n v t : no_newline n -> no_newline v -> no_newline t -> no_newline (item_line n v t).
Proof.
  intros Hn Hv Ht. unfold item_line.
  destruct v, t; repeat apply no_newline_app; try assumption; apply no_newline_lit; reflexivity.
Qed.

Lemma outline_nn : forall i k, all_fields no_newline i -> Forall (fun p => no_newline (snd p)) (outline k i).
Proof.
  induction i as [n v d t l IH] using item_rect'. intros k H. inversion_clear H as [? ? ? ? ? Hn Hv Hd Ht Hl].
  rewrite outline_eq. constructor; [apply item_line_nn; assumption|]. apply Forall_app. split.
  - destruct d; repeat constructor. assumption.
  - induction IH as [|c l Hc _ IHl]; [constructor|]. inversion_clear Hl. cbn [flat_map]. apply Forall_app. auto.
Qed.

Lemma count_items_eq n v d t l : count_items (Item n v d t l) = S (list_sum (map count_items l)).
Proof. cbn [count_items]. f_equal. induction l as [|c l IH]; [reflexivity|]. cbn. rewrite IH. reflexivity. Qed.
Lemma count_dumps_eq n v d t l :
  count_dumps (Item n v d t l) = ((match d with [] => 0 | _ => 1 end) + list_sum (map count_dumps l))%nat.
Proof. cbn [count_dumps]. f_equal. induction l as [|c l IH]; [reflexivity|]. cbn. rewrite IH. reflexivity. Qed.

Lemma outline_length : forall i k, length (outline k i) = (count_items i + count_dumps i)%nat.
Proof.
  induction i as [n v d t l IH] using item_rect'. intro k. rewrite outline_eq, count_items_eq, count_dumps_eq.
  cbn [length]. rewrite app_length.
  assert (length (flat_map (outline (S k)) l) = (list_sum (map count_items l) + list_sum (map count_dumps l))%nat) as ->.
  { induction IH as [|c l Hc _ IHl]; [reflexivity|]. cbn [flat_map map]. rewrite app_length, Hc, IHl.
    unfold list_sum. cbn [fold_right]. lia. }
  destruct d; cbn [length]; lia.
Qed.

Lemma flat_outline_length l : length (flat_map (outline 0) l) = (list_sum (map count_items l) + list_sum (map count_dumps l))%nat.
Proof.
  induction l as [|i l IH]; [reflexivity|]. cbn [flat_map map]. rewrite app_length, outline_length, IH.
  unfold list_sum. cbn [fold_right]. lia.
Qed.
