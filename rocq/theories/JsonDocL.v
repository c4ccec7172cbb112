(** * JsonDocL: the document of a tree, and reading it back. *)
From Coq Require Import Strings.String Strings.Byte List NArith ZArith Bool Lia ZifyBool ZifyN ZifyNat.
From Verif Require Import Base BaseL SpecBase SpecValues Utf8 Item SpecText Utf8L TextL Json SpecJson JsonL.
Import ListNotations.
Local Open Scope N_scope.

(** ** The tree as strings, arrays and objects *)

Definition raw_opt (k : string) (s : bytes) : list (string * raw) := if is_nil s then [] else [(k, RString s)].

Fixpoint raw_item (i : item) : raw :=
  match i with
  | Item n v d t l =>
    RObject ([("name"%string, RString n)] ++ raw_opt "value" v ++ raw_opt "dump" d ++ raw_opt "note" t
             ++ (if is_nil l then [] else [("Item"%string, RArray (map raw_item l))]))
  end.

Definition raw_info (l : list item) : raw :=
  RObject (if is_nil l then [] else [("Packet"%string, RArray (map raw_item l))]).

Definition cmember (m : string * raw) : bytes := json_member (fst m) (raw_compact (snd m)).

Lemma raw_compact_object l : raw_compact (RObject l) = json_object (map cmember l).
Proof. reflexivity. Qed.

Lemma go_map (l : list item) :
  (fix go (l : list item) : list bytes := match l with [] => [] | c :: r => item_json c :: go r end) l = map item_json l.
Proof. induction l; [reflexivity|]. cbn [map]. rewrite <- IHl. reflexivity. Qed.

Lemma item_json_raw i : item_json i = raw_compact (raw_item i).
Proof.
  induction i as [n v d t l IH] using item_rect'. cbn [item_json raw_item]. rewrite go_map, raw_compact_object.
  f_equal. rewrite !map_app. cbn [map cmember fst snd raw_compact].
  assert (forall k s, map cmember (raw_opt k s) = json_opt k s) as O by (intros k [|b s]; reflexivity).
  rewrite !O. repeat f_equal. destruct l as [|c l]; [reflexivity|]. remember (c :: l) as k.
  assert (is_nil k = false) as -> by (subst k; reflexivity). cbn [map]. unfold cmember. cbn [fst snd raw_compact].
  rewrite !map_map. rewrite Forall_forall in IH.
  assert (map item_json k = map (fun x => raw_compact (raw_item x)) k) as -> by (apply map_ext_in; exact IH). reflexivity.
Qed.

Lemma info_json_raw l : info_json l = raw_compact (raw_info l).
Proof.
  unfold info_json, raw_info. rewrite raw_compact_object. f_equal. destruct l as [|c l]; [reflexivity|].
  remember (c :: l) as k. assert (is_nil k = false) as -> by (subst k; reflexivity). cbn [map]. unfold cmember. cbn [fst snd raw_compact].
  rewrite !map_map.
  assert (map item_json k = map (fun x => raw_compact (raw_item x)) k) as -> by (apply map_ext; intro; apply item_json_raw). reflexivity.
Qed.

Lemma raw_item_plain i : raw_plain (raw_item i) = true.
Proof.
  induction i as [n v d t l IH] using item_rect'. cbn [raw_item raw_plain]. rewrite !forallb_app.
  assert (forall k s, plain_key k = true -> forallb (fun m => plain_key (fst m) && raw_plain (snd m)) (raw_opt k s) = true) as O.
  { intros k [|b s] P; [reflexivity|]. unfold raw_opt. cbn [is_nil forallb fst snd raw_plain]. rewrite P. reflexivity. }
  rewrite !O by reflexivity. cbn [forallb fst snd raw_plain]. change (plain_key "name") with true. cbn [andb].
  destruct l as [|c l]; [reflexivity|]. cbn [is_nil forallb fst snd]. change (plain_key "Item") with true. cbn [andb].
  rewrite andb_true_r. change (forallb raw_plain (map raw_item (c :: l)) = true).
  apply forallb_forall. intros x Hx. apply in_map_iff in Hx as (y & <- & Hy).
  rewrite Forall_forall in IH. auto.
Qed.

Lemma raw_info_plain l : raw_plain (raw_info l) = true.
Proof.
  unfold raw_info. destruct l as [|c l]; [reflexivity|]. cbn [is_nil]. remember (c :: l) as k.
  cbn [raw_plain forallb fst snd]. change (plain_key "Packet") with true. cbn [andb]. rewrite andb_true_r.
  apply forallb_forall. intros x Hx. apply in_map_iff in Hx as (y & <- & Hy). apply raw_item_plain.
Qed.

Lemma levels_eq n v d t l : levels (Item n v d t l) = 1 + all_levels l.
Proof.
  reflexivity.
Qed.

Lemma levels_pos i : 1 <= levels i.
Proof. destruct i. rewrite levels_eq. lia. Qed.

(** Depth of a non-empty array of items. *)
Lemma array_depth l : l <> [] -> Forall (fun i => raw_depth (raw_item i) + 1 = 2 * levels i) l ->
  raw_depth (RArray (map raw_item l)) = 2 * all_levels l.
Proof.
  intros NE F. cbn [raw_depth].
  assert (fold_right (fun c m => N.max (raw_depth c) m) 0 (map raw_item l) + 1 = 2 * all_levels l) as E; [|lia].
  destruct F as [|c l H F]; [congruence|]. clear NE.
  revert c H. induction F as [|d l D F IH]; intros c H.
  - cbn [map fold_right all_levels]. lia.
  - specialize (IH d D). cbn [map fold_right] in *. unfold all_levels in *. cbn [fold_right] in *.
    pose proof (levels_pos c). lia.
Qed.

Lemma raw_item_depth i : raw_depth (raw_item i) + 1 = 2 * levels i.
Proof.
  induction i as [n v d t l IH] using item_rect'. rewrite levels_eq. cbn [raw_item raw_depth].
  assert (forall k s m, fold_right (fun c m => N.max (raw_depth (snd c)) m) m (raw_opt k s) = m) as O.
  { intros k [|b s] m; [reflexivity|]. unfold raw_opt. cbn [is_nil fold_right snd raw_depth]. lia. }
  rewrite !fold_right_app, !O. cbn [fold_right snd raw_depth].
  destruct l as [|c l]; [reflexivity|]. cbn [is_nil fold_right snd].
  change (map raw_item (c :: l)) with (map raw_item (c :: l)).
  rewrite array_depth by (try discriminate; assumption). lia.
Qed.

Lemma raw_info_depth l : raw_depth (raw_info l) = 1 + 2 * all_levels l.
Proof.
  unfold raw_info. destruct l as [|c l]; [reflexivity|]. cbn [is_nil].
  assert (raw_depth (RArray (map raw_item (c :: l))) = 2 * all_levels (c :: l)) as E.
  { apply array_depth; [discriminate|]. apply Forall_forall. intros. apply raw_item_depth. }
  cbn [raw_depth fold_right snd] in *. lia.
Qed.

(** ** The document *)

Scheme item_document_mut := Induction for item_document Sort Prop
  with children_document_mut := Induction for children_document Sort Prop
  with items_document_mut := Induction for items_document Sort Prop.
Combined Scheme document_mut from item_document_mut, children_document_mut, items_document_mut.

Lemma optional_member_raw k s : optional_member k s (map (fun m => (key (fst m), raw_value (snd m))) (raw_opt k s)).
Proof.
  destruct s as [|b s]; [constructor|]. unfold raw_opt. cbn [is_nil map fst snd raw_value].
  constructor; [discriminate | apply code_points_scan].
Qed.

Lemma items_document_map l : Forall (fun i => item_document i (raw_value (raw_item i))) l ->
  items_document l (map (fun i => raw_value (raw_item i)) l).
Proof. induction 1; cbn [map]; constructor; assumption. Qed.

Lemma raw_value_array l : raw_value (RArray l) = JArray (map raw_value l).
Proof. reflexivity. Qed.

Lemma item_document_raw i : item_document i (raw_value (raw_item i)).
Proof.
  induction i as [n v d t l IH] using item_rect'. cbn [raw_item raw_value]. rewrite !map_app.
  constructor.
  - apply code_points_scan.
  - apply optional_member_raw.
  - apply optional_member_raw.
  - apply optional_member_raw.
  - destruct l as [|c l]; [constructor|]. remember (c :: l) as k. assert (is_nil k = false) as -> by (subst k; reflexivity).
    cbn [map fst snd]. rewrite raw_value_array, map_map. subst k. constructor. apply items_document_map. exact IH.
Qed.

Lemma document_raw l : document l (raw_value (raw_info l)).
Proof.
  unfold raw_info.
  exists (map (fun m => (key (fst m), raw_value (snd m))) (if is_nil l then [] else [("Packet"%string, RArray (map raw_item l))])).
  split; [|reflexivity]. destruct l as [|c l]; [constructor|]. remember (c :: l) as k.
  assert (is_nil k = false) as -> by (subst k; reflexivity). cbn [map fst snd]. rewrite raw_value_array, map_map.
  subst k. constructor. apply items_document_map. apply Forall_forall. intros. apply item_document_raw.
Qed.

(** ** A text stands for at most one value *)

Lemma hex4_fun a b c d n m : hex4 a b c d n -> hex4 a b c d m -> n = m.
Proof. intros (w & x & y & z & A & B & C & D & E) (w' & x' & y' & z' & A' & B' & C' & D' & E'). congruence. Qed.

Lemma utf8_head c : scalar c -> c <> 0x22 -> c <> 0x5c ->
  exists b t, utf8 c = b :: t /\ b <> x5c /\ b <> x22.
Proof.
  intros S A B.
  assert (exists b t, utf8 c = b :: t /\ ((b = n2b c /\ c < 128) \/ 128 <= b2n b)) as (b & t & E & H).
  { unfold utf8, scalar in *. destruct (N.ltb_spec c 0x80); [eexists _, _; split; [reflexivity|left; auto]|].
    destruct (N.ltb_spec c 0x800); [|destruct (N.ltb_spec c 0x10000)]; (eexists _, _; split; [reflexivity|right]; rewrite b2n_n2b_small; divmod). }
  exists b, t. split; [exact E|].
  assert (b2n b <> 0x5c /\ b2n b <> 0x22) as (X & Y).
  { destruct H as [[-> H]|H]; [rewrite b2n_n2b_small by lia|]; lia. }
  split; intros ->; [apply X | apply Y]; reflexivity.
Qed.

Lemma utf8_prefix c c' r r' : scalar c -> scalar c' -> utf8 c ++ r = utf8 c' ++ r' -> c = c'.
Proof. intros S S' E. apply (f_equal scan) in E. rewrite !scan_utf8 in E by assumption. congruence. Qed.

Lemma char_prefix c b c' b' r r' : char c b -> char c' b' -> b ++ r = b' ++ r' -> c = c' /\ b = b'.
Proof.
  intros H H' E.
  destruct H as [c S L A B|e c S|h1 h2 h3 h4 c X S|h1 h2 h3 h4 l1 l2 l3 l4 h l X Y I J];
  destruct H' as [c' S' L' A' B'|e' c' S'|g1 g2 g3 g4 c' X' S'|g1 g2 g3 g4 m1 m2 m3 m4 h' l' X' Y' I' J'].
  - pose proof (utf8_prefix _ _ _ _ S S' E) as ->. auto.
  - destruct (utf8_head c S A B) as (b & t & Q & N & _). rewrite Q in E. cbn [app] in E. injection E as E _. congruence.
  - destruct (utf8_head c S A B) as (b & t & Q & N & _). rewrite Q in E. cbn [app] in E. injection E as E _. congruence.
  - destruct (utf8_head c S A B) as (b & t & Q & N & _). rewrite Q in E. cbn [app] in E. injection E as E _. congruence.
  - destruct (utf8_head c' S' A' B') as (b & t & Q & N & _). rewrite Q in E. cbn [app] in E. injection E as E _. congruence.
  - cbn [app] in E. injection E as <- _. split; [congruence | reflexivity].
  - cbn [app] in E. injection E as -> _. discriminate S.
  - cbn [app] in E. injection E as -> _. discriminate S.
  - destruct (utf8_head c' S' A' B') as (b & t & Q & N & _). rewrite Q in E. cbn [app] in E. injection E as E _. congruence.
  - cbn [app] in E. injection E as <- _. discriminate S'.
  - cbn [app] in E. injection E as <- <- <- <- _. rewrite (hex4_fun _ _ _ _ _ _ X X'). auto.
  - cbn [app] in E. injection E as <- <- <- <- _. rewrite (hex4_fun _ _ _ _ _ _ X X') in S. unfold scalar in S. lia.
  - destruct (utf8_head c' S' A' B') as (b & t & Q & N & _). rewrite Q in E. cbn [app] in E. injection E as E _. congruence.
  - cbn [app] in E. injection E as <- _. discriminate S'.
  - cbn [app] in E. injection E as <- <- <- <- _. rewrite <- (hex4_fun _ _ _ _ _ _ X X') in S'. unfold scalar in S'. lia.
  - cbn [app] in E. injection E as <- <- <- <- <- <- <- <- _.
    rewrite (hex4_fun _ _ _ _ _ _ X X'), (hex4_fun _ _ _ _ _ _ Y Y'). auto.
Qed.

Lemma char_head c b : char c b -> exists x t, b = x :: t /\ x <> x22.
Proof.
  destruct 1 as [c S L A B|e c S|h1 h2 h3 h4 c X S|h1 h2 h3 h4 l1 l2 l3 l4 h l X Y I J].
  - destruct (utf8_head c S A B) as (b & t & Q & _ & N). eauto.
  - eexists _, _. split; [reflexivity | discriminate].
  - eexists _, _. split; [reflexivity | discriminate].
  - eexists _, _. split; [reflexivity | discriminate].
Qed.

Lemma chars_prefix l s : chars l s -> forall l' s' r r', chars l' s' -> s ++ x22 :: r = s' ++ x22 :: r' -> l = l' /\ s = s'.
Proof.
  induction 1 as [|c l b t C H IH]; intros l' s' r r' H' E; destruct H' as [|c' l' b' t' C' H'].
  - auto.
  - destruct (char_head _ _ C') as (x & u & -> & N). cbn [app] in E. injection E as E _. congruence.
  - destruct (char_head _ _ C) as (x & u & -> & N). cbn [app] in E. injection E as E _. congruence.
  - rewrite <- !app_assoc in E. destruct (char_prefix _ _ _ _ _ _ C C' E) as [-> ->].
    apply app_inv_head in E. destruct (IH _ _ _ _ H' E) as [-> ->]. auto.
Qed.

Lemma string_prefix l b l' b' r r' : string_text l b -> string_text l' b' -> b ++ r = b' ++ r' -> l = l' /\ b = b'.
Proof.
  intros (s & C & ->) (s' & C' & ->) E. rewrite <- !app_assoc in E. cbn [app] in E. injection E as E.
  destruct (chars_prefix _ _ C _ _ _ _ C' E) as [-> ->]. auto.
Qed.

Lemma ws_prefix w w' c c' r r' : ws w -> ws w' -> ~ is_ws c -> ~ is_ws c' -> w ++ c :: r = w' ++ c' :: r' ->
  w = w' /\ c = c' /\ r = r'.
Proof.
  intros W. revert w'. induction W as [|b w B W IH]; intros w' W' N N' E; destruct W' as [|b' w' B' W'].
  - injection E as -> ->. auto.
  - injection E as -> _. contradiction.
  - injection E as <- _. contradiction.
  - cbn [app] in E. injection E as <- E. destruct (IH _ W' N N' E) as (-> & -> & ->). auto.
Qed.

Lemma ws_prefix_e w w' c c' r r' : w ++ c :: r = w' ++ c' :: r' -> ws w -> ws w' -> ~ is_ws c -> ~ is_ws c' ->
  w = w' /\ c = c' /\ r = r'.
Proof. intros. apply ws_prefix; assumption. Qed.

Definition starts (b : bytes) : Prop := exists c t, b = c :: t /\ (c = x22 \/ c = x5b \/ c = x7b).

Lemma value_starts v b : value_text v b -> starts b.
Proof.
  destruct 1 as [l b (s & _ & ->)|w W|l b H|w W|l b H]; eexists _, _; (split; [reflexivity|]); auto.
Qed.

Lemma string_starts l b : string_text l b -> starts b.
Proof. intros (s & _ & ->). eexists _, _. split; [reflexivity|]. auto. Qed.

Ltac notws := match goal with |- ~ is_ws _ => let H := fresh in intro H; unfold is_ws in H; repeat (destruct H as [H|H]); discriminate end.

Lemma starts_not_ws b : starts b -> exists c t, b = c :: t /\ ~ is_ws c /\ c <> x5d /\ c <> x7d.
Proof. intros (c & t & -> & H). exists c, t. split; [reflexivity|]. destruct H as [-> | [-> | ->]]; (split; [notws|]; split; discriminate). Qed.

(** White space before things that start alike. *)
Lemma ws_starts w w' b b' r r' : ws w -> ws w' -> starts b -> starts b' -> w ++ b ++ r = w' ++ b' ++ r' ->
  w = w' /\ b ++ r = b' ++ r'.
Proof.
  intros W W' S S' E.
  destruct (starts_not_ws _ S) as (c & t & -> & N & _). destruct (starts_not_ws _ S') as (c' & t' & -> & N' & _).
  cbn [app] in *. destruct (ws_prefix _ _ _ _ _ _ W W' N N' E) as (-> & -> & ->). auto.
Qed.

(** What may come before a closing bracket is not only white space. *)
Lemma elements_not_ws l b r w r' : elements_text l b -> ws w -> b ++ r <> w ++ x5d :: r'.
Proof.
  intros H W E.
  destruct H as [v w1 b w2 W1 V W2|v l w1 b w2 t W1 V W2 T];
  destruct (starts_not_ws _ (value_starts _ _ V)) as (c & u & -> & N & N1 & _);
  rewrite <- !app_assoc in E; cbn [app] in E; symmetry in E;
  destruct (ws_prefix w w1 x5d c _ _ W W1 ltac:(notws) N E) as (_ & F & _); congruence.
Qed.

Lemma members_not_ws l b r w r' : members_text l b -> ws w -> b ++ r <> w ++ x7d :: r'.
Proof.
  intros H W E.
  destruct H as [k v w1 bk w2 w3 b w4 W1 K W2 W3 V W4|k v l w1 bk w2 w3 b w4 t W1 K W2 W3 V W4 T];
  destruct (starts_not_ws _ (string_starts _ _ K)) as (c & u & -> & N & _ & N1);
  rewrite <- !app_assoc in E; cbn [app] in E; symmetry in E;
  destruct (ws_prefix w w1 x7d c _ _ W W1 ltac:(notws) N E) as (_ & F & _); congruence.
Qed.

Scheme value_text_mut := Induction for value_text Sort Prop
  with elements_text_mut := Induction for elements_text Sort Prop
  with members_text_mut := Induction for members_text Sort Prop.
Combined Scheme text_mut from value_text_mut, elements_text_mut, members_text_mut.

Lemma text_prefix :
  (forall v b, value_text v b -> forall v' b' r r', value_text v' b' -> b ++ r = b' ++ r' -> v = v' /\ b = b') /\
  (forall l b, elements_text l b -> forall l' b' r r', elements_text l' b' -> b ++ x5d :: r = b' ++ x5d :: r' -> l = l' /\ b = b') /\
  (forall l b, members_text l b -> forall l' b' r r', members_text l' b' -> b ++ x7d :: r = b' ++ x7d :: r' -> l = l' /\ b = b').
Proof.
  apply text_mut.
  - intros l b S v' b' r r' H' E. destruct H' as [l' b' S'|w' W'|l' b' H'|w' W'|l' b' H'];
      [|destruct S as (s & _ & ->); discriminate E..].
    destruct (string_prefix _ _ _ _ _ _ S S' E) as [-> ->]. auto.
  - intros w W v' b' r r' H' E. destruct H' as [l' b' S'|w' W'|l' b' H'|w' W'|l' b' H'].
    + destruct S' as (s & _ & ->). discriminate E.
    + rewrite <- !app_assoc in E. cbn [app] in E. injection E as E.
      destruct (ws_prefix w w' x5d x5d r r' W W' ltac:(notws) ltac:(notws) E) as (-> & _ & _). auto.
    + exfalso. rewrite <- !app_assoc in E. cbn [app] in E. injection E as E. symmetry in E.
      exact (elements_not_ws _ _ _ _ _ H' W E).
    + discriminate E.
    + discriminate E.
  - intros l b H IH v' b' r r' H' E. destruct H' as [l' b' S'|w' W'|l' b' H'|w' W'|l' b' H'].
    + destruct S' as (s & _ & ->). discriminate E.
    + exfalso. rewrite <- !app_assoc in E. cbn [app] in E. injection E as E.
      exact (elements_not_ws _ _ _ _ _ H W' E).
    + rewrite <- !app_assoc in E. cbn [app] in E. injection E as E.
      destruct (IH _ _ _ _ H' E) as [-> ->]. auto.
    + discriminate E.
    + discriminate E.
  - intros w W v' b' r r' H' E. destruct H' as [l' b' S'|w' W'|l' b' H'|w' W'|l' b' H'].
    + destruct S' as (s & _ & ->). discriminate E.
    + discriminate E.
    + discriminate E.
    + rewrite <- !app_assoc in E. cbn [app] in E. injection E as E.
      destruct (ws_prefix w w' x7d x7d r r' W W' ltac:(notws) ltac:(notws) E) as (-> & _ & _). auto.
    + exfalso. rewrite <- !app_assoc in E. cbn [app] in E. injection E as E. symmetry in E.
      exact (members_not_ws _ _ _ _ _ H' W E).
  - intros l b H IH v' b' r r' H' E. destruct H' as [l' b' S'|w' W'|l' b' H'|w' W'|l' b' H'].
    + destruct S' as (s & _ & ->). discriminate E.
    + discriminate E.
    + discriminate E.
    + exfalso. rewrite <- !app_assoc in E. cbn [app] in E. injection E as E.
      exact (members_not_ws _ _ _ _ _ H W' E).
    + rewrite <- !app_assoc in E. cbn [app] in E. injection E as E.
      destruct (IH _ _ _ _ H' E) as [-> ->]. auto.
  - intros v w b w' W V IH W' l2 b2 r r' H' E.
    destruct H' as [v1 w1 b1 w1' W1 V1 W1'|v1 l1 w1 b1 w1' t W1 V1 W1' T]; rewrite <- !app_assoc in E;
    destruct (ws_starts _ _ _ _ _ _ W W1 (value_starts _ _ V) (value_starts _ _ V1) E) as [<- F];
    destruct (IH _ _ _ _ V1 F) as [<- <-]; apply app_inv_head in F; cbn [app] in F;
    (destruct (ws_prefix_e _ _ _ _ _ _ F W' W1') as (<- & G & _); [notws|notws|]); [auto | discriminate].
  - intros v l w b w' t W V IH W' T IHT l2 b2 r r' H' E.
    destruct H' as [v1 w1 b1 w1' W1 V1 W1'|v1 l1 w1 b1 w1' t1 W1 V1 W1' T1]; rewrite <- !app_assoc in E;
    destruct (ws_starts _ _ _ _ _ _ W W1 (value_starts _ _ V) (value_starts _ _ V1) E) as [<- F];
    destruct (IH _ _ _ _ V1 F) as [<- <-]; apply app_inv_head in F; cbn [app] in F;
    (destruct (ws_prefix_e _ _ _ _ _ _ F W' W1') as (<- & G & R); [notws|notws|]); [discriminate|].
    destruct (IHT _ _ _ _ T1 R) as [<- <-]. auto.
  - intros k v w bk w1 w2 b w' W K W1 W2 V IH W' l2 b2 r r' H' E.
    destruct H' as [k0 v0 w0 bk0 w10 w20 b0 w0' W0 K0 W10 W20 V0 W0'|k0 v0 l0 w0 bk0 w10 w20 b0 w0' t0 W0 K0 W10 W20 V0 W0' T0]; rewrite <- !app_assoc in E;
    destruct (ws_starts _ _ _ _ _ _ W W0 (string_starts _ _ K) (string_starts _ _ K0) E) as [<- F];
    destruct (string_prefix _ _ _ _ _ _ K K0 F) as [<- <-]; apply app_inv_head in F; cbn [app] in F;
    (destruct (ws_prefix_e _ _ _ _ _ _ F W1 W10) as (<- & _ & F2); [notws|notws|]);
    destruct (ws_starts _ _ _ _ _ _ W2 W20 (value_starts _ _ V) (value_starts _ _ V0) F2) as [<- F3];
    destruct (IH _ _ _ _ V0 F3) as [<- <-]; apply app_inv_head in F3; cbn [app] in F3;
    (destruct (ws_prefix_e _ _ _ _ _ _ F3 W' W0') as (<- & G & _); [notws|notws|]); [auto | discriminate].
  - intros k v l w bk w1 w2 b w' t W K W1 W2 V IH W' T IHT l2 b2 r r' H' E.
    destruct H' as [k0 v0 w0 bk0 w10 w20 b0 w0' W0 K0 W10 W20 V0 W0'|k0 v0 l0 w0 bk0 w10 w20 b0 w0' t0 W0 K0 W10 W20 V0 W0' T0]; rewrite <- !app_assoc in E;
    destruct (ws_starts _ _ _ _ _ _ W W0 (string_starts _ _ K) (string_starts _ _ K0) E) as [<- F];
    destruct (string_prefix _ _ _ _ _ _ K K0 F) as [<- <-]; apply app_inv_head in F; cbn [app] in F;
    (destruct (ws_prefix_e _ _ _ _ _ _ F W1 W10) as (<- & _ & F2); [notws|notws|]);
    destruct (ws_starts _ _ _ _ _ _ W2 W20 (value_starts _ _ V) (value_starts _ _ V0) F2) as [<- F3];
    destruct (IH _ _ _ _ V0 F3) as [<- <-]; apply app_inv_head in F3; cbn [app] in F3;
    (destruct (ws_prefix_e _ _ _ _ _ _ F3 W' W0') as (<- & G & R); [notws|notws|]); [discriminate|].
    destruct (IHT _ _ _ _ T0 R) as [<- <-]. auto.
Qed.

Lemma json_text_fun v v' b : json_text v b -> json_text v' b -> v = v'.
Proof.
  intros (w & c & u & W & V & U & ->) (w' & c' & u' & W' & V' & U' & E).
  destruct (ws_starts _ _ _ _ _ _ W W' (value_starts _ _ V) (value_starts _ _ V') E) as [<- F].
  exact (proj1 (proj1 text_prefix _ _ V _ _ _ _ V' F)).
Qed.

(** ** A document stands for at most one tree of valid strings *)

Lemma code_points_utf8 l s : Forall scalar l -> code_points (utf8s l) s -> s = l.
Proof.
  intro F. revert s. induction F as [|c l S F IH]; intros s H.
  - cbn in H. inversion H as [|c s' l' S Q E|]; [reflexivity|].
    exfalso. pose proof (utf8_length c) as L. apply (f_equal (@length _)) in E. rewrite app_length in E. cbn in E. lia.
  - cbn [utf8s flat_map] in H. remember (utf8 c ++ flat_map utf8 l) as u.
    destruct H as [|c' s' l' S' H|b s' l' N H].
    + exfalso. pose proof (utf8_length c) as L. apply (f_equal (@length _)) in Hequ. rewrite app_length in Hequ. cbn in Hequ. lia.
    + pose proof (utf8_prefix _ _ _ _ S' S Hequ) as ->. apply app_inv_head in Hequ. subst s'. f_equal. apply IH. exact H.
    + exfalso. apply (N c (flat_map utf8 l) S). exact Hequ.
Qed.

Lemma code_points_inj a b l : is_utf8 a -> is_utf8 b -> code_points a l -> code_points b l -> a = b.
Proof.
  intros (x & X & ->) (y & Y & ->) A B. rewrite (code_points_utf8 _ _ X A) in B. rewrite (code_points_utf8 _ _ Y B). reflexivity.
Qed.

Lemma optional_inj k a b m : is_utf8 a -> is_utf8 b -> optional_member k a m -> optional_member k b m -> a = b.
Proof.
  intros A B H H'. destruct H as [k|k a l N P].
  - inversion H'. reflexivity.
  - inversion H' as [|k' b' l' N' P' X Y Z]. subst. exact (code_points_inj _ _ _ A B P P').
Qed.

(** The member lists are told apart by their names. *)
Lemma optional_keys k s m : optional_member k s m -> m = [] \/ exists l, m = [(key k, JString l)].
Proof. destruct 1; eauto. Qed.
Lemma children_keys k s m : children_document k s m -> m = [] \/ exists l, m = [(key k, JArray l)].
Proof. destruct 1; eauto. Qed.

Lemma members_split v v' d d' t t' c c' mv mv' md md' mt mt' ms ms' :
  optional_member "value" v mv -> optional_member "value" v' mv' ->
  optional_member "dump" d md -> optional_member "dump" d' md' ->
  optional_member "note" t mt -> optional_member "note" t' mt' ->
  children_document "Item" c ms -> children_document "Item" c' ms' ->
  mv ++ md ++ mt ++ ms = mv' ++ md' ++ mt' ++ ms' ->
  mv = mv' /\ md = md' /\ mt = mt' /\ ms = ms'.
Proof.
  intros A A' B B' C C' D D' E.
  apply optional_keys in A, A', B, B', C, C'. apply children_keys in D, D'.
  destruct A as [-> | (lA & ->)], A' as [-> | (lA' & ->)]; cbn [app] in E;
  destruct B as [-> | (lB & ->)], B' as [-> | (lB' & ->)]; cbn [app] in E; try discriminate E;
  destruct C as [-> | (lC & ->)], C' as [-> | (lC' & ->)]; cbn [app] in E; try discriminate E;
  destruct D as [-> | (lD & ->)], D' as [-> | (lD' & ->)]; cbn [app] in E; try discriminate E;
  try (injection E; intros; subst); auto.
Qed.

Lemma document_inj :
  (forall i j, item_document i j -> forall i', item_document i' j -> all_fields is_utf8 i -> all_fields is_utf8 i' -> i = i') /\
  (forall k l m, children_document k l m -> forall l', children_document k l' m -> Forall (all_fields is_utf8) l -> Forall (all_fields is_utf8) l' -> l = l') /\
  (forall l js, items_document l js -> forall l', items_document l' js -> Forall (all_fields is_utf8) l -> Forall (all_fields is_utf8) l' -> l = l').
Proof.
  apply document_mut.
  - intros n v d t l ln mv md mt ms N V D T C IH i' H' U U'.
    remember (JObject ([(key "name", JString ln)] ++ mv ++ md ++ mt ++ ms)) as j eqn:Y.
    destruct H' as [n' v' d' t' l' ln' mv' md' mt' ms' N' V' D' T' C'].
    cbn [app] in Y. injection Y as Y1 Y2. subst ln'.
    destruct (members_split _ _ _ _ _ _ _ _ _ _ _ _ _ _ _ _ V' V D' D T' T C' C Y2) as (-> & -> & -> & ->).
    inversion U as [? ? ? ? ? UN UV UD UT UL]. inversion U' as [? ? ? ? ? UN' UV' UD' UT' UL']. subst.
    f_equal.
    + exact (code_points_inj _ _ _ UN UN' N N').
    + exact (optional_inj _ _ _ _ UV UV' V V').
    + exact (optional_inj _ _ _ _ UD UD' D D').
    + exact (optional_inj _ _ _ _ UT UT' T T').
    + exact (IH _ C' UL UL').
  - intros k l' H' _ _. inversion H'. reflexivity.
  - intros k c l js H IH l' H' U U'. inversion H' as [|k' c' l1 js' H1 X Y Z]. subst. apply (IH _ H1 U U').
  - intros l' H' _ _. inversion H'. reflexivity.
  - intros i l j js I IH L IHL l' H' U U'. inversion H' as [|i' l1 j' js' I' L' X Y]. subst.
    inversion U. inversion U'. subst. f_equal; auto.
Qed.

Lemma document_tree l l' v : Forall (all_fields is_utf8) l -> Forall (all_fields is_utf8) l' ->
  document l v -> document l' v -> l = l'.
Proof.
  intros U U' (m & H & ->) (m' & H' & E). injection E as <-.
  exact (proj1 (proj2 document_inj) _ _ _ H _ H' U U').
Qed.

(** A field determines its code points. *)
Lemma code_points_fun s a b : code_points s a -> code_points s b -> a = b.
Proof.
  intro H. revert b. induction H as [|c s l S H IH|x s l N H IH]; intros b H'.
  - inversion H' as [|c s' l' S E Q|]; [reflexivity|].
    exfalso. pose proof (utf8_length c) as L. apply (f_equal (@length _)) in Q. rewrite app_length in Q. cbn in Q. lia.
  - remember (utf8 c ++ s) as u. destruct H' as [|c' s' l' S' H'|x s' l' N H'].
    + exfalso. pose proof (utf8_length c) as L. apply (f_equal (@length _)) in Hequ. rewrite app_length in Hequ. cbn in Hequ. lia.
    + pose proof (utf8_prefix _ _ _ _ S' S Hequ) as ->. apply app_inv_head in Hequ. subst s'. f_equal. apply IH. exact H'.
    + exfalso. apply (N c s S). exact Hequ.
  - remember (x :: s) as u. destruct H' as [|c' s' l' S' H'|x' s' l' N' H'].
    + discriminate.
    + exfalso. exact (N c' s' S' eq_refl).
    + injection Hequ as -> ->. f_equal. apply IH. exact H'.
Qed.

Lemma optional_fun k s m m' : optional_member k s m -> optional_member k s m' -> m = m'.
Proof.
  destruct 1 as [k|k s l N P]; intro H'; inversion H'; subst; try reflexivity; try congruence.
  repeat f_equal. eapply code_points_fun; eassumption.
Qed.

Lemma document_fun_mut :
  (forall i j, item_document i j -> forall j', item_document i j' -> j = j') /\
  (forall k l m, children_document k l m -> forall m', children_document k l m' -> m = m') /\
  (forall l js, items_document l js -> forall js', items_document l js' -> js = js').
Proof.
  apply document_mut.
  - intros n v d t l ln mv md mt ms N V D T C IH j' H'. inversion H'; subst.
    f_equal. f_equal; [repeat f_equal; eapply code_points_fun; eassumption|].
    f_equal; [eapply optional_fun; eassumption|]. f_equal; [eapply optional_fun; eassumption|].
    f_equal; [eapply optional_fun; eassumption|]. apply IH. assumption.
  - intros k m' H'. inversion H'. reflexivity.
  - intros k c l js H IH m' H'. inversion H'; subst. repeat f_equal. apply IH. assumption.
  - intros js' H'. inversion H'. reflexivity.
  - intros i l j js I IH L IHL js' H'. inversion H'; subst. f_equal; auto.
Qed.

Lemma document_fun l v v' : document l v -> document l v' -> v = v'.
Proof. intros (m & H & ->) (m' & H' & ->). f_equal. exact (proj1 (proj2 document_fun_mut) _ _ _ H _ H'). Qed.
