(** * PropOutline: C70, what the text output shows as nested is nested. *)
From Coq Require Import Strings.String Strings.Byte List NArith ZArith Bool Lia ZifyBool ZifyN ZifyNat.
From Verif Require Import Base Utf8 Item Reader Context Env Time Values Opaque Parse RelL ParseL SpecBase SpecText SpecParse SpecFrame Facade SpecFacade
  SpecDebug DebugL TextL ValuesL Utf8L SpecNest StreamL SpecOutline OutlineL PropParse PropText PropFacade PropDebug Witness.
Import ListNotations.
Local Open Scope N_scope.

Lemma plain_not (b : byte) : plain_byte b = true -> b <> x0a /\ b <> x09.
Proof. intro H. split; intros ->; discriminate H. Qed.
Lemma plain_nn l : plain l -> no_newline l.
Proof. unfold plain. rewrite forallb_forall. intros H I. exact (proj1 (plain_not _ (H _ I)) eq_refl). Qed.
Lemma title_starts l : plain l -> lead l -> starts l.
Proof.
  intros P L. destruct l as [|b l]; [contradiction L|]. cbn [lead] in L. apply orb_false_iff in L as [L1 L2].
  unfold plain in P. cbn [forallb] in P. apply andb_prop in P as [P _]. cbn [starts]. repeat split; [| apply plain_not, P |]; intros ->; discriminate.
Qed.
Lemma lead_dump l f : dump_bytes l f = [] \/ lead (dump_bytes l f).
Proof.
  destruct f; [|left; reflexivity]. destruct l as [|b l]; [left; reflexivity | right].
  unfold dump_bytes, hexdump. cbn [hexdump_from app]. apply lead_app. destruct b; reflexivity.
Qed.

Lemma outline_leaves o E :
  leaves (fun x _ => plain x /\ lead x) (fun v _ => clean v \/ exists f : byte, control (b2n f) /\ v = utf8 (b2n f))
    (fun d _ => plain d /\ (d = [] \/ lead d)) (fun x _ => clean x) any o o E E.
Proof.
  constructor; intros; unfold any; auto using plain_printable, plain_date, sanitize_clean, plain_dump_bytes, lead_dump.
  left. apply plain_printable, plain_app; [apply plain_days | reflexivity].
Qed.

Lemma good_items o E src : fits E src -> Forall good_item (fst (parse_stream o E src)).
Proof.
  intro F. destruct (rel_stream _ _ _ _ _ o o E E src (outline_leaves o E) eq_refl eq_refl F) as (_ & _ & H).
  - intros f l M. destruct (controlb (b2n f)) eqn:C.
    + right. exists f. split; [apply controlb_spec; exact C | apply litfmt_utf8].
    + left. apply litfmt_clean. intro K. apply controlb_spec in K. congruence.
  - apply (RI_fieldss (fun x => plain x /\ lead x) (fun v => clean v \/ exists f : byte, control (b2n f) /\ v = utf8 (b2n f))
      (fun d => plain d /\ (d = [] \/ lead d)) clean) in H.
    revert H. apply Forall_impl. fix IH 2. intros i H. destruct H as [n v d t l [Pn Ln] Hv [Pd Ld] Ht Hl]. constructor.
    + split; [apply title_starts | apply plain_nn]; assumption.
    + destruct Hv as [Hv|(f & _ & ->)]; [left; apply clean_nn, Hv|]. destruct (utf8_octet f) as [->|U]; [|left; exact U].
      unfold plain_value. destruct (Byte.eqb f x0a) eqn:B; [right; f_equal; apply BaseL.byte_eqb_spec; exact B|].
      left. intros [->|[]]. discriminate B.
    + split; [|apply plain_nn, Pd]. destruct Ld as [->|Ld]; [left; reflexivity | right; apply title_starts; assumption].
    + apply clean_nn, Ht.
    + induction Hl as [|x l H _ IHl]; constructor; [apply IH; exact H | exact IHl].
Qed.

(** C70.  For every input, options and indentation: the lines of the text and their levels are those of the result. *)
Theorem C70_levels : forall (o : opts) (E : env) (src : stream) (ind : bytes), fits E src -> indentation ind ->
  let items := fst (parse_stream o E src) in
  read_levels ind (info_text ind items) = flat_map (outline 0) items.
Proof.
  intros o E src ind F H items. rewrite info_text_outline. apply read_levels_lines; [exact H|]. apply outlines_good. apply good_items, F.
Qed.
Print Assumptions C70_levels.

(** C70.  So the trees that a reader of the text builds from the indentation are those of the result. *)
Theorem C70_trees : forall (o : opts) (E : env) (src : stream) (ind : bytes) (f : list tree), fits E src -> indentation ind ->
  let items := fst (parse_stream o E src) in
  nested 0 (read_levels ind (info_text ind items)) f <-> f = map shown_tree items.
Proof.
  intros o E src ind f F H items. unfold items. rewrite C70_levels by assumption. split; [|intros ->; apply nested_outlines].
  intro N. exact (eq_sym (nested_unique _ _ _ (nested_outlines _ 0) f N)).
Qed.
Print Assumptions C70_trees.

(** C70.  Two results with the same text have the same trees, whatever the inputs and options. *)
Theorem C70_same_text : forall (o o' : opts) (E E' : env) (src src' : stream) (ind : bytes), fits E src -> fits E' src' -> indentation ind ->
  info_text ind (fst (parse_stream o E src)) = info_text ind (fst (parse_stream o' E' src')) ->
  map shown_tree (fst (parse_stream o E src)) = map shown_tree (fst (parse_stream o' E' src')).
Proof.
  intros o o' E E' src src' ind F F' H T. apply (C70_trees o' E' src' ind _ F' H). rewrite <- T. apply (C70_trees o E src ind _ F H). reflexivity.
Qed.
Print Assumptions C70_same_text.

Definition indent_of (fl : flags) : bytes := if (0 <? f_indent fl)%Z then repeat x20 (Z.to_nat (f_indent fl)) else [x09].

(** C70.  The command: if everything goes well, the trees read from its standard output are those of the packets of its input. *)
Theorem C70_command : forall fl w c text, dump_command c = true -> f_json fl = false ->
  (forall src, input w c src -> fits (w_env w) src) -> all_well fl w c text ->
  execute fl w c = (Some 0%Z, text) /\
  exists src o items, input w c src /\ in_force fl c o /\ parse_stream o (w_env w) src = (items, ROk tt) /\
    forall f, nested 0 (read_levels (indent_of fl) text) f <-> f = map shown_tree items.
Proof.
  intros fl w c text Hc J Hf W. split; [apply C44_success; assumption|].
  destruct W as (src & o & items & Hi & Ho & Hp & Hr & Ht). exists src, o, items. repeat (split; [assumption|]). intro f.
  assert (items = fst (parse_stream o (w_env w) src)) as EI by (rewrite Hp; reflexivity).
  assert (indentation (indent_of fl)) as I.
  { unfold indent_of. destruct (Z.ltb_spec 0 (f_indent fl)); [right; exists (Z.to_nat (f_indent fl)); split; [lia | reflexivity] | left; reflexivity]. }
  assert (text = info_text (indent_of fl) items) as ->.
  { unfold indent_of. destruct Hr as [(K & _)|[(_ & K & ->)|(_ & K & ->)]]; [congruence|..]; destruct (Z.ltb_spec 0 (f_indent fl)); try lia; reflexivity. }
  rewrite EI. apply C70_trees; [apply Hf, Hi | exact I].
Qed.
Print Assumptions C70_command.

(** The packets of [lf_bytes]: a literal packet has a line feed as its format octet, which breaks a line of the text; the reader is not misled. *)
Definition forged : bytes := lf_bytes ++ [xcd; x0a] ++ str "a" ++ [x0a] ++ str "User ID".
Example C70_used : fits env0 (mkStream forged true) /\ indentation [x20] /\
  let items := fst (parse_stream o_debug env0 (mkStream forged true)) in
  In x0a (flat_map i_value (flat_map i_items items)) /\ (14 < length (flat_map (outline 0) items))%nat /\
  read_levels [x20] (info_text [x20] items) = flat_map (outline 0) items.
Proof.
  split; [split; [vm_compute; reflexivity | discriminate]|]. split; [right; exists 1%nat; split; [lia | reflexivity]|].
  cbv zeta. split; [vm_compute; tauto|]. split; [vm_compute; lia | vm_compute; reflexivity].
Qed.
(** Of items that the parser does not return this would not hold. *)
Example C70_not_any :
  let l := [Item (str "A") (x0a :: str "B") [] [] []] in
  let l' := [Item (str "A: ") [] [] [] []; Item (str "B") [] [] [] []] in
  info_text [x09] l = info_text [x09] l' /\ map shown_tree l <> map shown_tree l'.
Proof. cbv zeta. split; [vm_compute; reflexivity | vm_compute; discriminate]. Qed.
