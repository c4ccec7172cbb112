(** * PropSame: the JSON output and the text output say the same (C73). *)
From Coq Require Import Strings.String Strings.Byte List NArith ZArith Bool Lia ZifyBool ZifyN ZifyNat.
From Verif Require Import Base Item Context Env Parse Json Facade Cli SpecBase SpecText SpecParse SpecJson SpecFacade SpecCli SpecCommand SpecSame SameL TextL JsonDocL
  PropParse PropText PropJson PropFacade PropCli PropRadix64 PropAcceptCmd ArmorSizeL PropShown PropCommand.
Import ListNotations.
Local Open Scope N_scope.

Lemma json_stands n l b : info_JSON n l = ROk b -> exists v, document l v /\ json_text v b.
Proof.
  intro H. destruct (Z.leb_spec n 0) as [N|N].
  - destruct (C37_compact l n N) as (w & b' & E & D & T). rewrite H in E. injection E as <-. eauto.
  - destruct (N.leb_spec (all_levels l) 4999) as [L|L].
    + destruct (C37_indented_partial l n N L) as (w & b' & E & D & T). rewrite H in E. injection E as <-. eauto.
    + rewrite (C37_too_deep l n N L) in H. discriminate.
Qed.

(** C73.  For every result with valid strings, whatever the widths of both indentations: the text output is the lines that the JSON output tells. *)
Theorem C73_items : forall (l : list item) (n : Z) (ind b : bytes) (v : json),
  Forall (all_fields is_utf8) l -> info_JSON n l = ROk b -> json_text v b ->
  exists ls, tells v ls /\ info_text ind l = written_lines ind ls.
Proof.
  intros l n ind b v U H T. destruct (json_stands n l b H) as (w & D & TW). rewrite (json_text_fun _ _ _ T TW).
  exists (flat_map (outline 0) l). split; [apply document_tells; assumption | apply C36_text].
Qed.
Print Assumptions C73_items.

(** C73.  A document tells one sequence of lines. *)
Theorem C73_one : forall (v : json) (ls ls' : list (nat * bytes)), tells v ls -> tells v ls' -> ls = ls'.
Proof. exact tells_fun. Qed.
Print Assumptions C73_one.

(** C73.  For the result of parsing any input. *)
Theorem C73_parse : forall (o : opts) (E : env) (src : stream) (n : Z) (ind b : bytes) (v : json),
  fits E src -> info_JSON n (fst (parse_stream o E src)) = ROk b -> json_text v b ->
  exists ls, tells v ls /\ info_text ind (fst (parse_stream o E src)) = written_lines ind ls.
Proof. intros o E src n ind b v F H T. eapply C73_items; [apply C14_all_utf8, F | exact H | exact T]. Qed.
Print Assumptions C73_parse.

(** ** How deep the lines go *)
Lemma item_deep : forall i d, exists p, In p (outline d i) /\ N.of_nat (fst p) + 1 = N.of_nat d + levels i.
Proof.
  induction i as [n v dm t l IH] using item_rect'. intro d. rewrite outline_eq, levels_eq.
  assert (l = [] \/ exists i p, In i l /\ In p (outline (S d) i) /\ N.of_nat (fst p) + 1 = N.of_nat (S d) + all_levels l) as [-> | (i & p & I & P & Q)].
  { clear - IH. induction IH as [|i l H IH IHl]; [left; reflexivity|]. right. unfold all_levels. cbn [fold_right]. fold (all_levels l).
    destruct IHl as [-> | (j & p & J & P & Q)].
    - destruct (H (S d)) as (p & P & Q). exists i, p. split; [left; reflexivity|]. split; [exact P|]. cbn [all_levels fold_right]. lia.
    - destruct (N.leb_spec (levels i) (all_levels l)).
      + exists j, p. split; [right; exact J|]. split; [exact P | lia].
      + destruct (H (S d)) as (p' & P' & Q'). exists i, p'. split; [left; reflexivity|]. split; [exact P' | lia]. }
  - exists (d, item_line n v t). split; [left; reflexivity|]. cbn [fst all_levels fold_right]. lia.
  - exists p. split; [|lia]. right. apply in_or_app. right. apply in_flat_map. exists i. split; assumption.
Qed.
Lemma list_deep l : 0 < all_levels l -> exists p, In p (flat_map (outline 0) l) /\ N.of_nat (fst p) + 1 = all_levels l.
Proof.
  induction l as [|i l IH]; [cbn; lia|]. intros _. unfold all_levels. cbn [fold_right flat_map]. fold (all_levels l).
  destruct (N.ltb_spec (levels i) (all_levels l)).
  - destruct IH as (p & P & Q); [lia|]. exists p. split; [apply in_or_app; right; exact P | lia].
  - destruct (item_deep i 0) as (p & P & Q). exists p. split; [apply in_or_app; left; exact P | lia].
Qed.

(** ** The command *)
Local Open Scope Z_scope.

Lemma same_options l l' c : (forall n, In n contents_options -> on l' n = on l n) -> forall code, options_asked l c code = options_asked l' c code.
Proof.
  intros S code. unfold options_asked. cbv [contents_options In] in S.
  rewrite (S "armor"%string), (S "cert"%string), (S "debug"%string), (S "int"%string), (S "literal"%string), (S "marker"%string), (S "private"%string), (S "utc"%string) by tauto.
  reflexivity.
Qed.
Lemma same_asked l l' fl fl' c o : (forall n, In n contents_options -> on l' n = on l n) -> flags_asked l fl -> flags_asked l' fl' -> in_force fl c o -> in_force fl' c o.
Proof.
  intros S A A' O code. rewrite (O code). pose proof (asked_in_force l fl c A code) as X. pose proof (asked_in_force l' fl' c A' code) as Y.
  rewrite <- X, <- Y. apply same_options, S.
Qed.
Lemma rendered_lines l fl items t : flags_asked l fl -> on l "json" = false -> (rendering fl items t <-> t = info_text (indent_asked l) items).
Proof.
  intros (FJ & FI & _) J. unfold rendering, indent_asked. rewrite <- FI, FJ, J. destruct (Z.ltb_spec 0 (f_indent fl)) as [P|P]; split; intro Q.
  - destruct Q as [[Q _]|[(_ & _ & Q)|(_ & Q & _)]]; [discriminate | exact Q | lia].
  - right. left. split; [reflexivity|]. split; [lia | exact Q].
  - destruct Q as [[Q _]|[(_ & Q & _)|(_ & _ & Q)]]; [discriminate | lia | exact Q].
  - right. right. split; [reflexivity|]. split; [lia | exact Q].
Qed.

(** C73.  Two command lines that ask for the same command with the same options, the one with --json, the other without it (--indent may differ).
    If the first ends with success, its output is a JSON text, and the other ends with success and writes the lines that this JSON text tells. *)
Theorem C73_command : forall (w : world) (args args' : list bytes) (l l' : list (string * value)) (c : command) (j : bytes),
  asks args l c -> asks args' l' c -> dump_command c = true -> on l "json" = true -> on l' "json" = false ->
  (forall n, In n contents_options -> on l' n = on l n) -> on l "debug" = false ->
  (forall src, input w c src -> fits (w_env w) src) ->
  main w args = Some (Some 0, j) ->
  exists v ls, json_text v j /\ tells v ls /\
    let t := written_lines (indent_asked l') ls in (takes w t -> main w args' = Some (Some 0, t)).
Proof.
  intros w args args' l l' c j A A' D J J' S ND F M.
  destruct (asks_cli _ _ _ A) as (fl & CL & FA). destruct (asks_cli _ _ _ A') as (fl' & CL' & FA').
  unfold main in *. rewrite CL in M. rewrite CL'. cbn [option_map fst snd] in *. injection M as M.
  assert (f_on fl DEBUG = false) as FD by (destruct FA as (_ & _ & _ & _ & X & _); rewrite X; exact ND).
  destruct (C44_only_success fl w c D FD) as (text & (src & o & items & I & O & P & R & T) & Q); [rewrite M; reflexivity|].
  rewrite M in Q. cbn [snd] in Q. subst text.
  assert (info_JSON (f_indent fl) items = ROk j) as JS.
  { destruct FA as (FJ & _). rewrite J in FJ. destruct R as [[_ R]|[(R & _)|(R & _)]]; [exact R | congruence | congruence]. }
  assert (items = fst (parse_stream o (w_env w) src)) as EI by (rewrite P; reflexivity).
  destruct (json_stands _ _ _ JS) as (v & _ & JT). rewrite EI in JS.
  destruct (C73_parse o (w_env w) src _ (indent_asked l') j v (F src I) JS JT) as (ls & TL & TX). rewrite <- EI in TX.
  exists v, ls. split; [exact JT|]. split; [exact TL|]. intro TK. f_equal. apply C44_success; [exact D | exact F|].
  exists src, o, items. split; [exact I|]. split; [exact (same_asked l l' fl fl' c o S FA FA' O)|]. split; [exact P|]. split; [|exact TK].
  apply (rendered_lines l' fl' items _ FA' J'). symmetry. exact TX.
Qed.
Print Assumptions C73_command.

(** C73.  The other way round: if the one without --json ends with success, so does the one with it, and what it writes tells the lines that the first
    writes; but for lines more than 4998 levels deep, for which --indent is refused, with status 1 and no output. *)
Theorem C73_text : forall (w : world) (args args' : list bytes) (l l' : list (string * value)) (c : command) (t : bytes),
  asks args l c -> asks args' l' c -> dump_command c = true -> on l "json" = true -> on l' "json" = false ->
  (forall n, In n contents_options -> on l' n = on l n) -> on l "debug" = false ->
  (forall src, input w c src -> fits (w_env w) src) ->
  main w args' = Some (Some 0, t) ->
  exists ls, t = written_lines (indent_asked l') ls /\
    ((exists v j, json_text v j /\ tells v ls /\ (takes w j -> main w args = Some (Some 0, j))) \/
     (0 < number l "indent" 0 /\ (exists p, In p ls /\ (4999 <= N.of_nat (fst p))%N) /\ main w args = Some (Some 1, []))).
Proof.
  intros w args args' l l' c t A A' D J J' S ND F M.
  destruct (asks_cli _ _ _ A) as (fl & CL & FA). destruct (asks_cli _ _ _ A') as (fl' & CL' & FA').
  unfold main in *. rewrite CL' in M. rewrite CL. cbn [option_map fst snd] in *. injection M as M.
  assert (f_on fl DEBUG = false) as FD by (destruct FA as (_ & _ & _ & _ & X & _); rewrite X; exact ND).
  assert (f_on fl' DEBUG = false) as FD'.
  { destruct FA' as (_ & _ & _ & _ & X & _). rewrite X, (S "debug"%string); [exact ND | cbv; tauto]. }
  destruct (C44_only_success fl' w c D FD') as (text & (src & o & items & I & O & P & R & T) & Q); [rewrite M; reflexivity|].
  rewrite M in Q. cbn [snd] in Q. subst text. apply (rendered_lines l' fl' items t FA' J') in R.
  assert (in_force fl c o) as O' by (apply (same_asked l' l fl' fl c o); [intros n Hn; symmetry; apply S, Hn | exact FA' | exact FA | exact O]).
  assert (Forall (all_fields is_utf8) items) as U by (pose proof (C14_all_utf8 o (w_env w) src (F src I)) as X; rewrite P in X; exact X).
  exists (flat_map (outline 0) items). split; [rewrite R; apply C36_text|].
  destruct FA as (FJ & FI & _). rewrite J in FJ.
  destruct (info_JSON (number l "indent" 0) items) as [j|e| |] eqn:JS.
  - left. destruct (json_stands _ _ _ JS) as (v & DC & JT). exists v, j. split; [exact JT|]. split; [apply document_tells; assumption|].
    intro TK. f_equal. apply C44_success; [exact D | exact F|]. exists src, o, items. repeat (split; [assumption|]). split; [|exact TK]. left. rewrite FI. auto.
  - right. assert (0 < number l "indent" 0) as N.
    { destruct (Z.ltb_spec 0 (number l "indent" 0)) as [X|X]; [exact X|]. destruct (C37_compact items _ X) as (v & b & Q & _). congruence. }
    split; [exact N|]. split.
    + assert (4999 < all_levels items)%N as L.
      { destruct (N.ltb_spec 4999 (all_levels items)) as [X|X]; [exact X|]. destruct (C37_indented_partial items _ N X) as (v & b & Q & _). congruence. }
      destruct (list_deep items ltac:(lia)) as (p & IP & Q). exists p. split; [exact IP | lia].
    + f_equal. unfold execute. destruct (run_dump fl w c D FD) as [(src' & Hi & o' & Ho & ->)|[X _]]; [|exfalso; exact (X src I)].
      rewrite (input_unique w c src' src Hi I). unfold dump. rewrite (same_in_force fl c o' o (w_env w) src (F src I) Ho O'), P.
      unfold marshal. rewrite FJ, FI, JS. reflexivity.
  - exfalso. revert JS. unfold info_JSON. destruct (0 <? number l "indent" 0); [|discriminate]. destruct (indent_loop _ _ _ _ _ _); discriminate.
  - exfalso. revert JS. unfold info_JSON. destruct (0 <? number l "indent" 0); [|discriminate]. destruct (indent_loop _ _ _ _ _ _); discriminate.
Qed.
Print Assumptions C73_text.

(** C73.  With or without --debug: whenever everything goes well with --json, it does without, and the lines are those that the JSON text tells. *)
Theorem C73_well : forall (w : world) (fl fl' : flags) (c : command) (j : bytes),
  dump_command c = true -> f_json fl = true -> f_json fl' = false -> (forall code, f_on fl' code = f_on fl code) ->
  (forall src, input w c src -> fits (w_env w) src) -> all_well fl w c j ->
  execute fl w c = (Some 0, j) /\
  exists v ls, json_text v j /\ tells v ls /\
    let t := written_lines (if 0 <? f_indent fl' then repeat x20 (Z.to_nat (f_indent fl')) else [x09]) ls in
    (takes w t -> execute fl' w c = (Some 0, t)).
Proof.
  intros w fl fl' c j D J J' S F W. split; [apply C44_success; assumption|]. destruct W as (src & o & items & I & O & P & R & T).
  assert (info_JSON (f_indent fl) items = ROk j) as JS by (destruct R as [[_ R]|[(R & _)|(R & _)]]; [exact R | congruence | congruence]).
  assert (items = fst (parse_stream o (w_env w) src)) as EI by (rewrite P; reflexivity).
  destruct (json_stands _ _ _ JS) as (v & _ & JT). rewrite EI in JS.
  destruct (C73_parse o (w_env w) src _ (if 0 <? f_indent fl' then repeat x20 (Z.to_nat (f_indent fl')) else [x09]) j v (F src I) JS JT) as (ls & TL & TX). rewrite <- EI in TX.
  exists v, ls. split; [exact JT|]. split; [exact TL|]. intros t TK. apply C44_success; [exact D | exact F|].
  exists src, o, items. split; [exact I|]. split; [intro code; rewrite (O code), !S; reflexivity|]. split; [exact P|]. split; [|exact TK]. right.
  unfold t. rewrite <- TX. destruct (Z.ltb_spec 0 (f_indent fl')); [left | right]; (split; [exact J'|]); (split; [lia | reflexivity]).
Qed.
Print Assumptions C73_well.

(** C73.  Nothing that the text shows is missing in JSON: whoever has only the JSON output knows the text output.  (Two commands, inputs, environments.) *)
Theorem C73_enough : forall (o o' : opts) (E E' : env) (src src' : stream) (n n' : Z) (ind b : bytes),
  fits E src -> fits E' src' ->
  info_JSON n (fst (parse_stream o E src)) = ROk b -> info_JSON n' (fst (parse_stream o' E' src')) = ROk b ->
  info_text ind (fst (parse_stream o E src)) = info_text ind (fst (parse_stream o' E' src')).
Proof.
  intros o o' E E' src src' n n' ind b F F' H H'. destruct (json_stands _ _ _ H) as (v & _ & T).
  destruct (C73_parse o E src n ind b v F H T) as (ls & A & ->). destruct (C73_parse o' E' src' n' ind b v F' H' T) as (ls' & A' & ->).
  rewrite (tells_fun _ _ _ A A'). reflexivity.
Qed.
Print Assumptions C73_enough.

(** ** The transferable public key of C67, with and without --json *)
Definition demo_json : list (string * value) := [("json"%string, VBool true); ("utc"%string, VBool true)].
Example C73_used : let w := armor_world demo_octets in let c := CRoot false false [] in
  asks [str "-ju"] demo_json c /\ asks [str "-u"] demo_asked c /\ dump_command c = true /\ on demo_json "json" = true /\ on demo_asked "json" = false /\
  (forall n, In n contents_options -> on demo_asked n = on demo_json n) /\ on demo_json "debug" = false /\
  (forall src, input w c src -> fits (w_env w) src) /\ w_room w = None /\
  (exists j, main w [str "-ju"] = Some (Some 0, j) /\ (1000 < lenN j)%N) /\ main w [str "-u"] = Some (Some 0, demo_output).
Proof.
  cbv zeta. split.
  - change [str "-ju"] with ([str "-" ++ ["j"%byte; "u"%byte]] ++ []). apply (asks_root (demo_json ++ [])). apply wa_more; [|constructor].
    apply w_letters; [|discriminate]. unfold demo_json. apply letters_more; [member|]. apply letters_more; [member | constructor].
  - split; [apply C67_command_used|]. split; [reflexivity|]. split; [reflexivity|]. split; [reflexivity|].
    split; [cbv [contents_options In]; intros n H; repeat (destruct H as [<- | H]; [reflexivity|]); contradiction|]. split; [reflexivity|].
    split; [intros src I; rewrite (input_unique _ _ src _ I (in_stdin (armor_world demo_octets))); apply decoder_fits; [exact decodes_armor_used | vm_compute; reflexivity]|].
    split; [reflexivity|]. split; [eexists; split; [vm_compute; reflexivity | vm_compute; reflexivity] | exact C67_command_shows].
Qed.
