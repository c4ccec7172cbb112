(** * PropScreen: what an option changes in the output of the command (C77). *)
From Coq Require Import Strings.String Strings.Byte List NArith ZArith Bool Lia ZifyBool ZifyN ZifyNat.
From Verif Require Import Base Item Context Env Parse Json Facade Cli SpecBase SpecText SpecTime SpecParse SpecJson SpecFacade SpecCli SpecCommand SpecSame SpecScreen StreamL TextL JsonDocL
  PropParse PropText PropJson PropFacade PropCli PropRadix64 PropAcceptCmd ArmorSizeL PropShown PropCommand PropSame PropTerminal.
Import ListNotations.
Local Open Scope Z_scope.

(** ** Trees that differ in dumps or in times, and their lines *)
Lemma added_app a a' b b' : dumps_added a a' -> dumps_added b b' -> dumps_added (a ++ b) (a' ++ b').
Proof. intros H K. induction H as [|p l l' H IH|d x t o l l' R N H IH]; [exact K | apply same_line, IH | cbn [app]; eapply dump_line; eassumption]. Qed.
Definition hex_dumps : item -> Prop := fields (fun _ => True) (fun _ => True) (fun d => exists l, read_dump d = Some l) (fun _ => True).
Lemma read_dump_nil d : read_dump d = Some [] -> d = [].
Proof.
  destruct d as [|a d]; [reflexivity|]. unfold read_dump. cbn [read_dump_tail]. intro H. exfalso.
  repeat match type of H with context [match ?x with _ => _ end] => destruct x; try discriminate end.
Qed.
Lemma outline_added : forall i i' d, alike eq dump_added eq i i' -> hex_dumps i' -> dumps_added (outline d i) (outline d i').
Proof.
  induction i as [n v dm t l IH] using item_rect'. intros i' d A X. inversion A as [? ? v1 ? d1 ? t1 ? l1 V D T L]. subst. inversion X as [? ? ? ? ? _ _ XD _ XL]. subst.
  rewrite !outline_eq.
  assert (dumps_added (flat_map (outline (S d)) l) (flat_map (outline (S d)) l1)) as R.
  { clear - IH L XL. induction L as [|i i' l l' H L IHL]; [constructor|]. inversion IH. inversion XL. subst. cbn [flat_map]. apply added_app; auto. }
  destruct D as [-> | ->].
  - destruct d1 as [|a d1]; [apply same_line; exact R|]. destruct XD as [o XD]. apply (dump_line d _ (a :: d1) o); [exact XD | intros -> | exact R].
    apply read_dump_nil in XD. discriminate.
  - apply same_line. apply added_app; [|exact R]. destruct d1; repeat constructor.
Qed.
Lemma outlines_added l l' : Forall2 (alike eq dump_added eq) l l' -> Forall hex_dumps l' -> dumps_added (flat_map (outline 0) l) (flat_map (outline 0) l').
Proof. induction 1 as [|i i' l l' H L IH]; intro X; [constructor|]. inversion X. subst. cbn [flat_map]. apply added_app; [apply outline_added; assumption | auto]. Qed.

Lemma outline_timed : forall i i' d, alike same_or_instant eq same_or_instant i i' -> Forall2 same_but_time (outline d i) (outline d i').
Proof.
  induction i as [n v dm t l IH] using item_rect'. intros i' d A. inversion A as [? ? v1 ? d1 ? t1 ? l1 V D T L]. subst. rewrite !outline_eq.
  constructor; [right; exists n, v, v1, t, t1; auto|]. apply Forall2_app.
  - destruct d1; repeat constructor.
  - clear - IH L. induction L as [|i i' l l' H L IHL]; [constructor|]. inversion IH. subst. cbn [flat_map]. apply Forall2_app; auto.
Qed.
Lemma outlines_timed l l' : Forall2 (alike same_or_instant eq same_or_instant) l l' -> Forall2 same_but_time (flat_map (outline 0) l) (flat_map (outline 0) l').
Proof. induction 1 as [|i i' l l' H L IH]; [constructor|]. cbn [flat_map]. apply Forall2_app; [apply outline_timed, H | exact IH]. Qed.

(** ** The command *)
Lemma text_of l items : info_text (indent_asked l) items = written_lines (indent_asked l) (flat_map (outline 0) items).
Proof. apply C36_text. Qed.
(** A command that reads items writes their lines. *)
Lemma writes w args l c src items : asks args l c -> dump_command c = true -> on l "json" = false ->
  (forall src, input w c src -> fits (w_env w) src) -> input w c src -> parse_stream (options_asked l c) (w_env w) src = (items, ROk tt) ->
  let t := written_lines (indent_asked l) (flat_map (outline 0) items) in takes w t -> main w args = Some (Some 0, t).
Proof.
  intros A D J F I P t T. destruct (asks_cli _ _ _ A) as (fl & CL & FA). unfold main. rewrite CL. cbn [option_map fst snd]. f_equal.
  apply C44_success; [exact D | exact F|]. exists src, (options_asked l c), items. split; [exact I|]. split; [apply asked_in_force, FA|]. split; [exact P|]. split; [|exact T].
  apply (rendered_lines l fl items t FA J). symmetry. apply text_of.
Qed.

(** C77.  The options that show dumps.  Of two command lines for the same command, the second asks for every dump that the first asks for, and both for text, for
    armored text or not and for UTC or not alike.  If the first ends with success, so does the second, and writes the same lines and dumps between them. *)
Theorem C77_dump_options : forall (w : world) (args args' : list bytes) (l l' : list (string * value)) (c : command) (t : bytes),
  asks args l c -> asks args' l' c -> dump_command c = true -> on l "json" = false -> on l' "json" = false ->
  on l' "armor" = on l "armor" -> on l' "utc" = on l "utc" -> on l "debug" = false ->
  (forall n, In n dump_options -> on l n = true -> on l' n = true) ->
  (forall src, input w c src -> fits (w_env w) src) ->
  main w args = Some (Some 0, t) ->
  exists ls ls', t = written_lines (indent_asked l) ls /\ dumps_added ls ls' /\
    let t' := written_lines (indent_asked l') ls' in (takes w t' -> main w args' = Some (Some 0, t')).
Proof.
  intros w args args' l l' c t A A' D J J' AR UT ND M F R. destruct (written w args l c t A D ND F R) as (src & items & fl & I & P & FA & RE).
  apply (rendered_lines l fl items t FA J) in RE. rewrite text_of in RE.
  assert (same_armor_utc (options_asked l c) (options_asked l' c)) as SAU by (unfold same_armor_utc, o_get, options_asked; cbn; rewrite AR, UT; auto).
  pose proof (C05_only_dumps_differ _ _ (w_env w) src (F src I) SAU) as [S _].
  assert (forall k, o_get k (options_asked l c) = true -> o_get k (options_asked l' c) = true) as MO.
  { intros k. unfold o_get, options_asked. cbv [dump_options In] in M.
    destruct (k =? ARMOR); [rewrite AR; auto|]. destruct (k =? CERT); [apply M; tauto|]. destruct (k =? DEBUG); [apply M; tauto|]. destruct (k =? INTEGER); [apply M; tauto|].
    destruct (k =? LITERAL); [apply M; tauto|]. destruct (k =? MARKER); [apply M; tauto|]. destruct (k =? PRIVATE); [apply M; tauto|]. destruct (k =? UTC); [rewrite UT; auto | auto]. }
  pose proof (C05_options_add_dumps _ _ (w_env w) src (F src I) SAU MO) as AD. pose proof (C05_dumps_are_hex (options_asked l' c) (w_env w) src (F src I)) as HX.
  rewrite P in S, AD. cbn [fst snd] in S, AD. destruct (parse_stream (options_asked l' c) (w_env w) src) as [items' r'] eqn:P'. cbn [fst snd] in *. subst r'.
  exists (flat_map (outline 0) items), (flat_map (outline 0) items'). split; [exact RE|]. split; [apply outlines_added; assumption|].
  exact (writes w args' l' c src items' A' D J' F I P').
Qed.
Print Assumptions C77_dump_options.

(** C77.  The same two command lines, the other way round: if the one with more dumps ends with success, so does the other. *)
Theorem C77_fewer_dumps : forall (w : world) (args args' : list bytes) (l l' : list (string * value)) (c : command) (t' : bytes),
  asks args l c -> asks args' l' c -> dump_command c = true -> on l "json" = false -> on l' "json" = false ->
  on l' "armor" = on l "armor" -> on l' "utc" = on l "utc" -> on l' "debug" = false ->
  (forall n, In n dump_options -> on l n = true -> on l' n = true) ->
  (forall src, input w c src -> fits (w_env w) src) ->
  main w args' = Some (Some 0, t') ->
  exists ls ls', t' = written_lines (indent_asked l') ls' /\ dumps_added ls ls' /\
    let t := written_lines (indent_asked l) ls in (takes w t -> main w args = Some (Some 0, t)).
Proof.
  intros w args args' l l' c t A A' D J J' AR UT ND M F R. destruct (written w args' l' c t A' D ND F R) as (src & items' & fl & I & P' & FA & RE).
  apply (rendered_lines l' fl items' t FA J') in RE. rewrite text_of in RE.
  assert (same_armor_utc (options_asked l c) (options_asked l' c)) as SAU by (unfold same_armor_utc, o_get, options_asked; cbn; rewrite AR, UT; auto).
  pose proof (C05_only_dumps_differ _ _ (w_env w) src (F src I) SAU) as [S _].
  assert (forall k, o_get k (options_asked l c) = true -> o_get k (options_asked l' c) = true) as MO.
  { intros k. unfold o_get, options_asked. cbv [dump_options In] in M.
    destruct (k =? ARMOR); [rewrite AR; auto|]. destruct (k =? CERT); [apply M; tauto|]. destruct (k =? DEBUG); [apply M; tauto|]. destruct (k =? INTEGER); [apply M; tauto|].
    destruct (k =? LITERAL); [apply M; tauto|]. destruct (k =? MARKER); [apply M; tauto|]. destruct (k =? PRIVATE); [apply M; tauto|]. destruct (k =? UTC); [rewrite UT; auto | auto]. }
  pose proof (C05_options_add_dumps _ _ (w_env w) src (F src I) SAU MO) as AD. pose proof (C05_dumps_are_hex (options_asked l' c) (w_env w) src (F src I)) as HX.
  rewrite P' in S, AD, HX. cbn [fst snd] in S, AD, HX. destruct (parse_stream (options_asked l c) (w_env w) src) as [items r] eqn:P. cbn [fst snd] in *. subst r.
  exists (flat_map (outline 0) items), (flat_map (outline 0) items'). split; [exact RE|]. split; [apply outlines_added; assumption|].
  exact (writes w args l c src items A D J F I P).
Qed.
Print Assumptions C77_fewer_dumps.

(** C77.  --utc.  Two command lines for the same command that differ at most in it and in --indent: if the one ends with success, so does the other, and writes as many
    lines, which differ at most in how a time is written. *)
Theorem C77_utc : forall (w : world) (args args' : list bytes) (l l' : list (string * value)) (c : command) (t : bytes),
  asks args l c -> asks args' l' c -> dump_command c = true -> on l "json" = false -> on l' "json" = false ->
  (forall n, In n contents_options -> n <> "utc"%string -> on l' n = on l n) -> on l "debug" = false -> minute_zone (e_tz (w_env w)) ->
  (forall src, input w c src -> fits (w_env w) src) ->
  main w args = Some (Some 0, t) ->
  exists ls ls', t = written_lines (indent_asked l) ls /\ Forall2 same_but_time ls ls' /\
    let t' := written_lines (indent_asked l') ls' in (takes w t' -> main w args' = Some (Some 0, t')).
Proof.
  intros w args args' l l' c t A A' D J J' M ND Z F R. destruct (written w args l c t A D ND F R) as (src & items & fl & I & P & FA & RE).
  apply (rendered_lines l fl items t FA J) in RE. rewrite text_of in RE.
  assert (same_opts_but UTC (options_asked l c) (options_asked l' c)) as SO.
  { intros k NK. unfold o_get, options_asked. cbv [contents_options In] in M. apply Z.eqb_neq in NK. rewrite NK.
    rewrite (M "armor"%string), (M "cert"%string), (M "debug"%string), (M "int"%string), (M "literal"%string), (M "marker"%string), (M "private"%string) by (tauto || discriminate). reflexivity. }
  destruct (C07_only_dates_differ _ _ (w_env w) src (F src I) SO Z) as [S AD]. rewrite P in S, AD. cbn [fst snd] in S, AD.
  destruct (parse_stream (options_asked l' c) (w_env w) src) as [items' r'] eqn:P'. cbn [fst snd] in *. subst r'.
  exists (flat_map (outline 0) items), (flat_map (outline 0) items'). split; [exact RE|]. split; [apply outlines_timed; assumption|].
  exact (writes w args' l' c src items' A' D J' F I P').
Qed.
Print Assumptions C77_utc.

(** C77.  --indent without --json: the same lines. *)
Theorem C77_indent : forall (w : world) (args args' : list bytes) (l l' : list (string * value)) (c : command) (t : bytes),
  asks args l c -> asks args' l' c -> dump_command c = true -> on l "json" = false -> on l' "json" = false ->
  (forall n, In n contents_options -> on l' n = on l n) -> on l "debug" = false ->
  (forall src, input w c src -> fits (w_env w) src) ->
  main w args = Some (Some 0, t) ->
  exists ls, t = written_lines (indent_asked l) ls /\
    let t' := written_lines (indent_asked l') ls in (takes w t' -> main w args' = Some (Some 0, t')).
Proof.
  intros w args args' l l' c t A A' D J J' M ND F R. destruct (written w args l c t A D ND F R) as (src & items & fl & I & P & FA & RE).
  apply (rendered_lines l fl items t FA J) in RE. rewrite text_of in RE. exists (flat_map (outline 0) items). split; [exact RE|].
  apply (writes w args' l' c src items A' D J' F I). rewrite <- P. symmetry. apply C05_gdump_has_no_effect; [exact (F src I)|].
  intros k _. unfold o_get. apply same_options, M.
Qed.
Print Assumptions C77_indent.

(** C77.  --indent with --json: the same document, but for documents too deep for an indentation, for which the command ends with status 1 and writes nothing. *)
Theorem C77_indent_json : forall (w : world) (args args' : list bytes) (l l' : list (string * value)) (c : command) (t : bytes),
  asks args l c -> asks args' l' c -> dump_command c = true -> on l "json" = true -> on l' "json" = true ->
  (forall n, In n contents_options -> on l' n = on l n) -> on l "debug" = false ->
  (forall src, input w c src -> fits (w_env w) src) ->
  main w args = Some (Some 0, t) ->
  exists v, json_text v t /\
    ((exists t', json_text v t' /\ (takes w t' -> main w args' = Some (Some 0, t'))) \/
     (0 < number l' "indent" 0 /\ main w args' = Some (Some 1, []))).
Proof.
  intros w args args' l l' c t A A' D J J' M ND F R. destruct (written w args l c t A D ND F R) as (src & items & fl & I & P & FA & RE).
  assert (info_JSON (number l "indent" 0) items = ROk t) as E.
  { destruct FA as (FJ & FI & _). rewrite J in FJ. rewrite <- FI. destruct RE as [[_ X]|[(X & _)|(X & _)]]; [exact X | congruence | congruence]. }
  destruct (json_stands _ _ _ E) as (v & DV & JT). exists v. split; [exact JT|].
  assert (parse_stream (options_asked l' c) (w_env w) src = (items, ROk tt)) as P'.
  { rewrite <- P. symmetry. apply C05_gdump_has_no_effect; [exact (F src I)|]. intros k _. unfold o_get. apply same_options, M. }
  destruct (asks_cli _ _ _ A') as (fl' & CL' & FA'). pose proof FA' as (FJ' & FI' & _). rewrite J' in FJ'. unfold main. rewrite CL'. cbn [option_map fst snd].
  destruct (info_JSON (number l' "indent" 0) items) as [t'|e| |] eqn:E'.
  - left. exists t'. destruct (json_stands _ _ _ E') as (v' & DV' & JT').
    split; [rewrite (document_fun _ _ _ DV DV'); exact JT'|]. intro T. f_equal. apply C44_success; [exact D | exact F|].
    exists src, (options_asked l' c), items. split; [exact I|]. split; [apply asked_in_force, FA'|]. split; [exact P'|]. split; [left; rewrite FI'; auto | exact T].
  - right. split.
    { destruct (Z.ltb_spec 0 (number l' "indent" 0)) as [X|X]; [exact X|]. destruct (C37_compact items _ X) as (? & b & Q & _). congruence. }
    f_equal. assert (f_on fl' DEBUG = false) as FD.
    { destruct FA' as (_ & _ & _ & _ & X & _). rewrite X, (M "debug"%string); [exact ND | cbv; tauto]. }
    unfold execute. destruct (run_dump fl' w c D FD) as [(src' & Hi & o' & Ho & ->)|[X _]]; [|exfalso; exact (X src I)].
    rewrite (input_unique w c src' src Hi I). unfold dump. rewrite (same_in_force fl' c o' _ (w_env w) src (F src I) Ho (asked_in_force l' fl' c FA')), P'.
    unfold marshal. rewrite FJ', FI', E'. reflexivity.
  - exfalso. destruct (Z.ltb_spec 0 (number l' "indent" 0)) as [X|X].
    + unfold info_JSON in E'. destruct (0 <? number l' "indent" 0); [destruct (indent_loop _ _ _ _ _ _); discriminate | discriminate].
    + destruct (C37_compact items _ X) as (? & b & Q & _). congruence.
  - exfalso. unfold info_JSON in E'. destruct (0 <? number l' "indent" 0); [destruct (indent_loop _ _ _ _ _ _); discriminate | discriminate].
Qed.
Print Assumptions C77_indent_json.

(** C77.  Whether the command ends with success does not depend on any option about the output: with room for the output, two command lines for the same command
    without --json and --debug, both with --armor or both without it, end with success alike. *)
Theorem C77_accepted : forall (w : world) (args args' : list bytes) (l l' : list (string * value)) (c : command),
  asks args l c -> asks args' l' c -> dump_command c = true -> on l "json" = false -> on l' "json" = false -> on l' "armor" = on l "armor" ->
  on l "debug" = false -> on l' "debug" = false -> w_room w = None ->
  (forall src, input w c src -> fits (w_env w) src) ->
  (exists t, main w args = Some (Some 0, t)) <-> (exists t', main w args' = Some (Some 0, t')).
Proof.
  assert (forall w args args' l l' c, asks args l c -> asks args' l' c -> dump_command c = true -> on l' "json" = false -> on l' "armor" = on l "armor" ->
    on l "debug" = false -> w_room w = None -> (forall src, input w c src -> fits (w_env w) src) ->
    (exists t, main w args = Some (Some 0, t)) -> (exists t', main w args' = Some (Some 0, t'))) as K.
  { intros w args args' l l' c A A' D J' AR ND RM F (t & R). destruct (written w args l c t A D ND F R) as (src & items & fl & I & P & FA & RE).
    set (o := fun k => if k =? UTC then options_asked l' c UTC else options_asked l c k).
    destruct (C07_structure (options_asked l c) o (w_env w) src (F src I)) as [S1 _].
    { intros k NK. unfold o_get, o. apply Z.eqb_neq in NK. rewrite NK. reflexivity. }
    destruct (C05_only_dumps_differ o (options_asked l' c) (w_env w) src (F src I)) as [S2 _].
    { split; unfold o_get, o, options_asked; cbn; [rewrite AR; reflexivity | reflexivity]. }
    rewrite <- S1, P in S2. cbn [snd] in S2. destruct (parse_stream (options_asked l' c) (w_env w) src) as [items' r'] eqn:P'. cbn [snd] in S2. subst r'.
    eexists. apply (writes w args' l' c src items' A' D J' F I P'). intros k X. congruence. }
  intros w args args' l l' c A A' D J J' AR ND ND' RM F. split.
  - apply (K w args args' l l' c); assumption.
  - apply (K w args' args l' l c); try assumption. symmetry. exact AR.
Qed.
Print Assumptions C77_accepted.

(** ** The key of C67 *)
Definition demo_int : list (string * value) := [("int"%string, VBool true); ("utc"%string, VBool true)].
Example C77_used : let w := armor_world demo_octets in let c := CRoot false false [] in
  asks [str "-u"] demo_asked c /\ asks [str "-iu"] demo_int c /\ asks [] [] c /\ dump_command c = true /\
  (forall n, In n dump_options -> on demo_asked n = true -> on demo_int n = true) /\
  (forall n, In n contents_options -> n <> "utc"%string -> on [] n = on demo_asked n) /\ minute_zone (e_tz (w_env w)) /\
  (forall src, input w c src -> fits (w_env w) src) /\ w_room w = None /\
  main w [str "-u"] = Some (Some 0, demo_output) /\
  (exists t, main w [str "-iu"] = Some (Some 0, t) /\ (lenN demo_output + 10 < lenN t)%N) /\
  (exists t, main w [] = Some (Some 0, t) /\ t <> demo_output).
Proof.
  cbv zeta. destruct C76_used as (A & _ & D & _ & _ & _ & _ & F & M & _).
  split; [exact A|]. split.
  { change [str "-iu"] with ([str "-" ++ ["i"%byte; "u"%byte]] ++ []). apply (asks_root (demo_int ++ [])). apply wa_more; [|constructor].
    apply w_letters; [|discriminate]. unfold demo_int. apply letters_more; [member|]. apply letters_more; [member | constructor]. }
  split; [apply (asks_root []); constructor|]. split; [exact D|].
  split; [cbv [dump_options In]; intros n H; repeat (destruct H as [<- | H]; [intro X; vm_compute in X |- *; congruence|]); contradiction|].
  split; [cbv [contents_options In]; intros n H NU; repeat (destruct H as [<- | H]; [try (exfalso; apply NU; reflexivity); reflexivity|]); contradiction|].
  split; [intros n _; split; [split|]; reflexivity|].
  split; [exact F|]. split; [reflexivity|]. split; [exact M|]. split; eexists; (split; [vm_compute; reflexivity|]); vm_compute; [reflexivity | discriminate].
Qed.
