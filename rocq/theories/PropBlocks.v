(** * PropBlocks: nothing but the first armored block counts (C80). *)
From Coq Require Import Strings.String Strings.Byte List NArith ZArith Bool Lia ZifyBool ZifyN ZifyNat.
From Verif Require Import Base Item Reader Opaque Context Env Parse Json Facade Cli Stderr SpecBase SpecText SpecParse SpecArmor SpecRadix64 SpecFacade SpecCli SpecCommand SpecPipe
  SpecArmored SpecBlocks ParseL StreamL PropParse PropArmor PropFacade PropCli PropRadix64 PropAcceptCmd ArmorSizeL PropShown PropCommand PropPipe PropArmored.
Import ListNotations.
Local Open Scope N_scope.

Lemma new_of_block o E text block p ok : short_lines text -> first_block (lines_of text) block -> e_armor E (unlines block) = Some (p, ok) ->
  parse_new o E (mkStream text true) = ROk (mkChunks (filter (fun p => negb (is_nil p)) p) ok).
Proof.
  intros S B D. unfold parse_new, new_reader_armor. rewrite (C42_extracts_first_block text block S B), D. destruct (oArmor o); reflexivity.
Qed.

(** C80.  Two texts with the same first block, which can be decoded: the parser gives the same result, with or without --armor. *)
Theorem C80_parse : forall (o o' : opts) (E : env) (text text' : bytes) (block : list bytes),
  (forall code, code <> ARMOR -> o_get code o' = o_get code o) -> fits E (mkStream text true) ->
  short_lines text -> short_lines text' -> first_block (lines_of text) block -> first_block (lines_of text') block -> e_armor E (unlines block) <> None ->
  parse_bytes o E text = parse_bytes o' E text'.
Proof.
  intros o o' E text text' block OO F S S' B B' D. destruct (e_armor E (unlines block)) as [[p ok]|] eqn:EA; [|congruence].
  pose proof (new_of_block o E text block p ok S B EA) as N. pose proof (new_of_block o' E text' block p ok S' B' EA) as N'.
  unfold parse_bytes, parse_stream. rewrite N, N'. apply chunks_options; [intros code NA _; apply OO, NA | exact (parse_new_ok _ _ _ _ F N)].
Qed.
Print Assumptions C80_parse.

Lemma blocks_run w w' l l' fl fl' c c' text text' block : dump_command c = true -> dump_command c' = true -> same_machine w w' -> same_output l l' ->
  flags_asked l fl -> flags_asked l' fl' -> input w c (mkStream text true) -> input w' c' (mkStream text' true) ->
  fits (w_env w) (mkStream text true) -> fits (w_env w) (mkStream text' true) ->
  short_lines text -> short_lines text' -> first_block (lines_of text) block -> first_block (lines_of text') block -> e_armor (w_env w) (unlines block) <> None ->
  run fl w c = run fl' w' c'.
Proof.
  intros D D' (ME & MX & MR & _) (SO & SI) FA FA' I I' F F' S S' B B' DE.
  destruct (run_dump_step fl w c D) as (s & -> & [(src1 & Hi & o & Ho & ->)|[N _]]); [|exfalso; exact (N _ I)].
  destruct (run_dump_step fl' w' c' D') as (s & -> & [(src2 & Hi' & o' & Ho' & ->)|[N _]]); [|exfalso; exact (N _ I')].
  rewrite (input_unique w c src1 _ Hi I), (input_unique w' c' src2 _ Hi' I').
  pose proof (asked_in_force l fl c FA) as AF. pose proof (asked_in_force l' fl' c' FA') as AF'.
  destruct FA as (FJ & FI & _ & _ & FD & _). destruct FA' as (FJ' & FI' & _ & _ & FD' & _).
  assert (f_json fl' = f_json fl) as EJ by (rewrite FJ, FJ'; apply SO; cbv; tauto).
  assert (f_indent fl' = f_indent fl) as EI by congruence.
  assert (f_on fl' DEBUG = f_on fl DEBUG) as ED by (rewrite FD, FD'; apply SO; cbv; tauto).
  assert (parse_stream o' (w_env w) (mkStream text' true) = parse_stream o (w_env w) (mkStream text true)) as EP.
  { rewrite (same_in_force fl' c' o' (options_asked l' c') _ _ F' Ho' AF'), (same_in_force fl c o (options_asked l c) _ _ F Ho AF). symmetry.
    apply (C80_parse (options_asked l c) (options_asked l' c') (w_env w) text text' block); try assumption.
    intros code NA. unfold o_get, options_asked. cbv [In] in SO. apply Z.eqb_neq in NA. rewrite NA.
    rewrite (SO "cert"%string), (SO "debug"%string), (SO "int"%string), (SO "literal"%string), (SO "marker"%string), (SO "private"%string), (SO "utc"%string) by tauto. reflexivity. }
  assert (forall a b, put w' a b = put w a b) as PP by (intros; unfold put; rewrite MR; reflexivity).
  assert (dump fl' w' o' (mkStream text' true) = dump fl w o (mkStream text true)) as ->.
  { unfold dump. rewrite ME, EP. destruct (parse_stream o (w_env w) (mkStream text true)) as [it [[]|e| |]]; try reflexivity.
    unfold marshal. rewrite EJ, EI. unfold write_from. destruct (if f_json fl then _ else _); try reflexivity. rewrite PP. reflexivity. }
  rewrite ED. destruct (dump fl w o (mkStream text true)) as [[[]|e| |] out]; cbn [debug_print]; try reflexivity.
  destruct (f_on fl DEBUG); [|reflexivity]. rewrite PP, MX. reflexivity.
Qed.

(** C80.  The command on two texts with the same first block, which can be decoded: exit code, standard output and standard error are the same, with any options
    about the output, whether the command succeeds, fails or crashes, and whether --armor is given or not. *)
Theorem C80_command : forall (w w' : world) (t : texts) (args args' : list bytes) (l l' : list (string * value)) (c c' : command) (text text' : bytes) (block : list bytes),
  asks args l c -> asks args' l' c' -> dump_command c = true -> dump_command c' = true -> same_machine w w' -> same_output l l' ->
  input w c (mkStream text true) -> input w' c' (mkStream text' true) ->
  fits (w_env w) (mkStream text true) -> fits (w_env w) (mkStream text' true) ->
  short_lines text -> short_lines text' -> first_block (lines_of text) block -> first_block (lines_of text') block -> e_armor (w_env w) (unlines block) <> None ->
  main w args = main w' args' /\ main_stderr w t args = main_stderr w' t args'.
Proof.
  intros w w' t args args' l l' c c' text text' block A A' D D' SM SO I I' F F' S S' B B' DE.
  destruct (asks_cli _ _ _ A) as (fl & CL & FA). destruct (asks_cli _ _ _ A') as (fl' & CL' & FA').
  pose proof (blocks_run w w' l l' fl fl' c c' text text' block D D' SM SO FA FA' I I' F F' S S' B B' DE) as R. destruct SM as (_ & _ & _ & MS). split.
  - unfold main. rewrite CL, CL'. cbn [option_map fst snd]. unfold execute. rewrite R. reflexivity.
  - unfold main_stderr. rewrite CL, CL'. cbn [option_map fst snd]. unfold stderr_of. rewrite R, MS.
    destruct (w_stderr w); [|reflexivity]. rewrite (said_nothing t c D), (said_nothing t c' D').
    cbn [app]. do 2 f_equal. destruct (fst (run fl' w' c')); try reflexivity. destruct c, c'; try discriminate; reflexivity.
Qed.
Print Assumptions C80_command.

(** ** Text before and behind *)
Lemma split_nonempty d : split_lines d <> [].
Proof. destruct d as [|b d]; cbn; [discriminate|]. destruct (Byte.eqb b x0a); [discriminate|]. destruct (split_lines d); discriminate. Qed.
Lemma split_join t d : split_lines (t ++ x0a :: d) = split_lines t ++ split_lines d.
Proof.
  induction t as [|b t IH]; [reflexivity|]. cbn [app split_lines]. rewrite IH. destruct (Byte.eqb b x0a); [reflexivity|].
  pose proof (split_nonempty t). destruct (split_lines t); [congruence | reflexivity].
Qed.
Lemma drop_join (L M : list bytes) : M <> [] -> drop_last_empty (L ++ M) = L ++ drop_last_empty M.
Proof.
  intro N. induction L as [|x L IH]; [reflexivity|]. cbn [app]. destruct (L ++ M) as [|y r] eqn:E; [apply app_eq_nil in E; tauto|].
  rewrite <- IH. reflexivity.
Qed.
Lemma lines_join t d : lines_of (t ++ x0a :: d) = lines_of (t ++ [x0a]) ++ lines_of d.
Proof.
  unfold lines_of. rewrite !split_join, !drop_join, !map_app by (apply split_nonempty || discriminate). cbn [split_lines drop_last_empty map]. rewrite app_nil_r. reflexivity.
Qed.
Lemma short_join t d : short_lines t -> short_lines d -> short_lines (t ++ x0a :: d).
Proof. unfold short_lines. intros A B. rewrite split_join. apply Forall_app. split; assumption. Qed.
Lemma block_around pre lines post block : Forall (fun s => ~ begin_line s) pre -> first_block lines block -> first_block (pre ++ lines ++ post) block.
Proof.
  intros NP (p & b & mid & e & q & -> & -> & P & B & M & E). exists (pre ++ p), b, mid, e, (q ++ post).
  split; [rewrite <- !app_assoc; cbn [app]; rewrite <- app_assoc; reflexivity|]. split; [reflexivity|]. split; [apply Forall_app; split; assumption|]. auto.
Qed.

(** C80.  Any lines without a begin line before the text, and any lines at all behind it (such as more armored blocks), change nothing. *)
Theorem C80_around : forall (before text behind : bytes) (block : list bytes),
  short_lines before -> short_lines text -> short_lines behind ->
  Forall (fun s => ~ begin_line s) (lines_of (before ++ [x0a])) -> first_block (lines_of (text ++ [x0a])) block ->
  let whole := before ++ x0a :: text ++ x0a :: behind in
  short_lines whole /\ first_block (lines_of whole) block.
Proof.
  intros before text behind block S1 S2 S3 NB B whole. split.
  - apply short_join; [exact S1|]. apply short_join; assumption.
  - unfold whole. rewrite (lines_join before), (lines_join text). apply block_around; assumption.
Qed.
Print Assumptions C80_around.

(** ** Line ends *)
Fixpoint marked (l : list bytes) : list bytes := match l with [] => [] | [x] => [x] | x :: r => (x ++ [x0d]) :: marked r end.
Lemma crlf_split t : split_lines (crlf t) = marked (split_lines t).
Proof.
  induction t as [|b t IH]; [reflexivity|]. unfold crlf in *. cbn [flat_map]. cbn [split_lines]. pose proof (split_nonempty t) as N. destruct (Byte.eqb b x0a) eqn:E.
  - cbn [app split_lines]. change (Byte.eqb x0d x0a) with false. change (Byte.eqb x0a x0a) with true. cbn iota. rewrite IH. destruct (split_lines t); [congruence | reflexivity].
  - cbn [app split_lines]. rewrite E, IH. destruct (split_lines t) as [|x [|y r]]; [congruence | reflexivity | reflexivity].
Qed.
Lemma strip_end x : strip_cr (x ++ [x0d]) = x.
Proof. unfold strip_cr. rewrite rev_app_distr. cbn [rev app]. apply rev_involutive. Qed.
Lemma strip_none x : ~ In x0d x -> strip_cr x = x.
Proof. intro N. unfold strip_cr. destruct (rev x) as [|c r] eqn:E; [reflexivity|]. assert (In c x) as I by (apply in_rev; rewrite E; left; reflexivity). destruct c; try reflexivity. contradiction. Qed.
Lemma split_in t x b : In x (split_lines t) -> In b x -> In b t.
Proof.
  revert x. induction t as [|c t IH]; intros x I J; [destruct I as [<-|[]]; contradiction|]. cbn [split_lines] in I. destruct (Byte.eqb c x0a).
  - destruct I as [<-|I]; [contradiction|]. right. exact (IH x I J).
  - destruct (split_lines t) as [|h r] eqn:E.
    + destruct I as [<-|[]]. destruct J as [<-|[]]. left. reflexivity.
    + destruct I as [<-|I]; [|right; apply (IH x); [right; exact I | exact J]]. destruct J as [<-|J]; [left; reflexivity | right; apply (IH h); [left; reflexivity | exact J]].
Qed.
Lemma crlf_lines t : ~ In x0d t -> lines_of (crlf t) = lines_of t.
Proof.
  intro N. unfold lines_of. rewrite crlf_split. assert (Forall (fun x => ~ In x0d x) (split_lines t)) as F.
  { apply Forall_forall. intros x I J. exact (N (split_in t x _ I J)). }
  induction F as [|x r Hx F IH]; [reflexivity|]. destruct r as [|y r].
  - reflexivity.
  - change (marked (x :: y :: r)) with ([x ++ [x0d]] ++ marked (y :: r)). change (x :: y :: r) with ([x] ++ y :: r).
    rewrite !drop_join, !map_app by (destruct r; discriminate). rewrite IH. cbn [map]. rewrite strip_end, strip_none by exact Hx. reflexivity.
Qed.

(** C80.  A text with line feeds and the same with carriage returns and line feeds: the same. *)
Theorem C80_line_ends : forall (w w' : world) (t : texts) (args args' : list bytes) (l l' : list (string * value)) (c c' : command) (text : bytes) (block : list bytes),
  asks args l c -> asks args' l' c' -> dump_command c = true -> dump_command c' = true -> same_machine w w' -> same_output l l' ->
  input w c (mkStream text true) -> input w' c' (mkStream (crlf text) true) ->
  fits (w_env w) (mkStream text true) -> fits (w_env w) (mkStream (crlf text) true) ->
  short_lines text -> short_lines (crlf text) -> ~ In x0d text -> first_block (lines_of text) block -> e_armor (w_env w) (unlines block) <> None ->
  main w args = main w' args' /\ main_stderr w t args = main_stderr w' t args'.
Proof.
  intros w w' t args args' l l' c c' text block A A' D D' SM SO I I' F F' S S' N B DE.
  apply (C80_command w w' t args args' l l' c c' text (crlf text) block); try assumption. rewrite (crlf_lines text N). exact B.
Qed.
Print Assumptions C80_line_ends.

(** ** The mail of C78, in a longer one with the example of RFC 4880 behind it: nothing of the second block is shown, and the status is 0 *)
Definition two_blocks : bytes := str "From: Bob" ++ x0a :: mail_text ++ x0a :: rfc_text "=njUN".
Example C80_used : let w := armor_world mail_text in let w' := armor_world two_blocks in let c := CRoot false false [] in
  asks [str "-u"] demo_asked c /\ dump_command c = true /\ same_machine w w' /\ same_output demo_asked demo_asked /\
  input w c (mkStream mail_text true) /\ input w' c (mkStream two_blocks true) /\
  fits (w_env w) (mkStream mail_text true) /\ fits (w_env w) (mkStream two_blocks true) /\ short_lines mail_text /\ short_lines two_blocks /\
  first_block (lines_of mail_text) mail_lines /\ first_block (lines_of two_blocks) mail_lines /\ e_armor (w_env w) (unlines mail_lines) <> None /\
  first_block (lines_of (rfc_text "=njUN")) (rfc_lines "=njUN") /\
  main w' [str "-u"] = Some (Some 0%Z, str "User ID Packet (tag 13) (5 bytes)" ++ [x0a; x09] ++ str "User ID: Alice" ++ [x0a]).
Proof.
  cbv zeta. split; [apply C67_command_used|]. split; [reflexivity|]. split; [repeat split|]. split; [split; reflexivity|].
  split; [exact (in_stdin (armor_world mail_text))|]. split; [exact (in_stdin (armor_world two_blocks))|].
  do 2 (split; [apply decoder_fits; [exact decodes_armor_used | vm_compute; reflexivity]|]).
  assert (short_lines mail_text) as SM by (apply short_lines_by; vm_compute; reflexivity).
  destruct (rfc_block "=njUN" (or_introl eq_refl)) as [SR BR].
  assert (first_block (lines_of (mail_text ++ [x0a])) mail_lines) as MB.
  { replace (lines_of (mail_text ++ [x0a])) with (lines_of mail_text) by (vm_compute; reflexivity). exact mail_block. }
  destruct (C80_around (str "From: Bob") mail_text (rfc_text "=njUN") mail_lines) as [S B]; try assumption.
  { apply short_lines_by. vm_compute. reflexivity. }
  { change (lines_of (str "From: Bob" ++ [x0a])) with [str "From: Bob"]. constructor; [|constructor]. intros [[t T] _]. discriminate T. }
  split; [exact SM|]. split; [exact S|]. split; [exact mail_block|]. split; [exact B|]. split; [vm_compute; discriminate|]. split; [exact BR|]. vm_compute. reflexivity.
Qed.
Example C80_line_ends_used : crlf mail_text <> mail_text /\ ~ In x0d mail_text /\ short_lines (crlf mail_text) /\
  fits (w_env (armor_world mail_text)) (mkStream (crlf mail_text) true) /\ main (armor_world (crlf mail_text)) [str "-u"] = main (armor_world mail_text) [str "-u"].
Proof.
  split; [vm_compute; discriminate|]. split; [vm_compute; intuition discriminate|]. split; [apply short_lines_by; vm_compute; reflexivity|].
  split; [apply decoder_fits; [exact decodes_armor_used | vm_compute; reflexivity] | vm_compute; reflexivity].
Qed.
