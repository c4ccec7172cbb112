(** * PropPipe: where the octets come from makes no difference (C74). *)
From Coq Require Import Strings.String Strings.Byte List NArith ZArith Bool Lia ZifyBool ZifyN ZifyNat.
From Verif Require Import Base Item Context Env Parse Json Facade Cli Stderr SpecBase SpecParse SpecFacade SpecCli SpecCommand SpecPipe
  PropParse PropFacade PropCli PropRadix64 PropAcceptCmd ArmorSizeL PropShown PropCommand.
Import ListNotations.
Local Open Scope Z_scope.

Lemma pipe_force l l' fl fl' c c' o o' code : same_dump l c l' c' -> flags_asked l fl -> flags_asked l' fl' -> in_force fl c o -> in_force fl' c' o' -> o' code = o code.
Proof.
  intros (S & _ & AR) FA FA' O O'. rewrite (O code), (O' code). pose proof (asked_in_force l fl c FA code) as X. pose proof (asked_in_force l' fl' c' FA' code) as Y.
  rewrite <- X, <- Y. unfold options_asked. cbv [In] in S. rewrite AR.
  rewrite (S "cert"%string), (S "debug"%string), (S "int"%string), (S "literal"%string), (S "marker"%string), (S "private"%string), (S "utc"%string) by tauto. reflexivity.
Qed.

Lemma run_same w w' l l' fl fl' c c' src : dump_command c = true -> dump_command c' = true -> same_machine w w' -> same_dump l c l' c' ->
  flags_asked l fl -> flags_asked l' fl' -> input w c src -> input w' c' src -> fits (w_env w) src -> run fl w c = run fl' w' c'.
Proof.
  intros D D' (ME & MX & MR & _) SD FA FA' I I' F.
  destruct (run_dump_step fl w c D) as (s & -> & [(src1 & Hi & o & Ho & ->)|[N _]]); [|exfalso; exact (N src I)].
  destruct (run_dump_step fl' w' c' D') as (s & -> & [(src2 & Hi' & o' & Ho' & ->)|[N _]]); [|exfalso; exact (N src I')].
  rewrite (input_unique w c src1 src Hi I), (input_unique w' c' src2 src Hi' I').
  pose proof (fun code => pipe_force l l' fl fl' c c' o o' code SD FA FA' Ho Ho') as OO.
  destruct SD as (S & SI & _). destruct FA as (FJ & FI & _ & _ & FD & _). destruct FA' as (FJ' & FI' & _ & _ & FD' & _).
  assert (f_json fl' = f_json fl) as EJ by (rewrite FJ, FJ'; apply S; cbv; tauto).
  assert (f_indent fl' = f_indent fl) as EI by congruence.
  assert (f_on fl' DEBUG = f_on fl DEBUG) as ED by (rewrite FD, FD'; apply S; cbv; tauto).
  assert (parse_stream o' (w_env w) src = parse_stream o (w_env w) src) as EP.
  { apply C05_gdump_has_no_effect; [exact F|]. intros code _. unfold o_get. rewrite OO. reflexivity. }
  assert (forall a b, put w' a b = put w a b) as PP by (intros; unfold put; rewrite MR; reflexivity).
  assert (dump fl' w' o' src = dump fl w o src) as ->.
  { unfold dump. rewrite ME, EP. destruct (parse_stream o (w_env w) src) as [it [[]|e| |]]; try reflexivity.
    unfold marshal. rewrite EJ, EI. unfold write_from. destruct (if f_json fl then _ else _); try reflexivity. rewrite PP. reflexivity. }
  rewrite ED. destruct (dump fl w o src) as [[[]|e| |] out]; cbn [debug_print]; try reflexivity.
  destruct (f_on fl DEBUG); [|reflexivity]. rewrite PP, MX. reflexivity.
Qed.

Lemma said_nothing t c : dump_command c = true -> said_running t c = [].
Proof. intro D. destruct c as [[]| | | | | | |]; try discriminate D; reflexivity. Qed.

(** C74.  Two dumping commands with the same options about the output, whose inputs have the same octets (from standard input, a file, the clipboard, a key
    server, GitHub or a web server; both taken for armored text or neither), do the same: exit code and standard output are the same, whether they succeed,
    fail or crash.  (The error itself is written to standard output with --debug only; for this see C74_debug.) *)
Theorem C74_source : forall (w w' : world) (args args' : list bytes) (l l' : list (string * value)) (c c' : command) (src : stream),
  asks args l c -> asks args' l' c' -> dump_command c = true -> dump_command c' = true ->
  same_machine w w' -> same_dump l c l' c' -> on l "debug" = false -> input w c src -> input w' c' src -> fits (w_env w) src ->
  main w args = main w' args'.
Proof.
  intros w w' args args' l l' c c' src A A' D D' SM SD _ I I' F.
  destruct (asks_cli _ _ _ A) as (fl & CL & FA). destruct (asks_cli _ _ _ A') as (fl' & CL' & FA').
  pose proof (run_same w w' l l' fl fl' c c' src D D' SM SD FA FA' I I' F) as R.
  unfold main. rewrite CL, CL'. cbn [option_map fst snd]. unfold execute. rewrite R. reflexivity.
Qed.
Print Assumptions C74_source.

(** C74.  So is standard error, if the input can be read to its end, standard output takes everything and the input is not one of those that crash the parser.
    (Errors of reading and writing are worded by what reads and writes, and the lines about a crash name the places in the program.) *)
Theorem C74_stderr : forall (w w' : world) (t : texts) (args args' : list bytes) (l l' : list (string * value)) (c c' : command) (octets : bytes),
  asks args l c -> asks args' l' c' -> dump_command c = true -> dump_command c' = true ->
  same_machine w w' -> same_dump l c l' c' -> on l "debug" = false -> input w c (mkStream octets true) -> input w' c' (mkStream octets true) -> fits (w_env w) (mkStream octets true) ->
  w_room w = None -> snd (parse_bytes (options_asked l c) (w_env w) octets) <> RPanic ->
  main_stderr w t args = main_stderr w' t args'.
Proof.
  intros w w' t args args' l l' c c' octets A A' D D' SM SD _ I I' F _ _.
  destruct (asks_cli _ _ _ A) as (fl & CL & FA). destruct (asks_cli _ _ _ A') as (fl' & CL' & FA').
  pose proof (run_same w w' l l' fl fl' c c' _ D D' SM SD FA FA' I I' F) as R. destruct SM as (_ & _ & _ & MS).
  unfold main_stderr. rewrite CL, CL'. cbn [option_map fst snd]. unfold stderr_of. rewrite R, MS.
  destruct (w_stderr w); [|reflexivity]. rewrite (said_nothing t c D), (said_nothing t c' D').
  cbn [app]. do 2 f_equal. destruct (fst (run fl' w' c')); try reflexivity. destruct c, c'; try discriminate; reflexivity.
Qed.
Print Assumptions C74_stderr.

(** C74.  With --debug: the exit code is the same, and so is standard output if the input is accepted and can be written. *)
Theorem C74_debug : forall (w w' : world) (args args' : list bytes) (l l' : list (string * value)) (c c' : command) (src : stream),
  asks args l c -> asks args' l' c' -> dump_command c = true -> dump_command c' = true ->
  same_machine w w' -> same_dump l c l' c' -> input w c src -> input w' c' src -> fits (w_env w) src ->
  option_map fst (main w args) = option_map fst (main w' args') /\
  (snd (parse_stream (options_asked l c) (w_env w) src) = ROk tt -> w_room w = None -> on l "json" = false \/ number l "indent" 0 <= 0 ->
   main w args = main w' args').
Proof.
  intros w w' args args' l l' c c' src A A' D D' SM SD I I' F.
  destruct (asks_cli _ _ _ A) as (fl & CL & FA). destruct (asks_cli _ _ _ A') as (fl' & CL' & FA').
  pose proof (run_same w w' l l' fl fl' c c' src D D' SM SD FA FA' I I' F) as R.
  unfold main. rewrite CL, CL'. cbn [option_map fst snd]. unfold execute. rewrite R. split; reflexivity.
Qed.
Print Assumptions C74_debug.

Lemma input_without_raw w c src : input w c src -> input w (without_raw c) src.
Proof. destruct 1; cbn [without_raw]; econstructor; eassumption. Qed.
Lemma raw_dumps c : raw_command c = true -> dump_command (without_raw c) = true.
Proof. destruct c; try discriminate; reflexivity. Qed.

(** C74.  What --raw writes can be dumped later: if a command with --raw ends with success, then dumping the octets that it wrote, from wherever they
    have been kept, does what the command does without --raw on the same answers of the server. *)
Theorem C74_raw : forall (w w' : world) (raw args args' : list bytes) (lr l l' : list (string * value)) (cr c' : command) (octets : bytes),
  asks raw lr cr -> raw_command cr = true -> on lr "debug" = false -> w_room w = None -> main w raw = Some (Some 0, octets) ->
  asks args l (without_raw cr) -> asks args' l' c' -> dump_command c' = true ->
  same_machine w w' -> same_dump l (without_raw cr) l' c' -> on l "debug" = false -> input w' c' (mkStream octets true) -> fits (w_env w) (mkStream octets true) ->
  main w args = main w' args'.
Proof.
  intros w w' raw args args' lr l l' cr c' octets AR RC ND RM M A A' D' SM SD NDL I' F.
  destruct (asks_cli _ _ _ AR) as (fl & CL & FA). unfold main in M. rewrite CL in M. cbn [option_map fst snd] in M. injection M as M.
  assert (f_on fl DEBUG = false) as FD by (destruct FA as (_ & _ & _ & _ & X & _); rewrite X; exact ND).
  destruct (C44_raw fl w cr RC FD) as [S O]. destruct (proj1 S) as (src & I & OK & TK); [rewrite M; reflexivity|].
  pose proof (O src I TK) as E. rewrite M in E. cbn [snd] in E.
  assert (src = mkStream octets true) as -> by (destruct src as [d k]; cbn [st_data st_ok] in *; congruence).
  apply (C74_source w w' args args' l l' (without_raw cr) c' (mkStream octets true)); try assumption; [apply raw_dumps, RC | apply input_without_raw, I].
Qed.
Print Assumptions C74_raw.

(** ** The key of C67: fetched with --raw, kept, and dumped from standard input; and fetched and dumped at once *)
Definition demo_server : world := let w := armor_world demo_octets in
  mkWorld (w_env w) (mkStream [] true) (w_open w) (w_clip w) (w_get w) (w_gh w) (w_gh_pages w) (w_error w) (w_script w) (w_room w) (w_stderr w).
Definition demo_page : bytes := str "https://example.org/key".
Example C74_used :
  let w := demo_server in let w' := armor_world demo_octets in let cr := CFetch [demo_page] true in let c' := CRoot false false [] in
  let lr := [("raw"%string, VBool true)] in
  asks [str "fetch"; str "--raw"; demo_page] lr cr /\ raw_command cr = true /\ on lr "debug" = false /\ w_room w = None /\
  main w [str "fetch"; str "--raw"; demo_page] = Some (Some 0, demo_octets) /\
  asks [str "fetch"; str "-u"; demo_page] demo_asked (without_raw cr) /\ asks [str "-u"] demo_asked c' /\ dump_command c' = true /\ dump_command (without_raw cr) = true /\
  same_machine w w' /\ w_stdin w' <> w_stdin w /\ same_dump demo_asked (without_raw cr) demo_asked c' /\ on demo_asked "debug" = false /\ number demo_asked "indent" 0 <= 0 /\
  snd (parse_bytes (options_asked demo_asked (without_raw cr)) (w_env w) demo_octets) = ROk tt /\
  input w (without_raw cr) (mkStream demo_octets true) /\ input w' c' (mkStream demo_octets true) /\ fits (w_env w) (mkStream demo_octets true) /\
  main w' [str "-u"] = Some (Some 0, demo_output).
Proof.
  cbv zeta. assert (line (options MFetch) [] [demo_page] [demo_page]) as LP by (apply line_argument; [left; discriminate | constructor]).
  split.
  { refine (asks_sub MFetch "fetch" [] [] [("raw"%string, VBool true)] [demo_page] [str "--raw"; demo_page] _ _ _); [constructor; reflexivity || (cbn; tauto) | constructor|].
    refine (line_options (options MFetch) [("raw"%string, VBool true)] [str "--raw"] [] [demo_page] [demo_page] _ LP). apply (w_long (options MFetch) "raw" None). member. }
  split; [reflexivity|]. split; [reflexivity|]. split; [reflexivity|]. split; [vm_compute; reflexivity|]. split.
  { refine (asks_sub MFetch "fetch" [] [] demo_asked [demo_page] [str "-u"; demo_page] _ _ _); [constructor; reflexivity || (cbn; tauto) | constructor|].
    refine (line_options (options MFetch) demo_asked [str "-u"] [] [demo_page] [demo_page] _ LP). change (str "-u") with (str "-" ++ ["u"%byte]).
    apply w_letters; [apply letters_more; [member | constructor] | discriminate]. }
  split; [apply C67_command_used|]. split; [reflexivity|]. split; [reflexivity|]. split; [repeat split|]. split; [discriminate|].
  split; [split; [intros; reflexivity | split; reflexivity]|]. split; [reflexivity|]. split; [discriminate|]. split; [vm_compute; reflexivity|].
  split; [apply in_web; reflexivity|]. split; [exact (in_stdin (armor_world demo_octets))|].
  split; [apply decoder_fits; [exact decodes_armor_used | vm_compute; reflexivity] | exact C67_command_shows].
Qed.
