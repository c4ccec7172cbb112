(** * PropArmoredSame: armored texts and their octets are treated exactly alike, and so are two armored texts of the same packets (C78, C82). *)
From Coq Require Import Strings.String Strings.Byte List NArith ZArith Bool Lia ZifyBool ZifyN ZifyNat.
From Verif Require Import Base Item Reader Opaque Context Env Parse Json Facade Cli Stderr SpecBase SpecText SpecFrame SpecParse SpecArmor SpecRadix64 SpecShown SpecFacade SpecCli SpecCommand SpecPipe
  SpecCat SpecArmored ParseL StreamL PropParse PropFrame PropArmor PropFacade PropCli PropRadix64 PropAcceptCmd ArmorSizeL PropShown PropCommand PropPipe PropCat PropArmored PropReframe.
Import ListNotations.
Local Open Scope N_scope.

(** What the commands do follows from what the parser gives. *)
Lemma same_parse_run w w' l l' fl fl' c c' a b : dump_command c = true -> dump_command c' = true -> same_machine w w' -> same_output l l' ->
  flags_asked l fl -> flags_asked l' fl' -> input w c (mkStream a true) -> input w' c' (mkStream b true) ->
  fits (w_env w) (mkStream a true) -> fits (w_env w) (mkStream b true) ->
  parse_bytes (options_asked l c) (w_env w) a = parse_bytes (options_asked l' c') (w_env w) b -> run fl w c = run fl' w' c'.
Proof.
  intros D D' (ME & MX & MR & _) (SO & SI) FA FA' I I' F F' P.
  destruct (run_dump_step fl w c D) as (s & -> & [(src1 & Hi & o & Ho & ->)|[N _]]); [|exfalso; exact (N _ I)].
  destruct (run_dump_step fl' w' c' D') as (s & -> & [(src2 & Hi' & o' & Ho' & ->)|[N _]]); [|exfalso; exact (N _ I')].
  rewrite (input_unique w c src1 _ Hi I), (input_unique w' c' src2 _ Hi' I').
  pose proof (asked_in_force l fl c FA) as AF. pose proof (asked_in_force l' fl' c' FA') as AF'.
  destruct FA as (FJ & FI & _ & _ & FD & _). destruct FA' as (FJ' & FI' & _ & _ & FD' & _).
  assert (f_json fl' = f_json fl) as EJ by (rewrite FJ, FJ'; apply SO; cbv; tauto).
  assert (f_indent fl' = f_indent fl) as EI by congruence.
  assert (f_on fl' DEBUG = f_on fl DEBUG) as ED by (rewrite FD, FD'; apply SO; cbv; tauto).
  assert (parse_stream o' (w_env w) (mkStream b true) = parse_stream o (w_env w) (mkStream a true)) as EP.
  { rewrite (same_in_force fl' c' o' (options_asked l' c') _ _ F' Ho' AF'), (same_in_force fl c o (options_asked l c) _ _ F Ho AF). symmetry. exact P. }
  assert (forall x y, put w' x y = put w x y) as PP by (intros; unfold put; rewrite MR; reflexivity).
  assert (dump fl' w' o' (mkStream b true) = dump fl w o (mkStream a true)) as ->.
  { unfold dump. rewrite ME, EP. destruct (parse_stream o (w_env w) (mkStream a true)) as [it [[]|e| |]]; try reflexivity.
    unfold marshal. rewrite EJ, EI. unfold write_from. destruct (if f_json fl then _ else _); try reflexivity. rewrite PP. reflexivity. }
  rewrite ED. destruct (dump fl w o (mkStream a true)) as [[[]|e| |] out]; cbn [debug_print]; try reflexivity.
  destruct (f_on fl DEBUG); [|reflexivity]. rewrite PP, MX. reflexivity.
Qed.
Lemma same_parse_main w w' t args args' l l' c c' a b : asks args l c -> asks args' l' c' -> dump_command c = true -> dump_command c' = true -> same_machine w w' -> same_output l l' ->
  input w c (mkStream a true) -> input w' c' (mkStream b true) -> fits (w_env w) (mkStream a true) -> fits (w_env w) (mkStream b true) ->
  parse_bytes (options_asked l c) (w_env w) a = parse_bytes (options_asked l' c') (w_env w) b ->
  main w args = main w' args' /\ main_stderr w t args = main_stderr w' t args'.
Proof.
  intros A A' D D' SM SO I I' F F' P. destruct (asks_cli _ _ _ A) as (fl & CL & FA). destruct (asks_cli _ _ _ A') as (fl' & CL' & FA').
  pose proof (same_parse_run w w' l l' fl fl' c c' a b D D' SM SO FA FA' I I' F F' P) as R. destruct SM as (_ & _ & _ & MS). split.
  - unfold main. rewrite CL, CL'. cbn [option_map fst snd]. unfold execute. rewrite R. reflexivity.
  - unfold main_stderr. rewrite CL, CL'. cbn [option_map fst snd]. unfold stderr_of. rewrite R, MS.
    destruct (w_stderr w); [|reflexivity]. rewrite (said_nothing t c D), (said_nothing t c' D').
    cbn [app]. do 2 f_equal. destruct (fst (run fl' w' c')); try reflexivity. destruct c, c'; try discriminate; reflexivity.
Qed.
Lemma options_but_armor l l' c c' : same_output l l' -> forall code, code <> ARMOR -> o_get code (options_asked l' c') = o_get code (options_asked l c).
Proof.
  intros (SO & _) code NA. unfold o_get, options_asked. cbv [In] in SO. apply Z.eqb_neq in NA. rewrite NA.
  rewrite (SO "cert"%string), (SO "debug"%string), (SO "int"%string), (SO "literal"%string), (SO "marker"%string), (SO "private"%string), (SO "utc"%string) by tauto. reflexivity.
Qed.
Lemma chunks_of_delivers data : delivers (chunks_of data true) data.
Proof. split; [destruct data; repeat constructor; discriminate|]. split; [destruct data; [reflexivity | cbn; rewrite app_nil_r; reflexivity] | reflexivity]. Qed.
Lemma armored_octets o E text data block : decodes_armor E -> short_lines text -> first_block (lines_of text) block -> armored data block ->
  parse_bytes o E text = parse_chunks o E (chunks_of data true).
Proof.
  intros D S B A. destruct (C52_as_binary o E text data block D S B A) as (c & DV & ->). exact (C01_pieces o E c _ data DV (chunks_of_delivers data)).
Qed.

Lemma store_sized d : in_store d -> sized d.
Proof. unfold in_store, sized. lia. Qed.

(** C78.  Any octets, accepted or not, and a text with an armored block of them: under options that differ in nothing but --armor the parser gives exactly the same,
    the same packets and the same way to end, up to the kind of the error. *)
Theorem C78_exactly : forall (o o' : opts) (E : env) (text data : bytes) (block : list bytes),
  (forall code, code <> ARMOR -> o_get code o' = o_get code o) -> decodes_armor E ->
  short_lines text -> first_block (lines_of text) block -> armored data block -> as_they_are o' E data -> sized data ->
  parse_bytes o E text = parse_bytes o' E data.
Proof.
  intros o o' E text data block OO D S B A (NA & SL & NB) L. rewrite (armored_octets o E text data block D S B A), (C43_complete_partial o' E data NA SL NB).
  apply chunks_options; [intros code N1 _; apply OO, N1 | exact (proj1 (chunks_of_ok data true L))].
Qed.
Print Assumptions C78_exactly.

(** C78.  The command: the armored text (anywhere, taken for armored text or recognized) and the octets themselves (anywhere) give the same exit code, the same
    standard output and the same standard error, with --debug or without it, whether the command succeeds, fails or crashes. *)
Theorem C78_all : forall (w w' : world) (t : texts) (args args' : list bytes) (l l' : list (string * value)) (c c' : command) (text data : bytes) (block : list bytes),
  asks args l c -> asks args' l' c' -> dump_command c = true -> dump_command c' = true -> same_machine w w' -> same_output l l' ->
  input w c (mkStream text true) -> input w' c' (mkStream data true) ->
  decodes_armor (w_env w) -> in_store text -> in_store data ->
  short_lines text -> first_block (lines_of text) block -> armored data block -> as_they_are (options_asked l' c') (w_env w) data ->
  main w args = main w' args' /\ main_stderr w t args = main_stderr w' t args'.
Proof.
  intros w w' t args args' l l' c c' text data block A A' D D' SM SO I I' DA IS ID S B AR AT.
  apply (same_parse_main w w' t args args' l l' c c' text data); try assumption; [apply decoder_fits; assumption | apply decoder_fits; assumption|].
  apply (C78_exactly _ _ _ text data block); try assumption; [apply options_but_armor, SO | apply store_sized, ID].
Qed.
Print Assumptions C78_all.

(** C82.  Two texts, each with an armored block of the same octets: exit code, standard output and standard error are the same, with any options about the output,
    with --armor or without it, whether the command succeeds, fails or crashes. *)
Theorem C82_texts : forall (w w' : world) (t : texts) (args args' : list bytes) (l l' : list (string * value)) (c c' : command) (text text' data : bytes) (block block' : list bytes),
  asks args l c -> asks args' l' c' -> dump_command c = true -> dump_command c' = true -> same_machine w w' -> same_output l l' ->
  input w c (mkStream text true) -> input w' c' (mkStream text' true) ->
  decodes_armor (w_env w) -> in_store text -> in_store text' -> in_store data ->
  short_lines text -> first_block (lines_of text) block -> armored data block ->
  short_lines text' -> first_block (lines_of text') block' -> armored data block' ->
  main w args = main w' args' /\ main_stderr w t args = main_stderr w' t args'.
Proof.
  intros w w' t args args' l l' c c' text text' data block block' A A' D D' SM SO I I' DA IS IS' ID S B AR S' B' AR'.
  apply (same_parse_main w w' t args args' l l' c c' text text'); try assumption; [apply decoder_fits; assumption | apply decoder_fits; assumption|].
  rewrite (armored_octets _ _ text data block DA S B AR), (armored_octets _ _ text' data block' DA S' B' AR').
  apply chunks_options; [intros code N1 _; apply (options_but_armor _ _ _ _ SO), N1 | exact (proj1 (chunks_of_ok data true (store_sized _ ID)))].
Qed.
Print Assumptions C82_texts.

(** C82.  The same for the same packets, framed in any way within the armored blocks. *)
Theorem C82_packets : forall (w w' : world) (t : texts) (args args' : list bytes) (l l' : list (string * value)) (c c' : command) (text text' data data' : bytes)
  (block block' : list bytes) (pk : list (N * bytes)),
  asks args l c -> asks args' l' c' -> dump_command c = true -> dump_command c' = true -> same_machine w w' -> same_output l l' ->
  input w c (mkStream text true) -> input w' c' (mkStream text' true) ->
  decodes_armor (w_env w) -> in_store text -> in_store text' -> in_store data -> input_of pk data -> input_of pk data' ->
  short_lines text -> first_block (lines_of text) block -> armored data block ->
  short_lines text' -> first_block (lines_of text') block' -> armored data' block' ->
  main w args = main w' args' /\ main_stderr w t args = main_stderr w' t args'.
Proof.
  intros w w' t args args' l l' c c' text text' data data' block block' pk A A' D D' SM SO I I' DA IS IS' ID P P' S B AR S' B' AR'.
  apply (same_parse_main w w' t args args' l l' c c' text text'); try assumption; [apply decoder_fits; assumption | apply decoder_fits; assumption|].
  rewrite (armored_octets _ _ text data block DA S B AR), (armored_octets _ _ text' data' block' DA S' B' AR').
  rewrite (C01_framing _ _ pk data' _ P' (chunks_of_delivers data')), <- (C01_framing _ _ pk data _ P (chunks_of_delivers data)).
  apply chunks_options; [intros code N1 _; apply (options_but_armor _ _ _ _ SO), N1 | exact (proj1 (chunks_of_ok data true (store_sized _ ID)))].
Qed.
Print Assumptions C82_packets.

(** ** The user ID of C78, armored as a message with a header and short lines; and framed in the old format within *)
Definition other_lines : list bytes :=
  [str "-----BEGIN PGP MESSAGE-----"; str "Comment: hello"; []; str "zQVB"; str "bGljZQ=="; mail_sum; str "-----END PGP MESSAGE-----"].
Definition old_data : bytes := [xb4; x05] ++ str "Alice".
Definition old_lines : list bytes :=
  [str "-----BEGIN PGP MESSAGE-----"; str "Comment: hello"; []; str "tAVB"; str "bGljZQ=="; sum_line (checksum old_data); str "-----END PGP MESSAGE-----"].
Lemma message_armored d x y : base64 d = x ++ y -> lenN x <= 96 -> lenN y <= 96 ->
  armored d [str "-----BEGIN PGP MESSAGE-----"; str "Comment: hello"; []; x; y; sum_line (checksum d); str "-----END PGP MESSAGE-----"].
Proof.
  intros H X Y. exists (str "-----BEGIN PGP MESSAGE-----"), [str "Comment: hello"], [], [x; y], (str "-----END PGP MESSAGE-----").
  split; [reflexivity|]. split; [|split; [|split; [|split]]].
  - exists (str "MESSAGE"). split; [reflexivity|]. split; [discriminate|]. split; [vm_compute; discriminate|].
    split; [repeat constructor; vm_compute; discriminate | intros [t T]; discriminate T].
  - constructor; [|constructor]. exists (str "Comment"), x68, (str "ello"). split; [reflexivity|]. split; [discriminate|]. split; [vm_compute; discriminate|].
    split; [repeat constructor; vm_compute; discriminate|]. split; [split; vm_compute; discriminate | intro I; cbn in I; intuition discriminate].
  - split; [reflexivity | constructor].
  - split; [cbn [concat]; rewrite app_nil_r; symmetry; exact H | constructor; [exact X | constructor; [exact Y | constructor]]].
  - exists (str " MESSAGE-----"). split; [reflexivity|]. split; [reflexivity|]. intro I. cbn in I. intuition discriminate.
Qed.
Lemma message_block x y z : ~ starts_with (str "-----") x -> ~ starts_with (str "-----") y -> ~ starts_with (str "-----") z ->
  first_block [str "-----BEGIN PGP MESSAGE-----"; str "Comment: hello"; []; x; y; z; str "-----END PGP MESSAGE-----"]
    [str "-----BEGIN PGP MESSAGE-----"; str "Comment: hello"; []; x; y; z; str "-----END PGP MESSAGE-----"].
Proof.
  assert (forall v, ~ starts_with (str "-----") v -> ~ starts_with (str "-----END PGP") v) as K by (intros v N [t T]; apply N; exists (str "END PGP" ++ t); exact T).
  intros X Y Z. exists [], (str "-----BEGIN PGP MESSAGE-----"), [str "Comment: hello"; []; x; y; z], (str "-----END PGP MESSAGE-----"), [].
  split; [reflexivity|]. split; [reflexivity|]. split; [constructor|].
  split; [split; [exists (str " MESSAGE-----"); reflexivity | intros [t T]; discriminate T]|].
  split; [|exists (str " MESSAGE-----"); reflexivity].
  constructor; [intros [t T]; discriminate T|]. constructor; [intros [t T]; discriminate T|]. repeat (constructor; [apply K; assumption|]). constructor.
Qed.
Example C82_used : let w := armor_world mail_text in let text' := unlines other_lines in let text'' := unlines old_lines in let c := CRoot false false [] in
  asks [str "-u"] demo_asked c /\ input w c (mkStream mail_text true) /\ decodes_armor (w_env w) /\ in_store mail_text /\ in_store text' /\ in_store text'' /\
  armored mail_data mail_lines /\ first_block (lines_of mail_text) mail_lines /\
  armored mail_data other_lines /\ first_block (lines_of text') other_lines /\ short_lines text' /\
  armored old_data old_lines /\ first_block (lines_of text'') old_lines /\ short_lines text'' /\
  input_of [(13, str "Alice")] mail_data /\ input_of [(13, str "Alice")] old_data /\
  main w [str "-u"] = main (armor_world text'') [str "-u"].
Proof.
  cbv zeta. split; [apply C67_command_used|]. split; [exact (in_stdin (armor_world mail_text))|]. split; [exact decodes_armor_used|]. do 3 (split; [vm_compute; reflexivity|]).
  split; [exact mail_armored|]. split; [exact mail_block|].
  split; [apply (message_armored mail_data (str "zQVB") (str "bGljZQ==")); vm_compute; congruence|].
  split; [replace (lines_of (unlines other_lines)) with other_lines by (vm_compute; reflexivity); apply message_block; intros [t T]; discriminate T|].
  split; [apply short_lines_by; vm_compute; reflexivity|].
  split; [apply (message_armored old_data (str "tAVB") (str "bGljZQ==")); vm_compute; congruence|].
  split; [replace (lines_of (unlines old_lines)) with old_lines by (vm_compute; reflexivity); apply message_block; intros [t T]; discriminate T|].
  split; [apply short_lines_by; vm_compute; reflexivity|].
  split; [apply all_definite; apply (one_more 13 (str "Alice") [] mail_data []); [|constructor]; apply new_format; [reflexivity|]; apply (part_last (str "Alice") [n2b 5]), len_one; reflexivity|].
  split; [apply all_definite; apply (one_more 13 (str "Alice") [] old_data []); [|constructor]; apply old_one; reflexivity|]. vm_compute. reflexivity.
Qed.
