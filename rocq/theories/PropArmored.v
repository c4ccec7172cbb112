(** * PropArmored: armored or not, the same dump (C78). *)
From Coq Require Import Strings.String Strings.Byte List NArith ZArith Bool Lia ZifyBool ZifyN ZifyNat.
From Verif Require Import Base Item Reader Opaque Context Env Parse Json Facade Cli SpecBase SpecText SpecParse SpecArmor SpecRadix64 SpecAccept SpecFacade SpecCli SpecCommand SpecPipe
  SpecOutcome SpecCat SpecArmored SpecNest CompL RelL ParseL StreamL PropParse PropArmor PropFacade PropCli PropRadix64 PropAcceptCmd ArmorSizeL PropShown PropCommand PropOutcome.
From Verif Require Import Witness.
From Verif Require PropCat.
Import ListNotations.
Local Open Scope N_scope.

Lemma chunks_options o o' E c : (forall code, code <> ARMOR -> code <> GDUMP -> o_get code o' = o_get code o) -> chunks_ok c -> parse_chunks o E c = parse_chunks o' E c.
Proof.
  intros G OK.
  assert (leaves eq eq eq eq eq o o' E E) as LV.
  { apply leaves_dumps; [symmetry; apply G; discriminate|]. intros l f1 f2 HF. f_equal.
    destruct HF as [|k Hk]; [reflexivity|]. cbn [In] in Hk.
    destruct Hk as [<-|[<-|[<-|[<-|[<-|[<-|[]]]]]]]; unfold oDebug, oInteger, oLiteral, oMarker, oPrivate, oCert;
      rewrite ?(G DEBUG) by discriminate; try reflexivity; rewrite G by discriminate; reflexivity. }
  destruct (rel_parse_chunks eq eq eq eq eq eq (ropt (RDT eq)) o o' E E (leaves_h _ _ _ _ _ _ _ _ _ LV) (fun _ _ => True) (fun _ _ _ _ _ _ _ => Logic.I) c OK) as (H1 & H2); [auto|].
  apply RI_eqs in H2. destruct (parse_chunks o E c) as [a [[]|e| |]], (parse_chunks o' E c) as [b [[]|e'| |]]; cbn in *; try contradiction; congruence.
Qed.

(** C78.  Any octets, accepted or not, and a text with an armored block of them: under options that differ in nothing but --armor the parser shows the same
    packets and comes to the same verdict: accepted, rejected for the same reason, or crash. *)
Theorem C78_parse : forall (o o' : opts) (E : env) (text data : bytes) (block : list bytes),
  (forall code, code <> ARMOR -> o_get code o' = o_get code o) -> decodes_armor E -> int_sizes (e_grow E) ->
  short_lines text -> first_block (lines_of text) block -> armored data block -> as_they_are o' E data -> lenN data < 2 ^ 32 ->
  exists items v r r', parse_bytes o E text = (items, r) /\ parse_bytes o' E data = (items, r') /\ ends_as r v /\ ends_as r' v.
Proof.
  intros o o' E text data block OO D G S B A (NA & SL & NB) L.
  destruct (C52_as_binary o E text data block D S B A) as (c & (P & CC & K) & ->).
  rewrite (C43_complete_partial o' E data NA SL NB).
  assert (lenZ data < 2 ^ 62)%Z as LZ by (unfold lenZ, lenN in *; change (2 ^ 32) with 4294967296 in L; lia).
  destruct (chunks_of_ok data true LZ) as [OK _].
  rewrite <- (chunks_options o o' E (chunks_of data true)) by (try exact OK; intros code N1 _; apply OO, N1).
  destruct (outcome_total o E true G (length data) data cst_init ltac:(lia) L) as (items & v & O).
  destruct (proj2 (C68_outcome o E c data items v G P CC L)) as (r & H & EA); [rewrite K; exact O|].
  destruct (proj2 (C68_outcome o E (chunks_of data true) data items v G (proj1 OK) ltac:(unfold chunks_of; destruct data; cbn; rewrite ?app_nil_r; reflexivity) L)) as (r' & H' & EA').
  { destruct data; exact O. }
  exists items, v, r, r'. auto.
Qed.
Print Assumptions C78_parse.

Lemma armored_steps : forall (w w' : world) (args args' : list bytes) (l l' : list (string * value)) (c c' : command) (text data : bytes) (block : list bytes),
  asks args l c -> asks args' l' c' -> dump_command c = true -> dump_command c' = true ->
  same_machine w w' -> same_output l l' ->
  input w c (mkStream text true) -> input w' c' (mkStream data true) ->
  decodes_armor (w_env w) -> int_sizes (e_grow (w_env w)) -> in_store text -> lenN data < 2 ^ 32 ->
  short_lines text -> first_block (lines_of text) block -> armored data block -> as_they_are (options_asked l' c') (w_env w) data ->
  exists fl fl' s s', cli args = Some (fl, c) /\ cli args' = Some (fl', c') /\ f_on fl DEBUG = on l "debug" /\ f_on fl' DEBUG = on l "debug" /\
    run fl w c = debug_print w (on l "debug") s /\ run fl' w' c' = debug_print w' (on l "debug") s' /\
    (s = s' \/ exists e e', s = (RErr e, []) /\ s' = (RErr e', []) /\ snd (parse_bytes (options_asked l' c') (w_env w) data) <> ROk tt).
Proof.
  intros w w' args args' l l' c c' text data block A A' D D' (ME & _ & MR & _) (SO & SI) I I' DA G IS LD S B AR AT.
  destruct (asks_cli _ _ _ A) as (fl & CL & FA). destruct (asks_cli _ _ _ A') as (fl' & CL' & FA').
  assert (forall code, code <> ARMOR -> o_get code (options_asked l' c') = o_get code (options_asked l c)) as OO.
  { intros code NA. unfold o_get, options_asked. cbv [In] in SO. apply Z.eqb_neq in NA. rewrite NA.
    rewrite (SO "cert"%string), (SO "debug"%string), (SO "int"%string), (SO "literal"%string), (SO "marker"%string), (SO "private"%string), (SO "utc"%string) by tauto. reflexivity. }
  destruct (C78_parse _ _ (w_env w) text data block OO DA G S B AR AT LD) as (items & v & r & r' & P & P' & EA & EA').
  assert (fits (w_env w) (mkStream text true)) as FT by (apply decoder_fits; [exact DA | exact IS]).
  assert (fits (w_env w) (mkStream data true)) as FD.
  { apply decoder_fits; [exact DA|]. cbn [st_data]. unfold lenZ, lenN in *. change (2 ^ 32) with 4294967296 in LD. lia. }
  pose proof (asked_in_force l fl c FA) as AF. pose proof (asked_in_force l' fl' c' FA') as AF'.
  destruct FA as (FJ & FI & _ & _ & FB & _). destruct FA' as (FJ' & FI' & _ & _ & FB' & _).
  assert (f_on fl' DEBUG = on l "debug") as ND2 by (rewrite FB'; apply SO; cbv; tauto).
  assert (f_json fl' = f_json fl) as EJ by (rewrite FJ, FJ'; apply SO; cbv; tauto).
  assert (f_indent fl' = f_indent fl) as EI by congruence.
  assert (forall a b, put w' a b = put w a b) as PP by (intros; unfold put; rewrite MR; reflexivity).
  destruct (run_dump_step fl w c D) as (s & R & [(src & Hi & o & Ho & Es)|[N _]]); [|exfalso; exact (N _ I)].
  destruct (run_dump_step fl' w' c' D') as (s' & R' & [(src' & Hi' & o' & Ho' & Es')|[N _]]); [|exfalso; exact (N _ I')].
  exists fl, fl', s, s'. rewrite FB in R. rewrite ND2 in R'. repeat (split; [assumption|]).
  rewrite (input_unique w c src _ Hi I) in Es. rewrite (input_unique w' c' src' _ Hi' I') in Es'. unfold dump in Es, Es'.
  rewrite (same_in_force fl c o (options_asked l c) _ _ FT Ho AF) in Es. rewrite ME, (same_in_force fl' c' o' (options_asked l' c') _ _ FD Ho' AF') in Es'.
  unfold parse_bytes in P, P' |- *. rewrite P in Es. rewrite P' in Es' |- *.
  destruct v as [|k|]; cbn [ends_as] in EA, EA'.
  - left. subst s s'. destruct EA as [[] ->], EA' as [[] ->]. unfold marshal. rewrite EJ, EI. unfold write_from. destruct (if f_json fl then _ else _); try reflexivity. rewrite PP. reflexivity.
  - right. destruct EA as (e & _ & ->), EA' as (e' & _ & ->). exists e, e'. repeat split; [exact Es | exact Es' | discriminate].
  - left. subst. reflexivity.
Qed.

(** C78.  The command: the armored text (anywhere, taken for armored text or recognized) and the octets themselves (anywhere) give the same exit code and the same
    standard output, whether the command succeeds, fails or crashes. *)
Theorem C78_command : forall (w w' : world) (args args' : list bytes) (l l' : list (string * value)) (c c' : command) (text data : bytes) (block : list bytes),
  asks args l c -> asks args' l' c' -> dump_command c = true -> dump_command c' = true ->
  same_machine w w' -> same_output l l' -> on l "debug" = false ->
  input w c (mkStream text true) -> input w' c' (mkStream data true) ->
  decodes_armor (w_env w) -> int_sizes (e_grow (w_env w)) -> in_store text -> lenN data < 2 ^ 32 ->
  short_lines text -> first_block (lines_of text) block -> armored data block -> as_they_are (options_asked l' c') (w_env w) data ->
  main w args = main w' args'.
Proof.
  intros w w' args args' l l' c c' text data block A A' D D' SM SO ND I I' DA G IS LD S B AR AT.
  destruct (armored_steps w w' args args' l l' c c' text data block A A' D D' SM SO I I' DA G IS LD S B AR AT) as (fl & fl' & s & s' & CL & CL' & _ & _ & R & R' & H).
  rewrite ND in R, R'. unfold main. rewrite CL, CL'. cbn [option_map fst snd]. unfold execute. rewrite R, R'.
  destruct H as [<-|(e & e' & -> & -> & _)]; [|reflexivity]. destruct s as [[]?]; reflexivity.
Qed.
Print Assumptions C78_command.

(** C78.  With --debug, where an error is written to standard output: the exit code is the same, and so is the output if the octets are accepted. *)
Theorem C78_debug : forall (w w' : world) (args args' : list bytes) (l l' : list (string * value)) (c c' : command) (text data : bytes) (block : list bytes),
  asks args l c -> asks args' l' c' -> dump_command c = true -> dump_command c' = true ->
  same_machine w w' -> same_output l l' ->
  input w c (mkStream text true) -> input w' c' (mkStream data true) ->
  decodes_armor (w_env w) -> int_sizes (e_grow (w_env w)) -> in_store text -> lenN data < 2 ^ 32 ->
  short_lines text -> first_block (lines_of text) block -> armored data block -> as_they_are (options_asked l' c') (w_env w) data ->
  option_map fst (main w args) = option_map fst (main w' args') /\
  (snd (parse_bytes (options_asked l' c') (w_env w) data) = ROk tt -> main w args = main w' args').
Proof.
  intros w w' args args' l l' c c' text data block A A' D D' SM SO I I' DA G IS LD S B AR AT.
  destruct (armored_steps w w' args args' l l' c c' text data block A A' D D' SM SO I I' DA G IS LD S B AR AT) as (fl & fl' & s & s' & CL & CL' & _ & _ & R & R' & H).
  unfold main. rewrite CL, CL'. cbn [option_map fst snd]. unfold execute. rewrite R, R'. destruct SM as (_ & MX & MR & _).
  destruct H as [<-|(e & e' & -> & -> & NP)].
  - assert (debug_print w' (on l "debug") s = debug_print w (on l "debug") s) as ->; [|split; reflexivity].
    destruct s as [[]?]; try reflexivity. cbn [debug_print]. unfold put. rewrite MX, MR. reflexivity.
  - split; [|intro H; destruct (NP H)]. cbn [debug_print]. destruct (on l "debug"); reflexivity.
Qed.
Print Assumptions C78_debug.

(** ** A user ID, armored, in a mail that is read without an option and with --armor; and the octets in a file *)
Definition mail_data : bytes := [xcd; x05] ++ str "Alice".
Definition mail_sum : bytes := sum_line (checksum mail_data).
Definition mail_lines : list bytes :=
  [str "-----BEGIN PGP PUBLIC KEY BLOCK-----"; []; str "zQVBbGljZQ=="; mail_sum; str "-----END PGP PUBLIC KEY BLOCK-----"].
Definition mail_text : bytes := str "Hello" ++ [x0a] ++ flat_map (fun l => l ++ [x0a]) mail_lines ++ str "Bye".
Example mail_armored : armored mail_data mail_lines.
Proof.
  exists (str "-----BEGIN PGP PUBLIC KEY BLOCK-----"), [], [], [str "zQVBbGljZQ=="], (str "-----END PGP PUBLIC KEY BLOCK-----").
  split; [reflexivity|]. split; [|split; [|split; [|split]]].
  - exists (str "PUBLIC KEY BLOCK"). split; [reflexivity|]. split; [discriminate|]. split; [vm_compute; discriminate|].
    split; [repeat constructor; vm_compute; discriminate | intros [t T]; discriminate T].
  - constructor.
  - split; [reflexivity | constructor].
  - split; [vm_compute; reflexivity | repeat constructor; vm_compute; discriminate].
  - exists (str " PUBLIC KEY BLOCK-----"). split; [reflexivity|]. split; [reflexivity|]. intro I. cbn in I. repeat (destruct I as [I|I]; [discriminate|]). destruct I.
Qed.
Example mail_block : first_block (lines_of mail_text) mail_lines.
Proof.
  exists [str "Hello"], (str "-----BEGIN PGP PUBLIC KEY BLOCK-----"), [[]; str "zQVBbGljZQ=="; mail_sum], (str "-----END PGP PUBLIC KEY BLOCK-----"), [str "Bye"].
  split; [vm_compute; reflexivity|]. split; [reflexivity|].
  split; [constructor; [intros [[t T] _]; discriminate T | constructor]|].
  split; [split; [exists (str " PUBLIC KEY BLOCK-----"); reflexivity | intros [t T]; discriminate T]|].
  split; [|exists (str " PUBLIC KEY BLOCK-----"); reflexivity].
  repeat constructor; intros [t T]; discriminate T.
Qed.
Example C78_used : let w := armor_world mail_text in let w' := armor_world mail_data in let c := CRoot false false [] in
  asks [str "-u"] demo_asked c /\ dump_command c = true /\ same_machine w w' /\ same_output demo_asked demo_asked /\ on demo_asked "debug" = false /\
  input w c (mkStream mail_text true) /\ input w' c (mkStream mail_data true) /\ mail_text <> mail_data /\
  decodes_armor (w_env w) /\ int_sizes (e_grow (w_env w)) /\ in_store mail_text /\ lenN mail_data < 2 ^ 32 /\
  short_lines mail_text /\ first_block (lines_of mail_text) mail_lines /\ armored mail_data mail_lines /\ as_they_are (options_asked demo_asked c) (w_env w) mail_data /\
  main w [str "-u"] = Some (Some 0%Z, str "User ID Packet (tag 13) (5 bytes)" ++ [x0a; x09] ++ str "User ID: Alice" ++ [x0a]).
Proof.
  cbv zeta. split; [apply C67_command_used|]. split; [reflexivity|]. split; [repeat split|]. split; [split; reflexivity|]. split; [reflexivity|].
  split; [exact (in_stdin (armor_world mail_text))|]. split; [exact (in_stdin (armor_world mail_data))|]. split; [discriminate|].
  split; [exact decodes_armor_used|].
  split; [intros c L; change (2 ^ 32) with 4294967296 in L; change (2 ^ 62) with 4611686018427387904; cbn [w_env armor_world env_armor env0 e_grow]; lia|].
  split; [vm_compute; reflexivity|]. split; [vm_compute; reflexivity|]. split; [apply short_lines_by; vm_compute; reflexivity|]. split; [exact mail_block|]. split; [exact mail_armored|].
  split; [apply PropCat.plain_lines; vm_compute; reflexivity|]. vm_compute. reflexivity.
Qed.
(** The same for octets that are rejected: the example of RFC 4880 where the data inside cannot be inflated. *)
Example C78_rejected : let w := armor_world (rfc_text "=njUN") in let w' := armor_world rfc_data in
  main w [str "-u"] = Some (Some 1%Z, []) /\ main w' [str "-u"] = Some (Some 1%Z, []) /\
  first_block (lines_of (rfc_text "=njUN")) (rfc_lines "=njUN") /\ armored rfc_data (rfc_lines "=njUN").
Proof. cbv zeta. split; [vm_compute; reflexivity|]. split; [vm_compute; reflexivity|]. split; [apply rfc_block; auto | exact rfc_armored]. Qed.
