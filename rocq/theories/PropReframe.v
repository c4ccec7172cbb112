(** * PropReframe: how the lengths of packets are written makes no difference (C81). *)
From Coq Require Import Strings.String Strings.Byte List NArith ZArith Bool Lia ZifyBool ZifyN ZifyNat.
From Verif Require Import Base Item Reader Opaque Context Env Parse Json Facade Cli Stderr SpecBase SpecText SpecFrame SpecParse SpecArmor SpecShown SpecFacade SpecCli SpecCommand SpecPipe
  SpecCat SpecArmored ParseL StreamL PropParse PropFrame PropArmor PropFacade PropCli PropRadix64 PropAcceptCmd ArmorSizeL PropShown PropCommand PropPipe PropCat PropArmored.
Import ListNotations.
Local Open Scope N_scope.

(** C81.  Two octet strings with the same packets, each packet framed in any way: the parser gives the same result. *)
Theorem C81_parse : forall (o : opts) (E : env) (pk : list (N * bytes)) (a b : bytes),
  input_of pk a -> input_of pk b -> as_they_are o E a -> as_they_are o E b -> parse_bytes o E a = parse_bytes o E b.
Proof.
  intros o E pk a b I J (A & S & N) (_ & S' & N'). rewrite (C01_file o E pk a I A S N), (C01_file o E pk b J A S' N'). reflexivity.
Qed.
Print Assumptions C81_parse.

(** What the command does follows from what the parser gives. *)
Lemma parsed_run w w' l fl c a b : dump_command c = true -> same_machine w w' -> flags_asked l fl -> input w c (mkStream a true) -> input w' c (mkStream b true) ->
  fits (w_env w) (mkStream a true) -> fits (w_env w) (mkStream b true) ->
  parse_bytes (options_asked l c) (w_env w) a = parse_bytes (options_asked l c) (w_env w) b -> run fl w c = run fl w' c.
Proof.
  intros D (ME & MX & MR & _) FA I I' F F' P.
  destruct (run_dump_step fl w c D) as (s & -> & [(src1 & Hi & o & Ho & ->)|[N _]]); [|exfalso; exact (N _ I)].
  destruct (run_dump_step fl w' c D) as (s & -> & [(src2 & Hi' & o' & Ho' & ->)|[N _]]); [|exfalso; exact (N _ I')].
  rewrite (input_unique w c src1 _ Hi I), (input_unique w' c src2 _ Hi' I'). pose proof (asked_in_force l fl c FA) as AF.
  assert (parse_stream o' (w_env w) (mkStream b true) = parse_stream o (w_env w) (mkStream a true)) as EP.
  { rewrite (same_in_force fl c o' (options_asked l c) _ _ F' Ho' AF), (same_in_force fl c o (options_asked l c) _ _ F Ho AF). symmetry. exact P. }
  assert (forall x y, put w' x y = put w x y) as PP by (intros; unfold put; rewrite MR; reflexivity).
  assert (dump fl w' o' (mkStream b true) = dump fl w o (mkStream a true)) as ->.
  { unfold dump. rewrite ME, EP. destruct (parse_stream o (w_env w) (mkStream a true)) as [it [[]|e| |]]; try reflexivity.
    unfold marshal, write_from. destruct (if f_json fl then _ else _); try reflexivity. rewrite PP. reflexivity. }
  destruct (dump fl w o (mkStream a true)) as [[[]|e| |] out]; cbn [debug_print]; try reflexivity.
  destruct (f_on fl DEBUG); [|reflexivity]. rewrite PP, MX. reflexivity.
Qed.

(** C81.  The command on two files with the same packets, each packet framed in any way (old format or new, lengths of one, two, four or five octets, in parts, the
    last one up to the end of the file): exit code, standard output and standard error are the same, whether the command succeeds, fails or crashes. *)
Theorem C81_command : forall (w w' : world) (t : texts) (args : list bytes) (l : list (string * value)) (c : command) (pk : list (N * bytes)) (a b : bytes),
  asks args l c -> dump_command c = true -> same_machine w w' ->
  input w c (mkStream a true) -> input w' c (mkStream b true) -> fits (w_env w) (mkStream a true) -> fits (w_env w) (mkStream b true) ->
  as_they_are (options_asked l c) (w_env w) a -> as_they_are (options_asked l c) (w_env w) b ->
  input_of pk a -> input_of pk b ->
  main w args = main w' args /\ main_stderr w t args = main_stderr w' t args.
Proof.
  intros w w' t args l c pk a b A D SM I I' F F' T T' P P'. destruct (asks_cli _ _ _ A) as (fl & CL & FA).
  pose proof (parsed_run w w' l fl c a b D SM FA I I' F F' (C81_parse _ _ pk a b P P' T T')) as R. destruct SM as (_ & _ & _ & MS). split.
  - unfold main. rewrite CL. cbn [option_map fst snd]. unfold execute. rewrite R. reflexivity.
  - unfold main_stderr. rewrite CL. cbn [option_map fst snd]. unfold stderr_of. rewrite R, MS. reflexivity.
Qed.
Print Assumptions C81_command.

(** ** The key of C67, framed in other ways: the key with a length of four octets, the user ID in parts, the signature up to the end of the file *)
Definition demo_reframed : bytes :=
  ((n2b (130 + 4 * 6) :: be_enc 4 (lenN demo_key) ++ demo_key) ++ (n2b (192 + 13) :: n2b (224 + 1) :: str "An" ++ [n2b 1] ++ str "n") ++ []) ++ n2b (131 + 4 * 2) :: demo_sig.
Lemma demo_reframed_input : input_of demo_packets demo_reframed.
Proof.
  change demo_packets with ([(6, demo_key); (13, str "An" ++ str "n")] ++ [(2, demo_sig)]). apply last_to_end; [|reflexivity].
  apply one_more; [apply old_four; reflexivity|]. apply one_more; [|constructor]. apply new_format; [reflexivity|].
  apply (part_more 1 (str "An") (str "n") ([n2b 1] ++ str "n")); [lia | reflexivity |]. apply (part_last (str "n") [n2b 1]), len_one. reflexivity.
Qed.
Example C81_used : let c := CRoot false false [] in let w := armor_world demo_octets in let w' := armor_world demo_reframed in let o := options_asked demo_asked c in
  asks [str "-u"] demo_asked c /\ dump_command c = true /\ same_machine w w' /\ input w c (mkStream demo_octets true) /\ input w' c (mkStream demo_reframed true) /\
  fits (w_env w) (mkStream demo_octets true) /\ fits (w_env w) (mkStream demo_reframed true) /\ as_they_are o (w_env w) demo_octets /\ as_they_are o (w_env w) demo_reframed /\
  input_of demo_packets demo_octets /\ input_of demo_packets demo_reframed /\ demo_reframed <> demo_octets /\
  exists text, main w' [str "-u"] = Some (Some 0%Z, text) /\ 500 < lenN text.
Proof.
  cbv zeta. split; [apply C67_command_used|]. split; [reflexivity|]. split; [repeat split|].
  split; [exact (in_stdin (armor_world demo_octets))|]. split; [exact (in_stdin (armor_world demo_reframed))|].
  do 2 (split; [apply decoder_fits; [exact decodes_armor_used | vm_compute; reflexivity]|]). do 2 (split; [apply plain_lines; vm_compute; reflexivity|]).
  split; [exact demo_input|]. split; [exact demo_reframed_input|]. split; [vm_compute; discriminate|]. eexists. split; vm_compute; reflexivity.
Qed.
