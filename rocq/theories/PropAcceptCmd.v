(** * PropAcceptCmd: C63, the exit status of the command. *)
From Coq Require Import Strings.String Strings.Byte List NArith ZArith Bool Lia ZifyBool ZifyN ZifyNat.
From Verif Require Import Base Item Context Env Opaque Parse Json Facade SpecArmor PropArmor SpecFrame PropFrame PropFacade SpecRadix64 PropRadix64 SpecAccept AcceptL PropAccept Witness.
From Verif Require PropComp ArmorL.
Import ListNotations.
Local Open Scope N_scope.

(** C63.  A file of packets (no line too long for the scanner, no armor block in it) given to the command, or the same octets on standard input: the
    status is 0 if the sequence of packets is accepted, 1 otherwise, whatever the options for the contents and the format of the output (indented JSON and
    --debug excepted, see C37 and C44). *)
Definition status_of (v : verdict) : Z := match v with Accepted => 0%Z | Rejected _ => 1%Z | Crashes => 1%Z end.
Lemma status_dump (fl : flags) (w : world) (file text data : bytes) (c : chunks) :
  int_sizes (e_grow (w_env w)) -> lenN data < 2 ^ 32 -> delivers c data ->
  parse_bytes (parse_context fl) (w_env w) text = parse_chunks (parse_context fl) (w_env w) c ->
  f_on fl DEBUG = false -> (f_json fl = false \/ (f_indent fl <= 0)%Z) -> w_room w = None ->
  (file = [] /\ w_stdin w = mkStream text true \/ file <> [] /\ w_open w file = Some (mkStream text true)) ->
  fst (execute fl w (CRoot false false file)) =
    Some (status_of (sequence (top (lost (e_grow (w_env w))) (damaged (w_env w)) (opened (w_env w))) (List.length data) data)).
Proof.
  intros G L DL P D J R I. pose proof (C63_input (parse_context fl) (w_env w) c data G DL L) as H. unfold parse_bytes in P.
  assert (run_root fl w false file = dump fl w (parse_context fl) (mkStream text true)) as RR.
  { unfold run_root. cbn [andb]. destruct I as [[-> ->]|[NF ->]]; [reflexivity|]. destruct file; [congruence | reflexivity]. }
  unfold execute, run. rewrite debug_flag, D, RR. unfold dump. rewrite P. destruct (parse_chunks (parse_context fl) (w_env w) c) as [l r]. cbn [snd] in H.
  destruct (sequence _ _ data); cbn in H; [destruct H as [x ->] | destruct H as (x & _ & ->); reflexivity | subst r; reflexivity].
  assert (exists t, marshal fl l = ROk t) as [t ->].
  { unfold marshal, info_JSON. destruct (f_json fl); [|destruct (f_indent fl >? 0)%Z; eauto]. destruct J as [|J]; [discriminate|]. replace (0 <? f_indent fl)%Z with false by lia. eauto. }
  unfold write_from, put. rewrite R. reflexivity.
Qed.
Theorem C63_command : forall (fl : flags) (w : world) (file data : bytes),
  int_sizes (e_grow (w_env w)) -> lenN data < 2 ^ 32 -> short_lines data ->
  (forall block, first_block (lines_of data) block -> e_armor (w_env w) (unlines block) = None) ->
  f_on fl ARMOR = false -> f_on fl DEBUG = false -> (f_json fl = false \/ (f_indent fl <= 0)%Z) -> w_room w = None ->
  (file = [] /\ w_stdin w = mkStream data true \/ file <> [] /\ w_open w file = Some (mkStream data true)) ->
  fst (execute fl w (CRoot false false file)) =
    Some (status_of (sequence (top (lost (e_grow (w_env w))) (damaged (w_env w)) (opened (w_env w))) (List.length data) data)).
Proof.
  intros fl w file data G L S NA A D J R I. destruct (PropComp.chunks_of_inv data) as [CI CD].
  assert (delivers (chunks_of data true) data) as DL by (split; [apply CI | split; [exact CD | apply CI]]).
  assert (oArmor (parse_context fl) = false) as OA by (unfold oArmor, o_get; rewrite parse_context_code; cbn; exact A).
  exact (status_dump fl w file data data _ G L DL (C43_complete_partial (parse_context fl) (w_env w) data OA S NA) D J R I).
Qed.
Print Assumptions C63_command.
(** C63.  A text file with an armored block: the status is that of the octets in the block, with the option --armor or without it. *)
Theorem C63_command_armored : forall (fl : flags) (w : world) (file text data : bytes) (block : list bytes),
  int_sizes (e_grow (w_env w)) -> lenN data < 2 ^ 32 -> short_lines text ->
  decodes_armor (w_env w) -> first_block (lines_of text) block -> armored data block ->
  f_on fl DEBUG = false -> (f_json fl = false \/ (f_indent fl <= 0)%Z) -> w_room w = None ->
  (file = [] /\ w_stdin w = mkStream text true \/ file <> [] /\ w_open w file = Some (mkStream text true)) ->
  fst (execute fl w (CRoot false false file)) =
    Some (status_of (sequence (top (lost (e_grow (w_env w))) (damaged (w_env w)) (opened (w_env w))) (List.length data) data)).
Proof.
  intros fl w file text data block G L S DA FB AR D J R I.
  destruct (C52_as_binary (parse_context fl) (w_env w) text data block DA S FB AR) as (c & DC & P).
  exact (status_dump fl w file text data c G L DC P D J R I).
Qed.
Print Assumptions C63_command_armored.
(** C63.  With --armor a file without an armored block gives status 1. *)
Theorem C63_command_no_block : forall (fl : flags) (w : world) (file text : bytes), short_lines text ->
  (forall block, first_block (lines_of text) block -> e_armor (w_env w) (unlines block) = None) ->
  f_on fl ARMOR = true -> f_on fl DEBUG = false ->
  (file = [] /\ w_stdin w = mkStream text true \/ file <> [] /\ w_open w file = Some (mkStream text true)) ->
  execute fl w (CRoot false false file) = (Some 1%Z, []).
Proof.
  intros fl w file text S NB A D I.
  assert (oArmor (parse_context fl) = true) as OA by (unfold oArmor, o_get; rewrite parse_context_code; cbn; exact A).
  assert (run_root fl w false file = dump fl w (parse_context fl) (mkStream text true)) as RR.
  { unfold run_root. cbn [andb]. destruct I as [[-> ->]|[NF ->]]; [reflexivity|]. destruct file; [congruence | reflexivity]. }
  unfold execute, run. rewrite debug_flag, D, RR. unfold dump, parse_stream, parse_new. rewrite OA.
  assert (exists e, new_reader_armor (w_env w) (mkStream text true) = RErr e) as [e ->]; [|reflexivity].
  unfold new_reader_armor. destruct (ArmorL.arm_cases (lines_of text)) as [[block B]|[NX _]].
  - rewrite (ArmorL.armtext_block text block S B), (NB block B). eauto.
  - rewrite (ArmorL.armtext_none text S NX). eauto.
Qed.
Print Assumptions C63_command_no_block.
(** A marker packet and half of one: status 0 and 1. *)
Lemma marker_file w : w_env w = env0 -> forall data, data = [xca; x03; x50; x47; x50] \/ data = [xca; x03; x50; x47] ->
  int_sizes (e_grow (w_env w)) /\ lenN data < 2 ^ 32 /\ short_lines data /\ (forall block, first_block (lines_of data) block -> e_armor (w_env w) (unlines block) = None).
Proof.
  intros -> data D. split; [intros c L; cbn [env0 e_grow]; change (2 ^ 32) with 4294967296 in L; change (2 ^ 62) with 4611686018427387904; lia|].
  destruct D as [-> | ->]; (split; [reflexivity|]; split; [repeat constructor|]).
  all: intros block (pre & b & mid & e & post & E & _ & _ & B & _); exfalso; vm_compute in E; destruct pre as [|p pre]; cbn [app] in E;
    [injection E as <- E; destruct mid; discriminate | injection E as _ E; destruct pre; discriminate].
Qed.
Example C63_command_used :
  let fl := mkFlags false 0 (fun _ => false) in
  let w data := world0 (mkStream data true) in
  (forall data, data = [xca; x03; x50; x47; x50] \/ data = [xca; x03; x50; x47] ->
    w_room (w data) = None /\ w_stdin (w data) = mkStream data true /\ w_env (w data) = env0) /\
  fst (execute fl (w [xca; x03; x50; x47; x50]) (CRoot false false [])) = Some 0%Z /\
  fst (execute fl (w [xca; x03; x50; x47]) (CRoot false false [])) = Some 1%Z.
Proof. split; [intros; split; [|split]; reflexivity | vm_compute; auto]. Qed.
(** The armored message of RFC 4880, with --armor and without it; and a marker packet, with --armor. *)
Definition armor_world (text : bytes) : world := let w := world0 (mkStream text true) in
  mkWorld env_armor (w_stdin w) (w_open w) (w_clip w) (w_get w) (w_gh w) (w_gh_pages w) (w_error w) (w_script w) (w_room w) (w_stderr w).
Example C63_command_armored_used :
  let w := armor_world (rfc_text "=njUN") in
  int_sizes (e_grow (w_env w)) /\ lenN rfc_data < 2 ^ 32 /\ short_lines (rfc_text "=njUN") /\ decodes_armor (w_env w) /\
  first_block (lines_of (rfc_text "=njUN")) (rfc_lines "=njUN") /\ armored rfc_data (rfc_lines "=njUN") /\ w_room w = None /\ w_stdin w = mkStream (rfc_text "=njUN") true /\
  fst (execute (flags_of []) w (CRoot false false [])) = fst (execute (flags_of [ARMOR]) w (CRoot false false [])) /\
  fst (execute (flags_of []) (armor_world [xca; x03; x50; x47; x50]) (CRoot false false [])) = Some 0%Z /\
  fst (execute (flags_of [ARMOR]) (armor_world [xca; x03; x50; x47; x50]) (CRoot false false [])) = Some 1%Z.
Proof.
  cbv zeta. split; [intros c L; change (2 ^ 32) with 4294967296 in L; change (2 ^ 62) with 4611686018427387904; cbn [w_env armor_world env_armor env0 e_grow]; lia|].
  destruct (rfc_block "=njUN" (or_introl eq_refl)) as [S B].
  split; [reflexivity|]. split; [exact S|]. split; [exact decodes_armor_used|]. split; [exact B|]. split; [exact rfc_armored|]. split; [reflexivity|]. split; [reflexivity|].
  vm_compute. auto.
Qed.
