(** * C68 for the command: what it writes and its status, whatever the input. *)
From Coq Require Import Strings.String Strings.Byte List NArith ZArith Bool Lia ZifyBool ZifyN ZifyNat.
From Verif Require Import Base BaseL Item Reader Opaque Context Env Parse Json Hkp Github Facade Cli SpecBase SpecText SpecFrame SpecParse SpecArmor SpecRadix64 SpecJson SpecFacade SpecCli SpecValues SpecPacket
  SpecAccept SpecShown SpecCommand SpecOutcome SpecPrinted Witness PropFrame PropText PropJson PropFacade PropCli PropAcceptCmd ArmorSizeL PropShown PropRadix64 PropCommand PropCommandAll PropOutcome.
From Verif Require PropAccept.
Import ListNotations.
Local Open Scope N_scope.

Lemma marshal_printed l fl items : flags_asked l fl ->
  match marshal fl items with ROk text => printed l items (Some text) | RErr _ => printed l items None | _ => False end.
Proof.
  intros (FJ & FI & _). unfold marshal. rewrite FJ, FI. destruct (on l "json") eqn:J.
  - destruct (Z.leb_spec (SpecCli.number l "indent"%string 0%Z) 0) as [N|N].
    + destruct (C37_compact items _ N) as (v & b & -> & D & T). eapply printed_json; eauto.
    + destruct (N.leb_spec (all_levels items) 4999) as [L|L].
      * destruct (C37_indented_partial items _ N L) as (v & b & -> & D & T). eapply printed_json; eauto.
      * rewrite (C37_too_deep items _ N L). apply printed_too_deep; assumption.
  - pose proof (printed_lines l items J) as H. unfold lines_shown, indent_asked in H. rewrite <- C36_text, <- Z.gtb_ltb in H.
    destruct (SpecCli.number l "indent"%string 0%Z >? 0)%Z; exact H.
Qed.

(** C68.  The command without --debug, its options written in any of the ways they may be, on an input of any kind (a file, standard input, the clipboard,
    a server) with any octets: it writes what the specification says about the items if the input is accepted; otherwise it writes nothing and ends with status 1. *)
Theorem C68_command : forall (w : world) (args : list bytes) (l : list (string * value)) (c : command) (src : stream) (items : list item) (v : verdict),
  asks args l c -> dump_command c = true -> on l "debug" = false ->
  int_sizes (e_grow (w_env w)) -> decodes_armor (w_env w) -> input w c src -> lenN (st_data src) < 2 ^ 32 - 1 ->
  source_outcome (options_asked l c) (w_env w) src items v ->
  match v with
  | Accepted => (exists text, printed l items (Some text) /\ written w text (main w args)) \/ (printed l items None /\ main w args = Some (Some 1%Z, []))
  | _ => main w args = Some (Some 1%Z, [])
  end.
Proof.
  intros w args l c src items v A D NDB G DA I L O. destruct (asks_cli _ _ _ A) as (fl & CL & FA).
  assert (main w args = Some (execute fl w c)) as -> by (unfold main; rewrite CL; reflexivity).
  assert (fits (w_env w) src) as FT by (apply decoder_fits; [exact DA|]; unfold lenZ, lenN in *; change (2 ^ 32) with 4294967296 in *; lia).
  assert (f_on fl DEBUG = false) as FD by (destruct FA as (_ & _ & _ & _ & X & _); rewrite X; exact NDB).
  destruct (run_dump fl w c D FD) as [(src' & I' & o & IF & R)|[N _]]; [|exfalso; exact (N src I)].
  rewrite (input_unique w c src' src I' I) in R. unfold dump in R. rewrite (same_in_force fl c o (options_asked l c) _ _ FT IF (asked_in_force l fl c FA)) in R.
  apply (C68_source _ _ src items v G DA L) in O as (r & P & EA). rewrite P in R. unfold execute. rewrite R. destruct v; cbn in EA.
  - destruct EA as [u ->]. pose proof (marshal_printed l fl items FA) as M. destruct (marshal fl items) as [text|e| |]; [| |contradiction..]; [|right; split; [exact M | reflexivity]].
    left. exists text. split; [exact M|]. unfold write_from. cbn [st_data st_ok]. destruct (takes_dec w text) as [T|T].
    + rewrite put_takes by exact T. apply written_all_of_it, T.
    + destruct (put_fails w text T) as (k & K1 & K2 & ->). apply written_part; assumption.
  - destruct EA as (e & _ & ->). reflexivity.
  - subst r. reflexivity.
Qed.
Print Assumptions C68_command.

(** C68.  Without an input (a file that cannot be opened, an empty clipboard, no answer) it writes nothing and ends with status 1.
    (The pages of a GitHub user must end.) *)
Theorem C68_no_input : forall (w : world) (args : list bytes) (l : list (string * value)) (c : command),
  asks args l c -> dump_command c = true -> on l "debug" = false -> (forall src, ~ input w c src) ->
  (forall user keyid raw, c = CGithub [user] keyid raw -> fst (get_key (w_gh w) user keyid (w_gh_pages w)) <> RFuel) ->
  main w args = Some (Some 1%Z, []).
Proof.
  intros w args l c A D NDB NI GH. destruct (asks_cli _ _ _ A) as (fl & CL & FA).
  assert (main w args = Some (execute fl w c)) as -> by (unfold main; rewrite CL; reflexivity).
  assert (f_on fl DEBUG = false) as FD by (destruct FA as (_ & _ & _ & _ & X & _); rewrite X; exact NDB). unfold execute.
  destruct (run_dump fl w c D FD) as [(src & I & _)|[_ [[e ->]|(u & k & r & -> & [->|[_ F]])]]]; [exfalso; exact (NI src I) | reflexivity | reflexivity | exfalso; exact (GH u k r eq_refl F)].
Qed.
Print Assumptions C68_no_input.

(** C68.  With --debug: an input that is accepted is written as far as standard output takes it, or, if the items have no output (C37_too_deep),
    a line with an error; one that is rejected gives a line with an error that tells the reason.  The status is 0 all the same; a crash has status 1
    as before. *)
Theorem C68_debug : forall (w : world) (args : list bytes) (l : list (string * value)) (c : command) (src : stream) (items : list item) (v : verdict),
  asks args l c -> dump_command c = true -> on l "debug" = true ->
  int_sizes (e_grow (w_env w)) -> decodes_armor (w_env w) -> input w c src -> lenN (st_data src) < 2 ^ 32 - 1 ->
  source_outcome (options_asked l c) (w_env w) src items v ->
  match v with
  | Accepted => (exists text, printed l items (Some text) /\ main w args = Some (Some 0%Z, taken w text)) \/
      (printed l items None /\ exists e, main w args = Some (Some 0%Z, taken w (w_error w e ++ [x0a])))
  | Rejected k => exists e, tells e k /\ main w args = Some (Some 0%Z, taken w (w_error w e ++ [x0a]))
  | Crashes => main w args = Some (Some 1%Z, [])
  end.
Proof.
  intros w args l c src items v A D DB G DA I L O. destruct (asks_cli _ _ _ A) as (fl & CL & FA).
  assert (main w args = Some (execute fl w c)) as -> by (unfold main; rewrite CL; reflexivity).
  assert (fits (w_env w) src) as FT by (apply decoder_fits; [exact DA|]; unfold lenZ, lenN in *; change (2 ^ 32) with 4294967296 in *; lia).
  assert (f_on fl DEBUG = true) as FD by (destruct FA as (_ & _ & _ & _ & X & _); rewrite X; exact DB).
  pose proof (asked_in_force l fl c FA) as IF.
  apply (C68_source _ _ src items v G DA L) in O as (r & P & EA). destruct v; cbn in EA.
  - destruct EA as [[] ->]. unfold execute. destruct (run_dump_step fl w c D) as (s & -> & [(src' & I' & o & IF' & ->)|[N _]]); [|exfalso; exact (N src I)].
    rewrite (input_unique w c src' src I' I) in *. unfold dump. rewrite (same_in_force fl c o _ (w_env w) src FT IF' IF), P, FD.
    pose proof (marshal_printed l fl items FA) as M. destruct (marshal fl items) as [text|e| |]; [| |contradiction..].
    + left. exists text. split; [exact M|]. unfold write_from. cbn [st_data st_ok]. unfold taken. destruct (takes_dec w text) as [T|T].
      * rewrite put_takes by exact T. cbn [andb debug_print]. destruct (w_room w) as [k|] eqn:K; [|reflexivity].
        rewrite firstn_all2; [reflexivity|]. exact (T k K).
      * destruct (put_fails w text T) as (k & Hk & Hl & E). rewrite E. cbn [andb debug_print]. unfold put. rewrite Hk. cbn [fst].
        rewrite firstn_app, firstn_firstn, Nat.min_id, firstn_length_le by lia. rewrite Nat.sub_diag, firstn_O, app_nil_r. reflexivity.
    + right. split; [exact M|]. exists e. cbn [debug_print]. unfold put, taken. destruct (w_room w); reflexivity.
  - destruct EA as (e & T & ->). exists e. split; [exact T|]. f_equal. apply (C44_debug_error fl w c src _ e D FD FT I IF). rewrite P. reflexivity.
  - subst r. f_equal. apply (C44_panic fl w c src _ D FT I IF). rewrite P. reflexivity.
Qed.
Print Assumptions C68_debug.
(** C68.  With --debug and without an input: status 0 and a line with an error; but a GitHub user whose pages hold a null entry is a crash, with status 1
    (C46_null_panics). *)
Theorem C68_no_input_debug : forall (w : world) (args : list bytes) (l : list (string * value)) (c : command),
  asks args l c -> dump_command c = true -> on l "debug" = true -> (forall src, ~ input w c src) ->
  (forall user keyid raw, c = CGithub [user] keyid raw -> fst (get_key (w_gh w) user keyid (w_gh_pages w)) <> RFuel) ->
  (exists e, main w args = Some (Some 0%Z, taken w (w_error w e ++ [x0a]))) \/
  ((exists user keyid raw, c = CGithub [user] keyid raw) /\ main w args = Some (Some 1%Z, [])).
Proof.
  intros w args l c A D DB NI GH. destruct (asks_cli _ _ _ A) as (fl & CL & FA).
  assert (main w args = Some (execute fl w c)) as -> by (unfold main; rewrite CL; reflexivity).
  assert (f_on fl DEBUG = true) as FD by (destruct FA as (_ & _ & _ & _ & X & _); rewrite X; exact DB). unfold execute.
  destruct (run_dump_step fl w c D) as (s & -> & [(src & I & _)|[_ [[e ->]|(u & k & r & -> & [->|[-> F]])]]]); [exfalso; exact (NI src I) | | | exfalso; exact (GH u k r eq_refl F)].
  - left. exists e. rewrite FD. cbn [debug_print]. unfold put, taken. destruct (w_room w); reflexivity.
  - right. split; [eauto|]. rewrite FD. reflexivity.
Qed.
Print Assumptions C68_no_input_debug.

(** The key of C67_command_used with a packet behind it that ends early: the library shows the packets of the key, the command nothing. *)
Example C68_command_used : let w := armor_world demo_cut in let c := CRoot false false [] in
  asks [str "-u"] demo_asked c /\ dump_command c = true /\ on demo_asked "debug" = false /\ int_sizes (e_grow (w_env w)) /\ decodes_armor (w_env w) /\
  input w c (mkStream demo_cut true) /\ lenN demo_cut < 2 ^ 32 - 1 /\
  (exists items, source_outcome (options_asked demo_asked c) (w_env w) (mkStream demo_cut true) items (Rejected Ends_early) /\ (1 < List.length items)%nat) /\
  main w [str "-u"] = Some (Some 1%Z, []).
Proof.
  cbv zeta. destruct C67_command_used as (A & D & _ & DA & _). assert (int_sizes (e_grow (w_env (armor_world demo_cut)))) as G by apply PropAccept.C63_packet_used.
  assert (input (armor_world demo_cut) (CRoot false false []) (mkStream demo_cut true)) as I by exact (in_stdin (armor_world demo_cut)).
  assert (exists items, source_outcome (options_asked demo_asked (CRoot false false [])) (w_env (armor_world demo_cut)) (mkStream demo_cut true) items (Rejected Ends_early) /\ (1 < List.length items)%nat) as (items & O & LI).
  { destruct (parse_stream (options_asked demo_asked (CRoot false false [])) (w_env (armor_world demo_cut)) (mkStream demo_cut true)) as [items r] eqn:P.
    exists items. assert ((1 < List.length items)%nat /\ exists e, tells e Ends_early /\ r = RErr e) as [LI E] by (vm_compute in P; injection P as <- <-; split; [cbn [List.length]; lia | eexists; split; [|reflexivity]; cbn; auto]).
    split; [|exact LI]. apply (C68_source _ (w_env (armor_world demo_cut)) (mkStream demo_cut true) _ _ G DA eq_refl). exists r. split; [exact P | exact E]. }
  split; [exact A|]. split; [exact D|]. split; [reflexivity|]. split; [exact G|]. split; [exact DA|]. split; [exact I|]. split; [reflexivity|]. split; [eauto|].
  exact (C68_command (armor_world demo_cut) [str "-u"] demo_asked (CRoot false false []) _ items (Rejected Ends_early) A D eq_refl G DA I eq_refl O).
Qed.
