(** * C71: standard error tells exactly the failures. *)
From Coq Require Import Strings.String Strings.Byte List NArith ZArith Bool Lia ZifyBool ZifyN ZifyNat.
From Verif Require Import Base BaseL Item Reader Opaque Context Env Parse Json Hkp Github Facade Cli Stderr SpecBase SpecText SpecFrame SpecParse SpecArmor SpecRadix64 SpecJson SpecFacade SpecCli SpecValues SpecPacket
  SpecAccept SpecShown SpecCommand SpecOutcome SpecPrinted SpecStderr Witness PropFrame PropText PropJson PropFacade PropCli PropAcceptCmd ArmorSizeL PropShown PropRadix64 PropCommand PropCommandAll PropOutcome PropOutcomeCmd.
From Verif Require PropAccept.
Import ListNotations.
Local Open Scope N_scope.

Lemma stderr_ran fl w t c : dump_command c = true \/ raw_command c = true -> w_stderr w = true ->
  stderr_of fl w t c = match fst (run fl w c) with RErr e => error_line (t_error t e) | RPanic => panic_lines t | _ => [] end.
Proof. intros C W. unfold stderr_of. rewrite W. destruct c as [[]| | | | | | |]; cbn in C; destruct C; try discriminate; reflexivity. Qed.

Lemma main_stderr_asked w t args l c : asks args l c -> exists fl, flags_asked l fl /\ main_stderr w t args = Some (stderr_of fl w t c).
Proof. intros A. destruct (asks_cli _ _ _ A) as (fl & CL & FA). exists fl. split; [exact FA|]. unfold main_stderr. rewrite CL. reflexivity. Qed.

Lemma panic_crash t : crash_shown (panic_lines t).
Proof. eexists. reflexivity. Qed.

(** C71.  Without --debug, whatever the octets: nothing if the dump was written; one line with the error of writing if standard output does not take it;
    one line with an error if the items have no output; one line with an error that tells the reason if the input is rejected; and a crash says it is one. *)
Theorem C71_command : forall (w : world) (t : texts) (args : list bytes) (l : list (string * value)) (c : command) (src : stream) (items : list item) (v : verdict),
  asks args l c -> dump_command c = true -> on l "debug" = false -> w_stderr w = true ->
  int_sizes (e_grow (w_env w)) -> decodes_armor (w_env w) -> input w c src -> lenN (st_data src) < 2 ^ 32 - 1 ->
  source_outcome (options_asked l c) (w_env w) src items v ->
  exists said, main_stderr w t args = Some said /\
  match v with
  | Accepted =>
      (exists text, printed l items (Some text) /\ (takes w text /\ said = [] \/ ~ takes w text /\ complains (t_error t EIO) said)) \/
      (printed l items None /\ exists e, complains (t_error t e) said)
  | Rejected k => exists e, tells e k /\ complains (t_error t e) said
  | Crashes => crash_shown said
  end.
Proof.
  intros w t args l c src items v A D NDB W G DA I L O. destruct (main_stderr_asked w t args l c A) as (fl & FA & ->). eexists. split; [reflexivity|].
  rewrite (stderr_ran fl w t c (or_introl D) W).
  assert (fits (w_env w) src) as FT by (apply decoder_fits; [exact DA|]; unfold lenZ, lenN in *; change (2 ^ 32) with 4294967296 in *; lia).
  assert (f_on fl DEBUG = false) as FD by (destruct FA as (_ & _ & _ & _ & X & _); rewrite X; exact NDB).
  destruct (run_dump fl w c D FD) as [(src' & I' & o & IF & R)|[N _]]; [|exfalso; exact (N src I)].
  rewrite (input_unique w c src' src I' I) in R. unfold dump in R. rewrite (same_in_force fl c o (options_asked l c) _ _ FT IF (asked_in_force l fl c FA)) in R.
  apply (C68_source _ _ src items v G DA L) in O as (r & P & EA). rewrite P in R. rewrite R. destruct v; cbn in EA.
  - destruct EA as [u ->]. pose proof (marshal_printed l fl items FA) as M. destruct (marshal fl items) as [text|e| |]; [| |contradiction..]; [|right; split; [exact M | exists e; reflexivity]].
    left. exists text. split; [exact M|]. unfold write_from. cbn [st_data st_ok]. destruct (takes_dec w text) as [T|T].
    + rewrite put_takes by exact T. left. split; [exact T | reflexivity].
    + destruct (put_fails w text T) as (k & K1 & K2 & ->). right. split; [exact T | reflexivity].
  - destruct EA as (e & T & ->). exists e. split; [exact T | reflexivity].
  - subst r. apply panic_crash.
Qed.
Print Assumptions C71_command.

(** C71.  With --debug nothing is said on standard error (errors are on standard output, C68_debug), but a crash still says it is one. *)
Theorem C71_debug : forall (w : world) (t : texts) (args : list bytes) (l : list (string * value)) (c : command) (src : stream) (items : list item) (v : verdict),
  asks args l c -> dump_command c = true -> on l "debug" = true -> w_stderr w = true ->
  int_sizes (e_grow (w_env w)) -> decodes_armor (w_env w) -> input w c src -> lenN (st_data src) < 2 ^ 32 - 1 ->
  source_outcome (options_asked l c) (w_env w) src items v ->
  exists said, main_stderr w t args = Some said /\ match v with Crashes => crash_shown said | _ => said = [] end.
Proof.
  intros w t args l c src items v A D DB W G DA I L O. destruct (main_stderr_asked w t args l c A) as (fl & FA & ->). eexists. split; [reflexivity|].
  rewrite (stderr_ran fl w t c (or_introl D) W).
  assert (fits (w_env w) src) as FT by (apply decoder_fits; [exact DA|]; unfold lenZ, lenN in *; change (2 ^ 32) with 4294967296 in *; lia).
  assert (f_on fl DEBUG = true) as FD by (destruct FA as (_ & _ & _ & _ & X & _); rewrite X; exact DB).
  destruct (run_dump_step fl w c D) as (s & -> & [(src' & I' & o & IF & ->)|[N _]]); [|exfalso; exact (N src I)].
  rewrite (input_unique w c src' src I' I). unfold dump. rewrite (same_in_force fl c o (options_asked l c) _ _ FT IF (asked_in_force l fl c FA)), FD.
  apply (C68_source _ _ src items v G DA L) in O as (r & P & EA). rewrite P. destruct v; cbn in EA.
  - destruct EA as [u ->]. pose proof (marshal_printed l fl items FA) as M. destruct (marshal fl items) as [text|e| |]; [| |contradiction..]; [|reflexivity].
    unfold write_from. cbn [st_data st_ok]. destruct (put w [] text) as [out []]; reflexivity.
  - destruct EA as (e & T & ->). reflexivity.
  - subst r. apply panic_crash.
Qed.
Print Assumptions C71_debug.

(** The reasons of SpecStderr are reasons: there is no input then; and each command has at most one. *)
Theorem C71_misses : forall w c e, misses w c e -> (forall src, ~ input w c src) /\ (forall e', misses w c e' -> e' = e).
Proof.
  intros w c e H. split.
  - intros src I. destruct H; inversion I; subst; cbn in *; congruence.
  - intros e' H'. destruct H; inversion H'; subst; cbn in *; congruence.
Qed.
Print Assumptions C71_misses.

(** C71.  Without --debug and without an input: one line with the error for what is missing.  A GitHub user whose pages hold a null entry is a crash
    (C46_null_panics), and one whose pages never end says nothing. *)
Theorem C71_no_input : forall (w : world) (t : texts) (args : list bytes) (l : list (string * value)) (c : command),
  asks args l c -> dump_command c = true \/ raw_command c = true -> on l "debug" = false -> w_stderr w = true -> (forall src, ~ input w c src) ->
  exists said, main_stderr w t args = Some said /\
  ((exists e, misses w c e /\ complains (t_error t e) said) \/
   exists user keyid raw, c = CGithub [user] keyid raw /\
     (fst (get_key (w_gh w) user keyid (w_gh_pages w)) = RPanic /\ crash_shown said \/ fst (get_key (w_gh w) user keyid (w_gh_pages w)) = RFuel /\ said = [])).
Proof.
  intros w t args l c A D NDB W NI. destruct (main_stderr_asked w t args l c A) as (fl & FA & ->). eexists. split; [reflexivity|].
  assert (f_on fl DEBUG = false) as FD by (destruct FA as (_ & _ & _ & _ & X & _); rewrite X; exact NDB).
  rewrite (stderr_ran fl w t c D W). unfold run. rewrite debug_flag, FD.
  assert (DP : forall s, debug_print w false s = s) by (intros [[]]; reflexivity).
  destruct c as [v cb file| |ar ks port secure raw|ar keyid raw|ar raw|ar| |]; try (destruct D; discriminate).
  - destruct v; [destruct D; discriminate|]. rewrite DP. left. unfold run_root. destruct cb, file as [|f fs]; cbn [is_nil negb andb].
    + destruct (w_clip w) as [s|] eqn:E; [exfalso; eapply NI; apply in_clipboard; exact E|]. eexists. split; [apply misses_clipboard; exact E | reflexivity].
    + eexists. split; [apply misses_two; discriminate | reflexivity].
    + exfalso. eapply NI. apply in_stdin.
    + destruct (w_open w (f :: fs)) as [s|] eqn:E; [exfalso; eapply NI; apply in_file; [discriminate | exact E]|]. eexists. split; [apply misses_file; [discriminate | exact E] | reflexivity].
  - rewrite DP. left. unfold run_hkp. destruct ar as [|user [|? ?]]; [eexists; split; [apply misses_argument_hkp; discriminate | reflexivity] | | eexists; split; [apply misses_argument_hkp; discriminate | reflexivity]].
    destruct ks as [|k ks]; cbn [is_nil]; [eexists; split; [apply misses_server | reflexivity]|].
    change (server_new (k :: ks) [WithProtocol (if secure then HKPS else HKP); WithPort port]) with (mkServer (if secure then HKPS else HKP) (k :: ks) port).
    destruct (w_get w _) as [s|] eqn:E; [exfalso; eapply NI; apply in_key_server; [discriminate | exact E]|]. eexists. split; [apply misses_key; [discriminate | exact E] | reflexivity].
  - rewrite DP. unfold run_github. destruct ar as [|user [|? ?]]; [left; eexists; split; [apply misses_argument_github; discriminate | reflexivity] | | left; eexists; split; [apply misses_argument_github; discriminate | reflexivity]].
    destruct (fst (get_key (w_gh w) user keyid (w_gh_pages w))) as [b|e| |] eqn:E.
    + exfalso. eapply NI. apply in_github. exact E.
    + left. eexists. split; [apply misses_github; exact E | reflexivity].
    + right. exists user, keyid, raw. split; [reflexivity|]. left. split; [exact E | apply panic_crash].
    + right. exists user, keyid, raw. split; [reflexivity|]. right. split; [exact E | reflexivity].
  - rewrite DP. left. unfold run_fetch. destruct ar as [|u [|? ?]]; [eexists; split; [apply misses_argument_fetch; discriminate | reflexivity] | | eexists; split; [apply misses_argument_fetch; discriminate | reflexivity]].
    destruct (w_get w u) as [s|] eqn:E; [exfalso; eapply NI; apply in_web; exact E|]. eexists. split; [apply misses_web; exact E | reflexivity].
Qed.
Print Assumptions C71_no_input.

(** C71.  The status and standard error agree, whatever the arguments, also those that are refused: status 1 goes with one line about the error or with a
    crash; status 0 with nothing, or with the version or the help that was asked for. *)
Theorem C71_status : forall (w : world) (t : texts) (args : list bytes) (status : Z) (out said : bytes),
  w_stderr w = true -> main w args = Some (Some status, out) -> main_stderr w t args = Some said ->
  (status = 1%Z /\ ((exists msg, complains msg said) \/ crash_shown said)) \/
  (status = 0%Z /\ (said = [] \/ out = [] /\ (said = t_help t \/ said = str "gpgpdump " ++ t_version t ++ [x0a] ++ str "repository: https://github.com/spiegel-im-spiegel/gpgpdump" ++ [x0a]))).
Proof.
  intros w t args status out said W M S. unfold main, main_stderr in *. destruct (cli args) as [[fl c]|]; [|discriminate]. cbn in M, S. injection S as <-. injection M as M.
  unfold execute in M. unfold stderr_of. rewrite W. destruct (run fl w c) as [r o] eqn:R. cbn [fst]. injection M as M ->.
  assert (forall r', r = r' -> match r' with ROk _ => True | _ => said_running t c = [] end) as SR.
  { intros r' <-. destruct c as [[]| | | | | | |]; cbn in R; rewrite ?W in R; try (destruct r; [exact I | reflexivity..]); injection R as <- _; exact I. }
  specialize (SR r eq_refl). destruct r as [u|e| |]; try discriminate; injection M as <-.
  - right. split; [reflexivity|]. rewrite app_nil_r. destruct c as [[]| | | | | | |]; try (left; reflexivity); right; cbn in R; rewrite ?W in R; injection R as _ <-; split; try reflexivity; [right | right | left]; reflexivity.
  - left. split; [reflexivity|]. rewrite SR. left. eexists. reflexivity.
  - left. split; [reflexivity|]. rewrite SR. right. apply panic_crash.
Qed.
Print Assumptions C71_status.

(** C71.  --raw without --debug: nothing is said exactly when the answer could be had, read to its end and written; if it could be had but not, one line
    with the error of copying. *)
Theorem C71_raw : forall (w : world) (t : texts) (args : list bytes) (l : list (string * value)) (c : command) (src : stream),
  asks args l c -> raw_command c = true -> on l "debug" = false -> w_stderr w = true -> input w c src ->
  exists said, main_stderr w t args = Some said /\
  (st_ok src = true /\ takes w (st_data src) /\ said = [] \/ ~ (st_ok src = true /\ takes w (st_data src)) /\ complains (t_error t EIO) said).
Proof.
  intros w t args l c src A D NDB W I. destruct (main_stderr_asked w t args l c A) as (fl & FA & ->). eexists. split; [reflexivity|].
  assert (f_on fl DEBUG = false) as FD by (destruct FA as (_ & _ & _ & _ & X & _); rewrite X; exact NDB).
  rewrite (stderr_ran fl w t c (or_intror D) W).
  assert (run fl w c = write_from w src []) as ->.
  { unfold run. rewrite debug_flag, FD. assert (DP : forall s, debug_print w false s = s) by (intros [[]]; reflexivity).
    destruct I; cbn in D; try discriminate; subst; rewrite DP.
    - unfold run_hkp. destruct ks as [|k ks]; [congruence|]. cbn [is_nil].
      change (server_new (k :: ks) [WithProtocol (if secure then HKPS else HKP); WithPort port]) with (mkServer (if secure then HKPS else HKP) (k :: ks) port). rewrite H0. reflexivity.
    - unfold run_github. rewrite H. reflexivity.
    - unfold run_fetch. rewrite H. reflexivity. }
  unfold write_from. destruct (takes_dec w (st_data src)) as [T|T].
  - rewrite put_takes by exact T. destruct (st_ok src) eqn:K; [left; repeat split; assumption | right; split; [intros [X _]; discriminate | reflexivity]].
  - destruct (put_fails w (st_data src) T) as (k & K1 & K2 & ->). right. split; [tauto | reflexivity].
Qed.
Print Assumptions C71_raw.

(** The key of C68_command_used, with a packet behind it that ends early: standard error says so. *)
Example C71_command_used : let w := armor_world demo_cut in let t := mkTexts (fun e => match e with EUnexp => str "unexpected EOF" | _ => str "EOF" end) [] [] [] [] [] in
  w_stderr w = true /\ exists e, tells e Ends_early /\ main_stderr w t [str "-u"] = Some (str "Error: " ++ t_error t e ++ [x0a]) /\ main w [str "-u"] = Some (Some 1%Z, []).
Proof.
  cbv zeta. destruct C68_command_used as (A & D & NDB & G & DA & I & L & (items & O & _) & M).
  split; [reflexivity|].
  destruct (C71_command (armor_world demo_cut) (mkTexts (fun e => match e with EUnexp => str "unexpected EOF" | _ => str "EOF" end) [] [] [] [] []) _ _ _ _ _ _ A D NDB eq_refl G DA I L O) as (said & S & e & T & ->).
  exists e. split; [exact T|]. split; [exact S | exact M].
Qed.
(** A file that is not there, and a command line that is refused. *)
Example C71_no_input_used : let w := armor_world [] in let t := mkTexts (fun e => match e with EFile => str "no such file" | _ => [] end) (str "unknown flag") [] [] [] [] in
  (exists l c, asks [str "-f"; str "x"] l c /\ dump_command c = true /\ on l "debug" = false /\ misses w c EFile) /\ main_stderr w t [str "-f"; str "x"] = Some (str "Error: no such file" ++ [x0a]) /\
  main_stderr w t [str "--nonsense"] = Some (str "Error: unknown flag" ++ [x0a]) /\ main w [str "--nonsense"] = Some (Some 1%Z, []).
Proof.
  cbv zeta. split; [|repeat split; vm_compute; reflexivity].
  exists [("file"%string, VString (str "x"))]. eexists. split; [apply asks_root; rewrite <- (app_nil_r [str "-f"; str "x"]); rewrite <- (app_nil_r [("file"%string, VString (str "x"))]); apply wa_more; [|apply wa_none] |].
  - eapply w_letter_next with (n := "file"%string) (s := "f"%byte) (k := KString); [member | discriminate | constructor].
  - split; [reflexivity|]. split; [reflexivity|]. apply misses_file; [discriminate | reflexivity].
Qed.
