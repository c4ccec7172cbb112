(** * PropFacade: C44, exit status and output of the command. *)
From Coq Require Import Strings.String Strings.Byte List NArith ZArith Bool Lia ZifyBool ZifyN ZifyNat.
From Verif Require Import Base Utf8 Item Context Env Parse Json Hkp Github Facade SpecBase SpecParse SpecOpt SpecFacade PropParse Witness.
Import ListNotations.
Local Open Scope Z_scope.

Lemma parse_context_code : forall fl code, parse_context fl code =
  existsb (Z.eqb code) [ARMOR; CERT; DEBUG; INTEGER; LITERAL; MARKER; PRIVATE; UTC] && f_on fl code.
Proof.
  intros fl code. unfold parse_context, o_new. cbn [fold_left fst snd].
  unfold o_set. cbn [Z.gtb Z.compare ARMOR CERT DEBUG INTEGER LITERAL MARKER PRIVATE UTC opts_empty existsb].
  unfold opts_empty.
  repeat match goal with |- context [code =? ?k] =>
    destruct (Z.eqb_spec code k) as [->|]; [reflexivity|] end.
  reflexivity.
Qed.

Lemma context_in_force : forall fl c, armored_source c = false -> in_force fl c (parse_context fl).
Proof.
  intros fl c H code. rewrite parse_context_code, H, orb_false_r.
  destruct (Z.eqb_spec code ARMOR) as [->|N]; [reflexivity|].
  cbn [existsb]. apply Z.eqb_neq in N. rewrite N. reflexivity.
Qed.

Lemma armor_in_force : forall fl c, armored_source c = true -> in_force fl c (o_set ARMOR true (parse_context fl)).
Proof.
  intros fl c H code. unfold o_set. cbn [Z.gtb Z.compare ARMOR]. cbv beta iota.
  destruct (Z.eqb_spec code 1) as [->|N].
  - rewrite H, orb_true_r. reflexivity.
  - rewrite parse_context_code. cbn [existsb]. unfold ARMOR. apply Z.eqb_neq in N. rewrite N. reflexivity.
Qed.

Lemma debug_flag : forall fl, oDebug (parse_context fl) = f_on fl DEBUG.
Proof. intro fl. unfold oDebug, o_get. rewrite parse_context_code. reflexivity. Qed.

Lemma same_in_force : forall fl c o1 o2 E src, fits E src -> in_force fl c o1 -> in_force fl c o2 ->
  parse_stream o1 E src = parse_stream o2 E src.
Proof.
  intros fl c o1 o2 E src F H1 H2. apply C05_gdump_has_no_effect; [exact F|].
  intros code _. unfold o_get. rewrite H1, H2. reflexivity.
Qed.

Lemma marshal_rendering : forall fl l text, marshal fl l = ROk text <-> rendering fl l text.
Proof.
  intros fl l text. unfold marshal, rendering.
  destruct (f_json fl); [intuition congruence|].
  destruct (f_indent fl >? 0) eqn:E.
  - split; [intros [= <-]; right; left; repeat split; lia|].
    intros [[? _]|[(_ & _ & ->)|(_ & H & _)]]; [discriminate|reflexivity|lia].
  - split; [intros [= <-]; right; right; repeat split; lia|].
    intros [[? _]|[(_ & H & _)|(_ & _ & ->)]]; [discriminate|lia|reflexivity].
Qed.

Lemma marshal_res : forall fl l, marshal fl l <> RPanic /\ marshal fl l <> RFuel.
Proof.
  intros fl l. unfold marshal. destruct (f_json fl).
  - unfold info_JSON. destruct (0 <? f_indent fl); [|split; discriminate]. destruct (indent_loop _ _ _ _ _ _); split; discriminate.
  - destruct (f_indent fl >? 0); split; discriminate.
Qed.

Lemma put_takes : forall w s, takes w s -> put w [] s = (s, true).
Proof.
  intros w s H. unfold put, takes in *. cbn [app]. destruct (w_room w) as [k|]; [|reflexivity].
  specialize (H k eq_refl). rewrite firstn_all2 by exact H. f_equal. apply Nat.leb_le, H.
Qed.

Lemma put_fails : forall w s, ~ takes w s -> exists k, w_room w = Some k /\ (k < length s)%nat /\ put w [] s = (firstn k s, false).
Proof.
  intros w s H. unfold put, takes in *. cbn [app]. destruct (w_room w) as [k|].
  - exists k. destruct (Nat.leb_spec (length s) k) as [L|L].
    + exfalso. apply H. now intros ? [= <-].
    + auto.
  - exfalso. apply H. discriminate.
Qed.

Lemma takes_dec : forall w s, takes w s \/ ~ takes w s.
Proof.
  intros w s. unfold takes. destruct (w_room w) as [k|]; [|left; discriminate].
  destruct (Nat.leb_spec (length s) k) as [L|L].
  - left. now intros ? [= <-].
  - right. intro H. specialize (H k eq_refl). lia.
Qed.

(** What a dumping command does once its options are fixed: it fails before any output,
    or it has an input and dumps it. *)
Lemma run_dump_step : forall fl w c, dump_command c = true -> exists s, run fl w c = debug_print w (f_on fl DEBUG) s /\
  ((exists src, input w c src /\ exists o, in_force fl c o /\ s = dump fl w o src) \/
  ((forall src, ~ input w c src) /\
   ((exists e, s = (RErr e, [])) \/
    (exists user keyid raw, c = CGithub [user] keyid raw /\
       (s = (RPanic, []) \/ s = (RFuel, []) /\ fst (get_key (w_gh w) user keyid (w_gh_pages w)) = RFuel))))).
Proof.
  intros fl w c Hc. unfold run. rewrite debug_flag.
  destruct c as [v cb file| |args ks port secure raw|args keyid raw|args raw|args| |]; try discriminate;
    cbn [dump_command] in Hc; apply negb_true_iff in Hc; subst; (eexists; split; [reflexivity|]).
  - unfold run_root. destruct cb, file as [|f fs]; cbn [is_nil negb andb].
    + destruct (w_clip w) as [s|] eqn:E.
      * left. exists (mkStream s true). split; [now apply in_clipboard|].
        eexists. split; [|reflexivity]. now apply armor_in_force.
      * right. split; [intros src H; inversion H; congruence|eauto].
    + right. split; [intros src H; inversion H|eauto].
    + left. exists (w_stdin w). split; [apply in_stdin|].
      eexists. split; [|reflexivity]. now apply context_in_force.
    + destruct (w_open w (f :: fs)) as [s|] eqn:E.
      * left. exists s. split; [apply in_file; [discriminate|exact E]|].
        eexists. split; [|reflexivity]. now apply context_in_force.
      * right. split; [intros src H; inversion H; congruence|eauto].
  - unfold run_hkp. destruct args as [|user [|? ?]];
      [right; split; [intros src H; inversion H|eauto] | | right; split; [intros src H; inversion H|eauto]].
    destruct ks as [|k ks]; cbn [is_nil].
    + right. split; [intros src H; inversion H; congruence|eauto].
    + change (server_new (k :: ks) [WithProtocol (if secure then HKPS else HKP); WithPort port])
        with (mkServer (if secure then HKPS else HKP) (k :: ks) port).
      destruct (w_get w _) as [s|] eqn:E.
      * left. exists s. split; [apply in_key_server; [discriminate|exact E]|].
        eexists. split; [|reflexivity]. now apply armor_in_force.
      * right. split; [intros src H; inversion H; congruence|eauto].
  - unfold run_github. destruct args as [|user [|? ?]];
      [right; split; [intros src H; inversion H|eauto] | | right; split; [intros src H; inversion H|eauto]].
    destruct (fst (get_key (w_gh w) user keyid (w_gh_pages w))) as [b|e| |] eqn:E.
    + left. eexists. split; [apply in_github; exact E|].
      eexists. split; [|reflexivity]. now apply armor_in_force.
    + right. split; [intros src H; inversion H; congruence|eauto].
    + right. split; [intros src H; inversion H; congruence|]. right. exists user, keyid, false. auto.
    + right. split; [intros src H; inversion H; congruence|]. right. exists user, keyid, false. auto.
  - unfold run_fetch. destruct args as [|u [|? ?]];
      [right; split; [intros src H; inversion H|eauto] | | right; split; [intros src H; inversion H|eauto]].
    destruct (w_get w u) as [s|] eqn:E.
    + left. exists s. split; [apply in_web; exact E|].
      eexists. split; [|reflexivity]. now apply context_in_force.
    + right. split; [intros src H; inversion H; congruence|eauto].
Qed.
Lemma run_dump : forall fl w c, dump_command c = true -> f_on fl DEBUG = false ->
  (exists src, input w c src /\ exists o, in_force fl c o /\ run fl w c = dump fl w o src) \/
  ((forall src, ~ input w c src) /\
   ((exists e, run fl w c = (RErr e, [])) \/
    (exists user keyid raw, c = CGithub [user] keyid raw /\
       (run fl w c = (RPanic, []) \/ run fl w c = (RFuel, []) /\ fst (get_key (w_gh w) user keyid (w_gh_pages w)) = RFuel)))).
Proof.
  intros fl w c Hc Hd. destruct (run_dump_step fl w c Hc) as (s & E & H). rewrite Hd in E.
  assert (D : debug_print w false s = s) by (destruct s as [[]]; reflexivity). rewrite D in E. rewrite E. exact H.
Qed.

Lemma input_unique : forall w c s1 s2, input w c s1 -> input w c s2 -> s1 = s2.
Proof. intros w c s1 s2 H1 H2. destruct H1; inversion H2; subst; congruence. Qed.

(** A dumping command ends with status 0 and the complete rendering of the complete result on
    standard output if everything went well, with or without --debug. *)
Theorem C44_success : forall fl w c text,
  dump_command c = true ->
  (forall src, input w c src -> fits (w_env w) src) ->
  all_well fl w c text -> execute fl w c = (Some 0, text).
Proof.
  intros fl w c text Hc Hf (src & o & items & Hi & Ho & Hp & Hr & Ht).
  unfold execute. destruct (run_dump_step fl w c Hc) as (s & -> & [(src' & Hi' & o' & Ho' & ->)|[N _]]); [|exfalso; eapply N; eauto].
  rewrite (input_unique w c src' src Hi' Hi) in *. unfold dump.
  rewrite (same_in_force fl c o' o (w_env w) src (Hf src Hi) Ho' Ho), Hp.
  apply marshal_rendering in Hr. rewrite Hr. unfold write_from. cbn [st_data st_ok].
  rewrite put_takes by exact Ht. reflexivity.
Qed.
Print Assumptions C44_success.

(** Status 0 means that everything went well. *)
Theorem C44_only_success : forall fl w c,
  dump_command c = true -> f_on fl DEBUG = false ->
  fst (execute fl w c) = Some 0 -> exists text, all_well fl w c text /\ snd (execute fl w c) = text.
Proof.
  intros fl w c Hc Hd. unfold execute.
  destruct (run_dump fl w c Hc Hd) as [(src & Hi & o & Ho & ->)|[_ [[e ->]|(u & k & r & _ & [-> | [-> _]])]]]; try discriminate.
  unfold dump. destruct (parse_stream o (w_env w) src) as [l [[]|e| |]] eqn:P; try discriminate.
  destruct (marshal fl l) as [text|e| |] eqn:M; try discriminate.
  unfold write_from. cbn [st_data st_ok]. destruct (takes_dec w text) as [T|T].
  - rewrite put_takes by exact T. cbn. intros _. exists text. split; [|reflexivity].
    exists src, o, l. repeat split; try assumption. now apply marshal_rendering.
  - destruct (put_fails w text T) as (k & _ & _ & ->). discriminate.
Qed.
Print Assumptions C44_only_success.

(** In every other case the status is not 0 and nothing is written to standard output,
    unless the result itself could not be written completely. *)
Theorem C44_nothing_on_failure : forall fl w c,
  dump_command c = true -> f_on fl DEBUG = false ->
  fst (execute fl w c) <> Some 0 ->
  snd (execute fl w c) = [] \/
  exists k text, w_room w = Some k /\ (k < length text)%nat /\ snd (execute fl w c) = firstn k text.
Proof.
  intros fl w c Hc Hd. unfold execute.
  destruct (run_dump fl w c Hc Hd) as [(src & Hi & o & Ho & ->)|[_ [[e ->]|(u & k & r & _ & [-> | [-> _]])]]];
    try (left; reflexivity).
  unfold dump. destruct (parse_stream o (w_env w) src) as [l [[]|e| |]] eqn:P; try (left; reflexivity).
  destruct (marshal fl l) as [text|e| |] eqn:M; try (left; reflexivity).
  unfold write_from. cbn [st_data st_ok]. destruct (takes_dec w text) as [T|T].
  - rewrite put_takes by exact T. intro X. exfalso. apply X. reflexivity.
  - destruct (put_fails w text T) as (k & Hk & Hl & ->). intros _. right. exists k, text. auto.
Qed.
Print Assumptions C44_nothing_on_failure.

(** A dumping command ends, with status 0 or 1, unless it is a GitHub lookup that goes on
    and on. *)
Theorem C44_ends : forall fl w c,
  dump_command c = true -> f_on fl DEBUG = false ->
  (forall src, input w c src -> fits (w_env w) src) ->
  (forall user keyid raw, c = CGithub [user] keyid raw -> fst (get_key (w_gh w) user keyid (w_gh_pages w)) <> RFuel) ->
  fst (execute fl w c) = Some 0 \/ fst (execute fl w c) = Some 1.
Proof.
  intros fl w c Hc Hd Hf Hg. unfold execute.
  destruct (run_dump fl w c Hc Hd) as [(src & Hi & o & Ho & E)|[_ [[e ->]|(u & k & r & -> & [-> | [_ E]])]]].
  - rewrite E. clear E. unfold dump.
    pose proof (C03_terminates o (w_env w) src (Hf src Hi)) as T.
    destruct (parse_stream o (w_env w) src) as [l [[]|e| |]] eqn:P; cbn [snd] in T; try congruence; auto.
    destruct (marshal_res fl l) as [M1 M2].
    destruct (marshal fl l) as [text|e| |]; try congruence; auto.
    unfold write_from. cbn [st_data st_ok]. destruct (put w [] text) as [? []]; auto.
  - auto.
  - auto.
  - exfalso. exact (Hg u k r eq_refl E).
Qed.
Print Assumptions C44_ends.

(** A panic while parsing becomes status 1 and writes nothing, with --debug as well. *)
Theorem C44_panic : forall fl w c src o,
  dump_command c = true -> fits (w_env w) src ->
  input w c src -> in_force fl c o -> snd (parse_stream o (w_env w) src) = RPanic ->
  execute fl w c = (Some 1, []).
Proof.
  intros fl w c src o Hc Hf Hi Ho Hp.
  assert (D : forall o', in_force fl c o' -> dump fl w o' src = (RPanic, [])).
  { intros o' Ho'. unfold dump. rewrite (same_in_force fl c o' o (w_env w) src Hf Ho' Ho).
    destruct (parse_stream o (w_env w) src) as [l r]. cbn [snd] in Hp. now subst r. }
  pose proof (context_in_force fl c) as C1. pose proof (armor_in_force fl c) as C2.
  unfold execute, run. destruct Hi; cbn [dump_command] in Hc; try (apply negb_true_iff in Hc; subst);
    cbn [armored_source] in *.
  - unfold run_root. cbn [is_nil negb andb]. rewrite D by auto. reflexivity.
  - unfold run_root. destruct file; [congruence|]. cbn [is_nil negb andb]. rewrite H0, D by auto. reflexivity.
  - unfold run_root. cbn [is_nil negb andb]. rewrite H, D by auto. reflexivity.
  - unfold run_hkp. destruct ks; [congruence|]. cbn [is_nil].
    change (server_new (b :: ks) [WithProtocol (if secure then HKPS else HKP); WithPort port])
      with (mkServer (if secure then HKPS else HKP) (b :: ks) port).
    rewrite H0. unfold answer. rewrite D by auto. reflexivity.
  - unfold run_github. rewrite H. unfold answer. rewrite D by auto. reflexivity.
  - unfold run_fetch. rewrite H. unfold answer. rewrite D by auto. reflexivity.
Qed.
Print Assumptions C44_panic.

(** --raw: status 0 exactly when the response could be had, read to its end and written;
    standard output is then the response, octet for octet. *)
Theorem C44_raw : forall fl w c,
  raw_command c = true -> f_on fl DEBUG = false ->
  (fst (execute fl w c) = Some 0 <-> exists src, input w c src /\ st_ok src = true /\ takes w (st_data src)) /\
  (forall src, input w c src -> takes w (st_data src) -> snd (execute fl w c) = st_data src).
Proof.
  intros fl w c Hc Hd. unfold execute, run. rewrite debug_flag, Hd.
  assert (D : forall s, debug_print w false s = s) by (intros [[]]; reflexivity).
  assert (W : forall src, input w c src -> forall r, r = write_from w src [] ->
    (fst (let '(r, out) := r in (match r with ROk _ => Some Normal | RErr _ => Some Abnormal | RPanic => Some Abnormal | RFuel => None end, out)) = Some 0 <->
       exists src, input w c src /\ st_ok src = true /\ takes w (st_data src)) /\
    (forall src, input w c src -> takes w (st_data src) ->
       snd (let '(r, out) := r in (match r with ROk _ => Some Normal | RErr _ => Some Abnormal | RPanic => Some Abnormal | RFuel => None end, out)) = st_data src)).
  { intros src Hi r ->. unfold write_from. split.
    - destruct (takes_dec w (st_data src)) as [T|T].
      + rewrite put_takes by exact T. cbn [andb]. destruct (st_ok src) eqn:E; cbn.
        * split; [intros _; exists src; auto|reflexivity].
        * split; [discriminate|]. intros (s & H & K & _). rewrite (input_unique w c s src H Hi) in K. congruence.
      + destruct (put_fails w _ T) as (k & _ & _ & ->). cbn. split; [discriminate|].
        intros (s & H & _ & K). rewrite (input_unique w c s src H Hi) in K. contradiction.
    - intros s H T. rewrite (input_unique w c s src H Hi) in *. rewrite put_takes by exact T. reflexivity. }
  assert (F : forall e, (forall src, ~ input w c src) ->
    (fst (let '(r, out) := (RErr e, []) : step in (match r with ROk _ => Some Normal | RErr _ => Some Abnormal | RPanic => Some Abnormal | RFuel => None end, out)) = Some 0 <->
       exists src, input w c src /\ st_ok src = true /\ takes w (st_data src)) /\
    (forall src, input w c src -> takes w (st_data src) ->
       snd (let '(r, out) := (RErr e, []) : step in (match r with ROk _ => Some Normal | RErr _ => Some Abnormal | RPanic => Some Abnormal | RFuel => None end, out)) = st_data src)).
  { intros e N. cbn. split; [split; [discriminate|]|].
    - intros (s & H & _). exfalso. exact (N s H).
    - intros s H. exfalso. exact (N s H). }
  destruct c as [v cb file| |args ks port secure raw|args keyid raw|args raw|args| |]; try discriminate;
    cbn [raw_command] in Hc; subst raw; rewrite D.
  - unfold run_hkp. destruct args as [|user [|? ?]];
      [refine (F EFile _); intros src H; inversion H | | refine (F EFile _); intros src H; inversion H].
    destruct ks as [|k ks]; cbn [is_nil]; [refine (F EFile _); intros src H; inversion H; congruence|].
    change (server_new (k :: ks) [WithProtocol (if secure then HKPS else HKP); WithPort port])
      with (mkServer (if secure then HKPS else HKP) (k :: ks) port).
    destruct (w_get w _) as [s|] eqn:E; [|refine (F EFile _); intros src H; inversion H; congruence].
    apply (W s); [|reflexivity]. apply in_key_server; [discriminate|exact E].
  - unfold run_github. destruct args as [|user [|? ?]];
      [refine (F EFile _); intros src H; inversion H | | refine (F EFile _); intros src H; inversion H].
    destruct (fst (get_key (w_gh w) user keyid (w_gh_pages w))) as [b|e| |] eqn:E;
      [|refine (F EFile _); intros src H; inversion H; congruence| |].
    + apply (W (mkStream b true)); [|reflexivity]. now apply in_github.
    + cbn. split; [split; [discriminate|]|]; [intros (s & H & _)|intros s H]; inversion H; congruence.
    + cbn. split; [split; [discriminate|]|]; [intros (s & H & _)|intros s H]; inversion H; congruence.
  - unfold run_fetch. destruct args as [|u [|? ?]];
      [refine (F EFile _); intros src H; inversion H | | refine (F EFile _); intros src H; inversion H].
    destruct (w_get w u) as [s|] eqn:E; [|refine (F EFile _); intros src H; inversion H; congruence].
    apply (W s); [|reflexivity]. now apply in_web.
Qed.
Print Assumptions C44_raw.

(** The version goes to standard error; whatever cobra refuses has status 1; neither
    writes to standard output. *)
Theorem C44_others : forall fl w cb file,
  snd (execute fl w CVersion) = [] /\ snd (execute fl w (CRoot true cb file)) = [] /\
  execute fl w CUsage = (Some 1, []).
Proof. intros. unfold execute, run. destruct (w_stderr w); repeat split. Qed.
Print Assumptions C44_others.

(** A completion script is written for no argument (bash) and for the four shells in any
    letter case; any other arguments have status 1 and no output. *)
Theorem C44_completion : forall fl w args,
  (exists shell, In shell [str "bash"; str "zsh"; str "fish"; str "powershell"] /\
     (args = [] /\ shell = str "bash" \/ exists a, args = [a] /\ equal_fold (w_gh w) a shell = true) /\
     (takes w (w_script w shell) -> execute fl w (CCompletion args) = (Some 0, w_script w shell))) \/
  execute fl w (CCompletion args) = (Some 1, []) /\
    (forall a shell, args = [a] -> In shell [str "bash"; str "zsh"; str "fish"; str "powershell"] ->
       equal_fold (w_gh w) a shell = false) /\ args <> [].
Proof.
  intros fl w args. unfold execute, run, run_completion.
  assert (W : forall s, takes w (w_script w s) ->
    (let '(r, out) := write_from w (mkStream (w_script w s) true) [] in
     (match r with ROk _ => Some Normal | RErr _ => Some Abnormal | RPanic => Some Abnormal | RFuel => None end, out)) = (Some 0, w_script w s)).
  { intros s T. unfold write_from. cbn [st_data st_ok]. rewrite put_takes by exact T. reflexivity. }
  destruct args as [|a [|b t]].
  - left. exists (str "bash"). split; [cbn; tauto|]. split; [left; auto|apply W].
  - destruct (equal_fold (w_gh w) a (str "bash")) eqn:E1.
    { left. exists (str "bash"). split; [cbn; tauto|]. split; [right; eauto|apply W]. }
    destruct (equal_fold (w_gh w) a (str "zsh")) eqn:E2.
    { left. exists (str "zsh"). split; [cbn; tauto|]. split; [right; eauto|apply W]. }
    destruct (equal_fold (w_gh w) a (str "fish")) eqn:E3.
    { left. exists (str "fish"). split; [cbn; tauto|]. split; [right; eauto|apply W]. }
    destruct (equal_fold (w_gh w) a (str "powershell")) eqn:E4.
    { left. exists (str "powershell"). split; [cbn; tauto|]. split; [right; eauto|apply W]. }
    right. split; [reflexivity|]. split; [|discriminate].
    intros a' shell [= <-] [<-|[<-|[<-|[<-|[]]]]]; assumption.
  - right. split; [reflexivity|]. split; [|discriminate]. intros; discriminate.
Qed.
Print Assumptions C44_completion.

(** ** What does not hold *)

Definition world0 (src : stream) : world :=
  mkWorld env0 src (fun _ => None) None (fun _ => Some src)
    (mkGh (fun _ => GErr) (fun _ => None) (fun r => r) (fun _ _ => false)) 0
    (fun _ => str "error") (fun _ => []) None true.
Definition flags_of (l : list Z) : flags := mkFlags false 0 (fun c => existsb (Z.eqb c) l).

(** With --debug the status is 0 although parsing failed, and the error is written to
    standard output. *)
Theorem C44_debug_refuted : exists fl w src o,
  input w (CRoot false false []) src /\ fits (w_env w) src /\ in_force fl (CRoot false false []) o /\
  snd (parse_stream o (w_env w) src) = RErr EArmorText /\
  fst (execute fl w (CRoot false false [])) = Some 0 /\ snd (execute fl w (CRoot false false [])) <> [].
Proof.
  exists (flags_of [ARMOR; DEBUG]), (world0 (mkStream [xb4; x00] true)), (mkStream [xb4; x00] true),
    (parse_context (flags_of [ARMOR; DEBUG])).
  split; [apply in_stdin|]. split; [split; [reflexivity|discriminate]|].
  split; [now apply context_in_force|]. split; [vm_compute; reflexivity|]. split; [vm_compute; reflexivity|].
  vm_compute. discriminate.
Qed.
Print Assumptions C44_debug_refuted.

(** With --debug every error is turned into status 0: only a panic is reported. *)
Theorem C44_debug : forall fl w c, dump_command c = true \/ raw_command c = true ->
  f_on fl DEBUG = true -> fst (execute fl w c) = Some 1 -> fst (run fl w c) = RPanic /\ snd (execute fl w c) = snd (run fl w c).
Proof.
  intros fl w c Hc Hd. unfold execute.
  assert (R : fst (run fl w c) = ROk tt \/ fst (run fl w c) = RPanic \/ fst (run fl w c) = RFuel).
  { unfold run. rewrite debug_flag, Hd.
    destruct c as [[] cb file| |args ks port secure raw|args keyid raw|args raw|args| |];
      try (exfalso; destruct Hc; discriminate);
      match goal with |- context [debug_print w true ?s] => destruct s as [[[]|e| |] out]; cbn; auto end. }
  destruct (run fl w c) as [r out]. cbn [fst] in R. destruct R as [-> |[-> | ->]]; cbn; [discriminate|auto|discriminate].
Qed.
Print Assumptions C44_debug.

(** What standard output takes of a text. *)
Definition taken (w : world) (text : bytes) : bytes := match w_room w with None => text | Some k => firstn k text end.
(** With --debug and status 0, standard output holds the complete rendering if everything went well.  Otherwise it holds the line with the error
    and nothing else, or as much of the rendering as it takes. *)
Theorem C44_debug_output : forall fl w c, dump_command c = true -> f_on fl DEBUG = true ->
  (forall src, input w c src -> fits (w_env w) src) -> fst (execute fl w c) = Some 0 ->
  (exists text, all_well fl w c text /\ snd (execute fl w c) = text) \/
  (forall text, ~ all_well fl w c text) /\
  ((exists e, snd (execute fl w c) = taken w (w_error w e ++ [x0a])) \/
   exists k text, w_room w = Some k /\ (k < length text)%nat /\ snd (execute fl w c) = firstn k text).
Proof.
  intros fl w c Hc Hd Hf X.
  assert (P0 : forall t, fst (put w [] t) = taken w t) by (intro t; unfold put, taken; destruct (w_room w); reflexivity).
  assert (L : forall s, run fl w c = debug_print w true s -> execute fl w c = (Some 0, snd (debug_print w true s))).
  { intros s R. unfold execute in *. rewrite R in *. destruct (debug_print w true s) as [[[]|e| |] out]; cbn [fst snd] in *; try discriminate X; reflexivity. }
  destruct (run_dump_step fl w c Hc) as (s & R & H). rewrite Hd in R. rewrite (L s R). cbn [snd].
  assert (NX : fst (debug_print w true s) = ROk tt).
  { unfold execute in X. rewrite R in X. destruct (debug_print w true s) as [[[]|e| |] out]; cbn [fst] in *; try discriminate X; reflexivity. }
  destruct H as [(src & Hi & o & Ho & ->)|[N [[e ->]|(u & k & r & _ & [-> | [-> _]])]]]; try discriminate NX.
  - assert (W : forall text, all_well fl w c text -> exists l, parse_stream o (w_env w) src = (l, ROk tt) /\ marshal fl l = ROk text /\ takes w text).
    { intros text (src' & o' & items & Hi' & Ho' & Hp & Hr & Ht). rewrite (input_unique w c src' src Hi' Hi) in *. exists items.
      rewrite (same_in_force fl c o o' (w_env w) src (Hf src Hi) Ho Ho'), Hp. apply marshal_rendering in Hr. auto. }
    unfold dump in *. destruct (parse_stream o (w_env w) src) as [l [[]|e| |]] eqn:P; try discriminate NX.
    + destruct (marshal fl l) as [text|e| |] eqn:M; try discriminate NX.
      * unfold write_from in *. cbn [st_data st_ok] in *. destruct (takes_dec w text) as [T|T].
        -- left. exists text. rewrite put_takes by exact T. split; [|reflexivity]. exists src, o, l. repeat split; try assumption. now apply marshal_rendering.
        -- right. split; [intros t A; destruct (W t A) as (l' & Q1 & Q2 & Q3); apply T; congruence|].
           destruct (put_fails w text T) as (k & Hk & Hl & E). right. exists k, text. rewrite E. cbn [andb debug_print snd]. split; [exact Hk|]. split; [exact Hl|].
           unfold put. rewrite Hk. cbn [fst]. rewrite firstn_app, firstn_firstn, Nat.min_id, firstn_length_le by lia.
           rewrite Nat.sub_diag, firstn_O, app_nil_r. reflexivity.
      * right. split; [intros t A; destruct (W t A) as (l' & Q1 & Q2 & Q3); congruence|]. left. exists e. cbn [debug_print snd]. apply P0.
    + right. split; [intros t A; destruct (W t A) as (l' & Q1 & Q2 & Q3); congruence|]. left. exists e. cbn [debug_print snd]. apply P0.
  - right. split; [intros t (src & o & items & Hi & _); exact (N src Hi)|]. left. exists e. cbn [debug_print snd]. apply P0.
Qed.
Print Assumptions C44_debug_output.
(** In particular an error found while parsing is the line that is written. *)
Theorem C44_debug_error : forall fl w c src o e, dump_command c = true -> f_on fl DEBUG = true -> fits (w_env w) src ->
  input w c src -> in_force fl c o -> snd (parse_stream o (w_env w) src) = RErr e ->
  execute fl w c = (Some 0, taken w (w_error w e ++ [x0a])).
Proof.
  intros fl w c src o e Hc Hd Hf Hi Ho Hp. unfold execute. destruct (run_dump_step fl w c Hc) as (s & -> & [(src' & Hi' & o' & Ho' & ->)|[N _]]); [|exfalso; eapply N; eauto].
  rewrite (input_unique w c src' src Hi' Hi) in *. unfold dump. rewrite (same_in_force fl c o' o (w_env w) src Hf Ho' Ho), Hd.
  destruct (parse_stream o (w_env w) src) as [l r]. cbn [snd] in Hp. subst r. cbn [debug_print]. unfold put, taken. destruct (w_room w); reflexivity.
Qed.
Print Assumptions C44_debug_error.

(** An input that breaks off with a read error is dumped as far as it was read, with
    status 0. *)
Theorem C44_read_error_refuted : exists fl w,
  f_on fl DEBUG = false /\ st_ok (w_stdin w) = false /\
  fst (execute fl w (CRoot false false [])) = Some 0 /\ snd (execute fl w (CRoot false false [])) <> [].
Proof.
  exists (flags_of []), (world0 (mkStream [xca; x03; x50; x47; x50] false)).
  repeat split; try (vm_compute; reflexivity). vm_compute. discriminate.
Qed.
Print Assumptions C44_read_error_refuted.

(** --raw writes what it has received before a read error, so that output is not empty
    although the status is 1. *)
Theorem C44_raw_refuted : exists fl w c,
  raw_command c = true /\ f_on fl DEBUG = false /\
  fst (execute fl w c) = Some 1 /\ snd (execute fl w c) <> [].
Proof.
  exists (flags_of []), (world0 (mkStream (str "abc") false)), (CFetch [str "http://x"] true).
  repeat split; try (vm_compute; reflexivity). vm_compute. discriminate.
Qed.
Print Assumptions C44_raw_refuted.

(** ** Examples *)

(** The root command on a marker packet: everything goes well. *)
Example C44_example : exists text,
  all_well (flags_of []) (world0 (mkStream [xca; x03; x50; x47; x50] true)) (CRoot false false []) text /\
  text = str "Marker Packet (Obsolete Literal Packet) (tag 10) (3 bytes)" ++ [x0a; x09] ++ str "Literal data (3 bytes)" ++ [x0a].
Proof.
  eexists. split; [|reflexivity]. eexists. exists (parse_context (flags_of [])). eexists.
  split; [apply in_stdin|]. split; [now apply context_in_force|]. split; [vm_compute; reflexivity|].
  split; [|discriminate]. right; right. repeat split; try discriminate.
Qed.

(** A panicking input. *)
Example C44_example_panic :
  execute (flags_of [DEBUG]) (world0 (mkStream [xc5; x03; x06; x00; x00] true)) (CRoot false false []) = (Some 1, []).
Proof. vm_compute. reflexivity. Qed.
