(** * PropProcess: the command called several times in one process (C62). *)
From Coq Require Import Strings.String Strings.Byte List NArith ZArith Bool.
From Verif Require Import Base Item Context Env Parse Github Facade Process SpecFacade PropFacade.
Import ListNotations.
Local Open Scope Z_scope.

(** Commands that ask for packets, whether they are shown or not. *)
Definition reads (c : command) : bool := dump_command c || raw_command c.
Definition in_debug (x : execution) : bool := f_on (x_flags x) DEBUG.
(** A call on its own. *)
Definition on_its_own (x : execution) : option Z * bytes := execute (x_flags x) (x_world x) (x_command x).

Lemma first_run x : fst (run_after false x) = run (x_flags x) (x_world x) (x_command x).
Proof.
  destruct x as [fl w c]. unfold run_after, run. cbn [x_flags x_world x_command]. destruct c as [[] cb file| | | | | | |]; try reflexivity.
  - unfold debug_print. destruct (w_stderr w); reflexivity.
  - unfold debug_print. cbn [fst]. destruct (run_completion w args) as [[] ?]; reflexivity.
Qed.
Lemma reads_run dbg x : reads (x_command x) = true -> run_after dbg x = run_after false x.
Proof. destruct x as [fl w c]. destruct c as [[] cb file| |? ? ? ? []|? ? []|? []| | |]; cbn [x_command]; try discriminate; reflexivity. Qed.
Lemma other_run dbg x : reads (x_command x) = false -> snd (run_after dbg x) = dbg.
Proof. destruct x as [fl w c]. destruct c as [[] cb file| |? ? ? ? []|? ? []|? []| | |]; cbn [x_command]; try discriminate; reflexivity. Qed.
Lemma reads_debug dbg x : reads (x_command x) = true -> snd (run_after dbg x) = in_debug x.
Proof.
  destruct x as [fl w c]. unfold in_debug. cbn [x_flags x_command]. intro R. rewrite <- debug_flag.
  destruct c as [[] cb file| |? ? ? ? []|? ? []|? []| | |]; try discriminate R; reflexivity.
Qed.
Lemma process_last l x : process (l ++ [x]) = if reads (x_command x) then in_debug x else process l.
Proof.
  unfold process. rewrite fold_left_app. cbn [fold_left]. destruct (reads (x_command x)) eqn:R; [apply reads_debug | apply other_run]; exact R.
Qed.
Lemma process_debug l : process l = true -> exists l1 x l2, l = l1 ++ x :: l2 /\ reads (x_command x) = true /\ in_debug x = true /\
  Forall (fun y => reads (x_command y) = false) l2.
Proof.
  induction l as [|x l IH] using rev_ind; [discriminate|]. rewrite process_last. destruct (reads (x_command x)) eqn:R; intro H.
  - exists l, x, []. auto.
  - destruct (IH H) as (l1 & y & l2 & -> & A & B & C). exists l1, y, (l2 ++ [x]). rewrite <- app_assoc. repeat split; auto.
    apply Forall_app. auto.
Qed.
Lemma process_debug_rev l1 x l2 : reads (x_command x) = true -> Forall (fun y => reads (x_command y) = false) l2 -> process (l1 ++ x :: l2) = in_debug x.
Proof.
  intros R. induction l2 as [|y l2 IH] using rev_ind; intro F.
  - rewrite process_last, R. reflexivity.
  - apply Forall_app in F as [F1 F2]. apply Forall_inv in F2.
    replace (l1 ++ x :: l2 ++ [y]) with ((l1 ++ x :: l2) ++ [y]) by (rewrite <- app_assoc; reflexivity). rewrite process_last, F2. auto.
Qed.

(** C62.  The first call in a process is what the other theorems about the command are about. *)
Theorem C62_first : forall x, execute_in [] x = on_its_own x.
Proof.
  intro x. unfold execute_in, on_its_own, execute_after, execute. cbn [process fold_left]. rewrite <- first_run.
  destruct (run_after false x) as [[r out] d]. reflexivity.
Qed.
Print Assumptions C62_first.

(** C62.  A command that asks for packets does the same whatever was called before it, whether those calls succeeded, failed or panicked. *)
Theorem C62_reading : forall l x, reads (x_command x) = true -> execute_in l x = on_its_own x.
Proof. intros l x R. rewrite <- C62_first. unfold execute_in, execute_after. rewrite (reads_run _ x R). reflexivity. Qed.
Print Assumptions C62_reading.

(** C62.  If the last call before it that asked for packets was without --debug, any command does the same as on its own. *)
Theorem C62_without_debug : forall l x, (forall l1 y l2, l = l1 ++ y :: l2 -> reads (x_command y) = true ->
    Forall (fun z => reads (x_command z) = false) l2 -> f_on (x_flags y) DEBUG = false) ->
  execute_in l x = on_its_own x.
Proof.
  intros l x H. rewrite <- C62_first. unfold execute_in. cbn [process fold_left]. destruct (process l) eqn:P; [|reflexivity].
  destruct (process_debug l P) as (l1 & y & l2 & E & R & D & F). unfold in_debug in D. rewrite (H l1 y l2 E R F) in D. discriminate D.
Qed.
Print Assumptions C62_without_debug.

(** C62.  A command that succeeds on its own does the same whatever was called before it. *)
Theorem C62_success : forall l x, fst (on_its_own x) = Some 0 -> execute_in l x = on_its_own x.
Proof.
  intros l x. rewrite <- C62_first. unfold execute_in. cbn [process fold_left]. destruct (process l) eqn:P; [|reflexivity].
  destruct x as [fl w c]. unfold execute_after, run_after. cbn [x_flags x_world x_command].
  destruct c as [[] cb file| |? ? ? ? []|? ? []|? []|args| |]; try reflexivity.
  - unfold debug_print. destruct (w_stderr w); [reflexivity|discriminate].
  - unfold debug_print. destruct (run_completion w args) as [[] ?]; try discriminate; reflexivity.
Qed.
Print Assumptions C62_success.

(** C62.  So a call can differ from the same call on its own only if it asks for the version or a completion script, fails on its own with status
    1, and the last call before it that asked for packets had --debug.  What is missing: in that case the status is 0. *)
Theorem C62_execute_partial : forall l x,
  execute_in l x = on_its_own x \/
  ((exists cb file, x_command x = CRoot true cb file) \/ exists args, x_command x = CCompletion args) /\
  fst (on_its_own x) = Some 1 /\ fst (execute_in l x) = Some 0 /\
  exists l1 y l2, l = l1 ++ y :: l2 /\ reads (x_command y) = true /\ f_on (x_flags y) DEBUG = true /\ Forall (fun z => reads (x_command z) = false) l2.
Proof.
  intros l x. rewrite <- C62_first. unfold execute_in. cbn [process fold_left]. destruct (process l) eqn:P; [|left; reflexivity].
  pose proof (process_debug l P) as D. destruct x as [fl w c]. unfold execute_after, run_after. cbn [x_flags x_world x_command].
  destruct c as [[] cb file| |? ? ? ? []|? ? []|? []|args| |]; try (left; reflexivity).
  - unfold debug_print. destruct (w_stderr w); [left; reflexivity|]. right. split; [left; eauto|]. auto.
  - unfold debug_print. assert (forall r out, run_completion w args = (r, out) -> match r with ROk _ | RErr _ => True | _ => False end) as K.
    { intros r out. unfold run_completion, write_from. destruct args as [|a [|b args]]; cbn [st_data st_ok];
        repeat match goal with |- context [equal_fold ?g ?a ?b] => destruct (equal_fold g a b) end;
        repeat match goal with |- context [Facade.put ?w ?a ?b] => destruct (Facade.put w a b) as [? []] end; cbn [andb]; intro E; injection E as <- <-; exact I. }
    destruct (run_completion w args) as [[] out] eqn:RC; try (left; reflexivity); try (destruct (K _ _ eq_refl)).
    right. split; [right; eauto|]. auto.
Qed.
Print Assumptions C62_execute_partial.

(** C62 does not hold of every call: after a dump with --debug, a completion script for an unknown shell is refused with status 0. *)
Theorem C62_execute_refuted : ~ (forall l x, execute_in l x = on_its_own x).
Proof.
  intro H. set (w := world0 (mkStream [xc9; x02; x01; x02] true)).
  specialize (H [mkExec (flags_of [DEBUG]) w (CRoot false false [])] (mkExec (flags_of []) w (CCompletion [str "tcsh"]))).
  apply (f_equal fst) in H. vm_compute in H. discriminate H.
Qed.
Print Assumptions C62_execute_refuted.
(** The calls of the witness in the other order do the same as on their own, and so does the dump without --debug behind both. *)
Example C62_used : let w := world0 (mkStream [xc9; x02; x01; x02] true) in
  let dump := mkExec (flags_of [DEBUG]) w (CRoot false false []) in
  let plain := mkExec (flags_of []) w (CRoot false false []) in
  let script := mkExec (flags_of []) w (CCompletion [str "tcsh"]) in
  execute_in [] script = (Some 1, []) /\ fst (execute_in [script] dump) = Some 0 /\ fst (execute_in [dump] script) = Some 0 /\
  execute_in [dump; script; plain] script = (Some 1, []) /\ reads (x_command plain) = true.
Proof. vm_compute. repeat split. Qed.
