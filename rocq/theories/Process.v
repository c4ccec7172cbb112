(** * Process: facade.Execute called several times in one process.

    The variables of the package, facade.go 28-33, outlive a call.  Building the commands anew, facade.go 37-119, sets the ones that flags
    are bound to back to the defaults.  [debugFlag] is not one of them: only parseContext, facade.go 140-154, sets it. *)
From Coq Require Import Strings.Byte List ZArith Bool.
From Verif Require Import Base Context Env Parse Facade.
Import ListNotations.

(** A call of Execute: what it is asked to do, and what it meets. *)
Record execution := mkExec { x_flags : flags; x_world : world; x_command : command }.

(** The command cobra runs when [debugFlag] is [dbg]: the step, and [debugFlag] after it.  facade.go 42-87, version.go 26-28, hkp.go,
    github.go, fetch.go and completion.go 59-75.  parseContext is called first in the commands that read packets. *)
Definition run_after (dbg : bool) (x : execution) : step * bool :=
  let fl := x_flags x in
  let w := x_world x in
  let now := oDebug (parse_context fl) in
  match x_command x with
  | CRoot true _ _ => (debug_print w dbg (if w_stderr w then ROk tt else RErr EIO, []), dbg)
  | CVersion => ((if w_stderr w then ROk tt else RErr EIO, []), dbg)
  | CRoot false cb file => (debug_print w now (run_root fl w cb file), now)
  | CHkp args ks port secure raw => (debug_print w now (run_hkp fl w args ks port secure raw), now)
  | CGithub args keyid raw => (debug_print w now (run_github fl w args keyid raw), now)
  | CFetch args raw => (debug_print w now (run_fetch fl w args raw), now)
  | CCompletion args => (debug_print w dbg (run_completion w args), dbg)
  | CUsage => ((RErr EFile, []), dbg)
  | CHelp => ((ROk tt, []), dbg)
  end.

(** Execute, facade.go 157-179, when [debugFlag] is [dbg]: the exit code and standard output, as [execute] in Facade. *)
Definition execute_after (dbg : bool) (x : execution) : option Z * bytes :=
  let '((r, out), _) := run_after dbg x in
  (match r with
   | ROk _ => Some Normal
   | RErr _ => Some Abnormal
   | RPanic => Some Abnormal
   | RFuel => None
   end, out).

(** [debugFlag] after the calls of Execute, from the start of the process, facade.go 31. *)
Definition process (l : list execution) : bool := fold_left (fun dbg x => snd (run_after dbg x)) l false.

(** Execute behind other calls. *)
Definition execute_in (l : list execution) (x : execution) : option Z * bytes := execute_after (process l) x.
