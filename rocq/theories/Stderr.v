(** * Stderr: what the command says on standard error: facade/facade.go 105-119 and 157-179, facade/version.go, and cobra's ExecuteC.

    The wording is outside the model: the text of an error (errs.Error), of a panic and of its stack, cobra's complaints and help, and the version set by
    the linker are in [texts].  Which of them is written, when, and in which form, is modelled.  A standard error that cannot be written takes nothing. *)
From Coq Require Import Strings.String Strings.Byte List NArith ZArith Bool.
From Verif Require Import Base Item Context Env Parse Facade Cli.
Import ListNotations.
Local Open Scope Z_scope.

Record texts := mkTexts {
  t_error : err -> bytes;     (* err.Error() *)
  t_usage : bytes;            (* err.Error() of what cobra refuses by itself: CUsage *)
  t_panic : bytes;            (* the value of a panic, printed with %v *)
  t_stack : list bytes;       (* the lines of runtime.Caller behind the arrow, facade.go 162-168 *)
  t_version : bytes;          (* Version, facade.go 24 *)
  t_help : bytes              (* cobra's help: CHelp *)
}.

(** getVersion, version.go 10-17: the two lines joined, with the line feed of OutputErrln. *)
Definition version_text (t : texts) : bytes :=
  str "gpgpdump " ++ t_version t ++ [x0a] ++ str "repository: https://github.com/spiegel-im-spiegel/gpgpdump" ++ [x0a].

(** cobra's ExecuteC, c.Println("Error:", err.Error()): SilenceErrors is not set, SilenceUsage is (facade.go 105). *)
Definition error_line (msg : bytes) : bytes := str "Error: " ++ msg ++ [x0a].

(** The recovery of Execute, facade.go 158-171. *)
Definition panic_lines (t : texts) : bytes :=
  str "Panic: " ++ t_panic t ++ [x0a] ++ concat (map (fun s => str " -> " ++ s ++ [x0a]) (t_stack t)).

(** What the RunE functions write themselves: the version only (facade.go 44-46, version.go 26-28). *)
Definition said_running (t : texts) (c : command) : bytes :=
  match c with
  | CRoot true _ _ | CVersion => version_text t
  | CHelp => t_help t
  | _ => []
  end.

(** Execute, facade.go 157-179: standard error when it ends. *)
Definition stderr_of (fl : flags) (w : world) (t : texts) (c : command) : bytes :=
  if w_stderr w then
    said_running t c ++
    match fst (run fl w c) with
    | RErr e => error_line (match c with CUsage => t_usage t | _ => t_error t e end)
    | RPanic => panic_lines t
    | ROk _ | RFuel => []
    end
  else [].

(** main.go 10-19, from the arguments. *)
Definition main_stderr (w : world) (t : texts) (args : list bytes) : option bytes :=
  option_map (fun p => stderr_of (fst p) w t (snd p)) (cli args).
