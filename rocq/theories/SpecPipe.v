(** * SpecPipe: the same octets from different places (C74). *)
From Coq Require Import Strings.String Strings.Byte List NArith ZArith Bool.
From Verif Require Import Base Context Env Facade Cli SpecFacade SpecCli.
Import ListNotations.
Local Open Scope Z_scope.

(** Two worlds in which the same programs are installed and the same can be written; what can be read may differ altogether: standard input, files, the
    clipboard, all servers. *)
Definition same_machine (w w' : world) : Prop :=
  w_env w' = w_env w /\ w_error w' = w_error w /\ w_room w' = w_room w /\ w_stderr w' = w_stderr w.

(** The same is asked about the output; and the input is taken for armored text in both cases or in neither. *)
Definition same_dump (l : list (string * value)) (c : command) (l' : list (string * value)) (c' : command) : Prop :=
  (forall n, In n ["cert"; "debug"; "int"; "json"; "literal"; "marker"; "private"; "utc"]%string -> on l' n = on l n) /\
  number l' "indent" 0 = number l "indent" 0 /\
  on l' "armor" || armored_source c' = on l "armor" || armored_source c.

(** The command without --raw. *)
Definition without_raw (c : command) : command :=
  match c with
  | CHkp args ks port secure _ => CHkp args ks port secure false
  | CGithub args keyid _ => CGithub args keyid false
  | CFetch args _ => CFetch args false
  | _ => c
  end.
