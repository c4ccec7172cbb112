(** * SpecArmored: the same asked about the output (C78). *)
From Coq Require Import Strings.String List ZArith Bool.
From Verif Require Import Base Cli Facade SpecCli.
Import ListNotations.
Local Open Scope Z_scope.

(** The same is asked about the output.  (Whether the input is to be taken for armored text is not about the output.) *)
Definition same_output (l l' : list (string * value)) : Prop :=
  (forall n, In n ["cert"; "debug"; "int"; "json"; "literal"; "marker"; "private"; "utc"]%string -> on l' n = on l n) /\
  number l' "indent" 0 = number l "indent" 0.
