(** * SpecScreen: how two text outputs compare (C77). *)
From Coq Require Import Strings.String Strings.Byte List NArith ZArith Bool.
From Verif Require Import Base SpecBase SpecText SpecParse.
Import ListNotations.

(** A line: its depth and its text. *)
Definition line : Type := (nat * bytes)%type.

(** The second output has all lines of the first in the same order, and more: hexadecimal dumps, each directly below a line of the first, one level deeper. *)
Inductive dumps_added : list line -> list line -> Prop :=
| no_lines : dumps_added [] []
| same_line p l l' : dumps_added l l' -> dumps_added (p :: l) (p :: l')
| dump_line d x t octets l l' : read_dump t = Some octets -> octets <> [] -> dumps_added l l' ->
    dumps_added ((d, x) :: l) ((d, x) :: (S d, t) :: l').

(** Lines that differ at most in how a time is written: as the value or as the note, for the same instant. *)
Definition same_but_time (p q : line) : Prop :=
  p = q \/ exists n v v' t t', fst p = fst q /\ snd p = item_line n v t /\ snd q = item_line n v' t' /\ same_or_instant v v' /\ same_or_instant t t'.

(** The options that say which octets are shown as hexadecimal dumps. *)
Definition dump_options : list string := ["cert"; "debug"; "int"; "literal"; "marker"; "private"]%string.
