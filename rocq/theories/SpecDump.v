(** * SpecDump: how long the dumps of a result are (C65). *)
From Coq Require Import Strings.Byte List NArith ZArith.
From Verif Require Import Base Item.
Import ListNotations.

(** The octets of the longest dump of an item and of all items in it. *)
Fixpoint longest_dump (i : item) : nat :=
  match i with Item _ _ d _ l => Nat.max (length d) (list_max (map longest_dump l)) end.
Definition result_dump (l : info) : nat := list_max (map longest_dump l).
