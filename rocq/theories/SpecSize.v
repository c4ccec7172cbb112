(** * SpecSize: how much text a result holds (C65). *)
From Coq Require Import Strings.Byte List NArith ZArith.
From Verif Require Import Base Item.
Import ListNotations.

(** The octets of the name, the value, the dump and the note of an item and of all items in it. *)
Fixpoint item_octets (i : item) : nat :=
  match i with Item n v d t l => length n + length v + length d + length t + list_sum (map item_octets l) end.
Definition result_octets (l : info) : nat := list_sum (map item_octets l).
(** How many items are inside each other. *)
Fixpoint item_depth (i : item) : nat :=
  match i with Item _ _ _ _ l => S (list_max (map item_depth l)) end.
Definition result_depth (l : info) : nat := list_max (map item_depth l).
