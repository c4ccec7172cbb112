(** * SpecCount: how many items a result has, and how many octets the input stands for (C55). *)
From Coq Require Import Strings.Byte List NArith ZArith.
From Verif Require Import Base Item Env SpecBase SpecFrame SpecNest.
Import ListNotations.

(** An item counts with all items in it. *)
Fixpoint item_count (i : item) : nat :=
  match i with Item _ _ _ _ l => S (list_sum (map item_count l)) end.
Definition result_count (l : info) : nat := list_sum (map item_count l).

(** [unpacked E l n]: the compressed data packets (tag 8) in [l] that can be opened hold [n] octets together. *)
Inductive unpacked (E : env) : list (N * bytes) -> nat -> Prop :=
| unpacked_nil : unpacked E [] 0
| unpacked_other tag body l n : tag <> 8%N -> unpacked E l n -> unpacked E ((tag, body) :: l) n
| unpacked_closed body l n : (forall d, ~ contents E body d) -> unpacked E l n -> unpacked E ((8%N, body) :: l) n
| unpacked_open body d l n : contents E body d -> unpacked E l n -> unpacked E ((8%N, body) :: l) (length d + n).

(** The octets [w] begin with the packets [l]. *)
Definition begins (l : list (N * bytes)) (w : bytes) : Prop := exists v rest, w = v ++ rest /\ input_of l v.
