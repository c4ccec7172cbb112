(** * SpecOpt: options as switches (C41). *)
From Coq Require Import Strings.String Strings.Byte List NArith ZArith Bool.
From Verif Require Import Base.
Import ListNotations.
Local Open Scope Z_scope.

(** The option codes 1 ... 9 and their names. *)
Definition option_names : list (Z * string) :=
  [(1, "armor"); (2, "cert"); (3, "debug"); (4, "gdump"); (5, "int"); (6, "literal"); (7, "marker");
   (8, "private"); (9, "utc")]%string.

(** The last value set for a code in a sequence of settings. *)
Fixpoint last_set (c : Z) (l : list (Z * bool)) : option bool :=
  match l with
  | [] => None
  | (k, v) :: t => match last_set c t with
                   | Some x => Some x
                   | None => if k =? c then Some v else None
                   end
  end.
Definition switched_on (c : Z) (l : list (Z * bool)) : bool :=
  match last_set c l with Some b => b | None => false end.

(** Upper case of an ASCII letter. *)
Definition ascii_upper (b : byte) : byte :=
  let n := b2n b in if ((97 <=? n) && (n <=? 122))%N then n2b (n - 32) else b.
(** Two ASCII strings that differ only in the case of letters. *)
Definition same_but_case (a b : bytes) : Prop :=
  Forall (fun x => (b2n x < 128)%N) a /\ map ascii_upper a = map ascii_upper b.
