(** * SpecResult: what a program that builds results by hand expects (C64), from its calls alone. *)
From Coq Require Import Strings.Byte List Bool Arith.
From Verif Require Import Base Item Result.
Import ListNotations.

(** Calls are listed with the latest first.  The items (infos) are numbered in the order in which they were made. *)
Fixpoint items_made (past : list call) : nat :=
  match past with [] => 0 | NewItem _ :: older => S (items_made older) | _ :: older => items_made older end.
Fixpoint infos_made (past : list call) : nat :=
  match past with [] => 0 | NewInfo :: older => S (infos_made older) | _ :: older => infos_made older end.

(** The program uses only objects that it made before. *)
Definition known (n : nat) (x : option nat) : Prop := match x with Some k => k < n | None => True end.
Fixpoint sound (past : list call) : Prop :=
  match past with
  | [] => True
  | c :: older => sound older /\
    match c with
    | NewItem _ | NewInfo => True
    | SetField i _ _ => i < items_made older
    | SetItems i l => i < items_made older /\ Forall (fun a => a < items_made older) l
    | ItemAdd i a => known (items_made older) i /\ known (items_made older) a
    | SetPackets j l => j < infos_made older /\ Forall (fun a => a < items_made older) l
    | InfoAdd j a => known (infos_made older) j /\ known (items_made older) a
    end
  end.

Definition fld_eqb (f g : fld) : bool :=
  match f, g with FName, FName | FValue, FValue | FDump, FDump | FNote, FNote => true | _, _ => false end.
(** The last of the options for a field; empty without one. *)
Fixpoint option_of (f : fld) (opts : list (fld * bytes)) (before : bytes) : bytes :=
  match opts with [] => before | (g, s) :: r => option_of f r (if fld_eqb f g then s else before) end.
(** A field has the text that was assigned last, otherwise the one from the options of NewItem. *)
Fixpoint field_of (f : fld) (k : nat) (past : list call) : bytes :=
  match past with
  | [] => []
  | NewItem opts :: older => if items_made older =? k then option_of f opts [] else field_of f k older
  | SetField i g s :: older => if (i =? k) && fld_eqb f g then s else field_of f k older
  | _ :: older => field_of f k older
  end.
(** The sub-items of an item: those added to it, in the order of the calls; nil arguments and receivers do nothing. *)
Fixpoint subs_of (k : nat) (past : list call) : list nat :=
  match past with
  | [] => []
  | NewItem _ :: older => if items_made older =? k then [] else subs_of k older
  | SetItems i l :: older => if i =? k then l else subs_of k older
  | ItemAdd (Some i) (Some a) :: older => if i =? k then subs_of k older ++ [a] else subs_of k older
  | _ :: older => subs_of k older
  end.
(** The packets of an info. *)
Fixpoint packets_of (j : nat) (past : list call) : list nat :=
  match past with
  | [] => []
  | NewInfo :: older => if infos_made older =? j then [] else packets_of j older
  | SetPackets i l :: older => if i =? j then l else packets_of j older
  | InfoAdd (Some i) (Some a) :: older => if i =? j then packets_of j older ++ [a] else packets_of j older
  | _ :: older => packets_of j older
  end.

(** [t] is what item [k] looks like now, with all items below it. *)
Inductive looks (past : list call) : nat -> item -> Prop :=
| Looks k ts : Forall2 (looks past) (subs_of k past) ts ->
    looks past k (Item (field_of FName k past) (field_of FValue k past) (field_of FDump k past) (field_of FNote k past) ts).

(** [a] is [k], or below it; an item that is below itself. *)
Inductive below (past : list call) : nat -> nat -> Prop :=
| Sub k a : In a (subs_of k past) -> below past k a
| Further k b a : In b (subs_of k past) -> below past b a -> below past k a.
Definition circular (past : list call) (k : nat) : Prop := exists a, (a = k \/ below past k a) /\ below past a a.

(** The items a call changes. *)
Definition changes (c : call) (k : nat) : Prop :=
  match c with SetField i _ _ | SetItems i _ => i = k | ItemAdd (Some i) (Some _) => i = k | _ => False end.
