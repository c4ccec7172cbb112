(** * SpecSession: which calls concern a parser and its context (C60). *)
From Coq Require Import List NArith ZArith Bool Arith.
From Verif Require Import Context Env Session.
Import ListNotations.

(** The calls on the context [x] or the parser [p]. *)
Definition about (p x : nat) (c : call) : bool :=
  match c with
  | NewContext y _ | SetOption y _ _ => y =? x
  | NewParser q _ _ | CallParse q => q =? p
  end.

(** The parser [p] is made with the context [x], and no other parser is. *)
Definition only_user (p x : nat) (calls : list call) : Prop :=
  forall q y src, In (NewParser q y src) calls -> (q = p <-> y = x).

(** The options of the context [x] are set one after the other. *)
Definition sets (x : nat) (l : list (Z * bool)) : list call := map (fun cf => SetOption x (fst cf) (snd cf)) l.
