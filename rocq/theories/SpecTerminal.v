(** * SpecTerminal: the control characters of a text (C76). *)
From Coq Require Import Strings.String Strings.Byte List NArith Bool.
From Verif Require Import Base SpecBase SpecText.
Import ListNotations.
Local Open Scope N_scope.

(** UTF-8 text, all control characters of which (C0, DEL and C1) satisfy P. *)
Definition controls_are (P : N -> Prop) (t : bytes) : Prop :=
  exists cs, Forall (fun c => scalar c /\ (control c -> P c)) cs /\ t = utf8s cs.
