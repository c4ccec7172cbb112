(** * Witness: a concrete environment and option settings for the examples beside the theorems. *)
From Coq Require Import List NArith ZArith.
From Verif Require Import Base Context Env.
Import ListNotations.

(** Slices double when they grow, decompressors fail, local time is nine hours ahead, armor decoding fails. *)
Definition env0 : env :=
  mkEnv (fun c => 2 * c)%N (fun _ _ => DHeaderErr) (fun _ => 32400%Z) (fun _ => None).
(** No option; all dumps. *)
Definition o_plain : opts := o_new [].
Definition o_debug : opts := o_new [(DEBUG, true); (UTC, true)].
