(** * SpecParse: comparing the results of two runs (C03, C04, C05, C07, C13, C14). *)
From Coq Require Import Strings.String Strings.Byte List NArith ZArith Bool.
From Verif Require Import Base Item Context Env Opaque Parse SpecBase SpecNest SpecText SpecTime.
Import ListNotations.

(** A byte string a program can hold: less than 2^62 octets. *)
Definition sized (d : bytes) : Prop := (lenZ d < 2 ^ 62)%Z.
(** The input can be held, and so can what the armor decoder makes of a text in it (the last line may get a line feed). *)
Definition fits (E : env) (src : stream) : Prop :=
  sized (st_data src) /\
  forall txt pieces ok, (length txt <= S (length (st_data src)))%nat -> e_armor E txt = Some (pieces, ok) -> sized (concat pieces).

(** The packets met when parsing an input: those delivered by its reader, those in compressed packets, those nested in them. *)
Definition stream_met (o : opts) (E : env) (src : stream) (t : N) (b : bytes) : Prop :=
  exists c, parse_new o E src = ROk c /\ packet_met E c t b.

(** Trees of the same shape with the same names, whose values, dumps and notes are related by V, D and T. *)
Inductive alike (V D T : bytes -> bytes -> Prop) : item -> item -> Prop :=
  alike_item n v v' d d' t t' l l' :
    V v v' -> D d d' -> T t t' -> Forall2 (alike V D T) l l' ->
    alike V D T (Item n v d t l) (Item n v' d' t' l').

(** Anything. *)
Definition any {A : Type} (_ _ : A) : Prop := True.
(** Dumps that are equal when both are there; a dump that may be missing on the left. *)
Definition dumps_agree (d d' : bytes) : Prop := d = [] \/ d' = [] \/ d = d'.
Definition dump_added (d d' : bytes) : Prop := d = [] \/ d = d'.

(** The same text, or two RFC 3339 texts for the same instant in 0..2^32-1. *)
Definition same_instant (x y : bytes) : Prop :=
  exists t, (0 <= t < 2 ^ 32)%Z /\ read_rfc3339 x = Some t /\ read_rfc3339 y = Some t.
Definition same_or_instant (x y : bytes) : Prop := x = y \/ same_instant x y.

(** Time zones whose offsets are whole minutes, less than a day. *)
Definition minute_zone (tz : N -> Z) : Prop :=
  forall t, (t < 2 ^ 32)%N -> real_offset (tz t) /\ Z.rem (tz t) 60 = 0%Z.

(** The environments differ at most in the time zone. *)
Definition same_but_zone (E E' : env) : Prop :=
  e_grow E = e_grow E' /\ e_inflate E = e_inflate E' /\ e_armor E = e_armor E'.

(** The dump options: every code but ARMOR and UTC. *)
Definition same_armor_utc (o1 o2 : opts) : Prop := o_get ARMOR o1 = o_get ARMOR o2 /\ o_get UTC o1 = o_get UTC o2.

(** Creation times kept in the context have at most 4 octets. *)
Definition four_octet_dates (cs : cst) : Prop :=
  forall d, c_sig cs = Some d \/ c_key cs = Some d -> (length (dt_tm d) <= 4)%nat.

(** The names, values, dumps and notes of a tree satisfy N, V, D and T. *)
Inductive fields (N V D T : bytes -> Prop) : item -> Prop :=
  fields_item n v d t l : N n -> V v -> D d -> T t -> Forall (fields N V D T) l -> fields N V D T (Item n v d t l).
