(** * SpecArmor: lines of a text, and an armored block in it (C42, C43). *)
From Coq Require Import Strings.String Strings.Byte List NArith ZArith Bool.
From Verif Require Import Base SpecText.
Import ListNotations.

(** The pieces between line feeds, without an empty last one. *)
Fixpoint drop_last_empty (l : list bytes) : list bytes :=
  match l with
  | [] => []
  | [x] => match x with [] => [] | _ => [x] end
  | x :: t => x :: drop_last_empty t
  end.
(** One carriage return at the end of a line belongs to the line end. *)
Definition strip_cr (l : bytes) : bytes :=
  match rev l with
  | x0d :: t => rev t
  | _ => l
  end.
Definition lines_of (data : bytes) : list bytes := map strip_cr (drop_last_empty (split_lines data)).

(** Every line is shorter than 64 KiB. *)
Definition short_lines (data : bytes) : Prop := Forall (fun p => lenN p < 65536)%N (split_lines data).

Definition starts_with (p s : bytes) : Prop := exists t, s = p ++ t.
Definition begin_line (s : bytes) : Prop :=
  starts_with (str "-----BEGIN PGP") s /\ ~ starts_with (str "-----BEGIN PGP SIGNED") s.
Definition end_line (s : bytes) : Prop := starts_with (str "-----END PGP") s.

(** [block] is the first block in these lines: from the first begin line through the first end line after it. *)
Definition first_block (lines block : list bytes) : Prop :=
  exists pre b mid e post,
    lines = pre ++ b :: mid ++ e :: post /\ block = b :: mid ++ [e]
    /\ Forall (fun s => ~ begin_line s) pre /\ begin_line b
    /\ Forall (fun s => ~ end_line s) mid /\ end_line e.

(** Lines with line feeds. *)
Definition unlines (l : list bytes) : bytes := flat_map (fun s => s ++ [x0a]) l.
