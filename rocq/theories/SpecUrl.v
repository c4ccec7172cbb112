(** * SpecUrl: how a path is read. *)
From Coq Require Import Strings.String Strings.Byte List NArith ZArith Bool.
From Verif Require Import Base SpecBase SpecHkp.
Import ListNotations.
Local Open Scope N_scope.

(** Percent decoding (RFC 3986, 2.1): %XX is an octet, the rest is itself. *)
Fixpoint percent_decode (l : bytes) : option bytes :=
  match l with
  | [] => Some []
  | b :: t =>
    if Byte.eqb b x25 then
      match t with
      | h :: k :: t' =>
        match any_hex h, any_hex k, percent_decode t' with
        | Some x, Some y, Some r => Some (n2b (x * 16 + y) :: r)
        | _, _, _ => None
        end
      | _ => None
      end
    else match percent_decode t with Some r => Some (b :: r) | None => None end
  end.

(** The decoded segments of a path. *)
Definition segments (path : bytes) : option (list bytes) := all_some (map percent_decode (split x2f path)).

(** The values a list of parameters has for a name. *)
Definition values_of (name : bytes) (l : list (bytes * bytes)) : list bytes :=
  map snd (filter (fun p => beqs name (fst p)) l).

(** What precedes the first [c], and what follows it. *)
Definition before (c : byte) (l : bytes) : bytes := match cut c l with Some (a, _) => a | None => l end.
Definition after (c : byte) (l : bytes) : bytes := match cut c l with Some (_, b) => b | None => [] end.

(** Control characters of ASCII. *)
Definition control (b : byte) : Prop := b2n b < 32 \/ b2n b = 127.

(** A name without control characters and without any of the characters / ? # %. *)
Definition name_char (b : byte) : Prop := ~ control b /\ ~ In b [x2f; x3f; x23; x25].

(** The text after the host can be read as the rest of a URL. *)
Definition readable (rest : bytes) : Prop :=
  (forall b, In b (before x23 rest) -> ~ control b) /\
  percent_decode (before x3f (before x23 rest)) <> None /\
  percent_decode (after x23 rest) <> None.
