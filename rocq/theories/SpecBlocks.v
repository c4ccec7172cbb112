(** * SpecBlocks: line ends of two octets (C80). *)
From Coq Require Import Strings.Byte List.
From Verif Require Import Base.
Import ListNotations.

(** The text with a carriage return before each line feed. *)
Definition crlf (text : bytes) : bytes := flat_map (fun b => if Byte.eqb b x0a then [x0d; x0a] else [b]) text.
