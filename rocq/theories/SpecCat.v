(** * SpecCat: octets that are read as they are (C75). *)
From Coq Require Import Strings.String Strings.Byte List NArith ZArith Bool.
From Verif Require Import Base Context Env Parse SpecBase SpecArmor.
Import ListNotations.

(** Octets that are taken for packets as they are: armored text is not insisted on, there is no armored block in them that could be decoded, and there are less
    than 64 KiB from one line feed to the next (C43). *)
Definition as_they_are (o : opts) (E : env) (octets : bytes) : Prop :=
  oArmor o = false /\ short_lines octets /\ forall block, first_block (lines_of octets) block -> e_armor E (unlines block) = None.

(** The packets that may show something of the packets before them: signatures, compressed data, encrypted data. *)
Definition looks_back (tag : N) : Prop := In tag [2; 8; 9; 18]%N.
