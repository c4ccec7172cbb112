(** * Env: behaviour that is outside the modelled code, as a record of functions.

    No assumption is made about the fields; theorems that need one state it. *)
From Coq Require Import List NArith ZArith.
From Verif Require Import Base.

(** What a decompressor does with its input: fail before producing anything
    (zlib.NewReader's header check), or deliver bytes and then end, cleanly
    ([ok] = true, io.EOF) or with an error. *)
Inductive dres : Type :=
| DHeaderErr
| DStream (out : bytes) (ok : bool).

(** An io.Reader that delivers [st_data] and then io.EOF ([st_ok]) or an error. *)
Record stream := mkStream { st_data : bytes; st_ok : bool }.

Record env := mkEnv {
  (** capacity that append gives a full slice of capacity c in io.ReadAll *)
  e_grow : N -> N;
  (** compress/flate (1), compress/zlib (2), compress/bzip2 (3), Tag08.go 77-106 *)
  e_inflate : N -> bytes -> dres;
  (** offset in seconds east of UTC of time.Local at a Unix time, datetime.go 63 *)
  e_tz : N -> Z;
  (** openpgp/armor.Decode on an extracted armor block, parser.go 64-68: [None] is an
      error; otherwise the pieces in which the body is delivered, and whether it ends
      with io.EOF or with another error (bad checksum, bad base64) *)
  e_armor : bytes -> option (list bytes * bool)
}.
