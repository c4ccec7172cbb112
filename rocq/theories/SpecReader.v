(** * SpecReader: what the byte cursor is supposed to do (C38, C39, C40). *)
From Coq Require Import Strings.Byte List NArith ZArith Bool.
From Verif Require Import Base Reader.
Import ListNotations.
Local Open Scope Z_scope.

(** The range of Go's int64. *)
Definition int64 (z : Z) : Prop := - 2 ^ 63 <= z < 2 ^ 63.

(** A cursor inside its buffer.  A Go slice has at most 2^63-1 elements. *)
Definition in_buffer (r : reader) : Prop :=
  0 <= r_off r <= lenZ (r_buf r) /\ lenZ (r_buf r) < 2 ^ 63.

(** What remains to be read. *)
Definition remaining (r : reader) : bytes := skipn (Z.to_nat (r_off r)) (r_buf r).

(** Reading n octets: all of them, or an error and no movement. *)
Inductive read_spec (n : Z) (r : reader) : res bytes -> reader -> Prop :=
| read_done data rest :
    remaining r = data ++ rest -> lenZ data = n ->
    read_spec n r (ROk data) (mkReader (r_buf r) (r_off r + n))
| read_eof :
    0 < n -> remaining r = [] -> read_spec n r (RErr EEof) r
| read_short :
    0 < lenZ (remaining r) < n -> read_spec n r (RErr EUnexp) r.

(** The reading calls of the API. *)
Inductive read_call := CallReadByte | CallReadBytes (n : Z) | CallRead (n : Z).
Definition call_len (c : read_call) : Z :=
  match c with CallReadByte => 1 | CallReadBytes n => n | CallRead n => n end.
Definition do_read (c : read_call) (r : reader) : res bytes * reader :=
  match c with
  | CallReadByte => match r_readbyte r with
                    | (ROk b, r') => (ROk [b], r')
                    | (RErr e, r') => (RErr e, r')
                    | (RPanic, r') => (RPanic, r')
                    | (RFuel, r') => (RFuel, r')
                    end
  | CallReadBytes n => r_readbytes n r
  | CallRead n => r_read n r
  end.
(** What a sequence of calls delivers, one after the other; failed calls deliver nothing. *)
Fixpoint delivered (cs : list read_call) (r : reader) : bytes * reader :=
  match cs with
  | [] => ([], r)
  | c :: t =>
    let '(x, r1) := do_read c r in
    let '(ds, r2) := delivered t r1 in
    ((match x with ROk d => d | _ => [] end) ++ ds, r2)
  end.

(** Seek: where it should go, without overflow. *)
Definition seek_target (off whence : Z) (r : reader) : option Z :=
  match whence with
  | 0 => Some off
  | 1 => Some (r_off r + off)
  | 2 => Some (lenZ (r_buf r) + off)
  | _ => None
  end.

(** All operations of the cursor. *)
Inductive op :=
| OpRead (c : read_call)
| OpReadAt (n off : Z)
| OpSeek (off whence : Z)
| OpWriteTo (writer_ok : bool)
| OpRead2EOF
| OpDump (off : Z).

(** Arguments a Go caller can pass: lengths are not negative (and below 2^62: no memory
    is larger), offsets are int64; DumpString is called with an offset that is not negative. *)
Definition op_ok (o : op) : Prop :=
  match o with
  | OpRead c => 0 <= call_len c < 2 ^ 62
  | OpReadAt n off => 0 <= n < 2 ^ 62 /\ int64 off
  | OpSeek off whence => int64 off /\ int64 whence
  | OpWriteTo _ => True
  | OpRead2EOF => True
  | OpDump off => 0 <= off < 2 ^ 63
  end.

(** One operation: whether it panics, and the cursor afterwards. *)
Definition is_panic {A} (x : res A) : bool := match x with RPanic => true | _ => false end.
Definition step (o : op) (r : reader) : bool * reader :=
  match o with
  | OpRead c => let '(x, r') := do_read c r in (is_panic x, r')
  | OpReadAt n off => let '(x, r') := r_readat n off r in (is_panic x, r')
  | OpSeek off whence => let '(x, r') := r_seek off whence r in (is_panic x, r')
  | OpWriteTo w => let '(x, r') := r_writeto w r in (is_panic x, r')
  | OpRead2EOF => let '(x, r') := r_read2eof r in (is_panic x, r')
  | OpDump off => (is_panic (r_dumpstring off r), r)
  end.
(** A history: did any operation panic, and the final cursor. *)
Fixpoint run_ops (l : list op) (r : reader) : bool * reader :=
  match l with
  | [] => (false, r)
  | o :: t => let '(p, r1) := step o r in let '(q, r2) := run_ops t r1 in (p || q, r2)
  end.

(** No Read2EOF moves the cursor past the end: each is made at the start or at the end
    of the buffer (or behind it). *)
Fixpoint eof_from_start (l : list op) (r : reader) : Prop :=
  match l with
  | [] => True
  | o :: t =>
    (o = OpRead2EOF -> r_off r = 0 \/ lenZ (r_buf r) <= r_off r) /\
    eof_from_start t (snd (step o r))
  end.
