(** * Base: byte strings, Go integer arithmetic and the fmt/strconv verbs the code uses.

    Go strings and []byte are both modelled as [list byte] ([bytes]).  Go's
    [int64]/[uint32]/[byte] values are modelled by [Z]/[N] with the wrap-around
    written explicitly wherever the Go expression can overflow. *)
From Coq Require Import List NArith ZArith Bool Lia Strings.String Strings.Byte Decimal DecimalString DecimalN.
Import ListNotations.
Local Open Scope N_scope.

Notation byte := Byte.byte.
Definition bytes := list byte.

(** String literals, as Go byte strings (ASCII in this code base). *)
Definition str (x : string) : bytes := list_byte_of_string x.
Arguments str _%string.

(** byte -> number, number -> byte (Go conversion byte(n): keeps the low 8 bits). *)
Definition b2n (b : byte) : N := Byte.to_N b.
Definition n2b (n : N) : byte :=
  match Byte.of_N (n mod 256) with Some b => b | None => x00 end.

(** Length as a number. *)
Definition lenN {A} (l : list A) : N := N.of_nat (List.length l).
Definition lenZ {A} (l : list A) : Z := Z.of_nat (List.length l).

(** encoding/binary.BigEndian.Uint16/Uint32/Uint64 on a slice of exactly that many bytes. *)
Definition be (l : bytes) : N := fold_left (fun a b => a * 256 + b2n b) l 0.

(** Go int64 and uint32 wrap-around. *)
Definition wrap64 (z : Z) : Z := ((z + 2 ^ 63) mod 2 ^ 64 - 2 ^ 63)%Z.
Definition wrap32 (n : N) : N := n mod 2 ^ 32.

(** %d / strconv.Itoa for non-negative and for signed numbers. *)
Definition dec (n : N) : bytes := str (NilZero.string_of_uint (N.to_uint n)).
Definition decZ (z : Z) : bytes :=
  match z with
  | Zneg p => str "-" ++ dec (Npos p)
  | _ => dec (Z.to_N z)
  end.

(** One hexadecimal digit. *)
Definition hexdig (n : N) : byte :=
  nth (N.to_nat n) (str "0123456789abcdef") x00.
Definition HEXdig (n : N) : byte :=
  nth (N.to_nat n) (str "0123456789ABCDEF") x00.

(** [w] hexadecimal digits of n, most significant first.  Go's %02x on a byte,
    the digits of %#02x on a byte and of %#016x on a uint64 and those of %U on a
    control character all have exactly their minimum number of digits, so a fixed
    width is exact for every use in this code base. *)
Fixpoint hexw (dig : N -> byte) (w : nat) (n : N) : bytes :=
  match w with
  | O => []
  | S w' => hexw dig w' (n / 16) ++ [dig (n mod 16)]
  end.

(** fmt "%02x" on a byte. *)
Definition hex2 (b : byte) : bytes := hexw hexdig 2 (b2n b).
(** fmt "%#02x" on a byte: Go counts the zero-padded width in digits, then adds 0x. *)
Definition hex0x2 (b : byte) : bytes := str "0x" ++ hex2 b.
(** fmt "%#016x" on a uint64. *)
Definition hex0x16 (n : N) : bytes := str "0x" ++ hexw hexdig 16 n.

(** fmt "%02d"/"%04d" for numbers of at most that many digits. *)
Fixpoint decw (w : nat) (n : N) : bytes :=
  match w with
  | O => []
  | S w' => decw w' (n / 10) ++ [n2b (48 + n mod 10)]
  end.

(** bytes.Equal / string equality. *)
Fixpoint beqs (a b : bytes) : bool :=
  match a, b with
  | [], [] => true
  | x :: a', y :: b' => Byte.eqb x y && beqs a' b'
  | _, _ => false
  end.

(** strings.HasPrefix *)
Fixpoint has_prefix (p s : bytes) : bool :=
  match p, s with
  | [], _ => true
  | x :: p', y :: s' => Byte.eqb x y && has_prefix p' s'
  | _ :: _, [] => false
  end.

(** "yes" when the byte string is empty. *)
Definition is_nil {A} (l : list A) : bool := match l with [] => true | _ => false end.

(** strings.Join(l, sep). *)
Fixpoint join (sep : bytes) (l : list bytes) : bytes :=
  match l with
  | [] => []
  | [x] => x
  | x :: t => x ++ sep ++ join sep t
  end.

(** strings.Repeat(s, n). *)
Fixpoint repeat_bytes (s : bytes) (n : nat) : bytes :=
  match n with O => [] | S n' => s ++ repeat_bytes s n' end.

(** Bit tests on a byte. *)
Definition bland (b : byte) (m : N) : N := N.land (b2n b) m.

(** Outcome of a Go call: normal, error, run-time panic, or (model artefact,
    proved unreachable) exhausted recursion fuel. *)
Inductive err : Type :=
| EEof            (* errs.Is(err, io.EOF) *)
| EUnexp          (* io.ErrUnexpectedEOF *)
| EStruct         (* openpgp/errors.StructuralError *)
| EIO             (* error reported by the underlying reader *)
| EWhence         (* ecode.ErrInvalidWhence *)
| EOffset         (* ecode.ErrInvalidOffset *)
| ENull           (* ecode.ErrNullPointer *)
| ETooLarge       (* ecode.ErrTooLarge *)
| EDecomp         (* a decompressor's own error *)
| EArmorText      (* ecode.ErrArmorText *)
| ETooLong        (* bufio.ErrTooLong *)
| EArmorDecode    (* error of openpgp/armor.Decode *)
| EClipboard      (* ecode.ErrClipboard *)
| EUserID | ENoKey | EInvalidKey | EHTTP | EJSON | EFile.

Inductive res (A : Type) : Type :=
| ROk (a : A)
| RErr (e : err)
| RPanic
| RFuel.
Arguments ROk {A} a.
Arguments RErr {A} e.
Arguments RPanic {A}.
Arguments RFuel {A}.
