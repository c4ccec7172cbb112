(** * SpecBase: small independent readers and writers used to state the properties.

    Nothing here is taken from the model: these definitions say how a reader of the
    output, or a writer of the input, understands octets, numbers and digits. *)
From Coq Require Import Strings.String Strings.Byte List NArith ZArith Bool.
From Verif Require Import Base.
Import ListNotations.
Local Open Scope N_scope.

(** The [w]-octet big-endian encoding of a number. *)
Fixpoint be_enc (w : nat) (n : N) : bytes :=
  match w with
  | O => []
  | S w' => be_enc w' (n / 256) ++ [n2b n]
  end.

(** A decimal digit. *)
Definition digit_val (b : byte) : option N :=
  let n := b2n b in if (48 <=? n) && (n <=? 57) then Some (n - 48) else None.

(** Reading a decimal number, most significant digit first. *)
Fixpoint read_dec_from (acc : N) (l : bytes) : option N :=
  match l with
  | [] => Some acc
  | b :: t => match digit_val b with Some d => read_dec_from (acc * 10 + d) t | None => None end
  end.
Definition read_dec (l : bytes) : option N :=
  match l with [] => None | _ => read_dec_from 0 l end.

(** A lower-case hexadecimal digit. *)
Definition hex_val (b : byte) : option N :=
  let n := b2n b in
  if (48 <=? n) && (n <=? 57) then Some (n - 48)
  else if (97 <=? n) && (n <=? 102) then Some (n - 87)
  else None.

(** Two lower-case hexadecimal digits as an octet. *)
Definition hex_pair (a b : byte) : option byte :=
  match hex_val a, hex_val b with
  | Some x, Some y => Some (n2b (x * 16 + y))
  | _, _ => None
  end.

(** Reading a hex dump "xx xx ... xx": two lower-case digits per octet, single
    blanks between octets, nothing else. *)
Fixpoint read_dump_tail (l : bytes) : option bytes :=
  match l with
  | [] => Some []
  | s :: a :: b :: t =>
    if Byte.eqb s x20 then
      match hex_pair a b, read_dump_tail t with
      | Some x, Some r => Some (x :: r)
      | _, _ => None
      end
    else None
  | _ => None
  end.
Definition read_dump (l : bytes) : option bytes :=
  match l with [] => Some [] | _ => read_dump_tail (x20 :: l) end.

(** Reading a sequence of hex digit pairs without separators. *)
Fixpoint read_hexpairs (l : bytes) : option bytes :=
  match l with
  | [] => Some []
  | a :: b :: t =>
    match hex_pair a b, read_hexpairs t with
    | Some x, Some r => Some (x :: r)
    | _, _ => None
    end
  | _ => None
  end.

(** The length of the longest prefix of decimal digits. *)
Fixpoint span_digits (l : bytes) : bytes * bytes :=
  match l with
  | b :: t => match digit_val b with
              | Some _ => let '(d, r) := span_digits t in (b :: d, r)
              | None => ([], l)
              end
  | [] => ([], [])
  end.

(** The number in the final "(<label> <decimal number>)" of a text. *)
Definition read_id (label : bytes) (text : bytes) : option N :=
  match rev text with
  | x29 :: t =>
    let '(d, r) := span_digits t in
    if has_prefix (rev (str "(" ++ label ++ str " ")) r then read_dec (rev d) else None
  | _ => None
  end.

(** [k] is the smallest number of octets that holds [bits] bits. *)
Definition mpi_octets (bits k : N) : Prop := bits <= 8 * k /\ 8 * k < bits + 8.
(** The input starts with an MPI: two octets of bit length, then as many octets as needed. *)
Definition mpi_front (input : bytes) (bits : N) (data rest : bytes) : Prop :=
  input = be_enc 2 bits ++ data ++ rest /\ bits < 65536 /\ mpi_octets bits (lenN data).
