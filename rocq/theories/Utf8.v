(** * Utf8: the parts of Go's unicode/utf8, unicode and strings packages the code relies on. *)
From Coq Require Import Strings.String Strings.Byte List NArith Bool.
From Verif Require Import Base.
Import ListNotations.
Local Open Scope N_scope.

Definition inr (lo hi n : N) : bool := (lo <=? n) && (n <=? hi).

(** One decoding step on a non-empty string: the rune and the number of bytes it
    takes, or [None] for an invalid encoding.  Follows the [first]/[acceptRanges]
    tables of Go's unicode/utf8 (used through utf8.Valid, literal.go 76, range over
    string, literal.go 84, and encoding/json). *)
Definition decode2 (n0 n1 : N) : option N :=
  if inr 0xC2 0xDF n0 && inr 0x80 0xBF n1
  then Some ((n0 - 0xC0) * 64 + (n1 - 0x80)) else None.

Definition decode3 (n0 n1 n2 : N) : option N :=
  let lo := if n0 =? 0xE0 then 0xA0 else 0x80 in
  let hi := if n0 =? 0xED then 0x9F else 0xBF in
  if inr 0xE0 0xEF n0 && inr lo hi n1 && inr 0x80 0xBF n2
  then Some ((n0 - 0xE0) * 4096 + (n1 - 0x80) * 64 + (n2 - 0x80)) else None.

Definition decode4 (n0 n1 n2 n3 : N) : option N :=
  let lo := if n0 =? 0xF0 then 0x90 else 0x80 in
  let hi := if n0 =? 0xF4 then 0x8F else 0xBF in
  if inr 0xF0 0xF4 n0 && inr lo hi n1 && inr 0x80 0xBF n2 && inr 0x80 0xBF n3
  then Some ((n0 - 0xF0) * 262144 + (n1 - 0x80) * 4096 + (n2 - 0x80) * 64 + (n3 - 0x80))
  else None.

(** The runes of a string as Go's "for _, r := range s" delivers them; [None]
    stands for one invalid byte (RuneError of width 1). *)
Fixpoint scan (s : bytes) : list (option N) :=
  match s with
  | [] => []
  | b0 :: t0 =>
    let n0 := b2n b0 in
    if n0 <? 0x80 then Some n0 :: scan t0 else
    match t0 with
    | [] => None :: scan t0
    | b1 :: t1 =>
      match decode2 n0 (b2n b1) with
      | Some r => Some r :: scan t1
      | None =>
        match t1 with
        | [] => None :: scan t0
        | b2 :: t2 =>
          match decode3 n0 (b2n b1) (b2n b2) with
          | Some r => Some r :: scan t2
          | None =>
            match t2 with
            | [] => None :: scan t0
            | b3 :: t3 =>
              match decode4 n0 (b2n b1) (b2n b2) (b2n b3) with
              | Some r => Some r :: scan t3
              | None => None :: scan t0
              end
            end
          end
        end
      end
    end
  end.

(** utf8.Valid *)
Definition utf8_valid (s : bytes) : bool :=
  forallb (fun o => match o with Some _ => true | None => false end) (scan s).

(** utf8.EncodeRune / string([]rune) for a rune that is a Unicode scalar value. *)
Definition enc_rune (r : N) : bytes :=
  if r <? 0x80 then [n2b r]
  else if r <? 0x800 then [n2b (0xC0 + r / 64); n2b (0x80 + r mod 64)]
  else if r <? 0x10000 then
    [n2b (0xE0 + r / 4096); n2b (0x80 + (r / 64) mod 64); n2b (0x80 + r mod 64)]
  else [n2b (0xF0 + r / 262144); n2b (0x80 + (r / 4096) mod 64);
        n2b (0x80 + (r / 64) mod 64); n2b (0x80 + r mod 64)].

(** unicode.IsControl: category Cc, i.e. U+0000..U+001F and U+007F..U+009F. *)
Definition is_control (r : N) : bool := (r <? 0x20) || inr 0x7f 0x9f r.

(** fmt "%U" for a rune below U+10000: "U+" and four upper-case hex digits. *)
Definition fmtU (r : N) : bytes := str "U+" ++ hexw HEXdig 4 r.

(** unicode.ToLower restricted to what can turn into ASCII: the letters A-Z, and
    the two non-ASCII runes whose lower case is ASCII (U+0130 to "i", U+212A KELVIN SIGN to
    "k").  Every other non-ASCII rune maps to a non-ASCII rune, which the model
    leaves unchanged; callers only compare the result with ASCII strings. *)
Definition lower_rune (r : N) : N :=
  if inr 65 90 r then r + 32
  else if r =? 0x130 then 0x69
  else if r =? 0x212A then 0x6B
  else r.

(** strings.ToLower for comparison with ASCII strings (see [lower_rune]). Invalid
    bytes become U+FFFD in Go. *)
Definition to_lower (s : bytes) : bytes :=
  flat_map (fun o => match o with
                     | Some r => enc_rune (lower_rune r)
                     | None => enc_rune 0xFFFD
                     end) (scan s).
