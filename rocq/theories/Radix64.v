(** * Radix64: golang.org/x/crypto/openpgp/armor (Decode), which parse/parser.go 64 calls.

    /repo depends on x/crypto v0.0.0-20210220033148-5ea612d1eb83 (go.mod); its source is not in
    /repo.  The functions below follow openpgp/armor/armor.go (crc24, lineReader.Read,
    openpgpReader.Read, Decode), bufio.Reader.ReadLine with a buffer of 100 octets,
    bytes.TrimSpace, and encoding/base64 (decodeQuantum, Decode, decoder.Read).
    The field [e_armor] of an environment stands for the same call; [PropRadix64] relates the two. *)
From Coq Require Import Strings.String Strings.Byte List NArith ZArith Bool Arith.
From Verif Require Import Base Utf8 Env Parse.
Import ListNotations.
Local Open Scope N_scope.

(** crc24: the register after one octet.  The Go register is a uint32; it never has more than 24 bits
    between octets, because the polynomial clears bit 24. *)
Definition crc_shift (crc : N) : N :=
  let c := N.shiftl crc 1 in
  if N.testbit c 24 then N.lxor c 0x1864cfb else c.
Definition crc_octet (crc : N) (b : byte) : N :=
  Nat.iter 8 crc_shift (N.lxor crc (N.shiftl (b2n b) 16)).
Definition crc24 (crc : N) (d : bytes) : N := fold_left crc_octet d crc.
Definition crc24_init : N := 0xb704ce.

(** base64.StdEncoding's decodeMap. *)
Definition b64_value (b : byte) : option N :=
  let n := b2n b in
  if inr 65 90 n then Some (n - 65)
  else if inr 97 122 n then Some (n - 71)
  else if inr 48 57 n then Some (n + 4)
  else if n =? 43 then Some 62
  else if n =? 47 then Some 63
  else None.

(** Encoding.decodeQuantum on four characters without line ends: the octets, and whether there is
    padding; [None] is CorruptInputError without octets. *)
Definition quantum (c0 c1 c2 c3 : byte) : option (bytes * bool) :=
  match b64_value c0, b64_value c1 with
  | Some v0, Some v1 =>
    match b64_value c2 with
    | Some v2 =>
      match b64_value c3 with
      | Some v3 => Some ([n2b (v0 * 4 + v1 / 16); n2b (v1 mod 16 * 16 + v2 / 4); n2b (v2 mod 4 * 64 + v3)], false)
      | None => if Byte.eqb c3 x3d then Some ([n2b (v0 * 4 + v1 / 16); n2b (v1 mod 16 * 16 + v2 / 4)], true) else None
      end
    | None => if Byte.eqb c2 x3d && Byte.eqb c3 x3d then Some ([n2b (v0 * 4 + v1 / 16)], true) else None
    end
  | _, _ => None
  end.

(** Encoding.Decode on a buffer whose length is a multiple of four: the octets, and whether there was
    no error.  Characters behind padding are an error, but the octets before count. *)
Fixpoint decode_buf (l : bytes) : bytes * bool :=
  match l with
  | [] => ([], true)
  | c0 :: c1 :: c2 :: c3 :: t =>
    match quantum c0 c1 c2 c3 with
    | None => ([], false)
    | Some (d, true) => (d, is_nil t)
    | Some (d, false) => let '(r, ok) := decode_buf t in (d ++ r, ok)
    end
  | _ => ([], false)
  end.

(** bufio.Reader.ReadLine, buffer size 100, over the rest of the text: the line, isPrefix, and what is
    left; [None] is io.EOF. *)
Fixpoint find_lf (n : nat) (l : bytes) : option (bytes * bytes) :=
  match n, l with
  | S n', b :: t =>
    if Byte.eqb b x0a then Some ([], t)
    else match find_lf n' t with Some (a, r) => Some (b :: a, r) | None => None end
  | _, _ => None
  end.
Definition read_line (l : bytes) : option (bytes * bool * bytes) :=
  match l with
  | [] => None
  | _ =>
    match find_lf 100 l with
    | Some (line, rest) => Some (drop_cr (rev line), false, rest)
    | None =>
      if (100 <=? length l)%nat then
        match nth_error l 99 with
        | Some x0d => Some (firstn 99 l, true, skipn 99 l)
        | _ => Some (firstn 100 l, true, skipn 100 l)
        end
      else Some (l, false, [])
    end
  end.

(** unicode.IsSpace *)
Definition is_space (r : N) : bool :=
  inr 9 13 r || (r =? 32) || (r =? 0x85) || (r =? 0xa0) || (r =? 0x1680) || inr 0x2000 0x200a r
  || (r =? 0x2028) || (r =? 0x2029) || (r =? 0x202f) || (r =? 0x205f) || (r =? 0x3000).

(** The number of octets that the first rune of a non-empty string takes (1 for an invalid one), and
    whether it is a space; as in [scan]. *)
Definition first_rune (s : bytes) : nat * bool :=
  match s with
  | [] => (O, false)
  | b0 :: t0 =>
    let n0 := b2n b0 in
    if n0 <? 0x80 then (1%nat, is_space n0) else
    match t0 with
    | [] => (1%nat, false)
    | b1 :: t1 =>
      match decode2 n0 (b2n b1) with
      | Some r => (2%nat, is_space r)
      | None =>
        match t1 with
        | [] => (1%nat, false)
        | b2 :: _ =>
          match decode3 n0 (b2n b1) (b2n b2) with
          | Some r => (3%nat, is_space r)
          | None => (1%nat, false)      (* no space takes four octets *)
          end
        end
      end
    end
  end.

(** bytes.TrimSpace.  [trim_left] drops leading spaces; [trim_right] cuts behind the last rune that is
    no space.  (DecodeLastRune, which Go uses from the right, finds the same runes as decoding from the
    left does: no encoding of a rune ends with another one.) *)
Fixpoint trim_left (fuel : nat) (s : bytes) : bytes :=
  match fuel with
  | O => s
  | S f => let '(w, sp) := first_rune s in if sp then trim_left f (skipn w s) else s
  end.
Fixpoint trim_right (fuel : nat) (s : bytes) : bytes :=
  match fuel with
  | O => []
  | S f =>
    match s with
    | [] => []
    | _ =>
      let '(w, sp) := first_rune s in
      let r := trim_right f (skipn w s) in
      if sp && is_nil r then [] else firstn w s ++ r
    end
  end.
Definition trim_space (s : bytes) : bytes :=
  let t := trim_left (length s) s in trim_right (length t) t.

(** bytes.Index(line, ": ") is not -1. *)
Fixpoint has_colon (s : bytes) : bool :=
  match s with
  | [] => false
  | _ :: t => has_prefix (str ": ") s || has_colon t
  end.

(** Decode up to the blank line: skipping lines until a block begins, then its headers; a header line
    without a colon and a blank starts over (goto TryNextBlock).  [ASkip] holds ignoreNext, [AHead]
    nextIsContinuation.  [None] is io.EOF; otherwise what follows the blank line.  Each line takes at
    least one octet, so the length of the text is enough fuel. *)
Inductive amode := ASkip (ignore : bool) | AHead (continued : bool).
Fixpoint armor_head (fuel : nat) (m : amode) (l : bytes) : option bytes :=
  match fuel with
  | O => None
  | S f =>
    match read_line l with
    | None => None
    | Some (line, prefix, rest) =>
      match m with
      | ASkip ignore =>
        if prefix || ignore then armor_head f (ASkip prefix) rest
        else
          let t := trim_space line in
          if (16 <? lenN t) && has_prefix (str "-----BEGIN ") t then armor_head f (AHead false) rest
          else armor_head f (ASkip false) rest
      | AHead continued =>
        if continued then armor_head f (AHead prefix) rest
        else
          let t := trim_space line in
          if is_nil t then Some rest
          else if has_colon t then armor_head f (AHead prefix) rest
          else armor_head f (ASkip false) rest
      end
    end
  end.

(** The checksum line: 5 octets, the first is =.  The other four are decoded (line ends are skipped): three
    octets are the checksum, an error is an error, and anything else is taken for an empty read. *)
Inductive crc_line := CNone | CBad | CSkip | CValue (n : N).
Definition not_newline (b : byte) : bool := negb (Byte.eqb b x0a || Byte.eqb b x0d).
Definition read_crc (line : bytes) : crc_line :=
  match line with
  | x3d :: ((_ :: _ :: _ :: _ :: []) as four) =>
    match filter not_newline four with
    | [] => CSkip
    | [c0; c1; c2; c3] =>
      match quantum c0 c1 c2 c3 with
      | Some ([a; b; c], _) => CValue (b2n a * 65536 + b2n b * 256 + b2n c)
      | Some _ => CSkip
      | None => CBad
      end
    | _ => CBad
    end
  | _ => CNone
  end.

(** lineReader.Read, over the whole text: the characters it delivers, and how it ends: at an end line, with the
    checksum if there was one; or with an error. *)
Inductive line_end := LEof (crc : option N) | LBad.
Definition armor_end : bytes := str "-----END ".
Fixpoint armor_lines (fuel : nat) (l : bytes) : bytes * line_end :=
  match fuel with
  | O => ([], LBad)
  | S f =>
    match read_line l with
    | None => ([], LEof None)
    | Some (line, prefix, rest) =>
      if prefix then ([], LBad)
      else if has_prefix armor_end line then ([], LEof None)
      else match read_crc line with
           | CBad => ([], LBad)
           | CSkip => armor_lines f rest
           | CValue v =>
             match read_line rest with
             | Some (line2, _, _) => ([], if has_prefix armor_end line2 then LEof (Some v) else LBad)
             | None => ([], LBad)
             end
           | CNone =>
             if 96 <? lenN line then ([], LBad)
             else let '(c, e) := armor_lines f rest in (line ++ c, e)
           end
    end
  end.

(** base64's decoder.Read until its end: the octets, and whether it ended with io.EOF.  How many characters
    are decoded together depends on the sizes of the caller's buffers; [cuts] gives the numbers of groups of
    four. *)
Fixpoint b64_body (fuel : nat) (cuts : list nat) (chars : bytes) (eof : bool) : bytes * bool :=
  match fuel with
  | O => ([], false)
  | S f =>
    if (length chars <? 4)%nat then ([], eof && is_nil chars)     (* a rest is io.ErrUnexpectedEOF *)
    else
      let k := Nat.min (Nat.max 1 (hd 1%nat cuts)) (length chars / 4) in
      let '(d, ok) := decode_buf (firstn (4 * k) chars) in
      if ok then let '(r, e) := b64_body f (tl cuts) (skipn (4 * k) chars) eof in (d ++ r, e)
      else (d, false)
  end.

(** Decode and reading its Body to the end: [None] is an error of Decode; otherwise the octets, and whether the
    body ended with io.EOF.  openpgpReader.Read compares the checksum, if there is one, at the end. *)
Definition armor_decode (cuts : list nat) (txt : bytes) : option (bytes * bool) :=
  match armor_head (S (length txt)) (ASkip false) txt with
  | None => None
  | Some rest =>
    let '(chars, e) := armor_lines (S (length rest)) rest in
    let chars := filter not_newline chars in
    let '(d, ok) := b64_body (S (length chars)) cuts chars (match e with LEof _ => true | LBad => false end) in
    Some (d, ok && match e with
                   | LEof (Some v) => v =? crc24 crc24_init d
                   | _ => true
                   end)
  end.
