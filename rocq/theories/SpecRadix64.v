(** * SpecRadix64: ASCII armor as RFC 4880, section 6, defines it (C52, C53). *)
From Coq Require Import Strings.String Strings.Byte List NArith ZArith Bool.
From Verif Require Import Base Env SpecBase SpecArmor.
Import ListNotations.
Local Open Scope N_scope.

(** 6.3: every three octets are written as four characters that stand for six bits each. *)
Definition alphabet : bytes := str "ABCDEFGHIJKLMNOPQRSTUVWXYZabcdefghijklmnopqrstuvwxyz0123456789+/".
Definition sextet (n : N) : byte := nth (N.to_nat (n mod 64)) alphabet x00.
Fixpoint base64 (l : bytes) : bytes :=
  match l with
  | a :: b :: c :: t =>
    let n := b2n a * 65536 + b2n b * 256 + b2n c in
    sextet (n / 262144) :: sextet (n / 4096) :: sextet (n / 64) :: sextet n :: base64 t
  | [a; b] =>
    let n := b2n a * 65536 + b2n b * 256 in [sextet (n / 262144); sextet (n / 4096); sextet (n / 64); x3d]
  | [a] => let n := b2n a * 65536 in [sextet (n / 262144); sextet (n / 4096); x3d; x3d]
  | [] => []
  end.

(** 6.1: the checksum, as a register of 24 bits that takes in the bits of the data one after the other, most significant bit of
    every octet first; generator 0x864CFB, initial value 0xB704CE. *)
Definition crc_bit (r : N) (bit : bool) : N :=
  let r' := (2 * r) mod 2 ^ 24 in
  if xorb (N.testbit r 23) bit then N.lxor r' 0x864CFB else r'.
Definition octet_bits (b : byte) : list bool := map (fun i => N.testbit (b2n b) i) [7; 6; 5; 4; 3; 2; 1; 0].
Definition checksum (d : bytes) : N := fold_left crc_bit (flat_map octet_bits d) 0xB704CE.

(** 6.2: the parts of an armored text. *)
Definition visible (b : byte) : Prop := 33 <= b2n b <= 126.
Definition begin_armor (l : bytes) : Prop :=
  exists ty, l = str "-----BEGIN PGP " ++ ty ++ str "-----" /\ ty <> [] /\ lenN ty <= 64 /\ Forall (fun b => 32 <= b2n b <= 126) ty
             /\ ~ starts_with (str "SIGNED") ty.
(** A header: a key, a colon, a blank and a value (of any length). *)
Definition header (l : bytes) : Prop :=
  exists key b value, l = key ++ str ": " ++ b :: value /\ key <> [] /\ lenN key <= 64 /\ Forall visible key /\ visible b /\ ~ In x0a value.
(** The line between the headers and the data: nothing, or blanks and tabs. *)
Definition blank (l : bytes) : Prop := lenN l < 100 /\ Forall (fun b => b = x20 \/ b = x09) l.
(** The data, broken into lines; RFC 4880 allows 76 characters, the code 96. *)
Definition data_lines (data : bytes) (ls : list bytes) : Prop :=
  concat ls = base64 data /\ Forall (fun l => lenN l <= 96) ls.
Definition end_armor (l : bytes) : Prop := exists t, l = str "-----END PGP" ++ t /\ lenN l < 100 /\ ~ In x0a t.

(** The lines of an armored text of [data] with the checksum line given by [sum]. *)
Definition armored_with (sum : list bytes) (data : bytes) (block : list bytes) : Prop :=
  exists b hs bl ls e,
    block = b :: hs ++ bl :: ls ++ sum ++ [e]
    /\ begin_armor b /\ Forall header hs /\ blank bl /\ data_lines data ls /\ end_armor e.
Definition sum_line (n : N) : bytes := x3d :: base64 (be_enc 3 n).
(** With the right checksum. *)
Definition armored (data : bytes) (block : list bytes) : Prop := armored_with [sum_line (checksum data)] data block.

(** [d'] is [d] with at most three octets in a row changed. *)
Definition damaged (d d' : bytes) : Prop :=
  exists p x x' q, d = p ++ x ++ q /\ d' = p ++ x' ++ q /\ length x = length x' /\ (length x <= 3)%nat /\ x <> x'.
