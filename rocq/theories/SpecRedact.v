(** * SpecRedact: a packet with all secret and bulk octets replaced by zeros (C06).

    [redact] is defined on every octet string, well-formed or not.  It walks through the fields of a packet from the front, keeps an octet
    or replaces it by zero, and stops where the packet is cut; what is not reached is replaced. *)
From Coq Require Import Strings.String Strings.Byte List NArith ZArith Bool.
From Verif Require Import Base SpecBase SpecValues SpecPacket.
Import ListNotations.
Local Open Scope N_scope.

Definition blank (l : bytes) : bytes := map (fun _ => x00) l.

(** A walk takes octets from the front of what is left.  It tells what stands for them, and goes on with a value or stops. *)
Inductive next (A : Type) := Go (a : A) | Stop.
Arguments Go {A} a.
Arguments Stop {A}.
Definition walk (A : Type) := bytes -> bytes * next A.

Definition give {A} (a : A) : walk A := fun _ => ([], Go a).
Definition keep (n : N) : walk bytes := fun l => if n <=? lenN l then (firstn (N.to_nat n) l, Go (firstn (N.to_nat n) l)) else ([], Stop).
Definition hide (n : N) : walk unit := fun l => if n <=? lenN l then (blank (firstn (N.to_nat n) l), Go tt) else ([], Stop).
Definition hide_all : walk unit := fun l => (blank l, Go tt).
Definition after {A B} (w : walk A) (f : A -> walk B) : walk B := fun l =>
  match w l with
  | (r, Go a) => let '(r2, x) := f a (skipn (List.length r) l) in (r ++ r2, x)
  | (r, Stop) => (r, Stop)
  end.
Notation "w >> x ; k" := (after w (fun x => k)) (at level 60, x pattern, right associativity).
(** A decision on what is left. *)
Definition look {A} (f : bytes -> walk A) : walk A := fun l => f l l.
(** The octets with what stands for them; what a walk has not reached is hidden. *)
Definition covered {A} (w : walk A) (l : bytes) : bytes := let r := fst (w l) in r ++ blank (skipn (List.length r) l).
(** The next [n] octets on their own. *)
Definition part {A} (n : N) (w : walk A) : walk A := fun l =>
  if n <=? lenN l then (covered w (firstn (N.to_nat n) l), snd (w (firstn (N.to_nat n) l))) else ([], Stop).

Definition number (n : N) : walk N := keep n >> l ; give (be l).

(** The fields of an algorithm: of a number the count of bits is kept, of a curve point the first octet as well, of the parameters of a key
    derivation the first three octets.  The last two fields may be missing. *)
Definition slot_walk (s : slot) : walk unit :=
  match s with
  | SMpi _ => number 2 >> bits ; hide ((bits + 7) / 8)
  | SPoint _ => number 2 >> bits ; if (bits + 7) / 8 =? 0 then give tt else keep 1 >> _ ; hide ((bits + 7) / 8 - 1)
  | SCurve => number 1 >> n ; keep n >> _ ; give tt
  | SKdf => look (fun l => match l with [] => give tt | _ => number 1 >> n ; keep (N.min n 3) >> _ ; hide (n - 3) end)
  | SParm _ => look (fun l => match l with [] => give tt | _ => number 1 >> n ; hide n end)
  end.
Definition slots_walk (l : list slot) : walk unit := fold_right (fun s w => slot_walk s >> _ ; w) (give tt) l.
Definition fields_walk (t : N -> option (list slot)) (a : N) : walk unit := match t a with Some l => slots_walk l | None => give tt end.

(** The public part of a key of version [v], behind the version; the value is the algorithm. *)
Definition public_walk (v : N) : walk N :=
  if v =? 5 then keep 4 >> _ ; number 1 >> a ; number 4 >> n ; part n (fields_walk pub_layout a) >> _ ; give a
  else if v =? 4 then keep 4 >> _ ; number 1 >> a ; fields_walk pub_layout a >> _ ; give a
  else if v =? 3 then keep 4 >> _ ; keep 2 >> _ ; number 1 >> a ; fields_walk pub_layout a >> _ ; give a
  else give 0.

(** A string-to-key specifier is kept; the value tells whether an IV follows. *)
Definition specifier_walk : walk bool :=
  number 1 >> ty ;
  if ty =? 0 then keep 1 >> _ ; give true
  else if ty =? 1 then keep 1 >> _ ; keep 8 >> _ ; give true
  else if ty =? 3 then keep 1 >> _ ; keep 8 >> _ ; keep 1 >> _ ; give true
  else if ty =? 101 then
    look (fun l =>
      if lenN l <? 4 then give true
      else if beqs (firstn 3 l) (str "GNU") then
        keep 3 >> _ ; number 1 >> k ; if k =? 2 then number 1 >> n ; keep n >> _ ; give false else give false
      else give true)
  else give true.

(** The optional fields of a secret key by its usage octet; the value is the cipher, and whether an IV follows. *)
Definition optional_walk (u : N) : walk (N * bool) :=
  if u =? 0 then give (0, false)
  else number 1 >> c ; (if u =? 253 then keep 1 >> _ ; give tt else give tt) >> _ ;
       (if 253 <=? u then specifier_walk else give true) >> iv ; give (c, iv).
(** What the program takes for the IV is kept. *)
Definition iv_walk (p : N * bool) : walk unit := if snd p then keep (cipher_iv_octets (fst p)) >> _ ; give tt else give tt.
(** Secret numbers that are not encrypted; of an unknown algorithm: all but the last two octets. *)
Definition numbers_walk (a : N) : walk unit :=
  match sec_layout a with
  | Some l => slots_walk l
  | None => look (fun l => if lenN l <? 2 then (fun _ => ([], Stop)) else hide (lenN l - 2))
  end.
(** The secret part of a key of version [v] and algorithm [a].  The checksum of secret numbers that are not encrypted is kept. *)
Definition secret_walk (v a : N) : walk unit :=
  number 1 >> u ;
  if v =? 5 then
    number 1 >> n ; (if n =? 0 then give tt else part n (optional_walk u) >> p ; iv_walk p) >> _ ;
    number 4 >> m ; if m =? 0 then give tt
                    else part m (if u =? 0 then numbers_walk a else hide_all) >> _ ; if u =? 0 then keep 2 >> _ ; give tt else give tt
  else
    optional_walk u >> p ; iv_walk p >> _ ;
    if u =? 0 then numbers_walk a >> _ ; keep 2 >> _ ; give tt else hide_all.

(** The lengths in front of sub-packets and packets: the octets of the length, and the length. *)
Definition sub_length_of (l : bytes) : option (nat * N) :=
  match l with
  | a :: t =>
    if b2n a <? 192 then Some (1%nat, b2n a)
    else if b2n a <? 255 then match t with b :: _ => Some (2%nat, (b2n a - 192) * 256 + b2n b + 192) | [] => None end
    else match t with b :: c :: d :: e :: _ => Some (5%nat, be [b; c; d; e]) | _ => None end
  | [] => None
  end.
(** The header of a packet of definite length: its octets, tag and length of the body. *)
Definition header_of (l : bytes) : option (nat * N * N) :=
  match l with
  | h :: t =>
    let c := b2n h in
    if c <? 128 then None
    else if 192 <=? c then
      match t with
      | a :: t' =>
        if b2n a <? 192 then Some (2%nat, c - 192, b2n a)
        else if b2n a <? 224 then match t' with b :: _ => Some (3%nat, c - 192, (b2n a - 192) * 256 + b2n b + 192) | [] => None end
        else if b2n a =? 255 then match t' with b :: d :: e :: f :: _ => Some (6%nat, c - 192, be [b; d; e; f]) | _ => None end
        else None
      | [] => None
      end
    else
      let tag := (c - 128) / 4 in
      match c mod 4, t with
      | 0, a :: _ => Some (2%nat, tag, b2n a)
      | 1, a :: b :: _ => Some (3%nat, tag, be [a; b])
      | 2, a :: b :: d :: e :: _ => Some (5%nat, tag, be [a; b; d; e])
      | _, _ => None
      end
  | [] => None
  end.

(** What the program takes for the IV in front of AEAD data. *)
Definition aead_iv_octets (a : N) : N := if (a =? 1) || (a =? 2) then 16 else 0.

(** Signature sub-packets that are kept. *)
Definition kept_types : list N := [2; 3; 4; 5; 6; 7; 9; 11; 12; 16; 20; 21; 22; 23; 24; 25; 26; 27; 28; 29; 30; 31; 33; 34; 35].

Section Nested.
Variable rec : N -> bytes -> bytes.

(** An area of sub-packets, each replaced by [sub]; one that cannot be split is left as it is, as [None]. *)
Fixpoint area_redacted (sub : byte -> bytes -> bytes) (fuel : nat) (l : bytes) : option bytes :=
  match l, fuel with
  | [], _ => Some []
  | _, O => None
  | _, S fuel' =>
    match sub_length_of l with
    | None => None
    | Some (h, n) =>
      if (n =? 0) || (lenN (skipn h l) <? n) then None
      else match firstn (N.to_nat n) (skipn h l) with
           | ty :: body => option_map (fun r => firstn h l ++ ty :: sub ty body ++ r) (area_redacted sub fuel' (skipn (N.to_nat n) (skipn h l)))
           | [] => None
           end
    end
  end.
Definition area_or_same (sub : byte -> bytes -> bytes) (l : bytes) : bytes :=
  match area_redacted sub (List.length l) l with Some r => r | None => l end.

(** The packets of a key block; one that is not a sequence of packets of definite lengths is left as it is. *)
Fixpoint block_redacted (fuel : nat) (l : bytes) : option bytes :=
  match l, fuel with
  | [], _ => Some []
  | _, O => None
  | _, S fuel' =>
    match header_of l with
    | None => None
    | Some (h, tag, n) =>
      if lenN (skipn h l) <? n then None
      else option_map (fun r => firstn h l ++ rec tag (firstn (N.to_nat n) (skipn h l)) ++ r) (block_redacted fuel' (skipn (N.to_nat n) (skipn h l)))
    end
  end.

(** A sub-packet of a signature, and an attribute of a user. *)
Definition sub_redacted (ty : byte) (b : bytes) : bytes :=
  let t := b2n ty mod 128 in
  if existsb (N.eqb t) kept_types then b
  else if t =? 32 then rec 2 b
  else if t =? 38 then
    match b with
    | x00 :: w => x00 :: match block_redacted (List.length w) w with Some r => r | None => w end
    | v :: w => v :: blank w
    | [] => []
    end
  else blank b.
Definition attribute_redacted (ty : byte) (b : bytes) : bytes :=
  if b2n ty mod 128 =? 1 then covered (keep 2 >> _ ; number 1 >> v ; if (100 <=? v) && (v <=? 110) then keep 1 >> _ ; give tt else give tt) b
  else blank b.

Definition sig_area_walk : walk unit := number 2 >> n ; part n (fun l => (area_or_same sub_redacted l, Go tt)).

Definition packet_walk (tag : N) : walk unit :=
  match tag with
  | 1 => keep 1 >> _ ; keep 8 >> _ ; number 1 >> a ; fields_walk ses_layout a
  | 2 =>
    number 1 >> v ;
    if (v =? 4) || (v =? 5) then
      keep 1 >> _ ; number 1 >> a ; keep 1 >> _ ; sig_area_walk >> _ ; sig_area_walk >> _ ; keep 2 >> _ ; fields_walk sig_layout a
    else if v =? 3 then
      number 1 >> n ; (if n =? 5 then keep 1 >> _ ; keep 4 >> _ ; give tt else hide n) >> _ ;
      keep 8 >> _ ; number 1 >> a ; keep 1 >> _ ; keep 2 >> _ ; fields_walk sig_layout a
    else give tt
  | 3 => number 1 >> v ; if v =? 4 then keep 1 >> _ ; specifier_walk >> _ ; give tt else give tt
  | 4 => keep 1 >> _ ; keep 1 >> _ ; keep 1 >> _ ; keep 1 >> _ ; keep 8 >> _ ; keep 1 >> _ ; give tt
  | 5 | 7 => number 1 >> v ; public_walk v >> a ; secret_walk v a
  | 6 | 14 => number 1 >> v ; public_walk v >> _ ; give tt
  | 8 | 12 | 13 => fun l => (l, Go tt)                  (* compressed data (for its contents see C06_input_partial), trust, user ID *)
  | 11 => keep 1 >> _ ; number 1 >> n ; keep n >> _ ; keep 4 >> _ ; give tt
  | 17 => fun l => (if lenN l <? 2 ^ 32 then area_or_same attribute_redacted l else l, Go tt)
  | 20 => keep 1 >> _ ; keep 1 >> _ ; number 1 >> a ; keep 1 >> _ ; keep (aead_iv_octets a) >> _ ; give tt
  | _ => give tt
  end.
End Nested.

Fixpoint redact_depth (depth : nat) (tag : N) (b : bytes) : bytes :=
  match depth with
  | O => b
  | S d => covered (packet_walk (redact_depth d) tag) b
  end.
Definition redact (tag : N) (b : bytes) : bytes := redact_depth (S (List.length b)) tag b.
