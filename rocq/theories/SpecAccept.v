(** * SpecAccept: which octets are a packet that can be parsed, which are rejected, and which crash the parser (C63).

    A packet is read field by field.  It is rejected where octets of a field are missing, where an area of sub-packets or a key block does not split,
    and where compressed data cannot be decompressed; nothing else about the values of fields matters.
    The definitions here are about octets only; they do not use the model. *)
From Coq Require Import Strings.String Strings.Byte List NArith ZArith Bool.
From Verif Require Import Base Env SpecBase SpecValues SpecPacket.
Import ListNotations.
Local Open Scope N_scope.

(** Why something is rejected: octets are missing; an area does not split, or an octet begins no packet; data cannot be decompressed; the source fails;
    there is no armored text (as no block is complete, the decoder does not open it, or a line is too long). *)
Inductive reason := Ends_early | Malformed | Not_decompressed | Source_fails | No_block | Not_armor | Long_line.
(** The errors that stand for a reason. *)
Definition tells (e : err) (k : reason) : Prop :=
  match k with
  | Ends_early => e = EEof \/ e = EUnexp
  | Malformed => e = EStruct
  | Not_decompressed => e = EDecomp
  | Source_fails => e = EIO
  | No_block => e = EArmorText
  | Not_armor => e = EArmorDecode
  | Long_line => e = ETooLong
  end.
Inductive verdict := Accepted | Rejected (k : reason) | Crashes.
(** One thing after the other: the first that is not accepted decides. *)
Definition both (v w : verdict) : verdict := match v with Accepted => w | _ => v end.

(** What the program does: it gives a result, ends with an error for the reason, or crashes. *)
Definition ends_as {A} (r : res A) (v : verdict) : Prop :=
  match v with Accepted => exists a, r = ROk a | Rejected k => exists e, tells e k /\ r = RErr e | Crashes => r = RPanic end.

(** A scan takes octets from the front: it finds a value and leaves the rest, or something is amiss (mostly, octets are missing), or the program crashes. *)
Inductive found (A : Type) := Found (a : A) (rest : bytes) | Missing (k : reason) | Crash.
Arguments Found {A} a rest.
Arguments Missing {A} k.
Arguments Crash {A}.
Definition scan (A : Type) := bytes -> found A.
Definition verdict_of {A} (x : found A) : verdict := match x with Found _ _ => Accepted | Missing k => Rejected k | Crash => Crashes end.

Definition give {A} (a : A) : scan A := fun l => Found a l.
Definition octets (n : N) : scan bytes := fun l => if n <=? lenN l then Found (firstn (N.to_nat n) l) (skipn (N.to_nat n) l) else Missing Ends_early.
Definition after {A B} (w : scan A) (f : A -> scan B) : scan B := fun l =>
  match w l with Found a rest => f a rest | Missing k => Missing k | Crash => Crash end.
Notation "w >> x ; k" := (after w (fun x => k)) (at level 60, x pattern, right associativity).
Definition number (n : N) : scan N := octets n >> l ; give (be l).
(** A decision on what is left. *)
Definition look {A} (f : bytes -> scan A) : scan A := fun l => f l l.
(** The next [n] octets on their own; what is left of them does not matter. *)
Definition part {A} (n : N) (w : scan A) : scan A :=
  octets n >> l ; (match w l with Found a _ => give a | Missing k => fun _ => Missing k | Crash => fun _ => Crash end).
Definition judged (v : verdict) : scan unit := match v with Accepted => give tt | Rejected k => fun _ => Missing k | Crashes => fun _ => Crash end.
Definition rest_taken : scan unit := fun _ => Found tt [].

(** The fields of an algorithm: numbers behind their count of bits, curves behind their count of octets.  The parameters of a key derivation
    and the encoded session key may be missing altogether. *)
Definition slot_scan (s : slot) : scan unit :=
  match s with
  | SMpi _ | SPoint _ => number 2 >> bits ; octets ((bits + 7) / 8) >> _ ; give tt
  | SCurve => number 1 >> n ; octets n >> _ ; give tt
  | SKdf | SParm _ => look (fun l => match l with [] => give tt | _ => number 1 >> n ; octets n >> _ ; give tt end)
  end.
Definition slots_scan (l : list slot) : scan unit := fold_right (fun s w => slot_scan s >> _ ; w) (give tt) l.
(** An unknown algorithm has no fields: what follows is surplus. *)
Definition fields_scan (t : N -> option (list slot)) (a : N) : scan unit := match t a with Some l => slots_scan l | None => give tt end.

(** The public part of a key of version [v], behind the version; the value is the algorithm (0 if the version is unknown). *)
Definition public_scan (v : N) : scan N :=
  if v =? 5 then octets 4 >> _ ; number 1 >> a ; number 4 >> n ; part n (fields_scan pub_layout a) >> _ ; give a
  else if v =? 4 then octets 4 >> _ ; number 1 >> a ; fields_scan pub_layout a >> _ ; give a
  else if v =? 3 then octets 4 >> _ ; octets 2 >> _ ; number 1 >> a ; fields_scan pub_layout a >> _ ; give a
  else give 0.

(** A string-to-key specifier; the value tells whether an IV follows.  The private type 101 counts only behind its marker. *)
Definition specifier_scan : scan bool :=
  number 1 >> ty ;
  if ty =? 0 then octets 1 >> _ ; give true
  else if ty =? 1 then octets 9 >> _ ; give true
  else if ty =? 3 then octets 10 >> _ ; give true
  else if ty =? 101 then
    look (fun l =>
      if lenN l <? 4 then give true
      else if beqs (firstn 3 l) (str "GNU") then
        octets 3 >> _ ; number 1 >> k ; if k =? 2 then number 1 >> n ; octets n >> _ ; give false else give false
      else give true)
  else give true.

(** The optional fields of a secret key by its usage octet; the value is the cipher, and whether an IV follows. *)
Definition optional_scan (u : N) : scan (N * bool) :=
  if u =? 0 then give (0, false)
  else number 1 >> c ; octets (if u =? 253 then 1 else 0) >> _ ;
       (if 253 <=? u then specifier_scan else give true) >> iv ; give (c, iv).
(** The octets the program takes for the IV (for an unknown cipher none). *)
Definition iv_scan (p : N * bool) : scan unit := octets (if snd p then cipher_iv_octets (fst p) else 0) >> _ ; give tt.
(** Secret numbers that are not encrypted.  Of an unknown algorithm all but the last two octets are taken: with nothing left the packet is
    rejected, with one octet left the program crashes. *)
Definition numbers_scan (a : N) : scan unit :=
  match sec_layout a with
  | Some l => slots_scan l
  | None => look (fun l => match l with [] => fun _ => Missing Ends_early | [_] => fun _ => Crash | _ => octets (lenN l - 2) >> _ ; give tt end)
  end.
(** The secret part of a key of version [v] and algorithm [a].  In version 5 a count of four octets that is cut short crashes the program. *)
Definition secret_scan (v a : N) : scan unit :=
  number 1 >> u ;
  if v =? 5 then
    number 1 >> n ; (if n =? 0 then give tt else part n (optional_scan u) >> p ; iv_scan p) >> _ ;
    look (fun l => if lenN l <? 4 then fun _ => Crash else number 4 >> m ;
      if m =? 0 then give tt
      else if u =? 0 then part m (numbers_scan a) >> _ ; octets 2 >> _ ; give tt
      else octets m >> _ ; give tt)
  else
    optional_scan u >> p ; iv_scan p >> _ ;
    if u =? 0 then numbers_scan a >> _ ; octets 2 >> _ ; give tt else rest_taken.

(** ** Sub-packets *)
(** An area splits into sub-packets: each is a length of one, two or five octets, a type and the contents. *)
Definition first_sub (l : bytes) : option (byte * bytes * bytes) :=
  let cut n t := match t with
                 | ty :: t' => if (1 <=? n) && (n <=? lenN t) then Some (ty, firstn (N.to_nat (n - 1)) t', skipn (N.to_nat (n - 1)) t') else None
                 | [] => None
                 end in
  match l with
  | a :: t =>
    if b2n a <? 192 then cut (b2n a) t
    else if b2n a <? 255 then match t with b :: t' => cut ((b2n a - 192) * 256 + b2n b + 192) t' | [] => None end
    else match t with b :: c :: d :: e :: t' => cut (be [b; c; d; e]) t' | _ => None end
  | [] => None
  end.
Fixpoint subs_of (fuel : nat) (l : bytes) : option (list (byte * bytes)) :=
  match l, fuel with
  | [], _ => Some []
  | _, O => None
  | _, S fuel' =>
    match first_sub l with
    | Some (ty, b, rest) => option_map (cons (ty, b)) (subs_of fuel' rest)
    | None => None
    end
  end.
(** The octets that the fixed fields of a sub-packet of a signature take, by type. *)
Definition sub_octets (t : N) : N :=
  match t with
  | 2 | 3 | 9 => 4
  | 4 | 7 | 23 | 25 | 27 | 29 | 30 | 33 | 35 => 1
  | 5 | 12 | 31 => 2
  | 16 => 8
  | _ => 0
  end.

(** ** Packets behind each other *)
(** A body in parts: parts of 2^k octets, then a last part of any length. *)
Fixpoint first_parts (fuel : nat) (l : bytes) : option (bytes * bytes) :=
  let cut n t := if n <=? lenN t then Some (firstn (N.to_nat n) t, skipn (N.to_nat n) t) else None in
  match l, fuel with
  | a :: t, S fuel' =>
    if b2n a <? 192 then cut (b2n a) t
    else if b2n a <? 224 then match t with b :: t' => cut ((b2n a - 192) * 256 + b2n b + 192) t' | [] => None end
    else if b2n a =? 255 then match t with b :: c :: d :: e :: t' => cut (be [b; c; d; e]) t' | _ => None end
    else match cut (2 ^ (b2n a - 224)) t with
         | Some (p, rest) => option_map (fun q => (p ++ fst q, snd q)) (first_parts fuel' rest)
         | None => None
         end
  | _, _ => None
  end.
(** The first packet, if it is complete and of definite length: tag, body, and what follows. *)
Definition first_packet (l : bytes) : option (N * bytes * bytes) :=
  let cut tag n t := if n <=? lenN t then Some (tag, firstn (N.to_nat n) t, skipn (N.to_nat n) t) else None in
  match l with
  | h :: t =>
    let c := b2n h in
    if c <? 128 then None
    else if 192 <=? c then option_map (fun q => (c - 192, fst q, snd q)) (first_parts (List.length t) t)
    else
      let tag := (c - 128) / 4 in
      match c mod 4, t with
      | 0, a :: t' => cut tag (b2n a) t'
      | 1, a :: b :: t' => cut tag (be [a; b]) t'
      | 2, a :: b :: d :: e :: t' => cut tag (be [a; b; d; e]) t'
      | _, _ => None
      end
  | [] => None
  end.

(** ** The end of a key block *)
(** A key block may end with octets that are no complete packet.  They are taken for the end of the block if the data end just where the
    program asks for more, and rejected otherwise.  The program asks for the octets of a length together, and for those of a body in pieces:
    a piece fills the buffer (512 octets at first, which grows when it is full), or reaches to the end of a part. *)
Section Tail.
Variable grow : N -> N.
(** [part] octets of a part are yet to come, [more] tells whether another part follows, [got] octets are in the buffer. *)
Fixpoint asked_at_end (fuel : nat) (cap got part : N) (more : bool) (l : bytes) : bool :=
  match fuel, l with
  | O, _ => false
  | S _, [] => negb (part =? 0) || more
  | S fuel', a :: t =>
    if part =? 0 then
      if negb more then false
      else if b2n a <? 192 then asked_at_end fuel' cap got (b2n a) false t
      else if b2n a <? 224 then match t with [] => true | b :: t' => asked_at_end fuel' cap got ((b2n a - 192) * 256 + b2n b + 192) false t' end
      else if b2n a =? 255 then match t with [] => true | b :: c :: d :: e :: t' => asked_at_end fuel' cap got (be [b; c; d; e]) false t' | _ => false end
      else asked_at_end fuel' cap got (2 ^ (b2n a - 224)) true t
    else
      let cap' := if got <? cap then cap else N.max (cap + 1) (grow cap) in
      let n := N.min (cap' - got) part in
      if n <=? lenN l then asked_at_end fuel' cap' (got + n) (part - n) more (skipn (N.to_nat n) l) else false
  end.
(** The same for a packet that begins with [l]; a body of indeterminate length never ends. *)
Definition lost (l : bytes) : bool :=
  match l with
  | h :: t =>
    let c := b2n h in
    let body n t := asked_at_end (S (List.length t)) 512 0 n false t in
    if c <? 128 then false
    else if 192 <=? c then asked_at_end (S (List.length t)) 512 0 0 true t
    else match c mod 4, t with
         | 3, _ => body (2 ^ 64) t
         | _, [] => true
         | 0, a :: t' => body (b2n a) t'
         | 1, a :: b :: t' => body (be [a; b]) t'
         | 2, a :: b :: d :: e :: t' => body (be [a; b; d; e]) t'
         | _, _ => false
         end
  | [] => false
  end.
End Tail.

(** Sizes of buffers, and positions behind them, are integers of the language. *)
Definition int_sizes (grow : N -> N) : Prop := forall c, c < 2 ^ 32 -> grow c < 2 ^ 62.

Section Nested.
(** The verdict on packets inside. *)
Variable rec : N -> bytes -> verdict.
(** Whether the end of a key block that is no complete packet is taken for the end of the block. *)
Variable dropped : bytes -> bool.
(** Whether compressed data of the algorithm fail to decompress. *)
Variable damaged : N -> bytes -> bool.

(** A key block: packets up to the end. *)
Fixpoint block (fuel : nat) (l : bytes) : verdict :=
  match l, fuel with
  | [], _ => Accepted
  | _, O => Rejected Ends_early
  | h :: _, S fuel' =>
    match first_packet l with
    | Some (tag, b, rest) => both (rec tag b) (block fuel' rest)
    | None => if b2n h <? 128 then Rejected Malformed else if dropped l then Accepted else Rejected Ends_early
    end
  end.
(** A sub-packet of a signature, and an attribute of a user. *)
Definition sub_verdict (p : byte * bytes) : verdict :=
  let '(ty, b) := p in
  match b2n ty mod 128 with
  | 20 => verdict_of ((octets 4 >> _ ; number 2 >> n ; number 2 >> m ; octets n >> _ ; octets m) b)
  | 32 => rec 2 b
  | 38 => match b with [] => Rejected Ends_early | v :: w => if b2n v =? 0 then block (List.length w) w else Accepted end
  | t => verdict_of (octets (sub_octets t) b)
  end.
Definition attribute_verdict (p : byte * bytes) : verdict :=
  let '(ty, b) := p in
  if b2n ty mod 128 =? 1 then verdict_of ((octets 2 >> _ ; number 1 >> v ; octets (if (100 <=? v) && (v <=? 110) then 1 else 0)) b) else Accepted.
(** An area is split as a whole before anything in it is read. *)
Definition area (sub : byte * bytes -> verdict) (l : bytes) : verdict :=
  match subs_of (List.length l) l with
  | Some s => fold_right (fun p v => both (sub p) v) Accepted s
  | None => Rejected Malformed
  end.
Definition area_scan : scan unit := number 2 >> n ; octets n >> l ; judged (area sub_verdict l).

(** A packet, by its tag.  A signature of version 3 is never rejected behind its version, nor is AEAD data behind its first four octets. *)
Definition packet_scan (tag : N) : scan unit :=
  match tag with
  | 1 => octets 9 >> _ ; number 1 >> a ; fields_scan ses_layout a
  | 2 =>
    number 1 >> v ;
    if (v =? 4) || (v =? 5) then
      octets 1 >> _ ; number 1 >> a ; octets 1 >> _ ; area_scan >> _ ; area_scan >> _ ; octets 2 >> _ ; fields_scan sig_layout a
    else give tt
  | 3 => number 1 >> v ; if v =? 4 then octets 1 >> _ ; specifier_scan >> _ ; give tt else give tt
  | 4 => octets 13 >> _ ; give tt
  | 5 | 7 => number 1 >> v ; public_scan v >> a ; secret_scan v a
  | 6 | 14 => number 1 >> v ; public_scan v >> _ ; give tt
  | 8 => number 1 >> a ; look (fun l => match l with [] => give tt | _ => if (1 <=? a) && (a <=? 3) && damaged a l then judged (Rejected Not_decompressed) else give tt end)
  | 11 => octets 1 >> _ ; number 1 >> n ; octets n >> _ ; octets 4 >> _ ; give tt
  | 17 => look (fun l => judged (area attribute_verdict l))
  | 20 => octets 4 >> _ ; give tt
  | _ => give tt
  end.
End Nested.

(** The verdict on a packet whose nested packets are at most [depth] deep; what is nested is shorter. *)
Fixpoint fate_depth (dropped : bytes -> bool) (damaged : N -> bytes -> bool) (depth : nat) (tag : N) (b : bytes) : verdict :=
  match depth with
  | O => Rejected Ends_early
  | S d => verdict_of (packet_scan (fate_depth dropped damaged d) dropped damaged tag b)
  end.
Definition fate (dropped : bytes -> bool) (damaged : N -> bytes -> bool) (tag : N) (b : bytes) : verdict :=
  fate_depth dropped damaged (S (List.length b)) tag b.

(** Packets behind each other up to the end of an input: the last one may be of old format and without a length. *)
Fixpoint sequence (judge : N -> bytes -> verdict) (fuel : nat) (l : bytes) : verdict :=
  match l, fuel with
  | [], _ => Accepted
  | _, O => Rejected Ends_early
  | h :: t, S fuel' =>
    match first_packet l with
    | Some (tag, b, rest) => both (judge tag b) (sequence judge fuel' rest)
    | None => if b2n h <? 128 then Rejected Malformed else if (b2n h <? 192) && (b2n h mod 4 =? 3) then judge ((b2n h - 128) / 4) t else Rejected Ends_early
    end
  end.
(** A packet at the top: compressed data are opened, once. *)
Definition top (dropped : bytes -> bool) (damaged : N -> bytes -> bool) (opened : bytes -> option bytes) (tag : N) (b : bytes) : verdict :=
  both (fate dropped damaged tag b)
       (if tag =? 8 then match opened b with Some d => sequence (fate dropped damaged) (List.length d) d | None => Accepted end else Accepted).

(** ** Compressed data, for a decompressor that may fail or deliver too much *)
(** Compressed data are damaged if the decompressor fails before it has delivered 1 GiB. *)
Definition damaged (E : env) (a : N) (z : bytes) : bool :=
  match e_inflate E a z with DHeaderErr => true | DStream d ok => negb ok && (lenN d <? 2 ^ 30) end.
(** What the packet contains: the octets as they are, or what a decompressor delivers, if that is less than 1 GiB. *)
Definition opened (E : env) (b : bytes) : option bytes :=
  match b with
  | a :: z =>
    if b2n a =? 0 then Some z
    else if (b2n a <=? 3) && negb (lenN z =? 0) then match e_inflate E (b2n a) z with DStream d true => if lenN d <? 2 ^ 30 then Some d else None | _ => None end
    else None
  | [] => None
  end.
