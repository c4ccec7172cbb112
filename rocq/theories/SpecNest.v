(** * SpecNest: which packets are inside which (C03, C04, C13). *)
From Coq Require Import Strings.String Strings.Byte List NArith ZArith Bool.
From Verif Require Import Base Reader Env Opaque Parse.
Import ListNotations.
Local Open Scope N_scope.

(** The two sub-packet areas of a version 4 or 5 signature: version, type, public-key and hash algorithm, then
    two areas, each after its length in two octets. *)
Inductive sig_area_of (body area : bytes) : Prop :=
| area_hashed v t p h l rest :
    b2n v = 4 \/ b2n v = 5 -> length l = 2%nat -> be l = lenN area ->
    body = [v; t; p; h] ++ l ++ area ++ rest -> sig_area_of body area
| area_unhashed v t p h l hashed m rest :
    b2n v = 4 \/ b2n v = 5 -> length l = 2%nat -> be l = lenN hashed -> length m = 2%nat -> be m = lenN area ->
    body = [v; t; p; h] ++ l ++ hashed ++ m ++ area ++ rest -> sig_area_of body area.

(** A sub-packet of a version 4 or 5 signature: the type without the critical bit, and the contents. *)
Definition sig_sub (body : bytes) (ty : N) (b : bytes) : Prop :=
  exists area l c, sig_area_of body area /\ subpackets area = (l, true) /\ In (c, b) l /\ b2n c mod 128 = ty.

(** The packets that Next delivers, one after the other, from a byte cursor. *)
Inductive cursor_packet (E : env) : reader -> N -> bytes -> Prop :=
| cp_next r tag b r' :
    next_packet rdr_read (e_grow E) (S (S (length (r_buf r)))) r = (Some (inl (tag, b)), r') -> cursor_packet E r tag b
| cp_later r t0 b0 r' tag b :
    next_packet rdr_read (e_grow E) (S (S (length (r_buf r)))) r = (Some (inl (t0, b0)), r') ->
    cursor_packet E r' tag b -> cursor_packet E r tag b.

(** The packets of a key-block sub-packet: type 0, then packets. *)
Definition key_block_packet (E : env) (b : bytes) (tag : N) (b' : bytes) : Prop :=
  exists rest, b = x00 :: rest /\ cursor_packet E (mkReader b 1) tag b'.

(** [nested E t b t' b']: the packet (t', b') is the packet (t, b) itself, or is inside it as an embedded
    signature or in a key block, at any depth. *)
Inductive nested (E : env) : N -> bytes -> N -> bytes -> Prop :=
| nested_self t b : nested E t b t b
| nested_embedded body b t' b' :
    sig_sub body 32 b -> nested E 2 b t' b' -> nested E 2 body t' b'
| nested_key body b t1 b1 t' b' :
    sig_sub body 38 b -> key_block_packet E b t1 b1 -> nested E t1 b1 t' b' -> nested E 2 body t' b'.

(** The packets that Next delivers, one after the other, from an input reader. *)
Inductive input_packet (E : env) : chunks -> N -> bytes -> Prop :=
| ip_next c tag b c' : next_chunks E c = (ROk (Some (tag, b)), c') -> input_packet E c tag b
| ip_later c t0 b0 c' tag b :
    next_chunks E c = (ROk (Some (t0, b0)), c') -> input_packet E c' tag b -> input_packet E c tag b.

(** The contents of a compressed data packet that are parsed as packets: octet 0 is the algorithm; 0 is
    uncompressed, 1 to 3 are decompressed if that gives less than 1 GiB and no error. *)
Inductive contents (E : env) : bytes -> bytes -> Prop :=
| contents_plain z : contents E (x00 :: z) z
| contents_inflated a z d :
    1 <= b2n a <= 3 -> z <> [] -> e_inflate E (b2n a) z = DStream d true -> lenN d < 2 ^ 30 -> contents E (a :: z) d.

(** The packets met when parsing an input: its packets, those in its compressed packets, and those nested in them. *)
Inductive packet_met (E : env) (c : chunks) (t : N) (b : bytes) : Prop :=
| met_top t0 b0 : input_packet E c t0 b0 -> nested E t0 b0 t b -> packet_met E c t b
| met_compressed body d t0 b0 :
    input_packet E c 8 body -> contents E body d -> input_packet E (chunks_of d true) t0 b0 -> nested E t0 b0 t b ->
    packet_met E c t b.
