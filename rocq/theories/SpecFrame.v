(** * SpecFrame: how OpenPGP packets are framed (RFC 4880bis 4.2), and what a list of packets shows (C01, C02, C34). *)
From Coq Require Import Strings.String Strings.Byte List NArith ZArith Bool.
From Verif Require Import Base Item Context Env Opaque Parse SpecBase.
Import ListNotations.
Local Open Scope N_scope.

(** New format lengths: one, two or five octets. *)
Inductive new_length (n : N) : bytes -> Prop :=
| len_one : n < 192 -> new_length n [n2b n]
| len_two : 192 <= n < 8384 -> new_length n [n2b (192 + (n - 192) / 256); n2b ((n - 192) mod 256)]
| len_five : n < 2 ^ 32 -> new_length n (xff :: be_enc 4 n).

(** A body behind its length, possibly in several parts: parts of 2^k octets, the last one with a definite length. *)
Inductive in_parts : bytes -> bytes -> Prop :=
| part_last body len : new_length (lenN body) len -> in_parts body (len ++ body)
| part_more k part body w : k <= 30 -> lenN part = 2 ^ k -> in_parts body w ->
    in_parts (part ++ body) (n2b (224 + k) :: part ++ w).

(** A packet with a definite end: old format with one, two or four length octets, or new format. *)
Inductive framed (tag : N) (body : bytes) : bytes -> Prop :=
| old_one : tag < 16 -> lenN body < 2 ^ 8 -> framed tag body (n2b (128 + 4 * tag) :: be_enc 1 (lenN body) ++ body)
| old_two : tag < 16 -> lenN body < 2 ^ 16 -> framed tag body (n2b (129 + 4 * tag) :: be_enc 2 (lenN body) ++ body)
| old_four : tag < 16 -> lenN body < 2 ^ 32 -> framed tag body (n2b (130 + 4 * tag) :: be_enc 4 (lenN body) ++ body)
| new_format w : tag < 64 -> in_parts body w -> framed tag body (n2b (192 + tag) :: w).

(** A sequence of packets. *)
Inductive packets_in : list (N * bytes) -> bytes -> Prop :=
| no_packet : packets_in [] []
| one_more tag body l w w' : framed tag body w -> packets_in l w' -> packets_in ((tag, body) :: l) (w ++ w').
(** The same, where the last packet may be of old format and of indeterminate length: it reaches to the end. *)
Inductive input_of : list (N * bytes) -> bytes -> Prop :=
| all_definite l w : packets_in l w -> input_of l w
| last_to_end l w tag body : packets_in l w -> tag < 16 ->
    input_of (l ++ [(tag, body)]) (w ++ n2b (131 + 4 * tag) :: body).

(** What may be left behind complete packets: nothing; something that is no packet (the first octet has the top bit clear);
    a packet of indeterminate length; the beginning of a packet that is cut short (by not much more than 4 GiB). *)
Inductive tail_of : bytes -> Prop :=
| tail_none : tail_of []
| tail_no_packet b t : b2n b < 128 -> tail_of (b :: t)
| tail_to_end tag body : tag < 16 -> tail_of (n2b (131 + 4 * tag) :: body)
| tail_cut q tag body x : q <> [] -> x <> [] -> framed tag body (q ++ x) -> lenN x <= 2 ^ 32 + 8 -> tail_of q.

(** Parsing a list of packets one after the other, from the state [cs], up to the first one that fails. *)
Fixpoint parse_list (o : opts) (E : env) (l : list (N * bytes)) (cs : cst) : info * res unit :=
  match l with
  | [] => ([], ROk tt)
  | (tag, body) :: t =>
    match packets_parse o E tag body cs with
    | (ROk i, cs') => let '(r, x) := parse_list o E t cs' in (i :: r, x)
    | (RErr e, _) => ([], RErr e)
    | (RPanic, _) => ([], RPanic)
    | (RFuel, _) => ([], RFuel)
    end
  end.

(** A reader over the octets [w]: it delivers them in some non-empty pieces, then reports the end. *)
Definition delivers (c : chunks) (w : bytes) : Prop :=
  Forall (fun p => p <> []) (k_pieces c) /\ concat (k_pieces c) = w /\ k_ok c = true.

(** What is left of the state when all packets of the list are parsed. *)
Fixpoint list_state (o : opts) (E : env) (l : list (N * bytes)) (cs : cst) : cst :=
  match l with
  | [] => cs
  | (tag, body) :: t => list_state o E t (snd (packets_parse o E tag body cs))
  end.

(** The packets that a reader delivers one after the other: [reading E c l c'] reads [l] from [c] and leaves [c']. *)
Inductive reading (E : env) : chunks -> list (N * bytes) -> chunks -> Prop :=
| read_none c : reading E c [] c
| read_one c p c1 l c' : next_chunks E c = (ROk (Some p), c1) -> reading E c1 l c' -> reading E c (p :: l) c'.
