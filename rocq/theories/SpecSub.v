(** * SpecSub: sub-packet areas (RFC 4880bis 5.2.3.1, 5.12) and what they show (C22, C23, C26-C28). *)
From Coq Require Import Strings.String Strings.Byte List NArith ZArith Bool.
From Verif Require Import Base Item Context Env Opaque SubParse SpecBase SpecValues SpecPacket.
Import ListNotations.
Local Open Scope N_scope.

(** The length of a sub-packet, counting its type octet: one, two or five octets. *)
Inductive sub_length (n : N) : bytes -> Prop :=
| slen_one : n < 192 -> sub_length n [n2b n]
| slen_two : 192 <= n < 16320 -> sub_length n [n2b (192 + (n - 192) / 256); n2b ((n - 192) mod 256)]
| slen_five : n < 2 ^ 32 -> sub_length n (xff :: be_enc 4 n).

(** The area [w] holds the sub-packets [l]: each one is a length, a type octet and a body. *)
Inductive subs_in : list (byte * bytes) -> bytes -> Prop :=
| no_sub : subs_in [] []
| one_more_sub ty body len l w : sub_length (1 + lenN body) len -> subs_in l w ->
    subs_in ((ty, body) :: l) (len ++ ty :: body ++ w).

(** The sub-packets of a list, parsed one after the other from the state [cs]: one item each, or the first failure. *)
Fixpoint sub_list (o : opts) (E : env) (tagid : N) (l : list (byte * bytes)) (cs : cst) : res (list item) * cst :=
  match l with
  | [] => (ROk [], cs)
  | (ty, body) :: t =>
    match parse_sub o E tagid ty body cs with
    | (ROk i, cs1) =>
      match sub_list o E tagid t cs1 with
      | (ROk r, cs2) => (ROk (i :: r), cs2)
      | (RErr e, cs2) => (RErr e, cs2)
      | (RPanic, cs2) => (RPanic, cs2)
      | (RFuel, cs2) => (RFuel, cs2)
      end
    | (RErr e, cs1) => (RErr e, cs1)
    | (RPanic, cs1) => (RPanic, cs1)
    | (RFuel, cs1) => (RFuel, cs1)
    end
  end.

(** The item of an area. *)
Definition area_shown (o : opts) (name : string) (area : bytes) (l : list item) : item :=
  Item (str name) [] (dump_if (oDebug o) area) (bytes_note (lenN area)) l.
(** In a signature an empty area is not shown. *)
Definition sig_area_shown (o : opts) (name : string) (area : bytes) (l : list item) : list item :=
  match area with [] => [] | _ => [area_shown o name area l] end.

(** The name of a sub-packet: type, "<critical>" if the top bit is set, and the number. *)
Definition sub_name (ty : byte) : bytes :=
  reg_name sub_registry private_100_110 "Private or experimental" (b2n ty mod 128)
  ++ (if 128 <=? b2n ty then str " <critical>" else [])
  ++ str " (sub " ++ dec (b2n ty mod 128) ++ str ")".
(** The item of a sub-packet. *)
Definition sub_shown (o : opts) (ty : byte) (body : bytes) (children : list item) : item :=
  Item (sub_name ty) [] (dump_if (oDebug o) body) (bytes_note (lenN body)) children.

Definition renamed (n : bytes) (i : item) : item := Item n (i_value i) (i_dump i) (i_note i) (i_items i).

(** A version 4 or 5 signature: version, type, algorithms, two areas behind their lengths, two octets of the hash,
    the signature values. *)
Definition sig_octets (v t a h : byte) (A1 A2 h2 : bytes) (l : list field) : bytes :=
  v :: t :: a :: h :: be_enc 2 (lenN A1) ++ A1 ++ be_enc 2 (lenN A2) ++ A2 ++ h2 ++ encs l.
