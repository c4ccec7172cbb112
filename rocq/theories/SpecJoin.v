(** * SpecJoin: the packets that a JSON text tells (C75, C79). *)
From Coq Require Import Strings.String Strings.Byte List NArith.
From Verif Require Import Base SpecBase SpecText SpecJson.
Import ListNotations.

(** The JSON text [t] is that of an object with the member Packet, an array of these values, and no other member; without packets the member is left out. *)
Inductive tells_packets (t : bytes) : list json -> Prop :=
| tells_none : json_text (JObject []) t -> tells_packets t []
| tells_some p l : json_text (JObject [(key "Packet", JArray (p :: l))]) t -> tells_packets t (p :: l).
