(** * SpecReframe: packets shown alike apart from sizes of areas (C81). *)
From Coq Require Import Strings.String Strings.Byte List NArith.
From Verif Require Import Base Item Context.
Import ListNotations.

(** The same field of a signature or user attribute; but the number of octets noted beside an area of sub-packets may differ (not what is shown of the sub-packets in it). *)
Definition field_alike (i j : item) : Prop :=
  i = j \/ In (i_name i) [str "Hashed Subpacket"; str "Unhashed Subpacket"; str "Subpacket"] /\
           i_name j = i_name i /\ i_value j = i_value i /\ i_dump j = i_dump i /\ i_items j = i_items i.
(** The same packet; but the number of octets noted beside the packet and its areas may differ. *)
Definition packet_alike (i j : item) : Prop :=
  i_name j = i_name i /\ i_value j = i_value i /\ i_dump j = i_dump i /\ Forall2 field_alike (i_items i) (i_items j).
(** The same way to end: both give a packet, alike, with the same contents to be parsed within, and the same for what follows; or both fail alike or both crash. *)
Definition ends_alike (x y : res (item * option bytes) * cst) : Prop :=
  match fst x, fst y with
  | ROk (i, d), ROk (j, d') => packet_alike i j /\ d = d' /\ snd x = snd y
  | RErr e, RErr e' => e = e' /\ snd x = snd y
  | RPanic, RPanic => True
  | _, _ => False
  end.
