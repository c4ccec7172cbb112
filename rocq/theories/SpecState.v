(** * SpecState: what one packet leaves behind for the next (C10, C11). *)
From Coq Require Import Strings.String Strings.Byte List NArith ZArith Bool.
From Verif Require Import Base Item Context Env Parse SpecBase SpecValues SpecPacket SpecFrame SpecNest SpecParse SpecSub SpecSubs.
Import ListNotations.
Local Open Scope N_scope.

(** The two sub-packet areas of a version 4 or 5 signature. *)
Inductive area_of : bytes -> bytes -> Prop :=
| area_hashed v t a h A1 rest : b2n v = 4 \/ b2n v = 5 -> lenN A1 < 2 ^ 16 ->
    area_of (v :: t :: a :: h :: be_enc 2 (lenN A1) ++ A1 ++ rest) A1
| area_unhashed v t a h A1 A2 rest : b2n v = 4 \/ b2n v = 5 -> lenN A1 < 2 ^ 16 -> lenN A2 < 2 ^ 16 ->
    area_of (v :: t :: a :: h :: be_enc 2 (lenN A1) ++ A1 ++ be_enc 2 (lenN A2) ++ A2 ++ rest) A2.
(** The signature [body] has a sub-packet of one of the types, itself or in an embedded signature (type 32). *)
Inductive sig_has (types : list N) : bytes -> Prop :=
| has_here body area l ty b : area_of body area -> subs_in l area -> In (ty, b) l -> In (sub_type ty) types -> sig_has types body
| has_inside body area l ty b : area_of body area -> subs_in l area -> In (ty, b) l -> sub_type ty = 32 -> sig_has types b ->
    sig_has types body.


(** ** What the parser meets, in the order in which it meets it *)
Inductive event := EvPacket (tag : N) (body : bytes) | EvSub (ty : byte) (body : bytes).
(** A packet; packets parsed one by one; the sub-packets of a signature; a whole stream, where compressed packets are opened. *)
Inductive thing := Packet (tag : N) (body : bytes) | Packets (l : list (N * bytes)) | Subs (l : list (byte * bytes)) | Stream (l : list (N * bytes)).

(** Octets after the complete packets of a key block of which no packet is made: a packet that is cut short, or a
    packet of indeterminate length. *)
Inductive unread : bytes -> Prop :=
| unread_cut tag body q x : framed tag body (q ++ x) -> x <> [] -> sized (q ++ x) -> unread q
| unread_to_end tag body : tag < 16 -> unread (n2b (131 + 4 * tag) :: body).

Inductive meets (E : env) : thing -> list event -> Prop :=
| meets_packet tag body : tag <> 2 -> meets E (Packet tag body) [EvPacket tag body]
| meets_other_signature v rest : b2n v <> 4 -> b2n v <> 5 -> meets E (Packet 2 (v :: rest)) []
| meets_signature v t a h A1 A2 rest l1 l2 e1 e2 : b2n v = 4 \/ b2n v = 5 -> lenN A1 < 2 ^ 16 -> lenN A2 < 2 ^ 16 ->
    subs_in l1 A1 -> subs_in l2 A2 -> meets E (Subs l1) e1 -> meets E (Subs l2) e2 ->
    meets E (Packet 2 (v :: t :: a :: h :: be_enc 2 (lenN A1) ++ A1 ++ be_enc 2 (lenN A2) ++ A2 ++ rest)) (e1 ++ e2)
| meets_no_packet : meets E (Packets []) []
| meets_packets tag body l e1 e2 : meets E (Packet tag body) e1 -> meets E (Packets l) e2 -> meets E (Packets ((tag, body) :: l)) (e1 ++ e2)
| meets_no_sub : meets E (Subs []) []
| meets_sub ty b l e : sub_type ty <> 32 -> sub_type ty <> 38 -> meets E (Subs l) e -> meets E (Subs ((ty, b) :: l)) (EvSub ty b :: e)
| meets_embedded ty b l e1 e2 : sub_type ty = 32 -> meets E (Packet 2 b) e1 -> meets E (Subs l) e2 -> meets E (Subs ((ty, b) :: l)) (e1 ++ e2)
| meets_unknown_key ty k w l e : sub_type ty = 38 -> k <> x00 -> meets E (Subs l) e -> meets E (Subs ((ty, k :: w) :: l)) e
| meets_key ty w inner l e1 e2 : sub_type ty = 38 -> packets_in inner w -> meets E (Packets inner) e1 -> meets E (Subs l) e2 ->
    meets E (Subs ((ty, x00 :: w) :: l)) (e1 ++ e2)
| meets_cut_key ty w q inner l e1 e2 : sub_type ty = 38 -> packets_in inner w -> unread q ->
    meets E (Packets inner) e1 -> meets E (Subs l) e2 -> meets E (Subs ((ty, x00 :: w ++ q) :: l)) (e1 ++ e2)
| meets_end : meets E (Stream []) []
| meets_next tag body l e1 e2 : tag <> 8 -> meets E (Packet tag body) e1 -> meets E (Stream l) e2 -> meets E (Stream ((tag, body) :: l)) (e1 ++ e2)
| meets_compressed z d inner l e1 e2 : contents E z d -> input_of inner d -> meets E (Packets inner) e1 -> meets E (Stream l) e2 ->
    meets E (Stream ((8, z) :: l)) (e1 ++ e2)
| meets_unopened z l e : (forall d, ~ contents E z d) -> meets E (Stream l) e -> meets E (Stream ((8, z) :: l)) e.

(** ** What is remembered *)
(** Session keys (C11): a public-key (1) or symmetric-key (3) encrypted session key is remembered; encrypted data (9, 18) uses it up. *)
Definition after_tag (m : mode) (tag : N) : mode :=
  match tag with 1 => ModePubEnc | 3 => ModeSymEnc | 9 | 18 => ModeNotSpecified | _ => m end.
(** Signature creation times (C10): sub-packet 2 sets one; an expiration time, sub-packet 3, uses it up. *)
Definition after_sig_time (o : opts) (t : option datetime) (ev : event) : option datetime :=
  match ev with
  | EvSub ty b => match sub_type ty with 2 => Some (mkDT (firstn 4 b) (oUTC o)) | 3 => None | _ => t end
  | EvPacket _ _ => t
  end.
(** Key creation times (C10): a key of version 3, 4 or 5 sets one; a key expiration time, sub-packet 9, uses it up. *)
Definition is_key (tag : N) : bool := (tag =? 5) || (tag =? 6) || (tag =? 7) || (tag =? 14).
Definition after_key_time (o : opts) (t : option datetime) (ev : event) : option datetime :=
  match ev with
  | EvSub ty b => match sub_type ty with 9 => None | _ => t end
  | EvPacket tag (v :: b) => if is_key tag && (3 <=? b2n v) && (b2n v <=? 5) then Some (mkDT (firstn 4 b) (oUTC o)) else t
  | EvPacket _ [] => t
  end.
Definition after_event (o : opts) (c : cst) (ev : event) : cst :=
  mkCst (match ev with EvPacket tag _ => after_tag (c_mode c) tag | EvSub _ _ => c_mode c end)
        (after_sig_time o (c_sig c) ev) (after_key_time o (c_key c) ev).
Definition after_events (o : opts) (evs : list event) (c : cst) : cst := fold_left (after_event o) evs c.

(** ** C10 and C11 in terms of what was met *)
Definition tags_of (evs : list event) : list N := flat_map (fun ev => match ev with EvPacket t _ => [t] | EvSub _ _ => [] end) evs.
(** No session key and no encrypted data. *)
Definition quiet (tags : list N) : Prop := forall t, In t tags -> ~ In t [1; 3; 9; 18].
(** The kind of the most recent session key since the previous encrypted data. *)
Definition recent_key (tags : list N) (m : mode) : Prop :=
  match m with
  | ModePubEnc => exists before after, tags = before ++ 1 :: after /\ quiet after
  | ModeSymEnc => exists before after, tags = before ++ 3 :: after /\ quiet after
  | ModeNotSpecified => quiet tags \/ exists before t after, tags = before ++ t :: after /\ In t [9; 18] /\ quiet after
  end.
(** What encrypted data shows after a session key of the kind [m]. *)
Definition encrypted_shown (o : opts) (tag : N) (body : bytes) (m : mode) : item :=
  packet_shown o tag body
    [if tag =? 9 then Item (str "Encrypted data") (tag09_value m) (dump_if (oDebug o) body) (bytes_note (lenN body)) []
     else Item (str "Encrypted data") [] (dump_if (oDebug o) body) (tag18_note m (lenN body)) []].
(** None of the sub-packets met is of one of the types, at any depth. *)
Definition no_sub_of (types : list N) (evs : list event) : Prop := forall ty b, In (EvSub ty b) evs -> ~ In (sub_type ty) types.
(** None of the packets met is a key. *)
Definition no_key_in (evs : list event) : Prop := forall tag b, In (EvPacket tag b) evs -> is_key tag = false.
