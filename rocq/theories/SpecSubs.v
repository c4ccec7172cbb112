(** * SpecSubs: what the single sub-packets show (RFC 4880bis 5.2.3; C10, C29, C32, C34, C49, C50). *)
From Coq Require Import Strings.String Strings.Byte List NArith ZArith Bool.
From Verif Require Import Base Item Context Env Time SpecBase SpecValues SpecText SpecPacket SpecFrame SpecSub Float.
Import ListNotations.
Local Open Scope N_scope.

(** The type number of a sub-packet; the top bit of the type octet is the critical bit. *)
Definition sub_type (ty : byte) : N := b2n ty mod 128.

(** A sub-packet that is shown on one line, with a value. *)
Definition sub_value (o : opts) (ty : byte) (body value : bytes) : item :=
  Item (sub_name ty) value (dump_if (oDebug o) body) (bytes_note (lenN body)) [].

(** A text: as it is (control characters made visible), or in hexadecimal if it is no UTF-8. *)
Inductive text_shown (name : bytes) (f : bool) : bytes -> item -> Prop :=
| text_none : text_shown name f [] (Item name [] [] (str "0 byte") [])
| text_valid l : Forall scalar l -> l <> [] ->
    text_shown name f (utf8s l) (Item name (flat_map shown_char l) (dump_if f (utf8s l)) [] [])
| text_invalid body : ~ is_utf8 body ->
    text_shown name f body (Item name [] (hex_text body) (str "invalid text string") []).

(** Octets in hexadecimal, with their number. *)
Definition raw_shown (name : string) (d : bytes) : item := Item (str name) [] (hex_text d) (bytes_note (lenN d)) [].

(** ** Flags *)
Definition flag_shown (text : bytes) : item := Item (str "Flag") text [] [] [].
(** The flags of an octet: masks with their meaning; None stands for flags without a meaning, which are shown
    together.  [k] is the number of the octet, counted from 1. *)
Definition flag_defs := list (N * option string).
Definition flag_text (k bits : N) (meaning : option string) : bytes :=
  match meaning with
  | Some s => str s
  | None => str "Unknown flag" ++ dec k ++ str "(0x" ++ two_hex (n2b bits) ++ str ")"
  end.
Definition flag_lines (defs : flag_defs) (k : N) (b : byte) : list item :=
  flat_map (fun d => let bits := N.land (b2n b) (fst d) in
                     if bits =? 0 then [] else [flag_shown (flag_text k bits (snd d))]) defs.
(** Octets without any defined flag. *)
Fixpoint more_lines (k : N) (l : bytes) : list item :=
  match l with [] => [] | b :: t => flag_lines [(0xff, None)] k b ++ more_lines (k + 1) t end.

(** 5.2.3.22 key flags, 5.2.3.25 features, 5.2.3.18 key server preferences, 5.2.3.17 notation data *)
Definition key_flags1 : flag_defs :=
  [(0x01, Some "This key may be used to certify other keys."); (0x02, Some "This key may be used to sign data.");
   (0x04, Some "This key may be used to encrypt communications."); (0x08, Some "This key may be used to encrypt storage.");
   (0x10, Some "The private component of this key may have been split by a secret-sharing mechanism.");
   (0x20, Some "This key may be used for authentication."); (0x40, None);
   (0x80, Some "The private component of this key may be in the possession of more than one person.")]%string.
Definition key_flags2 : flag_defs :=
  [(0x04, Some "This key may be used as an additional decryption subkey (ADSK).");
   (0x08, Some "This key may be used for timestamping."); (0xf3, None)]%string.
Definition features1 : flag_defs :=
  [(0x01, Some "Modification Detection (packets 18 and 19)");
   (0x02, Some "AEAD Encrypted Data Packet (packet 20) and version 5 Symmetric-Key Encrypted Session Key Packets (packet 3)");
   (0x04, Some "Version 5 Public-Key Packet format and corresponding new fingerprint format"); (0xf8, None)]%string.
Definition keyserver1 : flag_defs := [(0x80, Some "No-modify"); (0x7f, None)]%string.
Definition notation1 : flag_defs := [(0x80, Some "Human-readable"); (0x7f, None)]%string.

(** ** Other values *)
Definition revocation_class (c : byte) : bytes :=
  if N.testbit (b2n c) 7 then (if N.testbit (b2n c) 6 then str "Sensitive" else str "Normal") else str "Unknown".
(** 5.2.3.24 *)
Definition reason_registry : registry :=
  [(0, "No reason specified (key revocations or cert revocations)"); (1, "Key is superseded (key revocations)");
   (2, "Key material has been compromised (key revocations)"); (3, "Key is retired and no longer used (key revocations)");
   (32, "User ID resultrmation is no longer valid (cert revocations)")]%string.
Definition reason_text (c : byte) : bytes :=
  (if (100 <=? b2n c) && (b2n c <=? 110) then str "(Private Use)"
   else match find (fun p => fst p =? b2n c) reason_registry with Some p => str (snd p) | None => str "Unknown reason" end)
  ++ str " (" ++ dec (b2n c) ++ str ")".
Definition fpr_note (v : N) : bytes :=
  if v =? 4 then str "need 20 octets length" else if v =? 5 then str "need 32 octets length" else str "Unknown".
Definition number_shown (name : string) (n : N) : item := Item (str name) (dec n) [] [] [].

(** ** Expiration times *)
(** The note of an expiration time of [secs] seconds: the date, if the creation time [start] is known. *)
Definition expire_note (E : env) (start : option datetime) (secs : N) : bytes :=
  match start with
  | Some d => if be (dt_tm d) =? 0 then [] else unixtime2rfc3339 (e_tz E) ((be (dt_tm d) + secs) mod 2 ^ 32) (dt_utc d)
  | None => []
  end.
Definition expire_shown (o : opts) (E : env) (ty : byte) (start : option datetime) (secs : N) : item :=
  Item (sub_name ty) (days_text secs ++ str " days after") (dump_if (oDebug o) (be_enc 4 secs)) (expire_note E start secs) [].

(** ** Key blocks *)
(** The header of a packet whose body comes in one piece. *)
Inductive header (tag n : N) : bytes -> Prop :=
| head_old_one : tag < 16 -> n < 2 ^ 8 -> header tag n (n2b (128 + 4 * tag) :: be_enc 1 n)
| head_old_two : tag < 16 -> n < 2 ^ 16 -> header tag n (n2b (129 + 4 * tag) :: be_enc 2 n)
| head_old_four : tag < 16 -> n < 2 ^ 32 -> header tag n (n2b (130 + 4 * tag) :: be_enc 4 n)
| head_new len : tag < 64 -> new_length n len -> header tag n (n2b (192 + tag) :: len).
(** What a key block sub-packet shows, with the items of its packets. *)
Definition key_shown (o : opts) (ty : byte) (w : bytes) (is : list item) : item :=
  sub_shown o ty (x00 :: w)
    [number_shown "Type" 0; Item (str "Key data") [] (dump_if (oDebug o) w) (bytes_note (lenN w)) is].

(** ** Notation data and user attributes *)
Definition notation_flags (f0 f1 f2 f3 : byte) : list item :=
  flag_lines notation1 1 f0 ++ more_lines 2 [f1; f2; f3].
Definition notation_octets (f0 f1 f2 f3 : byte) (name value : bytes) : bytes :=
  [f0; f1; f2; f3] ++ be_enc 2 (lenN name) ++ be_enc 2 (lenN value) ++ name ++ value.
(** The value is a text if it is marked as such (top bit of the first flag octet), else octets. *)
Definition notation_value (o : opts) (f0 : byte) (value : bytes) (it : item) : Prop :=
  if N.testbit (b2n f0) 7 then text_shown (str "Value") (oDebug o) value it
  else it = Item (str "Value") [] (hex_text value) [] [].

(** ** What a sub-packet of a signature shows, type by type
    [sub_reads o E ty cs body it cs'] says that the sub-packet with type octet [ty] and body [body] is shown as [it],
    and what is remembered of creation times changes from [cs] to [cs'].  Octets [extra] after the fields of a
    sub-packet of fixed size are not shown.  Embedded signatures (32) and key blocks (38) are described elsewhere. *)
Definition yes_no (b : byte) (yes no : string) : bytes := str (if b2n b =? 0 then no else yes).
Inductive sub_reads (o : opts) (E : env) (ty : byte) (cs : cst) : bytes -> item -> cst -> Prop :=
| rd_created t extra : sub_type ty = 2 -> t < 2 ^ 32 -> sub_reads o E ty cs (be_enc 4 t ++ extra)
    (Item (sub_name ty) (unixtime2rfc3339 (e_tz E) t (oUTC o)) (dump_if (oDebug o) (be_enc 4 t)) [] [])
    (with_sig (Some (mkDT (be_enc 4 t) (oUTC o))) cs)
| rd_expires t extra : sub_type ty = 3 -> t < 2 ^ 32 ->
    sub_reads o E ty cs (be_enc 4 t ++ extra) (expire_shown o E ty (c_sig cs) t) (with_sig None cs)
| rd_exportable b rest : sub_type ty = 4 -> sub_reads o E ty cs (b :: rest)
    (Item (sub_name ty) (yes_no b "Exportable" "Not exportable") (hex_text rest) (bytes_note (lenN (b :: rest))) []) cs
| rd_trust l a extra : sub_type ty = 5 -> sub_reads o E ty cs (l :: a :: extra)
    (sub_shown o ty (l :: a :: extra) [number_shown "Level" (b2n l); number_shown "Trust amount" (b2n a)]) cs
| rd_text body it : sub_type ty = 6 \/ sub_type ty = 24 \/ sub_type ty = 26 \/ sub_type ty = 28 ->
    text_shown (sub_name ty) (oDebug o) body it -> sub_reads o E ty cs body it cs
| rd_revocable b extra : sub_type ty = 7 ->
    sub_reads o E ty cs (b :: extra) (sub_value o ty (b :: extra) (yes_no b "Revocablee" "Not revocable")) cs
| rd_key_expires t extra : sub_type ty = 9 -> t < 2 ^ 32 ->
    sub_reads o E ty cs (be_enc 4 t ++ extra) (expire_shown o E ty (c_key cs) t) (with_key None cs)
| rd_symmetric body : sub_type ty = 11 -> sub_reads o E ty cs body (sub_shown o ty body (map (sym_shown (oDebug o)) body)) cs
| rd_revoker c a fpr : sub_type ty = 12 -> sub_reads o E ty cs (c :: a :: fpr)
    (sub_shown o ty (c :: a :: fpr)
      [Item (str "Class") (revocation_class c) (two_hex c) [] []; pub_shown (oDebug o) a; raw_shown "Fingerprint" fpr]) cs
| rd_issuer id extra : sub_type ty = 16 -> length id = 8%nat ->
    sub_reads o E ty cs (id ++ extra) (Item (sub_name ty) (str "0x" ++ flat_map two_hex id) [] [] []) cs
| rd_notation f0 f1 f2 f3 name value extra itn itv : sub_type ty = 20 -> lenN name < 2 ^ 16 -> lenN value < 2 ^ 16 ->
    text_shown (str "Name") (oDebug o) name itn -> notation_value o f0 value itv ->
    sub_reads o E ty cs (notation_octets f0 f1 f2 f3 name value ++ extra)
      (sub_shown o ty (notation_octets f0 f1 f2 f3 name value ++ extra) (notation_flags f0 f1 f2 f3 ++ [itn; itv])) cs
| rd_hash body : sub_type ty = 21 -> sub_reads o E ty cs body (sub_shown o ty body (map (hash_shown (oDebug o)) body)) cs
| rd_compression body : sub_type ty = 22 -> sub_reads o E ty cs body (sub_shown o ty body (map (comp_shown (oDebug o)) body)) cs
| rd_keyserver b rest : sub_type ty = 23 ->
    sub_reads o E ty cs (b :: rest) (sub_shown o ty (b :: rest) (flag_lines keyserver1 1 b ++ more_lines 2 rest)) cs
| rd_primary b extra : sub_type ty = 25 ->
    sub_reads o E ty cs (b :: extra) (sub_value o ty (b :: extra) (yes_no b "Primary" "Not primary")) cs
| rd_key_flags1 b : sub_type ty = 27 -> sub_reads o E ty cs [b] (sub_shown o ty [b] (flag_lines key_flags1 1 b)) cs
| rd_key_flags2 b c rest : sub_type ty = 27 -> sub_reads o E ty cs (b :: c :: rest)
    (* the code counts the third octet as the second again *)
    (sub_shown o ty (b :: c :: rest) (flag_lines key_flags1 1 b ++ flag_lines key_flags2 2 c ++ more_lines 2 rest)) cs
| rd_reason c : sub_type ty = 29 -> sub_reads o E ty cs [c] (sub_value o ty [c] (reason_text c)) cs
| rd_reason_text c text it : sub_type ty = 29 -> text <> [] -> text_shown (str "Additional resultrmation") (oDebug o) text it ->
    sub_reads o E ty cs (c :: text)
      (Item (sub_name ty) (reason_text c) (dump_if (oDebug o) (c :: text)) (bytes_note (lenN (c :: text))) [it]) cs
| rd_features b rest : sub_type ty = 30 ->
    sub_reads o E ty cs (b :: rest) (sub_shown o ty (b :: rest) (flag_lines features1 1 b ++ more_lines 2 rest)) cs
| rd_target a h d : sub_type ty = 31 -> sub_reads o E ty cs (a :: h :: d)
    (sub_shown o ty (a :: h :: d) [pub_shown (oDebug o) a; hash_shown (oDebug o) h; raw_shown "Hash" d]) cs
| rd_fingerprint v d : sub_type ty = 33 \/ sub_type ty = 35 -> sub_reads o E ty cs (v :: d)
    (sub_shown o ty (v :: d) [Item (str "Version") (dec (b2n v)) [] (fpr_note (b2n v)) []; raw_shown "Fingerprint" d]) cs
| rd_aead body : sub_type ty = 34 -> sub_reads o E ty cs body (sub_shown o ty body (map (aead_shown (oDebug o)) body)) cs
| rd_digests d : sub_type ty = 37 -> sub_reads o E ty cs d
    (sub_shown o ty d [Item (str "certification digests") [] (dump_if (oCert o) d) (bytes_note (lenN d)) []]) cs.

(** The number of octets that the fields of a sub-packet need. *)
Definition fields_need (ty : byte) (body : bytes) : N :=
  match sub_type ty with
  | 2 | 3 | 9 => 4
  | 4 | 7 | 23 | 25 | 27 | 29 | 30 | 33 | 35 | 38 => 1
  | 5 | 12 | 31 => 2
  | 16 => 8
  | 20 => 8 + be (firstn 2 (skipn 4 body)) + be (firstn 2 (skipn 6 body))
  | _ => 0
  end.
(** The types with a meaning here; all others are reserved, private or not assigned. *)
Definition sub_types : list N := [2; 3; 4; 5; 6; 7; 9; 11; 12; 16; 20; 21; 22; 23; 24; 25; 26; 27; 28; 29; 30; 31; 32; 33; 34; 35; 37; 38].
(** The packet tags with a meaning (RFC 4880bis 4.3); tags 60 to 63 are for private use. *)
Definition packet_tags : list N := [1; 2; 3; 4; 5; 6; 7; 8; 9; 10; 11; 12; 13; 14; 17; 18; 19; 20].

(** ** Image attributes (5.12.1): header length (two octets, little-endian), version, encoding, ... *)
Definition image_shown (o : opts) (ty : byte) (body : bytes) (fields : list item) (size : Z) : item :=
  sub_shown o ty body (fields ++ [Item (str "Image data") [] [] (decZ size ++ str " bytes") []]).
