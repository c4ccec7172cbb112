(** * SpecShown: what the packets of an input show, all in one (C67).

    [packet_reads o E tag body cs it cs']: the packet with that tag and body is shown as the item [it]; what is remembered of the
    packets before it (whether a session key was seen, the creation times of signature and key) changes from [cs] to [cs'].
    The definitions here are about octets and items only; nothing of the parser is used. *)
From Coq Require Import Strings.String Strings.Byte List NArith ZArith Bool.
From Verif Require Import Base Item Context Env SpecBase SpecValues SpecText SpecPacket SpecFrame SpecSub SpecSubs SpecLiteral SpecSecret
  SpecNest SpecComp.
From Verif Require SpecAccept.
Import ListNotations.
Local Open Scope N_scope.

(** The item of a secret-key packet: version, public part, secret part, surplus octets. *)
Definition secret_packet (o : opts) (E : env) (tag : N) (body : bytes) (v : byte) (P : list item) (note : bytes) (S : list item) (extra : bytes) : item :=
  packet_shown o tag body (show o E (FVersion KPublicKey v) :: public_shown P :: secret_shown note S :: surplus "Unknown data" (oDebug o) extra).
(** The item of a signature of version 4 or 5. *)
Definition signature_packet (o : opts) (E : env) (body : bytes) (v t a h : byte) (A1 : bytes) (r1 : list item) (A2 : bytes) (r2 : list item) (tail : list item) : item :=
  packet_shown o 2 body (shows o E [FVersion KSignature v; FSigType t; FPub a; FHash h]
    ++ sig_area_shown o "Hashed Subpacket" A1 r1 ++ sig_area_shown o "Unhashed Subpacket" A2 r2 ++ tail).

(** The fields of an image attribute behind its length. *)
Inductive image_header (v : byte) : bytes -> list item -> Prop :=
| image_1 rest : b2n v = 1 -> image_header v rest [number_shown "Version" 1]
| image_experimental e rest : 100 <= b2n v <= 110 -> image_header v (e :: rest)
    [Item (str "Version") (dec (b2n v)) [] (str "private or experimental use") [];
     Item (str "Encoding") (str (if b2n e =? 1 then "JPEG" else "Unknown")) [] (str "(enc " ++ dec (b2n e) ++ str ")") []]
| image_unknown rest : b2n v <> 1 -> ~ 100 <= b2n v <= 110 ->
    image_header v rest [Item (str "Version") (dec (b2n v)) [] (str "Unknown") []].
(** The attributes of a user; only images have a meaning.  The code takes the length of the header of an image with the octets swapped. *)
Inductive attribute_reads (o : opts) (ty : byte) : bytes -> item -> Prop :=
| a_image a b v rest fs : sub_type ty = 1 -> image_header v rest fs ->
    attribute_reads o ty (a :: b :: v :: rest)
      (image_shown o ty (a :: b :: v :: rest) fs (Z.of_N (lenN (a :: b :: v :: rest)) - Z.of_N (be [a; b])))
| a_other body : sub_type ty <> 1 -> attribute_reads o ty body (sub_shown o ty body []).

(** ** Parts of packets
    The relations below take [input], say which items its front shows, and give the octets behind. *)

(** The last field of a layout may be missing altogether, if it is one of these; it is then shown as if it were empty. *)
Definition may_lack (s : slot) : Prop := match s with SKdf | SParm _ => True | _ => False end.
Definition lacking (s : slot) : field := match s with SParm n => FParm n [] | _ => FKdf [] end.
(** The fields that algorithm [a] prescribes.  Those of an algorithm without a layout are shown as one item with all that is left; those
    octets count as surplus nevertheless. *)
Inductive fields_read (o : opts) (E : env) (t : N -> option (list slot)) (label : N -> bytes) (a : byte) : bytes -> list item -> bytes -> Prop :=
| f_all l rest : material t a l -> fields_read o E t label a (encs l ++ rest) (shows o E l) rest
| f_lacking s x l : t (b2n a) = Some (s ++ [x]) -> may_lack x -> Forall2 fills s l ->
    fields_read o E t label a (encs l) (shows o E (l ++ [lacking x])) []
| f_unknown d : t (b2n a) = None -> fields_read o E t label a d [unknown_fields (oDebug o) (label (b2n a)) d] d.

(** 5.5.2 the public part of a key of version [v], behind the version: the algorithm and the creation time, if there are.  In version 5 the
    fields are counted; surplus octets inside are not shown. *)
Inductive public_reads (o : opts) (E : env) (v : byte) : bytes -> byte -> option N -> list item -> bytes -> Prop :=
| k_3 t days a d fs rest : b2n v = 3 -> t < 2 ^ 32 -> days < 65536 -> fields_read o E pub_layout unknown_alg a d fs rest ->
    public_reads o E v (be_enc 4 t ++ be_enc 2 days ++ a :: d) a (Some t)
      (shows o E [FTime "Public key creation time" t; FDays days; FPub a] ++ fs) rest
| k_4 t a d fs rest : b2n v = 4 -> t < 2 ^ 32 -> fields_read o E pub_layout unknown_alg a d fs rest ->
    public_reads o E v (be_enc 4 t ++ a :: d) a (Some t) (shows o E [FTime "Public key creation time" t; FPub a] ++ fs) rest
| k_5 t a d fs inside rest : b2n v = 5 -> t < 2 ^ 32 -> lenN d < 2 ^ 32 -> fields_read o E pub_layout unknown_alg a d fs inside ->
    public_reads o E v (be_enc 4 t ++ a :: be_enc 4 (lenN d) ++ d ++ rest) a (Some t)
      (shows o E [FTime "Public key creation time" t; FPub a] ++ fs) rest
| k_other d : ~ In (b2n v) [3; 4; 5] -> public_reads o E v d x00 None [] d.
(** The creation time of a key is remembered. *)
Definition key_noted (o : opts) (t : option N) (cs : cst) : cst := match t with Some x => with_key (key_time o x) cs | None => cs end.

(** 3.7.1 string-to-key specifiers, and whether an IV follows.  The private type 101 without its marker has no fields. *)
Inductive specifier_reads (o : opts) : bytes -> bool -> item -> bytes -> Prop :=
| k_specifier s rest : s2k_wf s -> specifier_reads o (s2k_enc s ++ rest) (s2k_iv s) (s2k_tree o s) rest
| k_private rest : lenN rest < 4 \/ firstn 3 rest <> str "GNU" -> specifier_reads o (n2b 101 :: rest) true (s2k_shown (oDebug o) (n2b 101)) rest.
(** The optional fields of a secret key by its usage octet: cipher, AEAD algorithm, specifier. *)
Inductive optional_reads (o : opts) (E : env) (u : byte) : bytes -> byte -> bool -> list item -> bytes -> Prop :=
| o_none d : b2n u = 0 -> optional_reads o E u d x00 false [] d
| o_cipher c d : 1 <= b2n u <= 252 -> optional_reads o E u (c :: d) c true [show o E (FSym c)] d
| o_aead c x d iv s rest : b2n u = 253 -> specifier_reads o d iv s rest ->
    optional_reads o E u (c :: x :: d) c iv [show o E (FSym c); show o E (FAead x); s] rest
| o_specifier c d iv s rest : 254 <= b2n u -> specifier_reads o d iv s rest ->
    optional_reads o E u (c :: d) c iv [show o E (FSym c); s] rest.
Definition iv_lines (o : opts) (E : env) (u : byte) (iv : bool) (d : bytes) : list item :=
  if iv then [show o E (FDumped (if b2n u =? 253 then "nonce for the AEAD" else "IV") d)] else [].
(** Secret numbers that are not encrypted.  Of an unknown algorithm all octets but the last two are taken. *)
Inductive numbers_read (o : opts) (E : env) (a : byte) : bytes -> list item -> bytes -> Prop :=
| n_known l rest : material sec_layout a l -> numbers_read o E a (encs l ++ rest) (shows o E l) rest
| n_unknown d x y : sec_layout (b2n a) = None -> numbers_read o E a (d ++ [x; y]) [unknown_secret o a d] [x; y].
(** 5.5.3 in version 5: the optional fields behind their count, which may be 0, and the IV, which is not counted. *)
Inductive counted_options (o : opts) (E : env) (u : byte) : bytes -> list item -> bytes -> Prop :=
| co_none rest : counted_options o E u (x00 :: rest) [] rest
| co_some d c iv is inside w rest : 0 < lenN d < 256 -> optional_reads o E u d c iv is inside -> lenN w = (if iv then cipher_iv_octets (b2n c) else 0) ->
    counted_options o E u (n2b (lenN d) :: d ++ w ++ rest) (is ++ iv_lines o E u iv w ++ surplus "Unknown data" (oDebug o) inside) rest.
(** The numbers behind their count, which may be 0, with the note of the secret part; the checksum is not counted. *)
Inductive counted_numbers (o : opts) (E : env) (a u : byte) : bytes -> bytes -> list item -> bytes -> Prop :=
| cn_none rest : counted_numbers o E a u (be_enc 4 0 ++ rest) [] [] rest
| cn_plain d is inside chk rest : b2n u = 0 -> 0 < lenN d < 2 ^ 32 -> numbers_read o E a d is inside -> length chk = 2%nat ->
    counted_numbers o E a u (be_enc 4 (lenN d) ++ d ++ chk ++ rest) (protection_note (b2n u))
      (is ++ show o E (FDumped "2-octet checksum" chk) :: surplus "Unknown data" (oDebug o) inside) rest
| cn_sealed d rest : b2n u <> 0 -> 0 < lenN d < 2 ^ 32 ->
    counted_numbers o E a u (be_enc 4 (lenN d) ++ d ++ rest) (protection_note (b2n u)) [sealed o a d] rest.
(** The secret part of a key of version [v] and algorithm [a]. *)
Inductive secret_reads (o : opts) (E : env) (v a : byte) : bytes -> bytes -> list item -> bytes -> Prop :=
| x_plain d is chk rest : b2n v <> 5 -> numbers_read o E a d is (chk ++ rest) -> length chk = 2%nat ->
    secret_reads o E v a (x00 :: d) (protection_note 0) (is ++ [show o E (FDumped "2-octet checksum" chk)]) rest
| x_sealed u d c iv is w ct : b2n v <> 5 -> b2n u <> 0 -> optional_reads o E u d c iv is (w ++ ct) ->
    lenN w = (if iv then cipher_iv_octets (b2n c) else 0) ->
    secret_reads o E v a (u :: d) (protection_note (b2n u)) (is ++ iv_lines o E u iv w ++ [sealed o a ct]) []
| x_counted u d1 d2 is1 is2 note rest : b2n v = 5 -> counted_options o E u d1 is1 d2 -> counted_numbers o E a u d2 note is2 rest ->
    secret_reads o E v a (u :: d1) note (is1 ++ is2) rest.

(** 5.2.2 signatures of version 3.  They are shown as far as their fields are complete.  First the hashed material, which has 5 octets;
    what follows is [None] if octets of it are missing. *)
Definition hashed_shown (value dump : bytes) (n : N) (l : list item) : item := Item (str "Hashed material") value dump (bytes_note n) l.
Inductive hashed_reads (o : opts) (E : env) : bytes -> item -> option bytes -> Prop :=
| h_five t tm rest : tm < 2 ^ 32 ->
    hashed_reads o E (x05 :: t :: be_enc 4 tm ++ rest) (hashed_shown [] [] 5 (shows o E [FSigType t; FTime "Signature creation time" tm])) (Some rest)
| h_five_type t q : (length q < 4)%nat -> hashed_reads o E (x05 :: t :: q) (hashed_shown [] [] 5 [show o E (FSigType t)]) None
| h_five_none : hashed_reads o E [x05] (hashed_shown [] [] 5 []) None
| h_other n d rest : b2n n <> 5 -> lenN d = b2n n ->
    hashed_reads o E (n :: d ++ rest) (hashed_shown (str "Unknown") (dump_if (oDebug o) d) (b2n n) []) (Some rest)
| h_other_cut n q : b2n n <> 5 -> lenN q < b2n n -> hashed_reads o E (n :: q) (hashed_shown (str "Unknown") [] (b2n n) []) None.
(** Then issuer, algorithms and numbers. *)
Inductive tail_reads (o : opts) (E : env) : bytes -> list item -> Prop :=
| l_none q : (length q < 8)%nat -> tail_reads o E q []
| l_issuer id : length id = 8%nat -> tail_reads o E id (shows o E [FKeyID id])
| l_public id a : length id = 8%nat -> tail_reads o E (id ++ [a]) (shows o E [FKeyID id; FPub a])
| l_hash id a h q : length id = 8%nat -> (length q < 2)%nat -> tail_reads o E (id ++ a :: h :: q) (shows o E [FKeyID id; FPub a; FHash h])
| l_cut id a h h2 s x s' l f q : length id = 8%nat -> length h2 = 2%nat -> sig_layout (b2n a) = Some (s ++ x :: s') -> Forall2 fills s l ->
    fills x f -> strict_prefix q (enc f) ->
    tail_reads o E (id ++ a :: h :: h2 ++ encs l ++ q) (shows o E ([FKeyID id; FPub a; FHash h; FHash2 h2] ++ l))
| l_all id a h h2 d fs rest : length id = 8%nat -> length h2 = 2%nat -> fields_read o E sig_layout sig_label a d fs rest ->
    tail_reads o E (id ++ a :: h :: h2 ++ d) (shows o E [FKeyID id; FPub a; FHash h; FHash2 h2] ++ fs ++ surplus "Unknown data" (oDebug o) rest).

(** ** One packet
    Compressed data are not opened here. *)
Inductive packet_reads (o : opts) (E : env) : N -> bytes -> cst -> item -> cst -> Prop :=
(* 5.1 public-key encrypted session keys *)
| p_session v id a d fs rest cs : length id = 8%nat -> fields_read o E ses_layout ses_label a d fs rest ->
    let body := v :: id ++ a :: d in
    packet_reads o E 1 body cs
      (packet_shown o 1 body (shows o E [FVersion KPubSession v; FKeyID id; FPub a] ++ fs ++ surplus "Unknown data" (oDebug o) rest)) (with_mode ModePubEnc cs)
(* 5.3 symmetric-key encrypted session keys *)
| p_symmetric a d iv s rest cs : specifier_reads o d iv s rest ->
    let body := x04 :: a :: d in
    packet_reads o E 3 body cs
      (packet_shown o 3 body (shows o E [FVersion KSymSession x04; FSym a] ++ s :: surplus "Unknown data" (oDebug o) rest)) (with_mode ModeSymEnc cs)
| p_symmetric_other v extra cs : b2n v <> 4 ->
    packet_reads o E 3 (v :: extra) cs
      (packet_shown o 3 (v :: extra) (show o E (FVersion KSymSession v) :: surplus "Unknown data" (oDebug o) extra)) (with_mode ModeSymEnc cs)
(* 5.4 one-pass signatures *)
| p_one_pass v s h a id l extra cs : length id = 8%nat ->
    let fields := [FVersion KOnePass v; FSigType s; FHash h; FPub a; FKeyID id; FLast l] in
    packet_reads o E 4 (encs fields ++ extra) cs
      (packet_shown o 4 (encs fields ++ extra) (shows o E fields ++ surplus "Unknown data" (oDebug o) extra)) cs
(* 5.7, 5.13, 5.14 encrypted data and modification detection *)
| p_encrypted body cs : packet_reads o E 9 body cs
    (packet_shown o 9 body [Item (str "Encrypted data") (tag09_value (c_mode cs)) (dump_if (oDebug o) body) (bytes_note (lenN body)) []])
    (with_mode ModeNotSpecified cs)
| p_protected body cs : packet_reads o E 18 body cs
    (packet_shown o 18 body [Item (str "Encrypted data") [] (dump_if (oDebug o) body) (tag18_note (c_mode cs) (lenN body)) []])
    (with_mode ModeNotSpecified cs)
| p_mdc body cs : packet_reads o E 19 body cs
    (packet_shown o 19 body [Item (str "MDC") [] (dump_if (oDebug o) body) (str "SHA-1 (20 bytes)") []]) cs
(* 5.16 AEAD encrypted data; the code takes 16 octets for the nonce of OCB, and shows nothing behind if octets of the nonce are missing *)
| p_aead v s a c nonce extra cs : lenN nonce = (if b2n a =? 2 then 16 else aead_nonce_octets (b2n a)) ->
    let fields := [FVersion KAead v; FSym s; FAead a; FChunk c; FDumped "IV" nonce] in
    packet_reads o E 20 (encs fields ++ extra) cs
      (packet_shown o 20 (encs fields ++ extra) (shows o E fields ++ surplus "Encrypted data and authentication tag" (oDebug o) extra)) cs
| p_aead_cut v s a c q cs : lenN q < (if b2n a =? 2 then 16 else aead_nonce_octets (b2n a)) ->
    let fields := [FVersion KAead v; FSym s; FAead a; FChunk c] in
    packet_reads o E 20 (encs fields ++ q) cs (packet_shown o 20 (encs fields ++ q) (shows o E fields)) cs
(* 5.5.1 public keys *)
| p_public tag v d a t fs rest cs : In tag [6; 14] -> public_reads o E v d a t fs rest ->
    packet_reads o E tag (v :: d) cs
      (packet_shown o tag (v :: d) (show o E (FVersion KPublicKey v) :: fs ++ surplus "Unknown data" (oDebug o) rest)) (key_noted o t cs)
(* 5.5.3 secret keys *)
| p_secret tag v d a t fs d' note is rest cs : In tag [5; 7] -> public_reads o E v d a t fs d' -> secret_reads o E v a d' note is rest ->
    packet_reads o E tag (v :: d) cs (secret_packet o E tag (v :: d) v fs note is rest) (key_noted o t cs)
(* 5.2 signatures *)
| p_signature3_version cs : packet_reads o E 2 [x03] cs (packet_shown o 2 [x03] [show o E (FVersion KSignature x03)]) cs
| p_signature3_cut d it cs : hashed_reads o E d it None ->
    packet_reads o E 2 (x03 :: d) cs (packet_shown o 2 (x03 :: d) [show o E (FVersion KSignature x03); it]) cs
| p_signature3 d it rest l cs : hashed_reads o E d it (Some rest) -> tail_reads o E rest l ->
    packet_reads o E 2 (x03 :: d) cs (packet_shown o 2 (x03 :: d) (show o E (FVersion KSignature x03) :: it :: l)) cs
| p_signature v t a h A1 A2 h2 d fs rest l1 l2 r1 r2 cs cs1 cs2 : b2n v = 4 \/ b2n v = 5 -> length h2 = 2%nat ->
    fields_read o E sig_layout sig_label a d fs rest ->
    lenN A1 < 65536 -> lenN A2 < 65536 -> subs_in l1 A1 -> subs_in l2 A2 -> subs_read o E l1 cs r1 cs1 -> subs_read o E l2 cs1 r2 cs2 ->
    let body := sig_octets v t a h A1 A2 h2 [] ++ d in
    packet_reads o E 2 body cs
      (signature_packet o E body v t a h A1 r1 A2 r2 (show o E (FHash2 h2) :: fs ++ surplus "Unknown data" (oDebug o) rest)) cs2
| p_signature_other v extra cs : ~ In (b2n v) [3; 4; 5] ->
    packet_reads o E 2 (v :: extra) cs
      (packet_shown o 2 (v :: extra) (show o E (FVersion KSignature v) :: surplus "Unknown data" (oDebug o) extra)) cs
(* 5.8 to 5.12: marker, literal data, trust, user ID, user attribute *)
| p_marker body cs : packet_reads o E 10 body cs (packet_shown o 10 body [data_shown "Literal data" (oMarker o) body]) cs
| p_literal f name t d it cs : lenN name < 256 -> t < 2 ^ 32 -> text_shown (str "File name") (oLiteral o) name it ->
    let body := literal_octets f name t ++ d in
    packet_reads o E 11 body cs
      (packet_shown o 11 body [format_shown f; it; file_time_shown o E t; data_shown "Literal data" (oLiteral o) d]) cs
| p_trust body cs : packet_reads o E 12 body cs (packet_shown o 12 body [data_shown "Trust" true body]) cs
| p_user_id body it cs : text_shown (str "User ID") (oDebug o) body it -> packet_reads o E 13 body cs (packet_shown o 13 body [it]) cs
| p_attribute area l r cs : lenN area < 2 ^ 32 -> subs_in l area -> Forall2 (fun p i => attribute_reads o (fst p) (snd p) i) l r ->
    packet_reads o E 17 area cs (packet_shown o 17 area [area_shown o "Subpacket" area r]) cs
(* 5.6 compressed data that are inside others *)
| p_compressed a z d cs : contents E (a :: z) d -> packet_reads o E 8 (a :: z) cs (compressed_shown o a z [] []) cs
| p_compressed_unknown a z cs : 3 < b2n a \/ z = [] -> packet_reads o E 8 (a :: z) cs (compressed_shown o a z [] []) cs
| p_compressed_large a z d ok cs : 1 <= b2n a <= 3 -> z <> [] -> e_inflate E (b2n a) z = DStream d ok -> 2 ^ 30 <= lenN d ->
    packet_reads o E 8 (a :: z) cs (compressed_shown o a z (str "<too laege decompressed data>") []) cs
(* all others: the octets *)
| p_unknown tag body cs : ~ In tag packet_tags -> packet_reads o E tag body cs (packet_shown o tag body []) cs
(** The sub-packets of a signature, one after the other. *)
with subs_read (o : opts) (E : env) : list (byte * bytes) -> cst -> list item -> cst -> Prop :=
| ss_none cs : subs_read o E [] cs [] cs
| ss_more ty b l i r cs cs1 cs2 : sub_packet_reads o E ty b cs i cs1 -> subs_read o E l cs1 r cs2 -> subs_read o E ((ty, b) :: l) cs (i :: r) cs2
with sub_packet_reads (o : opts) (E : env) : byte -> bytes -> cst -> item -> cst -> Prop :=
| s_known ty b cs i cs' : sub_reads o E ty cs b i cs' -> sub_packet_reads o E ty b cs i cs'
| s_embedded ty b cs i cs' : sub_type ty = 32 -> packet_reads o E 2 b cs i cs' -> sub_packet_reads o E ty b cs (sub_shown o ty b [i]) cs'
| s_key_block ty l w is cs cs' : sub_type ty = 38 -> packets_in l w -> packets_read o E l cs is cs' ->
    sub_packet_reads o E ty (x00 :: w) cs (key_shown o ty w is) cs'
(* a key block that ends inside a packet: the octets from there on are dropped where the program asks for more just at the end (C33, C63) *)
| s_key_block_cut ty l w q is cs cs' : sub_type ty = 38 -> packets_in l w -> SpecAccept.first_packet q = None ->
    SpecAccept.int_sizes (e_grow E) -> SpecAccept.lost (e_grow E) q = true ->
    packets_read o E l cs is cs' -> sub_packet_reads o E ty (x00 :: w ++ q) cs (key_shown o ty (w ++ q) is) cs'
| s_key_other ty v w cs : sub_type ty = 38 -> b2n v <> 0 ->
    sub_packet_reads o E ty (v :: w) cs (sub_shown o ty (v :: w) [number_shown "Type" (b2n v); data_shown "Key data" (oDebug o) w]) cs
| s_unknown ty b cs : ~ In (sub_type ty) sub_types -> sub_packet_reads o E ty b cs (sub_shown o ty b []) cs
(** Packets inside others, one after the other. *)
with packets_read (o : opts) (E : env) : list (N * bytes) -> cst -> list item -> cst -> Prop :=
| ps_none cs : packets_read o E [] cs [] cs
| ps_more tag b l i r cs cs1 cs2 : packet_reads o E tag b cs i cs1 -> packets_read o E l cs1 r cs2 -> packets_read o E ((tag, b) :: l) cs (i :: r) cs2.

(** A packet at the top of an input: compressed data are opened, and the packets inside are shown behind. *)
Inductive top_reads (o : opts) (E : env) : N -> bytes -> cst -> item -> cst -> Prop :=
| t_plain tag body cs i cs' : tag <> 8 -> packet_reads o E tag body cs i cs' -> top_reads o E tag body cs i cs'
| t_compressed a z d l is cs cs' : contents E (a :: z) d -> input_of l d -> packets_read o E l cs is cs' ->
    top_reads o E 8 (a :: z) cs (compressed_shown o a z [] is) cs'
| t_compressed_unknown a z cs : 3 < b2n a \/ z = [] -> top_reads o E 8 (a :: z) cs (compressed_shown o a z [] []) cs
| t_compressed_large a z d ok cs : 1 <= b2n a <= 3 -> z <> [] -> e_inflate E (b2n a) z = DStream d ok -> 2 ^ 30 <= lenN d ->
    top_reads o E 8 (a :: z) cs (compressed_shown o a z (str "<too laege decompressed data>") []) cs.
Inductive all_read (o : opts) (E : env) : list (N * bytes) -> cst -> list item -> Prop :=
| ar_none cs : all_read o E [] cs []
| ar_more tag b l i r cs cs1 : top_reads o E tag b cs i cs1 -> all_read o E l cs1 r -> all_read o E ((tag, b) :: l) cs (i :: r).

(** The text output: a line for every item and every dump, indented by its depth. *)
Definition lines_shown (indent : bytes) (items : list item) : bytes :=
  flat_map (fun p => repeat_str indent (fst p) ++ snd p ++ [x0a]) (flat_map (outline 0) items).
