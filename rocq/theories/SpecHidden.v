(** * SpecHidden: which octets of the input are secret or bulk data (C06).

    Two packets are [veiled] if they differ at most in such octets: in the numbers of keys, signatures and session
    keys, in literal, marker, encrypted and compressed data, in private and unknown packets and sub-packets, in
    images, in digests of certifications, and in octets behind the defined fields; their lengths are the same. *)
From Coq Require Import Strings.String Strings.Byte List NArith ZArith Bool.
From Verif Require Import Base Item Context Env SpecBase SpecValues SpecPacket SpecFrame SpecNest SpecSub SpecSubs SpecComp SpecLiteral SpecSecret.
Import ListNotations.
Local Open Scope N_scope.

(** No option for dumps is set. *)
Definition no_dump (o : opts) : Prop :=
  forall c, In c [CERT; DEBUG; GDUMP; INTEGER; LITERAL; MARKER; PRIVATE] -> o_get c o = false.

Definition same_length (a b : bytes) : Prop := length a = length b.

(** Fields: the octets of a number (for a curve point, but for the first one), of an encoded session key, and of the
    parameters of a key derivation behind version, hash and cipher. *)
Inductive field_veiled : field -> field -> Prop :=
| fv_same f : field_veiled f f
| fv_number name bits d d' : same_length d d' -> field_veiled (FMpi name bits d) (FMpi name bits d')
| fv_point alg bits b d d' : same_length d d' -> field_veiled (FPoint alg bits (b :: d)) (FPoint alg bits (b :: d'))
| fv_parm name d d' : same_length d d' -> field_veiled (FParm name d) (FParm name d')
| fv_kdf v h s d d' : same_length d d' -> field_veiled (FKdf (v :: h :: s :: d)) (FKdf (v :: h :: s :: d')).
Definition veiled : list field -> list field -> Prop := Forall2 field_veiled.

(** Both compressed data can be opened, or none. *)
Inductive opens_alike (E : env) (a : byte) (z z' : bytes) : Prop :=
| both_open d d' : contents E (a :: z) d -> contents E (a :: z') d' -> opens_alike E a z z'
| both_unknown : 3 < b2n a -> opens_alike E a z z'
| both_large d ok d' ok' : 1 <= b2n a <= 3 -> z <> [] -> z' <> [] ->
    e_inflate E (b2n a) z = DStream d ok -> 2 ^ 30 <= lenN d ->
    e_inflate E (b2n a) z' = DStream d' ok' -> 2 ^ 30 <= lenN d' -> opens_alike E a z z'.

(** Attributes of a user: images and unknown attributes. *)
Inductive attribute_veiled : byte * bytes -> byte * bytes -> Prop :=
| av_same p : attribute_veiled p p
| av_unknown ty b b' : sub_type ty <> 1 -> same_length b b' -> attribute_veiled (ty, b) (ty, b')
| av_image ty h0 h1 v e d d' : sub_type ty = 1 -> same_length d d' ->
    attribute_veiled (ty, h0 :: h1 :: v :: e :: d) (ty, h0 :: h1 :: v :: e :: d').

Definition public_tag (tag : N) : Prop := tag = 6 \/ tag = 14.
Definition secret_tag (tag : N) : Prop := tag = 5 \/ tag = 7.

(** The secret part of a key of version [v] and algorithm [a]: secret numbers that are not encrypted (but not their checksum), the
    encrypted ones, unknown octets.  What the program takes for the IV is shown: the octets behind the specifier, in version 5 those
    behind the counted fields, for usages 1 to 252 those behind the octet that follows the usage (see C25). *)
Inductive secret_veiled : byte -> byte -> bytes -> bytes -> Prop :=
| sev_plain v a s s' chk x x' : v <> x05 -> material sec_layout a s -> veiled s s' -> length chk = 2%nat -> same_length x x' ->
    secret_veiled v a (x00 :: encs s ++ chk ++ x) (x00 :: encs s' ++ chk ++ x')
| sev_plain_unknown v a d d' chk : v <> x05 -> sec_layout (b2n a) = None -> same_length d d' -> length chk = 2%nat ->
    secret_veiled v a (x00 :: d ++ chk) (x00 :: d' ++ chk)
| sev_encrypted v a u c x s iv ct ct' : v <> x05 -> usage_fields (b2n u) x s -> specifier_wf s -> lenN iv = iv_octets c s -> same_length ct ct' ->
    secret_veiled v a (u :: (optional_octets c x s ++ iv) ++ ct) (u :: (optional_octets c x s ++ iv) ++ ct')
| sev_five_plain a s s' y y' chk x x' : material sec_layout a s -> veiled s s' -> same_length y y' -> length chk = 2%nat -> same_length x x' ->
    0 < lenN (encs s ++ y) < 2 ^ 32 ->
    secret_veiled x05 a (x00 :: x00 :: be_enc 4 (lenN (encs s ++ y)) ++ (encs s ++ y) ++ chk ++ x)
                        (x00 :: x00 :: be_enc 4 (lenN (encs s' ++ y')) ++ (encs s' ++ y') ++ chk ++ x')
| sev_five_encrypted a u c x s y y' iv ct ct' z z' : usage_fields (b2n u) x s -> specifier_wf s -> lenN iv = iv_octets c s ->
    same_length y y' -> lenN (optional_octets c x s ++ y) < 256 -> same_length ct ct' -> 0 < lenN ct < 2 ^ 32 -> same_length z z' ->
    secret_veiled x05 a
      (u :: n2b (lenN (optional_octets c x s ++ y)) :: (optional_octets c x s ++ y) ++ iv ++ be_enc 4 (lenN ct) ++ ct ++ z)
      (u :: n2b (lenN (optional_octets c x s ++ y')) :: (optional_octets c x s ++ y') ++ iv ++ be_enc 4 (lenN ct') ++ ct' ++ z').

Inductive packet_veiled (E : env) : N -> bytes -> bytes -> Prop :=
| pv_same tag b : packet_veiled E tag b b
  (* encrypted data, markers, digests; private and unknown packets *)
| pv_bulk tag b b' : In tag [9; 10; 18; 19] \/ ~ In tag packet_tags -> same_length b b' -> packet_veiled E tag b b'
| pv_literal f name t d d' : lenN name < 256 -> t < 2 ^ 32 -> same_length d d' ->
    packet_veiled E 11 (literal_octets f name t ++ d) (literal_octets f name t ++ d')
| pv_compressed a z z' : same_length z z' -> opens_alike E a z z' -> packet_veiled E 8 (a :: z) (a :: z')
  (* session keys, one-pass signatures *)
| pv_session v id a l l' x x' : length id = 8%nat -> material ses_layout a l -> veiled l l' -> same_length x x' ->
    packet_veiled E 1 (encs ([FVersion KPubSession v; FKeyID id; FPub a] ++ l) ++ x) (encs ([FVersion KPubSession v; FKeyID id; FPub a] ++ l') ++ x')
| pv_session_unknown v id a x x' : length id = 8%nat -> ses_layout (b2n a) = None -> same_length x x' ->
    packet_veiled E 1 (encs [FVersion KPubSession v; FKeyID id; FPub a] ++ x) (encs [FVersion KPubSession v; FKeyID id; FPub a] ++ x')
| pv_password a s x x' : s2k_wf s -> same_length x x' ->
    packet_veiled E 3 (encs [FVersion KSymSession x04; FSym a] ++ s2k_enc s ++ x) (encs [FVersion KSymSession x04; FSym a] ++ s2k_enc s ++ x')
| pv_password_other v x x' : b2n v <> 4 -> same_length x x' -> packet_veiled E 3 (v :: x) (v :: x')
| pv_one_pass v s h a id l x x' : length id = 8%nat -> same_length x x' ->
    packet_veiled E 4 (encs [FVersion KOnePass v; FSigType s; FHash h; FPub a; FKeyID id; FLast l] ++ x)
                      (encs [FVersion KOnePass v; FSigType s; FHash h; FPub a; FKeyID id; FLast l] ++ x')
  (* AEAD-encrypted data, but with OCB (2) *)
| pv_aead v s a c nonce x x' : b2n a <> 2 -> lenN nonce = aead_nonce_octets (b2n a) -> same_length x x' ->
    packet_veiled E 20 (encs [FVersion KAead v; FSym s; FAead a; FChunk c; FDumped "IV" nonce] ++ x)
                       (encs [FVersion KAead v; FSym s; FAead a; FChunk c; FDumped "IV" nonce] ++ x')
  (* public keys *)
| pv_public_3 tag t days a l l' x x' : public_tag tag -> t < 2 ^ 32 -> days < 65536 -> material pub_layout a l -> veiled l l' -> same_length x x' ->
    packet_veiled E tag (encs (FVersion KPublicKey x03 :: key_fields 3 t days a l) ++ x) (encs (FVersion KPublicKey x03 :: key_fields 3 t days a l') ++ x')
| pv_public_4 tag t a l l' x x' : public_tag tag -> t < 2 ^ 32 -> material pub_layout a l -> veiled l l' -> same_length x x' ->
    packet_veiled E tag (encs (FVersion KPublicKey x04 :: key_fields 4 t 0 a l) ++ x) (encs (FVersion KPublicKey x04 :: key_fields 4 t 0 a l') ++ x')
| pv_public_5 tag t a l l' x x' : public_tag tag -> t < 2 ^ 32 -> lenN (encs l) < 2 ^ 32 -> material pub_layout a l -> veiled l l' -> same_length x x' ->
    packet_veiled E tag (x05 :: be_enc 4 t ++ a :: be_enc 4 (lenN (encs l)) ++ encs l ++ x)
                        (x05 :: be_enc 4 t ++ a :: be_enc 4 (lenN (encs l')) ++ encs l' ++ x')
| pv_public_unknown tag t a x x' : public_tag tag -> t < 2 ^ 32 -> pub_layout (b2n a) = None -> same_length x x' ->
    packet_veiled E tag (encs [FVersion KPublicKey x04; FTime "Public key creation time" t; FPub a] ++ x)
                        (encs [FVersion KPublicKey x04; FTime "Public key creation time" t; FPub a] ++ x')
| pv_public_unknown_3 tag t days a x x' : public_tag tag -> t < 2 ^ 32 -> days < 65536 -> pub_layout (b2n a) = None -> same_length x x' ->
    packet_veiled E tag (x03 :: be_enc 4 t ++ be_enc 2 days ++ a :: x) (x03 :: be_enc 4 t ++ be_enc 2 days ++ a :: x')
| pv_public_unknown_5 tag t a m m' x x' : public_tag tag -> t < 2 ^ 32 -> lenN m < 2 ^ 32 -> pub_layout (b2n a) = None -> same_length m m' -> same_length x x' ->
    packet_veiled E tag (x05 :: be_enc 4 t ++ a :: be_enc 4 (lenN m) ++ m ++ x) (x05 :: be_enc 4 t ++ a :: be_enc 4 (lenN m') ++ m' ++ x')
| pv_public_other tag v x x' : public_tag tag -> ~ In (b2n v) [3; 4; 5] -> same_length x x' -> packet_veiled E tag (v :: x) (v :: x')
  (* secret keys: the public numbers and what the secret part hides *)
| pv_secret tag v t days a l l' d d' : secret_tag tag -> key_ok v t days a l -> veiled l l' -> secret_veiled v a d d' ->
    packet_veiled E tag (v :: public_part v t days a l ++ d) (v :: public_part v t days a l' ++ d')
| pv_secret_unknown_3 tag t days a d d' : secret_tag tag -> t < 2 ^ 32 -> days < 65536 -> pub_layout (b2n a) = None -> secret_veiled x03 a d d' ->
    packet_veiled E tag (x03 :: be_enc 4 t ++ be_enc 2 days ++ a :: d) (x03 :: be_enc 4 t ++ be_enc 2 days ++ a :: d')
| pv_secret_unknown_4 tag t a d d' : secret_tag tag -> t < 2 ^ 32 -> pub_layout (b2n a) = None -> secret_veiled x04 a d d' ->
    packet_veiled E tag (x04 :: be_enc 4 t ++ a :: d) (x04 :: be_enc 4 t ++ a :: d')
| pv_secret_unknown_5 tag t a m m' d d' : secret_tag tag -> t < 2 ^ 32 -> lenN m < 2 ^ 32 -> pub_layout (b2n a) = None -> same_length m m' -> secret_veiled x05 a d d' ->
    packet_veiled E tag (x05 :: be_enc 4 t ++ a :: be_enc 4 (lenN m) ++ m ++ d) (x05 :: be_enc 4 t ++ a :: be_enc 4 (lenN m') ++ m' ++ d')
| pv_secret_other tag v d d' : secret_tag tag -> ~ In (b2n v) [3; 4; 5] -> secret_veiled v x00 d d' -> packet_veiled E tag (v :: d) (v :: d')
  (* signatures: the values, and what the sub-packets hide *)
| pv_signature v t a h A1 A1' A2 A2' h2 l l' x x' s1 s1' s2 s2' : b2n v = 4 \/ b2n v = 5 -> length h2 = 2%nat ->
    material sig_layout a l -> veiled l l' -> lenN A1 < 65536 -> lenN A2 < 65536 -> same_length A1 A1' -> same_length A2 A2' ->
    subs_in s1 A1 -> subs_in s1' A1' -> subs_in s2 A2 -> subs_in s2' A2' -> subs_veiled E s1 s1' -> subs_veiled E s2 s2' -> same_length x x' ->
    packet_veiled E 2 (sig_octets v t a h A1 A2 h2 l ++ x) (sig_octets v t a h A1' A2' h2 l' ++ x')
| pv_signature_unknown v t a h A1 A1' A2 A2' h2 x x' s1 s1' s2 s2' : b2n v = 4 \/ b2n v = 5 -> length h2 = 2%nat ->
    sig_layout (b2n a) = None -> lenN A1 < 65536 -> lenN A2 < 65536 -> same_length A1 A1' -> same_length A2 A2' ->
    subs_in s1 A1 -> subs_in s1' A1' -> subs_in s2 A2 -> subs_in s2' A2' -> subs_veiled E s1 s1' -> subs_veiled E s2 s2' -> same_length x x' ->
    packet_veiled E 2 (sig_octets v t a h A1 A2 h2 [] ++ x) (sig_octets v t a h A1' A2' h2 [] ++ x')
| pv_signature_3 t tm id a h h2 l l' x x' : tm < 2 ^ 32 -> length id = 8%nat -> length h2 = 2%nat -> material sig_layout a l -> veiled l l' -> same_length x x' ->
    packet_veiled E 2 (x03 :: x05 :: t :: be_enc 4 tm ++ id ++ a :: h :: h2 ++ encs l ++ x)
                      (x03 :: x05 :: t :: be_enc 4 tm ++ id ++ a :: h :: h2 ++ encs l' ++ x')
| pv_signature_other v x x' : ~ In (b2n v) [3; 4; 5] -> same_length x x' -> packet_veiled E 2 (v :: x) (v :: x')
  (* user attributes *)
| pv_attributes area area' l l' : lenN area < 2 ^ 32 -> same_length area area' -> subs_in l area -> subs_in l' area' ->
    Forall2 attribute_veiled l l' -> packet_veiled E 17 area area'
(** Sub-packets of a signature: unknown ones, digests; embedded signatures, key blocks. *)
with sub_veiled (E : env) : byte -> bytes -> bytes -> Prop :=
| sv_same ty b : sub_veiled E ty b b
| sv_unknown ty b b' : ~ In (sub_type ty) sub_types -> same_length b b' -> sub_veiled E ty b b'
| sv_digests ty b b' : sub_type ty = 37 -> same_length b b' -> sub_veiled E ty b b'
| sv_embedded ty b b' : sub_type ty = 32 -> packet_veiled E 2 b b' -> sub_veiled E ty b b'
| sv_key_block ty w w' l l' : sub_type ty = 38 -> same_length w w' -> packets_in l w -> packets_in l' w' -> packets_veiled E l l' ->
    sub_veiled E ty (x00 :: w) (x00 :: w')
with subs_veiled (E : env) : list (byte * bytes) -> list (byte * bytes) -> Prop :=
| subs_none : subs_veiled E [] []
| subs_more ty b b' l l' : sub_veiled E ty b b' -> subs_veiled E l l' -> subs_veiled E ((ty, b) :: l) ((ty, b') :: l')
with packets_veiled (E : env) : list (N * bytes) -> list (N * bytes) -> Prop :=
| packets_none : packets_veiled E [] []
| packets_more tag b b' l l' : packet_veiled E tag b b' -> packets_veiled E l l' -> packets_veiled E ((tag, b) :: l) ((tag, b') :: l').

(** The packets of an input; those of compressed data are opened. *)
Inductive input_veiled (E : env) : list (N * bytes) -> list (N * bytes) -> Prop :=
| input_none : input_veiled E [] []
| input_packet_veiled tag b b' l l' : tag <> 8 -> packet_veiled E tag b b' -> input_veiled E l l' -> input_veiled E ((tag, b) :: l) ((tag, b') :: l')
| input_same tag b l l' : input_veiled E l l' -> input_veiled E ((tag, b) :: l) ((tag, b) :: l')
| input_opened a z z' d d' i i' l l' : same_length z z' -> contents E (a :: z) d -> contents E (a :: z') d' ->
    input_of i d -> input_of i' d' -> packets_veiled E i i' -> input_veiled E l l' -> input_veiled E ((8, a :: z) :: l) ((8, a :: z') :: l')
| input_unopened a z z' l l' : 3 < b2n a -> same_length z z' -> input_veiled E l l' -> input_veiled E ((8, a :: z) :: l) ((8, a :: z') :: l')
| input_too_large a z z' d ok d' ok' l l' : 1 <= b2n a <= 3 -> z <> [] -> z' <> [] -> same_length z z' ->
    e_inflate E (b2n a) z = DStream d ok -> 2 ^ 30 <= lenN d -> e_inflate E (b2n a) z' = DStream d' ok' -> 2 ^ 30 <= lenN d' ->
    input_veiled E l l' -> input_veiled E ((8, a :: z) :: l) ((8, a :: z') :: l').

(** Two runs have the same outcome: the same item or failure, and leave the same state (unless they crash). *)
Definition same_outcome {A} (x y : res A * cst) : Prop := fst x = fst y /\ (fst x <> RPanic -> snd x = snd y).
(** The item of a packet, without the contents of a compressed one. *)
Definition item_only (x : res (item * option bytes) * cst) : res item * cst := (map_res fst (fst x), snd x).
