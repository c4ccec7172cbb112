(** * SpecPacket: the layout of OpenPGP packets and what is shown for each field
    (C06, C20-C25, C30, C31).

    A packet body is a sequence of fields.  [enc] gives the octets of a field, as RFC 4880
    and RFC 4880bis define them; [show] gives the line that is to appear for it.  Dates are written by the
    function that C08 characterises. *)
From Coq Require Import Strings.String Strings.Byte List NArith ZArith Bool.
From Verif Require Import Base Item Context Env Time SpecBase SpecValues.
Import ListNotations.
Local Open Scope N_scope.

(** Texts. *)
Fixpoint hex_text (l : bytes) : bytes :=
  match l with
  | [] => []
  | [b] => two_hex b
  | b :: t => two_hex b ++ str " " ++ hex_text t
  end.
Definition dump_if (f : bool) (l : bytes) : bytes := if f then hex_text l else [].
Definition bytes_note (n : N) : bytes := dec n ++ str " bytes".
Definition bits_note (n : N) : bytes := dec n ++ str " bits".
(** The name of the curve with the given object identifier. *)
Definition curve_name (oid : bytes) : bytes :=
  match find (fun c => beqs oid (fst c)) curves with Some c => str (snd c) | None => str "Unknown" end.
(** RFC 4880bis 13.2.1: the first octet of an EC point. *)
Definition point_format (data : bytes) : bytes :=
  match data with
  | [] => str "Unknown"
  | b :: _ =>
    match b2n b with
    | 0x04 => str "uncompressed format"
    | 0x40 => str "Native point format of the curve follows"
    | 0x41 => str "Only X coordinate follows"
    | 0x42 => str "Only Y coordinate follows"
    | _ => str "Unknown"
    end
  end.

Inductive field : Type :=
| FVersion (k : kind) (v : byte)
| FSym (b : byte) | FHash (b : byte) | FPub (b : byte) | FAead (b : byte) | FSigType (b : byte)
| FKeyID (id : bytes)                                   (* 8 octets *)
| FMpi (name : string) (bits : N) (data : bytes)        (* two octets of bit length, then the number *)
| FPoint (alg : string) (bits : N) (data : bytes)       (* an MPI that holds a curve point *)
| FCurve (oid : bytes)                                  (* one octet of length, then the object identifier *)
| FKdf (parm : bytes)                                   (* one octet of length, then version 1, hash, cipher *)
| FParm (name : string) (parm : bytes)                  (* one octet of length, then data *)
| FTime (name : string) (t : N)                         (* four octets *)
| FDays (n : N)                                         (* two octets *)
| FHash2 (h : bytes)                                    (* two octets *)
| FLast (b : byte)                                      (* the nested flag of a one-pass signature *)
| FDumped (name : string) (d : bytes)                   (* octets that are always dumped *)
| FChunk (c : byte)
| FCount (c : byte).

Definition len1 (l : bytes) : bytes := n2b (lenN l) :: l.

Definition enc (f : field) : bytes :=
  match f with
  | FVersion _ b | FSym b | FHash b | FPub b | FAead b | FSigType b | FLast b | FChunk b | FCount b => [b]
  | FKeyID d | FHash2 d | FDumped _ d => d
  | FMpi _ bits d | FPoint _ bits d => be_enc 2 bits ++ d
  | FCurve d | FKdf d | FParm _ d => len1 d
  | FTime _ t => be_enc 4 t
  | FDays n => be_enc 2 n
  end.
Definition encs (l : list field) : bytes := flat_map enc l.

(** Fields that exist. *)
Definition wf (f : field) : Prop :=
  match f with
  | FKeyID d => length d = 8%nat
  | FHash2 d => length d = 2%nat
  | FMpi _ bits d | FPoint _ bits d => bits < 65536 /\ mpi_octets bits (lenN d)
  | FCurve d | FKdf d | FParm _ d => lenN d < 256
  | FTime _ t => t < 2 ^ 32
  | FDays n => n < 65536
  | _ => True
  end.

Definition alg_item (name label : string) (r : registry) (private : N -> bool) (f : bool) (b : byte) : item :=
  Item (str name) (id_text (reg_name r private private_alg (b2n b)) (str label) (b2n b)) (octet_dump f b) [] [].
Definition sym_shown := alg_item "Symmetric Algorithm" "sym" sym_registry private_100_110.
Definition hash_shown := alg_item "Hash Algorithm" "hash" hash_registry private_100_110.
Definition pub_shown := alg_item "Public-key Algorithm" "pub" pub_registry private_100_110.
Definition aead_shown := alg_item "AEAD Algorithm" "aead" aead_registry private_100_110.
Definition comp_shown := alg_item "Compression Algorithm" "comp" comp_registry no_private.
Definition s2k_shown := alg_item "String-to-Key (S2K) Algorithm" "s2k" s2k_registry private_100_110.

Definition show (o : opts) (E : env) (f : field) : item :=
  match f with
  | FVersion k b => Item (str "Version") (dec (b2n b)) (octet_dump (oDebug o) b) (version_label k (b2n b)) []
  | FSym b => sym_shown (oDebug o) b
  | FHash b => hash_shown (oDebug o) b
  | FPub b => pub_shown (oDebug o) b
  | FAead b => aead_shown (oDebug o) b
  | FSigType b =>
    Item (str "Signiture Type") (reg_name sig_registry no_private "" (b2n b) ++ str " (0x" ++ two_hex b ++ str ")")
         (octet_dump (oDebug o) b) [] []
  | FKeyID id => Item (str "Key ID") (str "0x" ++ flat_map two_hex id) [] [] []
  | FMpi name bits d => Item (str name) [] (dump_if (oInteger o) d) (bits_note bits) []
  | FPoint alg bits d =>
    Item (str alg ++ str " EC point (" ++ point_format d ++ str ")") [] (dump_if (oInteger o) d) (bits_note bits) []
  | FCurve d => Item (str "ECC Curve OID") (curve_name d) (hex_text d) [] []
  | FKdf d =>
    match d with
    | x01 :: h :: s :: _ =>
      Item (str "KDF parameters") [] (dump_if (oInteger o) d) (bytes_note (lenN d))
           [hash_shown (oDebug o) h; sym_shown (oDebug o) s]
    | _ => Item (str "KDF parameters") (str "Unknown") (dump_if (oInteger o) d) (bytes_note (lenN d)) []
    end
  | FParm name d => Item (str name) [] (dump_if (oInteger o) d) (bytes_note (lenN d)) []
  | FTime name t => Item (str name) (unixtime2rfc3339 (e_tz E) t (oUTC o)) (dump_if (oDebug o) (be_enc 4 t)) [] []
  | FDays n => Item (str "Valid days") (dec n) [] (str "0 is forever") []
  | FHash2 d => Item (str "Hash left 2 bytes") [] (hex_text d) [] []
  | FLast b =>
    Item (str "Encrypted session key")
         (if b2n b =? 0 then str "another one pass signature" else str "other than one pass signature")
         [] (str "flag 0x" ++ two_hex b) []
  | FDumped name d => Item (str name) [] (hex_text d) [] []
  | FChunk b =>
    Item (str "Chunk size") (dec (if b2n b <=? 57 then 2 ^ (b2n b + 6)
                                  else if b2n b <? 250 then 0 else 2 ^ (b2n b - 250)))
         (two_hex b) [] []
  | FCount b => Item (str "Count") (dec ((16 + b2n b mod 16) * 2 ^ (b2n b / 16 + 6))) (two_hex b) [] []
  end.
Definition shows (o : opts) (E : env) (l : list field) : list item := map (show o E) l.

(** Octets that remain at the end of a body. *)
Definition surplus (name : string) (f : bool) (d : bytes) : list item :=
  match d with [] => [] | _ => [Item (str name) [] (dump_if f d) (bytes_note (lenN d)) []] end.

(** The item of a packet. *)
Definition packet_shown (o : opts) (tag : N) (body : bytes) (children : list item) : item :=
  Item (id_text (reg_name tag_registry no_private "" tag) (str "tag") tag) []
       (dump_if (if (60 <=? tag) && (tag <=? 63) then oPrivate o else oDebug o) body)
       (bytes_note (lenN body)) children.

(** ** Algorithm-specific fields *)

(** The place of an algorithm-specific field, and the fields that may stand there. *)
Inductive slot := SMpi (name : string) | SPoint (alg : string) | SCurve | SKdf | SParm (name : string).
Definition fills (s : slot) (f : field) : Prop :=
  match s, f with
  | SMpi n, FMpi n' _ _ => n = n' /\ wf f
  | SPoint n, FPoint n' _ _ => n = n' /\ wf f
  | SCurve, FCurve _ => wf f
  | SKdf, FKdf _ => wf f
  | SParm n, FParm n' _ => n = n' /\ wf f
  | _, _ => False
  end.
(** The fields [l] are those that the layout [t] prescribes for algorithm [a]. *)
Definition material (t : N -> option (list slot)) (a : byte) (l : list field) : Prop :=
  exists s, t (b2n a) = Some s /\ Forall2 fills s l.

(** RFC 4880bis 5.6: public-key fields *)
Definition pub_layout (a : N) : option (list slot) :=
  match a with
  | 1 | 2 | 3 => Some [SMpi "RSA public modulus n"; SMpi "RSA public encryption exponent e"]
  | 17 => Some [SMpi "DSA p"; SMpi "DSA q (q is a prime divisor of p-1)"; SMpi "DSA g";
                SMpi "DSA y (= g^x mod p where x is secret)"]
  | 16 | 20 => Some [SMpi "ElGamal prime p"; SMpi "ElGamal group generator g";
                     SMpi "ElGamal public key value y (= g^x mod p where x is secret)"]
  | 18 => Some [SCurve; SPoint "ECDH"; SKdf]
  | 19 => Some [SCurve; SPoint "ECDSA"]
  | 22 => Some [SCurve; SPoint "EdDSA"]
  | _ => None
  end.
(** RFC 4880bis 5.6: secret-key fields *)
Definition sec_layout (a : N) : option (list slot) :=
  match a with
  | 1 | 2 | 3 => Some [SMpi "RSA secret exponent d"; SMpi "RSA secret prime value p";
                       SMpi "RSA secret prime value q (p < q)"; SMpi "RSA u, the multiplicative inverse of p, mod q"]
  | 17 => Some [SMpi "DSA secret exponent x"]
  | 16 | 20 => Some [SMpi "ElGamal secret exponent x"]
  | 18 => Some [SMpi "ECDH secret key"]
  | 19 => Some [SMpi "ECDSA secret key"]
  | 22 => Some [SMpi "EdDSA secret key"]
  | _ => None
  end.
(** RFC 4880bis 5.1: encrypted session keys *)
Definition ses_layout (a : N) : option (list slot) :=
  match a with
  | 1 | 2 | 3 => Some [SMpi "RSA m^e mod n; m = sym alg(1 byte) + checksum(2 bytes) + PKCS#1 block encoding EME-PKCS1-v1_5"]
  | 16 | 20 => Some [SMpi "ElGamal g^k mod p";
                     SMpi "ElGamal m * y^k mod p; m = sym alg(1 byte) + checksum(2 bytes) + PKCS#1 block encoding EME-PKCS1-v1_5"]
  | 18 => Some [SPoint "ECDH"; SParm "symmetric key (encoded)"]
  | _ => None
  end.
(** RFC 4880bis 5.2: signature values *)
Definition sig_layout (a : N) : option (list slot) :=
  match a with
  | 1 | 2 | 3 => Some [SMpi "RSA signature value m^d mod n"]
  | 17 => Some [SMpi "DSA value r"; SMpi "DSA value s"]
  | 16 | 20 => Some [SMpi "ElGamal a = g^k mod p"; SMpi "ElGamal b = (h - a*x)/k mod p - 1"]
  | 19 => Some [SMpi "ECDSA value r"; SMpi "ECDSA value s"]
  | 22 => Some [SMpi "EC point r"; SMpi "EdDSA value s in the little endian representation"]
  | _ => None
  end.

(** ** String-to-key specifiers, RFC 4880bis 3.7.1 *)
Inductive s2k :=
| S2Simple (hash : byte)
| S2Salted (hash : byte) (salt : bytes)
| S2Iterated (hash : byte) (salt : bytes) (count : byte)
| S2Other (ty : byte)                       (* reserved, private without extension, unknown *)
| S2Gnu (number : byte)                     (* 101, "GNU", extension number other than 1002 *)
| S2Card (serial : bytes).                  (* 101, "GNU", 1002: serial number *)
Definition s2k_wf (s : s2k) : Prop :=
  match s with
  | S2Salted _ salt | S2Iterated _ salt _ => length salt = 8%nat
  | S2Other ty => ~ In (b2n ty) [0; 1; 3; 101]
  | S2Gnu n => b2n n <> 2
  | S2Card ser => lenN ser < 256
  | _ => True
  end.
Definition s2k_enc (s : s2k) : bytes :=
  match s with
  | S2Simple h => [x00; h]
  | S2Salted h salt => x01 :: h :: salt
  | S2Iterated h salt c => x03 :: h :: salt ++ [c]
  | S2Other ty => [ty]
  | S2Gnu n => n2b 101 :: str "GNU" ++ [n]
  | S2Card ser => n2b 101 :: str "GNU" ++ n2b 2 :: len1 ser
  end.
Definition s2k_type (s : s2k) : byte :=
  match s with
  | S2Simple _ => x00 | S2Salted _ _ => x01 | S2Iterated _ _ _ => x03
  | S2Other ty => ty | S2Gnu _ | S2Card _ => n2b 101
  end.
Definition with_children (i : item) (l : list item) : item :=
  Item (i_name i) (i_value i) (i_dump i) (i_note i) l.
Definition s2k_tree (o : opts) (s : s2k) : item :=
  with_children (s2k_shown (oDebug o) (s2k_type s))
    match s with
    | S2Simple h => [hash_shown (oDebug o) h]
    | S2Salted h salt => [hash_shown (oDebug o) h; Item (str "Salt") [] (hex_text salt) [] []]
    | S2Iterated h salt c =>
      [hash_shown (oDebug o) h; Item (str "Salt") [] (hex_text salt) [] [];
       Item (str "Count") (dec ((16 + b2n c mod 16) * 2 ^ (b2n c / 16 + 6))) (two_hex c) [] []]
    | S2Other _ => []
    | S2Gnu n => [Item (str "GNU-divert-to-card") (str "Extension Number " ++ dec (1000 + b2n n)) [] [] []]
    | S2Card ser =>
      [Item (str "GNU-divert-to-card") (str "Extension Number 1002") [] []
            [Item (str "Serial Number") [] (hex_text ser) [] []]]
    end.
(** Whether an initialization vector follows. *)
Definition s2k_iv (s : s2k) : bool := match s with S2Gnu _ | S2Card _ => false | _ => true end.

(** Fields of an algorithm for which no layout is defined: all octets that are left. *)
Definition unknown_fields (f : bool) (label : bytes) (d : bytes) : item :=
  Item (str "Multi-precision integers of " ++ label) [] (dump_if f d) (bytes_note (lenN d)) [].
Definition unknown_alg (a : N) : bytes := str "Unknown (pub " ++ dec a ++ str ")".
Definition ses_label (a : N) : bytes :=
  match a with 17 => str "DSA" | 19 => str "ECDSA" | 22 => str "EdDSA" | _ => unknown_alg a end.
Definition sig_label (a : N) : bytes := match a with 18 => str "ECDH" | _ => unknown_alg a end.

(** [q] is [d] cut somewhere before its end. *)
Definition strict_prefix (q d : bytes) : Prop := exists t, t <> [] /\ d = q ++ t.

(** ** What a packet leaves behind for the packets after it *)
Definition with_mode (x : mode) (c : cst) : cst := mkCst x (c_sig c) (c_key c).
Definition with_sig (x : option datetime) (c : cst) : cst := mkCst (c_mode c) x (c_key c).
Definition with_key (x : option datetime) (c : cst) : cst := mkCst (c_mode c) (c_sig c) x.

(** ** Encrypted data *)

(** The note on where the algorithm of the data is to be found. *)
Definition tag09_value (m : mode) : bytes :=
  match m with
  | ModeSymEnc => str "sym alg is specified in sym-key encrypted session key"
  | ModePubEnc => str "sym alg is specified in pub-key encrypted session key"
  | ModeNotSpecified => str "sym alg is IDEA, simple string-to-key"
  end.
Definition tag18_note (m : mode) (n : N) : bytes :=
  match m with
  | ModeSymEnc => str "plain text + MDC SHA1(20 bytes); sym alg is specified in sym-key encrypted session key"
  | ModePubEnc => str "plain text + MDC SHA1(20 bytes); sym alg is specified in pub-key encrypted session key"
  | ModeNotSpecified => bytes_note n
  end.
(** RFC 4880bis 9.6: octets of the nonce of an AEAD algorithm, EAX (1) and OCB (2). *)
Definition aead_nonce_octets (a : N) : N := match a with 1 => 16 | 2 => 15 | _ => 0 end.

(** ** Keys *)

(** The fields of a version 3 or 4 public key after the version octet. *)
Definition key_fields (v : N) (t days : N) (a : byte) (l : list field) : list field :=
  FTime "Public key creation time" t :: (if v =? 3 then [FDays days] else []) ++ FPub a :: l.
Definition key_time (o : opts) (t : N) : option datetime := Some (mkDT (be_enc 4 t) (oUTC o)).

(** Label of the encrypted secret fields. *)
Definition secenc_label (a : N) : bytes :=
  match a with
  | 1 | 2 | 3 => str "RSA encrypted key (d, p, q, u)"
  | 16 | 20 => str "Elgamal encrypted key"
  | 17 => str "DSA encrypted key"
  | 18 => str "ECDH encrypted key"
  | 19 => str "ECDSA encrypted key"
  | 22 => str "EdDSA encrypted key"
  | _ => str "Multi-precision integers of unknown encrypted key (pub " ++ dec a ++ str ")"
  end.
(** Octets of the initialization vector of a cipher: its block size (0 for an unknown cipher). *)
Definition cipher_iv_octets (c : N) : N := if c <=? 6 then 8 else if c <=? 13 then 16 else 0.
(** Note of the secret part of a key. *)
Definition protection_note (usage : N) : bytes :=
  match usage with
  | 0 => str "s2k usage 0; plain secret-key material"
  | 253 => str "s2k usage 253; encrypted secret-key material and AEAD authentication tag"
  | 254 => str "s2k usage 254; encrypted secret-key material and 20-octet SHA-1 hash"
  | n => str "s2k usage " ++ dec n ++ str "; encrypted secret-key material and 2-octet checksum"
  end.
(** The item of the secret part of a key. *)
Definition secret_shown (note : bytes) (l : list item) : item := Item (str "Secret-Key") [] [] note l.
Definition public_shown (l : list item) : item := Item (str "Public-Key") [] [] [] l.
Definition option_list {A} (o : option A) : list A := match o with Some x => [x] | None => [] end.
(** The fields between the usage octet and the encrypted material: with the AEAD octet ([Some]) for
    usage 253, without it ([None]) for 254 and 255. *)
Definition protection_octets (c : byte) (x : option byte) (s : s2k) (iv : bytes) : bytes :=
  c :: option_list x ++ s2k_enc s ++ iv.
Definition protection_shown (o : opts) (E : env) (c : byte) (x : option byte) (s : s2k) (iv : bytes) : list item :=
  show o E (FSym c) :: shows o E (map FAead (option_list x)) ++ s2k_tree o s ::
  (if s2k_iv s then [show o E (FDumped (match x with Some _ => "nonce for the AEAD" | None => "IV" end) iv)] else []).
