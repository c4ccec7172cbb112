(** * SpecValues: registries of RFC 4880 / RFC 4880bis and the texts shown for them
    (C15-C19, C30, C47, C48). *)
From Coq Require Import Strings.String Strings.Byte List NArith ZArith Bool.
From Verif Require Import Base SpecBase.
Import ListNotations.
Local Open Scope N_scope.

(** A registry: assigned numbers with the name this program uses for them. *)
Definition registry := list (N * string).
Definition reg_find (r : registry) (n : N) : option string :=
  match find (fun p => fst p =? n) r with Some p => Some (snd p) | None => None end.

(** The name of a number: assigned name, else the private range, else "Unknown". *)
Definition reg_name (r : registry) (private : N -> bool) (private_name : string) (n : N) : bytes :=
  if private n then str private_name
  else match reg_find r n with Some s => str s | None => str "Unknown" end.

Definition private_100_110 (n : N) : bool := (100 <=? n) && (n <=? 110).
Definition no_private (n : N) : bool := false.
Definition private_alg : string := "Private/Experimental algorithm".

(** RFC 4880bis 9.3: symmetric-key algorithms *)
Definition sym_registry : registry :=
  [(0, "Plaintext or unencrypted data"); (1, "IDEA"); (2, "TripleDES (168 bit key derived from 192)");
   (3, "CAST5 (128 bit key, as per)"); (4, "Blowfish (128 bit key, 16 rounds)");
   (5, "Reserved"); (6, "Reserved");
   (7, "AES with 128-bit key"); (8, "AES with 192-bit key"); (9, "AES with 256-bit key");
   (10, "Twofish with 256-bit key");
   (11, "Camellia with 128-bit key"); (12, "Camellia with 192-bit key"); (13, "Camellia with 256-bit key")]%string.

(** RFC 4880bis 9.5: hash algorithms *)
Definition hash_registry : registry :=
  [(1, "MD5"); (2, "SHA-1"); (3, "RIPE-MD/160");
   (4, "Reserved"); (5, "Reserved"); (6, "Reserved"); (7, "Reserved");
   (8, "SHA2-256"); (9, "SHA2-384"); (10, "SHA2-512"); (11, "SHA2-224");
   (12, "SHA3-256"); (13, "Reserved"); (14, "SHA3-512")]%string.

(** RFC 4880bis 9.1: public-key algorithms *)
Definition pub_registry : registry :=
  [(1, "RSA (Encrypt or Sign)"); (2, "RSA Encrypt-Only"); (3, "RSA Sign-Only");
   (16, "Elgamal (Encrypt-Only)"); (17, "DSA (Digital Signature Algorithm)");
   (18, "ECDH public key algorithm"); (19, "ECDSA public key algorithm");
   (20, "Reserved (formerly Elgamal Encrypt or Sign)"); (21, "Reserved for Diffie-Hellman");
   (22, "EdDSA")]%string.

(** RFC 4880bis 9.4: compression algorithms *)
Definition comp_registry : registry :=
  [(0, "Uncompressed"); (1, "ZIP <RFC1951>"); (2, "ZLIB <RFC1950>"); (3, "BZip2")]%string.

(** RFC 4880bis 9.6: AEAD algorithms *)
Definition aead_registry : registry := [(1, "EAX mode"); (2, "OCB mode <RFC7253>")]%string.

(** RFC 4880bis 3.7.1: string-to-key specifiers *)
Definition s2k_registry : registry :=
  [(0, "Simple S2K"); (1, "Salted S2K"); (2, "Reserved"); (3, "Iterated and Salted S2K")]%string.

(** RFC 4880bis 5.2.1: signature types *)
Definition sig_registry : registry :=
  [(0x00, "Signature of a binary document"); (0x01, "Signature of a canonical text document");
   (0x02, "Standalone signature");
   (0x10, "Generic certification of a User ID and Public-Key packet");
   (0x11, "Persona certification of a User ID and Public-Key packet");
   (0x12, "Casual certification of a User ID and Public-Key packet");
   (0x13, "Positive certification of a User ID and Public-Key packet");
   (0x16, "Attested Key Signature"); (0x18, "Subkey Binding Signature");
   (0x19, "Primary Key Binding Signature"); (0x1f, "Signature directly on a key");
   (0x20, "Key revocation signature"); (0x28, "Subkey revocation signature");
   (0x30, "Certification revocation signature"); (0x40, "Timestamp signature");
   (0x50, "Third-Party Confirmation signature")]%string.

(** RFC 4880bis 5.2.3.1: signature sub-packet types (1: user attribute sub-packet, 5.12) *)
Definition sub_registry : registry :=
  [(0, "Reserved"); (1, "Image Attribute"); (2, "Signature Creation Time");
   (3, "Signature Expiration Time"); (4, "Exportable Certification"); (5, "Trust Signature");
   (6, "Regular Expression"); (7, "Revocable"); (8, "Reserved"); (9, "Key Expiration Time");
   (10, "Placeholder for backward compatibility"); (11, "Preferred Symmetric Algorithms");
   (12, "Revocation Key"); (13, "Reserved"); (14, "Reserved"); (15, "Reserved"); (16, "Issuer");
   (17, "Reserved"); (18, "Reserved"); (19, "Reserved"); (20, "Notation Data");
   (21, "Preferred Hash Algorithms"); (22, "Preferred Compression Algorithms");
   (23, "Key Server Preferences"); (24, "Preferred Key Server"); (25, "Primary User ID");
   (26, "Policy URI"); (27, "Key Flags"); (28, "Signer's User ID"); (29, "Reason for Revocation");
   (30, "Features"); (31, "Signature Target"); (32, "Embedded Signature"); (33, "Issuer Fingerprint");
   (34, "Preferred AEAD Algorithms"); (35, "Intended Recipient Fingerprint"); (36, "Reserved");
   (37, "Attested Certifications"); (38, "Key Block")]%string.

(** RFC 4880bis 4.3: packet tags *)
Definition tag_registry : registry :=
  [(0, "Reserved"); (1, "Public-Key Encrypted Session Key Packet"); (2, "Signature Packet");
   (3, "Symmetric-Key Encrypted Session Key Packet"); (4, "One-Pass Signature Packet");
   (5, "Secret-Key Packet"); (6, "Public-Key Packet"); (7, "Secret-Subkey Packet");
   (8, "Compressed Data Packet"); (9, "Symmetrically Encrypted Data Packet");
   (10, "Marker Packet (Obsolete Literal Packet)"); (11, "Literal Data Packet"); (12, "Trust Packet");
   (13, "User ID Packet"); (14, "Public-Subkey Packet"); (17, "User Attribute Packet");
   (18, "Sym. Encrypted Integrity Protected Data Packet");
   (19, "Modification Detection Code Packet"); (20, "AEAD Encrypted Data Packet");
   (60, "Private or Experimental Values"); (61, "Private or Experimental Values");
   (62, "Private or Experimental Values"); (63, "Private or Experimental Values")]%string.

(** Text of an algorithm identifier: "name (label number)". *)
Definition id_text (name label : bytes) (n : N) : bytes :=
  name ++ str " (" ++ label ++ str " " ++ dec n ++ str ")".

(** Two lower-case hexadecimal digits of an octet. *)
Definition nth_digit (n : N) : byte := n2b (if n <? 10 then 48 + n else 87 + n).
Definition two_hex (b : byte) : bytes := [nth_digit (b2n b / 16); nth_digit (b2n b mod 16)].

(** The octet in a final "(0xhh)". *)
Definition read_hexid (text : bytes) : option byte :=
  match rev text with
  | c :: y :: x :: t =>
    if Byte.eqb c x29 && has_prefix (rev (str "(0x")) t then hex_pair x y else None
  | _ => None
  end.

(** The type octet of a sub-packet from its name: the number, plus 128 if the name
    says "<critical>" before it. *)
Definition read_sub (text : bytes) : option N :=
  match read_id (str "sub") text with
  | Some n =>
    if has_prefix (rev (str " <critical> (sub " ++ dec n ++ str ")")) (rev text)
    then Some (128 + n) else Some n
  | None => None
  end.

(** Dump of one octet, if dumps are switched on. *)
Definition octet_dump (f : bool) (b : byte) : bytes := if f then two_hex b else [].

(** C48: the version of each packet kind in RFC 4880, and in RFC 4880bis if it differs. *)
Inductive kind := KPublicKey | KSignature | KOnePass | KPubSession | KSymSession | KAead.
Definition current_version (k : kind) : N :=
  match k with KPublicKey => 4 | KSignature => 4 | KOnePass => 3 | KPubSession => 3 | KSymSession => 4 | KAead => 1 end.
Definition draft_version (k : kind) : option N :=
  match k with KPublicKey => Some 5 | KSignature => Some 5 | KSymSession => Some 5 | _ => None end.
Definition version_label (k : kind) (v : N) : bytes :=
  match N.compare v (current_version k) with
  | Lt => str "old"
  | Eq => str "current"
  | Gt => match draft_version k with
          | Some d => if v =? d then str "draft" else str "unknown"
          | None => str "unknown"
          end
  end.

(** C47: object identifiers of the curves (RFC 4880bis 9.2; X.690 contents octets computed
    from the dotted numbers below). *)
Fixpoint base128 (fuel : nat) (last : bool) (n : N) : bytes :=
  match fuel with
  | O => []
  | S f => (if n <? 128 then [] else base128 f false (n / 128)) ++ [n2b (n mod 128 + if last then 0 else 128)]
  end.
Definition oid_octets (arcs : list N) : bytes :=
  match arcs with
  | a :: b :: t => base128 10 true (a * 40 + b) ++ flat_map (base128 10 true) t
  | _ => []
  end.
Definition curves : list (bytes * string) :=
  [(oid_octets [1; 2; 840; 10045; 3; 1; 7], "nistp256 (256bits key size)");
   (oid_octets [1; 3; 132; 0; 10], "secp256k1 (256bits key size)");
   (oid_octets [1; 3; 132; 0; 34], "nistp384 (384bits key size)");
   (oid_octets [1; 3; 132; 0; 35], "nistp521 (521bits key size)");
   (oid_octets [1; 3; 36; 3; 3; 2; 8; 1; 1; 7], "brainpoolP256r1 (256bits key size)");
   (oid_octets [1; 3; 36; 3; 3; 2; 8; 1; 1; 11], "brainpoolP384r1 (384bits key size)");
   (oid_octets [1; 3; 36; 3; 3; 2; 8; 1; 1; 13], "brainpoolP512r1 (512bits key size)");
   (oid_octets [1; 3; 6; 1; 4; 1; 11591; 15; 1], "ed25519 (256bits key size)");
   (oid_octets [1; 3; 6; 1; 4; 1; 3029; 1; 5; 1], "cv25519 (256bits key size)")]%string.
