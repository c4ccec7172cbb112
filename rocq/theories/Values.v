(** * Values: parse/values/*.go — identifiers, dates, MPIs and texts as items. *)
From Coq Require Import Strings.String Strings.Byte List NArith ZArith Bool.
From Verif Require Import Base Utf8 Item Reader Context Env Time Float.
Import ListNotations.
Local Open Scope N_scope.

(** values.Msgs and Msgs.Get, msgs.go 4-12 (map index; the tables have distinct keys). *)
Definition msgs := list (N * string).
Fixpoint msgs_get (m : msgs) (i : N) (def : bytes) : bytes :=
  match m with
  | [] => def
  | (k, v) :: t => if k =? i then str v else msgs_get t i def
  end.

(** misc.go 6-13 *)
Definition sUnknown : bytes := str "Unknown".
Definition sPrivateAlg : bytes := str "Private/Experimental algorithm".

(** The test 100 <= id && id <= 110 of the id types. *)
Definition in_private (n : N) : bool := (100 <=? n) && (n <=? 110).

(** DumpByteString, dump.go 33-38. *)
Definition dump_byte (b : byte) (f : bool) : bytes := if f then hex2 b else [].

(** DumpBytes(data, f).String(), dump.go 15-30: a fresh reader, so the whole of data. *)
Definition dump_bytes (l : bytes) (f : bool) : bytes := if f then hexdump l else [].

(** "%d bytes" *)
Definition n_bytes (n : Z) : bytes := decZ n ++ str " bytes".

(** Plain items: NewItem with Name and Value, or Name and DumpStr, result.go 78-119. *)
Definition it_nv (n v : bytes) : item := Item n v [] [] [].
Definition it_nd (n d : bytes) : item := Item n [] d [] [].

(** aeadid.go 9-12 *)
Definition aead_names : msgs := [(1, "EAX mode"); (2, "OCB mode <RFC7253>")]%string.
(** AEADID.String, aeadid.go 36-44 *)
Definition aead_string (b : byte) : bytes :=
  (if in_private (b2n b) then sPrivateAlg else msgs_get aead_names (b2n b) sUnknown)
  ++ str " (aead " ++ dec (b2n b) ++ str ")".
(** AEADID.IVLen, aeadid.go 14-17 and aeadid.go 47-52 *)
Definition aead_ivlen (b : byte) : Z :=
  match b2n b with 1 => 16%Z | 2 => 16%Z | _ => 0%Z end.
(** AEADID.TagLen, aeadid.go 19-22 and aeadid.go 55-60 *)
Definition aead_taglen (b : byte) : Z :=
  match b2n b with 1 => 16%Z | 2 => 16%Z | _ => 0%Z end.
(** AEADID.ToItem, aeadid.go 28-34 *)
Definition aead_item (b : byte) (f : bool) : item :=
  Item (str "AEAD Algorithm") (aead_string b) (dump_byte b f) [] [].

(** compid.go 9-14 *)
Definition comp_names : msgs :=
  [(0, "Uncompressed"); (1, "ZIP <RFC1951>"); (2, "ZLIB <RFC1950>"); (3, "BZip2")]%string.
(** CompID.String, compid.go 28-30. The argument of %d is the CompID itself,
    which has a String method; %d still prints the number. *)
Definition comp_string (b : byte) : bytes :=
  msgs_get comp_names (b2n b) sUnknown ++ str " (comp " ++ dec (b2n b) ++ str ")".
(** CompID.ToItem, compid.go 20-26 *)
Definition comp_item (b : byte) (f : bool) : item :=
  Item (str "Compression Algorithm") (comp_string b) (dump_byte b f) [] [].

(** hashid.go 9-25 *)
Definition hash_names : msgs :=
  [(0, "Unknown"); (1, "MD5"); (2, "SHA-1"); (3, "RIPE-MD/160"); (4, "Reserved");
   (5, "Reserved"); (6, "Reserved"); (7, "Reserved"); (8, "SHA2-256"); (9, "SHA2-384");
   (10, "SHA2-512"); (11, "SHA2-224"); (12, "SHA3-256"); (13, "Reserved");
   (14, "SHA3-512")]%string.
(** HashID.String, hashid.go 40-48 *)
Definition hash_string (b : byte) : bytes :=
  (if in_private (b2n b) then sPrivateAlg else msgs_get hash_names (b2n b) (str "Unknown"))
  ++ str " (hash " ++ dec (b2n b) ++ str ")".
(** HashID.ToItem, hashid.go 31-37 *)
Definition hash_item (b : byte) (f : bool) : item :=
  Item (str "Hash Algorithm") (hash_string b) (dump_byte b f) [] [].

(** pubid.go 9-20 *)
Definition pub_names : msgs :=
  [(1, "RSA (Encrypt or Sign)"); (2, "RSA Encrypt-Only"); (3, "RSA Sign-Only");
   (16, "Elgamal (Encrypt-Only)"); (17, "DSA (Digital Signature Algorithm)");
   (18, "ECDH public key algorithm"); (19, "ECDSA public key algorithm");
   (20, "Reserved (formerly Elgamal Encrypt or Sign)"); (21, "Reserved for Diffie-Hellman");
   (22, "EdDSA")]%string.
(** PubID.String, pubid.go 35-43 *)
Definition pub_string (b : byte) : bytes :=
  (if in_private (b2n b) then sPrivateAlg else msgs_get pub_names (b2n b) sUnknown)
  ++ str " (pub " ++ dec (b2n b) ++ str ")".
(** PubID.ToItem, pubid.go 26-32 *)
Definition pub_item (b : byte) (f : bool) : item :=
  Item (str "Public-key Algorithm") (pub_string b) (dump_byte b f) [] [].
(** pubid.go 46-73 *)
Definition isRSA (b : byte) : bool := (1 <=? b2n b) && (b2n b <=? 3).
Definition isDSA (b : byte) : bool := b2n b =? 17.
Definition isElgamal (b : byte) : bool := (b2n b =? 16) || (b2n b =? 20).
Definition isECDH (b : byte) : bool := b2n b =? 18.
Definition isECDSA (b : byte) : bool := b2n b =? 19.
Definition isEdDSA (b : byte) : bool := b2n b =? 22.

(** s2kid.go 10-15 *)
Definition s2k_names : msgs :=
  [(0, "Simple S2K"); (1, "Salted S2K"); (2, "Reserved"); (3, "Iterated and Salted S2K")]%string.
(** S2KID.String, s2kid.go 29-37 *)
Definition s2k_string (b : byte) : bytes :=
  (if in_private (b2n b) then sPrivateAlg else msgs_get s2k_names (b2n b) sUnknown)
  ++ str " (s2k " ++ dec (b2n b) ++ str ")".
(** S2KID.ToItem, s2kid.go 21-27 *)
Definition s2k_item (b : byte) (f : bool) : item :=
  Item (str "String-to-Key (S2K) Algorithm") (s2k_string b) (dump_byte b f) [] [].
(** Salt.ToItem, s2kid.go 43-48 *)
Definition salt_item (l : bytes) (f : bool) : item := it_nd (str "Salt") (dump_bytes l f).
(** Stretch.ToItem, s2kid.go 57-64; the shift is on uint32. *)
Definition stretch_count (b : byte) : N :=
  wrap32 (N.shiftl (16 + N.land (b2n b) 15) (N.shiftr (b2n b) 4 + 6)).
Definition stretch_item (b : byte) : item :=
  Item (str "Count") (dec (stretch_count b)) (dump_byte b true) [] [].

(** sigid.go 9-26 *)
Definition sig_names : msgs :=
  [(0x00, "Signature of a binary document"); (0x01, "Signature of a canonical text document");
   (0x02, "Standalone signature");
   (0x10, "Generic certification of a User ID and Public-Key packet");
   (0x11, "Persona certification of a User ID and Public-Key packet");
   (0x12, "Casual certification of a User ID and Public-Key packet");
   (0x13, "Positive certification of a User ID and Public-Key packet");
   (0x16, "Attested Key Signature"); (0x18, "Subkey Binding Signature");
   (0x19, "Primary Key Binding Signature"); (0x1f, "Signature directly on a key");
   (0x20, "Key revocation signature"); (0x28, "Subkey revocation signature");
   (0x30, "Certification revocation signature"); (0x40, "Timestamp signature");
   (0x50, "Third-Party Confirmation signature")]%string.
(** SigID.String, sigid.go 41-43 *)
Definition sig_string (b : byte) : bytes :=
  msgs_get sig_names (b2n b) sUnknown ++ str " (" ++ hex0x2 b ++ str ")".
(** SigID.ToItem, sigid.go 32-38 *)
Definition sig_item (b : byte) (f : bool) : item :=
  Item (str "Signiture Type") (sig_string b) (dump_byte b f) [] [].

(** symid.go 9-24 *)
Definition sym_names : msgs :=
  [(0, "Plaintext or unencrypted data"); (1, "IDEA");
   (2, "TripleDES (168 bit key derived from 192)"); (3, "CAST5 (128 bit key, as per)");
   (4, "Blowfish (128 bit key, 16 rounds)"); (5, "Reserved"); (6, "Reserved");
   (7, "AES with 128-bit key"); (8, "AES with 192-bit key"); (9, "AES with 256-bit key");
   (10, "Twofish with 256-bit key"); (11, "Camellia with 128-bit key");
   (12, "Camellia with 192-bit key"); (13, "Camellia with 256-bit key")]%string.
(** SymID.String, symid.go 64-72 *)
Definition sym_string (b : byte) : bytes :=
  (if in_private (b2n b) then sPrivateAlg else msgs_get sym_names (b2n b) sUnknown)
  ++ str " (sym " ++ dec (b2n b) ++ str ")".
(** SymID.IVLen, symid.go 26-41 and symid.go 56-61 *)
Definition sym_ivlen (b : byte) : Z :=
  if b2n b <=? 6 then 8%Z else if b2n b <=? 13 then 16%Z else 0%Z.
(** SymID.ToItem, symid.go 47-53 *)
Definition sym_item (b : byte) (f : bool) : item :=
  Item (str "Symmetric Algorithm") (sym_string b) (dump_byte b f) [] [].

(** subpacketid.go 10-50 *)
Definition sub_names : msgs :=
  [(0, "Reserved"); (1, "Image Attribute"); (2, "Signature Creation Time");
   (3, "Signature Expiration Time"); (4, "Exportable Certification"); (5, "Trust Signature");
   (6, "Regular Expression"); (7, "Revocable"); (8, "Reserved"); (9, "Key Expiration Time");
   (10, "Placeholder for backward compatibility"); (11, "Preferred Symmetric Algorithms");
   (12, "Revocation Key"); (13, "Reserved"); (14, "Reserved"); (15, "Reserved");
   (16, "Issuer"); (17, "Reserved"); (18, "Reserved"); (19, "Reserved");
   (20, "Notation Data"); (21, "Preferred Hash Algorithms");
   (22, "Preferred Compression Algorithms"); (23, "Key Server Preferences");
   (24, "Preferred Key Server"); (25, "Primary User ID"); (26, "Policy URI");
   (27, "Key Flags"); (28, "Signer's User ID"); (29, "Reason for Revocation");
   (30, "Features"); (31, "Signature Target"); (32, "Embedded Signature");
   (33, "Issuer Fingerprint"); (34, "Preferred AEAD Algorithms");
   (35, "Intended Recipient Fingerprint"); (36, "Reserved");
   (37, "Attested Certifications"); (38, "Key Block")]%string.
(** SuboacketID.String, subpacketid.go 64-77 *)
Definition sub_string (b : byte) : bytes :=
  let c := if bland b 0x80 =? 0 then [] else str " <critical>" in
  let s := bland b 0x7f in
  (if in_private s then str "Private or experimental" else msgs_get sub_names s sUnknown)
  ++ c ++ str " (sub " ++ dec s ++ str ")".

(** tagid.go 10-34 *)
Definition tag_names : msgs :=
  [(0, "Reserved"); (1, "Public-Key Encrypted Session Key Packet"); (2, "Signature Packet");
   (3, "Symmetric-Key Encrypted Session Key Packet"); (4, "One-Pass Signature Packet");
   (5, "Secret-Key Packet"); (6, "Public-Key Packet"); (7, "Secret-Subkey Packet");
   (8, "Compressed Data Packet"); (9, "Symmetrically Encrypted Data Packet");
   (10, "Marker Packet (Obsolete Literal Packet)"); (11, "Literal Data Packet");
   (12, "Trust Packet"); (13, "User ID Packet"); (14, "Public-Subkey Packet");
   (17, "User Attribute Packet"); (18, "Sym. Encrypted Integrity Protected Data Packet");
   (19, "Modification Detection Code Packet"); (20, "AEAD Encrypted Data Packet");
   (60, "Private or Experimental Values"); (61, "Private or Experimental Values");
   (62, "Private or Experimental Values"); (63, "Private or Experimental Values")]%string.
(** TagID.String, tagid.go 48-50 *)
Definition tag_string (t : N) : bytes :=
  msgs_get tag_names t sUnknown ++ str " (tag " ++ dec t ++ str ")".

(** TagID.ToItem, tagid.go 40-46, on a fresh reader over [body] (every call in
    the code is on a fresh reader, so the dump covers the whole body). *)
Definition tag_item (t : N) (body : bytes) (f : bool) : item :=
  Item (tag_string t) [] (dump_bytes body f) (n_bytes (lenZ body)) [].
(** SuboacketID.ToItem, subpacketid.go 56-62, same remark. *)
Definition sub_item (b : byte) (body : bytes) (f : bool) : item :=
  Item (sub_string b) [] (dump_bytes body f) (n_bytes (lenZ body)) [].

(** KeyID, keyid.go 14-28 *)
Definition keyid_string (octets : bytes) : bytes := hex0x16 (be octets).
Definition keyid_item (octets : bytes) : item := it_nv (str "Key ID") (keyid_string octets).

(** Version, version.go 10-87: ver, cur, draft. *)
Record version := mkVer { v_ver : byte; v_cur : N; v_draft : N }.
Definition v_num (v : version) : N := b2n (v_ver v).
Definition v_isold (v : version) : bool := v_num v <? v_cur v.
Definition v_iscur (v : version) : bool := v_num v =? v_cur v.
Definition v_isdraft (v : version) : bool :=
  if v_draft v =? 0 then false else v_num v =? v_draft v.
(** Version.IsUnknown, version.go 57-59 *)
Definition v_isunknown (v : version) : bool := negb (v_isold v) && negb (v_iscur v) && negb (v_isdraft v).
Definition v_note (v : version) : bytes :=
  if v_isold v then str "old" else if v_iscur v then str "current"
  else if v_isdraft v then str "draft" else str "unknown".
Definition v_item (v : version) (f : bool) : item :=
  Item (str "Version") (dec (v_num v)) (dump_byte (v_ver v) f) (v_note v) [].
(** version.go 90-117 *)
Definition PubVer (b : byte) := mkVer b 4 5.
Definition SigVer (b : byte) := mkVer b 4 5.
Definition OneSigVer (b : byte) := mkVer b 3 0.
Definition PubSessKeyVer (b : byte) := mkVer b 3 0.
Definition SymSessKeyVer (b : byte) := mkVer b 4 5.
Definition AEADVer (b : byte) := mkVer b 1 0.

(** DateTime.UnixTime, datetime.go 40-45; a nil time is [None] *)
Definition dt_unix (d : datetime) : N := be (dt_tm d).
(** DateTime.RFC3339, datetime.go 56-61 *)
Definition dt_text (E : env) (d : datetime) : bytes := unixtime2rfc3339 (e_tz E) (dt_unix d) (dt_utc d).
(** DateTime.ToItem, datetime.go 28-37 *)
Definition dt_item (E : env) (name : bytes) (d : datetime) (f : bool) : item :=
  Item name (dt_text E d) (dump_bytes (dt_tm d) f) [] [].
(** FileTimeItem, datetime.go 71-81, with IsZero, datetime.go 48-53 *)
Definition filetime_item (E : env) (d : datetime) (f : bool) : item :=
  if dt_unix d =? 0 then Item (str "Creation time") (str "null") (dump_bytes (dt_tm d) f) [] []
  else dt_item E (str "Creation time") d f.
(** PubKeyTimeItem, SigTimeItem, datetime.go 84-91 *)
Definition pubkeytime_item (E : env) (d : datetime) (f : bool) : item := dt_item E (str "Public key creation time") d f.
Definition sigtime_item (E : env) (d : datetime) (f : bool) : item := dt_item E (str "Signature creation time") d f.

(** Expire.ToItem, expire.go 28-44, and with its names SigExpireItem and KeyExpireItem, expire.go 47-54.  start+exp is a uint32 addition. *)
Definition expire_item (E : env) (name : bytes) (start : option datetime) (day : bytes) (f : bool) : item :=
  let exp := be day in
  let st := match start with Some d => dt_unix d | None => 0 end in
  let utc := match start with Some d => dt_utc d | None => false end in
  let note := if 0 <? st then unixtime2rfc3339 (e_tz E) (wrap32 (st + exp)) utc else [] in
  Item name (days_text exp ++ str " days after") (dump_bytes day f) note [].

(** oidList, ecc.go 15-25.  A Go map: iteration order unspecified. *)
Definition oid_list : list (bytes * bytes) :=
  [(str "nistp256 (256bits key size)", [x2a; x86; x48; xce; x3d; x03; x01; x07]);
   (str "secp256k1 (256bits key size)", [x2b; x81; x04; x00; x0a]);
   (str "nistp384 (384bits key size)", [x2b; x81; x04; x00; x22]);
   (str "nistp521 (521bits key size)", [x2b; x81; x04; x00; x23]);
   (str "brainpoolP256r1 (256bits key size)", [x2b; x24; x03; x03; x02; x08; x01; x01; x07]);
   (str "brainpoolP384r1 (384bits key size)", [x2b; x24; x03; x03; x02; x08; x01; x01; x0b]);
   (str "brainpoolP512r1 (512bits key size)", [x2b; x24; x03; x03; x02; x08; x01; x01; x0d]);
   (str "ed25519 (256bits key size)", [x2b; x06; x01; x04; x01; xda; x47; x0f; x01]);
   (str "cv25519 (256bits key size)", [x2b; x06; x01; x04; x01; x97; x55; x01; x05; x01])].
(** OID.String, ecc.go 53-60, iterating in the given order. *)
Fixpoint oid_string_in (order : list (bytes * bytes)) (oid : bytes) : bytes :=
  match order with
  | [] => sUnknown
  | (k, v) :: t => if beqs oid v then k else oid_string_in t oid
  end.
(** The result does not depend on the order (theorem C47), so the model uses the source order. *)
Definition oid_string (oid : bytes) : bytes := oid_string_in oid_list oid.
(** OID.ToItem, ecc.go 44-50 *)
Definition oid_item (oid : bytes) (f : bool) : item :=
  Item (str "ECC Curve OID") (oid_string oid) (dump_bytes oid f) [] [].
(** ECParm.ToItem, ecc.go 82-88 *)
Definition ecparm_item (name : bytes) (ep : bytes) (f : bool) : item :=
  Item name [] (dump_bytes ep f) (n_bytes (lenZ ep)) [].
(** ecc.go 90-106 *)
Definition point_names : msgs :=
  [(0x04, "uncompressed format"); (0x40, "Native point format of the curve follows");
   (0x41, "Only X coordinate follows"); (0x42, "Only Y coordinate follows")]%string.
Definition point_name (alg : bytes) (flag : N) : bytes :=
  alg ++ str " EC point (" ++ msgs_get point_names flag sUnknown ++ str ")".

(** values.MPI, mpi.go 13-39, and MPI.ToItem, mpi.go 42-54 (the names passed are never empty). *)
Record mpi := mkMPI { m_bits : N; m_data : bytes }.
Definition mpi_item (name : bytes) (m : mpi) (f : bool) : item :=
  Item name [] (dump_bytes (m_data m) f) (dec (m_bits m) ++ str " bits") [].
(** flag := 0xff, or the first octet of the MPI, parse_pub.go 106-109 (and 149-152, 168-171, parse_ses.go 76-79). *)
Definition mpi_flag (m : mpi) : N := match m_data m with [] => 0xff | b :: _ => b2n b end.

(** literal.go 13-19 *)
Definition literal_names : msgs :=
  [(0x62, "binary"); (0x74, "text"); (0x75, "UTF-8 text"); (0x31, "local"); (0x6c, "local")]%string.
(** LiteralFormat.ToItem/String, literal.go 25-35: string(l) converts the number
    to the UTF-8 encoding of that code point. *)
Definition litfmt_string (b : byte) : bytes := enc_rune (b2n b).
Definition litfmt_item (b : byte) : item :=
  Item (str "Literal data format") (litfmt_string b) [] (msgs_get literal_names (b2n b) (str "unknown")) [].

(** The rune loop of Text.ToItem, literal.go 83-91. *)
Definition sanitize_rune (o : option N) : bytes :=
  match o with
  | Some r => if is_control r then str "(" ++ fmtU r ++ str ")" else enc_rune r
  | None => enc_rune 0xFFFD
  end.
Definition sanitize (body : bytes) : bytes := flat_map sanitize_rune (scan body).
(** NewText, literal.go 44-46, and Text.ToItem, literal.go 64-97 (receiver non-nil). *)
Definition text_item (name body : bytes) (f : bool) : item :=
  if is_nil body then Item name [] [] (str "0 byte") []
  else if negb (utf8_valid body) then Item name [] (dump_bytes body true) (str "invalid text string") []
  else Item name (sanitize body) (dump_bytes body f) [] [].

(** Flag2Item, misc.go 16-24; [flag] is the byte value, nil when zero. *)
Definition flag_item (flag : N) (value : bytes) : option item :=
  if flag =? 0 then None else Some (it_nv (str "Flag") value).
(** fmt.Sprintf("Unknown flag%d(%#02x)", k, flag) *)
Definition unknown_flag (k : N) (flag : N) : bytes :=
  str "Unknown flag" ++ dec k ++ str "(" ++ hex0x2 (n2b flag) ++ str ")".

(** sub29.go 18-24 *)
Definition reason_names : msgs :=
  [(0, "No reason specified (key revocations or cert revocations)");
   (1, "Key is superseded (key revocations)");
   (2, "Key material has been compromised (key revocations)");
   (3, "Key is retired and no longer used (key revocations)");
   (32, "User ID resultrmation is no longer valid (cert revocations)")]%string.
