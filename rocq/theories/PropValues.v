(** * Properties of identifiers, numbers and dumps: C15-C19, C30, C47, C48. *)
From Coq Require Import Strings.String Strings.Byte List NArith ZArith Bool Permutation.
From Verif Require Import Base SpecBase Item Reader SpecReader Context Env Values Monad Tags SpecValues ReaderL MonadL ValuesL.
Import ListNotations.
Local Open Scope N_scope.

(** ** C15: hex dumps are lossless *)

(** DumpString from any offset: the text is a dump that reads back as exactly the octets from there. *)
Theorem C15_dump_reads_back : forall data off,
  (0 <= off)%Z ->
  exists d, r_dumpstring off (r_new data) = ROk d /\ read_dump d = Some (skipn (Z.to_nat off) data).
Proof. exact dumpstring_read. Qed.
Print Assumptions C15_dump_reads_back.

(** The dump of octets (DumpBytes) is the only text that reads back as them. *)
Theorem C15_dump_canonical : forall data d,
  read_dump d = Some data <-> d = dump_bytes data true.
Proof. exact dump_canonical. Qed.
Print Assumptions C15_dump_canonical.

Theorem C15_dump_injective : forall a b, dump_bytes a true = dump_bytes b true -> a = b.
Proof. exact hexdump_inj. Qed.
Print Assumptions C15_dump_injective.

Example C15_sat : r_dumpstring 1 (r_new [x00; x1f; xa0]) = ROk (str "1f a0") /\ read_dump (str "1F a0") = None
  /\ read_dump (str "1fa0") = None.
Proof. repeat split; reflexivity. Qed.

(** ** C16: key IDs are shown in full *)

Theorem C16_keyid_text : forall id,
  length id = 8%nat ->
  exists digits, i_value (keyid_item id) = str "0x" ++ digits /\ length digits = 16%nat /\
                 read_hexpairs digits = Some id.
Proof. exact keyid_spec. Qed.
Print Assumptions C16_keyid_text.

Theorem C16_keyid_injective : forall a b,
  length a = 8%nat -> length b = 8%nat -> keyid_item a = keyid_item b -> a = b.
Proof. exact keyid_inj. Qed.
Print Assumptions C16_keyid_injective.

Example C16_sat : i_value (keyid_item [x00; x00; xab; xcd; xef; x01; x02; x0f]) = str "0x0000abcdef01020f".
Proof. reflexivity. Qed.

(** ** C17: multi-precision integers are delimited exactly *)

Theorem C17_mpi_exact : forall r cs it bits data rest,
  in_buffer r -> (lenZ (r_buf r) < 2 ^ 62)%Z -> mpi_front (remaining r) bits data rest ->
  exists r', newMPI (mkSt r cs it) = (ROk (mkMPI bits data), mkSt r' cs it)
             /\ r_buf r' = r_buf r /\ in_buffer r' /\ remaining r' = rest.
Proof. exact newMPI_front. Qed.
Print Assumptions C17_mpi_exact.

Theorem C17_mpi_truncated : forall r cs it,
  in_buffer r -> (lenZ (r_buf r) < 2 ^ 62)%Z ->
  (forall bits data rest, ~ mpi_front (remaining r) bits data rest) ->
  exists e s', newMPI (mkSt r cs it) = (RErr e, s') /\ (e = EEof \/ e = EUnexp).
Proof. exact newMPI_short. Qed.
Print Assumptions C17_mpi_truncated.

(** The item shows the bit length, and the octets in the dump. *)
Theorem C17_mpi_item : forall name bits data,
  i_note (mpi_item name (mkMPI bits data) true) = dec bits ++ str " bits" /\
  read_dump (i_dump (mpi_item name (mkMPI bits data) true)) = Some data /\
  i_name (mpi_item name (mkMPI bits data) true) = name.
Proof. exact mpi_item_spec. Qed.
Print Assumptions C17_mpi_item.

Example C17_sat : let r := mkReader [xff; x00; x09; x01; x02; x77] 1 in
  in_buffer r /\ mpi_front (remaining r) 9 [x01; x02] [x77].
Proof. cbv zeta. repeat split; vm_compute; congruence. Qed.

(** ** C18: algorithm names *)

Theorem C18_symmetric : forall b f, sym_item b f =
  Item (str "Symmetric Algorithm")
       (id_text (reg_name sym_registry private_100_110 private_alg (b2n b)) (str "sym") (b2n b))
       (octet_dump f b) [] [].
Proof. exact sym_item_spec. Qed.
Print Assumptions C18_symmetric.

Theorem C18_hash : forall b f, hash_item b f =
  Item (str "Hash Algorithm")
       (id_text (reg_name hash_registry private_100_110 private_alg (b2n b)) (str "hash") (b2n b))
       (octet_dump f b) [] [].
Proof. exact hash_item_spec. Qed.
Print Assumptions C18_hash.

Theorem C18_public_key : forall b f, pub_item b f =
  Item (str "Public-key Algorithm")
       (id_text (reg_name pub_registry private_100_110 private_alg (b2n b)) (str "pub") (b2n b))
       (octet_dump f b) [] [].
Proof. exact pub_item_spec. Qed.
Print Assumptions C18_public_key.

Theorem C18_compression : forall b f, comp_item b f =
  Item (str "Compression Algorithm")
       (id_text (reg_name comp_registry no_private private_alg (b2n b)) (str "comp") (b2n b))
       (octet_dump f b) [] [].
Proof. exact comp_item_spec. Qed.
Print Assumptions C18_compression.

Theorem C18_aead : forall b f, aead_item b f =
  Item (str "AEAD Algorithm")
       (id_text (reg_name aead_registry private_100_110 private_alg (b2n b)) (str "aead") (b2n b))
       (octet_dump f b) [] [].
Proof. exact aead_item_spec. Qed.
Print Assumptions C18_aead.

Theorem C18_s2k : forall b f, s2k_item b f =
  Item (str "String-to-Key (S2K) Algorithm")
       (id_text (reg_name s2k_registry private_100_110 private_alg (b2n b)) (str "s2k") (b2n b))
       (octet_dump f b) [] [].
Proof. exact s2k_item_spec. Qed.
Print Assumptions C18_s2k.

Theorem C18_signature_type : forall b f, sig_item b f =
  Item (str "Signiture Type")
       (reg_name sig_registry no_private "" (b2n b) ++ str " (0x" ++ two_hex b ++ str ")")
       (octet_dump f b) [] [].
Proof. exact sig_item_spec. Qed.
Print Assumptions C18_signature_type.

(** Sub-packets: the name shows the type and the critical bit; the note is the size. *)
Theorem C18_subpacket : forall b body f,
  i_name (sub_item b body f) =
  reg_name sub_registry private_100_110 "Private or experimental" (b2n b mod 128)
  ++ (if 128 <=? b2n b then str " <critical>" else [])
  ++ str " (sub " ++ dec (b2n b mod 128) ++ str ")".
Proof. exact (fun b _ _ => sub_string_spec b). Qed.
Print Assumptions C18_subpacket.

Theorem C18_tag : forall t body f,
  i_name (tag_item t body f) = id_text (reg_name tag_registry no_private "" t) (str "tag") t.
Proof. exact (fun t _ _ => tag_string_spec t). Qed.
Print Assumptions C18_tag.

(** Each octet can be read back from the text shown for it. *)
Theorem C18_octet_recoverable : forall b t body f,
  read_id (str "sym") (i_value (sym_item b f)) = Some (b2n b) /\
  read_id (str "hash") (i_value (hash_item b f)) = Some (b2n b) /\
  read_id (str "pub") (i_value (pub_item b f)) = Some (b2n b) /\
  read_id (str "comp") (i_value (comp_item b f)) = Some (b2n b) /\
  read_id (str "aead") (i_value (aead_item b f)) = Some (b2n b) /\
  read_id (str "s2k") (i_value (s2k_item b f)) = Some (b2n b) /\
  read_hexid (i_value (sig_item b f)) = Some b /\
  read_sub (i_name (sub_item b body f)) = Some (b2n b) /\
  read_id (str "tag") (i_name (tag_item t body f)) = Some t.
Proof. exact octet_recoverable. Qed.
Print Assumptions C18_octet_recoverable.

Example C18_sat : i_value (sym_item x09 true) = str "AES with 256-bit key (sym 9)"
  /\ i_name (sub_item x90 [] false) = str "Issuer <critical> (sub 16)"
  /\ i_value (hash_item x64 true) = str "Private/Experimental algorithm (hash 100)".
Proof. repeat split; reflexivity. Qed.

(** ** C19: S2K iteration counts *)

Theorem C19_s2k_count : forall b,
  i_value (stretch_item b) = dec ((16 + b2n b mod 16) * 2 ^ (b2n b / 16 + 6)) /\
  1024 <= (16 + b2n b mod 16) * 2 ^ (b2n b / 16 + 6) <= 65011712.
Proof. exact stretch_item_spec. Qed.
Print Assumptions C19_s2k_count.

Theorem C19_s2k_count_increasing : forall a b m n,
  read_dec (i_value (stretch_item a)) = Some m -> read_dec (i_value (stretch_item b)) = Some n ->
  b2n a < b2n b -> m < n.
Proof. exact stretch_increasing. Qed.
Print Assumptions C19_s2k_count_increasing.

Example C19_sat : i_value (stretch_item x60) = str "65536" /\ b2n x60 < b2n xff /\ i_value (stretch_item xff) = str "65011712".
Proof. repeat split; reflexivity. Qed.

(** ** C30: AEAD chunk sizes *)

Theorem C30_chunk_size_partial : forall c, b2n c <= 57 -> chunk_size c = 2 ^ (b2n c + 6).
Proof. exact chunk_size_low. Qed.
Print Assumptions C30_chunk_size_partial.

(** Full statement (false): chunk_size c = 2 ^ (b2n c + 6) for every octet. *)
Theorem C30_chunk_size_refuted : exists c, chunk_size c <> 2 ^ (b2n c + 6).
Proof. exists x3a. vm_compute. discriminate. Qed.
Print Assumptions C30_chunk_size_refuted.

(** From 58 on the size shown is wrong: 0, or a small power of two. *)
Theorem C30_chunk_size_high : forall c, 58 <= b2n c ->
  chunk_size c = if b2n c <? 250 then 0 else 2 ^ (b2n c - 250).
Proof. exact chunk_size_high. Qed.
Print Assumptions C30_chunk_size_high.

Example C30_sat : b2n x10 <= 57 /\ chunk_size x10 = 4194304 /\ 58 <= b2n xfa.
Proof. repeat split; vm_compute; congruence. Qed.

(** ** C47: curve names *)

Theorem C47_known_curve : forall order oid name,
  Permutation order oid_list -> In (oid, name) curves -> oid_string_in order oid = str name.
Proof. exact curve_known. Qed.
Print Assumptions C47_known_curve.

Theorem C47_unknown_curve : forall order oid,
  Permutation order oid_list -> ~ In oid (map fst curves) -> oid_string_in order oid = str "Unknown".
Proof. exact curve_unknown. Qed.
Print Assumptions C47_unknown_curve.

Theorem C47_names_distinct : forall o1 n1 o2 n2,
  In (o1, n1) curves -> In (o2, n2) curves -> n1 = n2 -> o1 = o2.
Proof. exact curve_names_distinct. Qed.
Print Assumptions C47_names_distinct.

Theorem C47_curve_item : forall order oid f,
  Permutation order oid_list ->
  oid_item oid f = Item (str "ECC Curve OID") (oid_string_in order oid) (dump_bytes oid f) [] [].
Proof. exact oid_item_any_order. Qed.
Print Assumptions C47_curve_item.

Example C47_sat : Permutation (rev oid_list) oid_list /\ In (oid_octets [1; 3; 132; 0; 34], "nistp384 (384bits key size)"%string) curves
  /\ ~ In [x2b] (map fst curves).
Proof.
  split; [apply Permutation_sym, Permutation_rev|].
  split; [right; right; left; reflexivity|]. vm_compute. intuition discriminate.
Qed.

(** ** C48: version labels *)

Theorem C48_version_labels : forall b f,
  v_item (PubVer b) f = Item (str "Version") (dec (b2n b)) (octet_dump f b) (version_label KPublicKey (b2n b)) [] /\
  v_item (SigVer b) f = Item (str "Version") (dec (b2n b)) (octet_dump f b) (version_label KSignature (b2n b)) [] /\
  v_item (OneSigVer b) f = Item (str "Version") (dec (b2n b)) (octet_dump f b) (version_label KOnePass (b2n b)) [] /\
  v_item (PubSessKeyVer b) f = Item (str "Version") (dec (b2n b)) (octet_dump f b) (version_label KPubSession (b2n b)) [] /\
  v_item (SymSessKeyVer b) f = Item (str "Version") (dec (b2n b)) (octet_dump f b) (version_label KSymSession (b2n b)) [] /\
  v_item (AEADVer b) f = Item (str "Version") (dec (b2n b)) (octet_dump f b) (version_label KAead (b2n b)) [].
Proof. exact all_versions. Qed.
Print Assumptions C48_version_labels.

Example C48_sat : i_note (v_item (PubVer x05) true) = str "draft" /\ i_note (v_item (AEADVer x05) true) = str "unknown".
Proof. split; reflexivity. Qed.
