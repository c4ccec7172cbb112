(** * PropHidden: C06. *)
From Coq Require Import Strings.String Strings.Byte List NArith ZArith Bool Lia ZifyBool ZifyN ZifyNat.
From Verif Require Import Base BaseL SpecBase Item Reader Context Env Time Values Opaque Monad Subs Tags Parse SubParse
  SpecValues SpecPacket SpecFrame SpecNest SpecSub SpecSubs SpecComp SpecLiteral SpecSecret SpecParse CompL SigL EventL TotalL
  PropPacket PropSecret PropComp PropParse PropSig PropSub PropState PropFrame PropArmor SpecArmor SpecHidden HiddenL Witness.
Import ListNotations.
Local Open Scope N_scope.

(** C06, as far as it goes.  Without a dump option two packets that differ in secret or bulk data only are shown as the
    same item (or fail alike), and leave the same state.  Missing: the octets of encrypted data that the code shows as an IV
    (OCB-encrypted data, secret keys of version 5, of usage octets 1 to 252: see the refutations below);
    octets that single sub-packets ignore.  Packets that are cut short are in PropRedact. *)
Theorem C06_packet_partial : forall o E tag b b' cs, no_dump o -> packet_veiled E tag b b' -> sized b -> four_octet_dates cs ->
  same_outcome (item_only (parse_tag o E tag b cs)) (item_only (parse_tag o E tag b' cs)).
Proof. intros o E tag b b' cs Q V Z D. exact (proj1 (veiled_packets o E Q) tag b b' V cs Z D). Qed.
Print Assumptions C06_packet_partial.
(** The packets have the same length. *)
Theorem C06_lengths : forall E tag b b', packet_veiled E tag b b' -> length b = length b'.
Proof. exact packet_veiled_length. Qed.
Print Assumptions C06_lengths.

Lemma input_alike o E : no_dump o -> forall l l', input_veiled E l l' -> forall cs, all_sized l -> four_octet_dates cs ->
  parse_list o E l cs = parse_list o E l' cs.
Proof.
  intros Q l l' V.
  assert (forall tag b b' t t' cs, sized b -> four_octet_dates cs -> same_outcome (packets_parse o E tag b cs) (packets_parse o E tag b' cs) ->
    (forall i c, packets_parse o E tag b cs = (ROk i, c) -> four_octet_dates c) ->
    (forall c, four_octet_dates c -> parse_list o E t c = parse_list o E t' c) ->
    parse_list o E ((tag, b) :: t) cs = parse_list o E ((tag, b') :: t') cs) as K.
  { intros tag b b' t t' cs Z D [H1 H2] H3 IH. cbn [parse_list].
    destruct (packets_parse o E tag b cs) as [[i|e| |] c], (packets_parse o E tag b' cs) as [[i'|e'| |] c']; cbn [fst snd] in *; inversion H1; subst; try reflexivity.
    rewrite <- (H2 ltac:(discriminate)), (IH c (H3 i' c eq_refl)). reflexivity. }
  assert (forall tag b i cs c, sized b -> four_octet_dates cs -> tag <> 8 -> packets_parse o E tag b cs = (ROk i, c) -> four_octet_dates c) as DP.
  { intros tag b i cs c Z D N H. destruct (packets_parse_other o E tag b cs i c N H) as [x R]. exact (dates_packet _ _ _ _ _ _ _ Z D R). }
  induction V as [|tag b b' l l' N P _ IH|tag b l l' _ IH|a z z' d d' i i' l l' L C C' I I' P _ IH|a z z' l l' A L _ IH|a z z' d ok d' ok' l l' A N1 N2 L I1 M1 I2 M2 _ IH];
    intros cs Z D; [reflexivity|..]; apply Forall_cons_iff in Z as [Zb Zl]; cbn [snd] in Zb.
  - apply K; auto.
    + rewrite !packets_parse_item by assumption. apply C06_packet_partial; assumption.
    + intros i c H. exact (DP _ _ _ _ _ Zb D N H).
  - cbn [parse_list]. destruct (packets_parse o E tag b cs) as [[i|e| |] c] eqn:R; try reflexivity. rewrite (IH c Zl); [reflexivity|].
    exact (dates_parse o E tag b cs i c Zb D R).
  - assert (sized (a :: z')) as Z' by (unfold sized, lenZ in *; cbn [length] in *; rewrite <- L; exact Zb).
    pose proof (input_sizes _ _ I (contents_sized _ _ _ _ C Zb)) as AI.
    destruct (C35_expanded o E a z d i cs Zb C I) as [E1 E2], (C35_expanded o E a z' d' i' cs Z' C' I') as [E3 E4].
    pose proof (proj2 (proj2 (proj2 (veiled_packets o E Q))) i i' P cs AI D) as [F1 F2].
    apply K; auto; [split|].
    + rewrite E1, E3, F1. destruct (fst (flat_list o E i' cs)); cbn [map_res]; try reflexivity. f_equal.
      unfold compressed_shown. assert (same_length (a :: z) (a :: z')) as SL by (unfold same_length in *; cbn [length]; lia).
      rewrite (packet_shown_len o Q 8 _ _ _ SL), (off_debug o Q), (lenN_same _ _ L). destruct z, z'; try discriminate L; reflexivity.
    + rewrite E1, E2, E4. intro N. apply F2. intro X. rewrite X in N. apply N. reflexivity.
    + intros it c R. exact (dates_parse o E 8 (a :: z) cs it c Zb D R).
  - assert (sized (a :: z')) as Z' by (unfold sized, lenZ in *; cbn [length] in *; rewrite <- L; exact Zb).
    apply K; auto; rewrite !C35_unknown_algorithm by auto; [|intros it c R; inversion R; subst; exact D].
    unfold compressed_shown. assert (same_length (a :: z) (a :: z')) as SL by (unfold same_length in *; cbn [length]; lia).
    rewrite (packet_shown_len o Q 8 _ _ _ SL), (off_debug o Q), (lenN_same _ _ L). destruct z, z'; try discriminate L; apply same_outcome_refl.
  - assert (sized (a :: z')) as Z' by (unfold sized, lenZ in *; cbn [length] in *; rewrite <- L; exact Zb).
    apply K; auto; rewrite (C35_too_large o E a z d ok cs Zb A N1 I1 M1); [|intros it c R; inversion R; subst; exact D].
    rewrite (C35_too_large o E a z' d' ok' cs Z' A N2 I2 M2).
    unfold compressed_shown. assert (same_length (a :: z) (a :: z')) as SL by (unfold same_length in *; cbn [length]; lia).
    rewrite (packet_shown_len o Q 8 _ _ _ SL), (off_debug o Q), (lenN_same _ _ L). destruct z, z'; try discriminate L; apply same_outcome_refl.
Qed.

(** C06 for inputs, as far as it goes: the whole result, packet by packet, up to the first failure. *)
Theorem C06_input_partial : forall o E l l' w w' c c', no_dump o -> input_veiled E l l' ->
  input_of l w -> input_of l' w' -> delivers c w -> delivers c' w' -> sized w ->
  parse_chunks o E c = parse_chunks o E c'.
Proof.
  intros o E l l' w w' c c' Q V I I' Dc Dc' Z. rewrite (C01_framing o E l w c I Dc), (C01_framing o E l' w' c' I' Dc').
  apply (input_alike o E Q l l' V); [exact (input_sizes l w I Z) | exact dates_init].
Qed.
Print Assumptions C06_input_partial.
(** The same from octets, when no armored block is found in them. *)
Theorem C06_bytes_partial : forall o E l l' w w', no_dump o -> oArmor o = false -> input_veiled E l l' -> input_of l w -> input_of l' w' -> sized w ->
  short_lines w -> short_lines w' -> (forall block, first_block (lines_of w) block -> False) -> (forall block, first_block (lines_of w') block -> False) ->
  parse_bytes o E w = parse_bytes o E w'.
Proof.
  intros o E l l' w w' Q A V I I' Z S S' N N'.
  rewrite (C43_complete_partial o E w A S), (C43_complete_partial o E w' A S') by (intros block B; exfalso; eauto).
  assert (forall x, delivers (chunks_of x true) x) as DL.
  { intro x. unfold delivers, chunks_of. cbn [k_pieces k_ok]. destruct x; cbn [concat]; rewrite ?app_nil_r; (split; [|auto]); repeat constructor. discriminate. }
  exact (C06_input_partial o E l l' w w' _ _ Q V I I' (DL w) (DL w') Z).
Qed.
Print Assumptions C06_bytes_partial.

(** C06 is false of OCB: the code takes 16 octets for the nonce of 15, and shows the first octet of the encrypted data. *)
Theorem C06_ocb_refuted : exists o b b' i i', no_dump o /\ same_length b b' /\
  (exists v s c nonce d d', lenN nonce = aead_nonce_octets 2 /\
     b = encs [FVersion KAead v; FSym s; FAead x02; FChunk c; FDumped "IV" nonce] ++ d /\
     b' = encs [FVersion KAead v; FSym s; FAead x02; FChunk c; FDumped "IV" nonce] ++ d') /\
  fst (parse_tag o env0 20 b cst_init) = ROk (i, None) /\ fst (parse_tag o env0 20 b' cst_init) = ROk (i', None) /\ i <> i'.
Proof.
  exists o_plain.
  exists (encs [FVersion KAead x01; FSym x09; FAead x02; FChunk x0a; FDumped "IV" (repeat x00 15)] ++ x01 :: repeat x00 40).
  exists (encs [FVersion KAead x01; FSym x09; FAead x02; FChunk x0a; FDumped "IV" (repeat x00 15)] ++ x02 :: repeat x00 40).
  do 2 eexists. split; [intros c H; cbn in H; repeat destruct H as [<-|H]; reflexivity || destruct H|]. split; [reflexivity|].
  split; [do 6 eexists; split; [|split; reflexivity]; reflexivity|].
  split; [vm_compute; reflexivity|]. split; [vm_compute; reflexivity|]. vm_compute. discriminate.
Qed.
Print Assumptions C06_ocb_refuted.
(** C06 is false of encrypted secret keys whose IV is looked for in a wrong place.  Usage octet 9 (the cipher AES-256, followed by the
    IV): if the first octet of the IV is that of a cipher, the last octet shown as the IV is one of the encrypted part. *)
Definition plain_pub : list field := [FMpi "RSA public modulus n" 16 [xc1; x01]; FMpi "RSA public encryption exponent e" 2 [x03]].
Theorem C06_legacy_refuted : exists o iv ct ct' i i', no_dump o /\ lenN iv = cipher_iv_octets 9 /\ same_length ct ct' /\
  fst (parse_tag o env0 5 (x04 :: public_part x04 0 0 x01 plain_pub ++ x09 :: iv ++ ct) cst_init) = ROk (i, None) /\
  fst (parse_tag o env0 5 (x04 :: public_part x04 0 0 x01 plain_pub ++ x09 :: iv ++ ct') cst_init) = ROk (i', None) /\ i <> i'.
Proof.
  exists o_plain, (x07 :: repeat x00 15), (xa1 :: repeat x00 40), (xb2 :: repeat x00 40). do 2 eexists.
  split; [intros c H; cbn in H; repeat destruct H as [<-|H]; reflexivity || destruct H|]. split; [reflexivity|]. split; [reflexivity|].
  split; [vm_compute; reflexivity|]. split; [vm_compute; reflexivity|]. vm_compute. discriminate.
Qed.
Print Assumptions C06_legacy_refuted.
(** Version 5: the IV is inside the counted fields, but octets of the encrypted part are shown as the IV. *)
Theorem C06_v5_refuted : exists o s iv ct ct' i i', no_dump o /\ s2k_wf s /\ lenN iv = cipher_iv_octets 9 /\ same_length ct ct' /\
  let key ct := x05 :: public_part x05 0 0 x01 plain_pub ++ xfe :: n2b (lenN (optional_octets x09 None (Some s) ++ iv))
                :: (optional_octets x09 None (Some s) ++ iv) ++ be_enc 4 (lenN ct) ++ ct in
  fst (parse_tag o env0 5 (key ct) cst_init) = ROk (i, None) /\ fst (parse_tag o env0 5 (key ct') cst_init) = ROk (i', None) /\ i <> i'.
Proof.
  exists o_plain, (S2Iterated x08 (repeat x01 8) x60), (repeat x05 16), (xa1 :: repeat x00 40), (xb2 :: repeat x00 40). do 2 eexists.
  split; [intros c H; cbn in H; repeat destruct H as [<-|H]; reflexivity || destruct H|]. split; [reflexivity|]. split; [reflexivity|]. split; [reflexivity|].
  cbv zeta. split; [vm_compute; reflexivity|]. split; [vm_compute; reflexivity|]. vm_compute. discriminate.
Qed.
Print Assumptions C06_v5_refuted.
(** C06 is false of secret numbers that are not encrypted: their checksum (the sum of their octets, RFC 4880bis 5.5.3) is always shown. *)
Definition octet_sum (d : bytes) : N := fold_right (fun b n => b2n b + n) 0 d mod 65536.
Theorem C06_checksum_refuted : exists o t a pub sec sec' i i', no_dump o /\ material pub_layout a pub /\ material sec_layout a sec /\ veiled sec sec' /\
  fst (parse_tag o env0 5 (x04 :: encs (key_fields 4 t 0 a pub) ++ x00 :: encs sec ++ be_enc 2 (octet_sum (encs sec))) cst_init) = ROk (i, None) /\
  fst (parse_tag o env0 5 (x04 :: encs (key_fields 4 t 0 a pub) ++ x00 :: encs sec' ++ be_enc 2 (octet_sum (encs sec'))) cst_init) = ROk (i', None) /\ i <> i'.
Proof.
  exists o_plain, 0, (n2b 22). exists [FCurve [x2b; x06; x01; x04; x01; xda; x47; x0f; x01]; FPoint "EdDSA" 7 [x40]].
  exists [FMpi "EdDSA secret key" 8 [xa1]], [FMpi "EdDSA secret key" 8 [xb2]]. do 2 eexists.
  split; [intros c H; cbn in H; repeat destruct H as [<-|H]; reflexivity || destruct H|].
  split; [eexists; split; [reflexivity|]; repeat constructor; vm_compute; reflexivity || discriminate|].
  split; [eexists; split; [reflexivity|]; repeat constructor; vm_compute; reflexivity || discriminate|].
  split; [repeat constructor|].
  split; [vm_compute; reflexivity|]. split; [vm_compute; reflexivity|]. vm_compute. discriminate.
Qed.
Print Assumptions C06_checksum_refuted.
(** C06 is false of binary input in which bulk data looks like an armored text: then that is parsed instead. *)
Definition env_armor : env :=
  mkEnv (fun c => 2 * c)%N (fun _ _ => DHeaderErr) (fun _ => 32400%Z) (fun _ => Some ([[xca; x03; x50; x47; x50]], true)).
Definition armor_lines : bytes := n2b 10 :: str "-----BEGIN PGP MESSAGE-----" ++ n2b 10 :: str "-----END PGP MESSAGE-----" ++ [n2b 10].
Definition old_frame (tag : N) (body : bytes) : bytes := (n2b (128 + 4 * tag) :: be_enc 1 (lenN body) ++ body) ++ [].
Lemma old_framed tag body : tag < 16 -> lenN body < 256 -> input_of [(tag, body)] (old_frame tag body).
Proof. intros T L. constructor. unfold old_frame. apply one_more; [apply old_one; assumption | constructor]. Qed.
Theorem C06_armor_refuted : exists o d d' l l' w w', no_dump o /\ same_length d d' /\
  l = [(11, literal_octets x62 [] 0 ++ d)] /\ l' = [(11, literal_octets x62 [] 0 ++ d')] /\ input_veiled env_armor l l' /\ input_of l w /\ input_of l' w' /\
  parse_bytes o env_armor w <> parse_bytes o env_armor w'.
Proof.
  exists o_plain, armor_lines, (repeat x00 (length armor_lines)).
  exists [(11, literal_octets x62 [] 0 ++ armor_lines)], [(11, literal_octets x62 [] 0 ++ repeat x00 (length armor_lines))].
  exists (old_frame 11 (literal_octets x62 [] 0 ++ armor_lines)), (old_frame 11 (literal_octets x62 [] 0 ++ repeat x00 (length armor_lines))).
  split; [intros c H; cbn in H; repeat destruct H as [<-|H]; reflexivity || destruct H|]. split; [reflexivity|]. split; [reflexivity|]. split; [reflexivity|].
  split; [apply input_packet_veiled; [intro X; vm_compute in X; congruence | apply pv_literal; reflexivity | constructor]|].
  split; [apply old_framed; reflexivity|]. split; [apply old_framed; reflexivity|]. vm_compute. discriminate.
Qed.
Print Assumptions C06_armor_refuted.

(** Concrete cases: an RSA key with another modulus; a signature with another value whose key block holds that key; a
    compressed literal packet (algorithm 0) with other data. *)
Definition key_a : bytes := encs (FVersion KPublicKey x04 :: key_fields 4 1577836800 0 x01 [FMpi "RSA public modulus n" 16 [xc1; x01]; FMpi "RSA public encryption exponent e" 2 [x03]]) ++ [].
Definition key_b : bytes := encs (FVersion KPublicKey x04 :: key_fields 4 1577836800 0 x01 [FMpi "RSA public modulus n" 16 [xd2; x35]; FMpi "RSA public encryption exponent e" 2 [x02]]) ++ [].
Example C06_key_veiled E : packet_veiled E 6 key_a key_b.
Proof.
  unfold key_a, key_b. apply pv_public_4; [left; reflexivity | reflexivity | | | reflexivity].
  - eexists. split; [reflexivity|]. repeat constructor; vm_compute; reflexivity || discriminate.
  - constructor; [constructor; reflexivity|]. constructor; [constructor; reflexivity | constructor].
Qed.
Definition block_of (k : bytes) : bytes := x00 :: old_frame 6 k.
Definition area_of (k : bytes) : bytes := [n2b (1 + lenN (block_of k))] ++ x26 :: block_of k ++ [].
Definition sig_of (k : bytes) (value : bytes) : bytes :=
  sig_octets x04 x13 x01 x08 (area_of k) [] [xab; xcd] [FMpi "RSA signature value m^d mod n" 16 value] ++ [].
Example C06_signature_veiled E : packet_veiled E 2 (sig_of key_a [xff; x01]) (sig_of key_b [xfe; x02]).
Proof.
  unfold sig_of.
  assert (forall k, length k = 13%nat -> subs_in [(x26, block_of k)] (area_of k)) as SI.
  { intros k Hk. unfold area_of. apply one_more_sub; [|constructor]. apply slen_one.
    unfold block_of, old_frame, lenN. rewrite app_nil_r. cbn [length be_enc]. rewrite app_length, Hk. cbn. reflexivity. }
  apply (pv_signature E x04 x13 x01 x08 (area_of key_a) (area_of key_b) [] [] [xab; xcd] _ _ [] [] [(x26, block_of key_a)] [(x26, block_of key_b)] [] []).
  - left; reflexivity.
  - reflexivity.
  - eexists. split; [reflexivity|]. repeat constructor; vm_compute; reflexivity || discriminate.
  - repeat constructor.
  - reflexivity.
  - reflexivity.
  - reflexivity.
  - reflexivity.
  - apply SI. reflexivity.
  - apply SI. reflexivity.
  - constructor.
  - constructor.
  - constructor; [|constructor]. unfold block_of.
    apply (sv_key_block E x26 _ _ [(6, key_a)] [(6, key_b)]); [reflexivity | reflexivity | | |].
    + unfold old_frame. apply one_more; [apply old_one; reflexivity | constructor].
    + unfold old_frame. apply one_more; [apply old_one; reflexivity | constructor].
    + constructor; [exact (C06_key_veiled E) | constructor].
  - constructor.
  - reflexivity.
Qed.
Example C06_outcome : fst (parse_tag o_plain env0 2 (sig_of key_a [xff; x01]) cst_init) <> RPanic /\
  exists i, fst (parse_tag o_plain env0 2 (sig_of key_a [xff; x01]) cst_init) = ROk (i, None) /\ fst (parse_tag o_plain env0 2 (sig_of key_b [xfe; x02]) cst_init) = ROk (i, None).
Proof. split; [vm_compute; discriminate|]. eexists. split; vm_compute; reflexivity. Qed.
Example C06_input_veiled_used E :
  input_veiled E [(8, x00 :: old_frame 11 (literal_octets x62 [] 0 ++ [x01])); (6, key_a)] [(8, x00 :: old_frame 11 (literal_octets x62 [] 0 ++ [x02])); (6, key_b)].
Proof.
  eapply input_opened; [reflexivity | apply contents_plain | apply contents_plain | apply old_framed; reflexivity | apply old_framed; reflexivity | |].
  - constructor; [apply pv_literal; reflexivity | constructor].
  - apply input_packet_veiled; [discriminate | exact (C06_key_veiled E) | constructor].
Qed.
(** Secret keys of version 3 (usage 255) and version 5 (not encrypted) with other numbers. *)
Example C06_secret_veiled E :
  packet_veiled E 5 (x03 :: public_part x03 1577836800 30 x01 plain_pub ++ xff :: (optional_octets x03 None (Some (S2Simple x02)) ++ repeat x09 8) ++ [x01; x02; x03])
                    (x03 :: public_part x03 1577836800 30 x01 plain_pub ++ xff :: (optional_octets x03 None (Some (S2Simple x02)) ++ repeat x09 8) ++ [x04; x05; x06])
  /\ secret_veiled x05 x16 (x00 :: x00 :: be_enc 4 (lenN (encs [FMpi "EdDSA secret key" 8 [xa1]] ++ [])) ++ (encs [FMpi "EdDSA secret key" 8 [xa1]] ++ []) ++ [x00; xaa] ++ [])
                            (x00 :: x00 :: be_enc 4 (lenN (encs [FMpi "EdDSA secret key" 8 [xb2]] ++ [])) ++ (encs [FMpi "EdDSA secret key" 8 [xb2]] ++ []) ++ [x00; xaa] ++ []).
Proof.
  split.
  - apply pv_secret; [left; reflexivity | | repeat constructor|].
    + split; [left; reflexivity|]. split; [reflexivity|]. split; [reflexivity|]. eexists. split; [reflexivity|]. repeat constructor; vm_compute; reflexivity || discriminate.
    + apply sev_encrypted; [discriminate | right; reflexivity | exact Logic.I | reflexivity | reflexivity].
  - apply sev_five_plain; [|repeat constructor | reflexivity | reflexivity | reflexivity | vm_compute; split; reflexivity].
    eexists. split; [reflexivity|]. repeat constructor; vm_compute; reflexivity || discriminate.
Qed.
