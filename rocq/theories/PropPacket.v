(** * PropPacket: what is shown for session keys, one-pass signatures, keys and encrypted data
    (C20, C21, C24, C30, C31).

    [parse_tag o E tag body cs] is the result of parsing the body of one packet: the item shown, and what is
    remembered for later packets.  Bodies are shorter than 2^62 octets, as every Go slice is. *)
From Coq Require Import Strings.String Strings.Byte List NArith ZArith Bool Lia ZifyBool ZifyN ZifyNat.
From Verif Require Import Base BaseL SpecBase Item Reader ReaderL Context Env Time Values Monad MonadL Pubkey S2k Subs Tags
  SpecValues SpecPacket ReadsL PacketL TagL Witness.
Import ListNotations.
Local Open Scope N_scope.

Definition in_memory (d : bytes) : Prop := (lenZ d < 2 ^ 62)%Z.

Lemma done o E tag d extra cs (ec : cst -> cst) l (m : M unit) :
  (forall rec, tag_m rec o E tag = no_data m) -> ends m d extra tt ec (adds l) -> in_memory (d ++ extra) ->
  parse_tag o E tag (d ++ extra) cs = (ROk (packet_shown o tag (d ++ extra) l, None), ec cs).
Proof. intros T F L. erewrite parse_ends by eassumption. rewrite adds_packet. reflexivity. Qed.
Lemma done0 o E tag d cs (ec : cst -> cst) l (m : M unit) :
  (forall rec, tag_m rec o E tag = no_data m) -> ends m d [] tt ec (adds l) -> in_memory d ->
  parse_tag o E tag d cs = (ROk (packet_shown o tag d l, None), ec cs).
Proof. intros T F L. pose proof (done o E tag d [] cs ec l m T F) as D. rewrite app_nil_r in D. auto. Qed.
Ltac is_tag := intro rec; reflexivity.
Ltac concrete_material :=
  eexists; split; [reflexivity|];
  repeat (apply Forall2_cons || apply Forall2_nil); cbn [fills wf]; repeat split; try reflexivity; vm_compute; try reflexivity; try discriminate.

(** ** C21: session keys, one-pass signatures, encrypted data *)

(** C21.  Public-key encrypted session key (tag 1): version, key ID, algorithm, the fields of the algorithm, surplus. *)
Theorem C21_pubkey_session : forall o E cs v id a l extra,
  let fields := [FVersion KPubSession v; FKeyID id; FPub a] ++ l in
  let body := encs fields ++ extra in
  length id = 8%nat -> material ses_layout a l -> in_memory body ->
  parse_tag o E 1 body cs =
  (ROk (packet_shown o 1 body (shows o E fields ++ surplus "Unknown data" (oDebug o) extra), None), with_mode ModePubEnc cs).
Proof.
  intros o E cs v id a l extra fields body Hid Hl L.
  exact (done o E 1 _ extra cs _ _ (tag01 o) ltac:(is_tag) (ends_tag01 o E v id a l extra Hid Hl) L).
Qed.
Print Assumptions C21_pubkey_session.

(** C21.  Tag 1 with an algorithm that is not defined for encryption: all that follows is shown as one unknown field
    (and once more as surplus). *)
Theorem C21_pubkey_session_unknown : forall o E cs v id a extra,
  let fields := [FVersion KPubSession v; FKeyID id; FPub a] in
  let body := encs fields ++ extra in
  length id = 8%nat -> ses_layout (b2n a) = None -> in_memory body ->
  parse_tag o E 1 body cs =
  (ROk (packet_shown o 1 body (shows o E fields ++ unknown_fields (oDebug o) (ses_label (b2n a)) extra
                               :: surplus "Unknown data" (oDebug o) extra), None), with_mode ModePubEnc cs).
Proof.
  intros o E cs v id a extra fields body Hid Hl L.
  exact (done o E 1 _ extra cs _ _ (tag01 o) ltac:(is_tag) (ends_tag01_unknown o E v id a extra Hid Hl) L).
Qed.
Print Assumptions C21_pubkey_session_unknown.

(** C21.  A tag 1 body cut anywhere before the end of its fields is an error.  For ECDH the last field, whose length octet
    the code does not insist on, is left out. *)
Theorem C21_pubkey_session_truncated : forall o E cs v id a l q,
  length id = 8%nat -> material ses_layout a l -> b2n a <> 18 ->
  strict_prefix q (encs ([FVersion KPubSession v; FKeyID id; FPub a] ++ l)) -> in_memory q ->
  exists e, fst (parse_tag o E 1 q cs) = RErr e /\ (e = EEof \/ e = EUnexp).
Proof.
  intros o E cs v id a l q Hid Hl Ha P L.
  exact (parse_cuts o E 1 _ q cs (tag01 o) ltac:(is_tag) (cuts_tag01_fields o E v id a l Hid Hl Ha) P L).
Qed.
Print Assumptions C21_pubkey_session_truncated.
Theorem C21_pubkey_session_fixed_truncated : forall o E cs v id a q,
  length id = 8%nat -> strict_prefix q (encs [FVersion KPubSession v; FKeyID id; FPub a]) -> in_memory q ->
  exists e, fst (parse_tag o E 1 q cs) = RErr e /\ (e = EEof \/ e = EUnexp).
Proof.
  intros o E cs v id a q Hid P L.
  exact (parse_cuts o E 1 _ q cs (tag01 o) ltac:(is_tag) (cuts_tag01 o v id a Hid) P L).
Qed.
Print Assumptions C21_pubkey_session_fixed_truncated.

(** C21.  An ECDH session key cut exactly before the length of the encoded key is shown as if complete. *)
Theorem C21_ecdh_session_truncated_refuted : exists v id l q,
  length id = 8%nat /\ material ses_layout x12 l
  /\ strict_prefix q (encs ([FVersion KPubSession v; FKeyID id; FPub x12] ++ l))
  /\ exists it, fst (parse_tag o_plain env0 1 q (mkCst ModeNotSpecified None None)) = ROk it.
Proof.
  exists x03, (repeat x11 8), [FPoint "ECDH" 3 [x07]; FParm "symmetric key (encoded)" [x2a]],
    ([x03] ++ repeat x11 8 ++ [x12; x00; x03; x07]).
  split; [reflexivity|]. split; [|split].
  - concrete_material.
  - exists [x01; x2a]. split; [discriminate | reflexivity].
  - eexists. vm_compute. reflexivity.
Qed.
Print Assumptions C21_ecdh_session_truncated_refuted.

Example C21_pubkey_session_witness : material ses_layout x01
  [FMpi "RSA m^e mod n; m = sym alg(1 byte) + checksum(2 bytes) + PKCS#1 block encoding EME-PKCS1-v1_5" 9 [x01; x80]].
Proof. concrete_material. Qed.

(** C21.  Symmetric-key encrypted session key (tag 3), version 4. *)
Theorem C21_symkey_session : forall o E cs a s extra,
  let body := encs [FVersion KSymSession x04; FSym a] ++ s2k_enc s ++ extra in
  s2k_wf s -> in_memory body ->
  parse_tag o E 3 body cs =
  (ROk (packet_shown o 3 body (shows o E [FVersion KSymSession x04; FSym a] ++ s2k_tree o s :: surplus "Unknown data" (oDebug o) extra),
        None), with_mode ModeSymEnc cs).
Proof.
  intros o E cs a s extra body Hs L.
  exact (done o E 3 (x04 :: a :: s2k_enc s) extra cs _ _ (tag03 o) ltac:(is_tag) (ends_tag03 o E a s extra Hs) L).
Qed.
Print Assumptions C21_symkey_session.
(** Any other version of tag 3 (including 5) is not decoded. *)
Theorem C21_symkey_session_other : forall o E cs v extra,
  let body := v :: extra in
  b2n v <> 4 -> in_memory body ->
  parse_tag o E 3 body cs =
  (ROk (packet_shown o 3 body (show o E (FVersion KSymSession v) :: surplus "Unknown data" (oDebug o) extra), None), with_mode ModeSymEnc cs).
Proof.
  intros o E cs v extra body Hv L.
  exact (done o E 3 [v] extra cs _ _ (tag03 o) ltac:(is_tag) (ends_tag03_other o E v extra Hv) L).
Qed.
Print Assumptions C21_symkey_session_other.
Theorem C21_symkey_session_truncated : forall o E cs a s q,
  s2k_wf s -> s2k_iv s = true -> strict_prefix q (encs [FVersion KSymSession x04; FSym a] ++ s2k_enc s) -> in_memory q ->
  exists e, fst (parse_tag o E 3 q cs) = RErr e /\ (e = EEof \/ e = EUnexp).
Proof.
  intros o E cs a s q Hs NG P L.
  refine (parse_cuts o E 3 _ q cs (tag03 o) ltac:(is_tag) (cuts_tag03 o a s Hs _) P L).
  destruct s; try exact I; discriminate.
Qed.
Print Assumptions C21_symkey_session_truncated.

(** C21.  One-pass signature (tag 4). *)
Theorem C21_one_pass : forall o E cs v s h a id l extra,
  let fields := [FVersion KOnePass v; FSigType s; FHash h; FPub a; FKeyID id; FLast l] in
  let body := encs fields ++ extra in
  length id = 8%nat -> in_memory body ->
  parse_tag o E 4 body cs =
  (ROk (packet_shown o 4 body (shows o E fields ++ surplus "Unknown data" (oDebug o) extra), None), cs).
Proof.
  intros o E cs v s h a id l extra fields body Hid L. unfold body, fields in *. 
  assert (encs [FVersion KOnePass v; FSigType s; FHash h; FPub a; FKeyID id; FLast l] = v :: s :: h :: a :: id ++ [l]) as X by reflexivity.
  rewrite X in *.
  exact (done o E 4 _ extra cs _ _ (tag04 o) ltac:(is_tag) (ends_tag04 o E v s h a id l extra Hid) L).
Qed.
Print Assumptions C21_one_pass.
Theorem C21_one_pass_truncated : forall o E cs v s h a id l q,
  length id = 8%nat -> strict_prefix q (encs [FVersion KOnePass v; FSigType s; FHash h; FPub a; FKeyID id; FLast l]) ->
  in_memory q ->
  exists e, fst (parse_tag o E 4 q cs) = RErr e /\ (e = EEof \/ e = EUnexp).
Proof.
  intros o E cs v s h a id l q Hid P L.
  exact (parse_cuts o E 4 _ q cs (tag04 o) ltac:(is_tag) (cuts_tag04 o v s h a id l Hid) P L).
Qed.
Print Assumptions C21_one_pass_truncated.

(** C21.  Symmetrically encrypted data (tag 9), integrity protected data (tag 18), modification detection code (tag 19). *)
Theorem C21_encrypted : forall o E cs body, in_memory body ->
  parse_tag o E 9 body cs =
  (ROk (packet_shown o 9 body [Item (str "Encrypted data") (tag09_value (c_mode cs)) (dump_if (oDebug o) body) (bytes_note (lenN body)) []],
        None), with_mode ModeNotSpecified cs).
Proof. intros. apply parse_tag09. assumption. Qed.
Print Assumptions C21_encrypted.
Theorem C21_protected : forall o E cs body, in_memory body ->
  parse_tag o E 18 body cs =
  (ROk (packet_shown o 18 body [Item (str "Encrypted data") [] (dump_if (oDebug o) body) (tag18_note (c_mode cs) (lenN body)) []],
        None), with_mode ModeNotSpecified cs).
Proof. intros. apply parse_tag18. assumption. Qed.
Print Assumptions C21_protected.
Theorem C21_mdc : forall o E cs body, in_memory body ->
  parse_tag o E 19 body cs =
  (ROk (packet_shown o 19 body [Item (str "MDC") [] (dump_if (oDebug o) body) (str "SHA-1 (20 bytes)") []], None), cs).
Proof. intros. apply parse_tag19. assumption. Qed.
Print Assumptions C21_mdc.

(** C21.  AEAD encrypted data (tag 20) with EAX, or with an unassigned AEAD algorithm. *)
Theorem C21_aead_partial : forall o E cs v s a c nonce extra,
  let fields := [FVersion KAead v; FSym s; FAead a; FChunk c; FDumped "IV" nonce] in
  let body := encs fields ++ extra in
  b2n a <> 2 -> lenN nonce = aead_nonce_octets (b2n a) -> in_memory body ->
  parse_tag o E 20 body cs =
  (ROk (packet_shown o 20 body (shows o E fields ++ surplus "Encrypted data and authentication tag" (oDebug o) extra), None), cs).
Proof.
  intros o E cs v s a c nonce extra fields body Ha Hn L.
  assert (lenN nonce = aead_iv_octets (b2n a)) as Hn'.
  { rewrite Hn. unfold aead_nonce_octets, aead_iv_octets. destruct (b2n a) as [|[| p |]]; try reflexivity. destruct p; try reflexivity. lia. }
  unfold body, fields in *.
  assert (encs [FVersion KAead v; FSym s; FAead a; FChunk c; FDumped "IV" nonce] = v :: s :: a :: c :: nonce) as X
    by (cbn; rewrite app_nil_r; reflexivity).
  rewrite X in *.
  exact (done o E 20 _ extra cs _ _ (tag20 o) ltac:(is_tag) (ends_tag20 o E v s a c nonce extra Hn') L).
Qed.
Print Assumptions C21_aead_partial.
Theorem C21_aead_truncated : forall o E cs v s a c q,
  strict_prefix q (encs [FVersion KAead v; FSym s; FAead a; FChunk c]) -> in_memory q ->
  exists e, fst (parse_tag o E 20 q cs) = RErr e /\ (e = EEof \/ e = EUnexp).
Proof.
  intros o E cs v s a c q P L.
  exact (parse_cuts o E 20 _ q cs (tag20 o) ltac:(is_tag) (cuts_tag20 o v s a c) P L).
Qed.
Print Assumptions C21_aead_truncated.
(** C21 is false for OCB: its nonce has 15 octets, 16 are taken, so the first octet of the data is shown as part of it. *)
Theorem C21_ocb_refuted : forall o E cs v s c nonce b extra,
  let body := encs [FVersion KAead v; FSym s; FAead x02; FChunk c; FDumped "IV" nonce] ++ b :: extra in
  lenN nonce = aead_nonce_octets 2 -> in_memory body ->
  parse_tag o E 20 body cs =
  (ROk (packet_shown o 20 body (shows o E [FVersion KAead v; FSym s; FAead x02; FChunk c; FDumped "IV" (nonce ++ [b])]
                                ++ surplus "Encrypted data and authentication tag" (oDebug o) extra), None), cs).
Proof.
  intros o E cs v s c nonce b extra body Hn L. unfold body in *. clear body.
  assert (encs [FVersion KAead v; FSym s; FAead x02; FChunk c; FDumped "IV" nonce] ++ b :: extra
          = (v :: s :: x02 :: c :: nonce ++ [b]) ++ extra) as X
    by (cbn; rewrite app_nil_r, <- app_assoc; reflexivity).
  rewrite X in *.
  refine (done o E 20 _ extra cs _ _ (tag20 o) ltac:(is_tag) (ends_tag20 o E v s x02 c (nonce ++ [b]) extra _) L).
  unfold lenN in *. rewrite app_length. cbn [length]. change (aead_iv_octets (b2n x02)) with 16. change (aead_nonce_octets 2) with 15 in Hn. lia.
Qed.
Print Assumptions C21_ocb_refuted.

(** ** C30, C31 *)

(** C30.  The chunk size shown for an AEAD packet is 2^(c+6), as long as that is a 64-bit number. *)
Theorem C30_chunk_size_shown_partial : forall o E cs v s a c rest,
  b2n c <= 57 -> in_memory (v :: s :: a :: c :: rest) ->
  exists it children, fst (parse_tag o E 20 (v :: s :: a :: c :: rest) cs) = ROk (it, None)
    /\ i_items it = children
    /\ exists i, nth_error children 3 = Some i /\ i_name i = str "Chunk size" /\ i_value i = dec (2 ^ (b2n c + 6)).
Proof.
  intros o E cs v s a c rest Hc L.
  destruct (lenN rest <? aead_iv_octets (b2n a)) eqn:Q.
  - pose proof (done o E 20 [v; s; a; c] rest cs _ _ (tag20 o) ltac:(is_tag) (ends_tag20_short o E v s a c rest ltac:(lia)) L) as D.
    cbn [app] in D. rewrite D. do 2 eexists. split; [reflexivity|]. split; [reflexivity|].
    eexists. split; [reflexivity|]. split; [reflexivity|]. cbn [show i_value]. replace (b2n c <=? 57) with true by lia. reflexivity.
  - set (n := N.to_nat (aead_iv_octets (b2n a))).
    assert (lenN (firstn n rest) = aead_iv_octets (b2n a)) as Hn.
    { unfold lenN in *. rewrite firstn_length. unfold n. lia. }
    pose proof (done o E 20 _ (skipn n rest) cs _ _ (tag20 o) ltac:(is_tag) (ends_tag20 o E v s a c _ (skipn n rest) Hn)) as D.
    cbn [app] in D. rewrite firstn_skipn in D. rewrite (D L). do 2 eexists. split; [reflexivity|]. split; [reflexivity|].
    eexists. split; [reflexivity|]. split; [reflexivity|]. cbn [show i_value]. replace (b2n c <=? 57) with true by lia. reflexivity.
Qed.
Print Assumptions C30_chunk_size_shown_partial.

(** C31 is false: every AEAD packet that ends inside the initialization vector is shown without an error, and without the
    octets after the chunk size. *)
Theorem C31_short_iv_refuted : forall o E cs v s a c iv,
  let body := encs [FVersion KAead v; FSym s; FAead a; FChunk c] ++ iv in
  b2n a = 1 \/ b2n a = 2 -> lenN iv < aead_nonce_octets (b2n a) -> in_memory body ->
  parse_tag o E 20 body cs =
  (ROk (packet_shown o 20 body (shows o E [FVersion KAead v; FSym s; FAead a; FChunk c]), None), cs).
Proof.
  intros o E cs v s a c iv body Ha Hn L. unfold body in *. clear body.
  exact (done o E 20 [v; s; a; c] iv cs _ _ (tag20 o) ltac:(is_tag)
    (ends_tag20_short o E v s a c iv ltac:(unfold aead_nonce_octets, aead_iv_octets in *; destruct Ha as [K|K]; rewrite K in *; lia)) L).
Qed.
Print Assumptions C31_short_iv_refuted.
(** What happens to every AEAD packet, by the number of octets in its body: an error for fewer than four; the four fixed
    fields alone if the rest is shorter than the vector the code expects (16 octets for EAX and OCB, none otherwise);
    all fields otherwise.  So the property holds exactly for the packets that end within the fixed fields. *)
Theorem C31_every : forall o E cs body, in_memory body ->
  let taken a := if (b2n a =? 1) || (b2n a =? 2) then 16 else 0 in
  match body with
  | v :: s :: a :: c :: rest =>
    let fixed := [FVersion KAead v; FSym s; FAead a; FChunk c] in
    parse_tag o E 20 body cs =
    (ROk (packet_shown o 20 body
            (shows o E fixed ++
             (if lenN rest <? taken a then []
              else let n := N.to_nat (taken a) in
                   show o E (FDumped "IV" (firstn n rest))
                   :: surplus "Encrypted data and authentication tag" (oDebug o) (skipn n rest))), None), cs)
  | _ => exists e, fst (parse_tag o E 20 body cs) = RErr e /\ (e = EEof \/ e = EUnexp)
  end.
Proof.
  intros o E cs body L taken.
  assert (forall a, taken a = aead_iv_octets (b2n a)) as T.
  { intro a. unfold taken, aead_iv_octets. destruct (b2n a) as [|[[]|[]|]]; reflexivity. }
  destruct body as [|v [|s [|a [|c rest]]]].
  1: refine (C21_aead_truncated o E cs x01 x01 x01 x01 _ _ L); eexists; split; [|reflexivity]; discriminate.
  1: refine (C21_aead_truncated o E cs v x01 x01 x01 _ _ L); eexists; split; [|reflexivity]; discriminate.
  1: refine (C21_aead_truncated o E cs v s x01 x01 _ _ L); eexists; split; [|reflexivity]; discriminate.
  1: refine (C21_aead_truncated o E cs v s a x01 _ _ L); eexists; split; [|reflexivity]; discriminate.
  cbv zeta. rewrite T. destruct (lenN rest <? aead_iv_octets (b2n a)) eqn:Q.
  - rewrite app_nil_r.
    exact (done o E 20 [v; s; a; c] rest cs _ _ (tag20 o) ltac:(is_tag) (ends_tag20_short o E v s a c rest ltac:(lia)) L).
  - set (n := N.to_nat (aead_iv_octets (b2n a))).
    assert (lenN (firstn n rest) = aead_iv_octets (b2n a)) as Hn.
    { unfold lenN in *. rewrite firstn_length. unfold n. lia. }
    pose proof (done o E 20 _ (skipn n rest) cs _ _ (tag20 o) ltac:(is_tag) (ends_tag20 o E v s a c _ (skipn n rest) Hn)) as D.
    cbn [app] in D. rewrite firstn_skipn in D. rewrite (D L). reflexivity.
Qed.
Print Assumptions C31_every.
Example C31_witness : lenN [x01; x02] < aead_nonce_octets (b2n x01) /\ in_memory [x01; x09; x01; x06; x01; x02].
Proof. split; vm_compute; reflexivity. Qed.

(** ** C20: string-to-key specifiers, seen in a symmetric-key session key packet.
    Each specifier takes exactly the octets of [s2k_enc], since what follows it is surplus. *)
Theorem C20_s2k_exact : forall o E cs a s extra,
  s2k_wf s -> in_memory (x04 :: a :: s2k_enc s ++ extra) ->
  exists it, fst (parse_tag o E 3 (x04 :: a :: s2k_enc s ++ extra) cs) = ROk (it, None)
  /\ i_items it = shows o E [FVersion KSymSession x04; FSym a] ++ s2k_tree o s :: surplus "Unknown data" (oDebug o) extra.
Proof.
  intros o E cs a s extra W L. pose proof (C21_symkey_session o E cs a s extra W) as P. cbn [encs flat_map enc app] in P.
  rewrite P by exact L. eexists. split; reflexivity.
Qed.
Print Assumptions C20_s2k_exact.
(** The lengths the property names. *)
Theorem C20_s2k_lengths : forall s, s2k_wf s ->
  lenN (s2k_enc s) = match s with
                     | S2Simple _ => 2 | S2Salted _ _ => 10 | S2Iterated _ _ _ => 11 | S2Other _ => 1
                     | S2Gnu _ => 5 | S2Card ser => 6 + lenN ser
                     end.
Proof.
  intros s W. destruct s; cbn [s2k_wf s2k_enc] in *; unfold lenN, len1; change (str "GNU") with [x47; x4e; x55]; cbn [length app]; rewrite ?app_length; cbn [length]; lia.
Qed.
Print Assumptions C20_s2k_lengths.
(** A private specifier 101 that is not followed by the GNU marker and a number takes only its type octet. *)
Theorem C20_private_without_marker : forall o E cs a rest,
  ~ (exists n t, rest = str "GNU" ++ n :: t) -> in_memory (x04 :: a :: n2b 101 :: rest) ->
  exists it, fst (parse_tag o E 3 (x04 :: a :: n2b 101 :: rest) cs) = ROk (it, None)
  /\ i_items it = shows o E [FVersion KSymSession x04; FSym a] ++ s2k_shown (oDebug o) (n2b 101) :: surplus "Unknown data" (oDebug o) rest.
Proof.
  intros o E cs a rest NG L.
  assert (ends (tag03 o) [x04; a; n2b 101] rest tt (with_mode ModeSymEnc)
    (adds (shows o E [FVersion KSymSession x04; FSym a] ++ s2k_shown (oDebug o) (n2b 101) :: surplus "Unknown data" (oDebug o) rest))) as F.
  { unfold tag03. eapply ends_ext0.
    - do 3 step. change (v_iscur (SymSessKeyVer x04)) with true. cbv iota. do 5 step.
      apply (ends_ext0 _ _ _ _ same same (fun i => adds (surplus "Unknown data" (oDebug o) rest) (adds [s2k_shown (oDebug o) (n2b 101)] i))
         (fun i => adds (surplus "Unknown data" (oDebug o) rest) (adds [s2k_shown (oDebug o) (n2b 101)] i))); [|reflexivity|reflexivity].
      intros B cs0 it H. cbn [app] in *. erewrite bind_ok by (apply s2k_private; [exact H | exact NG]).
      destruct (ends_addRest (str "Unknown data") (oDebug o) rest B cs0 (adds [s2k_shown (oDebug o) (n2b 101)] it)) as (s' & R & C & I).
      + apply suf_cons in H. exact H.
      + exists s'. rewrite rest_item_surplus in I. split; [exact R | split; [exact C | exact I]].
    - reflexivity.
    - intro i. rewrite (show_version o E KSymSession x04) by tauto. fin_items. }
  pose proof (done o E 3 _ rest cs _ _ (tag03 o) ltac:(is_tag) F L) as D. cbn [app] in D. rewrite D. eexists. split; reflexivity.
Qed.
Print Assumptions C20_private_without_marker.
Example C20_witness : s2k_wf (S2Iterated x08 (repeat x01 8) x60) /\ s2k_wf (S2Card [x01; x02]).
Proof. split; reflexivity. Qed.

(** ** C24: public keys (tag 6) and public subkeys (tag 14) *)
Definition is_public (tag : N) : Prop := tag = 6 \/ tag = 14.
Lemma public_tag o E tag : is_public tag -> forall rec, tag_m rec o E tag = no_data (tag06 o E).
Proof. intros [-> | ->] rec; reflexivity. Qed.

Theorem C24_v4 : forall o E cs tag t a l extra,
  let fields := FVersion KPublicKey x04 :: key_fields 4 t 0 a l in
  let body := encs fields ++ extra in
  is_public tag -> t < 2 ^ 32 -> material pub_layout a l -> in_memory body ->
  parse_tag o E tag body cs =
  (ROk (packet_shown o tag body (shows o E fields ++ surplus "Unknown data" (oDebug o) extra), None), with_key (key_time o t) cs).
Proof.
  intros o E cs tag t a l extra fields body Hg Ht Hl L.
  exact (done o E tag _ extra cs _ _ (tag06 o E) (public_tag o E tag Hg) (ends_tag06_v4 o E t a l extra Ht Hl) L).
Qed.
Print Assumptions C24_v4.
Theorem C24_v3 : forall o E cs tag t days a l extra,
  let fields := FVersion KPublicKey x03 :: key_fields 3 t days a l in
  let body := encs fields ++ extra in
  is_public tag -> t < 2 ^ 32 -> days < 65536 -> material pub_layout a l -> in_memory body ->
  parse_tag o E tag body cs =
  (ROk (packet_shown o tag body (shows o E fields ++ surplus "Unknown data" (oDebug o) extra), None), with_key (key_time o t) cs).
Proof.
  intros o E cs tag t days a l extra fields body Hg Ht Hd Hl L.
  exact (done o E tag _ extra cs _ _ (tag06 o E) (public_tag o E tag Hg) (ends_tag06_v3 o E t days a l extra Ht Hd Hl) L).
Qed.
Print Assumptions C24_v3.
(** Version 5: a four-octet count of the key material stands between the algorithm and the material. *)
Theorem C24_v5 : forall o E cs tag t a l extra,
  let body := x05 :: be_enc 4 t ++ a :: be_enc 4 (lenN (encs l)) ++ encs l ++ extra in
  is_public tag -> t < 2 ^ 32 -> lenN (encs l) < 2 ^ 32 -> material pub_layout a l -> in_memory body ->
  parse_tag o E tag body cs =
  (ROk (packet_shown o tag body (shows o E (FVersion KPublicKey x05 :: key_fields 5 t 0 a l) ++ surplus "Unknown data" (oDebug o) extra), None),
   with_key (key_time o t) cs).
Proof.
  intros o E cs tag t a l extra body Hg Ht Hn Hl L. unfold body in *. clear body.
  pose proof (ends_tag06_v5 o E t a l [] extra Ht Hl) as F. rewrite !app_nil_r in F. specialize (F Hn).
  pose proof (done o E tag _ extra cs _ _ (tag06 o E) (public_tag o E tag Hg) F) as D.
  rewrite <- app_comm_cons, <- !app_assoc, <- app_comm_cons, <- !app_assoc in D. auto.
Qed.
Print Assumptions C24_v5.
(** C24 is false for surplus octets inside the counted material of a version 5 key: they are not shown at all. *)
Theorem C24_v5_surplus_refuted : forall o E cs tag t a l junk extra,
  let body := x05 :: be_enc 4 t ++ a :: be_enc 4 (lenN (encs l ++ junk)) ++ encs l ++ junk ++ extra in
  is_public tag -> t < 2 ^ 32 -> lenN (encs l ++ junk) < 2 ^ 32 -> material pub_layout a l -> in_memory body ->
  parse_tag o E tag body cs =
  (ROk (packet_shown o tag body (shows o E (FVersion KPublicKey x05 :: key_fields 5 t 0 a l) ++ surplus "Unknown data" (oDebug o) extra), None),
   with_key (key_time o t) cs).
Proof.
  intros o E cs tag t a l junk extra body Hg Ht Hn Hl L. unfold body in *. clear body.
  pose proof (ends_tag06_v5 o E t a l junk extra Ht Hl Hn) as F.
  pose proof (done o E tag _ extra cs _ _ (tag06 o E) (public_tag o E tag Hg) F) as D.
  rewrite <- app_comm_cons, <- !app_assoc, <- app_comm_cons, <- !app_assoc in D. auto.
Qed.
Print Assumptions C24_v5_surplus_refuted.
(** A version 4 key of an algorithm without a layout, and a key of any other version. *)
Theorem C24_unknown_algorithm : forall o E cs tag t a extra,
  let fields := [FVersion KPublicKey x04; FTime "Public key creation time" t; FPub a] in
  let body := encs fields ++ extra in
  is_public tag -> t < 2 ^ 32 -> pub_layout (b2n a) = None -> in_memory body ->
  parse_tag o E tag body cs =
  (ROk (packet_shown o tag body (shows o E fields ++ unknown_fields (oDebug o) (unknown_alg (b2n a)) extra
                                 :: surplus "Unknown data" (oDebug o) extra), None), with_key (key_time o t) cs).
Proof.
  intros o E cs tag t a extra fields body Hg Ht Ha L.
  exact (done o E tag _ extra cs _ _ (tag06 o E) (public_tag o E tag Hg) (ends_tag06_unknown o E t a extra Ht Ha) L).
Qed.
Print Assumptions C24_unknown_algorithm.
Theorem C24_unknown_version : forall o E cs tag v extra,
  is_public tag -> ~ In (b2n v) [3; 4; 5] -> in_memory (v :: extra) ->
  parse_tag o E tag (v :: extra) cs =
  (ROk (packet_shown o tag (v :: extra) (show o E (FVersion KPublicKey v) :: surplus "Unknown data" (oDebug o) extra), None), cs).
Proof.
  intros o E cs tag v extra Hg Hv L.
  exact (done o E tag [v] extra cs _ _ (tag06 o E) (public_tag o E tag Hg) (ends_tag06_other o E v extra Hv) L).
Qed.
Print Assumptions C24_unknown_version.
(** A key cut anywhere before the end of its fields is an error (ECDH: see below). *)
Theorem C24_truncated : forall o E cs tag t days a l q v,
  is_public tag -> t < 2 ^ 32 -> material pub_layout a l -> b2n a <> 18 -> (v = 3 \/ v = 4) ->
  strict_prefix q (encs (FVersion KPublicKey (n2b v) :: key_fields v t days a l)) -> in_memory q ->
  exists e, fst (parse_tag o E tag q cs) = RErr e /\ (e = EEof \/ e = EUnexp).
Proof.
  intros o E cs tag t days a l q v Hg Ht Hl Ha [-> | ->] P L.
  - exact (parse_cuts o E tag _ q cs (tag06 o E) (public_tag o E tag Hg) (cuts_tag06_v3 o E t days a l Ht Hl Ha) P L).
  - exact (parse_cuts o E tag _ q cs (tag06 o E) (public_tag o E tag Hg) (cuts_tag06_v4 o E t a l Ht Hl Ha) P L).
Qed.
Print Assumptions C24_truncated.
(** An ECDH key without its KDF parameters is shown as if complete. *)
Theorem C24_ecdh_truncated_refuted : exists l q,
  material pub_layout x12 l /\ strict_prefix q (encs (FVersion KPublicKey x04 :: key_fields 4 0 0 x12 l))
  /\ exists it, fst (parse_tag o_plain env0 6 q (mkCst ModeNotSpecified None None)) = ROk it.
Proof.
  exists [FCurve [x2b; x81; x04; x00; x22]; FPoint "ECDH" 3 [x04]; FKdf [x01; x08; x09]],
    [x04; x00; x00; x00; x00; x12; x05; x2b; x81; x04; x00; x22; x00; x03; x04].
  split; [|split].
  - concrete_material.
  - exists [x03; x01; x08; x09]. split; [discriminate | reflexivity].
  - eexists. vm_compute. reflexivity.
Qed.
Print Assumptions C24_ecdh_truncated_refuted.
Example C24_witness : material pub_layout x01 [FMpi "RSA public modulus n" 9 [x01; x80]; FMpi "RSA public encryption exponent e" 2 [x03]]
  /\ material pub_layout x12 [FCurve [x2b; x81; x04; x00; x22]; FPoint "ECDH" 3 [x04]; FKdf [x01; x08; x09]].
Proof. split; concrete_material. Qed.
