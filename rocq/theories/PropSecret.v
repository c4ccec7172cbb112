(** * PropSecret: what is shown for secret keys (tag 5) and secret subkeys (tag 7) (C25). *)
From Coq Require Import Strings.String Strings.Byte List NArith ZArith Bool Lia ZifyBool ZifyN ZifyNat.
From Verif Require Import Base BaseL SpecBase Item Reader ReaderL Context Env Time Values Monad MonadL Pubkey S2k Subs Tags
  SpecValues SpecPacket SpecSecret ReadsL PacketL TagL SecretL Witness PropPacket.
Import ListNotations.
Local Open Scope N_scope.

Definition is_secret (tag : N) : Prop := tag = 5 \/ tag = 7.
Lemma secret_tag o E tag : is_secret tag -> forall rec, tag_m rec o E tag = no_data (tag05 o E).
Proof. intros [-> | ->] rec; reflexivity. Qed.

(** A public part and a secret part make a packet. *)
Lemma parse_secret o E tag v hd d x a ec P ei cs : is_secret tag ->
  leaves (pub_parse o E (PubVer v)) hd d a ec (adds P) -> leaves (sec_parse o (PubVer v) a) d x tt same ei -> in_memory (v :: hd) ->
  parse_tag o E tag (v :: hd) cs =
  (ROk (packet_shown o tag (v :: hd)
          (show o E (FVersion KPublicKey v) :: public_shown P :: ei (secret_shown [] []) :: surplus "Unknown data" (oDebug o) x), None), ec cs).
Proof. intros T Fp Fs L. exact (done0 o E tag _ cs _ _ (tag05 o E) (secret_tag o E tag T) (leaves_tag05 o E v hd d x a ec P ei Fp Fs) L). Qed.

Lemma key_part o E v t days a pub d : key_ok v t days a pub ->
  leaves (pub_parse o E (PubVer v)) (public_part v t days a pub ++ d) d a (with_key (key_time o t)) (adds (public_part_shown o E v t days a pub)).
Proof. intros (Hv & Ht & Hd & Hl). apply leaves_pub; assumption. Qed.
Lemma key_old v t days a pub : key_ok v t days a pub -> v <> x05 -> (v_num (PubVer v) =? 5) = false.
Proof. intros ([-> | [-> | ->]] & _) H; [reflexivity | reflexivity | congruence]. Qed.

(** The items of a key packet: version, public part, secret part, octets behind. *)
Definition secret_key_shown (o : opts) (E : env) (tag : N) (body : bytes) (v : byte) (P : list item) (note : bytes) (S : list item) (extra : bytes) : item :=
  packet_shown o tag body (show o E (FVersion KPublicKey v) :: public_shown P :: secret_shown note S :: surplus "Unknown data" (oDebug o) extra).

(** C25.  Versions 3 and 4, usage octet 0: the secret parameters in the clear and a checksum. *)
Theorem C25_plain : forall o E cs tag v t days a pub sec chk extra,
  let body := v :: public_part v t days a pub ++ x00 :: encs sec ++ chk ++ extra in
  is_secret tag -> key_ok v t days a pub -> v <> x05 -> material sec_layout a sec -> length chk = 2%nat -> in_memory body ->
  parse_tag o E tag body cs =
  (ROk (secret_key_shown o E tag body v (public_part_shown o E v t days a pub) (protection_note 0)
          (shows o E (sec ++ [FDumped "2-octet checksum" chk])) extra, None), with_key (key_time o t) cs).
Proof.
  intros o E cs tag v t days a pub sec chk extra body Hg Hk Hv Hs Hc L. unfold body in *. clear body.
  exact (parse_secret o E tag v _ _ extra a _ _ _ cs Hg (key_part o E v t days a pub _ Hk) (secret_old_plain o E v a (key_old _ _ _ _ _ Hk Hv) sec chk extra Hs Hc) L).
Qed.
Print Assumptions C25_plain.

(** C25.  Versions 3 and 4, usage octets 254 and 255: cipher, string-to-key specifier, an IV of the cipher's block length unless
    the specifier is a GNU extension, and the number of octets of the encrypted part. *)
Theorem C25_encrypted : forall o E cs tag v t days a pub u c s iv ct,
  let body := v :: public_part v t days a pub ++ u :: (optional_octets c None (Some s) ++ iv) ++ ct in
  is_secret tag -> key_ok v t days a pub -> v <> x05 -> b2n u = 254 \/ b2n u = 255 -> s2k_wf s ->
  lenN iv = (if s2k_iv s then cipher_iv_octets (b2n c) else 0) -> in_memory body ->
  parse_tag o E tag body cs =
  (ROk (secret_key_shown o E tag body v (public_part_shown o E v t days a pub) (protection_note (b2n u))
          (optional_shown o E c None (Some s) ++ iv_shown o E None (Some s) iv ++ [sealed o a ct]) [], None),
   with_key (key_time o t) cs).
Proof.
  intros o E cs tag v t days a pub u c s iv ct body Hg Hk Hv Hu Hs Hi L. unfold body in *. clear body.
  exact (parse_secret o E tag v _ _ [] a _ _ _ cs Hg (key_part o E v t days a pub _ Hk)
           (secret_old_enc o E v a (key_old _ _ _ _ _ Hk Hv) u c None (Some s) iv ct Hu Hs Hi) L).
Qed.
Print Assumptions C25_encrypted.

(** C25.  Usage octet 253: an AEAD octet after the cipher and a nonce of the AEAD algorithm's length; for EAX and a cipher of 16
    octets block length.  The full statement, for every AEAD algorithm, is false: see C25_ocb_refuted. *)
Theorem C25_aead_partial : forall o E cs tag v t days a pub c s nonce ct,
  let body := v :: public_part v t days a pub ++ xfd :: (optional_octets c (Some x01) (Some s) ++ nonce) ++ ct in
  is_secret tag -> key_ok v t days a pub -> v <> x05 -> cipher_iv_octets (b2n c) = 16 -> s2k_wf s -> s2k_iv s = true ->
  lenN nonce = aead_nonce_octets 1 -> in_memory body ->
  parse_tag o E tag body cs =
  (ROk (secret_key_shown o E tag body v (public_part_shown o E v t days a pub) (protection_note 253)
          (optional_shown o E c (Some x01) (Some s) ++ iv_shown o E (Some x01) (Some s) nonce ++ [sealed o a ct]) [], None),
   with_key (key_time o t) cs).
Proof.
  intros o E cs tag v t days a pub c s nonce ct body Hg Hk Hv Hc Hs Hi Hn L. unfold body in *. clear body.
  assert (lenN nonce = iv_octets c (Some s)) as Hn' by (unfold iv_octets; cbn [has_iv]; rewrite Hi, Hc; exact Hn).
  exact (parse_secret o E tag v _ _ [] a _ _ _ cs Hg (key_part o E v t days a pub _ Hk)
           (secret_old_enc o E v a (key_old _ _ _ _ _ Hk Hv) xfd c (Some x01) (Some s) nonce ct eq_refl Hs Hn') L).
Qed.
Print Assumptions C25_aead_partial.
(** With OCB one octet of the encrypted part is shown as part of the nonce. *)
Theorem C25_ocb_refuted : forall o E cs tag v t days a pub c s nonce b ct,
  let body := v :: public_part v t days a pub ++ xfd :: (optional_octets c (Some x02) (Some s) ++ nonce) ++ b :: ct in
  is_secret tag -> key_ok v t days a pub -> v <> x05 -> cipher_iv_octets (b2n c) = 16 -> s2k_wf s -> s2k_iv s = true ->
  lenN nonce = aead_nonce_octets 2 -> in_memory body ->
  parse_tag o E tag body cs =
  (ROk (secret_key_shown o E tag body v (public_part_shown o E v t days a pub) (protection_note 253)
          (optional_shown o E c (Some x02) (Some s) ++ iv_shown o E (Some x02) (Some s) (nonce ++ [b]) ++ [sealed o a ct]) [], None),
   with_key (key_time o t) cs).
Proof.
  intros o E cs tag v t days a pub c s nonce b ct body Hg Hk Hv Hc Hs Hi Hn L. unfold body in *. clear body.
  assert (forall z : bytes, (z ++ nonce) ++ b :: ct = (z ++ nonce ++ [b]) ++ ct) as X by (intro z; rewrite <- !app_assoc; reflexivity).
  rewrite X in *.
  assert (lenN (nonce ++ [b]) = iv_octets c (Some s)) as Hn'.
  { unfold iv_octets. cbn [has_iv]. rewrite Hi, Hc. unfold lenN in *. rewrite app_length. cbn [length]. change (aead_nonce_octets 2) with 15 in Hn. lia. }
  exact (parse_secret o E tag v _ _ [] a _ _ _ cs Hg (key_part o E v t days a pub _ Hk)
           (secret_old_enc o E v a (key_old _ _ _ _ _ Hk Hv) xfd c (Some x02) (Some s) (nonce ++ [b]) ct eq_refl Hs Hn') L).
Qed.
Print Assumptions C25_ocb_refuted.

(** C25.  Version 5, usage octet 0: no optional fields (their count is 0), a count of the secret parameters, the parameters, a
    checksum.  Octets behind the parameters but inside the count are shown as unknown data. *)
Theorem C25_v5_plain : forall o E cs tag t days a pub sec surplus_in chk extra,
  let counted := encs sec ++ surplus_in in
  let body := x05 :: public_part x05 t days a pub ++ x00 :: x00 :: be_enc 4 (lenN counted) ++ counted ++ chk ++ extra in
  is_secret tag -> key_ok x05 t days a pub -> material sec_layout a sec -> length chk = 2%nat -> lenN counted < 2 ^ 32 -> in_memory body ->
  parse_tag o E tag body cs =
  (ROk (secret_key_shown o E tag body x05 (public_part_shown o E x05 t days a pub) (protection_note 0)
          (shows o E (sec ++ [FDumped "2-octet checksum" chk]) ++ surplus "Unknown data" (oDebug o) surplus_in) extra, None), with_key (key_time o t) cs).
Proof.
  intros o E cs tag t days a pub sec y chk extra counted body Hg Hk Hs Hc Hn L. unfold body, counted in *. clear body counted.
  assert (0 < lenN (encs sec ++ y)) as Hp.
  { destruct Hs as (sl & Q & F). assert (sl <> []) as NE by (intros ->; revert Q; clear; destruct a; discriminate).
    destruct F as [|x f sl l Hf _]; [congruence|]. unfold encs. cbn [flat_map]. assert (0 < lenN (enc f)) as K.
    { revert Q Hf. clear. intros Q Hf. assert (exists n, x = SMpi n) as [n ->] by (revert Q; destruct a; intro Q; try discriminate Q; injection Q as <- _; eexists; reflexivity).
      destruct f; try contradiction. cbn [enc]. unfold lenN. rewrite app_length, be_enc_length. lia. }
    unfold lenN in *. rewrite !app_length. lia. }
  pose proof (parse_secret o E tag x05 _ _ extra a _ _ _ cs Hg (key_part o E x05 t days a pub _ Hk)
    (secret_five o a x00 _ _ _ _ _ (five_none o 0 _)
       (material_five_plain o E a (encs sec ++ y) y _ chk extra (leaves_runs _ _ _ _ _ _ (runs_parseSec o E a sec Hs)) (conj Hp Hn) Hc (fun B => suf_app B (encs sec) y))) L) as D.
  rewrite D. unfold secret_key_shown. do 4 f_equal. unfold secret_shown, shows. rewrite map_app. cbn [adds w_note map app]. rewrite <- app_assoc. reflexivity.
Qed.
Print Assumptions C25_v5_plain.
(** C25 is false for the encrypted keys of version 5.  The count of the optional fields covers the cipher, the AEAD algorithm, the
    string-to-key specifier and the IV, but the IV is looked for behind the counted octets: whatever stands there, [taken],
    is shown as the IV, the octets counted behind the specifier are unknown data, and the four octets behind [taken] are used as
    the count of the encrypted part. *)
Theorem C25_v5_encrypted_refuted : forall o E cs tag t days a pub u c x s behind taken ct extra,
  let counted := optional_octets c x s ++ behind in
  let body := x05 :: public_part x05 t days a pub ++ u :: n2b (lenN counted) :: counted ++ taken ++ be_enc 4 (lenN ct) ++ ct ++ extra in
  is_secret tag -> key_ok x05 t days a pub -> usage_fields (b2n u) x s -> specifier_wf s -> lenN counted < 256 ->
  lenN taken = iv_octets c s -> 0 < lenN ct < 2 ^ 32 -> in_memory body ->
  parse_tag o E tag body cs =
  (ROk (secret_key_shown o E tag body x05 (public_part_shown o E x05 t days a pub) (protection_note (b2n u))
          (optional_shown o E c x s ++ iv_shown o E x s taken ++ surplus "Unknown data" (oDebug o) behind ++ [sealed o a ct]) extra, None),
   with_key (key_time o t) cs).
Proof.
  intros o E cs tag t days a pub u c x s y iv ct extra counted body Hg Hk Hu Hs Hn Hi Hc L. unfold body, counted in *. clear body counted.
  assert (b2n u <> 0) as U by (apply usage_tests in Hu; lia).
  rewrite (parse_secret o E tag x05 _ _ extra a _ _ _ cs Hg (key_part o E x05 t days a pub _ Hk)
    (secret_five o a u _ _ _ _ _ (five_opts o E (b2n u) c x s y iv _ Hn Hu Hs Hi) (material_five_enc o a (b2n u) ct extra U Hc)) L).
  unfold secret_key_shown, secret_shown. rewrite usage_note_eq. cbn [adds w_note app]. rewrite <- !app_assoc. reflexivity.
Qed.
Print Assumptions C25_v5_encrypted_refuted.
(** So a whole version 5 key is shown wrongly or not at all: the first octets of the count and of the encrypted part are the IV shown. *)
Theorem C25_v5_own_iv_refuted : forall o E cs tag t days a pub u c s iv ct ct1 n ct2 extra,
  let counted := optional_octets c None (Some s) ++ iv in
  let body := x05 :: public_part x05 t days a pub ++ u :: n2b (lenN counted) :: counted ++ be_enc 4 (lenN ct) ++ ct in
  is_secret tag -> key_ok x05 t days a pub -> b2n u = 254 \/ b2n u = 255 -> s2k_wf s -> s2k_iv s = true -> lenN counted < 256 ->
  lenN iv = cipher_iv_octets (b2n c) -> lenN ct < 2 ^ 32 -> in_memory body ->
  ct = ct1 ++ be_enc 4 n ++ ct2 ++ extra -> lenN ct1 + 4 = cipher_iv_octets (b2n c) -> n = lenN ct2 -> 0 < n < 2 ^ 32 ->
  parse_tag o E tag body cs =
  (ROk (secret_key_shown o E tag body x05 (public_part_shown o E x05 t days a pub) (protection_note (b2n u))
          (optional_shown o E c None (Some s) ++ iv_shown o E None (Some s) (be_enc 4 (lenN ct) ++ ct1)
           ++ surplus "Unknown data" (oDebug o) iv ++ [sealed o a ct2]) extra, None),
   with_key (key_time o t) cs).
Proof.
  intros o E cs tag t days a pub u c s iv ct ct1 n ct2 extra counted body Hg Hk Hu Hs Hiv Hn Li Lc L Ec L1 -> N. unfold body, counted in *. clear body counted.
  pose proof (C25_v5_encrypted_refuted o E cs tag t days a pub u c None (Some s) iv (be_enc 4 (lenN ct) ++ ct1) ct2 extra) as T. cbv zeta in T.
  assert ((be_enc 4 (lenN ct) ++ ct1) ++ be_enc 4 (lenN ct2) ++ ct2 ++ extra = be_enc 4 (lenN ct) ++ ct) as X by (rewrite <- app_assoc; congruence).
  rewrite X in T. apply T; try assumption.
  unfold iv_octets. cbn [has_iv]. rewrite Hiv. unfold lenN in *. rewrite app_length, be_enc_length. lia.
Qed.
Print Assumptions C25_v5_own_iv_refuted.

(** C25 is false for usage octets 1 to 252.  The usage octet is itself the cipher (RFC 4880 5.5.3) and the IV follows directly, but
    the program takes the octet behind it for the cipher, and the octets behind that, as many as this cipher's block has, for
    the IV. *)
Theorem C25_legacy_refuted : forall o E cs tag v t days a pub u b taken ct,
  let body := v :: public_part v t days a pub ++ u :: (b :: taken) ++ ct in
  is_secret tag -> key_ok v t days a pub -> v <> x05 -> 1 <= b2n u <= 252 -> lenN taken = cipher_iv_octets (b2n b) -> in_memory body ->
  parse_tag o E tag body cs =
  (ROk (secret_key_shown o E tag body v (public_part_shown o E v t days a pub) (protection_note (b2n u))
          [show o E (FSym b); show o E (FDumped "IV" taken); sealed o a ct] [], None),
   with_key (key_time o t) cs).
Proof.
  intros o E cs tag v t days a pub u b iv ct body Hg Hk Hv Hu Hi L. unfold body in *. clear body.
  exact (parse_secret o E tag v _ _ [] a _ _ _ cs Hg (key_part o E v t days a pub _ Hk)
           (secret_old_enc o E v a (key_old _ _ _ _ _ Hk Hv) u b None None iv ct Hu Logic.I Hi) L).
Qed.
Print Assumptions C25_legacy_refuted.

(** C25.  A version 4 key of an algorithm without a layout: the public numbers cannot be told from the secret part, so all octets
    behind the algorithm are the public numbers, and then the same octets are read as the secret part. *)
Theorem C25_unknown_algorithm_plain : forall o E cs tag t a sec chk,
  let rest := x00 :: sec ++ chk in
  let body := x04 :: be_enc 4 t ++ a :: rest in
  is_secret tag -> t < 2 ^ 32 -> pub_layout (b2n a) = None -> length chk = 2%nat -> in_memory body ->
  parse_tag o E tag body cs =
  (ROk (secret_key_shown o E tag body x04
          (shows o E [FTime "Public key creation time" t; FPub a] ++ [unknown_fields (oDebug o) (unknown_alg (b2n a)) rest]) (protection_note 0)
          [unknown_secret o a sec; show o E (FDumped "2-octet checksum" chk)] [], None), with_key (key_time o t) cs).
Proof.
  intros o E cs tag t a sec chk rest body Hg Ht Ha Hc L. unfold body, rest in *. clear body rest.
  assert (sec_layout (b2n a) = None) as Hs by (revert Ha; clear; destruct a; intro H; try discriminate H; reflexivity).
  exact (parse_secret o E tag x04 _ _ [] a _ _ _ cs Hg (leaves_pub_unknown o E t a _ Ht Ha) (secret_old_unknown o E x04 a eq_refl sec chk Hs Hc) L).
Qed.
Print Assumptions C25_unknown_algorithm_plain.
Theorem C25_unknown_algorithm : forall o E cs tag t a u c x s iv ct,
  let rest := u :: (optional_octets c x s ++ iv) ++ ct in
  let body := x04 :: be_enc 4 t ++ a :: rest in
  is_secret tag -> t < 2 ^ 32 -> pub_layout (b2n a) = None -> usage_fields (b2n u) x s -> specifier_wf s -> lenN iv = iv_octets c s -> in_memory body ->
  parse_tag o E tag body cs =
  (ROk (secret_key_shown o E tag body x04
          (shows o E [FTime "Public key creation time" t; FPub a] ++ [unknown_fields (oDebug o) (unknown_alg (b2n a)) rest]) (protection_note (b2n u))
          (optional_shown o E c x s ++ iv_shown o E x s iv ++ [sealed o a ct]) [], None), with_key (key_time o t) cs).
Proof.
  intros o E cs tag t a u c x s iv ct rest body Hg Ht Ha Hu Hs Hi L. unfold body, rest in *. clear body rest.
  exact (parse_secret o E tag x04 _ _ [] a _ _ _ cs Hg (leaves_pub_unknown o E t a _ Ht Ha) (secret_old_enc o E x04 a eq_refl u c x s iv ct Hu Hs Hi) L).
Qed.
Print Assumptions C25_unknown_algorithm.
(** C24.  Public keys of version 3 and 5 of an algorithm without a layout; in version 5 its fields are counted. *)
Lemma parse_public o E tag v hd d a ec P cs : is_public tag -> leaves (pub_parse o E (PubVer v)) hd d a ec (adds P) -> in_memory (v :: hd) ->
  parse_tag o E tag (v :: hd) cs =
  (ROk (packet_shown o tag (v :: hd) (show o E (FVersion KPublicKey v) :: P ++ surplus "Unknown data" (oDebug o) d), None), ec cs).
Proof.
  intros T Fp L. refine (done0 o E tag _ cs _ _ (tag06 o E) (public_tag o E tag T) _ L). eapply leaves_ends with (x := d). unfold tag06. eapply leaves_ext.
  - apply leaves_byte. cbv zeta. eapply leaves_none; [apply runs_add|]. cbv beta. eapply leaves_bind; [exact Fp|]. cbv beta. apply leaves_rest.
  - reflexivity.
  - intro i. rewrite (shown_version o E). fin_items.
Qed.
Theorem C24_v3_unknown_algorithm : forall o E cs tag t days a rest,
  let body := x03 :: be_enc 4 t ++ be_enc 2 days ++ a :: rest in
  is_public tag -> t < 2 ^ 32 -> days < 65536 -> pub_layout (b2n a) = None -> in_memory body ->
  parse_tag o E tag body cs =
  (ROk (packet_shown o tag body
          (shows o E [FVersion KPublicKey x03; FTime "Public key creation time" t; FDays days; FPub a]
           ++ unknown_fields (oDebug o) (unknown_alg (b2n a)) rest :: surplus "Unknown data" (oDebug o) rest), None), with_key (key_time o t) cs).
Proof.
  intros o E cs tag t days a rest body Hg Ht Hd Ha L. exact (parse_public o E tag x03 _ rest a _ _ cs Hg (leaves_pub_unknown3 o E t days a rest Ht Hd Ha) L).
Qed.
Print Assumptions C24_v3_unknown_algorithm.
Theorem C24_v5_unknown_algorithm : forall o E cs tag t a counted extra,
  let body := x05 :: be_enc 4 t ++ a :: be_enc 4 (lenN counted) ++ counted ++ extra in
  is_public tag -> t < 2 ^ 32 -> lenN counted < 2 ^ 32 -> pub_layout (b2n a) = None -> in_memory body ->
  parse_tag o E tag body cs =
  (ROk (packet_shown o tag body
          (shows o E [FVersion KPublicKey x05; FTime "Public key creation time" t; FPub a]
           ++ unknown_fields (oDebug o) (unknown_alg (b2n a)) counted :: surplus "Unknown data" (oDebug o) extra), None), with_key (key_time o t) cs).
Proof.
  intros o E cs tag t a m extra body Hg Ht Hm Ha L. exact (parse_public o E tag x05 _ extra a _ _ cs Hg (leaves_pub_unknown5 o E t a m extra Ht Hm Ha) L).
Qed.
Print Assumptions C24_v5_unknown_algorithm.

(** C25.  A key of another version than 3, 4 and 5: nothing is shown of the public part, and everything behind the version is read as
    the secret part of algorithm 0. *)
Theorem C25_unknown_version_plain : forall o E cs tag v sec chk,
  let body := v :: x00 :: sec ++ chk in
  is_secret tag -> ~ In (b2n v) [3; 4; 5] -> length chk = 2%nat -> in_memory body ->
  parse_tag o E tag body cs =
  (ROk (secret_key_shown o E tag body v [] (protection_note 0) [unknown_secret o x00 sec; show o E (FDumped "2-octet checksum" chk)] [], None), cs).
Proof.
  intros o E cs tag v sec chk body Hg Hv Hc L. unfold body in *. clear body.
  assert ((v_num (PubVer v) =? 5) = false) as NV by (unfold v_num; cbn [PubVer v_ver]; cbn [In] in Hv; lia).
  exact (parse_secret o E tag v _ _ [] x00 _ _ _ cs Hg (leaves_pub_other o E v _ Hv) (secret_old_unknown o E v x00 NV sec chk eq_refl Hc) L).
Qed.
Print Assumptions C25_unknown_version_plain.
Theorem C25_unknown_version : forall o E cs tag v u c x s iv ct,
  let body := v :: u :: (optional_octets c x s ++ iv) ++ ct in
  is_secret tag -> ~ In (b2n v) [3; 4; 5] -> usage_fields (b2n u) x s -> specifier_wf s -> lenN iv = iv_octets c s -> in_memory body ->
  parse_tag o E tag body cs =
  (ROk (secret_key_shown o E tag body v [] (protection_note (b2n u)) (optional_shown o E c x s ++ iv_shown o E x s iv ++ [sealed o x00 ct]) [], None), cs).
Proof.
  intros o E cs tag v u c x s iv ct body Hg Hv Hu Hs Hi L. unfold body in *. clear body.
  assert ((v_num (PubVer v) =? 5) = false) as NV by (unfold v_num; cbn [PubVer v_ver]; cbn [In] in Hv; lia).
  exact (parse_secret o E tag v _ _ [] x00 _ _ _ cs Hg (leaves_pub_other o E v _ Hv) (secret_old_enc o E v x00 NV u c x s iv ct Hu Hs Hi) L).
Qed.
Print Assumptions C25_unknown_version.

(** C25.  Cut secret keys are errors. *)
Theorem C25_plain_truncated : forall o E cs tag v t days a pub sec chk q,
  is_secret tag -> key_ok v t days a pub -> v <> x05 -> b2n a <> 18 -> material sec_layout a sec -> length chk = 2%nat ->
  strict_prefix q (v :: public_part v t days a pub ++ x00 :: encs sec ++ chk) -> in_memory q ->
  exists e, fst (parse_tag o E tag q cs) = RErr e /\ (e = EEof \/ e = EUnexp).
Proof.
  intros o E cs tag v t days a pub sec chk q Hg (Hv & Ht & Hd & Hl) N5 Ha Hs Hc P L.
  assert (old_version v) as OV by (destruct Hv as [-> | [-> | ->]]; [left | right | congruence]; reflexivity).
  assert (public_part v t days a pub = encs (key_fields (b2n v) t days a pub)) as X by (destruct OV as [-> | ->]; reflexivity). rewrite X in P.
  exact (parse_cuts o E tag _ q cs (tag05 o E) (secret_tag o E tag Hg) (cuts_tag05_plain o E v t days a pub sec chk OV Ht Hd Hl Ha Hs Hc) P L).
Qed.
Print Assumptions C25_plain_truncated.
Theorem C25_encrypted_truncated : forall o E cs tag v t days a pub u c s iv q,
  is_secret tag -> key_ok v t days a pub -> v <> x05 -> b2n a <> 18 -> b2n u = 254 \/ b2n u = 255 -> s2k_wf s ->
  s2k_iv s = true -> lenN iv = cipher_iv_octets (b2n c) ->
  strict_prefix q (v :: public_part v t days a pub ++ u :: optional_octets c None (Some s) ++ iv) -> in_memory q ->
  exists e, fst (parse_tag o E tag q cs) = RErr e /\ (e = EEof \/ e = EUnexp).
Proof.
  intros o E cs tag v t days a pub u c s iv q Hg (Hv & Ht & Hd & Hl) N5 Ha Hu Hs Hi Hn P L.
  assert (old_version v) as OV by (destruct Hv as [-> | [-> | ->]]; [left | right | congruence]; reflexivity).
  assert (public_part v t days a pub = encs (key_fields (b2n v) t days a pub)) as X by (destruct OV as [-> | ->]; reflexivity). rewrite X in P.
  assert (optional_octets c None (Some s) ++ iv = protection_octets c None s iv) as Y by reflexivity. rewrite Y in P.
  refine (parse_cuts o E tag _ q cs (tag05 o E) (secret_tag o E tag Hg) (cuts_tag05_enc o E v t days a pub u c None s iv OV Ht Hd Hl Ha Hu Hs _ _) P L).
  - destruct s; try exact I; discriminate.
  - rewrite Hi. exact Hn.
Qed.
Print Assumptions C25_encrypted_truncated.

(** An example: an AES-256 key with IV 01..10 and two octets of data; the IV shown begins with the second octet and ends with data. *)
Definition legacy_key : bytes :=
  x04 :: be_enc 4 0 ++ [x01; x00; x01; x01; x00; x01; x01] ++ [x09]
  ++ [x01; x02; x03; x04; x05; x06; x07; x08; x09; x0a; x0b; x0c; x0d; x0e; x0f; x10] ++ [xaa; xbb].
Theorem C25_legacy_example_refuted : exists it,
  fst (parse_tag o_plain env0 5 legacy_key (mkCst ModeNotSpecified None None)) = ROk it
  /\ exists pubpart secpart v,
       i_items (fst it) = [v; pubpart; secpart]
       /\ exists rest, i_items secpart =
            sym_shown false x01 :: Item (str "IV") [] (hex_text [x02; x03; x04; x05; x06; x07; x08; x09]) [] [] :: rest.
Proof.
  eexists. split; [vm_compute; reflexivity|]. do 3 eexists. split; [vm_compute; reflexivity|].
  eexists. vm_compute. reflexivity.
Qed.
Print Assumptions C25_legacy_example_refuted.

(** An example for version 5: the octets below are a complete version 5 RSA key with
    usage 254, AES-256, an iterated S2K, the IV 01..10 and two octets of encrypted data; the result is an error. *)
Definition v5_key : bytes :=
  x05 :: be_enc 4 0 ++ x01 :: be_enc 4 6 ++ [x00; x01; x01; x00; x01; x01]
  ++ [xfe; n2b 28; x09; x03; x08] ++ repeat x55 8 ++ [x60]
  ++ [x01; x02; x03; x04; x05; x06; x07; x08; x09; x0a; x0b; x0c; x0d; x0e; x0f; x10] ++ be_enc 4 2 ++ [xaa; xbb].
Theorem C25_v5_refuted : exists e, fst (parse_tag o_plain env0 5 v5_key (mkCst ModeNotSpecified None None)) = RErr e.
Proof. eexists. vm_compute. reflexivity. Qed.
Print Assumptions C25_v5_refuted.
Example C25_witness : material sec_layout x16 [FMpi "EdDSA secret key" 8 [xff]] /\ cipher_iv_octets (b2n x09) = 16
  /\ s2k_wf (S2Iterated x08 (repeat x01 8) x60).
Proof. split; [concrete_material | split; reflexivity]. Qed.

(** Keys of versions 3 and 5, usage octets and specifiers that meet the hypotheses above. *)
Definition ed_pub : list field := [FCurve [x2b; x06; x01; x04; x01; xda; x47; x0f; x01]; FPoint "EdDSA" 263 (x40 :: repeat x07 32)].
Example C25_key_witness : key_ok x03 7 30 x16 ed_pub /\ key_ok x04 7 0 x16 ed_pub /\ key_ok x05 7 0 x16 ed_pub.
Proof.
  assert (material pub_layout x16 ed_pub) as M by concrete_material.
  repeat split; try assumption; try (vm_compute; reflexivity); [left | right; left | right; right]; reflexivity.
Qed.
Example C25_usage_witness : usage_fields 253 (Some x01) (Some (S2Iterated x08 (repeat x01 8) x60)) /\ usage_fields 254 None (Some (S2Card [x01; x02]))
  /\ usage_fields 9 None None /\ specifier_wf (Some (S2Card [x01; x02])) /\ iv_octets x09 (Some (S2Card [x01; x02])) = 0 /\ iv_octets x09 None = 16.
Proof. cbn [usage_fields]. repeat split; try reflexivity; try (left; reflexivity); discriminate. Qed.
Example C25_unknown_witness : pub_layout (b2n x63) = None /\ pub_layout (b2n x00) = None /\ ~ In (b2n x06) [3; 4; 5].
Proof. repeat split; try reflexivity. cbn. intros [H|[H|[H|[]]]]; discriminate. Qed.
