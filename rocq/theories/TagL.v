(** * TagL: packet parsers on bodies whose fields are given. *)
From Coq Require Import Strings.String Strings.Byte List NArith ZArith Bool Lia ZifyBool ZifyN ZifyNat.
From Verif Require Import Base BaseL SpecBase Item Reader ReaderL SpecReader Context Env Time Values Monad MonadL Pubkey S2k
  Subs Tags SpecValues ValuesL SpecTime TimeL SpecPacket ReadsL PacketL.
Import ListNotations.
Local Open Scope N_scope.

(** ** String-to-key specifiers *)
Lemma count_shown c : stretch_item c = Item (str "Count") (dec ((16 + b2n c mod 16) * 2 ^ (b2n c / 16 + 6))) (two_hex c) [] [].
Proof.
  unfold stretch_item. rewrite dump_byte_if. cbn [octet_dump]. f_equal. f_equal.
  apply N.eqb_eq. revert c.
  apply (byte_all (fun c => stretch_count c =? (16 + b2n c mod 16) * 2 ^ (b2n c / 16 + 6))). vm_compute. reflexivity.
Qed.
Lemma salt_shown d : salt_item d true = Item (str "Salt") [] (hex_text d) [] [].
Proof. unfold salt_item, it_nd. rewrite dump_bytes_if. reflexivity. Qed.
Lemma lenZ_8 (d : bytes) : length d = 8%nat -> (8 = lenZ d)%Z.
Proof. intro H. unfold lenZ. rewrite H. reflexivity. Qed.
Lemma lenZ_2 (d : bytes) : length d = 2%nat -> (2 = lenZ d)%Z.
Proof. intro H. unfold lenZ. rewrite H. reflexivity. Qed.

Lemma runs_s2k o s : s2k_wf s -> runs (s2k_parse (oDebug o)) (s2k_enc s) (s2k_iv s) same (adds [s2k_tree o s]).
Proof.
  intro W. unfold s2k_parse.
  assert (forall ei, runs (s2k_fields (s2k_type s) (oDebug o)) (skipn 1 (s2k_enc s)) (s2k_iv s) same ei ->
                     ei (s2k_item (s2k_type s) (oDebug o)) = s2k_tree o s ->
                     runs (let* ss := rdByte in child (s2k_item ss (oDebug o)) (s2k_fields ss (oDebug o)))
                          (s2k_enc s) (s2k_iv s) same (adds [s2k_tree o s])) as K.
  { intros ei F T. replace (s2k_enc s) with (s2k_type s :: skipn 1 (s2k_enc s)) by (destruct s; reflexivity).
    step. rewrite <- T. apply runs_child. exact F. }
  unfold s2k_tree in K. rewrite s2k_shown_eq in K.
  destruct s as [h|h salt|h salt c|ty|n|ser]; cbn [s2k_type s2k_enc s2k_iv skipn s2k_wf] in *.
  - eapply K; [|].
    + unfold s2k_fields. change (b2n x00) with 0. cbn [N.eqb orb negb]. repeat step.
    + cbv beta. rewrite hash_shown_eq. reflexivity.
  - eapply K.
    + unfold s2k_fields. change (b2n x01) with 1. cbn [N.eqb orb negb Pos.eqb].
      rewrite <- (app_nil_r salt) at 1. do 3 step. step; [apply lenZ_8, W|]. repeat step.
    + cbv beta. rewrite hash_shown_eq, salt_shown. reflexivity.
  - eapply K.
    + unfold s2k_fields. change (b2n x03) with 3. cbn [N.eqb orb negb Pos.eqb]. do 3 step. step; [apply lenZ_8, W|].
      repeat step.
    + cbv beta. rewrite hash_shown_eq, salt_shown, count_shown. reflexivity.
  - eapply K.
    + unfold s2k_fields. cbn [In] in W.
      replace ((b2n ty =? 0) || (b2n ty =? 1) || (b2n ty =? 3)) with false by lia.
      replace (b2n ty =? 101) with false by lia. step.
    + reflexivity.
  - apply (K (adds [it_nv (str "GNU-divert-to-card") (str "Extension Number " ++ dec (1000 + b2n n))])).
    + intros B rest cs it H. unfold s2k_fields.
      change (b2n (n2b 101)) with 101. cbn [N.eqb orb negb Pos.eqb].
      erewrite bind_ok by (apply rdRest_at; exact H).
      replace (lenZ ((str "GNU" ++ [n]) ++ rest) <? 4)%Z with false
        by (rewrite !lenZ_app; change (lenZ (str "GNU")) with 3%Z; change (lenZ [n]) with 1%Z; pose proof (lenZ_nonneg rest); lia).
      rewrite <- app_assoc in *.
      erewrite bind_ok by (apply rdBytes_at; [exact H | reflexivity]).
      change (beqs (str "GNU") (str "GNU")) with true. cbv iota.
      apply suf_app in H. cbn [app] in *.
      erewrite bind_ok by (apply rdByte_at; exact H). cbv zeta.
      replace (1000 + b2n n =? 1002) with false by lia.
      erewrite bind_ok by reflexivity. erewrite bind_ok by reflexivity. unfold ret. cbn [sat s_rd s_cs s_cur]. rewrite add_child_adds. reflexivity.
    + reflexivity.
  - apply (K (adds [add_child (it_nd (str "Serial Number") (dump_bytes ser true)) (it_nv (str "GNU-divert-to-card") (str "Extension Number " ++ dec 1002))])).
    + intros B rest cs it H. unfold s2k_fields.
      change (b2n (n2b 101)) with 101. cbn [N.eqb orb negb Pos.eqb].
      erewrite bind_ok by (apply rdRest_at; exact H).
      replace (lenZ ((str "GNU" ++ n2b 2 :: len1 ser) ++ rest) <? 4)%Z with false
        by (rewrite !lenZ_app, lenZ_cons; change (lenZ (str "GNU")) with 3%Z; pose proof (lenZ_nonneg rest); pose proof (lenZ_nonneg (len1 ser)); lia).
      rewrite <- app_assoc in *.
      erewrite bind_ok by (apply rdBytes_at; [exact H | reflexivity]).
      change (beqs (str "GNU") (str "GNU")) with true. cbv iota.
      apply suf_app in H. cbn [app len1] in *.
      erewrite bind_ok by (apply rdByte_at; exact H). cbv zeta.
      change (1000 + b2n (n2b 2)) with 1002. change (1002 =? 1002) with true. cbv iota.
      apply suf_cons in H. rewrite bind_assoc.
      erewrite bind_ok by (apply rdByte_at; exact H). apply suf_cons in H.
      rewrite bind_assoc.
      erewrite bind_ok by (apply rdBytes_at; [exact H | rewrite lenZ_lenN, b2n_len1 by assumption; reflexivity]).
      erewrite bind_ok by reflexivity. erewrite bind_ok by reflexivity. unfold ret. cbn [sat s_rd s_cs s_cur]. rewrite add_child_adds. reflexivity.
    + cbn [add_child it_nv it_nd app]. rewrite dump_bytes_if. reflexivity.
Qed.

Lemma cuts_s2k o s : s2k_wf s -> match s with S2Gnu _ | S2Card _ => False | _ => True end ->
  cuts (s2k_parse (oDebug o)) (s2k_enc s).
Proof.
  intros W K. unfold s2k_parse.
  destruct s as [h|h salt|h salt c|ty|n|ser]; cbn [s2k_enc s2k_wf] in *; try contradiction; step; apply cuts_child; unfold s2k_fields.
  - change (b2n x00) with 0. cbn [N.eqb orb negb]. repeat step.
  - change (b2n x01) with 1. cbn [N.eqb orb negb Pos.eqb].
    rewrite <- (app_nil_r salt) at 1. do 3 step. step; [apply lenZ_8, W|reflexivity|]. repeat step.
  - change (b2n x03) with 3. cbn [N.eqb orb negb Pos.eqb]. do 3 step. step; [apply lenZ_8, W|reflexivity|]. repeat step.
  - step.
Qed.

(** A private specifier that is not the GNU extension. *)
Lemma s2k_private f B rest cs it : suf B (n2b 101 :: rest) ->
  ~ (exists n t, rest = str "GNU" ++ n :: t) ->
  s2k_parse f (sat B (n2b 101 :: rest) cs it) = (ROk true, sat B rest cs (adds [s2k_shown f (n2b 101)] it)).
Proof.
  intros H NG. unfold s2k_parse.
  erewrite bind_ok by (apply rdByte_at; exact H). apply suf_cons in H.
  rewrite s2k_shown_eq.
  assert (s2k_fields (n2b 101) f (sat B rest cs (s2k_shown f (n2b 101))) = (ROk true, sat B rest cs (s2k_shown f (n2b 101)))) as F.
  { unfold s2k_fields. change (b2n (n2b 101)) with 101. cbn [N.eqb orb negb Pos.eqb].
    erewrite bind_ok by (apply rdRest_at; exact H).
    destruct (Z.ltb_spec (lenZ rest) 4) as [L|L]; [reflexivity|].
    assert (exists a b c n t, rest = [a; b; c] ++ n :: t) as (a & b & c & n & t & ->).
    { unfold lenZ in L. destruct rest as [|a [|b [|c [|n t]]]]; cbn in L; try lia. exists a, b, c, n, t. reflexivity. }
    erewrite bind_ok by (apply rdBytes_at; [exact H | reflexivity]).
    destruct (beqs [a; b; c] (str "GNU")) eqn:G.
    { exfalso. apply beqs_spec in G. apply NG. exists n, t. rewrite <- G. reflexivity. }
    unfold rdSeek, on_rd, bind, sat. cbn [s_rd].
    pose proof (suf_len _ _ H) as [L1 L2]. change ([a; b; c] ++ n :: t) with (a :: b :: c :: n :: t) in *.
    assert (r_seek (-3) 1 (at_ B (n :: t)) = (ROk (lenZ B - lenZ (a :: b :: c :: n :: t))%Z, at_ B (a :: b :: c :: n :: t))) as ->.
    { unfold r_seek, r_size. cbn [at_ r_off r_buf].
      assert (wrap64 (lenZ B - lenZ (n :: t) + -3) = lenZ B - lenZ (a :: b :: c :: n :: t))%Z as E.
      { rewrite wrap64_small; rewrite !lenZ_cons in *; pose proof (lenZ_nonneg t); lia. }
      change (1 =? 0)%Z with false. change (1 =? 1)%Z with true. cbv iota. rewrite E.
      pose proof (lenZ_nonneg (a :: b :: c :: n :: t)).
      match goal with |- (if ?c then _ else _) = _ => replace c with false by lia end. reflexivity. }
    reflexivity. }
  unfold child. change (mkSt (s_rd (sat B rest cs it)) (s_cs (sat B rest cs it)) (s2k_shown f (n2b 101))) with (sat B rest cs (s2k_shown f (n2b 101))).
  rewrite F. cbn [sat s_rd s_cs s_cur]. rewrite add_child_adds. reflexivity.
Qed.

(** ** From programs to packets *)
Lemma parse_tag_body o E tag body cs : exists rec, parse_tag o E tag body cs = tag_body rec o E tag body cs.
Proof. eexists. unfold parse_tag. cbn [parse_tag_fuel]. reflexivity. Qed.

Lemma parse_ends o E tag d extra cs ec ei (m : M unit) :
  (forall rec, tag_m rec o E tag = no_data m) -> ends m d extra tt ec ei -> (lenZ (d ++ extra) < 2 ^ 62)%Z ->
  parse_tag o E tag (d ++ extra) cs = (ROk (ei (packet_shown o tag (d ++ extra) []), None), ec cs).
Proof.
  intros T F L. destruct (parse_tag_body o E tag (d ++ extra) cs) as [rec ->].
  unfold tag_body. rewrite T, tag_item_shown, at_new.
  change (mkSt (at_ (d ++ extra) (d ++ extra)) cs (packet_shown o tag (d ++ extra) [])) with (sat (d ++ extra) (d ++ extra) cs (packet_shown o tag (d ++ extra) [])).
  destruct (F (d ++ extra) cs (packet_shown o tag (d ++ extra) []) (suf_refl _ L)) as (s & R & C & I).
  unfold no_data. erewrite bind_ok by exact R. unfold ret. rewrite C, I. reflexivity.
Qed.
Lemma parse_cuts o E tag d q cs (m : M unit) :
  (forall rec, tag_m rec o E tag = no_data m) -> cuts m d -> strict_prefix q d -> (lenZ q < 2 ^ 62)%Z ->
  exists e, fst (parse_tag o E tag q cs) = RErr e /\ (e = EEof \/ e = EUnexp).
Proof.
  intros T F S L. destruct (parse_tag_body o E tag q cs) as [rec ->].
  unfold tag_body. rewrite T, tag_item_shown, at_new.
  change (mkSt (at_ q q) cs (packet_shown o tag q [])) with (sat q q cs (packet_shown o tag q [])).
  destruct (F q q cs (packet_shown o tag q []) (suf_refl _ L) S) as (e & s & R & X).
  exists e. unfold no_data. erewrite bind_err by exact R. auto.
Qed.

(** ** Items of single fields *)
Lemma show_keyid o E id : length id = 8%nat -> keyid_item id = show o E (FKeyID id).
Proof. intro H. pose proof (keyid_value_spec id H) as K. cbn [keyid_item it_nv i_value] in K. unfold keyid_item, it_nv. rewrite K. reflexivity. Qed.
Lemma show_sigtype o E b : sig_item b (oDebug o) = show o E (FSigType b).
Proof. apply sig_item_spec. Qed.
Lemma show_hash2 o E d : hashleft_item d = show o E (FHash2 d).
Proof. unfold hashleft_item, it_nd. rewrite dump_bytes_if. reflexivity. Qed.
Lemma show_last o E b :
  Item (str "Encrypted session key")
            (if b2n b =? 0 then str "another one pass signature" else str "other than one pass signature")
            [] (str "flag " ++ hex0x2 b) [] = show o E (FLast b).
Proof. cbn [show]. f_equal. unfold hex0x2. rewrite hex2_two_hex, app_assoc. reflexivity. Qed.
Lemma show_chunk o E c : Item (str "Chunk size") (dec (chunk_size c)) (dump_byte c true) [] [] = show o E (FChunk c).
Proof.
  cbn [show]. rewrite dump_byte_if. cbn [octet_dump]. do 2 f_equal.
  apply N.eqb_eq. revert c.
  apply (byte_all (fun c => chunk_size c =? (if b2n c <=? 57 then 2 ^ (b2n c + 6) else if b2n c <? 250 then 0 else 2 ^ (b2n c - 250)))).
  vm_compute. reflexivity.
Qed.
Lemma show_dumped o E n d : it_nd (str n) (dump_bytes d true) = show o E (FDumped n d).
Proof. unfold it_nd. rewrite dump_bytes_if. reflexivity. Qed.

Lemma adds_packet o tag body l1 l2 : adds l2 (packet_shown o tag body l1) = packet_shown o tag body (l1 ++ l2).
Proof. reflexivity. Qed.

Ltac fin_items :=
  cbv beta; unfold same; rewrite ?adds_adds; unfold sUnknownData;
  rewrite ?rest_item_surplus, ?pub_shown_eq, ?hash_shown_eq, ?sym_shown_eq, ?aead_shown_eq, ?comp_shown_eq;
  unfold shows; rewrite ?map_app, <- ?app_assoc; try reflexivity.

(** ** Tag 1 *)
Lemma ends_tag01 o E v id a l extra : length id = 8%nat -> material ses_layout a l ->
  ends (tag01 o) (v :: id ++ a :: encs l) extra tt (with_mode ModePubEnc)
       (adds (shows o E ([FVersion KPubSession v; FKeyID id; FPub a] ++ l) ++ surplus "Unknown data" (oDebug o) extra)).
Proof.
  intros Hid Hl. unfold tag01. eapply ends_ext0.
  - do 3 step. step; [apply lenZ_8, Hid|]. do 3 step. eapply ends_bind0; [exact (runs_parseSes o E a l Hl)|]. step.
  - reflexivity.
  - intro i. rewrite (show_version o E KPubSession v) by tauto. rewrite (show_keyid o E) by assumption. fin_items.
Qed.
(** The fixed fields of tag 1. *)
Lemma cuts_tag01 o v id a : length id = 8%nat -> cuts (tag01 o) (v :: id ++ [a]).
Proof. intro Hid. unfold tag01. do 3 step. step; [apply lenZ_8, Hid|reflexivity|]. repeat step. Qed.
Lemma cuts_tag01_fields o (E : env) v id a l : length id = 8%nat -> material ses_layout a l -> b2n a <> 18 ->
  cuts (tag01 o) (v :: id ++ a :: encs l).
Proof.
  intros Hid Hl Ha. unfold tag01. do 3 step. step; [apply lenZ_8, Hid|reflexivity|]. do 3 step.
  apply cuts_first, (cuts_parseSes o E); assumption.
Qed.

(** Other algorithms: what is left is shown as a whole. *)
Lemma ends_sized o size name extra : ends (addSized o size name) [] extra tt same
  (adds [Item name [] (dump_if (oDebug o) extra) (n_bytes size) []]).
Proof. unfold addSized. eapply ends_ext0; [repeat step | reflexivity | intro i; cbv beta; rewrite dump_bytes_if; reflexivity]. Qed.

(** ** Tag 3 *)
Lemma ends_tag03 o E a s extra : s2k_wf s ->
  ends (tag03 o) (x04 :: a :: s2k_enc s) extra tt (with_mode ModeSymEnc)
       (adds (shows o E [FVersion KSymSession x04; FSym a] ++ s2k_tree o s :: surplus "Unknown data" (oDebug o) extra)).
Proof.
  intro W. unfold tag03. eapply ends_ext0.
  - do 3 step. change (v_iscur (SymSessKeyVer x04)) with true. cbv iota. do 5 step.
    eapply ends_bind0; [exact (runs_s2k o s W)|]. repeat step.
  - reflexivity.
  - intro i. rewrite (show_version o E KSymSession x04) by tauto. fin_items.
Qed.
Lemma ends_tag03_other o E v extra : b2n v <> 4 ->
  ends (tag03 o) [v] extra tt (with_mode ModeSymEnc)
       (adds (shows o E [FVersion KSymSession v] ++ surplus "Unknown data" (oDebug o) extra)).
Proof.
  intro W. unfold tag03. eapply ends_ext0.
  - do 3 step. replace (v_iscur (SymSessKeyVer v)) with false by (unfold v_iscur, v_num; cbn [v_ver v_cur SymSessKeyVer]; lia). repeat step.
  - reflexivity.
  - intro i. rewrite (show_version o E KSymSession v) by tauto. fin_items.
Qed.
Lemma cuts_tag03 o a s : s2k_wf s -> match s with S2Gnu _ | S2Card _ => False | _ => True end ->
  cuts (tag03 o) (x04 :: a :: s2k_enc s).
Proof.
  intros W K. unfold tag03. do 3 step. change (v_iscur (SymSessKeyVer x04)) with true. cbv iota. do 5 step.
  apply cuts_first, cuts_s2k; assumption.
Qed.

(** ** Tag 4 *)
Lemma ends_tag04 o E v s h a id l extra : length id = 8%nat ->
  ends (tag04 o) (v :: s :: h :: a :: id ++ [l]) extra tt same
       (adds (shows o E [FVersion KOnePass v; FSigType s; FHash h; FPub a; FKeyID id; FLast l]
              ++ surplus "Unknown data" (oDebug o) extra)).
Proof.
  intro Hid. unfold tag04. eapply ends_ext0.
  - do 8 step. step; [apply lenZ_8, Hid|]. repeat step.
  - reflexivity.
  - intro i. rewrite (show_version o E KOnePass v) by tauto. rewrite (show_keyid o E) by assumption.
    rewrite (show_sigtype o E), (show_last o E). fin_items.
Qed.
Lemma cuts_tag04 o v s h a id l : length id = 8%nat -> cuts (tag04 o) (v :: s :: h :: a :: id ++ [l]).
Proof. intro Hid. unfold tag04. do 8 step. step; [apply lenZ_8, Hid|reflexivity|]. repeat step. Qed.

(** ** Tags 9, 18, 19 *)

Lemma parse_tag09 o E body cs : (lenZ body < 2 ^ 62)%Z ->
  parse_tag o E 9 body cs =
  (ROk (packet_shown o 9 body [Item (str "Encrypted data") (tag09_value (c_mode cs)) (dump_if (oDebug o) body) (bytes_note (lenN body)) []],
        None), with_mode ModeNotSpecified cs).
Proof.
  intro L. destruct (parse_tag_body o E 9 body cs) as [rec ->].
  unfold tag_body. rewrite tag_item_shown, at_new. cbn [tag_m]. unfold no_data, tag09.
  change (mkSt (at_ body body) cs (packet_shown o 9 body [])) with (sat body body cs (packet_shown o 9 body [])).
  rewrite bind_assoc. erewrite bind_ok by (apply rawData_at, suf_refl, L). rewrite dump_bytes_if, n_bytes_note. reflexivity.
Qed.
Lemma parse_tag18 o E body cs : (lenZ body < 2 ^ 62)%Z ->
  parse_tag o E 18 body cs =
  (ROk (packet_shown o 18 body [Item (str "Encrypted data") [] (dump_if (oDebug o) body) (tag18_note (c_mode cs) (lenN body)) []],
        None), with_mode ModeNotSpecified cs).
Proof.
  intro L. destruct (parse_tag_body o E 18 body cs) as [rec ->].
  unfold tag_body. rewrite tag_item_shown, at_new. cbn [tag_m]. unfold no_data, tag18.
  change (mkSt (at_ body body) cs (packet_shown o 18 body [])) with (sat body body cs (packet_shown o 18 body [])).
  rewrite bind_assoc. erewrite bind_ok by (apply rawData_at, suf_refl, L). rewrite dump_bytes_if, n_bytes_note.
  destruct cs as [[] sg ky]; reflexivity.
Qed.
Lemma parse_tag19 o E body cs : (lenZ body < 2 ^ 62)%Z ->
  parse_tag o E 19 body cs =
  (ROk (packet_shown o 19 body [Item (str "MDC") [] (dump_if (oDebug o) body) (str "SHA-1 (20 bytes)") []], None), cs).
Proof.
  intro L. destruct (parse_tag_body o E 19 body cs) as [rec ->].
  unfold tag_body. rewrite tag_item_shown, at_new. cbn [tag_m]. unfold no_data, tag19.
  change (mkSt (at_ body body) cs (packet_shown o 19 body [])) with (sat body body cs (packet_shown o 19 body [])).
  rewrite bind_assoc. erewrite bind_ok by (apply rawData_at, suf_refl, L). rewrite dump_bytes_if. reflexivity.
Qed.

(** ** Tag 20 *)
Definition aead_iv_octets (a : N) : N := match a with 1 | 2 => 16 | _ => 0 end.
Lemma catch_runs {A} (m : M A) d a ec ei : runs m d a ec ei -> runs (catchM m) d (Some a) ec ei.
Proof. intros F B rest cs it H. unfold catchM. rewrite F by assumption. reflexivity. Qed.

Lemma ends_tag20 o E v s a c iv extra : lenN iv = aead_iv_octets (b2n a) ->
  ends (tag20 o) (v :: s :: a :: c :: iv) extra tt same
       (adds (shows o E [FVersion KAead v; FSym s; FAead a; FChunk c; FDumped "IV" iv]
              ++ surplus "Encrypted data and authentication tag" (oDebug o) extra)).
Proof.
  intro Hiv. unfold tag20. eapply ends_ext0.
  - do 8 step. eapply ends_bind0.
    + apply catch_runs, runs_bytes. rewrite lenZ_lenN, Hiv. unfold aead_ivlen, aead_iv_octets.
      destruct (b2n a) as [|[| |]]; try reflexivity. destruct p; reflexivity.
    + cbv beta iota. repeat step.
  - reflexivity.
  - intro i. rewrite (show_version o E KAead v) by tauto. rewrite (show_chunk o E), (show_dumped o E). fin_items.
Qed.
Lemma cuts_tag20 o v s a c : cuts (tag20 o) [v; s; a; c].
Proof. unfold tag20. repeat step. Qed.
(** A packet that ends inside the initialization vector. *)
Lemma ends_tag20_short o E v s a c iv : lenN iv < aead_iv_octets (b2n a) ->
  ends (tag20 o) [v; s; a; c] iv tt same (adds (shows o E [FVersion KAead v; FSym s; FAead a; FChunk c])).
Proof.
  intro Hiv. unfold tag20. eapply ends_ext0.
  - do 8 step. apply (ends_ext0 _ _ _ _ same same same same); [|reflexivity|reflexivity]. intros B cs it H. cbn [app] in H |- *.
    exists (sat B iv cs it). split; [|split; reflexivity].
    erewrite bind_ok. 2: { unfold catchM. rewrite rdBytes_short; [reflexivity | exact H | | ].
    + rewrite lenZ_lenN. unfold aead_ivlen, aead_iv_octets in *. destruct (b2n a) as [|[| |]]; try lia; destruct p; lia.
    + unfold aead_ivlen. destruct (b2n a) as [|[| |]]; try reflexivity; destruct p; reflexivity. }
    cbv beta iota. reflexivity.
  - reflexivity.
  - intro i. rewrite (show_version o E KAead v) by tauto. rewrite (show_chunk o E). fin_items.
Qed.

(** ** Key packets *)
Lemma len4 t : (4 = lenZ (be_enc 4 t))%Z.
Proof. unfold lenZ. rewrite be_enc_length. reflexivity. Qed.
Lemma be4 t : t < 2 ^ 32 -> be (be_enc 4 t) = t.
Proof. intro H. rewrite be_be_enc. change (256 ^ N.of_nat 4) with (2 ^ 32). apply N.mod_small. exact H. Qed.
Lemma len2 t : (2 = lenZ (be_enc 2 t))%Z.
Proof. unfold lenZ. rewrite be_enc_length. reflexivity. Qed.
Lemma be2 t : t < 65536 -> be (be_enc 2 t) = t.
Proof. intro H. rewrite be_be_enc. change (256 ^ N.of_nat 2) with 65536. apply N.mod_small. exact H. Qed.

Lemma show_time o E n t : t < 2 ^ 32 -> dt_item E (str n) (mkDT (be_enc 4 t) (oUTC o)) (oDebug o) = show o E (FTime n t).
Proof.
  intro H. unfold dt_item, dt_text, dt_unix. cbn [dt_tm dt_utc show]. rewrite be4 by assumption. rewrite dump_bytes_if. reflexivity.
Qed.

Lemma runs_keyTime o E t : t < 2 ^ 32 ->
  runs (keyTime o E) (be_enc 4 t) tt (with_key (key_time o t)) (adds [show o E (FTime "Public key creation time" t)]).
Proof.
  intro H. unfold keyTime, newDateTime. eapply runs_ext with (d := be_enc 4 t ++ []).
  - do 1 step. step; [apply len4|]. repeat step.
  - apply app_nil_r.
  - reflexivity.
  - intro i. unfold pubkeytime_item. cbv beta. rewrite show_time by assumption. reflexivity.
Qed.
Lemma cuts_keyTime o E t : cuts (keyTime o E) (be_enc 4 t).
Proof. unfold keyTime, newDateTime. rewrite <- (app_nil_r (be_enc 4 t)). step. step; [apply len4|reflexivity|]. repeat step. Qed.
Lemma runs_keyAlg o E a : runs (keyAlg o) [a] a same (adds [show o E (FPub a)]).
Proof. unfold keyAlg. eapply runs_ext0; [repeat step | reflexivity | intro i; cbv beta; rewrite pub_shown_eq; reflexivity]. Qed.
Lemma cuts_keyAlg o a : cuts (keyAlg o) [a].
Proof. unfold keyAlg. repeat step. Qed.


Lemma runs_pubV4 o E t a l : t < 2 ^ 32 -> material pub_layout a l ->
  runs (pubV4 o E) (encs (key_fields 4 t 0 a l)) a (with_key (key_time o t)) (adds (shows o E (key_fields 4 t 0 a l))).
Proof.
  intros Ht Hl. unfold pubV4, key_fields. cbn [N.eqb Pos.eqb app]. unfold encs. cbn [flat_map]. fold (encs l). eapply runs_ext0.
  - eapply runs_bind; [apply runs_keyTime; exact Ht|]. cbv beta. cbn [enc app].
    change (a :: encs l) with ([a] ++ encs l). eapply runs_bind; [apply (runs_keyAlg o E)|]. cbv beta.
    eapply runs_bind0; [exact (runs_parsePub o E a l Hl)|]. step.
  - reflexivity.
  - intro i. fin_items.
Qed.
Lemma runs_pubV3 o E t days a l : t < 2 ^ 32 -> days < 65536 -> material pub_layout a l ->
  runs (pubV3 o E) (encs (key_fields 3 t days a l)) a (with_key (key_time o t)) (adds (shows o E (key_fields 3 t days a l))).
Proof.
  intros Ht Hd Hl. unfold pubV3, key_fields. cbn [N.eqb Pos.eqb app]. unfold encs. cbn [flat_map]. fold (encs l). eapply runs_ext0.
  - eapply runs_bind; [apply runs_keyTime; exact Ht|]. cbv beta. cbn [enc app]. step; [apply len2|]. step.
    change (a :: encs l) with ([a] ++ encs l). eapply runs_bind; [apply (runs_keyAlg o E)|]. cbv beta.
    eapply runs_bind0; [exact (runs_parsePub o E a l Hl)|]. step.
  - reflexivity.
  - intro i. rewrite be2 by assumption. fin_items.
Qed.
Lemma cuts_pubV4 o E t a l : t < 2 ^ 32 -> material pub_layout a l -> b2n a <> 18 ->
  cuts (pubV4 o E) (encs (key_fields 4 t 0 a l)).
Proof.
  intros Ht Hl Ha. unfold pubV4, key_fields. cbn [N.eqb Pos.eqb app]. unfold encs. cbn [flat_map]. fold (encs l).
  eapply cuts_bind; [apply cuts_keyTime | apply (runs_keyTime o E); exact Ht|]. cbv beta. cbn [enc app].
  change (a :: encs l) with ([a] ++ encs l). eapply cuts_bind; [apply cuts_keyAlg | apply (runs_keyAlg o E)|]. cbv beta.
  apply cuts_first, (cuts_parsePub o E); assumption.
Qed.
Lemma cuts_pubV3 o E t days a l : t < 2 ^ 32 -> material pub_layout a l -> b2n a <> 18 ->
  cuts (pubV3 o E) (encs (key_fields 3 t days a l)).
Proof.
  intros Ht Hl Ha. unfold pubV3, key_fields. cbn [N.eqb Pos.eqb app]. unfold encs. cbn [flat_map]. fold (encs l).
  eapply cuts_bind; [apply cuts_keyTime | apply (runs_keyTime o E); exact Ht|]. cbv beta. cbn [enc app].
  step; [apply len2|reflexivity|]. step.
  change (a :: encs l) with ([a] ++ encs l). eapply cuts_bind; [apply cuts_keyAlg | apply (runs_keyAlg o E)|]. cbv beta.
  apply cuts_first, (cuts_parsePub o E); assumption.
Qed.

(** Running on a reader of one's own. *)
Lemma runs_with_rd {A} (m : M A) b d a ec ei : runs m d a ec ei -> (lenZ (d ++ b) < 2 ^ 62)%Z ->
  runs (with_rd (r_new (d ++ b)) m) [] (a, at_ (d ++ b) b) ec ei.
Proof.
  intros F L B rest cs it H. unfold with_rd. rewrite at_new.
  change (mkSt (at_ (d ++ b) (d ++ b)) (s_cs (sat B ([] ++ rest) cs it)) (s_cur (sat B ([] ++ rest) cs it))) with (sat (d ++ b) (d ++ b) cs it).
  rewrite (F (d ++ b) b cs it (suf_refl _ L)). reflexivity.
Qed.
Lemma runs_pubV5 o E t a l junk : t < 2 ^ 32 -> material pub_layout a l -> lenN (encs l ++ junk) < 2 ^ 32 ->
  runs (pubV5 o E) (be_enc 4 t ++ a :: be_enc 4 (lenN (encs l ++ junk)) ++ encs l ++ junk) a (with_key (key_time o t))
       (adds (shows o E (key_fields 5 t 0 a l))).
Proof.
  intros Ht Hl Hj. unfold pubV5, key_fields. cbn [N.eqb Pos.eqb app]. eapply runs_ext0.
  - eapply runs_bind; [apply (runs_keyTime o E); exact Ht|]. cbv beta. cbn [enc app].
    change (a :: ?x) with ([a] ++ x). eapply runs_bind; [apply (runs_keyAlg o E)|]. cbv beta.
    step; [apply len4|]. cbv beta. rewrite be4 by assumption.
    eapply runs_bind0; [apply runs_bytes; rewrite lenZ_lenN; reflexivity|]. cbv beta.
    eapply runs_bind0; [apply runs_with_rd; [exact (runs_parsePub o E a l Hl)|rewrite lenZ_lenN; lia]|]. cbv beta. step.
  - reflexivity.
  - intro i. fin_items.
Qed.

Ltac ver_if :=
  repeat match goal with
  | |- context [v_isdraft ?v] => let x := eval vm_compute in (v_isdraft v) in change (v_isdraft v) with x; cbv iota
  | |- context [v_iscur ?v] => let x := eval vm_compute in (v_iscur v) in change (v_iscur v) with x; cbv iota
  | |- context [v_isold ?v && (v_num ?v =? 3)] =>
      let x := eval vm_compute in (v_isold v && (v_num v =? 3)) in change (v_isold v && (v_num v =? 3)) with x; cbv iota
  end.

Lemma ends_tag06_v4 o E t a l extra : t < 2 ^ 32 -> material pub_layout a l ->
  ends (tag06 o E) (x04 :: encs (key_fields 4 t 0 a l)) extra tt (with_key (key_time o t))
       (adds (shows o E (FVersion KPublicKey x04 :: key_fields 4 t 0 a l) ++ surplus "Unknown data" (oDebug o) extra)).
Proof.
  intros Ht Hl. unfold tag06, pub_parse. eapply ends_ext0.
  - do 2 step. ver_if. eapply ends_bind0; [apply runs_pubV4; eassumption|]. step.
  - reflexivity.
  - intro i. rewrite (show_version o E KPublicKey x04) by tauto. fin_items.
Qed.
Lemma ends_tag06_v3 o E t days a l extra : t < 2 ^ 32 -> days < 65536 -> material pub_layout a l ->
  ends (tag06 o E) (x03 :: encs (key_fields 3 t days a l)) extra tt (with_key (key_time o t))
       (adds (shows o E (FVersion KPublicKey x03 :: key_fields 3 t days a l) ++ surplus "Unknown data" (oDebug o) extra)).
Proof.
  intros Ht Hd Hl. unfold tag06, pub_parse. eapply ends_ext0.
  - do 2 step. ver_if. eapply ends_bind0; [apply runs_pubV3; eassumption|]. step.
  - reflexivity.
  - intro i. rewrite (show_version o E KPublicKey x03) by tauto. fin_items.
Qed.
Lemma ends_tag06_v5 o E t a l junk extra : t < 2 ^ 32 -> material pub_layout a l -> lenN (encs l ++ junk) < 2 ^ 32 ->
  ends (tag06 o E) (x05 :: be_enc 4 t ++ a :: be_enc 4 (lenN (encs l ++ junk)) ++ encs l ++ junk) extra tt (with_key (key_time o t))
       (adds (shows o E (FVersion KPublicKey x05 :: key_fields 5 t 0 a l) ++ surplus "Unknown data" (oDebug o) extra)).
Proof.
  intros Ht Hl Hj. unfold tag06, pub_parse. eapply ends_ext0.
  - do 2 step. ver_if. eapply ends_bind0; [apply runs_pubV5; eassumption|]. step.
  - reflexivity.
  - intro i. rewrite (show_version o E KPublicKey x05) by tauto. fin_items.
Qed.
Lemma pub_parse_other o E v : ~ In (b2n v) [3; 4; 5] -> pub_parse o E (PubVer v) = ret x00.
Proof.
  intro H. cbn [In] in H. unfold pub_parse, v_isdraft, v_iscur, v_isold, v_num. cbn [PubVer v_ver v_cur v_draft N.eqb].
  replace (b2n v =? 5) with false by lia. replace (b2n v =? 4) with false by lia. replace (b2n v =? 3) with false by lia.
  rewrite andb_false_r. reflexivity.
Qed.
Lemma ends_tag06_other o E v extra : ~ In (b2n v) [3; 4; 5] ->
  ends (tag06 o E) [v] extra tt same
       (adds (show o E (FVersion KPublicKey v) :: surplus "Unknown data" (oDebug o) extra)).
Proof.
  intro Hv. unfold tag06. eapply ends_ext0.
  - do 2 step. rewrite pub_parse_other by assumption. repeat step.
  - reflexivity.
  - intro i. rewrite (show_version o E KPublicKey v) by tauto. fin_items.
Qed.
Lemma cuts_tag06_v4 o E t a l : t < 2 ^ 32 -> material pub_layout a l -> b2n a <> 18 ->
  cuts (tag06 o E) (x04 :: encs (key_fields 4 t 0 a l)).
Proof. intros. unfold tag06, pub_parse. do 2 step. ver_if. apply cuts_first, cuts_pubV4; assumption. Qed.
Lemma cuts_tag06_v3 o E t days a l : t < 2 ^ 32 -> material pub_layout a l -> b2n a <> 18 ->
  cuts (tag06 o E) (x03 :: encs (key_fields 3 t days a l)).
Proof. intros. unfold tag06, pub_parse. do 2 step. ver_if. apply cuts_first, cuts_pubV3; assumption. Qed.

(** ** Secret keys *)
(** [m] consumes everything that is left. *)
Definition drains {A} (m : M A) (d : bytes) (a : A) (ec : cst -> cst) (ei : item -> item) : Prop :=
  forall B cs it, suf B d -> m (sat B d cs it) = (ROk a, sat B [] (ec cs) (ei it)).
Lemma runs_drains {A} (m : M A) d a ec ei : runs m d a ec ei -> drains m d a ec ei.
Proof. intros F B cs it H. pose proof (F B [] cs it) as K. rewrite app_nil_r in K. auto. Qed.
Lemma drains_bind {A B} (m : M A) (f : A -> M B) d1 d2 a b ec1 ec2 ei1 ei2 :
  runs m d1 a ec1 ei1 -> drains (f a) d2 b ec2 ei2 ->
  drains (bind m f) (d1 ++ d2) b (fun c => ec2 (ec1 c)) (fun i => ei2 (ei1 i)).
Proof. intros F1 F2 Bf cs it H. erewrite bind_ok by (apply F1; exact H). apply F2. eapply suf_app. exact H. Qed.
Lemma drains_then {A B} (m : M A) (f : A -> M B) d a b ec1 ec2 ei1 ei2 :
  drains m d a ec1 ei1 -> drains (f a) [] b ec2 ei2 ->
  drains (bind m f) d b (fun c => ec2 (ec1 c)) (fun i => ei2 (ei1 i)).
Proof.
  intros F1 F2 Bf cs it H. erewrite bind_ok by (apply F1; exact H). apply F2.
  rewrite <- (app_nil_r d) in H. eapply suf_app. exact H.
Qed.
Lemma drains_child {A} it0 (m : M A) d a ec ei : drains m d a ec ei -> drains (child it0 m) d a ec (adds [ei it0]).
Proof.
  intros F B cs it H. unfold child.
  change (mkSt (s_rd (sat B d cs it)) (s_cs (sat B d cs it)) it0) with (sat B d cs it0).
  rewrite F by assumption. cbn [sat s_rd s_cs s_cur]. rewrite add_child_adds. reflexivity.
Qed.
Lemma drains_ends {A} (m : M A) d a ec ei : drains m d a ec ei -> ends m d [] a ec ei.
Proof. intros F B cs it H. rewrite app_nil_r in *. eexists. split; [apply F; exact H | split; reflexivity]. Qed.
Lemma drains_ext0 {A} (m : M A) d a ec ec' ei ei' :
  drains m d a ec ei -> (forall c, ec c = ec' c) -> (forall i, ei i = ei' i) -> drains m d a ec' ei'.
Proof. intros F Ec Ei B cs it H. rewrite <- Ec, <- Ei. apply F. assumption. Qed.

Lemma rdSeek_end B rest cs it : suf B rest -> rdSeek 0 2 (sat B rest cs it) = (ROk (lenZ B), sat B [] cs it).
Proof.
  intro H. pose proof (suf_len _ _ H) as [L1 L2]. unfold rdSeek, on_rd, r_seek, r_size, sat. cbn [s_rd s_cs s_cur at_ r_buf r_off].
  change (2 =? 0)%Z with false. change (2 =? 1)%Z with false. change (2 =? 2)%Z with true. cbv iota.
  rewrite wrap64_small by lia. rewrite Z.add_0_r.
  replace ((lenZ B <? 0) || (lenZ B >? lenZ B))%Z with false by lia. unfold at_. rewrite lenZ_nil, Z.sub_0_r. reflexivity.
Qed.

Lemma secenc_label_eq a : secenc_name a = secenc_label (b2n a).
Proof.
  apply beqs_spec. revert a. apply (byte_all (fun a => beqs (secenc_name a) (secenc_label (b2n a)))). vm_compute. reflexivity.
Qed.

Lemma drains_parseSecEnc o a ct :
  drains (parseSecEnc o a) ct tt same (adds [Item (secenc_label (b2n a)) [] (dump_if (oDebug o) ct) (bytes_note (lenN ct)) []]).
Proof.
  intros B cs it H. unfold parseSecEnc. erewrite bind_ok by (apply rdRest_at, H).
  unfold addSized. rewrite bind_assoc. erewrite bind_ok by (apply dumpRest_at, H). erewrite bind_ok by (apply add_at).
  erewrite bind_ok by (apply rdSeek_end, H). unfold ret. rewrite secenc_label_eq, dump_bytes_if, n_bytes_note, add_child_adds. reflexivity.
Qed.



Lemma runs_child_adds {A} n v d t (m : M A) x a ec l : runs m x a ec (adds l) ->
  runs (child (Item n v d t []) m) x a ec (adds [Item n v d t l]).
Proof. intro F. exact (runs_child (Item n v d t []) m x a ec (adds l) F). Qed.

(** The part of a secret key before the secret part. *)
Definition old_version (v : byte) : Prop := v = x03 \/ v = x04.
Lemma old_not5 v : old_version v -> (v_num (PubVer v) =? 5) = false.
Proof. intros [-> | ->]; reflexivity. Qed.
Lemma runs_pub4 o E v t days a l : old_version v -> t < 2 ^ 32 -> days < 65536 -> material pub_layout a l ->
  runs (child (Item (str "Public-Key") [] [] [] []) (pub_parse o E (PubVer v))) (encs (key_fields (b2n v) t days a l)) a
       (with_key (key_time o t)) (adds [public_shown (shows o E (key_fields (b2n v) t days a l))]).
Proof.
  intros [-> | ->] Ht Hd Hl; apply runs_child_adds; unfold pub_parse; ver_if; [apply runs_pubV3 | apply runs_pubV4]; assumption.
Qed.
Lemma cuts_pub4 o E v t days a l : old_version v -> t < 2 ^ 32 -> material pub_layout a l -> b2n a <> 18 ->
  cuts (child (Item (str "Public-Key") [] [] [] []) (pub_parse o E (PubVer v))) (encs (key_fields (b2n v) t days a l)).
Proof.
  intros [-> | ->] Ht Hl Ha; apply cuts_child; unfold pub_parse; ver_if; [apply cuts_pubV3 | apply cuts_pubV4]; assumption.
Qed.
Lemma shown_version o E v : v_item (PubVer v) (oDebug o) = show o E (FVersion KPublicKey v).
Proof. rewrite (show_version o E KPublicKey v) by tauto. reflexivity. Qed.

Lemma ends_tag05_plain o E v t days a l sec chk extra :
  old_version v -> t < 2 ^ 32 -> days < 65536 -> material pub_layout a l -> material sec_layout a sec -> length chk = 2%nat ->
  ends (tag05 o E) (v :: encs (key_fields (b2n v) t days a l) ++ x00 :: encs sec ++ chk) extra tt (with_key (key_time o t))
    (adds (show o E (FVersion KPublicKey v) :: public_shown (shows o E (key_fields (b2n v) t days a l))
           :: secret_shown (str "s2k usage 0; plain secret-key material") (shows o E (sec ++ [FDumped "2-octet checksum" chk]))
           :: surplus "Unknown data" (oDebug o) extra)).
Proof.
  intros Hv Ht Hd Hl Hs Hc. unfold tag05. eapply ends_ext0.
  - do 2 step. eapply ends_bind; [apply runs_pub4; eassumption|]. cbv beta.
    eapply ends_bind0; [|step].
    apply runs_child. unfold sec_parse. step. change (b2n x00) with 0. cbv zeta.
    unfold getField1, getField2. rewrite (old_not5 v Hv). cbv iota. step. cbv iota.
    unfold sec_opts. rewrite (old_not5 v Hv). cbn [N.eqb negb andb]. do 10 step.
    cbv iota. unfold sec_material. rewrite (old_not5 v Hv). cbv iota. cbn [N.eqb].
    unfold setNote. eapply (runs_bind (upd _) _ [] _); [apply runs_upd|]. cbv beta.
    unfold opt_run. do 2 step. eapply runs_bind; [exact (runs_parseSec o E a sec Hs)|]. do 2 step.
    eapply runs_bind0; [apply runs_bytes, lenZ_2, Hc|]. repeat step.
  - reflexivity.
  - intro i. cbv beta. rewrite (show_version o E KPublicKey v) by tauto. rewrite (show_dumped o E). unfold w_note.
    cbn [adds]. fin_items.
Qed.

Section Drains.
  Context {A : Type}.
  Implicit Types (a : A) (ec : cst -> cst) (ei : item -> item).
  Lemma drains_byte_bind (f : byte -> M A) b d a ec ei : drains (f b) d a ec ei -> drains (bind rdByte f) (b :: d) a ec ei.
  Proof. intro F. exact (drains_bind rdByte f [b] d b a same ec same ei (runs_byte b) F). Qed.
  Lemma drains_bytes_bind n (f : bytes -> M A) x d a ec ei : (n = lenZ x)%Z -> drains (f x) d a ec ei ->
    drains (bind (rdBytes n) f) (x ++ d) a ec ei.
  Proof. intros E F. exact (drains_bind _ f x d x a same ec same ei (runs_bytes n x E) F). Qed.
  Lemma drains_add_bind c (k : unit -> M A) d a ec ei : drains (k tt) d a ec ei ->
    drains (bind (add c) k) d a ec (fun i => ei (adds [c] i)).
  Proof. intro F. exact (drains_bind _ k [] d tt a same ec (adds [c]) ei (runs_add c) F). Qed.
  Lemma drains_upd_bind f (k : unit -> M A) d a ec ei : drains (k tt) d a ec ei ->
    drains (bind (upd f) k) d a ec (fun i => ei (f i)).
  Proof. intro F. exact (drains_bind _ k [] d tt a same ec f ei (runs_upd f) F). Qed.
  Lemma drains_ret_bind {B} (b : B) (f : B -> M A) d a ec ei : drains (f b) d a ec ei -> drains (bind (ret b) f) d a ec ei.
  Proof. intro F. exact F. Qed.
  Lemma drains_assoc {B C} (m : M B) (f : B -> M C) (g : C -> M A) d a ec ei :
    drains (bind m (fun x => bind (f x) g)) d a ec ei -> drains (bind (bind m f) g) d a ec ei.
  Proof. intros F b cs it H. rewrite bind_assoc. apply F. exact H. Qed.
End Drains.
Ltac dstep :=
  cbv beta;
  lazymatch goal with
  | |- drains (bind (ret _) _) _ _ _ _ => apply drains_ret_bind
  | |- drains (bind (bind _ _) _) _ _ _ _ => apply drains_assoc
  | |- drains (bind rdByte _) (_ :: _) _ _ _ => apply drains_byte_bind
  | |- drains (bind (rdBytes _) _) (_ ++ _) _ _ _ => apply drains_bytes_bind
  | |- drains (bind (add _) _) _ _ _ _ => apply drains_add_bind
  | |- drains (bind (upd _) _) _ _ _ _ => apply drains_upd_bind
  | |- drains (ret _) [] _ _ _ => apply runs_drains, runs_ret
  end.

Lemma drains_material o v a ct u : old_version v -> u <> 0 ->
  drains (sec_material o (PubVer v) a u None) ct tt same
    (fun i => adds [Item (secenc_label (b2n a)) [] (dump_if (oDebug o) ct) (bytes_note (lenN ct)) []] (w_note (usage_note u) i)).
Proof.
  intros Hv Hu. unfold sec_material. replace (u =? 0) with false by lia. rewrite (old_not5 v Hv). cbv iota.
  unfold setNote, opt_run. eapply drains_ext0.
  - dstep. dstep. eapply drains_then; [apply (drains_parseSecEnc o a ct)|]. repeat dstep.
  - reflexivity.
  - reflexivity.
Qed.

Lemma cipher_iv_eq c : sym_ivlen c = Z.of_N (cipher_iv_octets (b2n c)).
Proof.
  apply Z.eqb_eq. revert c. apply (byte_all (fun c => (sym_ivlen c =? Z.of_N (cipher_iv_octets (b2n c)))%Z)). vm_compute. reflexivity.
Qed.


Lemma runs_secopts o E v u c x s iv : (v_num (PubVer v) =? 5) = false ->
  (match x with Some _ => u = 253 | None => u = 254 \/ u = 255 end) -> s2k_wf s ->
  lenN iv = (if s2k_iv s then cipher_iv_octets (b2n c) else 0) ->
  runs (sec_opts o (PubVer v) u None) (protection_octets c x s iv) tt same (adds (protection_shown o E c x s iv)).
Proof.
  intros Hv Hu Hs Hiv. unfold sec_opts, protection_octets. rewrite Hv.
  assert (usage_s2k u = true) as U by (unfold usage_s2k; destruct x; lia). rewrite U.
  replace (u =? 0) with false by (destruct x; lia). replace (u =? 253) with (match x with Some _ => true | None => false end) by (destruct x; lia).
  cbn [negb andb]. cbv iota. unfold opt_run, protection_shown, sec_iv.
  destruct x as [y|]; cbn [option_list app]; cbv iota.
  - destruct (s2k_iv s) eqn:I.
    + eapply runs_ext0.
      * repeat (step; cbv iota). eapply runs_bind; [exact (runs_s2k o s Hs)|]. rewrite I. step. cbv iota. cbn [andb].
        do 2 step. eapply runs_bind0; [apply runs_bytes; rewrite lenZ_lenN, Hiv; apply cipher_iv_eq|]. repeat step.
      * reflexivity.
      * intro i. cbv beta. cbn [map option_list shows]. rewrite (show_dumped o E). fin_items.
    + apply lenN_0 in Hiv. subst iv. rewrite app_nil_r. eapply runs_ext0.
      * repeat (step; cbv iota). eapply runs_bind0; [exact (runs_s2k o s Hs)|]. rewrite I. step. cbv iota. cbn [andb].
        repeat step.
      * reflexivity.
      * intro i. cbv beta. cbn [map option_list shows]. fin_items.
  - destruct (s2k_iv s) eqn:I.
    + eapply runs_ext0.
      * repeat (step; cbv iota). eapply runs_bind; [exact (runs_s2k o s Hs)|]. rewrite I. step. cbv iota. cbn [andb].
        do 2 step. eapply runs_bind0; [apply runs_bytes; rewrite lenZ_lenN, Hiv; apply cipher_iv_eq|]. repeat step.
      * reflexivity.
      * intro i. cbv beta. cbn [map option_list shows]. rewrite (show_dumped o E). fin_items.
    + apply lenN_0 in Hiv. subst iv. rewrite app_nil_r. eapply runs_ext0.
      * repeat (step; cbv iota). eapply runs_bind0; [exact (runs_s2k o s Hs)|]. rewrite I. step. cbv iota. cbn [andb].
        repeat step.
      * reflexivity.
      * intro i. cbv beta. cbn [map option_list shows]. fin_items.
Qed.

Lemma drains_addRest n f : drains (addRest n f) [] tt same same.
Proof.
  intros B cs it H. unfold addRest. erewrite bind_ok by (apply rdRest_at, H). reflexivity.
Qed.

Lemma ends_tag05_enc o E v t days a l u c x s iv ct :
  old_version v -> t < 2 ^ 32 -> days < 65536 -> material pub_layout a l ->
  (match x with Some _ => b2n u = 253 | None => b2n u = 254 \/ b2n u = 255 end) -> s2k_wf s ->
  lenN iv = (if s2k_iv s then cipher_iv_octets (b2n c) else 0) ->
  ends (tag05 o E) (v :: encs (key_fields (b2n v) t days a l) ++ u :: protection_octets c x s iv ++ ct) [] tt (with_key (key_time o t))
    (adds [show o E (FVersion KPublicKey v); public_shown (shows o E (key_fields (b2n v) t days a l));
           secret_shown (usage_note (b2n u))
             (protection_shown o E c x s iv
              ++ [Item (secenc_label (b2n a)) [] (dump_if (oDebug o) ct) (bytes_note (lenN ct)) []])]).
Proof.
  intros Hv Ht Hd Hl Hu Hs Hiv. apply drains_ends. unfold tag05. eapply drains_ext0.
  - dstep. dstep. eapply drains_bind; [apply runs_pub4; eassumption|]. cbv beta.
    eapply drains_then; [|apply drains_addRest].
    apply drains_child. unfold sec_parse. dstep. cbv zeta. unfold getField1, getField2.
    rewrite (old_not5 v Hv). cbv iota. dstep.
    eapply drains_bind; [apply (runs_secopts o E); try eassumption; apply old_not5, Hv|]. cbv beta. dstep. cbv iota.
    apply drains_material; [exact Hv | destruct x; lia].
  - reflexivity.
  - intro i. cbv beta. rewrite (show_version o E KPublicKey v) by tauto. unfold w_note. cbn [adds]. fin_items.
Qed.

Lemma cuts_secopts o v u c x s iv : (v_num (PubVer v) =? 5) = false ->
  (match x with Some _ => u = 253 | None => u = 254 \/ u = 255 end) -> s2k_wf s ->
  match s with S2Gnu _ | S2Card _ => False | _ => True end ->
  lenN iv = (if s2k_iv s then cipher_iv_octets (b2n c) else 0) ->
  cuts (sec_opts o (PubVer v) u None) (protection_octets c x s iv).
Proof.
  intros Hv Hu Hs NG Hiv. unfold sec_opts, protection_octets. rewrite Hv.
  assert (usage_s2k u = true) as U by (unfold usage_s2k; destruct x; lia). rewrite U.
  replace (u =? 0) with false by (destruct x; lia). replace (u =? 253) with (match x with Some _ => true | None => false end) by (destruct x; lia).
  cbn [negb andb]. cbv iota. unfold opt_run, sec_iv.
  assert (s2k_iv s = true) as I by (destruct s; try contradiction; reflexivity). rewrite I in Hiv.
  assert (sym_ivlen c < 2 ^ 62)%Z as L.
  { rewrite cipher_iv_eq. unfold cipher_iv_octets. destruct (b2n c <=? 6), (b2n c <=? 13); lia. }
  destruct x as [y|]; cbn [option_list app]; cbv iota;
    repeat (step; cbv iota);
    (eapply cuts_bind; [apply cuts_s2k; assumption | exact (runs_s2k o s Hs)|]); rewrite I; step; cbv iota; cbn [andb];
    do 2 step; apply cuts_first, cuts_bytes; [rewrite lenZ_lenN, Hiv; apply cipher_iv_eq | exact L |
                                              rewrite lenZ_lenN, Hiv; apply cipher_iv_eq | exact L ].
Qed.

Lemma cuts_tag05_enc o E v t days a l u c x s iv :
  old_version v -> t < 2 ^ 32 -> days < 65536 -> material pub_layout a l -> b2n a <> 18 ->
  (match x with Some _ => b2n u = 253 | None => b2n u = 254 \/ b2n u = 255 end) -> s2k_wf s ->
  match s with S2Gnu _ | S2Card _ => False | _ => True end ->
  lenN iv = (if s2k_iv s then cipher_iv_octets (b2n c) else 0) ->
  cuts (tag05 o E) (v :: encs (key_fields (b2n v) t days a l) ++ u :: protection_octets c x s iv).
Proof.
  intros Hv Ht Hd Hl Ha Hu Hs NG Hiv. unfold tag05. do 2 step.
  eapply cuts_bind; [|apply runs_pub4; assumption|].
  - apply cuts_pub4; assumption.
  - cbv beta. apply cuts_first, cuts_child. unfold sec_parse. step. cbv zeta. unfold getField1.
    rewrite (old_not5 v Hv). cbv iota. step. cbv iota. apply cuts_first, cuts_secopts; try assumption; apply old_not5, Hv.
Qed.

Lemma cuts_tag05_plain o E v t days a l sec chk :
  old_version v -> t < 2 ^ 32 -> days < 65536 -> material pub_layout a l -> b2n a <> 18 -> material sec_layout a sec -> length chk = 2%nat ->
  cuts (tag05 o E) (v :: encs (key_fields (b2n v) t days a l) ++ x00 :: encs sec ++ chk).
Proof.
  intros Hv Ht Hd Hl Ha Hs Hc. unfold tag05. do 2 step.
  eapply cuts_bind; [|apply runs_pub4; assumption|].
  - apply cuts_pub4; assumption.
  - cbv beta. apply cuts_first, cuts_child. unfold sec_parse. step. change (b2n x00) with 0. cbv zeta.
    unfold getField1, getField2. rewrite (old_not5 v Hv). cbv iota. step. cbv iota.
    unfold sec_opts. rewrite (old_not5 v Hv). cbn [N.eqb negb andb]. do 10 step.
    cbv iota. unfold sec_material. rewrite (old_not5 v Hv). cbv iota. cbn [N.eqb].
    unfold setNote. step. unfold opt_run. do 2 step.
    eapply cuts_bind; [apply (cuts_parseSec o E); assumption | exact (runs_parseSec o E a sec Hs)|]. do 2 step.
    apply cuts_first, cuts_bytes; [apply lenZ_2, Hc | reflexivity].
Qed.

Lemma usage_note_eq u : usage_note (b2n u) = protection_note (b2n u).
Proof.
  apply beqs_spec. revert u. apply (byte_all (fun u => beqs (usage_note (b2n u)) (protection_note (b2n u)))). vm_compute. reflexivity.
Qed.

(** ** Algorithms without a layout *)
(** [m] looks at all that is left without consuming it. *)
Definition peeks {A} (m : M A) (a : A) (f : bytes -> item -> item) : Prop :=
  forall B rest cs it, suf B rest -> m (sat B rest cs it) = (ROk a, sat B rest cs (f rest it)).
Lemma ends_peeks {A B} (m : M A) (k : A -> M B) extra a f b ec ei : peeks m a f -> ends (k a) [] extra b ec ei ->
  ends (bind m k) [] extra b ec (fun i => ei (f extra i)).
Proof. intros P F Bf cs it H. cbn [app] in *. erewrite bind_ok by (apply P; exact H). apply F. exact H. Qed.

Lemma peeks_sized o (label : bytes) :
  peeks (let* size := rdRest in addSized o size label) tt
        (fun d i => adds [Item label [] (dump_if (oDebug o) d) (bytes_note (lenN d)) []] i).
Proof.
  intros B rest cs it H. erewrite bind_ok by (apply rdRest_at, H). unfold addSized.
  erewrite bind_ok by (apply dumpRest_at, H). rewrite add_at, dump_bytes_if, n_bytes_note, add_child_adds. reflexivity.
Qed.
Lemma with_pub_label pre a : with_pub pre a = pre ++ str " (pub " ++ dec (b2n a) ++ str ")".
Proof. reflexivity. Qed.

Lemma peeks_ext {A} (m m' : M A) a f f' : peeks m a f -> (forall s, m s = m' s) -> (forall d i, f d i = f' d i) -> peeks m' a f'.
Proof. intros P E F B rest cs it H. rewrite <- E, <- F. apply P. exact H. Qed.

Lemma peeks_parsePub o a : pub_layout (b2n a) = None ->
  peeks (parsePub o a) tt (fun d => adds [unknown_fields (oDebug o) (unknown_alg (b2n a)) d]).
Proof.
  intro L. eapply peeks_ext; [apply (peeks_sized o (with_pub (str "Multi-precision integers of Unknown") a)) | |].
  - intro s. unfold parsePub. revert L. destruct a; intro L; try discriminate L; reflexivity.
  - reflexivity.
Qed.
Lemma peeks_parseSes o a : ses_layout (b2n a) = None ->
  peeks (parseSes o a) tt (fun d => adds [unknown_fields (oDebug o) (ses_label (b2n a)) d]).
Proof.
  intro L.
  eapply peeks_ext; [apply (peeks_sized o (str "Multi-precision integers of " ++ ses_label (b2n a))) | |].
  - intro s. unfold parseSes. revert L. destruct a; intro L; try discriminate L; reflexivity.
  - reflexivity.
Qed.
Lemma peeks_parseSig o a : sig_layout (b2n a) = None ->
  peeks (parseSig o a) tt (fun d => adds [unknown_fields (oDebug o) (sig_label (b2n a)) d]).
Proof.
  intro L.
  eapply peeks_ext; [apply (peeks_sized o (str "Multi-precision integers of " ++ sig_label (b2n a))) | |].
  - intro s. unfold parseSig. revert L. destruct a; intro L; try discriminate L; reflexivity.
  - reflexivity.
Qed.

Lemma ends_tag01_unknown o E v id a extra : length id = 8%nat -> ses_layout (b2n a) = None ->
  ends (tag01 o) (v :: id ++ [a]) extra tt (with_mode ModePubEnc)
       (adds (shows o E [FVersion KPubSession v; FKeyID id; FPub a]
              ++ unknown_fields (oDebug o) (ses_label (b2n a)) extra :: surplus "Unknown data" (oDebug o) extra)).
Proof.
  intros Hid La. unfold tag01. eapply ends_ext0.
  - do 3 step. step; [apply lenZ_8, Hid|]. do 3 step. eapply ends_peeks; [apply peeks_parseSes, La|]. step.
  - reflexivity.
  - intro i. rewrite (show_version o E KPubSession v) by tauto. rewrite (show_keyid o E) by assumption. fin_items.
Qed.
Lemma ends_tag06_unknown o E t a extra : t < 2 ^ 32 -> pub_layout (b2n a) = None ->
  ends (tag06 o E) (x04 :: be_enc 4 t ++ [a]) extra tt (with_key (key_time o t))
       (adds (shows o E [FVersion KPublicKey x04; FTime "Public key creation time" t; FPub a]
              ++ unknown_fields (oDebug o) (unknown_alg (b2n a)) extra :: surplus "Unknown data" (oDebug o) extra)).
Proof.
  intros Ht La. unfold tag06, pub_parse. eapply ends_ext0.
  - do 2 step. ver_if. unfold pubV4. step. eapply ends_bind; [apply (runs_keyTime o E); exact Ht|]. cbv beta.
    step. eapply ends_bind0; [apply (runs_keyAlg o E)|]. cbv beta. step.
    eapply ends_peeks; [apply peeks_parsePub, La|]. do 2 step.
  - reflexivity.
  - intro i. rewrite (show_version o E KPublicKey x04) by tauto. fin_items.
Qed.
