(** * ShownL: the parser on the parts of packets that SpecShown.v describes. *)
From Coq Require Import Strings.String Strings.Byte List NArith ZArith Bool Lia ZifyBool ZifyN ZifyNat.
From Verif Require Import Base BaseL SpecBase Item Reader ReaderL SpecReader Context Env Values Monad MonadL Pubkey S2k Subs Tags.
From Verif Require Import SpecValues SpecPacket ReadsL PacketL TagL SpecSecret SecretL SpecShown.
From Verif Require RedactL.
Import ListNotations.
Local Open Scope N_scope.

(** ** Algorithm-specific fields *)
Lemma leaves_ecparm_nil (k : bytes -> item) : leaves (let* ep := newECParm in add (k ep)) [] [] tt same (adds [k []]).
Proof.
  intros B cs it S. split; [exact S|]. erewrite bind_ok by (apply RedactL.newECParm_nil, S). rewrite add_at. rewrite add_child_adds. reflexivity.
Qed.
Lemma last_slot (s : list slot) x l : l = s ++ [x] -> s = removelast l /\ Some x = hd_error (rev l).
Proof. intros ->. rewrite removelast_last, rev_app_distr. auto. Qed.

Lemma leaves_parsePub o E a d fs rest : fields_read o E pub_layout unknown_alg a d fs rest -> leaves (parsePub o a) d rest tt same (adds fs).
Proof.
  intros [l rest' M | s x l L X F | d' U].
  - apply leaves_runs, runs_parsePub, M.
  - unfold parsePub. intros B cs it S. erewrite bind_ok by (apply rdRest_at, S). revert B cs it S.
    change (leaves (if isRSA a then rsaPub o else if isDSA a then dsaPub o else if isElgamal a then elgPub o else if isECDH a then ecdhPub o
      else if isECDSA a then ecdsaPub o else if isEdDSA a then eddsaPub o else addSized o (lenZ (encs l)) (with_pub (str "Multi-precision integers of Unknown") a))
      (encs l) [] tt same (adds (shows o E (l ++ [lacking x])))).
    destruct a; try discriminate L; injection L as L; apply last_slot in L as [-> X2]; cbn in X2; injection X2 as ->; cbn [may_lack] in X; try contradiction.
    cbn [removelast] in F. forall2_inv.
    match goal with |- leaves (if ?c then _ else _) _ _ _ _ _ => let v := eval vm_compute in c in change c with v; cbv iota end.
    match goal with |- leaves (if ?c then _ else _) _ _ _ _ _ => let v := eval vm_compute in c in change c with v; cbv iota end.
    match goal with |- leaves (if ?c then _ else _) _ _ _ _ _ => let v := eval vm_compute in c in change c with v; cbv iota end.
    match goal with |- leaves (if ?c then _ else _) _ _ _ _ _ => let v := eval vm_compute in c in change c with v; cbv iota end.
    unfold ecdhPub, encs. cbn [flat_map]. eapply leaves_ext.
    + eapply leaves_first; [run_one|]. cbv beta. eapply leaves_first; [run_one|]. cbv beta. apply leaves_ecparm_nil.
    + reflexivity.
    + intro i. fin_items.
  - exact (leaves_peeks _ _ _ _ (peeks_parsePub o a U)).
Qed.
Lemma leaves_parseSes o E a d fs rest : fields_read o E ses_layout ses_label a d fs rest -> leaves (parseSes o a) d rest tt same (adds fs).
Proof.
  intros [l rest' M | s x l L X F | d' U].
  - apply leaves_runs, runs_parseSes, M.
  - assert (a = x12) as ->.
    { destruct a; try discriminate L; try reflexivity; injection L as L; apply last_slot in L as [-> X2]; cbn in X2; injection X2 as ->; cbn [may_lack] in X; contradiction. }
    injection L as L. apply last_slot in L as [-> X2]. cbn in X2. injection X2 as ->. cbn [removelast] in F. forall2_inv.
    unfold parseSes. intros B cs it S. erewrite bind_ok by (apply rdRest_at, S). revert B cs it S.
    change (leaves (addPoint o (str "ECDH") ;; let* ep := newECParm in add (ecparm_item (str "symmetric key (encoded)") ep (oInteger o)))
      (encs [FPoint "ECDH" bits data]) [] tt same (adds (shows o E ([FPoint "ECDH" bits data] ++ [lacking (SParm "symmetric key (encoded)")])))).
    unfold encs. cbn [flat_map]. eapply leaves_ext.
    + eapply leaves_first; [run_one|]. cbv beta. apply leaves_ecparm_nil.
    + reflexivity.
    + intro i. fin_items.
  - exact (leaves_peeks _ _ _ _ (peeks_parseSes o a U)).
Qed.
Lemma leaves_parseSig o E a d fs rest : fields_read o E sig_layout sig_label a d fs rest -> leaves (parseSig o a) d rest tt same (adds fs).
Proof.
  intros [l rest' M | s x l L X F | d' U].
  - apply leaves_runs, runs_parseSig, M.
  - exfalso. destruct a; try discriminate L; injection L as L; apply last_slot in L as [-> X2]; cbn in X2; injection X2 as ->; exact X.
  - exact (leaves_peeks _ _ _ _ (peeks_parseSig o a U)).
Qed.

(** ** Keys *)
Definition noted (o : opts) (t : option N) : cst -> cst := match t with Some x => with_key (key_time o x) | None => same end.
Lemma noted_eq o t cs : noted o t cs = key_noted o t cs.
Proof. destruct t; reflexivity. Qed.
Lemma v_is v n : b2n v = n -> forall b, b2n b = n -> v = b.
Proof. intros H b K. apply b2n_inj. lia. Qed.

Lemma leaves_public o E v d a t fs rest : public_reads o E v d a t fs rest -> leaves (pub_parse o E (PubVer v)) d rest a (noted o t) (adds fs).
Proof.
  intros [t' days a' d' fs' rest' V T D F | t' a' d' fs' rest' V T F | t' a' d' fs' inside rest' V T L F | d' V].
  - rewrite (v_is _ _ V x03 eq_refl). unfold pub_parse. ver_if. unfold pubV3. eapply leaves_ext.
    + eapply leaves_first; [apply (runs_keyTime o E); exact T|]. cbv beta.
      eapply leaves_first; [apply runs_bytes, len2|]. cbv beta. eapply leaves_none; [apply runs_add|]. cbv beta.
      change (a' :: d') with ([a'] ++ d'). eapply leaves_first; [apply (runs_keyAlg o E)|]. cbv beta.
      eapply leaves_bind; [apply (leaves_parsePub o E), F|]. apply leaves_ret.
    + reflexivity.
    + intro i. rewrite be2 by assumption. fin_items.
  - rewrite (v_is _ _ V x04 eq_refl). unfold pub_parse. ver_if. unfold pubV4. eapply leaves_ext.
    + eapply leaves_first; [apply (runs_keyTime o E); exact T|]. cbv beta.
      change (a' :: d') with ([a'] ++ d'). eapply leaves_first; [apply (runs_keyAlg o E)|]. cbv beta.
      eapply leaves_bind; [apply (leaves_parsePub o E), F|]. apply leaves_ret.
    + reflexivity.
    + intro i. fin_items.
  - rewrite (v_is _ _ V x05 eq_refl). unfold pub_parse. ver_if. unfold pubV5. eapply leaves_ext.
    + eapply leaves_first; [apply (runs_keyTime o E); exact T|]. cbv beta.
      change (a' :: ?x) with ([a'] ++ x). eapply leaves_first; [apply (runs_keyAlg o E)|]. cbv beta.
      eapply leaves_first; [apply runs_bytes, len4|]. cbv beta. rewrite be4 by assumption.
      eapply leaves_first; [apply runs_bytes; rewrite lenZ_lenN; reflexivity|]. cbv beta. rewrite at_new.
      eapply leaves_none; [apply (runs_own _ d'); [apply (leaves_parsePub o E), F | apply suf_refl; rewrite lenZ_lenN; lia]|]. cbv beta. apply leaves_ret.
    + reflexivity.
    + intro i. fin_items.
  - eapply leaves_ext; [apply leaves_pub_other, V | reflexivity | reflexivity].
Qed.

(** ** Specifiers and the optional fields *)
Lemma leaves_specifier o d iv s rest : specifier_reads o d iv s rest -> leaves (s2k_parse (oDebug o)) d rest iv same (adds [s]).
Proof.
  intros [k rest' W | rest2 H].
  - apply leaves_runs, runs_s2k, W.
  - unfold s2k_parse. apply leaves_byte. apply (leaves_ext _ _ _ _ same same (adds [s2k_item (n2b 101) (oDebug o)])); [|reflexivity | intro i; rewrite s2k_shown_eq; reflexivity].
    apply (leaves_child _ _ _ _ _ same same). intros B cs it S. split; [exact S|]. unfold s2k_fields. change (b2n (n2b 101)) with 101. cbn [N.eqb Pos.eqb orb].
    erewrite bind_ok by (apply rdRest_at, S). pose proof (suf_len _ _ S) as [G1 G2].
    replace (lenZ rest2 <? 4)%Z with (lenN rest2 <? 4) by (unfold lenN, lenZ; lia). destruct (lenN rest2 <? 4) eqn:L4; [reflexivity|].
    destruct (FramingL.split_at 3 rest2) as (d' & t & E & LB); [unfold lenN in L4; lia|].
    assert (firstn 3 rest2 = d') as FD by (rewrite E, <- LB, firstn_app, Nat.sub_diag, firstn_all; cbn; apply app_nil_r). rewrite FD in H.
    destruct H as [H|H]; [lia|]. subst rest2. erewrite bind_ok by (apply (rdBytes_at B d' t); [exact S | unfold lenZ; lia]).
    replace (beqs d' (str "GNU")) with false by (symmetry; apply not_true_iff_false; intro K; apply beqs_spec in K; auto).
    rewrite lenZ_app in G1. pose proof (lenZ_nonneg t).
    unfold bind, rdSeek, on_rd, sat, r_seek, r_size. cbn [s_rd s_cs s_cur r_buf r_off at_]. change (1 =? 0)%Z with false. change (1 =? 1)%Z with true. cbv iota beta zeta.
    unfold at_. cbn [r_buf r_off]. rewrite wrap64_small by (unfold lenZ in *; lia).
    match goal with |- context [if ?c then _ else _] => replace c with false by (unfold lenZ in *; lia) end.
    unfold ret, same. f_equal. f_equal. unfold lenZ in *. rewrite app_length. f_equal. lia.
Qed.

Lemma leaves_opt_none {A} (m : M A) d x a ec ei : leaves m d x a ec ei -> leaves (opt_run None m) d x (a, None) ec ei.
Proof.
  intro F. unfold opt_run. eapply leaves_ext; [eapply leaves_bind; [exact F|]; apply leaves_ret | reflexivity | reflexivity].
Qed.
Lemma usage_eqs u : (usage_s2k (b2n u) = (253 <=? b2n u)).
Proof. unfold usage_s2k. pose proof (b2n_lt u). lia. Qed.
(** The IV, from the reader of the packet. *)
Lemma leaves_iv o E u c iv w rest : b2n u <> 0 \/ iv = false -> lenN w = (if iv then cipher_iv_octets (b2n c) else 0) ->
  leaves (if negb (b2n u =? 0) && iv then (let* i := sec_iv c (b2n u =? 253) in add i) else ret tt) (w ++ rest) rest tt same (adds (iv_lines o E u iv w)).
Proof.
  intros U L. unfold iv_lines. destruct iv.
  - destruct U as [U|U]; [|discriminate]. replace (b2n u =? 0) with false by lia. cbn [negb andb]. eapply leaves_ext.
    + eapply leaves_first; [apply (sec_iv_runs (b2n u =? 253) true c w L)|]. cbv beta. apply (leaves_runs _ []). apply runs_add.
    + reflexivity.
    + intro i. destruct (b2n u =? 253); rewrite (show_dumped o E); reflexivity.
  - rewrite andb_false_r. apply lenN_0 in L. subst w. eapply leaves_ext; [apply leaves_ret | reflexivity | intro i; symmetry; apply adds_nil].
Qed.

Lemma leaves_opts_old o E v u d c iv is w ct : b2n v <> 5 -> b2n u <> 0 -> optional_reads o E u d c iv is (w ++ ct) ->
  lenN w = (if iv then cipher_iv_octets (b2n c) else 0) ->
  leaves (sec_opts o (PubVer v) (b2n u) None) d ct tt same (adds (is ++ iv_lines o E u iv w)).
Proof.
  intros V U O L. unfold sec_opts. change (v_num (PubVer v)) with (b2n v). replace (b2n v =? 5) with false by lia. rewrite usage_eqs.
  pose proof (fun rest => leaves_iv o E u c iv w rest (or_introl U) L) as IV. remember (w ++ ct) as r eqn:R.
  destruct O as [d' U0 | c' d' U1 | c' x d' iv' s rest U1 SP | c' d' iv' s rest U1 SP]; [lia|..]; subst.
  - replace (b2n u =? 0) with false in * by lia. replace (b2n u =? 253) with false in * by lia. replace (253 <=? b2n u) with false by lia. cbn [negb] in *. eapply leaves_ext.
    + eapply leaves_bind; [apply leaves_opt_none, leaves_sym|]. cbv beta iota. eapply leaves_none; [apply runs_ret|]. cbv beta iota.
      eapply leaves_none; [apply runs_ret|]. cbv beta iota. eapply leaves_bind; [apply IV|]. cbv beta iota. apply leaves_ret.
    + reflexivity.
    + intro i. fin_items.
  - replace (b2n u =? 0) with false in * by lia. replace (b2n u =? 253) with true in * by lia. replace (253 <=? b2n u) with true by lia. cbn [negb] in *. eapply leaves_ext.
    + eapply leaves_bind; [apply leaves_opt_none, leaves_sym|]. cbv beta iota. eapply leaves_bind; [apply leaves_opt_none, leaves_aead|]. cbv beta iota.
      eapply leaves_bind; [apply leaves_opt_none, (leaves_specifier o), SP|]. cbv beta iota. eapply leaves_bind; [apply IV|]. cbv beta iota. apply leaves_ret.
    + reflexivity.
    + intro i. fin_items.
  - replace (b2n u =? 0) with false in * by lia. replace (b2n u =? 253) with false in * by lia. replace (253 <=? b2n u) with true by lia. cbn [negb] in *. eapply leaves_ext.
    + eapply leaves_bind; [apply leaves_opt_none, leaves_sym|]. cbv beta iota. eapply leaves_none; [apply runs_ret|]. cbv beta iota.
      eapply leaves_bind; [apply leaves_opt_none, (leaves_specifier o), SP|]. cbv beta iota. eapply leaves_bind; [apply IV|]. cbv beta iota. apply leaves_ret.
    + reflexivity.
    + intro i. fin_items.
Qed.

Lemma leaves_suf {A} (m : M A) d x a ec ei B : leaves m d x a ec ei -> suf B d -> suf B x.
Proof. intros F S. exact (proj1 (F B cst_init (Item [] [] [] [] []) S)). Qed.

Lemma leaves_opts_five o E u opt c iv is inside w rest : optional_reads o E u opt c iv is inside ->
  lenN w = (if iv then cipher_iv_octets (b2n c) else 0) -> suf opt opt ->
  leaves (sec_opts o (PubVer x05) (b2n u) (Some (at_ opt opt))) (w ++ rest) rest tt same
    (adds (is ++ iv_lines o E u iv w ++ surplus "Unknown data" (oDebug o) inside)).
Proof.
  intros O L SF. unfold sec_opts. change (v_num (PubVer x05) =? 5) with true. cbv iota. rewrite usage_eqs.
  assert (b2n u <> 0 \/ iv = false) as UV by (destruct O; auto; left; lia).
  pose proof (fun rest => leaves_iv o E u c iv w rest UV L) as IV. clear UV.
  set (B := opt) in SF at 1. change (at_ opt opt) with (at_ B opt). clearbody B.
  destruct O as [d' U0 | c' d' U1 | c' x d' iv' s rest' U1 SP | c' d' iv' s rest' U1 SP].
  - replace (b2n u =? 0) with true in * by lia. replace (b2n u =? 253) with false in * by lia. cbn [negb andb] in *. eapply leaves_ext.
    + eapply leaves_none; [apply runs_ret|]. cbv beta iota. eapply leaves_none; [apply runs_ret|]. cbv beta iota. eapply leaves_none; [apply runs_ret|]. cbv beta iota.
      eapply leaves_bind; [apply IV|]. cbv beta iota. eapply leaves_none; [apply (runs_opt_own _ B); [apply leaves_rest | exact SF]|]. cbv beta. apply leaves_ret.
    + reflexivity.
    + intro i. fin_items.
  - replace (b2n u =? 0) with false in * by lia. replace (b2n u =? 253) with false in * by lia. replace (253 <=? b2n u) with false by lia. cbn [negb] in *. eapply leaves_ext.
    + eapply leaves_none; [apply (runs_opt_own _ B); [apply leaves_sym | exact SF]|]. cbv beta iota. eapply leaves_none; [apply runs_ret|]. cbv beta iota.
      eapply leaves_none; [apply runs_ret|]. cbv beta iota. eapply leaves_bind; [apply IV|]. cbv beta iota.
      eapply leaves_none; [apply (runs_opt_own _ B); [apply leaves_rest | exact (suf_cons _ _ _ SF)]|]. cbv beta. apply leaves_ret.
    + reflexivity.
    + intro i. fin_items.
  - replace (b2n u =? 0) with false in * by lia. replace (b2n u =? 253) with true in * by lia. replace (253 <=? b2n u) with true by lia. cbn [negb] in *.
    pose proof (suf_cons _ _ _ SF) as SF1. pose proof (suf_cons _ _ _ SF1) as SF2. pose proof (leaves_suf _ _ _ _ _ _ _ (leaves_specifier o _ _ _ _ SP) SF2) as SF3. eapply leaves_ext.
    + eapply leaves_none; [apply (runs_opt_own _ B); [apply leaves_sym | exact SF]|]. cbv beta iota.
      eapply leaves_none; [apply (runs_opt_own _ B); [apply leaves_aead | exact SF1]|]. cbv beta iota.
      eapply leaves_none; [apply (runs_opt_own _ B); [apply (leaves_specifier o), SP | exact SF2]|]. cbv beta iota. eapply leaves_bind; [apply IV|]. cbv beta iota.
      eapply leaves_none; [apply (runs_opt_own _ B); [apply leaves_rest | exact SF3]|]. cbv beta. apply leaves_ret.
    + reflexivity.
    + intro i. fin_items.
  - replace (b2n u =? 0) with false in * by lia. replace (b2n u =? 253) with false in * by lia. replace (253 <=? b2n u) with true by lia. cbn [negb] in *.
    pose proof (suf_cons _ _ _ SF) as SF1. pose proof (leaves_suf _ _ _ _ _ _ _ (leaves_specifier o _ _ _ _ SP) SF1) as SF3. eapply leaves_ext.
    + eapply leaves_none; [apply (runs_opt_own _ B); [apply leaves_sym | exact SF]|]. cbv beta iota. eapply leaves_none; [apply runs_ret|]. cbv beta iota.
      eapply leaves_none; [apply (runs_opt_own _ B); [apply (leaves_specifier o), SP | exact SF1]|]. cbv beta iota. eapply leaves_bind; [apply IV|]. cbv beta iota.
      eapply leaves_none; [apply (runs_opt_own _ B); [apply leaves_rest | exact SF3]|]. cbv beta. apply leaves_ret.
    + reflexivity.
    + intro i. fin_items.
Qed.

(** ** The secret part *)
Lemma leaves_numbers o E a d is rest : numbers_read o E a d is rest -> leaves (parseSecPlain o a) d rest tt same (adds is).
Proof.
  intros [l rest' M | d' x y U]; [apply leaves_runs, runs_parseSec, M|]. apply leaves_unknownSec; [exact U | reflexivity].
Qed.
Lemma leaves_secret o E v a d note is rest : secret_reads o E v a d note is rest ->
  leaves (sec_parse o (PubVer v) a) d rest tt same (fun i => adds is (match note with [] => i | _ => w_note note i end)).
Proof.
  intros [d' is' chk rest' V N C | u d' c iv is' w ct V U O L | u d1 d2 is1 is2 note' rest' V O N]; clear d is rest.
  - assert ((v_num (PubVer v) =? 5) = false) as NV by (change (v_num (PubVer v)) with (b2n v); lia).
    apply sec_old; [exact NV|]. change (b2n x00) with 0. eapply leaves_ext.
    + eapply leaves_bind; [apply sec_opts_plain, NV|]. cbv beta.
      exact (sec_material_plain o E v a NV d' (chk ++ rest') is' (leaves_numbers o E a d' is' _ N) chk rest' eq_refl C).
    + reflexivity.
    + reflexivity.
  - assert ((v_num (PubVer v) =? 5) = false) as NV by (change (v_num (PubVer v)) with (b2n v); lia).
    apply sec_old; [exact NV|]. eapply leaves_ext.
    + eapply leaves_bind; [exact (leaves_opts_old o E v u d' c iv is' w ct V U O L)|]. cbv beta. apply sec_material_enc; [exact NV | exact U].
    + reflexivity.
    + intro i. cbv beta. rewrite usage_note_eq. unfold protection_note.
      assert (forall n k l x, adds [x] (w_note n (adds l k)) = adds (l ++ [x]) (w_note n k)) as K by (intros; destruct k; cbn; rewrite <- app_assoc; reflexivity).
      rewrite K, <- app_assoc. destruct (b2n u) as [|p]; [congruence|]. repeat (destruct p as [p|p|]; try reflexivity).
  - assert (v = x05) as -> by (apply b2n_inj; exact V).
    assert (options_five o (b2n u) d1 d2 is1) as F1.
    { destruct O as [r | q c iv is inside w r L O LW]; [apply five_none|]. apply leaves_field1; [exact L|].
      eapply leaves_opts_five; [exact O | exact LW | apply suf_refl; rewrite lenZ_lenN; lia]. }
    destruct N as [r | q is inside chk r U L N C | q r U L].
    + eapply leaves_ext; [eapply secret_five; [exact F1 | apply material_none] | reflexivity | intro i; rewrite app_nil_r; reflexivity].
    + rewrite U in *. assert (forall B, suf B q -> suf B inside) as SX by (intros B SB; exact (leaves_suf _ _ _ _ _ _ _ (leaves_numbers o E a q is _ N) SB)).
      eapply leaves_ext; [eapply secret_five; [rewrite U; exact F1 | rewrite U; exact (material_five_plain o E a q inside is chk r (leaves_numbers o E a q is _ N) L C SX)] | reflexivity|].
      intro i. destruct i. cbn. rewrite <- !app_assoc. reflexivity.
    + eapply leaves_ext; [eapply secret_five; [exact F1 | apply (material_five_enc o a (b2n u) q r U L)] | reflexivity|].
      intro i. cbv beta. rewrite usage_note_eq.
      assert (forall n k l x, adds [x] (w_note n (adds l k)) = adds (l ++ [x]) (w_note n k)) as K by (intros; destruct k; cbn; rewrite <- app_assoc; reflexivity).
      rewrite K. unfold protection_note. destruct (b2n u) as [|p]; [congruence|]. repeat (destruct p as [p|p|]; try reflexivity).
Qed.
