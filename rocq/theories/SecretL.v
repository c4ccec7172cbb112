(** * SecretL: the secret part of a key packet, for every version, usage octet and algorithm. *)
From Coq Require Import Strings.String Strings.Byte List NArith ZArith Bool Lia ZifyBool ZifyN ZifyNat.
From Verif Require Import Base BaseL SpecBase Item Reader ReaderL SpecReader Context Env Values Monad MonadL Pubkey S2k Subs Tags.
From Verif Require Import SpecValues SpecPacket ReadsL PacketL TagL SpecSecret.
Import ListNotations.
Local Open Scope N_scope.

(** [m] in front of the octets [d] succeeds and stops in front of [extra]. *)
Definition leaves {A} (m : M A) (d extra : bytes) (a : A) (ec : cst -> cst) (ei : item -> item) : Prop :=
  forall B cs it, suf B d -> suf B extra /\ m (sat B d cs it) = (ROk a, sat B extra (ec cs) (ei it)).
Lemma leaves_runs {A} (m : M A) d extra a ec ei : runs m d a ec ei -> leaves m (d ++ extra) extra a ec ei.
Proof. intros F B cs it H. split; [eapply suf_app; exact H | apply F, H]. Qed.
Lemma leaves_drains {A} (m : M A) d a ec ei : drains m d a ec ei -> leaves m d [] a ec ei.
Proof.
  intros F B cs it H. split; [|apply F, H]. rewrite <- (app_nil_r d) in H. eapply suf_app. exact H.
Qed.
Lemma leaves_bind {A B} (m : M A) (f : A -> M B) d e x a b ec1 ec2 ei1 ei2 :
  leaves m d e a ec1 ei1 -> leaves (f a) e x b ec2 ei2 -> leaves (bind m f) d x b (fun c => ec2 (ec1 c)) (fun i => ei2 (ei1 i)).
Proof.
  intros F1 F2 Bf cs it H. destruct (F1 Bf cs it H) as [S R]. destruct (F2 Bf (ec1 cs) (ei1 it) S) as [S2 R2].
  split; [exact S2|]. erewrite bind_ok by exact R. exact R2.
Qed.
Lemma leaves_first {A B} (m : M A) (f : A -> M B) d e x a b ec1 ec2 ei1 ei2 :
  runs m d a ec1 ei1 -> leaves (f a) e x b ec2 ei2 -> leaves (bind m f) (d ++ e) x b (fun c => ec2 (ec1 c)) (fun i => ei2 (ei1 i)).
Proof. intros F1 F2. eapply leaves_bind; [apply leaves_runs; exact F1 | exact F2]. Qed.
Lemma leaves_none {A B} (m : M A) (f : A -> M B) d x a b ec1 ec2 ei1 ei2 :
  runs m [] a ec1 ei1 -> leaves (f a) d x b ec2 ei2 -> leaves (bind m f) d x b (fun c => ec2 (ec1 c)) (fun i => ei2 (ei1 i)).
Proof. intros F1 F2. exact (leaves_first m f [] d x a b ec1 ec2 ei1 ei2 F1 F2). Qed.
Lemma leaves_byte {A} (f : byte -> M A) b d x a ec ei : leaves (f b) d x a ec ei -> leaves (bind rdByte f) (b :: d) x a ec ei.
Proof. intro F. exact (leaves_first rdByte f [b] d x b a same ec same ei (runs_byte b) F). Qed.
Lemma leaves_ret {A} (a : A) d : leaves (ret a) d d a same same.
Proof. intros B cs it H. split; [exact H | reflexivity]. Qed.
Lemma leaves_child {A} it0 (m : M A) d x a ec ei : leaves m d x a ec ei -> leaves (child it0 m) d x a ec (adds [ei it0]).
Proof.
  intros F B cs it H. destruct (F B cs it0 H) as [S R]. split; [exact S|]. unfold child.
  change (mkSt (s_rd (sat B d cs it)) (s_cs (sat B d cs it)) it0) with (sat B d cs it0).
  rewrite R. cbn [sat s_rd s_cs s_cur]. rewrite add_child_adds. reflexivity.
Qed.
Lemma leaves_ext {A} (m : M A) d x a ec ec' ei ei' :
  leaves m d x a ec ei -> (forall c, ec c = ec' c) -> (forall i, ei i = ei' i) -> leaves m d x a ec' ei'.
Proof. intros F Ec Ei B cs it H. rewrite <- Ec, <- Ei. apply F. assumption. Qed.
Lemma leaves_peeks {A} (m : M A) a f d : peeks m a f -> leaves m d d a same (f d).
Proof. intros P B cs it H. split; [exact H | apply P, H]. Qed.
Lemma leaves_rest n f d : leaves (addRest n f) d d tt same (adds (opt_list (rest_item n f d))).
Proof. intros B cs it H. split; [exact H|]. rewrite addRest_at by assumption. rewrite add_opt_adds. reflexivity. Qed.

(** The same on a reader of one's own. *)
Lemma runs_own {A} (m : M A) C d x a ec ei : leaves m d x a ec ei -> suf C d -> runs (with_rd (at_ C d) m) [] (a, at_ C x) ec ei.
Proof.
  intros F S B rest cs it H. unfold with_rd.
  change (mkSt (at_ C d) (s_cs (sat B ([] ++ rest) cs it)) (s_cur (sat B ([] ++ rest) cs it))) with (sat C d cs it).
  destruct (F C cs it S) as [_ ->]. reflexivity.
Qed.
Lemma runs_opt_own {A} (m : M A) C d x a ec ei : leaves m d x a ec ei -> suf C d ->
  runs (opt_run (Some (at_ C d)) m) [] (a, Some (at_ C x)) ec ei.
Proof.
  intros F S. unfold opt_run. eapply runs_ext0.
  - eapply runs_bind0; [apply (runs_own m C d x a ec ei F S)|]. cbv beta. cbn [fst snd]. apply runs_ret.
  - reflexivity.
  - reflexivity.
Qed.

Lemma runs_none {A B} (m : M A) (f : A -> M B) d a b ec1 ec2 ei1 ei2 :
  runs m [] a ec1 ei1 -> runs (f a) d b ec2 ei2 -> runs (bind m f) d b (fun c => ec2 (ec1 c)) (fun i => ei2 (ei1 i)).
Proof. intros F1 F2. exact (runs_bind m f [] d a b ec1 ec2 ei1 ei2 F1 F2). Qed.

(** ** The whole packet *)
Lemma leaves_tag05 o E v hd d x a ec P ei :
  leaves (pub_parse o E (PubVer v)) hd d a ec (adds P) -> leaves (sec_parse o (PubVer v) a) d x tt same ei ->
  ends (tag05 o E) (v :: hd) [] tt ec
    (adds (show o E (FVersion KPublicKey v) :: public_shown P :: ei (secret_shown [] []) :: surplus "Unknown data" (oDebug o) x)).
Proof.
  intros Fp Fs B cs it H. rewrite app_nil_r in *.
  assert (leaves (tag05 o E) (v :: hd) x tt ec
    (adds (show o E (FVersion KPublicKey v) :: public_shown P :: ei (secret_shown [] []) :: surplus "Unknown data" (oDebug o) x))) as F.
  { unfold tag05. eapply leaves_ext.
    - apply leaves_byte. cbv zeta. eapply leaves_none; [apply runs_add|]. cbv beta.
      eapply leaves_bind; [apply leaves_child; exact Fp|]. cbv beta.
      eapply leaves_bind; [apply leaves_child; exact Fs|]. cbv beta. apply leaves_rest.
    - reflexivity.
    - intro i. cbv beta. rewrite (shown_version o E). cbn [adds app]. fin_items. }
  destruct (F B cs it H) as [_ R]. eexists. split; [exact R | split; reflexivity].
Qed.
Lemma leaves_ends {A} (m : M A) d x a ec ei : leaves m d x a ec ei -> ends m d [] a ec ei.
Proof. intros F B cs it H. rewrite app_nil_r in *. destruct (F B cs it H) as [_ R]. eexists. split; [exact R | split; reflexivity]. Qed.

(** ** The public part *)
(** The numbers of a key are never long. *)
Lemma fills_small s f : fills s f -> lenN (enc f) < 9000.
Proof.
  destruct s, f; cbn [fills wf enc]; try contradiction; unfold mpi_octets, lenN, len1; rewrite ?app_length, ?be_enc_length; cbn [length]; lia.
Qed.
Lemma material_small a l : material pub_layout a l -> lenN (encs l) < 2 ^ 32.
Proof.
  intros (s & Q & F). assert (length s <= 4)%nat as LS by (revert Q; clear; destruct a; intro Q; try discriminate Q; injection Q as <-; cbn [length]; lia).
  assert (lenN (encs l) <= N.of_nat (length s) * 9000) as K.
  { clear LS Q. induction F as [|x f s l Hf _ IH]; [cbn; lia|]. unfold encs in *. cbn [flat_map length]. apply fills_small in Hf. unfold lenN in *. rewrite app_length. lia. }
  lia.
Qed.
Lemma leaves_pub o E v t days a l d : key_version v -> t < 2 ^ 32 -> days < 65536 -> material pub_layout a l ->
  leaves (pub_parse o E (PubVer v)) (public_part v t days a l ++ d) d a (with_key (key_time o t)) (adds (public_part_shown o E v t days a l)).
Proof.
  intros Hv Ht Hd Hl. pose proof (material_small a l Hl) as Hn. unfold public_part, public_part_shown. apply leaves_runs.
  destruct Hv as [-> | [-> | ->]]; unfold pub_parse; ver_if.
  - apply runs_pubV3; assumption.
  - apply runs_pubV4; assumption.
  - pose proof (runs_pubV5 o E t a l [] Ht Hl) as F. rewrite !app_nil_r in F. exact (F Hn).
Qed.
(** An algorithm without a layout: everything behind is taken to be its fields, and nothing of it is consumed. *)
Lemma leaves_pub_unknown o E t a d : t < 2 ^ 32 -> pub_layout (b2n a) = None ->
  leaves (pub_parse o E (PubVer x04)) (be_enc 4 t ++ a :: d) d a (with_key (key_time o t))
    (adds (shows o E [FTime "Public key creation time" t; FPub a] ++ [unknown_fields (oDebug o) (unknown_alg (b2n a)) d])).
Proof.
  intros Ht La. unfold pub_parse. ver_if. unfold pubV4. eapply leaves_ext.
  - eapply leaves_first; [apply (runs_keyTime o E); exact Ht|]. cbv beta.
    change (a :: d) with ([a] ++ d). eapply leaves_first; [apply (runs_keyAlg o E)|]. cbv beta.
    eapply leaves_bind; [apply leaves_peeks, peeks_parsePub, La|]. apply leaves_ret.
  - reflexivity.
  - intro i. fin_items.
Qed.
Lemma leaves_pub_unknown3 o E t days a d : t < 2 ^ 32 -> days < 65536 -> pub_layout (b2n a) = None ->
  leaves (pub_parse o E (PubVer x03)) (be_enc 4 t ++ be_enc 2 days ++ a :: d) d a (with_key (key_time o t))
    (adds (shows o E [FTime "Public key creation time" t; FDays days; FPub a] ++ [unknown_fields (oDebug o) (unknown_alg (b2n a)) d])).
Proof.
  intros Ht Hd La. unfold pub_parse. ver_if. unfold pubV3. eapply leaves_ext.
  - eapply leaves_first; [apply (runs_keyTime o E); exact Ht|]. cbv beta.
    eapply leaves_first; [apply runs_bytes, len2|]. cbv beta. eapply leaves_none; [apply runs_add|]. cbv beta.
    change (a :: d) with ([a] ++ d). eapply leaves_first; [apply (runs_keyAlg o E)|]. cbv beta.
    eapply leaves_bind; [apply leaves_peeks, peeks_parsePub, La|]. apply leaves_ret.
  - reflexivity.
  - intro i. rewrite be2 by assumption. fin_items.
Qed.
(** In version 5 the fields are counted. *)
Lemma leaves_pub_unknown5 o E t a m d : t < 2 ^ 32 -> lenN m < 2 ^ 32 -> pub_layout (b2n a) = None ->
  leaves (pub_parse o E (PubVer x05)) (be_enc 4 t ++ a :: be_enc 4 (lenN m) ++ m ++ d) d a (with_key (key_time o t))
    (adds (shows o E [FTime "Public key creation time" t; FPub a] ++ [unknown_fields (oDebug o) (unknown_alg (b2n a)) m])).
Proof.
  intros Ht Hm La. unfold pub_parse. ver_if. unfold pubV5. eapply leaves_ext.
  - eapply leaves_first; [apply (runs_keyTime o E); exact Ht|]. cbv beta.
    change (a :: ?x) with ([a] ++ x). eapply leaves_first; [apply (runs_keyAlg o E)|]. cbv beta.
    eapply leaves_first; [apply runs_bytes, len4|]. cbv beta. rewrite be4 by assumption.
    eapply leaves_first; [apply runs_bytes; rewrite lenZ_lenN; reflexivity|]. cbv beta. rewrite at_new.
    eapply leaves_none; [apply (runs_own _ m); [apply leaves_peeks, peeks_parsePub, La | apply suf_refl; rewrite lenZ_lenN; lia]|]. cbv beta. apply leaves_ret.
  - reflexivity.
  - intro i. fin_items.
Qed.
(** A version without a layout. *)
Lemma leaves_pub_other o E v d : ~ In (b2n v) [3; 4; 5] -> leaves (pub_parse o E (PubVer v)) d d x00 same (adds []).
Proof.
  intro H. rewrite pub_parse_other by assumption. eapply leaves_ext; [apply leaves_ret | reflexivity|]. intro i. symmetry. apply adds_nil.
Qed.

(** ** The optional fields *)
Lemma sec_iv_runs (x s : bool) c iv : lenN iv = cipher_iv_octets (b2n c) ->
  runs (sec_iv c x) iv (it_nd (if x then str "nonce for the AEAD" else str "IV") (dump_bytes iv true)) same same.
Proof.
  intro H. unfold sec_iv. eapply runs_ext0.
  - eapply runs_bind0; [apply runs_bytes; rewrite lenZ_lenN, H; apply cipher_iv_eq|]. cbv beta. apply runs_ret.
  - reflexivity.
  - reflexivity.
Qed.
Lemma usage_tests u x s : usage_fields u x s ->
  (u =? 0) = false /\ (u =? 253) = (match x with Some _ => true | None => false end)
  /\ usage_s2k u = (match s with Some _ => true | None => false end).
Proof. unfold usage_s2k. destruct x, s; cbn [usage_fields]; intro H; try contradiction; repeat split; lia. Qed.

Lemma runs_opts_old o E v u c x s iv : (v_num (PubVer v) =? 5) = false -> usage_fields u x s -> specifier_wf s -> lenN iv = iv_octets c s ->
  runs (sec_opts o (PubVer v) u None) (optional_octets c x s ++ iv) tt same (adds (optional_shown o E c x s ++ iv_shown o E x s iv)).
Proof.
  intros NV Hu Hs Hi. destruct s as [s|].
  - assert (optional_octets c x (Some s) ++ iv = protection_octets c x s iv) as ->.
    { unfold optional_octets, protection_octets. rewrite <- !app_comm_cons, <- !app_assoc. reflexivity. }
    eapply runs_ext0; [apply (runs_secopts o E v u c x s iv NV)|reflexivity|].
    + destruct x; exact Hu.
    + exact Hs.
    + exact Hi.
    + intro i. unfold protection_shown, optional_shown, iv_shown, has_iv. cbn [option_list map]. f_equal. cbn [app]. rewrite <- app_assoc. reflexivity.
  - destruct x; [contradiction|]. destruct (usage_tests _ _ _ Hu) as (U0 & U1 & U2). cbn [usage_fields] in Hu.
    unfold sec_opts. rewrite NV, U0, U1, U2. cbn [negb andb]. cbv iota. unfold opt_run, optional_octets, optional_shown, iv_shown. cbn [option_list app has_iv].
    eapply runs_ext0.
    + repeat (step; cbv iota). cbn [andb]. eapply runs_bind0; [apply (sec_iv_runs false false c iv Hi)|]. repeat step.
    + reflexivity.
    + intro i. rewrite (show_dumped o E). fin_items.
Qed.

Lemma leaves_sym o c d : leaves (let* alg := rdByte in add (sym_item alg (oDebug o)) ;; ret alg) (c :: d) d c same (adds [sym_shown (oDebug o) c]).
Proof.
  eapply leaves_ext.
  - apply leaves_byte. eapply leaves_none; [apply runs_add|]. cbv beta. apply leaves_ret.
  - reflexivity.
  - intro i. fin_items.
Qed.
Lemma leaves_aead o x d : leaves (let* alg := rdByte in add (aead_item alg (oDebug o))) (x :: d) d tt same (adds [aead_shown (oDebug o) x]).
Proof.
  eapply leaves_ext.
  - apply leaves_byte. apply (leaves_runs _ []). apply runs_add.
  - reflexivity.
  - intro i. fin_items.
Qed.
Lemma runs_opts_five o E u c x s junk iv : usage_fields u x s -> specifier_wf s -> lenN iv = iv_octets c s ->
  let opt := optional_octets c x s ++ junk in suf opt opt ->
  runs (sec_opts o (PubVer x05) u (Some (at_ opt opt))) iv tt same
    (adds (optional_shown o E c x s ++ iv_shown o E x s iv ++ surplus "Unknown data" (oDebug o) junk)).
Proof.
  intros Hu Hs Hi opt SF. destruct (usage_tests _ _ _ Hu) as (U0 & U1 & U2).
  unfold sec_opts. change (v_num (PubVer x05) =? 5) with true. rewrite U0, U1, U2. cbn [negb andb]. cbv iota.
  unfold optional_shown, iv_shown.
  assert (opt = c :: option_list x ++ match s with Some k => s2k_enc k | None => [] end ++ junk) as EQ
    by (unfold opt, optional_octets; rewrite <- app_comm_cons, <- app_assoc; reflexivity).
  clearbody opt. pose proof SF as SF0. rewrite EQ in SF0 at 2.
  assert (at_ opt opt = at_ opt (c :: option_list x ++ match s with Some k => s2k_enc k | None => [] end ++ junk)) as -> by (rewrite <- EQ; reflexivity).
  pose proof (suf_cons _ _ _ SF0) as SF1.
  destruct x as [x|], s as [s|]; try contradiction; cbn [option_list app has_iv map shows] in *.
  - pose proof (suf_cons _ _ _ SF1) as SF2. pose proof (suf_app _ _ _ SF2) as SF3. cbn [specifier_wf] in Hs. unfold iv_octets in Hi. cbn [has_iv] in Hi.
    destruct (s2k_iv s) eqn:I.
    + eapply runs_ext0.
      * eapply runs_none; [apply (runs_opt_own _ opt); [apply leaves_sym | exact SF0]|]. cbv beta iota.
        eapply runs_none; [apply (runs_opt_own _ opt); [apply leaves_aead | exact SF1]|]. cbv beta iota.
        eapply runs_none; [apply (runs_opt_own _ opt); [apply leaves_runs, (runs_s2k o s Hs) | exact SF2]|]. cbv beta iota. rewrite I. cbn [andb].
        eapply runs_bind0; [eapply runs_bind0; [apply (sec_iv_runs true true c iv Hi)|]; cbv beta; apply runs_add|]. cbv beta.
        eapply runs_none; [apply (runs_opt_own _ opt); [apply leaves_rest | exact SF3]|]. cbv beta. apply runs_ret.
      * reflexivity.
      * intro i. rewrite (show_dumped o E). fin_items.
    + apply lenN_0 in Hi. subst iv. eapply runs_ext0.
      * eapply runs_none; [apply (runs_opt_own _ opt); [apply leaves_sym | exact SF0]|]. cbv beta iota.
        eapply runs_none; [apply (runs_opt_own _ opt); [apply leaves_aead | exact SF1]|]. cbv beta iota.
        eapply runs_none; [apply (runs_opt_own _ opt); [apply leaves_runs, (runs_s2k o s Hs) | exact SF2]|]. cbv beta iota. rewrite I. cbn [andb].
        step. eapply runs_none; [apply (runs_opt_own _ opt); [apply leaves_rest | exact SF3]|]. cbv beta. apply runs_ret.
      * reflexivity.
      * intro i. fin_items.
  - pose proof (suf_app _ _ _ SF1) as SF3. cbn [specifier_wf] in Hs. unfold iv_octets in Hi. cbn [has_iv] in Hi.
    destruct (s2k_iv s) eqn:I.
    + eapply runs_ext0.
      * eapply runs_none; [apply (runs_opt_own _ opt); [apply leaves_sym | exact SF0]|]. cbv beta iota. step. cbv beta iota.
        eapply runs_none; [apply (runs_opt_own _ opt); [apply leaves_runs, (runs_s2k o s Hs) | exact SF1]|]. cbv beta iota. rewrite I. cbn [andb].
        eapply runs_bind0; [eapply runs_bind0; [apply (sec_iv_runs false true c iv Hi)|]; cbv beta; apply runs_add|]. cbv beta.
        eapply runs_none; [apply (runs_opt_own _ opt); [apply leaves_rest | exact SF3]|]. cbv beta. apply runs_ret.
      * reflexivity.
      * intro i. rewrite (show_dumped o E). fin_items.
    + apply lenN_0 in Hi. subst iv. eapply runs_ext0.
      * eapply runs_none; [apply (runs_opt_own _ opt); [apply leaves_sym | exact SF0]|]. cbv beta iota. step. cbv beta iota.
        eapply runs_none; [apply (runs_opt_own _ opt); [apply leaves_runs, (runs_s2k o s Hs) | exact SF1]|]. cbv beta iota. rewrite I. cbn [andb].
        step. eapply runs_none; [apply (runs_opt_own _ opt); [apply leaves_rest | exact SF3]|]. cbv beta. apply runs_ret.
      * reflexivity.
      * intro i. fin_items.
  - unfold iv_octets in Hi. cbn [has_iv] in Hi. eapply runs_ext0.
    + eapply runs_none; [apply (runs_opt_own _ opt); [apply leaves_sym | exact SF0]|]. cbv beta iota. step. cbv beta iota. step. cbv beta iota. cbn [andb].
      eapply runs_bind0; [eapply runs_bind0; [apply (sec_iv_runs false true c iv Hi)|]; cbv beta; apply runs_add|]. cbv beta.
      eapply runs_none; [apply (runs_opt_own _ opt); [apply leaves_rest | exact SF1]|]. cbv beta. apply runs_ret.
    + reflexivity.
    + intro i. rewrite (show_dumped o E). fin_items.
Qed.

(** ** The secret numbers *)
Lemma leaves_assoc {A B C} (m : M A) (f : A -> M B) (g : B -> M C) d x c ec ei :
  leaves (bind (bind m f) g) d x c ec ei -> leaves (bind m (fun y => bind (f y) g)) d x c ec ei.
Proof. intros F b cs it H. destruct (F b cs it H) as [S R]. split; [exact S|]. rewrite <- R. symmetry. apply bind_assoc. Qed.
Lemma leaves_reassoc {A B C} (m : M A) (f : A -> M B) (g : B -> M C) d x c ec ei :
  leaves (bind m (fun y => bind (f y) g)) d x c ec ei -> leaves (bind (bind m f) g) d x c ec ei.
Proof. intros F b cs it H. destruct (F b cs it H) as [S R]. split; [exact S|]. rewrite <- R. apply bind_assoc. Qed.

Definition checksum_item (chk : bytes) : item := it_nd (str "2-octet checksum") (dump_bytes chk true).
Lemma runs_checksum (chk : bytes) : length chk = 2%nat ->
  runs (let* c := rdBytes 2 in add (checksum_item c)) chk tt same (adds [checksum_item chk]).
Proof.
  intro H. eapply runs_ext0.
  - eapply runs_bind0; [apply runs_bytes, lenZ_2, H|]. cbv beta. apply runs_add.
  - reflexivity.
  - reflexivity.
Qed.

(** The secret numbers of an algorithm without a layout: all but the last two octets. *)
Lemma leaves_unknownSec o a (d chk : bytes) : sec_layout (b2n a) = None -> length chk = 2%nat ->
  leaves (parseSecPlain o a) (d ++ chk) chk tt same (adds [unknown_secret o a d]).
Proof.
  intros La Hc B cs it H. split; [eapply suf_app; exact H|]. unfold parseSecPlain. erewrite bind_ok by (apply rdRest_at, H).
  assert (forall z, (if isRSA a then rsaSec o else if isDSA a then addMPI o (str "DSA secret exponent x")
    else if isElgamal a then addMPI o (str "ElGamal secret exponent x") else if isECDH a then addMPI o (str "ECDH secret key")
    else if isECDSA a then addMPI o (str "ECDSA secret key") else if isEdDSA a then addMPI o (str "EdDSA secret key") else unknownSec o z a)
    = unknownSec o z a) as K by (intro z; revert La; destruct a; intro La; try discriminate La; reflexivity).
  rewrite K. clear K. unfold unknownSec. cbv zeta.
  assert (lenZ (d ++ chk) - 2 = lenZ d)%Z as -> by (unfold lenZ; rewrite app_length, Hc; lia).
  erewrite bind_ok by (apply rdBytes_at; [exact H | reflexivity]). rewrite add_at, add_child_adds.
  unfold unknown_secret. rewrite with_pub_label, dump_bytes_if, n_bytes_note. reflexivity.
Qed.

Section Old.
Variables (o : opts) (E : env) (v a : byte).
Hypothesis NV : (v_num (PubVer v) =? 5) = false.

Lemma sec_material_plain d x l : leaves (parseSecPlain o a) d x tt same (adds l) -> forall chk y, x = chk ++ y -> length chk = 2%nat ->
  leaves (sec_material o (PubVer v) a 0 None) d y tt same
    (fun i => adds (l ++ [show o E (FDumped "2-octet checksum" chk)]) (w_note (protection_note 0) i)).
Proof.
  intros F chk y -> Hc. unfold sec_material. cbn [N.eqb]. rewrite NV. cbv iota. unfold setNote, opt_run. eapply leaves_ext.
  - eapply leaves_none; [apply runs_upd|]. cbv beta. eapply leaves_bind.
    + eapply leaves_bind; [eapply leaves_bind; [exact F | apply leaves_ret]|]. cbv beta.
      eapply leaves_first; [apply runs_bytes, lenZ_2, Hc|]. cbv beta. eapply leaves_none; [apply runs_add|]. cbv beta. apply leaves_ret.
    + cbv beta. apply leaves_ret.
  - reflexivity.
  - intro i. rewrite (show_dumped o E). fin_items.
Qed.
Lemma sec_material_enc u ct : u <> 0 ->
  leaves (sec_material o (PubVer v) a u None) ct [] tt same (fun i => adds [sealed o a ct] (w_note (usage_note u) i)).
Proof.
  intro Hu. unfold sec_material. replace (u =? 0) with false by lia. rewrite NV. cbv iota. unfold setNote, opt_run. eapply leaves_ext.
  - eapply leaves_none; [apply runs_upd|]. cbv beta. eapply leaves_bind.
    + eapply leaves_bind; [apply leaves_drains, (drains_parseSecEnc o a ct) | apply leaves_ret].
    + cbv beta. apply leaves_ret.
  - reflexivity.
  - reflexivity.
Qed.

Lemma sec_old u d x ei :
  leaves (let* _ := sec_opts o (PubVer v) (b2n u) None in sec_material o (PubVer v) a (b2n u) None) d x tt same ei ->
  leaves (sec_parse o (PubVer v) a) (u :: d) x tt same ei.
Proof.
  intro F. unfold sec_parse. apply leaves_byte. cbv zeta. unfold getField1, getField2. rewrite NV. cbv iota.
  eapply leaves_ext; [eapply leaves_none; [apply runs_ret|]; cbv beta iota; exact F | reflexivity | reflexivity].
Qed.
Lemma sec_opts_plain d : leaves (sec_opts o (PubVer v) 0 None) d d tt same same.
Proof.
  intros B cs it H. split; [exact H|]. unfold sec_opts. rewrite NV. reflexivity.
Qed.

Lemma secret_old_plain sec chk x : material sec_layout a sec -> length chk = 2%nat ->
  leaves (sec_parse o (PubVer v) a) (x00 :: encs sec ++ chk ++ x) x tt same
    (fun i => adds (shows o E (sec ++ [FDumped "2-octet checksum" chk])) (w_note (protection_note 0) i)).
Proof.
  intros Hs Hc. apply sec_old. change (b2n x00) with 0. eapply leaves_ext.
  - eapply leaves_bind; [apply sec_opts_plain|]. cbv beta.
    eapply sec_material_plain; [apply leaves_runs, (runs_parseSec o E a sec Hs) | reflexivity | exact Hc].
  - reflexivity.
  - intro i. fin_items.
Qed.
Lemma secret_old_unknown d chk : sec_layout (b2n a) = None -> length chk = 2%nat ->
  leaves (sec_parse o (PubVer v) a) (x00 :: d ++ chk) [] tt same
    (fun i => adds [unknown_secret o a d; show o E (FDumped "2-octet checksum" chk)] (w_note (protection_note 0) i)).
Proof.
  intros Hs Hc. apply sec_old. change (b2n x00) with 0. eapply leaves_ext.
  - eapply leaves_bind; [apply sec_opts_plain|]. cbv beta.
    eapply sec_material_plain; [apply (leaves_unknownSec o a d chk Hs Hc) | symmetry; apply app_nil_r | exact Hc].
  - reflexivity.
  - intro i. reflexivity.
Qed.
Lemma secret_old_enc u c x s iv ct : usage_fields (b2n u) x s -> specifier_wf s -> lenN iv = iv_octets c s ->
  leaves (sec_parse o (PubVer v) a) (u :: (optional_octets c x s ++ iv) ++ ct) [] tt same
    (fun i => adds (optional_shown o E c x s ++ iv_shown o E x s iv ++ [sealed o a ct]) (w_note (protection_note (b2n u)) i)).
Proof.
  intros Hu Hs Hi. apply sec_old. eapply leaves_ext.
  - eapply leaves_first; [apply (runs_opts_old o E v (b2n u) c x s iv NV Hu Hs Hi)|]. cbv beta.
    apply sec_material_enc. apply usage_tests in Hu. lia.
  - reflexivity.
  - intro i. rewrite usage_note_eq. destruct i as [n w d t k]. unfold same, w_note. cbn [adds]. rewrite <- !app_assoc. reflexivity.
Qed.
End Old.

(** Version 5 *)
Section Five.
Variables (o : opts) (E : env) (a : byte).
Let ver := PubVer x05.

(** The counted optional fields and the IV behind them. *)
Definition options_five (u : N) (d d' : bytes) (l : list item) : Prop :=
  leaves (let* f1 := getField1 ver in match f1 with Some ro => sec_opts o ver u ro | None => ret tt end) d d' tt same (adds l).
Lemma five_none u d : options_five u (x00 :: d) d [].
Proof.
  unfold options_five, getField1. change (v_num ver =? 5) with true. cbv iota. eapply leaves_ext.
  - apply leaves_reassoc, leaves_byte. change (b2n x00 =? 0) with true. cbv iota. eapply leaves_none; [apply runs_ret|]. cbv beta iota. apply leaves_ret.
  - reflexivity.
  - intro i. symmetry. apply adds_nil.
Qed.
Lemma leaves_field1 (opt d x : bytes) l u : 0 < lenN opt < 256 ->
  leaves (sec_opts o ver u (Some (at_ opt opt))) d x tt same (adds l) -> options_five u (n2b (lenN opt) :: opt ++ d) x l.
Proof.
  intros L F. unfold options_five, getField1. change (v_num ver =? 5) with true. cbv iota. eapply leaves_ext.
  - apply leaves_reassoc, leaves_byte. rewrite b2n_n2b_small by lia. replace (lenN opt =? 0) with false by lia. cbv iota.
    apply leaves_reassoc. eapply leaves_first; [apply runs_bytes; rewrite lenZ_lenN; reflexivity|]. cbv beta.
    eapply leaves_none; [apply runs_ret|]. cbv beta iota. rewrite at_new. exact F.
  - reflexivity.
  - reflexivity.
Qed.
Lemma five_opts u c x s junk iv d : let opt := optional_octets c x s ++ junk in
  lenN opt < 256 -> usage_fields u x s -> specifier_wf s -> lenN iv = iv_octets c s ->
  options_five u (n2b (lenN opt) :: opt ++ iv ++ d) d (optional_shown o E c x s ++ iv_shown o E x s iv ++ surplus "Unknown data" (oDebug o) junk).
Proof.
  intros opt L Hu Hs Hi. apply leaves_field1; [unfold opt in *; unfold lenN in *; cbn [optional_octets app length] in *; lia|].
  apply leaves_runs, runs_opts_five; try assumption. apply suf_refl. fold opt. rewrite lenZ_lenN. lia.
Qed.
(** Usage 0: the optional fields have no meaning. *)
Lemma five_surplus opt d : 0 < lenN opt < 256 -> options_five 0 (n2b (lenN opt) :: opt ++ d) d (surplus "Unknown data" (oDebug o) opt).
Proof.
  intro L. apply leaves_field1; [exact L|]. unfold sec_opts. change (v_num ver =? 5) with true. cbn [N.eqb negb andb]. cbv iota. eapply leaves_ext.
  - eapply leaves_none; [apply runs_ret|]. cbv beta iota. eapply leaves_none; [apply runs_ret|]. cbv beta iota.
    eapply leaves_none; [apply runs_ret|]. cbv beta iota. eapply leaves_none; [apply runs_ret|]. cbv beta iota.
    eapply leaves_none; [apply (runs_opt_own _ opt); [apply leaves_rest | apply suf_refl; rewrite lenZ_lenN; lia]|]. cbv beta. apply leaves_ret.
  - reflexivity.
  - intro i. fin_items.
Qed.

(** The counted secret numbers. *)
Definition material_five (u : N) (d x : bytes) (ei : item -> item) : Prop :=
  leaves (let* f2 := getField2 ver in match f2 with Some ro => sec_material o ver a u ro | None => ret tt end) d x tt same ei.
Lemma runs_len4 (l : bytes) : length l = 4%nat -> runs readLen4 l l same same.
Proof.
  intros L B rest cs it H. unfold readLen4. assert (4 = lenZ l)%Z as X by (unfold lenZ; rewrite L; reflexivity).
  rewrite (runs_bytes 4 l X B rest cs it H). reflexivity.
Qed.
Lemma material_none u d : material_five u (be_enc 4 0 ++ d) d same.
Proof.
  unfold material_five, getField2. change (v_num ver =? 5) with true. cbv iota. eapply leaves_ext.
  - apply leaves_reassoc. eapply leaves_first; [apply runs_len4, be_enc_length|]. cbv beta. rewrite be4 by reflexivity. cbn [N.eqb].
    eapply leaves_none; [apply runs_ret|]. cbv beta iota. apply leaves_ret.
  - reflexivity.
  - reflexivity.
Qed.
Lemma leaves_field2 u (m d x : bytes) ei : 0 < lenN m < 2 ^ 32 ->
  leaves (sec_material o ver a u (Some (at_ m m))) d x tt same ei -> material_five u (be_enc 4 (lenN m) ++ m ++ d) x ei.
Proof.
  intros L F. unfold material_five, getField2. change (v_num ver =? 5) with true. cbv iota. eapply leaves_ext.
  - apply leaves_reassoc. eapply leaves_first; [apply runs_len4, be_enc_length|]. cbv beta. rewrite be4 by lia. replace (lenN m =? 0) with false by lia. cbv iota.
    apply leaves_reassoc. eapply leaves_first; [apply runs_bytes; rewrite lenZ_lenN; reflexivity|]. cbv beta.
    eapply leaves_none; [apply runs_ret|]. cbv beta iota. rewrite at_new. exact F.
  - reflexivity.
  - reflexivity.
Qed.
Lemma material_five_enc u m d : u <> 0 -> 0 < lenN m < 2 ^ 32 ->
  material_five u (be_enc 4 (lenN m) ++ m ++ d) d (fun i => adds [sealed o a m] (w_note (usage_note u) i)).
Proof.
  intros Hu L. apply leaves_field2; [exact L|]. assert (suf m m) as SF by (apply suf_refl; rewrite lenZ_lenN; lia).
  unfold sec_material. replace (u =? 0) with false by lia. change (v_num ver =? 5) with true. cbv iota. unfold setNote. eapply leaves_ext.
  - eapply leaves_none; [apply runs_upd|]. cbv beta.
    eapply leaves_none; [apply (runs_opt_own _ m); [apply leaves_drains, (drains_parseSecEnc o a m) | exact SF]|]. cbv beta. cbn [snd].
    eapply leaves_none; [apply (runs_opt_own _ m); [apply leaves_rest|]|].
    + pose proof SF as X. rewrite <- (app_nil_r m) in X at 2. exact (suf_app _ _ _ X).
    + cbv beta. apply leaves_ret.
  - reflexivity.
  - intro i. fin_items.
Qed.
Lemma material_five_plain m x l chk d : leaves (parseSecPlain o a) m x tt same (adds l) -> 0 < lenN m < 2 ^ 32 -> length chk = 2%nat ->
  (forall B, suf B m -> suf B x) ->
  material_five 0 (be_enc 4 (lenN m) ++ m ++ chk ++ d) d
    (fun i => adds (l ++ show o E (FDumped "2-octet checksum" chk) :: surplus "Unknown data" (oDebug o) x) (w_note (protection_note 0) i)).
Proof.
  intros F L Hc SX. apply leaves_field2; [exact L|]. assert (suf m m) as SF by (apply suf_refl; rewrite lenZ_lenN; lia).
  unfold sec_material. cbn [N.eqb]. change (v_num ver =? 5) with true. cbv iota. unfold setNote. eapply leaves_ext.
  - eapply leaves_none; [apply runs_upd|]. cbv beta. eapply leaves_bind.
    + eapply leaves_none; [apply (runs_opt_own _ m); [exact F | exact SF]|]. cbv beta.
      eapply leaves_first; [apply runs_bytes, lenZ_2, Hc|]. cbv beta. eapply leaves_none; [apply runs_add|]. cbv beta. apply leaves_ret.
    + cbv beta. cbn [snd]. eapply leaves_none; [apply (runs_opt_own _ m); [apply leaves_rest | apply SX, SF]|]. cbv beta. apply leaves_ret.
  - reflexivity.
  - intro i. rewrite (show_dumped o E). fin_items.
Qed.

Lemma secret_five u d d' x l ei : options_five (b2n u) d d' l -> material_five (b2n u) d' x ei ->
  leaves (sec_parse o ver a) (u :: d) x tt same (fun i => ei (adds l i)).
Proof.
  intros F1 F2. unfold sec_parse. apply leaves_byte. cbv zeta. apply leaves_assoc. eapply leaves_ext; [eapply leaves_bind; [exact F1 | exact F2] | reflexivity | reflexivity].
Qed.
End Five.
