(** * RedactPktL: a packet and its redaction are shown alike. *)
From Coq Require Import Strings.String Strings.Byte List NArith ZArith Bool Lia ZifyBool ZifyN ZifyNat.
From Verif Require Import Base BaseL SpecBase Item Reader ReaderL SpecReader Context Env Time Values Opaque Monad MonadL Pubkey S2k Subs Tags SubParse
  SpecValues SpecPacket SpecFrame SpecSub SpecNest SpecParse SpecHidden HiddenL SubL KeyL SpecRedact RedactL RedactTagL RedactSubL.
Import ListNotations.
Local Open Scope N_scope.

(** ** Reading in step to the end *)
Definition fin {A W} (m m' : M A) (w : walk W) (rest : bytes) : Prop :=
  forall B B' rest' t' cs it, suf B rest -> suf B' rest' -> length B = length B' -> length rest = length rest' -> zeroed rest rest' -> rest' = fst (w rest) ++ t' ->
  alike (m (sat B rest cs it)) (m' (sat B' rest' cs it)).
Lemma fin_fol {A W} (m m' : M A) (w : walk W) R rest : fol m m' w R rest -> fin m m' w rest.
Proof.
  intros K B B' rest' t' cs it S1 S2 L1 L2 Z2 E. destruct (K B B' rest' t' cs it S1 S2 L1 L2 Z2 E) as [(F1 & F2 & F3 & F4) | (a & b & cs1 & it1 & X & Ra & M1 & M2)].
  - repeat split; assumption.
  - rewrite M1, M2. repeat split.
Qed.
Lemma fin_bind {A B W V} (m m' : M A) (f f' : A -> M B) (w : walk W) (g : W -> walk V) R rest :
  fol m m' w R rest -> (forall a b rest2, R a b -> fin (f a) (f' a) (g b) rest2) -> fin (bind m f) (bind m' f') (after w g) rest.
Proof.
  intros H K C C' rest' t' cs it S1 S2 L1 L2 Z2 E. unfold after in E. specialize (H C C' rest').
  destruct (w rest) as [r x] eqn:W1. cbn [fst snd] in *.
  set (r2 := match x with Go a => fst (g a (skipn (length r) rest)) | Stop => [] end).
  assert (rest' = r ++ r2 ++ t') as E1.
  { rewrite E. unfold r2. destruct x as [b|]; [|reflexivity]. destruct (g b _) as [r3 y]. cbn [fst]. rewrite <- app_assoc. reflexivity. }
  destruct (H (r2 ++ t') cs it S1 S2 L1 L2 Z2 E1) as [F | (a & b & cs1 & it1 & X & Rab & M1 & M2)].
  { apply (same_fail_bind _ _ f f') in F. destruct F as (F1 & F2 & F3 & F4). repeat split; assumption. }
  subst x. unfold bind. rewrite M1, M2. cbn [fst snd] in r2.
  assert (suf C' (r2 ++ t')) as S3 by (rewrite E1 in S2; exact (suf_app _ _ _ S2)).
  assert (length (skipn (length r) rest) = length (r2 ++ t')) as L3 by (rewrite skipn_length, L2, E1, !app_length; lia).
  assert (zeroed (skipn (length r) rest) (r2 ++ t')) as Z3 by (apply (zeroed_skipn (length r)) in Z2; rewrite E1, skipn_app_length in Z2; exact Z2).
  exact (K a b (skipn (length r) rest) Rab C C' (r2 ++ t') t' cs1 it1 (suf_skipn _ _ _ S1) S3 L1 L3 Z3 eq_refl).
Qed.
Lemma fin_ext {A W} (m m' k k' : M A) (w v : walk W) rest : (forall s, k s = m s) -> (forall s, k' s = m' s) -> v rest = w rest -> fin m m' w rest -> fin k k' v rest.
Proof. intros H1 H2 H3 K B B' rest' t' cs it S1 S2 L1 L2 Z2 E. rewrite H1, H2. rewrite H3 in E. apply (K B B' rest' t'); assumption. Qed.
(** An error that is dropped. *)
Lemma fin_catch {A C W V} (m m' : M A) (f f' : option A -> M C) (w : walk W) (g : W -> walk V) R rest : fol m m' w R rest ->
  (forall a b rest2, R a b -> fin (f (Some a)) (f' (Some a)) (g b) rest2) ->
  (forall s s', s_cs s = s_cs s' -> s_cur s = s_cur s' -> alike (f None s) (f' None s')) -> fin (bind (catchM m) f) (bind (catchM m') f') (after w g) rest.
Proof.
  intros H K N B B' rest' t' cs it S1 S2 L1 L2 Z2 E.
  pose proof (fin_bind m m' (fun a => f (Some a)) (fun a => f' (Some a)) w g R rest H K B B' rest' t' cs it S1 S2 L1 L2 Z2 E) as X.
  unfold bind, catchM in *. assert (exists t2, rest' = fst (w rest) ++ t2) as (t2 & E2).
  { destruct (after_starts w g rest) as (r2 & R2). rewrite R2, <- app_assoc in E. exists (r2 ++ t'). exact E. }
  destruct (H B B' rest' t2 cs it S1 S2 L1 L2 Z2 E2) as [F | (a & b & cs1 & it1 & G & Rab & M1 & M2)].
  - destruct F as (F1 & F2 & F3 & F4). destruct (m (sat B rest cs it)) as [x s1], (m' (sat B' rest' cs it)) as [x' s1']. cbn [fst snd] in *. subst x'.
    destruct x as [y|e| |]; [exfalso; exact (F2 y eq_refl)| |exact X..]. apply N; assumption.
  - rewrite M1, M2 in *. exact X.
Qed.
Lemma bind_ext_at {A B} (m : M A) (f g : A -> M B) s : (forall a t, f a t = g a t) -> bind m f s = bind m g s.
Proof. intro H. unfold bind. destruct (m s) as [[]]; [apply H | reflexivity..]. Qed.
Lemma after_ext {A B} (w : walk A) (f g : A -> walk B) l : (forall a t, f a t = g a t) -> after w f l = after w g l.
Proof. intro H. unfold after. destruct (w l) as [r [a|]]; [rewrite H|]; reflexivity. Qed.
Lemma fin_no_data {W} (m m' : M unit) (w : walk W) rest : fin m m' w rest -> fin (no_data m) (no_data m') w rest.
Proof.
  intros K B B' rest' t' cs it S1 S2 L1 L2 Z2 E. destruct (K B B' rest' t' cs it S1 S2 L1 L2 Z2 E) as (F1 & F2 & F3). unfold no_data, bind, ret.
  destruct (m _) as [x s1], (m' _) as [x' s1']. cbn [fst snd] in *. subst x'. destruct x; repeat split; assumption.
Qed.

(** ** Steps that do not touch the reader *)
Definition still {A} (m : M A) : Prop := forall r r' cs it, s_rd (snd (m (mkSt r cs it))) = r /\
  m (mkSt r' cs it) = (fst (m (mkSt r cs it)), mkSt r' (s_cs (snd (m (mkSt r cs it)))) (s_cur (snd (m (mkSt r cs it))))).
Lemma still_bind {A B} (m : M A) (f : A -> M B) : still m -> (forall a, still (f a)) -> still (bind m f).
Proof.
  intros H K r r' cs it. unfold bind. destruct (H r r' cs it) as [H1 H2]. rewrite H2. destruct (m (mkSt r cs it)) as [[a|e| |] [r1 cs1 it1]]; cbn [fst snd s_rd s_cs s_cur] in *; subst r1; auto.
  apply K.
Qed.
Lemma still_ret {A} (a : A) : still (ret a).
Proof. split; reflexivity. Qed.
Lemma still_upd h : still (upd h).
Proof. split; reflexivity. Qed.
Lemma still_run_in {A} r0 i (m : M A) : still (run_in r0 i m).
Proof. intros r r' cs it. unfold run_in. cbn [s_cs s_rd s_cur]. destruct (m (mkSt r0 cs i)) as [x s1]. split; reflexivity. Qed.
Lemma still_sub_it {A} i (m : M A) : still m -> still (sub_it i m).
Proof.
  intros H r r' cs it. unfold sub_it. cbn [s_cs s_rd s_cur]. destruct (H r r' cs i) as [H1 H2]. rewrite H2. destruct (m (mkSt r cs i)) as [x s1]. cbn [fst snd s_rd s_cs s_cur] in *. auto.
Qed.
Lemma still_mapM {A} (f : A -> M unit) l : (forall a, still (f a)) -> still (mapM_ f l).
Proof. intro H. induction l; cbn [mapM_]; [apply still_ret | apply still_bind; auto]. Qed.
Lemma still_area rec o E tagid name w : still (sub_area rec o E tagid name w).
Proof.
  unfold sub_area. destruct (subpackets w) as [l ok]. destruct ok; [|split; reflexivity].
  apply still_sub_it, still_mapM. intro p. unfold sub_one. apply still_bind; [apply still_run_in | intro; apply still_upd].
Qed.
Lemma fol_still {A} (m m' : M A) rest : still m -> (forall s, m s = m' s) -> fol m m' (give tt) any rest.
Proof.
  intros H X B B' rest' t' cs it S1 S2 L1 L2 Z2 E. cbn [give fst app] in E. subst t'. unfold sat. destruct (H (at_ B rest) (at_ B' rest') cs it) as [H1 H2]. rewrite <- X, H2.
  destruct (m (mkSt (at_ B rest) cs it)) as [x [r1 cs1 it1]]. cbn [fst snd s_rd s_cs s_cur] in *. subst r1.
  destruct x as [a|e| |]; [right; exists a, tt, cs1, it1; repeat split | left..]; (repeat split; try discriminate).
Qed.

Section Packet.
Variable o : opts.
Hypothesis Q : no_dump o.
Variable E : env.
Variable rec : tagrec.
Variable red : N -> bytes -> bytes.
Hypothesis same : forall tag b cs, sized b -> rec tag b cs = rec tag (red tag b) cs.
Hypothesis zero : forall tag b, zeroed b (red tag b).

Notation sig_sub := (sub_redacted red).
Lemma sig_area_zeroed w : zeroed w (area_or_same sig_sub w).
Proof. apply (area_zeroed o E rec red same zero 2); [intros ty b Z; apply signature_one; assumption | intros ty b; apply (sub_zeroed rec); assumption]. Qed.
Lemma sig_area_same name w s : lenN w < 2 ^ 32 -> sub_area rec o E 2 name w s = sub_area rec o E 2 name (area_or_same sig_sub w) s.
Proof. apply (area_same o Q E rec red same zero); [intros ty b Z; apply signature_one; assumption | intros ty b; apply (sub_zeroed rec); assumption]. Qed.
Lemma attr_area_zeroed w : zeroed w (area_or_same attribute_redacted w).
Proof. apply (area_zeroed o E rec red same zero 17); [intros ty b Z; apply (attribute_one o Q E rec red); assumption | apply attribute_zeroed]. Qed.
Lemma attr_area_same name w s : lenN w < 2 ^ 32 -> sub_area rec o E 17 name w s = sub_area rec o E 17 name (area_or_same attribute_redacted w) s.
Proof. apply (area_same o Q E rec red same zero); [intros ty b Z; apply (attribute_one o Q E rec red); assumption | apply attribute_zeroed]. Qed.

Lemma part_whole {A} n (f : bytes -> bytes) (a : A) : (forall l, length (f l) = length l) -> forall l, part n (fun l => (f l, Go a)) l = take n f (fun _ => Go a) l.
Proof.
  intros L l. unfold part, take, covered. cbn [fst snd]. destruct (n <=? lenN l); [|reflexivity]. rewrite L, skipn_all. cbn [blank map]. rewrite app_nil_r. reflexivity.
Qed.
Lemma fol_sig_area name rest : fol (sig_area rec o E name) (sig_area rec o E name) (sig_area_walk red) any rest.
Proof.
  unfold sig_area, sig_area_walk. apply fol_number; [reflexivity | reflexivity|]. intros d r D. apply be_below in D. change (256 ^ 2) with 65536 in D. cbv zeta.
  assert (forall l, length (area_or_same sig_sub l) = length l) as LA by (intro l; symmetry; apply zeroed_length, sig_area_zeroed).
  eapply fol_ext; [reflexivity | reflexivity | apply part_whole; exact LA|].
  destruct (0 <? be d) eqn:P.
  - eapply fol_ext; [reflexivity | reflexivity | symmetry; apply after_end|].
    apply (fol_take (be d) _ _ (area_or_same sig_sub) (fun _ => Go tt)); [lia | exact LA|]. intros x r2 X.
    apply (fol_ext _ _ _ _ (after (give tt) (fun _ : unit => give tt)) _ _ _ (fun s => eq_refl) (fun s => eq_refl)); [reflexivity|].
    apply (fol_bind _ _ _ _ _ _ any).
    + apply fol_still; [apply still_area|]. intro s. apply sig_area_same. lia.
    + intros i [] r3 _. ends.
  - assert (be d = 0) as -> by lia. unfold take. apply (fol_ext (ret tt) (ret tt) _ _ (give tt)); [reflexivity | reflexivity| | apply fol_ret; exact Logic.I].
    replace (0 <=? lenN r) with true by lia. reflexivity.
Qed.
Lemma inside_sig_area : inside (sig_area_walk red).
Proof.
  unfold sig_area_walk. apply inside_after; [auto with ins|]. intro n. apply inside_part. intro l. cbn [fst]. rewrite <- (zeroed_length _ _ (sig_area_zeroed l)), firstn_all. apply sig_area_zeroed.
Qed.

(** ** The packets, tag by tag *)
Lemma fol_raw {C W} name f (k k' : item -> M C) (w : walk W) R rest : f = false ->
  fol (k (Item name [] [] (n_bytes (lenZ rest)) [])) (k' (Item name [] [] (n_bytes (lenZ rest)) [])) w R rest ->
  fol (bind (rawData name f) k) (bind (rawData name f) k') w R rest.
Proof. intros -> K. unfold rawData. apply fol_assoc. apply fol_rest. apply fol_assoc. apply (fol_ret_bind [] []). apply fol_ret_bind. exact K. Qed.
Ltac byte_ := apply fol_octet; intros ? ?.
Ltac keep_ := apply fol_keep; [reflexivity | reflexivity|]; intros ? ? _.
Ltac rest_ := apply fol_addRest, Q.

Lemma fol_tag01 rest : fol (tag01 o) (tag01 o) (packet_walk red 1) any rest.
Proof.
  unfold tag01. cbn [packet_walk]. apply (fol_quiet _ _ _ _ _ _ _ _ _ (quiet_setMode _) (quiet_setMode _)). intro u. byte_. upd_. keep_. upd_. apply fol_byte. intros pub r2. upd_.
  apply (fol_end _ _ _ _ _ any); [apply fol_ses, Q|]. intros [] [] r3 _. rest_.
Qed.
Lemma fol_sigV4 rest : fol (sigV4 rec o E) (sigV4 rec o E) (keep 1 >> _ ; number 1 >> a ; keep 1 >> _ ; sig_area_walk red >> _ ; sig_area_walk red >> _ ; keep 2 >> _ ; fields_walk sig_layout a) any rest.
Proof.
  unfold sigV4. byte_. upd_. apply fol_byte. intros pub r2. upd_. byte_. upd_. apply (fol_bind _ _ _ _ _ _ any); [apply fol_sig_area|]. intros [] [] r4 _.
  apply (fol_bind _ _ _ _ _ _ any); [apply fol_sig_area|]. intros [] [] r5 _. keep_. upd_. apply fol_sig, Q.
Qed.
Lemma fol_sigV3 rest : fol (sigV3 o E) (sigV3 o E) (number 1 >> n ; (if n =? 5 then keep 1 >> _ ; keep 4 >> _ ; give tt else hide n) >> _ ;
      keep 8 >> _ ; number 1 >> a ; keep 1 >> _ ; keep 2 >> _ ; fields_walk sig_layout a) any rest.
Proof.
  unfold sigV3. apply fol_byte. intros n r. apply (fol_bind _ _ _ _ _ _ any).
  - apply fol_child; [reflexivity|]. destruct (b2n n =? 5); cbn [negb].
    + byte_. upd_. unfold newDateTime. apply fol_assoc. keep_. apply fol_ret_bind. ends.
    + upd_. eapply fol_ext; [reflexivity | reflexivity | symmetry; apply after_end|]. apply fol_hide; [reflexivity | pose proof (b2n_lt n); lia|].
      intros d d' r2 _ _. rewrite (off_debug o Q). ends.
  - intros [] [] r2 _. keep_. upd_. apply fol_byte. intros pub r3. upd_. byte_. upd_. keep_. upd_. apply fol_sig, Q.
Qed.
Lemma fin_tag02 rest : fin (tag02 rec o E) (tag02 rec o E) (packet_walk red 2) rest.
Proof.
  unfold tag02. cbn [packet_walk].
  eapply fin_ext with (m := bind rdByte _) (m' := bind rdByte _); [reflexivity | reflexivity | reflexivity|].
  apply (fin_bind _ _ _ _ _ _ is_octet).
  { eapply fol_ext; [reflexivity | reflexivity | symmetry; apply after_end|].
    apply (fol_ext (bind rdByte ret) (bind rdByte ret) _ _ (after (number 1) give)); [| | reflexivity|].
    1,2: intro s; unfold bind, ret; destruct (rdByte s) as [[]]; reflexivity.
    apply fol_byte. intros v r. apply fol_ret. reflexivity. }
  intros v b r H. unfold is_octet in H. subst b. cbv zeta. change (v_isdraft (SigVer v)) with (b2n v =? 5). change (v_iscur (SigVer v)) with (b2n v =? 4).
  change (v_isold (SigVer v)) with (b2n v <? 4). change (v_num (SigVer v)) with (b2n v).
  destruct (b2n v =? 5) eqn:V5; [|destruct (b2n v =? 4) eqn:V4]; cbn [orb].
  - rewrite orb_true_r. eapply fin_fol. upd_. apply (fol_end _ _ _ _ _ any); [apply fol_sigV4|]. intros [] [] r3 _. rest_.
  - eapply fin_fol. upd_. apply (fol_end _ _ _ _ _ any); [apply fol_sigV4|]. intros [] [] r3 _. rest_.
  - destruct (b2n v =? 3) eqn:V3.
    + replace ((b2n v <? 4) && true) with true by lia.
      apply (fin_ext (bind (upd (add_child (v_item (SigVer v) (oDebug o)))) (fun _ => bind (catchM (sigV3 o E)) (fun r => match r with Some _ => addRest sUnknownData (oDebug o) | None => ret tt end)))
                     (bind (upd (add_child (v_item (SigVer v) (oDebug o)))) (fun _ => bind (catchM (sigV3 o E)) (fun r => match r with Some _ => addRest sUnknownData (oDebug o) | None => ret tt end)))
         _ _ (after (give tt) (fun _ => after (number 1 >> n ; (if n =? 5 then keep 1 >> _ ; keep 4 >> _ ; give tt else hide n) >> _ ;
                keep 8 >> _ ; number 1 >> a ; keep 1 >> _ ; keep 2 >> _ ; fields_walk sig_layout a) give))); [reflexivity | reflexivity | |].
      { rewrite after_give, after_end. reflexivity. }
      apply (fin_bind _ _ _ _ _ _ any); [ends|]. intros [] [] r2 _. apply (fin_catch _ _ _ _ _ _ any).
      * apply fol_sigV3.
      * intros [] [] r3 _. eapply fin_fol. rest_.
      * intros s s' H1 H2. repeat split; assumption.
    + rewrite andb_false_r. eapply fin_fol. upd_. rest_.
Qed.

Lemma fol_tag03 rest : fol (tag03 o) (tag03 o) (packet_walk red 3) any rest.
Proof.
  unfold tag03. cbn [packet_walk]. apply (fol_quiet _ _ _ _ _ _ _ _ _ (quiet_setMode _) (quiet_setMode _)). intro u. apply fol_byte. intros v r. cbv zeta. upd_.
  change (v_iscur (SymSessKeyVer v)) with (b2n v =? 4). destruct (b2n v =? 4).
  - apply fol_assoc. byte_. apply fol_assoc. upd_. apply fol_assoc. apply (fol_bind _ _ _ _ _ _ eq); [apply fol_s2k|]. intros ? ? ? _. apply fol_ret_bind. rest_.
  - apply fol_ret_bind. rest_.
Qed.
Lemma fol_tag04 rest : fol (tag04 o) (tag04 o) (packet_walk red 4) any rest.
Proof. unfold tag04. cbn [packet_walk]. byte_. upd_. byte_. upd_. byte_. upd_. byte_. upd_. keep_. upd_. byte_. upd_. rest_. Qed.
Lemma fol_tag05 rest : fol (tag05 o E) (tag05 o E) (number 1 >> v ; public_walk v >> a ; secret_walk v a) any rest.
Proof.
  unfold tag05. apply fol_byte. intros v r. cbv zeta. upd_. apply (fol_bind _ _ _ _ _ _ is_octet); [apply fol_child; [reflexivity | apply fol_public, Q]|].
  intros pub a r2 H. unfold is_octet in H. subst a. apply (fol_end _ _ _ _ _ any); [apply fol_child; [reflexivity | apply fol_secret, Q]|]. intros [] [] r3 _. rest_.
Qed.
Lemma fol_tag06 rest : fol (tag06 o E) (tag06 o E) (number 1 >> v ; public_walk v >> _ ; give tt) any rest.
Proof.
  unfold tag06. apply fol_byte. intros v r. cbv zeta. upd_. apply (fol_bind _ _ _ _ _ _ is_octet); [apply fol_public, Q|]. intros pub a r2 _. rest_.
Qed.
Lemma fol_tag09 rest : fol (tag09 o) (tag09 o) (give tt) any rest.
Proof.
  unfold tag09. apply fol_raw; [apply off_debug, Q|]. apply (fol_quiet _ _ _ _ _ _ _ _ _ quiet_getCs quiet_getCs). intro c. upd_.
  apply fol_still; [split; reflexivity | reflexivity].
Qed.
Lemma fol_tag_raw name f rest : f = false -> fol (tag_raw name f) (tag_raw name f) (give tt) any rest.
Proof. intro H. unfold tag_raw. apply fol_raw; [exact H|]. ends. Qed.
Lemma fol_tag11 rest : fol (tag11 o E) (tag11 o E) (packet_walk red 11) any rest.
Proof.
  unfold tag11. cbn [packet_walk]. byte_. upd_. apply fol_byte. intros n r2. pose proof (b2n_lt n). unfold newLiteralFname. destruct (Z.of_N (b2n n) <? 1)%Z eqn:P.
  - assert (b2n n = 0) as -> by lia. apply fol_ret_bind. upd_. unfold newDateTime. apply fol_assoc.
    apply (fol_ext _ _ _ _ (after (keep 4) (fun _ => give tt)) _ _ _ (fun s => eq_refl) (fun s => eq_refl)); [|keep_; apply fol_ret_bind; upd_; apply fol_tag_raw, off_lit, Q].
    unfold after at 1. unfold keep at 1. replace (0 <=? lenN r2) with true by lia. cbn [N.to_nat firstn length skipn app]. destruct (after (keep 4) (fun _ => give tt) r2). reflexivity.
  - apply fol_keep; [reflexivity | lia|]. intros d r3 _. upd_. unfold newDateTime. apply fol_assoc. keep_. apply fol_ret_bind. upd_. apply fol_tag_raw, off_lit, Q.
Qed.
Lemma fol_tag18 rest : fol (tag18 o) (tag18 o) (give tt) any rest.
Proof.
  unfold tag18. apply fol_raw; [apply off_debug, Q|]. apply (fol_quiet _ _ _ _ _ _ _ _ _ quiet_getCs quiet_getCs). intro c. upd_.
  apply fol_still; [split; reflexivity | reflexivity].
Qed.
Lemma fol_tag19 rest : fol (tag19 o) (tag19 o) (give tt) any rest.
Proof. unfold tag19. apply fol_raw; [apply off_debug, Q|]. ends. Qed.
Lemma fin_tag20 rest : fin (tag20 o) (tag20 o) (packet_walk red 20) rest.
Proof.
  set (head := let* v := rdByte in add (v_item (AEADVer v) (oDebug o)) ;; let* alg := rdByte in add (sym_item alg (oDebug o)) ;; let* aead := rdByte in add (aead_item aead (oDebug o)) ;;
    let* c := rdByte in add (Item (str "Chunk size") (dec (chunk_size c)) (dump_byte c true) [] []) ;; ret aead).
  set (tail := fun aead : byte => let* iv := catchM (rdBytes (aead_ivlen aead)) in match iv with None => ret tt | Some iv => add (it_nd (str "IV") (dump_bytes iv true)) ;; addRest (str "Encrypted data and authentication tag") (oDebug o) end).
  apply (fin_ext (bind head tail) (bind head tail) _ _ (after (keep 1 >> _ ; keep 1 >> _ ; number 1 >> a ; keep 1 >> _ ; give a) (fun a => keep (aead_iv_octets a) >> _ ; give tt))).
  1,2: intro s; unfold tag20, head; repeat (rewrite bind_assoc; apply bind_ext_at; intros ? ?); reflexivity.
  { cbn [packet_walk]. symmetry. repeat (rewrite after_assoc; apply after_ext; intros ? ?). rewrite after_give. reflexivity. }
  apply (fin_bind _ _ _ _ _ _ is_octet).
  - unfold head. byte_. upd_. byte_. upd_. apply fol_byte. intros a r2. upd_. byte_. upd_. apply fol_ret. reflexivity.
  - intros a b r H. unfold is_octet in H. subst b. unfold tail.
    assert (aead_ivlen a = Z.of_N (aead_iv_octets (b2n a)) /\ aead_iv_octets (b2n a) < 2 ^ 62) as [-> LI] by (destruct a; split; reflexivity).
    apply (fin_catch _ _ _ _ _ _ any).
    + apply (fol_ext (bind (rdBytes (Z.of_N (aead_iv_octets (b2n a)))) ret) (bind (rdBytes (Z.of_N (aead_iv_octets (b2n a)))) ret) _ _ (after (keep (aead_iv_octets (b2n a))) give)).
      1,2: intro s; unfold bind, ret; destruct (rdBytes _ s) as [[]]; reflexivity.
      { symmetry. apply after_end. }
      apply fol_keep; [reflexivity | exact LI|]. intros d r2 _. apply fol_ret. exact Logic.I.
    + intros d l r2 _. eapply fin_fol. upd_. rest_.
    + intros s s' H1 H2. repeat split; assumption.
Qed.

(** ** Every packet *)
Lemma inside_whole (f : bytes -> bytes) : (forall l, zeroed l (f l)) -> inside (fun l => (f l, Go tt)).
Proof. intros H l. cbn [fst]. rewrite <- (zeroed_length _ _ (H l)), firstn_all. apply H. Qed.
Lemma covered_whole {A} (f : bytes -> bytes) (a : A) : (forall l, length (f l) = length l) -> forall l, covered (fun l => (f l, Go a)) l = f l.
Proof. intros H l. unfold covered. cbn [fst]. rewrite H, skipn_all. apply app_nil_r. Qed.
Lemma inside_specifier : inside specifier_walk.
Proof. unfold specifier_walk. apply inside_after; auto with ins. intro ty. repeat apply inside_if; auto 10 with ins. Qed.
Lemma inside_public v : inside (public_walk v).
Proof. pose proof inside_fields. unfold public_walk. repeat apply inside_if; auto 15 with ins. Qed.
Lemma inside_iv p : inside (iv_walk p).
Proof. unfold iv_walk. auto with ins. Qed.
Lemma inside_secret v a : inside (secret_walk v a).
Proof.
  pose proof inside_numbers. pose proof inside_optional. pose proof inside_iv. unfold secret_walk. auto 25 with ins.
Qed.
Lemma inside_packet tag : inside (packet_walk red tag).
Proof.
  pose proof inside_fields. pose proof inside_sig_area. pose proof inside_specifier. pose proof inside_public. pose proof inside_secret.
  assert (inside (fun l => (l, Go tt))) by (apply (inside_whole (fun l => l)), zeroed_refl).
  assert (inside (fun l => (if lenN l <? 2 ^ 32 then area_or_same attribute_redacted l else l, Go tt))).
  { apply (inside_whole (fun l => if lenN l <? 2 ^ 32 then area_or_same attribute_redacted l else l)). intro l. destruct (lenN l <? 2 ^ 32); [apply attr_area_zeroed | apply zeroed_refl]. }
  destruct tag as [|p]; [apply inside_give|]. do 5 (try destruct p as [p|p|]); cbn [packet_walk]; try assumption; try apply inside_give; auto 20 with ins.
Qed.
Lemma packet_alike tag b cs : sized b ->
  alike (tag_m rec o E tag (mkSt (r_new b) cs (tag_item tag b (tag_dumpflag o tag))))
        (tag_m rec o E tag (mkSt (r_new (covered (packet_walk red tag) b)) cs (tag_item tag (covered (packet_walk red tag) b) (tag_dumpflag o tag)))).
Proof.
  intro Z. pose proof (covered_length _ b (inside_packet tag)) as LC.
  assert (tag_item tag (covered (packet_walk red tag) b) (tag_dumpflag o tag) = tag_item tag b (tag_dumpflag o tag)) as ->.
  { unfold tag_item, tag_dumpflag. rewrite (off_debug o Q), (off_private o Q), (lenZ_same _ _ LC). destruct (_ && _); reflexivity. }
  set (it := tag_item tag b (tag_dumpflag o tag)). clearbody it.
  assert (forall m : M (option bytes), fin m m (packet_walk red tag) b -> alike (m (mkSt (r_new b) cs it)) (m (mkSt (r_new (covered (packet_walk red tag) b)) cs it))) as K.
  { intros m F. rewrite !at_new.
    apply (F b (covered (packet_walk red tag) b) (covered (packet_walk red tag) b) (blank (skipn (length (fst (packet_walk red tag b))) b)) cs it); auto.
    - apply suf_refl, Z.
    - apply suf_refl. rewrite (lenZ_same _ _ LC). exact Z.
    - apply covered_zeroed, inside_packet. }
  assert (forall m : M unit, fin m m (packet_walk red tag) b -> alike (no_data m (mkSt (r_new b) cs it)) (no_data m (mkSt (r_new (covered (packet_walk red tag) b)) cs it))) as K1.
  { intros m F. apply K, fin_no_data, F. }
  assert (forall (m : M unit) R, fol m m (packet_walk red tag) R b -> alike (no_data m (mkSt (r_new b) cs it)) (no_data m (mkSt (r_new (covered (packet_walk red tag) b)) cs it))) as K2.
  { intros m R F. apply K1. eapply fin_fol, F. }
  clear K. destruct (N.eq_dec tag 17) as [->|N17].
  { cbn [tag_m]. cbn [packet_walk]. rewrite covered_whole.
    2:{ intro l. destruct (lenN l <? 2 ^ 32); [symmetry; apply zeroed_length, attr_area_zeroed | reflexivity]. }
    destruct (lenN b <? 2 ^ 32) eqn:LB; [|apply alike_refl]. unfold no_data, tag17, bind, getBody. cbn [s_rd s_cs s_cur].
    change (r_body (r_new b)) with b. change (r_body (r_new (area_or_same attribute_redacted b))) with (area_or_same attribute_redacted b).
    rewrite <- (attr_area_same (str "Subpacket") b (mkSt (r_new (area_or_same attribute_redacted b)) cs it)) by lia.
    destruct (still_area rec o E 17 (str "Subpacket") b (r_new b) (r_new (area_or_same attribute_redacted b)) cs it) as [H1 H2]. rewrite H2.
    destruct (sub_area rec o E 17 (str "Subpacket") b (mkSt (r_new b) cs it)) as [[x|e| |] s1]; cbn [fst snd s_cs s_cur add upd ret]; repeat split. }
  assert (forall l, covered (fun l : bytes => (l, Go tt)) l = l) as WH by (apply (covered_whole (fun l => l) tt); reflexivity).
  destruct tag as [|p]; [apply (K2 _ any), fol_ret; exact Logic.I|].
  do 5 (try destruct p as [p|p|]); cbn [tag_m packet_walk] in *; try (exfalso; apply N17; reflexivity); try (rewrite WH; apply alike_refl);
    try (apply (K2 _ any), fol_ret; exact Logic.I).
  all: first [apply K1, fin_tag02 | apply K1, fin_tag20 | apply (K2 _ any); first [apply fol_tag01 | apply fol_tag03 | apply fol_tag04 | apply fol_tag05 | apply fol_tag06 | apply fol_tag09 | apply fol_tag_raw, off_marker, Q
    | apply fol_tag11 | apply fol_tag18 | apply fol_tag19]].
Qed.
Lemma tag_same tag b cs : sized b -> tag_body rec o E tag b cs = tag_body rec o E tag (covered (packet_walk red tag) b) cs.
Proof.
  intro Z. unfold tag_body. destruct (packet_alike tag b cs Z) as (F1 & F2 & F3). destruct (tag_m rec o E tag _) as [x s1], (tag_m rec o E tag _) as [x' s1']. cbn [fst snd] in *. subst x'.
  rewrite F2, F3. reflexivity.
Qed.
End Packet.

(** ** Depths *)
Lemma depth_same o E : no_dump o -> forall n, (forall tag b, zeroed b (redact_depth n tag b)) /\
  (forall tag b cs, sized b -> parse_tag_fuel n o E tag b cs = parse_tag_fuel n o E tag (redact_depth n tag b) cs).
Proof.
  intro Q. induction n as [|n [IZ IS]]; split; cbn [redact_depth parse_tag_fuel]; intros tag b.
  - apply zeroed_refl.
  - reflexivity.
  - apply covered_zeroed. apply (inside_packet o Q E (parse_tag_fuel n o E) _ IS IZ).
  - intros cs Z. apply (tag_same o Q E (parse_tag_fuel n o E) _ IS IZ _ _ _ Z).
Qed.
Lemma redact_same o E tag b cs : no_dump o -> sized b -> parse_tag o E tag b cs = parse_tag o E tag (redact tag b) cs.
Proof.
  intros Q Z. destruct (depth_same o E Q (S (length b))) as [IZ IS]. unfold parse_tag, redact. rewrite <- (zeroed_length _ _ (IZ tag b)). apply IS, Z.
Qed.
