(** * RedactTagL: packets and their redactions, tag by tag. *)
From Coq Require Import Strings.String Strings.Byte List NArith ZArith Bool Lia ZifyBool ZifyN ZifyNat.
From Verif Require Import Base BaseL SpecBase Item Reader ReaderL SpecReader Context Env Time Values Opaque Monad MonadL Pubkey S2k Subs Tags
  SpecValues SpecPacket SpecFrame SpecSub SpecNest SpecParse SpecHidden HiddenL SubL KeyL FramingL SpecRedact RedactL.
Import ListNotations.
Local Open Scope N_scope.

Lemma fol_small {A W} (m m' : M A) (w : walk W) R rest : ((lenZ rest < 2 ^ 62)%Z -> fol m m' w R rest) -> fol m m' w R rest.
Proof.
  intros K B B' rest' t' cs it S1 S2 L1 L2 Z2 E. pose proof (suf_len _ _ S1) as [G1 G2]. apply K; try assumption. lia.
Qed.
Lemma after_starts {A B} (w : walk A) (g : A -> walk B) l : exists r2, fst (after w g l) = fst (w l) ++ r2.
Proof.
  unfold after. destruct (w l) as [r [a|]]; cbn [fst]; [|exists []; symmetry; apply app_nil_r]. destruct (g a _) as [r2 y]. exists r2. reflexivity.
Qed.
Ltac upd_ := apply fol_upd; [reflexivity|].
Ltac ends := apply fol_upd_end; [reflexivity | exact Logic.I].

Lemma beqs_eq a b : beqs a b = true -> a = b.
Proof. revert b. induction a as [|x a IH]; intros [|y b] H; cbn in H; try discriminate; [reflexivity|]. apply andb_prop in H as [H1 H2]. apply byte_eqb_spec in H1. subst. f_equal. auto. Qed.
Lemma beqs_refl a : beqs a a = true.
Proof. induction a; [reflexivity|]. cbn. rewrite byte_eqb_refl. assumption. Qed.

Section Off.
Variable o : opts.
Hypothesis Q : no_dump o.

(** ** String-to-key specifiers *)
Lemma fol_s2k f rest : fol (s2k_parse f) (s2k_parse f) specifier_walk eq rest.
Proof.
  unfold s2k_parse, specifier_walk. apply fol_byte. intros b rest2. apply fol_child; [reflexivity|]. unfold s2k_fields. cbv zeta.
  destruct (b2n b =? 0) eqn:H0; [cbn [orb negb]|destruct (b2n b =? 1) eqn:H1; [cbn [orb negb]|destruct (b2n b =? 3) eqn:H3; [cbn [orb negb]|cbn [orb]]]].
  - apply fol_octet. intros h r3. upd_. apply fol_ret_bind. replace (b2n b =? 3) with false by lia. apply fol_ret_bind. apply fol_ret. reflexivity.
  - apply fol_octet. intros h r3. upd_. apply fol_assoc. apply fol_keep; [reflexivity | reflexivity|]. intros d r4 _. upd_. replace (b2n b =? 3) with false by lia. apply fol_ret_bind.
    apply fol_ret. reflexivity.
  - apply fol_octet. intros h r3. upd_. apply fol_assoc. apply fol_keep; [reflexivity | reflexivity|]. intros d r4 _. upd_. apply fol_assoc. apply fol_octet. intros c r5. upd_.
    apply fol_ret. reflexivity.
  - destruct (b2n b =? 101); [|apply fol_ret; reflexivity]. apply fol_rest. apply fol_look.
    replace (lenZ rest2 <? 4)%Z with (lenN rest2 <? 4) by (unfold lenN, lenZ; lia). destruct (lenN rest2 <? 4) eqn:L4; [apply fol_ret; reflexivity|].
    destruct (beqs (firstn 3 rest2) (str "GNU")) eqn:G.
    + intros B B' rest' t' cs it S1 S2 L1 L2 Z2 E. revert E. set (m := (let* mrk := rdBytes 3 in _)). intro E.
      assert (fol (bind (rdBytes 3) (fun _ => bind rdByte (fun k =>
         bind (if 1000 + b2n k =? 1002 then bind rdByte (fun l => bind (rdBytes (Z.of_N (b2n l))) (fun ser =>
              ret (add_child (it_nd (str "Serial Number") (dump_bytes ser true)) (it_nv (str "GNU-divert-to-card") (str "Extension Number " ++ dec (1000 + b2n k))))))
               else ret (it_nv (str "GNU-divert-to-card") (str "Extension Number " ++ dec (1000 + b2n k))))
              (fun gnu => bind (add gnu) (fun _ => ret false)))))
        (bind (rdBytes 3) (fun _ => bind rdByte (fun k =>
         bind (if 1000 + b2n k =? 1002 then bind rdByte (fun l => bind (rdBytes (Z.of_N (b2n l))) (fun ser =>
              ret (add_child (it_nd (str "Serial Number") (dump_bytes ser true)) (it_nv (str "GNU-divert-to-card") (str "Extension Number " ++ dec (1000 + b2n k))))))
               else ret (it_nv (str "GNU-divert-to-card") (str "Extension Number " ++ dec (1000 + b2n k))))
              (fun gnu => bind (add gnu) (fun _ => ret false)))))
        (keep 3 >> _; number 1 >> k; (if k =? 2 then number 1 >> n; keep n >> _; give false else give false)) eq rest2) as K.
      { apply fol_keep; [reflexivity | reflexivity|]. intros d r4 _. apply fol_byte. intros k r5. destruct (b2n k =? 2) eqn:K2.
        - replace (1000 + b2n k =? 1002) with true by lia. apply fol_assoc. apply fol_byte. intros l r6. apply fol_assoc. apply fol_keep; [reflexivity | pose proof (b2n_lt l); lia|].
          intros d2 r7 _. apply fol_ret_bind. upd_. apply fol_ret. reflexivity.
        - replace (1000 + b2n k =? 1002) with false by lia. apply fol_ret_bind. upd_. apply fol_ret. reflexivity. }
      specialize (K B B' rest' t' cs it S1 S2 L1 L2 Z2 E).
      destruct (split_at 3 rest2) as (d & t & -> & LB); [unfold lenN in L4; lia|].
      assert (firstn 3 (d ++ t) = d) as FD by (rewrite <- LB, firstn_app, Nat.sub_diag, firstn_all; cbn; apply app_nil_r). rewrite FD in G. apply beqs_eq in G.
      assert (exists u', rest' = d ++ u') as [u' E'].
      { rewrite E. match goal with |- context [after (keep 3) ?g ?l] => destruct (after_starts (keep 3) g l) as [r3 ->] end.
        unfold keep at 1. replace (3 <=? lenN (d ++ t)) with true by (unfold lenN in *; rewrite app_length in *; lia).
        change (N.to_nat 3) with 3%nat. rewrite FD. cbn [fst]. rewrite <- app_assoc. eexists. reflexivity. }
      unfold m. clear m E. subst rest'. 
      pose proof (rdBytes_at B d t 3%Z cs it S1 ltac:(unfold lenZ; lia)) as R1. pose proof (rdBytes_at B' d u' 3%Z cs it S2 ltac:(unfold lenZ; lia)) as R2.
      rewrite (bind_ok _ _ _ _ _ R1), (bind_ok _ _ _ _ _ R2) in K. rewrite (bind_ok _ _ _ _ _ R1), (bind_ok _ _ _ _ _ R2). cbv beta in *.
      assert (beqs d (str "GNU") = true) as GG by (rewrite G; reflexivity). rewrite GG.
      cbv iota zeta. exact K.
    + intros B B' rest' t' cs it S1 S2 L1 L2 Z2 E. cbn [give fst snd app] in *. subst t'. right.
      assert (beqs (firstn 3 rest') (str "GNU") = false) as G'.
      { destruct (beqs (firstn 3 rest') (str "GNU")) eqn:G'; [|reflexivity]. apply beqs_eq in G'. exfalso.
        destruct rest2 as [|a1 [|a2 [|a3 rest2]]], rest' as [|b1 [|b2 [|b3 rest']]]; try discriminate G'; try discriminate L2.
        cbn [firstn] in *. vm_compute (str "GNU") in G'. injection G' as -> -> ->. inversion Z2 as [|? ? ? ? Y1 Y2]; subst. inversion Y2 as [|? ? ? ? Y3 Y4]; subst. inversion Y4 as [|? ? ? ? Y5 Y6]; subst.
        destruct Y1 as [<-|]; [|discriminate]. destruct Y3 as [<-|]; [|discriminate]. destruct Y5 as [<-|]; [|discriminate]. discriminate G. }
      assert (forall C r, suf C r -> (3 <= length r)%nat -> beqs (firstn 3 r) (str "GNU") = false -> forall X (k : bytes -> M X) j,
        (forall s, k (firstn 3 r) s = bind (rdSeek (-3) 1) (fun _ => j) s) -> bind (rdBytes 3) k (sat C r cs it) = j (sat C r cs it)) as SK.
      { intros C r SC LR G2 X k j KJ. destruct (split_at 3 r LR) as (d & t & -> & LB).
        assert (firstn 3 (d ++ t) = d) as FD by (rewrite <- LB, firstn_app, Nat.sub_diag, firstn_all; cbn; apply app_nil_r). rewrite FD in *.
        erewrite bind_ok by (apply (rdBytes_at C d t); [exact SC | unfold lenZ; lia]). rewrite KJ. pose proof (suf_len _ _ SC) as [U1 U2]. rewrite lenZ_app in U1. pose proof (lenZ_nonneg t).
        unfold bind, rdSeek, on_rd, sat, r_seek, r_size. cbn [s_rd s_cs s_cur r_buf r_off at_]. change (1 =? 0)%Z with false. change (1 =? 1)%Z with true. cbv iota beta zeta.
        unfold at_. cbn [r_buf r_off]. rewrite wrap64_small by (unfold lenZ in *; lia).
        match goal with |- context [if ?c then _ else _] => replace c with false by (unfold lenZ in *; lia) end.
        f_equal. f_equal. unfold lenZ in *. rewrite app_length. f_equal. lia. }
      exists true, true, cs, it. split; [reflexivity|]. split; [reflexivity|]. cbn [length skipn].
      rewrite (SK B rest2 S1 ltac:(unfold lenN in L4; lia) G _ _ (ret true)) by (intro s; rewrite G; reflexivity).
      rewrite (SK B' rest' S2 ltac:(unfold lenN in L4; lia) G' _ _ (ret true)) by (intro s; rewrite G'; reflexivity).
      split; reflexivity.
Qed.

(** ** Keys *)
Lemma pubver_draft v : v_isdraft (PubVer v) = (b2n v =? 5).
Proof. destruct v; reflexivity. Qed.
Lemma pubver_cur v : v_iscur (PubVer v) = (b2n v =? 4).
Proof. destruct v; reflexivity. Qed.
Lemma pubver_old v : v_isold (PubVer v) && (v_num (PubVer v) =? 3) = (b2n v =? 3).
Proof. destruct v; reflexivity. Qed.
Definition is_octet (a : byte) (n : N) : Prop := n = b2n a.
Lemma fol_keyTime E {C W} (f f' : unit -> M C) (g : bytes -> walk W) R rest : (forall d r, fol (f tt) (f' tt) (g d) R r) ->
  fol (bind (keyTime o E) f) (bind (keyTime o E) f') (after (keep 4) g) R rest.
Proof.
  intro K. unfold keyTime, newDateTime. apply fol_assoc. apply fol_assoc. apply fol_keep; [reflexivity | reflexivity|]. intros d r _. apply fol_ret_bind. apply fol_assoc.
  eapply fol_quiet; [apply quiet_setKey | apply quiet_setKey|]. intros _. upd_. apply K.
Qed.
Lemma fol_keyAlg {C W} (f f' : byte -> M C) (g : N -> walk W) R rest : (forall b r, fol (f b) (f' b) (g (b2n b)) R r) ->
  fol (bind (keyAlg o) f) (bind (keyAlg o) f') (after (number 1) g) R rest.
Proof. intro K. unfold keyAlg. apply fol_assoc. apply fol_byte. intros b r. apply fol_assoc. upd_. apply fol_ret_bind. apply K. Qed.
Lemma inside_fields t a : inside (fields_walk t a).
Proof.
  unfold fields_walk. destruct (t a) as [l|]; auto with ins. unfold slots_walk. induction l as [|s l IH]; cbn [fold_right]; auto with ins.
  apply inside_after; [|auto]. destruct s; cbn [slot_walk]; auto 8 with ins; apply inside_look; intros []; auto 8 with ins.
Qed.
Lemma inside_numbers a : inside (numbers_walk a).
Proof.
  unfold numbers_walk. destruct (sec_layout a) as [l|] eqn:H; [pose proof (inside_fields sec_layout a) as K; unfold fields_walk in K; rewrite H in K; exact K|].
  apply inside_look. intro l. apply inside_if; auto with ins. apply inside_stop.
Qed.
Lemma fol_public E v rest : fol (pub_parse o E (PubVer v)) (pub_parse o E (PubVer v)) (public_walk (b2n v)) is_octet rest.
Proof.
  unfold pub_parse, public_walk. rewrite pubver_draft, pubver_cur, pubver_old. destruct (b2n v =? 5); [|destruct (b2n v =? 4); [|destruct (b2n v =? 3)]].
  - unfold pubV5. apply fol_keyTime. intros _ r. apply fol_keyAlg. intros a r2. apply fol_number; [reflexivity | reflexivity|]. intros d r3 D. apply be_below in D.
    apply (fol_take (be d) _ _ (covered (fields_walk pub_layout (b2n a))) (fun x => snd (fields_walk pub_layout (b2n a) x))).
    + change (256 ^ 4) with (2 ^ 32) in D. lia.
    + intro x. apply covered_length, inside_fields.
    + intros x r4 X. apply (fol_with _ _ _ _ (fields_walk pub_layout (b2n a)) _ any).
      * change (256 ^ 4) with (2 ^ 32) in D. unfold lenN, lenZ in *. lia.
      * apply inside_fields.
      * apply fol_pub, Q.
      * intros [] b t t' Go_ _ _ _ _. rewrite Go_. apply fol_ret. reflexivity.
  - unfold pubV4. apply fol_keyTime. intros _ r. apply fol_keyAlg. intros a r2. eapply fol_bind; [apply fol_pub, Q|]. intros [] [] r3 _. apply fol_ret. reflexivity.
  - unfold pubV3. apply fol_keyTime. intros _ r. apply fol_keep; [reflexivity | reflexivity|]. intros d r2 _. upd_. apply fol_keyAlg. intros a r3.
    eapply fol_bind; [apply fol_pub, Q|]. intros [] [] r4 _. apply fol_ret. reflexivity.
  - apply fol_ret. reflexivity.
Qed.

(** The optional fields of a secret key, as one step. *)
Definition core (u : N) : M (byte * bool) :=
  if u =? 0 then ret (x00, false)
  else let* alg := (let* alg := rdByte in add (sym_item alg (oDebug o)) ;; ret alg) in
       (if u =? 253 then (let* alg := rdByte in add (aead_item alg (oDebug o))) else ret tt) ;;
       let* iv := (if usage_s2k u then s2k_parse (oDebug o) else ret true) in ret (alg, iv).
Lemma with_rd_bind {A B} r (m : M A) (f : A -> M B) s : with_rd r (bind m f) s = bind (with_rd r m) (fun p => with_rd (snd p) (f (fst p))) s.
Proof. unfold with_rd, bind. destruct (m _) as [[a|e| |] s1]; try reflexivity. cbn [fst snd s_cs s_cur s_rd]. destruct s1. reflexivity. Qed.
Lemma with_rd_ret {A} r (a : A) s : with_rd r (ret a) s = (ROk (a, r), s).
Proof. destruct s. reflexivity. Qed.
Definition iv_step (u : N) (p : byte * bool) : M unit :=
  if negb (u =? 0) && snd p then (let* iv := sec_iv (fst p) (u =? 253) in add iv) else ret tt.
Lemma opts_own ver u s : v_num ver =? 5 = false -> sec_opts o ver u None s = bind (core u) (fun p => iv_step u p) s.
Proof.
  intro V. unfold sec_opts, core, iv_step. rewrite V. destruct (u =? 0) eqn:U.
  - replace (u =? 253) with false by lia. reflexivity.
  - cbn [negb andb]. unfold opt_run. unfold bind, ret. destruct (rdByte s) as [[alg|e| |] s1]; try reflexivity. cbn [add upd fst snd].
    destruct (u =? 253).
    + destruct (rdByte _) as [[aalg|e| |] s2]; try reflexivity. cbn [add upd fst snd]. destruct (usage_s2k u).
      * destruct (s2k_parse (oDebug o) _) as [[iv|e| |] s3]; try reflexivity. cbn [fst snd]. destruct iv; [|reflexivity]. destruct (sec_iv alg true s3) as [[i|e| |] s4]; reflexivity.
      * cbn [fst snd]. match goal with |- context [sec_iv alg true ?x] => destruct (sec_iv alg true x) as [[i|e| |] s4] end; reflexivity.
    + destruct (usage_s2k u).
      * destruct (s2k_parse (oDebug o) _) as [[iv|e| |] s3]; try reflexivity. cbn [fst snd]. destruct iv; [|reflexivity]. destruct (sec_iv alg false s3) as [[i|e| |] s4]; reflexivity.
      * cbn [fst snd]. match goal with |- context [sec_iv alg false ?x] => destruct (sec_iv alg false x) as [[i|e| |] s4] end; reflexivity.
Qed.
Lemma opts_part ver u r s : v_num ver =? 5 = true ->
  sec_opts o ver u (Some r) s = bind (with_rd r (core u)) (fun p => iv_step u (fst p) ;; (let* _ := opt_run (Some (snd p)) (addRest sUnknownData (oDebug o)) in ret tt)) s.
Proof.
  intro V. unfold sec_opts, core, iv_step. rewrite V. destruct (u =? 0) eqn:U.
  - cbn [negb andb]. replace (u =? 253) with false by lia. destruct s. reflexivity.
  - cbn [negb andb]. unfold opt_run at 1 2 3. unfold bind, with_rd, ret. cbn [s_rd s_cs s_cur]. destruct (rdByte _) as [[alg|e| |] s1]; try reflexivity. cbn [add upd fst snd s_rd s_cs s_cur].
    destruct (u =? 253).
    + cbn [fst snd s_rd s_cs s_cur]. destruct (rdByte _) as [[aalg|e| |] s2]; try reflexivity. cbn [add upd fst snd s_rd s_cs s_cur]. destruct (usage_s2k u).
      * destruct (s2k_parse (oDebug o) _) as [[iv|e| |] s3]; reflexivity.
      * cbn [fst snd s_rd s_cs s_cur]. reflexivity.
    + destruct (usage_s2k u).
      * cbn [fst snd s_rd s_cs s_cur]. destruct (s2k_parse (oDebug o) _) as [[iv|e| |] s3]; reflexivity.
      * cbn [fst snd s_rd s_cs s_cur]. reflexivity.
Qed.
Definition opts_rel (u : N) (p : byte * bool) (b : N * bool) : Prop := b = (b2n (fst p), snd p) /\ (u =? 0 = true -> snd p = false).
Lemma fol_core u rest : fol (core (b2n u)) (core (b2n u)) (optional_walk (b2n u)) (opts_rel (b2n u)) rest.
Proof.
  unfold core, optional_walk. destruct (b2n u =? 0) eqn:U; [apply fol_ret; split; reflexivity|].
  apply fol_assoc. apply fol_byte. intros c r. apply fol_assoc. upd_. apply fol_ret_bind.
  apply (fol_bind _ _ _ _ _ _ any).
  - destruct (b2n u =? 253); [apply fol_octet; intros b r2; ends | apply fol_ret; exact Logic.I].
  - intros [] [] r2 _. replace (usage_s2k (b2n u)) with (253 <=? b2n u) by (unfold usage_s2k; pose proof (b2n_lt u); lia).
    apply (fol_bind _ _ _ _ _ _ eq); [destruct (253 <=? b2n u); [apply fol_s2k | apply fol_ret; reflexivity]|].
    intros iv b r3 <-. apply fol_ret. split; [reflexivity|]. rewrite U. discriminate.
Qed.
Lemma ivlen_octets c : sym_ivlen c = Z.of_N (cipher_iv_octets (b2n c)).
Proof. unfold sym_ivlen, cipher_iv_octets. destruct (b2n c <=? 6), (b2n c <=? 13); reflexivity. Qed.
Lemma cipher_iv_small c : cipher_iv_octets c < 2 ^ 62.
Proof. unfold cipher_iv_octets. destruct (c <=? 6), (c <=? 13); reflexivity. Qed.
Lemma fol_iv u p b rest : opts_rel u p b -> fol (iv_step u p) (iv_step u p) (iv_walk b) any rest.
Proof.
  intros [-> H]. unfold iv_step, iv_walk. cbn [fst snd]. destruct (u =? 0); [rewrite (H eq_refl); apply fol_ret; exact Logic.I|]. cbn [negb andb].
  destruct (snd p); [|apply fol_ret; exact Logic.I]. unfold sec_iv. apply fol_assoc. apply fol_keep; [apply ivlen_octets | apply cipher_iv_small|]. intros d r _. apply fol_ret_bind. ends.
Qed.

Lemma addRest_off name r cs it : (exists B t, suf B t /\ r = at_ B t) -> addRest name false (mkSt r cs it) =
  (ROk tt, mkSt r cs (if (0 <? r_rest r)%Z then add_child (Item name [] [] (n_bytes (r_rest r)) []) it else it)).
Proof. intros (B & t & S & ->). unfold addRest, bind, rdRest. cbn [s_rd]. destruct (0 <? r_rest (at_ B t))%Z; reflexivity. Qed.
Lemma fol_part_rest d d' t t' rest : suf d t -> suf d' t' -> length t = length t' ->
  fol (let* _ := opt_run (Some (at_ d t)) (addRest sUnknownData (oDebug o)) in ret tt) (let* _ := opt_run (Some (at_ d' t')) (addRest sUnknownData (oDebug o)) in ret tt) (give tt) any rest.
Proof.
  intros S S' L. rewrite (off_debug o Q). intros B B' rest' u cs it S1 S2 L1 L2 Z2 E. cbn [give fst app] in E. subst u. right.
  unfold opt_run, bind, with_rd, sat. cbn [s_cs s_cur s_rd]. rewrite (addRest_off _ (at_ d t)) by eauto. rewrite (addRest_off _ (at_ d' t')) by eauto.
  rewrite !rest_at by assumption. replace (lenZ t') with (lenZ t) by (unfold lenZ; congruence). eexists tt, tt, cs, _. split; [reflexivity|]. split; [exact Logic.I|]. split; reflexivity.
Qed.
Lemma fol_len4 {C W} (f f' : bytes -> M C) (g : N -> walk W) R rest : (forall d r, lenN d = 4 -> fol (f d) (f' d) (g (be d)) R r) ->
  fol (bind readLen4 f) (bind readLen4 f') (after (number 4) g) R rest.
Proof.
  intro K. apply (fol_bind _ _ _ _ _ _ (fun d b => b = be d /\ lenN d = 4)); [|intros d b r [-> D]; apply K, D].
  assert (fol (rdBytes 4) (rdBytes 4) (number 4) (fun d b => b = be d /\ lenN d = 4) rest) as H.
  { apply (fol_ext (bind (rdBytes 4) ret) (bind (rdBytes 4) ret) _ _ (after (number 4) give)); [| | symmetry; apply after_end|].
    1,2: intro s; unfold bind, ret; destruct (rdBytes 4 s) as [[]]; reflexivity.
    apply fol_number; [reflexivity | reflexivity|]. intros d r D. apply fol_ret. auto. }
  intros B B' rest' t' cs it S1 S2 L1 L2 Z2 E. unfold readLen4. destruct (H B B' rest' t' cs it S1 S2 L1 L2 Z2 E) as [F | (a & b & cs1 & it1 & X & Ra & M1 & M2)].
  - left. unfold same_fail in *. destruct (rdBytes 4 _) as [x s1], (rdBytes 4 (sat B' _ _ _)) as [x' s1']. cbn [fst snd] in *. destruct F as (F1 & F2 & F3 & F4). subst x'.
    destruct x; [exfalso; exact (F2 _ eq_refl)|..]; cbn [fst snd]; repeat split; auto; discriminate.
  - right. rewrite M1, M2. exists a, b, cs1, it1. auto.
Qed.
Lemma inside_optional u : inside (optional_walk u).
Proof.
  unfold optional_walk, specifier_walk. apply inside_if; auto with ins. apply inside_after; auto with ins. intro c. apply inside_after; auto with ins. intros _. apply inside_after; auto with ins.
  apply inside_if; auto with ins. apply inside_after; auto with ins. intro ty. repeat apply inside_if; auto 10 with ins.
Qed.
Lemma fol_bind_none {A W} (m m' : M unit) (f f' : unit -> M A) (w : walk W) R rest : fol m m' (give tt) any rest -> (forall r, fol (f tt) (f' tt) w R r) ->
  fol (bind m f) (bind m' f') w R rest.
Proof.
  intros H K. apply (fol_ext _ _ _ _ (after (give tt) (fun _ => w)) _ _ _ (fun s => eq_refl) (fun s => eq_refl)); [symmetry; apply after_give|].
  apply (fol_bind _ _ _ _ _ _ any); [exact H|]. intros [] [] r _. apply K.
Qed.
Lemma fol_secret v pub rest : fol (sec_parse o (PubVer v) pub) (sec_parse o (PubVer v) pub) (secret_walk (b2n v) (b2n pub)) any rest.
Proof.
  unfold sec_parse, secret_walk. apply fol_byte. intros u r. cbv zeta. unfold getField1, getField2. change (v_num (PubVer v)) with (b2n v). destruct (b2n v =? 5) eqn:V.
  - apply fol_assoc. apply fol_byte. intros n r2.
    assert (forall r3, fol
       (let* f2 := (let* l := readLen4 in if be l =? 0 then ret None else let* b := rdBytes (Z.of_N (be l)) in ret (Some (Some (r_new b)))) in
        match f2 with Some ro => sec_material o (PubVer v) pub (b2n u) ro | None => ret tt end)
       (let* f2 := (let* l := readLen4 in if be l =? 0 then ret None else let* b := rdBytes (Z.of_N (be l)) in ret (Some (Some (r_new b)))) in
        match f2 with Some ro => sec_material o (PubVer v) pub (b2n u) ro | None => ret tt end)
       (number 4 >> m; (if m =? 0 then give tt
          else part m (if b2n u =? 0 then numbers_walk (b2n pub) else hide_all) >> _; (if b2n u =? 0 then keep 2 >> _; give tt else give tt))) any r3) as K2.
    { intro r3. apply fol_assoc. apply fol_len4. intros d r4 D. apply be_below in D. change (256 ^ 4) with (2 ^ 32) in D. destruct (be d =? 0); [apply fol_ret_bind, fol_ret; exact Logic.I|].
      apply fol_assoc. set (w := if b2n u =? 0 then numbers_walk (b2n pub) else hide_all).
      assert (inside w) as IW by (unfold w; apply inside_if; [apply inside_numbers | apply inside_hide_all]).
      apply (fol_take (be d) _ _ (covered w) (fun x => snd (w x))); [lia | intro x; apply covered_length, IW|]. intros x r5 X. apply fol_ret_bind.
      unfold sec_material. change (v_num (PubVer v)) with (b2n v). rewrite V. upd_.
      assert ((lenZ x < 2 ^ 62)%Z) as LX by (unfold lenN, lenZ in *; lia).
      unfold w in *. destruct (b2n u =? 0).
      - apply fol_assoc. unfold opt_run at 1 3. apply fol_assoc. apply (fol_with _ _ _ _ (numbers_walk (b2n pub)) _ any); [exact LX | exact IW | apply fol_plain; assumption|].
        intros [] [] t t' Go_ _ ST ST' LT. rewrite Go_. apply fol_ret_bind. apply fol_assoc. apply fol_keep; [reflexivity | reflexivity|]. intros c r6 _. apply fol_assoc. upd_.
        apply fol_ret_bind. cbn [fst snd]. apply fol_part_rest; assumption.
      - unfold opt_run at 1 3. apply fol_assoc. apply (fol_with _ _ _ _ hide_all _ any); [exact LX | exact IW | apply fol_enc, Q|].
        intros [] [] t t' Go_ _ ST ST' LT. rewrite Go_. apply fol_ret_bind. cbn [fst snd]. apply fol_part_rest; assumption. }
    destruct (b2n n =? 0).
    + apply fol_ret_bind. apply fol_ret_bind. apply fol_wgive. apply K2.
    + apply fol_assoc. apply fol_wassoc. pose proof (inside_optional (b2n u)) as IO.
      apply (fol_take (b2n n) _ _ (covered (optional_walk (b2n u))) (fun x => snd (optional_walk (b2n u) x))); [pose proof (b2n_lt n); lia | intro x; apply covered_length, IO|].
      intros x r3 X. apply fol_ret_bind.
      assert ((lenZ x < 2 ^ 62)%Z) as LX by (pose proof (b2n_lt n); unfold lenN, lenZ in *; lia).
      eapply fol_ext; [intro s; apply bind_same, opts_part; exact V | intro s; apply bind_same, opts_part; exact V | reflexivity|]. cbv beta. apply fol_assoc.
      apply (fol_with _ _ _ _ (optional_walk (b2n u)) _ (opts_rel (b2n u))); [exact LX | exact IO | apply fol_core|].
      intros a b t t' Go_ Rab ST ST' LT. rewrite Go_. cbn [fst snd]. apply fol_assoc. apply (fol_bind _ _ _ _ _ _ any); [apply fol_iv, Rab|]. intros [] [] r4 _.
      apply fol_bind_none; [apply fol_part_rest; assumption | apply K2].
  - apply fol_ret_bind. eapply fol_ext; [intro s; apply bind_same, opts_own; exact V | intro s; apply bind_same, opts_own; exact V | reflexivity|]. apply fol_assoc.
    apply (fol_bind _ _ _ _ _ _ (opts_rel (b2n u))); [apply fol_core|]. intros a b r2 Rab. apply (fol_bind _ _ _ _ _ _ any); [apply fol_iv, Rab|]. intros [] [] r3 _.
    apply fol_ret_bind. unfold sec_material. change (v_num (PubVer v)) with (b2n v). rewrite V. upd_. destruct (b2n u =? 0).
    + apply fol_assoc. unfold opt_run. apply fol_assoc. apply fol_small. intro LS. apply (fol_bind _ _ _ _ _ _ any); [apply fol_plain; assumption|]. intros [] [] r4 _.
      apply fol_ret_bind. apply fol_assoc. apply fol_keep; [reflexivity | reflexivity|]. intros c r6 _. apply fol_assoc. upd_. apply fol_ret_bind. apply fol_ret. exact Logic.I.
    + unfold opt_run. apply fol_assoc. apply (fol_end _ _ _ _ _ any); [apply fol_enc, Q|]. intros [] [] r4 _. apply fol_ret_bind. apply fol_ret. exact Logic.I.
Qed.
End Off.
