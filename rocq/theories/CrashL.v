(** * CrashL: where the secret-key parser can panic. *)
From Coq Require Import Strings.String Strings.Byte List NArith ZArith Bool Lia ZifyBool ZifyN ZifyNat.
From Verif Require Import Base Utf8 Item Reader Context Env Time Values Monad Pubkey S2k Subs Tags.
From Verif Require Import SpecBase BaseL SpecReader ReaderL MonadL SpecPacket PacketL TagL SpecCrash.
Import ListNotations.
Local Open Scope Z_scope.

(** From readers in P, [m] ends in Q, fails, or panics and R holds. *)
Definition hp {A} (R : Prop) (P : reader -> Prop) (m : M A) (Q : A -> reader -> Prop) : Prop :=
  forall s, P (s_rd s) ->
  match m s with (ROk a, s') => Q a (s_rd s') | (RPanic, _) => R | _ => True end.

(** The reader is over B with p still to read; somewhere in B. *)
Definition AT (B p : bytes) (r : reader) : Prop := r = at_ B p /\ suf B p.
Definition IN (B : bytes) (r : reader) : Prop := exists p, AT B p r.

Lemma app_inv_tail_len {A} (x y p q : list A) : x ++ p = y ++ q -> length p = length q -> p = q.
Proof.
  intros H L. assert (length x = length y) as K by (apply (f_equal (@length A)) in H; rewrite !app_length in H; lia).
  revert y K H. induction x as [|a x IH]; intros [|b y] K H; try discriminate K; [exact H|]. injection H as _ H. injection K as K. eauto.
Qed.
Lemma at_inj B p q : suf B p -> suf B q -> at_ B p = at_ B q -> p = q.
Proof.
  intros [[x X] _] [[y Y] _] H. unfold at_ in H. injection H as H. assert (lenZ p = lenZ q) as L by lia.
  rewrite X in Y. apply (app_inv_tail_len x y p q) in Y; [exact Y|]. unfold lenZ in L. lia.
Qed.

Section Hp.
  Variable R : Prop.
  Lemma hp_ret {A} (a : A) (P : reader -> Prop) (Q : A -> reader -> Prop) : (forall r, P r -> Q a r) -> hp R P (ret a) Q.
  Proof. intros H s K. cbn. auto. Qed.
  Lemma hp_bind {A B} (m : M A) (f : A -> M B) P Q Q' :
    hp R P m Q -> (forall a, hp R (Q a) (f a) Q') -> hp R P (bind m f) Q'.
  Proof.
    intros H K s Hs. specialize (H s Hs). unfold bind. destruct (m s) as [[a|e| |] s']; try exact Logic.I; [apply K; exact H | exact H].
  Qed.
  Lemma hp_pre {A} (m : M A) (P P' : reader -> Prop) Q : (forall r, P' r -> P r) -> hp R P m Q -> hp R P' m Q.
  Proof. intros H K s Hs. apply K. apply H. exact Hs. Qed.
  Lemma hp_post {A} (m : M A) P (Q Q' : A -> reader -> Prop) : (forall a r, Q a r -> Q' a r) -> hp R P m Q -> hp R P m Q'.
  Proof. intros H K s Hs. specialize (K s Hs). destruct (m s) as [[a|e| |] s']; auto. Qed.
  Lemma hp_ex {A X} (m : M A) (P : X -> reader -> Prop) Q : (forall x, hp R (P x) m Q) -> hp R (fun r => exists x, P x r) m Q.
  Proof. intros H s [x Hs]. exact (H x s Hs). Qed.
  Lemma hp_and {A} (m : M A) (X : Prop) (P : reader -> Prop) Q : (X -> hp R P m Q) -> hp R (fun r => X /\ P r) m Q.
  Proof. intros H s [x Hs]. exact (H x s Hs). Qed.
  Lemma hp_upd f P : hp R P (upd f) (fun _ => P).
  Proof. intros s H. exact H. Qed.
  Lemma hp_add i P : hp R P (add i) (fun _ => P).
  Proof. intros s H. exact H. Qed.
  Lemma hp_child {A} it (m : M A) P Q : hp R P m Q -> hp R P (child it m) Q.
  Proof.
    intros H s Hs. unfold child. specialize (H (mkSt (s_rd s) (s_cs s) it) Hs).
    destruct (m _) as [[a|e| |] s']; exact H.
  Qed.
  Lemma hp_with {A} r (m : M A) (P P' : reader -> Prop) Q : P' r -> hp R P' m Q -> hp R P (with_rd r m) (fun p r' => Q (fst p) (snd p) /\ P r').
  Proof.
    intros Hr H s Hs. unfold with_rd. specialize (H (mkSt r (s_cs s) (s_cur s)) Hr).
    destruct (m _) as [[a|e| |] s']; try exact Logic.I; cbn; auto.
  Qed.

  Lemma hp_rdByte B p : hp R (AT B p) rdByte (fun b r => exists p', p = b :: p' /\ AT B p' r).
  Proof.
    intros [rd cs it] [Hr Hs]. cbn in Hr. subst rd. change (mkSt (at_ B p) cs it) with (sat B p cs it).
    destruct p as [|b p']; [rewrite rdByte_eof by exact Hs; exact Logic.I|]. rewrite rdByte_at by exact Hs.
    exists p'. split; [reflexivity|]. split; [reflexivity | eapply suf_cons; exact Hs].
  Qed.
  Lemma hp_rdBytes B p n : 0 <= n < 2 ^ 62 ->
    hp R (AT B p) (rdBytes n) (fun l r => exists p', (p = l ++ p' /\ lenZ l = n) /\ AT B p' r).
  Proof.
    intros Hn [rd cs it] [Hr Hs]. cbn in Hr. subst rd. change (mkSt (at_ B p) cs it) with (sat B p cs it).
    destruct (Z_lt_dec (lenZ p) n) as [L|G]; [rewrite rdBytes_short by (assumption || lia); exact Logic.I|].
    pose proof (firstn_skipn (Z.to_nat n) p) as Hp. set (l := firstn (Z.to_nat n) p) in *. set (q := skipn (Z.to_nat n) p) in *.
    assert (n = lenZ l) as Hl by (unfold l, lenZ in *; rewrite firstn_length; lia).
    rewrite <- Hp in Hs |- *. rewrite (rdBytes_at B l q n) by assumption.
    exists q. split; [auto|]. split; [reflexivity | eapply suf_app; exact Hs].
  Qed.
  Lemma hp_rdRest B p : hp R (AT B p) rdRest (fun z r => z = lenZ p /\ AT B p r).
  Proof. intros [rd cs it] [Hr Hs]. cbn in Hr. subst rd. cbn. rewrite rest_at by exact Hs. split; [reflexivity | split; [reflexivity | exact Hs]]. Qed.
  Lemma hp_dumpRest f B p : hp R (AT B p) (dumpRest f) (fun _ => AT B p).
  Proof.
    intros [rd cs it] [Hr Hs]. cbn in Hr. subst rd. change (mkSt (at_ B p) cs it) with (sat B p cs it). rewrite dumpRest_at by exact Hs.
    split; [reflexivity | exact Hs].
  Qed.
  Lemma hp_addRest n f B p : hp R (AT B p) (addRest n f) (fun _ => AT B p).
  Proof.
    intros [rd cs it] [Hr Hs]. cbn in Hr. subst rd. change (mkSt (at_ B p) cs it) with (sat B p cs it). rewrite addRest_at by exact Hs.
    split; [reflexivity | exact Hs].
  Qed.
  Lemma hp_rdSeek a b B p : hp R (AT B p) (rdSeek a b) (fun _ => IN B).
  Proof.
    intros [rd cs it] [Hr Hs]. cbn in Hr. subst rd. unfold rdSeek, on_rd. cbn [s_rd].
    pose proof (seek_weak a b (at_ B p) ltac:(apply Hs)) as H. destruct (r_seek a b (at_ B p)) as [x r'].
    destruct H as (H1 & H2 & H3). destruct x; try exact Logic.I; [|discriminate H1].
    cbn [s_rd]. destruct H3 as [->|H3]; [exists p; split; [reflexivity | exact Hs]|].
    destruct (in_buffer_at r' H3 ltac:(rewrite H2; apply Hs)) as [K1 K2]. rewrite H2 in K1, K2. cbn [at_ r_buf] in *.
    exists (remaining r'). split; assumption.
  Qed.
  Lemma hp_suf {A} (m : M A) B p Q : (suf B p -> hp R (AT B p) m Q) -> hp R (AT B p) m Q.
  Proof. intros H s Hs. exact (H (proj2 Hs) s Hs). Qed.
  (** With the place forgotten. *)
  Lemma hp_in {A} (m : M A) B Q : (forall p, hp R (AT B p) m Q) -> hp R (IN B) m Q.
  Proof. intros H s [p Hs]. exact (H p s Hs). Qed.
  Lemma hp_rdByte_in B : hp R (IN B) rdByte (fun _ => IN B).
  Proof. apply hp_in. intro p. eapply hp_post; [|apply hp_rdByte]. intros a r (p' & _ & H). exists p'; exact H. Qed.
  Lemma hp_rdBytes_in B n : 0 <= n < 2 ^ 62 -> hp R (IN B) (rdBytes n) (fun _ => IN B).
  Proof. intro Hn. apply hp_in. intro p. eapply hp_post; [|apply hp_rdBytes; exact Hn]. intros a r (p' & _ & H). exists p'; exact H. Qed.
  Lemma hp_newMPI B : hp R (IN B) newMPI (fun _ => IN B).
  Proof.
    apply hp_in. intro p. unfold newMPI. eapply hp_bind; [apply hp_rdBytes; lia|]. intro l. cbv beta zeta. apply hp_ex. intro p'. apply hp_and.
    intros [_ Hl]. eapply hp_bind; [eapply hp_pre; [|apply hp_rdBytes_in]|].
    - intros r H. exists p'. exact H.
    - pose proof (be_lt l) as K. assert (lenN l = 2)%N as X by (rewrite lenZ_lenN in Hl; lia). rewrite X in K. change (256 ^ 2)%N with 65536%N in K.
      split; [apply Z.div_pos; lia|]. apply Z.div_lt_upper_bound; lia.
    - intro d. cbv beta. apply hp_ret. auto.
  Qed.
  Lemma hp_newOID B : hp R (IN B) newOID (fun _ => IN B).
  Proof.
    unfold newOID. eapply hp_bind; [apply hp_rdByte_in|]. intro l. cbv beta. destruct (_ =? 0)%N; [apply hp_ret; auto|].
    apply hp_rdBytes_in. pose proof (b2n_lt l). lia.
  Qed.
  Lemma hp_newECParm B : hp R (IN B) newECParm (fun _ => IN B).
  Proof.
    intros s Hs. unfold newECParm. pose proof (hp_rdByte_in B s Hs) as H. pose proof Hs as (p & Hr & Hp).
    destruct (rdByte s) as [[l|e| |] s'] eqn:X; try exact Logic.I; [|  | exact H].
    - cbv beta in H. destruct (_ =? 0)%N; [exact H|]. apply (hp_rdBytes_in B). pose proof (b2n_lt l). lia. exact H.
    - destruct s as [rd cs it]. cbn in Hr. subst rd. change (mkSt (at_ B p) cs it) with (sat B p cs it) in X.
      destruct p as [|b p]; [rewrite rdByte_eof in X by exact Hp | rewrite rdByte_at in X by exact Hp; discriminate X].
      injection X as _ <-. exact Hs.
  Qed.
  Lemma hp_addMPI o n B : hp R (IN B) (addMPI o n) (fun _ => IN B).
  Proof. unfold addMPI. eapply hp_bind; [apply hp_newMPI|]. intro. cbv beta. apply hp_add. Qed.
  Lemma hp_addPoint o n B : hp R (IN B) (addPoint o n) (fun _ => IN B).
  Proof. unfold addPoint. eapply hp_bind; [apply hp_newMPI|]. intro. cbv beta. apply hp_add. Qed.
  Lemma hp_addOID B : hp R (IN B) addOID (fun _ => IN B).
  Proof. unfold addOID. eapply hp_bind; [apply hp_newOID|]. intro. cbv beta. apply hp_add. Qed.
  Lemma hp_addSized o z n B p : hp R (AT B p) (addSized o z n) (fun _ => AT B p).
  Proof. unfold addSized. eapply hp_bind; [apply hp_dumpRest|]. intro. cbv beta. apply hp_add. Qed.

End Hp.

Ltac hps :=
    cbv beta;
    lazymatch goal with
    | |- hp _ _ (bind _ _) _ => eapply hp_bind; [hps | intro; hps]
    | |- hp _ (IN _) (addMPI _ _) _ => apply hp_addMPI
    | |- hp _ (IN _) (addPoint _ _) _ => apply hp_addPoint
    | |- hp _ (IN _) addOID _ => apply hp_addOID
    | |- hp _ (IN _) newECParm _ => apply hp_newECParm
    | |- hp _ _ (add _) _ => apply hp_add
    end.

Section Sec.
  Variable R : Prop.
  (** Public material: an algorithm without layout reads nothing. *)
  Lemma hp_parsePub o a B p :
    hp R (AT B p) (parsePub o a) (fun _ r => (sec_layout (b2n a) = None -> AT B p r) /\ IN B r).
  Proof.
    unfold parsePub. eapply hp_bind; [apply hp_rdRest|]. intro z. cbv beta. apply hp_and. intros _.
    assert (forall m : M unit, sec_layout (b2n a) <> None -> hp R (IN B) m (fun _ => IN B) ->
      hp R (AT B p) m (fun _ r => (sec_layout (b2n a) = None -> AT B p r) /\ IN B r)) as K.
    { intros m N H. eapply hp_pre; [|eapply hp_post; [|exact H]]; [intros r X; exists p; exact X|]. intros ? r X. split; [congruence | exact X]. }
    destruct a; (apply K; [discriminate|]; cbv [isRSA isDSA isElgamal isECDH isECDSA isEdDSA];
      cbn [b2n Byte.to_N N.eqb N.leb N.compare Pos.eqb Pos.compare Pos.compare_cont andb orb Pos.leb];
      cbv [rsaPub dsaPub elgPub ecdhPub ecdsaPub eddsaPub]; solve [hps])
    || (eapply hp_post; [|apply hp_addSized]; intros ? r X; split; [intros _; exact X | exists p; exact X]).
  Qed.

  Lemma hp_s2k f B p : hp R (AT B p) (s2k_parse f) (fun iv r => (iv = false -> gnu_s2k p) /\ IN B r).
  Proof.
    unfold s2k_parse. eapply hp_bind; [apply hp_rdByte|]. intro ss. cbv beta. apply hp_ex. intro p'. apply hp_and. intros ->.
    apply hp_child. unfold s2k_fields. cbv zeta.
    assert (forall r, AT B p' r -> IN B r) as AI by (intros r H; exists p'; exact H).
    destruct ((b2n ss =? 0) || (b2n ss =? 1) || (b2n ss =? 3))%N.
    - eapply hp_bind; [eapply hp_pre; [exact AI | apply hp_rdByte_in]|]. intro h. cbv beta.
      eapply hp_bind; [apply hp_add|]. intro. cbv beta.
      eapply hp_bind with (Q := fun _ => IN B).
      { destruct (negb _); [|apply hp_ret; auto]. eapply hp_bind; [apply hp_rdBytes_in; lia|]. intro. cbv beta. apply hp_add. }
      intro. cbv beta. eapply hp_bind with (Q := fun _ => IN B).
      { destruct (_ =? 3)%N; [|apply hp_ret; auto]. eapply hp_bind; [apply hp_rdByte_in|]. intro. cbv beta. apply hp_add. }
      intro. cbv beta. apply hp_ret. intros r H. split; [discriminate | exact H].
    - destruct (b2n ss =? 101)%N eqn:S101; [|apply hp_ret; intros r H; split; [discriminate | apply AI; exact H]].
      assert (ss = n2b 101) as -> by (apply b2n_inj; apply N.eqb_eq in S101; rewrite S101; reflexivity).
      eapply hp_bind; [apply hp_rdRest|]. intro z. cbv beta. apply hp_and. intros ->.
      destruct (lenZ p' <? 4); [apply hp_ret; intros r H; split; [discriminate | apply AI; exact H]|].
      eapply hp_bind; [apply hp_rdBytes; lia|]. intro mrk. cbv beta. apply hp_ex. intro p2. apply hp_and. intros [-> L3].
      destruct (beqs mrk (str "GNU")) eqn:G.
      + apply beqs_spec in G. subst mrk. eapply hp_bind; [apply hp_rdByte|]. intro k. cbv beta. apply hp_ex. intro p3. apply hp_and. intros ->.
        eapply hp_bind with (Q := fun _ => IN B).
        { eapply hp_pre with (P := IN B); [intros r H; exists p3; exact H|]. destruct (_ =? 1002)%N; [|apply hp_ret; auto].
          eapply hp_bind; [apply hp_rdByte_in|]. intro l. cbv beta. eapply hp_bind; [apply hp_rdBytes_in; pose proof (b2n_lt l); lia|].
          intro. cbv beta. apply hp_ret. auto. }
        intro g. cbv beta. eapply hp_bind; [apply hp_add|]. intro. cbv beta. apply hp_ret. intros r H. split; [|exact H].
        intros _. exists k, p3. reflexivity.
      + eapply hp_bind; [apply hp_rdSeek|]. intro. cbv beta. apply hp_ret. intros r H. split; [discriminate | exact H].
  Qed.

  Lemma hp_secPlain o a B q : (sec_layout (b2n a) = None -> lenZ q = 1 -> R) -> hp R (AT B q) (parseSecPlain o a) (fun _ => IN B).
  Proof.
    intro HR. unfold parseSecPlain. eapply hp_bind; [apply hp_rdRest|]. intro z. cbv beta. apply hp_and. intros ->.
    assert (forall m : M unit, hp R (IN B) m (fun _ => IN B) -> hp R (AT B q) m (fun _ => IN B)) as K.
    { intros m H. eapply hp_pre; [|exact H]. intros r X; exists q; exact X. }
    assert (sec_layout (b2n a) = None -> hp R (AT B q) (unknownSec o (lenZ q) a) (fun _ => IN B)) as UK.
    { intro SL. unfold unknownSec. cbv zeta. eapply hp_bind with (Q := fun _ => IN B); [|intro; apply hp_add].
      pose proof (lenZ_nonneg q). destruct (Z_lt_dec (lenZ q) 2) as [L|G].
      - destruct (Z.eq_dec (lenZ q) 1) as [E|E].
        + intros s Hs. destruct (rdBytes _ s) as [[| | |] s'] eqn:X; try exact Logic.I; [|apply HR; assumption].
          exfalso. destruct s as [rd cs it], Hs as [Hr Hs]. cbn in Hr. subst rd. unfold rdBytes, on_rd, r_readbytes in X. cbn [s_rd] in X.
          rewrite E in X. change (1 - 2 =? 0) with false in X. cbv iota in X. destruct (suf_len _ _ Hs) as [L1 L2].
          unfold r_size in X. cbn [at_ r_off r_buf] in X. rewrite wrap64_small in X by lia.
          destruct (_ >=? _); [discriminate X|]. destruct (_ >? _); [discriminate X|].
          replace (lenZ B - lenZ q + (1 - 2) <? lenZ B - lenZ q) with true in X by lia. rewrite orb_true_r in X. discriminate X.
        + assert (q = []) as -> by (destruct q as [|b q]; [reflexivity | rewrite lenZ_cons in *; pose proof (lenZ_nonneg q); lia]).
          intros s [Hr Hs]. destruct s as [rd cs it]. cbn in Hr. subst rd. unfold rdBytes, on_rd, r_readbytes, r_size. cbn [s_rd at_ r_off r_buf].
          rewrite lenZ_nil. change (0 - 2 =? 0) with false. cbv iota. replace (lenZ B - 0 >=? lenZ B) with true by lia. exact Logic.I.
      - apply hp_suf. intro SF. apply suf_len in SF. eapply hp_pre; [|apply hp_rdBytes_in; lia]. intros r X; exists q; exact X. }
    destruct a; (apply K; cbv [isRSA isDSA isElgamal isECDH isECDSA isEdDSA];
      cbn [b2n Byte.to_N N.eqb N.leb N.compare Pos.eqb Pos.compare Pos.compare_cont andb orb Pos.leb];
      cbv [rsaSec]; solve [hps])
    || (apply UK; reflexivity).
  Qed.
  Lemma hp_secEnc o a B q : hp R (AT B q) (parseSecEnc o a) (fun _ => IN B).
  Proof.
    unfold parseSecEnc. eapply hp_bind; [apply hp_rdRest|]. intro z. cbv beta. apply hp_and. intros _.
    eapply hp_bind; [apply hp_addSized|]. intro. cbv beta. eapply hp_bind; [apply hp_rdSeek|]. intro. cbv beta. apply hp_ret. auto.
  Qed.

  Lemma ivlen_range c : 0 <= sym_ivlen c < 2 ^ 62.
  Proof. unfold sym_ivlen. destruct (_ <=? 6)%N; [lia|]. destruct (_ <=? 13)%N; lia. Qed.

  (** The optional fields, read from the packet itself. *)
  Lemma hp_opts_main o ver u B q : v_num ver <> 5%N ->
    hp R (AT B q) (sec_opts o ver u None) (fun _ r => (u = 0%N -> AT B q r) /\ IN B r).
  Proof.
    intro NV. unfold sec_opts. destruct (u =? 0)%N eqn:U0; cbn [negb andb].
    - apply N.eqb_eq in U0. subst u. cbn [N.eqb].
      eapply hp_bind with (Q := fun _ => AT B q); [apply hp_ret; intros r H; exact H|]. intros [x ro]. cbv beta.
      eapply hp_bind with (Q := fun _ => AT B q); [apply hp_ret; intros r H; exact H|]. intros [y ro']. cbv beta.
      eapply hp_bind with (Q := fun _ => AT B q); [apply hp_ret; intros r H; exact H|]. intros [z ro'']. cbv beta.
      eapply hp_bind with (Q := fun _ => AT B q); [apply hp_ret; intros r H; exact H|]. intro. cbv beta.
      replace (v_num ver =? 5)%N with false by lia. apply hp_ret. intros r H. split; [auto | exists q; exact H].
    - assert (forall A (m : M A) (Q : reader -> Prop), hp R (IN B) m (fun _ => IN B) -> hp R (IN B) (opt_run None m) (fun p r => snd p = None /\ IN B r)) as OR.
      { intros A m Q H. unfold opt_run. eapply hp_bind; [exact H|]. intro a. cbv beta. apply hp_ret. auto. }
      eapply hp_pre with (P := IN B); [intros r H; exists q; exact H|].
      eapply hp_bind; [apply OR; [exact (fun _ => True)|]; eapply hp_bind; [apply hp_rdByte_in|]; intro; eapply hp_bind; [apply hp_add|]; intro; apply hp_ret; auto|].
      intros [symid ro]. cbv beta. apply hp_and. cbn [snd]. intros ->.
      eapply hp_bind with (Q := fun p r => snd p = None /\ IN B r).
      { destruct (u =? 253)%N; [|apply hp_ret; auto]. apply OR; [exact (fun _ => True)|]. eapply hp_bind; [apply hp_rdByte_in|]. intro. apply hp_add. }
      intros [x ro]. cbv beta. apply hp_and. cbn [snd]. intros ->.
      eapply hp_bind with (Q := fun p r => snd p = None /\ IN B r).
      { destruct (usage_s2k u); [|apply hp_ret; auto]. apply OR; [exact (fun _ => True)|]. apply hp_in. intro p. eapply hp_post; [|apply hp_s2k].
        intros a r [_ H]. exact H. }
      intros [hasIV ro]. cbv beta. apply hp_and. cbn [snd]. intros ->.
      eapply hp_bind with (Q := fun _ => IN B).
      { destruct hasIV; [|apply hp_ret; auto]. eapply hp_bind with (Q := fun _ => IN B); [unfold sec_iv; eapply hp_bind; [apply hp_rdBytes_in, ivlen_range|]; intro; apply hp_ret; intros r H; exact H|].
        intro. cbv beta. apply hp_add. }
      intro. cbv beta. replace (v_num ver =? 5)%N with false by lia. apply hp_ret. intros r H. split; [|exact H]. intros ->. discriminate U0.
  Qed.

  (** The optional fields of version 5, read from a part of the packet. *)
  Lemma hp_opts_own o ver u opt B q : v_num ver = 5%N -> opt <> [] -> suf opt opt ->
    hp R (AT B q) (sec_opts o ver u (Some (r_new opt))) (fun _ r => exists iv q', (q = iv ++ q' /\ taken_iv u opt iv) /\ AT B q' r).
  Proof.
    intros V5 NE SO. unfold sec_opts. rewrite V5. cbn [N.eqb Pos.eqb].
    assert (forall A (m : M A) r (P : reader -> Prop) (Q : A -> reader -> Prop), P r -> hp R P m Q ->
      hp R (AT B q) (opt_run (Some r) m) (fun p rd => (exists r', snd p = Some r' /\ Q (fst p) r') /\ AT B q rd)) as OR.
    { intros A m r P Q Hr H. unfold opt_run. eapply hp_bind; [apply (hp_with R r m (AT B q) P Q Hr H)|]. intros [a r']. cbv beta.
      apply hp_ret. intros rd [H1 H2]. cbn [fst snd] in *. split; [exists r'; auto | exact H2]. }
    destruct opt as [|c opt']; [congruence|]. rewrite at_new.
    destruct (u =? 0)%N eqn:U0; cbn [negb andb].
    - apply N.eqb_eq in U0. subst u. cbn [N.eqb].
      eapply hp_bind with (Q := fun p rd => snd p = Some (at_ (c :: opt') (c :: opt')) /\ AT B q rd); [apply hp_ret; auto|].
      intros [x ro]. cbv beta. apply hp_and. cbn [snd]. intros ->.
      eapply hp_bind with (Q := fun p rd => snd p = Some (at_ (c :: opt') (c :: opt')) /\ AT B q rd); [apply hp_ret; auto|].
      intros [y ro]. cbv beta. apply hp_and. cbn [snd]. intros ->.
      eapply hp_bind with (Q := fun p rd => (fst p = false /\ snd p = Some (at_ (c :: opt') (c :: opt'))) /\ AT B q rd); [apply hp_ret; auto|].
      intros [z ro]. cbv beta. apply hp_and. cbn [fst snd]. intros [-> ->].
      eapply hp_bind with (Q := fun _ => AT B q); [apply hp_ret; intros r H; exact H|]. intro. cbv beta.
      eapply hp_bind; [eapply (OR _ _ _ (AT (c :: opt') (c :: opt'))); [split; [reflexivity | exact SO] | apply hp_addRest]|].
      intro. cbv beta. apply hp_ret. intros r [_ H]. exists [], q. split; [split; [reflexivity | apply iv_none; auto] | exact H].
    - eapply hp_bind; [eapply (OR _ _ _ (AT (c :: opt') (c :: opt'))) with (Q := fun a r => a = c /\ AT (c :: opt') opt' r); [split; [reflexivity | exact SO]|]|].
      { eapply hp_bind; [apply hp_rdByte|]. intro b. cbv beta. apply hp_ex. intro p'. apply hp_and. intro E. injection E as <- <-.
        eapply hp_bind; [apply hp_add|]. intro. cbv beta. apply hp_ret. auto. }
      intros [symid ro]. cbn [fst snd]. apply hp_and. intros (r1 & -> & -> & H1).
      set (mid := if (u =? 253)%N then tl opt' else opt').
      eapply hp_bind with (Q := fun p rd => (exists r', snd p = Some r' /\ AT (c :: opt') mid r') /\ AT B q rd).
      { unfold mid. destruct (u =? 253)%N; [|apply hp_ret; intros r H; split; [exists r1; auto | exact H]].
        eapply (OR _ _ r1 (AT (c :: opt') opt')) with (Q := fun _ r => AT (c :: opt') (tl opt') r); [exact H1|].
        eapply hp_bind; [apply hp_rdByte|]. intro b. cbv beta. apply hp_ex. intro p'. apply hp_and. intros ->. apply hp_add. }
      intros [x ro]. cbn [snd]. apply hp_and. intros (r2 & -> & H2).
      eapply hp_bind with (Q := fun p rd => (exists r', snd p = Some r' /\ (fst p = false -> gnu_s2k mid) /\ IN (c :: opt') r') /\ AT B q rd).
      { destruct (usage_s2k u).
        - eapply (OR _ _ r2 (AT (c :: opt') mid)) with (Q := fun iv r => (iv = false -> gnu_s2k mid) /\ IN (c :: opt') r); [exact H2 | apply hp_s2k].
        - apply hp_ret. intros r H. split; [|exact H]. exists r2. split; [reflexivity|]. split; [discriminate | exists mid; exact H2]. }
      intros [hasIV ro]. cbn [fst snd]. apply hp_and. intros (r3 & -> & H3 & p4 & H4).
      eapply hp_bind with (Q := fun _ r => exists iv q', (q = iv ++ q' /\ taken_iv u (c :: opt') iv) /\ AT B q' r).
      { destruct hasIV.
        - eapply hp_bind with (Q := fun _ r => exists iv q', (q = iv ++ q' /\ taken_iv u (c :: opt') iv) /\ AT B q' r); [|intro; apply hp_add].
          unfold sec_iv. eapply hp_bind; [apply hp_rdBytes, ivlen_range|]. intro iv. cbv beta. apply hp_ret. intros r (q' & [K1 K2] & K3).
          exists iv, q'. split; [split; [exact K1|] | exact K3]. apply iv_cipher with (c := c) (r := opt'); [lia | reflexivity|].
          rewrite cipher_iv_eq, lenZ_lenN in K2. lia.
        - apply hp_ret. intros r H. exists [], q. split; [split; [reflexivity|] | exact H].
          apply iv_gnu with (c := c) (r := opt'); [lia | reflexivity | apply H3; reflexivity | reflexivity]. }
      intro. cbv beta. apply hp_ex. intro iv. apply hp_ex. intro q'. apply hp_and. intros [K1 K2].
      assert (hp R (AT B q') (opt_run (Some r3) (addRest sUnknownData (oDebug o))) (fun _ => AT B q')) as LAST.
      { unfold opt_run. eapply hp_bind; [eapply (hp_with R r3 _ (AT B q') (AT (c :: opt') p4)); [exact H4 | apply hp_addRest]|]. intros [? r']. cbv beta.
        apply hp_ret. intros rd [_ H]. exact H. }
      eapply hp_bind; [exact LAST|]. intro. cbv beta. apply hp_ret. intros r H. exists iv, q'. auto.
  Qed.

  (** Where the secret part starts, after the version [v] and the public part, both from [p]. *)
  Definition pub_done (B p : bytes) (v pub : byte) (r : reader) : Prop :=
    match b2n v with
    | 5%N => exists t l mat p', (p = t ++ [pub] ++ l ++ mat ++ p' /\ length t = 4%nat /\ length l = 4%nat /\ be l = lenN mat) /\ AT B p' r
    | 4%N => (sec_layout (b2n pub) = None -> exists t p', (p = t ++ [pub] ++ p' /\ length t = 4%nat) /\ AT B p' r) /\ IN B r
    | 3%N => (sec_layout (b2n pub) = None -> exists t d p', (p = t ++ d ++ [pub] ++ p' /\ length t = 4%nat /\ length d = 2%nat) /\ AT B p' r) /\ IN B r
    | _ => AT B p r
    end.

  Lemma len_nat (l : bytes) n : lenZ l = Z.of_nat n -> length l = n.
  Proof. unfold lenZ. lia. Qed.

  Lemma hp_keyTime o E B p : hp R (AT B p) (keyTime o E) (fun _ r => exists t p', (p = t ++ p' /\ length t = 4%nat) /\ AT B p' r).
  Proof.
    unfold keyTime, newDateTime. eapply hp_bind with (Q := fun _ r => exists t p', (p = t ++ p' /\ length t = 4%nat) /\ AT B p' r).
    - eapply hp_bind; [apply hp_rdBytes; lia|]. intro t. cbv beta. apply hp_ret. intros r (p' & [H1 H2] & H3).
      exists t, p'. split; [split; [exact H1 | apply len_nat; exact H2] | exact H3].
    - intro tm. cbv beta. eapply hp_bind with (Q := fun _ r => exists t p', (p = t ++ p' /\ length t = 4%nat) /\ AT B p' r).
      + intros s H. exact H.
      + intro. apply hp_add.
  Qed.
  Lemma hp_keyAlg o B p : hp R (AT B p) (keyAlg o) (fun a r => exists p', p = a :: p' /\ AT B p' r).
  Proof.
    unfold keyAlg. eapply hp_bind; [apply hp_rdByte|]. intro a. cbv beta. eapply hp_bind; [apply hp_add|]. intro. cbv beta. apply hp_ret. auto.
  Qed.

  Lemma hp_pub o E v B p : hp R (AT B p) (pub_parse o E (PubVer v)) (fun a r => pub_done B p v a r).
  Proof.
    destruct (in_dec N.eq_dec (b2n v) [3; 4; 5]%N) as [I|I].
    - assert (b2n v = 3 \/ b2n v = 4 \/ b2n v = 5)%N as [V|[V|V]] by (cbn [In] in I; lia);
        unfold pub_parse, v_isdraft, v_iscur, v_isold, v_num, PubVer, pub_done; cbn [v_ver v_cur v_draft]; rewrite V; cbn [N.eqb Pos.eqb N.ltb N.compare Pos.compare Pos.compare_cont andb].
      + unfold pubV3. eapply hp_bind; [apply hp_keyTime|]. intro. cbv beta. apply hp_ex. intro t. apply hp_ex. intro p1. apply hp_and. intros [-> Lt].
        eapply hp_bind; [apply hp_rdBytes; lia|]. intro d. cbv beta. apply hp_ex. intro p2. apply hp_and. intros [-> Ld].
        eapply hp_bind; [apply hp_add|]. intro. cbv beta. eapply hp_bind; [apply hp_keyAlg|]. intro al. cbv beta. apply hp_ex. intro p3. apply hp_and. intros ->.
        eapply hp_bind; [apply hp_parsePub|]. intro. cbv beta. apply hp_ret. intros r [H1 H2]. split; [|exact H2].
        intro SL. exists t, d, p3. split; [split; [reflexivity | split; [exact Lt | apply len_nat; exact Ld]] | exact (H1 SL)].
      + unfold pubV4. eapply hp_bind; [apply hp_keyTime|]. intro. cbv beta. apply hp_ex. intro t. apply hp_ex. intro p1. apply hp_and. intros [-> Lt].
        eapply hp_bind; [apply hp_keyAlg|]. intro al. cbv beta. apply hp_ex. intro p3. apply hp_and. intros ->.
        eapply hp_bind; [apply hp_parsePub|]. intro. cbv beta. apply hp_ret. intros r [H1 H2]. split; [|exact H2].
        intro SL. exists t, p3. split; [split; [reflexivity | exact Lt] | exact (H1 SL)].
      + unfold pubV5. eapply hp_bind; [apply hp_keyTime|]. intro. cbv beta. apply hp_ex. intro t. apply hp_ex. intro p1. apply hp_and. intros [-> Lt].
        eapply hp_bind; [apply hp_keyAlg|]. intro al. cbv beta. apply hp_ex. intro p3. apply hp_and. intros ->.
        eapply hp_bind; [apply hp_rdBytes; lia|]. intro l. cbv beta. apply hp_ex. intro p4. apply hp_and. intros [-> Ll].
        pose proof (be_lt l) as BL. assert (lenN l = 4)%N as X by (rewrite lenZ_lenN in Ll; lia). rewrite X in BL. change (256 ^ 4)%N with (2 ^ 32)%N in BL.
        eapply hp_bind; [apply hp_rdBytes; lia|]. intro mat. cbv beta. apply hp_ex. intro p5. apply hp_and. intros [-> Lm]. apply hp_suf. intro SF.
        assert (suf mat mat) as SM.
        { apply suf_refl. rewrite lenZ_lenN in *. lia. }
        eapply hp_bind; [apply (hp_with R (r_new mat) _ (AT B p5) (AT mat mat)); [rewrite at_new; split; [reflexivity | exact SM] | apply hp_parsePub]|].
        intro. cbv beta. apply hp_ret. intros r [_ H]. exists t, l, mat, p5. split; [|exact H].
        split; [reflexivity|]. split; [exact Lt|]. split; [apply len_nat; exact Ll|]. rewrite lenZ_lenN in Lm. lia.
    - rewrite pub_parse_other by exact I. apply hp_ret. intros r H. unfold pub_done.
      destruct (b2n v) as [|q]; [exact H|]. destruct q as [[q|[q|q|]|]|[q|[q|q|]|]|]; try exact H; exfalso; apply I; cbn [In]; auto.
  Qed.

  Lemma hp_readLen4 B p : ((length p < 4)%nat -> R) ->
    hp R (AT B p) readLen4 (fun l r => exists p', (p = l ++ p' /\ lenZ l = 4) /\ AT B p' r).
  Proof.
    intros HR s Hs. pose proof (hp_rdBytes R B p 4 ltac:(lia) s Hs) as H. unfold readLen4.
    destruct (rdBytes 4 s) as [[a|e| |] s'] eqn:X; try exact H. cbv iota.
    destruct (lt_dec (length p) 4) as [L|G]; [apply HR; exact L|]. exfalso.
    destruct s as [rd cs it], Hs as [Hr Hs]. cbn in Hr. subst rd. change (mkSt (at_ B p) cs it) with (sat B p cs it) in X.
    rewrite <- (firstn_skipn 4 p) in X, Hs. rewrite (rdBytes_at B (firstn 4 p) (skipn 4 p) 4) in X; [discriminate X| exact Hs |].
    unfold lenZ. rewrite firstn_length. lia.
  Qed.
End Sec.

Section Key.
  Variables (o : opts) (E : env) (B : bytes).
  Let R := crash_key B.

  Lemma hp_material_main ver pub u q : v_num ver <> 5%N -> (u = 0%N -> sec_layout (b2n pub) = None -> lenZ q = 1 -> R) ->
    hp R (AT B q) (sec_material o ver pub u None) (fun _ => IN B).
  Proof.
    intros NV HR. unfold sec_material. eapply hp_bind; [apply hp_upd|]. intro. cbv beta.
    eapply hp_bind with (Q := fun _ => IN B).
    - destruct (u =? 0)%N eqn:U0.
      + eapply hp_bind with (Q := fun _ => IN B).
        { unfold opt_run. eapply hp_bind; [apply hp_secPlain; apply HR; lia|]. intro. cbv beta. apply hp_ret. auto. }
        intro. cbv beta. eapply hp_bind; [apply hp_rdBytes_in; lia|]. intro. cbv beta. eapply hp_bind; [apply hp_add|]. intro. cbv beta. apply hp_ret. auto.
      + unfold opt_run. eapply hp_bind; [apply hp_secEnc|]. intro. cbv beta. apply hp_ret. auto.
    - intro. cbv beta. replace (v_num ver =? 5)%N with false by lia. apply hp_ret. auto.
  Qed.

  Lemma hp_material_own ver pub u l q : v_num ver = 5%N -> lenZ l < 2 ^ 62 -> (u = 0%N -> sec_layout (b2n pub) = None -> lenZ l = 1 -> R) ->
    hp R (AT B q) (sec_material o ver pub u (Some (r_new l))) (fun _ => IN B).
  Proof.
    intros V5 LL HR. unfold sec_material. rewrite V5. cbn [N.eqb Pos.eqb]. eapply hp_bind; [apply hp_upd|]. intro. cbv beta.
    assert (AT l l (r_new l)) as HA by (rewrite at_new; split; [reflexivity | apply suf_refl; exact LL]).
    eapply hp_pre with (P := IN B); [intros r H; exists q; exact H|].
    assert (forall (m : M unit) r (P : reader -> Prop), P r -> hp R P m (fun _ => IN l) ->
      hp R (IN B) (opt_run (Some r) m) (fun p rd => (exists r', snd p = Some r' /\ IN l r') /\ IN B rd)) as OR.
    { intros m r P Hr H. unfold opt_run. eapply hp_bind; [apply (hp_with R r m (IN B) P _ Hr H)|]. intros [? r']. cbv beta.
      apply hp_ret. intros rd [H1 H2]. cbn [fst snd] in *. split; [exists r'; auto | exact H2]. }
    eapply hp_bind with (Q := fun p rd => (exists r', snd p = Some r' /\ IN l r') /\ IN B rd).
    - destruct (u =? 0)%N eqn:U0.
      + eapply hp_bind; [eapply OR; [exact HA | apply hp_secPlain; apply HR; lia]|]. intro p. cbv beta. apply hp_and. intro Hp.
        eapply hp_bind; [apply hp_rdBytes_in; lia|]. intro. cbv beta. eapply hp_bind; [apply hp_add|]. intro. cbv beta. apply hp_ret. auto.
      + eapply OR; [exact HA | apply hp_secEnc].
    - intros [? ro]. cbv beta. cbn [snd]. apply hp_and. intros (r' & -> & p' & Hp').
      eapply hp_bind with (Q := fun _ => IN B); [|intro; apply hp_ret; auto].
      eapply hp_post; [|eapply OR; [exact Hp' | eapply hp_post; [|apply hp_addRest]]].
      + intros ? r [_ H]. exact H.
      + intros ? r H. exists p'. exact H.
  Qed.

  Lemma hp_sec v pub p : B = v :: p -> (~ In (b2n v) [3; 4; 5]%N -> pub = x00) ->
    hp R (fun r => pub_done B p v pub r) (sec_parse o (PubVer v) pub) (fun _ => IN B).
  Proof.
    intros HB HV. unfold sec_parse.
    assert (v_num (PubVer v) = b2n v) as VN by reflexivity.
    destruct (N.eq_dec (b2n v) 5) as [V5|NV].
    - assert (v = x05) as -> by (apply b2n_inj; exact V5).
      unfold pub_done. rewrite V5. apply hp_ex. intro t. apply hp_ex. intro l. apply hp_ex. intro mat. apply hp_ex. intro p1. apply hp_and.
      intros (-> & Lt & Ll & Lm). eapply hp_bind; [apply hp_rdByte|]. intro u. cbv beta. apply hp_ex. intro p2. apply hp_and. intros ->.
      unfold getField1. change (v_num (PubVer x05) =? 5)%N with true. cbv iota.
      eapply hp_bind with (Q := fun f1 r => exists n opt p3, (p2 = n :: opt ++ p3 /\ b2n n = lenN opt /\
        f1 = (if (b2n n =? 0)%N then None else Some (Some (r_new opt)))) /\ AT B p3 r).
      { eapply hp_bind; [apply hp_rdByte|]. intro n. cbv beta. apply hp_ex. intro p3. apply hp_and. intros ->.
        destruct (b2n n =? 0)%N eqn:N0.
        - apply hp_ret. intros r H. exists n, [], p3. rewrite N0. split; [|exact H]. split; [reflexivity|]. split; [rewrite lenN_nil; lia | reflexivity].
        - eapply hp_bind; [apply hp_rdBytes; pose proof (b2n_lt n); lia|]. intro opt. cbv beta. apply hp_ex. intro p4. apply hp_and. intros [-> Lo].
          apply hp_ret. intros r H. exists n, opt, p4. rewrite N0. split; [|exact H]. split; [reflexivity|].
          split; [rewrite lenZ_lenN in Lo; lia | reflexivity]. }
      intro f1. cbv beta. apply hp_ex. intro n. apply hp_ex. intro opt. apply hp_ex. intro p3. apply hp_and. intros (-> & Ln & ->).
      assert (v5_head_ok t l mat n opt) as HO by (split; [exact Lt | split; [exact Ll | split; assumption]]).
      eapply hp_bind with (Q := fun _ r => exists iv q', (p3 = iv ++ q' /\ taken_iv (b2n u) opt iv) /\ AT B q' r).
      { destruct (b2n n =? 0)%N eqn:N0.
        - apply hp_ret. intros r H. exists [], p3. split; [|exact H]. split; [reflexivity|]. apply iv_none; [right | reflexivity].
          destruct opt as [|c opt]; [reflexivity | rewrite lenN_cons in Ln; lia].
        - apply hp_opts_own; [reflexivity | intros ->; rewrite lenN_nil in Ln; lia |].
          apply suf_refl. rewrite lenZ_lenN. pose proof (b2n_lt n). lia. }
      intro. cbv beta. apply hp_ex. intro iv. apply hp_ex. intro q. apply hp_and. intros [-> TI].
      unfold getField2. change (v_num (PubVer x05) =? 5)%N with true. cbv iota.
      assert (B = v5_head t pub l mat u n opt ++ iv ++ q) as HB'.
      { rewrite HB. unfold v5_head. cbn [app]. repeat (rewrite <- ?app_assoc; cbn [app]). reflexivity. }
      eapply hp_bind with (Q := fun f2 r => exists k s rest, (q = k ++ s ++ rest /\ lenZ k = 4 /\ be k = lenN s /\
        f2 = (if (be k =? 0)%N then None else Some (Some (r_new s)))) /\ AT B rest r).
      { eapply hp_bind; [apply hp_readLen4|].
        - intro LQ. unfold R. rewrite HB'. eapply crash_cut; eassumption.
        - intro k. cbv beta. apply hp_ex. intro q2. apply hp_and. intros [-> Lk].
          pose proof (be_lt k) as BL. assert (lenN k = 4)%N as X by (rewrite lenZ_lenN in Lk; lia). rewrite X in BL. change (256 ^ 4)%N with (2 ^ 32)%N in BL.
          destruct (be k =? 0)%N eqn:K0.
          + apply hp_ret. intros r H. exists k, [], q2. rewrite K0. split; [|exact H]. split; [reflexivity|]. split; [exact Lk|]. split; [rewrite lenN_nil; lia | reflexivity].
          + eapply hp_bind; [apply hp_rdBytes; lia|]. intro s. cbv beta. apply hp_ex. intro q3. apply hp_and. intros [-> Ls].
            apply hp_ret. intros r H. exists k, s, q3. rewrite K0. split; [|exact H]. split; [reflexivity|]. split; [exact Lk|].
            split; [rewrite lenZ_lenN in Ls; lia | reflexivity]. }
      intro f2. cbv beta. apply hp_ex. intro k. apply hp_ex. intro sm. apply hp_ex. intro rest. apply hp_and. intros (-> & Lk & Lsm & ->).
      pose proof (be_lt k) as BL. assert (lenN k = 4)%N as X by (rewrite lenZ_lenN in Lk; lia). rewrite X in BL. change (256 ^ 4)%N with (2 ^ 32)%N in BL.
      destruct (be k =? 0)%N; [apply hp_ret; intros r H; exists rest; exact H|].
      apply hp_material_own; [reflexivity | rewrite lenZ_lenN; lia |].
      intros U0 SL L1. unfold R. rewrite HB'. assert (u = x00) as -> by (apply b2n_inj; exact U0).
      assert (iv = []) as ->.
      { destruct TI as [_ H | ? ? H _ _ _ | ? ? H _ _]; [exact H | exfalso; apply H; reflexivity | exfalso; apply H; reflexivity]. }
      destruct sm as [|x [|y sm]].
      + rewrite lenZ_nil in L1. discriminate L1.
      + cbn [app]. apply crash_v5; [exact HO | apply len_nat; exact Lk | rewrite Lsm; reflexivity | exact SL].
      + exfalso. rewrite !lenZ_cons in L1. pose proof (lenZ_nonneg sm). lia.
    - unfold getField1, getField2. rewrite VN. replace (b2n v =? 5)%N with false by lia.
      (* behind the public part, with u = 0 and one octet left, the packet is one of the three *)
      assert (forall P : reader -> Prop, (forall r, P r -> IN B r) ->
        (forall q, (exists r, P r /\ AT B q r) -> forall x, q = [x00; x] -> sec_layout (b2n pub) = None -> R) ->
        hp R P (let* u := rdByte in
          let usage := b2n u in
          let* f1 := ret (Some None) in
          (match f1 with Some ro => sec_opts o (PubVer v) usage ro | None => ret tt end) ;;
          let* f2 := ret (Some None) in
          match f2 with Some ro => sec_material o (PubVer v) pub usage ro | None => ret tt end) (fun _ => IN B)) as GEN.
      { intros P H1 H2 s Hs. destruct (H1 _ Hs) as (q & Hq).
        assert (forall x, q = [x00; x] -> sec_layout (b2n pub) = None -> R) as HR by (intros x; apply H2; exists (s_rd s); split; assumption).
        revert s Hs Hq. intros s _ Hq. revert s Hq. 
        match goal with |- forall s, _ -> match ?m s with _ => _ end => change (hp R (AT B q) m (fun _ => IN B)) end.
        eapply hp_bind; [apply hp_rdByte|]. intro u. cbv beta zeta. apply hp_ex. intro q2. apply hp_and. intros ->.
        eapply hp_bind with (Q := fun f r => f = Some None /\ AT B q2 r); [apply hp_ret; auto|]. intro f. cbv beta. apply hp_and. intros ->.
        eapply hp_bind; [apply hp_opts_main; rewrite VN; exact NV|]. intro. cbv beta.
        eapply hp_bind with (Q := fun f r => f = Some None /\ ((b2n u = 0%N -> AT B q2 r) /\ IN B r)); [apply hp_ret; auto|]. intro f. cbv beta. apply hp_and. intros ->.
        intros s (K1 & p3 & K2).
        assert ((b2n u = 0%N -> sec_layout (b2n pub) = None -> lenZ p3 = 1 -> R)) as HM.
        { intros U0 SL L1. specialize (K1 U0). assert (p3 = q2) as ->.
          { destruct K1 as [K1 S1], K2 as [K2 S2]. rewrite K1 in K2. eapply at_inj; [| |exact (eq_sym K2)]; assumption. }
          assert (u = x00) as -> by (apply b2n_inj; exact U0). destruct q2 as [|x [|y q2]].
          - rewrite lenZ_nil in L1. discriminate L1.
          - eapply HR; [reflexivity | exact SL].
          - exfalso. rewrite !lenZ_cons in L1. pose proof (lenZ_nonneg q2). lia. }
        exact (hp_material_main (PubVer v) pub (b2n u) p3 ltac:(rewrite VN; exact NV) HM s K2). }
      apply GEN; clear GEN.
      + intros r H. unfold pub_done in H.
        destruct (b2n v) as [|z]; [exists p; exact H|]. destruct z as [[z|[z|z|]|]|[z|[z|z|]|]|]; try (exists p; exact H); try apply H. exfalso; apply NV; reflexivity.
      + intros q (r & H & Hq) x -> SL. unfold pub_done in H. destruct Hq as [Hq Sq].
        assert (forall p', AT B p' r -> p' = [x00; x]) as AI.
        { intros p' [H1 H2]. rewrite Hq in H1. eapply at_inj; [exact H2 | exact Sq | exact (eq_sym H1)]. }
        destruct (in_dec N.eq_dec (b2n v) [3; 4; 5]%N) as [I|I].
        * assert (b2n v = 3 \/ b2n v = 4)%N as [V|V] by (cbn [In] in I; lia); rewrite V in H.
          -- destruct H as [H _]. destruct (H SL) as (t & d & p' & (-> & Lt & Ld) & Hp). apply AI in Hp. subst p'.
             assert (v = x03) as -> by (apply b2n_inj; exact V). unfold R. rewrite HB.
             change (crash_key ([x03] ++ t ++ d ++ [pub; x00; x])). apply crash_v3; assumption.
          -- destruct H as [H _]. destruct (H SL) as (t & p' & (-> & Lt) & Hp). apply AI in Hp. subst p'.
             assert (v = x04) as -> by (apply b2n_inj; exact V). unfold R. rewrite HB.
             change (crash_key ([x04] ++ t ++ [pub; x00; x])). apply crash_v4; assumption.
        * assert (AT B p r) as Hp.
          { destruct (b2n v) as [|z]; [exact H|]. destruct z as [[z|[z|z|]|]|[z|[z|z|]|]|]; try exact H; exfalso; apply I; cbn [In]; auto. }
          apply AI in Hp. subst p. unfold R. rewrite HB. apply crash_version. exact I.
  Qed.

  Lemma hp_tag05 : hp R (AT B B) (tag05 o E) (fun _ => IN B).
  Proof.
    unfold tag05. eapply hp_bind; [apply hp_rdByte|]. intro v. cbv beta zeta. apply hp_ex. intro p. apply hp_and. intro HB.
    eapply hp_bind; [apply hp_add|]. intro. cbv beta.
    eapply hp_bind with (Q := fun pub r => (~ In (b2n v) [3; 4; 5]%N -> pub = x00) /\ pub_done B p v pub r).
    - apply hp_child. destruct (in_dec N.eq_dec (b2n v) [3; 4; 5]%N) as [I|I].
      + eapply hp_post; [|apply hp_pub]. intros ? r H. split; [intro N; exfalso; apply N; exact I | exact H].
      + intros s Hs. pose proof (hp_pub R o E v B p s Hs) as H. rewrite pub_parse_other in H |- * by exact I. cbn in H |- *. auto.
    - intro pub. cbv beta. apply hp_and. intro HV. eapply hp_bind; [apply hp_child; apply hp_sec; assumption|]. intro. cbv beta.
      apply hp_in. intro q. eapply hp_post; [|apply hp_addRest]. intros ? r H. exists q. exact H.
  Qed.
End Key.

(** The only bodies on which the parser of a secret key panics. *)
Theorem tag_body_crash rec o E tag body c : (tag = 5 \/ tag = 7)%N -> lenZ body < 2 ^ 62 ->
  fst (tag_body rec o E tag body c) = RPanic -> crash_packet tag body.
Proof.
  intros T L H. split; [exact T|].
  assert (tag_m rec o E tag = no_data (tag05 o E)) as TM by (destruct T as [-> | ->]; reflexivity).
  unfold tag_body in H. rewrite TM in H. unfold no_data, bind in H.
  pose proof (hp_tag05 o E body (mkSt (r_new body) c (tag_item tag body (tag_dumpflag o tag)))) as K.
  cbn [s_rd] in K. rewrite at_new in K. specialize (K (conj eq_refl (suf_refl _ L))). rewrite at_new in H.
  destruct (tag05 o E _) as [[a|e| |] s']; cbn in H; try discriminate H. exact K.
Qed.
