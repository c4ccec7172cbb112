(** * BoomL: runs of the secret-key parser that end in a panic. *)
From Coq Require Import Strings.String Strings.Byte List NArith ZArith Bool Lia ZifyBool ZifyN ZifyNat.
From Verif Require Import Base Utf8 Item Reader Context Env Time Values Monad Pubkey S2k Subs Tags.
From Verif Require Import SpecBase BaseL SpecReader ReaderL MonadL SpecPacket ReadsL PacketL TagL SpecCrash CrashL.
Import ListNotations.
Local Open Scope Z_scope.

(** From readers in P, [m] returns and ends in Q; panics. *)
Definition gp {A} (P : reader -> Prop) (m : M A) (Q : A -> reader -> Prop) : Prop :=
  forall s, P (s_rd s) -> exists a s', m s = (ROk a, s') /\ Q a (s_rd s').
Definition boom {A} (P : reader -> Prop) (m : M A) : Prop := forall s, P (s_rd s) -> exists s', m s = (RPanic, s').

Lemma gp_ret {A} (a : A) (P : reader -> Prop) : gp P (ret a) (fun x r => x = a /\ P r).
Proof. intros s H. exists a, s. auto. Qed.
Lemma gp_bind {A B} (m : M A) (f : A -> M B) P Q Q' : gp P m Q -> (forall a, gp (Q a) (f a) Q') -> gp P (bind m f) Q'.
Proof. intros H K s Hs. destruct (H s Hs) as (a & s' & X & Y). unfold bind. rewrite X. exact (K a s' Y). Qed.
Lemma boom_bind {A B} (m : M A) (f : A -> M B) P Q : gp P m Q -> (forall a, boom (Q a) (f a)) -> boom P (bind m f).
Proof. intros H K s Hs. destruct (H s Hs) as (a & s' & X & Y). unfold bind. rewrite X. exact (K a s' Y). Qed.
Lemma boom_first {A B} (m : M A) (f : A -> M B) P : boom P m -> boom P (bind m f).
Proof. intros H s Hs. destruct (H s Hs) as (s' & X). unfold bind. rewrite X. eauto. Qed.
Lemma gp_and {A} (m : M A) (X : Prop) (P : reader -> Prop) Q : (X -> gp P m Q) -> gp (fun r => X /\ P r) m Q.
Proof. intros H s [x Hs]. exact (H x s Hs). Qed.
Lemma boom_and {A} (m : M A) (X : Prop) (P : reader -> Prop) : (X -> boom P m) -> boom (fun r => X /\ P r) m.
Proof. intros H s [x Hs]. exact (H x s Hs). Qed.
Lemma gp_post {A} (m : M A) P (Q Q' : A -> reader -> Prop) : (forall a r, Q a r -> Q' a r) -> gp P m Q -> gp P m Q'.
Proof. intros H K s Hs. destruct (K s Hs) as (a & s' & X & Y). eauto. Qed.
Lemma gp_upd f P : gp P (upd f) (fun _ => P).
Proof. intros s H. eexists _, _. split; [reflexivity | exact H]. Qed.
Lemma gp_add i P : gp P (add i) (fun _ => P).
Proof. intros s H. eexists _, _. split; [reflexivity | exact H]. Qed.
Lemma gp_child {A} it (m : M A) P Q : gp P m Q -> gp P (child it m) Q.
Proof.
  intros H s Hs. unfold child. destruct (H (mkSt (s_rd s) (s_cs s) it) Hs) as (a & s' & X & Y). rewrite X.
  eexists _, _. split; [reflexivity | exact Y].
Qed.
Lemma boom_child {A} it (m : M A) P : boom P m -> boom P (child it m).
Proof. intros H s Hs. unfold child. destruct (H (mkSt (s_rd s) (s_cs s) it) Hs) as (s' & X). rewrite X. eexists. reflexivity. Qed.
Lemma gp_with {A} r (m : M A) (P P' : reader -> Prop) Q : P' r -> gp P' m Q -> gp P (with_rd r m) (fun p r' => Q (fst p) (snd p) /\ P r').
Proof.
  intros Hr H s Hs. unfold with_rd. destruct (H (mkSt r (s_cs s) (s_cur s)) Hr) as (a & s' & X & Y). rewrite X.
  eexists _, _. split; [reflexivity|]. split; [exact Y | exact Hs].
Qed.
Lemma boom_with {A} r (m : M A) (P P' : reader -> Prop) : P' r -> boom P' m -> boom P (with_rd r m).
Proof.
  intros Hr H s Hs. unfold with_rd. destruct (H (mkSt r (s_cs s) (s_cur s)) Hr) as (s' & X). rewrite X. eexists. reflexivity.
Qed.

Lemma gp_rdByte B b p : gp (AT B (b :: p)) rdByte (fun x r => x = b /\ AT B p r).
Proof.
  intros [rd cs it] [Hr Hs]. cbn in Hr. subst rd. change (mkSt (at_ B (b :: p)) cs it) with (sat B (b :: p) cs it).
  eexists _, _. split; [apply rdByte_at; exact Hs|]. split; [reflexivity|]. split; [reflexivity | eapply suf_cons; exact Hs].
Qed.
Lemma gp_rdBytes B n l p : lenZ l = n -> gp (AT B (l ++ p)) (rdBytes n) (fun x r => x = l /\ AT B p r).
Proof.
  intros L [rd cs it] [Hr Hs]. cbn in Hr. subst rd. change (mkSt (at_ B (l ++ p)) cs it) with (sat B (l ++ p) cs it).
  eexists _, _. split; [apply rdBytes_at; [exact Hs | auto]|]. split; [reflexivity|]. split; [reflexivity | eapply suf_app; exact Hs].
Qed.
Lemma gp_rdRest B p : gp (AT B p) rdRest (fun z r => z = lenZ p /\ AT B p r).
Proof. intros [rd cs it] [Hr Hs]. cbn in Hr. subst rd. eexists _, _. split; [reflexivity|]. cbn. rewrite rest_at by exact Hs. split; [reflexivity | split; [reflexivity | exact Hs]]. Qed.
Lemma gp_dumpRest f B p : gp (AT B p) (dumpRest f) (fun _ => AT B p).
Proof.
  intros [rd cs it] [Hr Hs]. cbn in Hr. subst rd. change (mkSt (at_ B p) cs it) with (sat B p cs it). eexists _, _.
  split; [apply dumpRest_at; exact Hs|]. split; [reflexivity | exact Hs].
Qed.
Lemma gp_addRest n f B p : gp (AT B p) (addRest n f) (fun _ => AT B p).
Proof.
  intros [rd cs it] [Hr Hs]. cbn in Hr. subst rd. change (mkSt (at_ B p) cs it) with (sat B p cs it). eexists _, _.
  split; [apply addRest_at; exact Hs|]. split; [reflexivity | exact Hs].
Qed.
Lemma gp_runs {A} (m : M A) d a ec ei B p : runs m d a ec ei -> gp (AT B (d ++ p)) m (fun _ => AT B p).
Proof.
  intros H [rd cs it] [Hr Hs]. cbn in Hr. subst rd. change (mkSt (at_ B (d ++ p)) cs it) with (sat B (d ++ p) cs it). eexists _, _.
  split; [apply H; exact Hs|]. split; [reflexivity | eapply suf_app; exact Hs].
Qed.

(** Public material: none of it read, or all of it. *)
Lemma gp_parsePub_none o a B p : sec_layout (b2n a) = None -> gp (AT B p) (parsePub o a) (fun _ => AT B p).
Proof.
  intro SL. unfold parsePub. eapply gp_bind; [apply gp_rdRest|]. intro z. cbv beta. apply gp_and. intros _.
  assert (forall i, gp (AT B p) (addSized o z i) (fun _ => AT B p)) as K.
  { intro i. unfold addSized. eapply gp_bind; [apply gp_dumpRest|]. intro. cbv beta. apply gp_add. }
  revert SL. destruct a; intro SL; try discriminate SL; apply K.
Qed.
Lemma layouts a : pub_layout a = None <-> sec_layout a = None.
Proof.
  unfold pub_layout, sec_layout.
  repeat match goal with |- context [match ?x with _ => _ end] => is_var x; destruct x end; split; (reflexivity || discriminate).
Qed.
Lemma gp_parsePub_own o (E : env) a mat : readable_material a mat -> lenZ mat < 2 ^ 62 ->
  gp (AT mat mat) (parsePub o a) (fun _ _ => True).
Proof.
  intros [N | (l & junk & M & ->)] L.
  - eapply gp_post; [|apply gp_parsePub_none; apply layouts; exact N]. auto.
  - eapply gp_post; [|eapply gp_runs, (runs_parsePub o E a l M)]. auto.
Qed.

  (** Plain material of an unknown algorithm with one octet left. *)
  Lemma boom_secPlain o B a x : sec_layout (b2n a) = None -> boom (AT B [x]) (parseSecPlain o a).
  Proof.
    intro SL. unfold parseSecPlain. eapply boom_bind; [apply gp_rdRest|]. intro z. cbv beta. apply boom_and. intros ->.
    assert (boom (AT B [x]) (unknownSec o (lenZ [x]) a)) as K.
    { unfold unknownSec. cbv zeta. apply boom_first. intros s Hs.
      destruct s as [rd cs it], Hs as [Hr Hs]. cbn in Hr. subst rd. unfold rdBytes, on_rd, r_readbytes. cbn [s_rd].
      destruct (suf_len _ _ Hs) as [L1 L2]. change (lenZ [x]) with 1 in *. change (1 - 2 =? 0) with false. cbv iota.
      unfold r_size, at_. change (lenZ [x]) with 1. cbn [r_off r_buf]. rewrite wrap64_small by lia.
      replace (lenZ B - 1 >=? lenZ B) with false by lia. replace (lenZ B - 1 + (1 - 2) >? lenZ B) with false by lia.
      replace (lenZ B - 1 + (1 - 2) <? lenZ B - 1) with true by lia. rewrite orb_true_r. eexists. reflexivity. }
    revert SL. destruct a; intro SL; try discriminate SL; exact K.
  Qed.

Section Boom.
  Variables (o : opts) (E : env) (B : bytes).
  Lemma gp_keyTime t p : length t = 4%nat -> gp (AT B (t ++ p)) (keyTime o E) (fun _ => AT B p).
  Proof.
    intro Lt. unfold keyTime, newDateTime. eapply gp_bind with (Q := fun _ => AT B p).
    - eapply gp_bind; [apply gp_rdBytes; unfold lenZ; lia|]. intro x. cbv beta. apply gp_and. intros ->.
      intros s H. eexists _, _. split; [reflexivity | exact H].
    - intro tm. cbv beta. eapply gp_bind with (Q := fun _ => AT B p); [intros s H; eexists _, _; split; [reflexivity | exact H]|].
      intro. apply gp_add.
  Qed.
  Lemma gp_keyAlg a p : gp (AT B (a :: p)) (keyAlg o) (fun x r => x = a /\ AT B p r).
  Proof.
    unfold keyAlg. eapply gp_bind; [apply gp_rdByte|]. intro x. cbv beta. apply gp_and. intros ->. eapply gp_bind; [apply gp_add|]. intro. cbv beta.
    apply gp_ret.
  Qed.
  Lemma gp_pub4 t a p : length t = 4%nat -> sec_layout (b2n a) = None ->
    gp (AT B (t ++ a :: p)) (pub_parse o E (PubVer x04)) (fun x r => x = a /\ AT B p r).
  Proof.
    intros Lt SL. change (pub_parse o E (PubVer x04)) with (pubV4 o E). unfold pubV4. eapply gp_bind; [apply gp_keyTime; exact Lt|].
    intro. cbv beta. eapply gp_bind; [apply gp_keyAlg|]. intro x. cbv beta. apply gp_and. intros ->.
    eapply gp_bind; [apply gp_parsePub_none; exact SL|]. intro. cbv beta. apply gp_ret.
  Qed.
  Lemma gp_pub3 t d a p : length t = 4%nat -> length d = 2%nat -> sec_layout (b2n a) = None ->
    gp (AT B (t ++ d ++ a :: p)) (pub_parse o E (PubVer x03)) (fun x r => x = a /\ AT B p r).
  Proof.
    intros Lt Ld SL. change (pub_parse o E (PubVer x03)) with (pubV3 o E). unfold pubV3. eapply gp_bind; [apply gp_keyTime; exact Lt|].
    intro. cbv beta. eapply gp_bind; [apply gp_rdBytes; unfold lenZ; lia|]. intro x. cbv beta. apply gp_and. intros ->.
    eapply gp_bind; [apply gp_add|]. intro. cbv beta. eapply gp_bind; [apply gp_keyAlg|]. intro x. cbv beta. apply gp_and. intros ->.
    eapply gp_bind; [apply gp_parsePub_none; exact SL|]. intro. cbv beta. apply gp_ret.
  Qed.
  Lemma gp_pub5 t a l mat p : length t = 4%nat -> length l = 4%nat -> be l = lenN mat -> readable_material a mat -> lenZ mat < 2 ^ 62 ->
    gp (AT B (t ++ a :: l ++ mat ++ p)) (pub_parse o E (PubVer x05)) (fun x r => x = a /\ AT B p r).
  Proof.
    intros Lt Ll Lm RM LL. change (pub_parse o E (PubVer x05)) with (pubV5 o E). unfold pubV5. eapply gp_bind; [apply gp_keyTime; exact Lt|].
    intro. cbv beta. eapply gp_bind; [apply gp_keyAlg|]. intro x. cbv beta. apply gp_and. intros ->.
    eapply gp_bind; [apply gp_rdBytes; unfold lenZ; lia|]. intro x. cbv beta. apply gp_and. intros ->.
    eapply gp_bind; [apply gp_rdBytes; rewrite Lm, lenZ_lenN; reflexivity|]. intro x. cbv beta. apply gp_and. intros ->.
    eapply gp_bind; [eapply (gp_with (r_new mat)); [|apply (gp_parsePub_own o E a mat); [exact RM | exact LL]]|].
    - rewrite at_new. split; [reflexivity | apply suf_refl; exact LL].
    - intro. cbv beta. apply gp_and. intros _. apply gp_ret.
  Qed.

  Lemma boom_readLen4 p : (length p < 4)%nat -> boom (AT B p) readLen4.
  Proof.
    intros L [rd cs it] [Hr Hs]. cbn in Hr. subst rd. change (mkSt (at_ B p) cs it) with (sat B p cs it). unfold readLen4.
    rewrite rdBytes_short by (assumption || (unfold lenZ; lia)). eexists. reflexivity.
  Qed.

  (** Optional fields of an unencrypted key: nothing is read from the packet. *)
  Lemma gp_opts0 ver opt q : lenZ opt < 2 ^ 62 -> gp (AT B q) (sec_opts o ver 0 (Some (r_new opt))) (fun _ => AT B q).
  Proof.
    intro LL. unfold sec_opts. cbn [N.eqb negb andb].
    assert (forall A (a : A) (ro : option reader), gp (AT B q) (ret (a, ro)) (fun p rd => p = (a, ro) /\ AT B q rd)) as RT by (intros; apply gp_ret).
    eapply gp_bind; [apply RT|]. intros [x ro]. cbv beta. apply gp_and. intro X; injection X as -> ->.
    eapply gp_bind; [apply RT|]. intros [y ro]. cbv beta. apply gp_and. intro X; injection X as -> ->.
    eapply gp_bind; [apply RT|]. intros [z ro]. cbv beta. apply gp_and. intro X; injection X as -> ->.
    eapply gp_bind; [apply gp_ret|]. intro. cbv beta. apply gp_and. intros _.
    destruct (v_num ver =? 5)%N; [|eapply gp_post; [|apply gp_ret]; intros ? r [_ H]; exact H].
    eapply gp_bind with (Q := fun _ => AT B q); [|intro; eapply gp_post; [|apply gp_ret]; intros ? r [_ H]; exact H].
    unfold opt_run. eapply gp_bind; [eapply (gp_with (r_new opt) _ (AT B q) (AT opt opt)); [|apply gp_addRest]|].
    - rewrite at_new. split; [reflexivity | apply suf_refl; exact LL].
    - intro. cbv beta. apply gp_and. intros _. eapply gp_post; [|apply gp_ret]. intros ? r [_ H]; exact H.
  Qed.
  Lemma gp_opts0_main ver q : v_num ver <> 5%N -> gp (AT B q) (sec_opts o ver 0 None) (fun _ => AT B q).
  Proof.
    intro NV. unfold sec_opts. cbn [N.eqb negb andb].
    assert (forall A (a : A) (ro : option reader), gp (AT B q) (ret (a, ro)) (fun p rd => p = (a, ro) /\ AT B q rd)) as RT by (intros; apply gp_ret).
    eapply gp_bind; [apply RT|]. intros [x ro]. cbv beta. apply gp_and. intro X; injection X as -> ->.
    eapply gp_bind; [apply RT|]. intros [y ro]. cbv beta. apply gp_and. intro X; injection X as -> ->.
    eapply gp_bind; [apply RT|]. intros [z ro]. cbv beta. apply gp_and. intro X; injection X as -> ->.
    eapply gp_bind; [apply gp_ret|]. intro. cbv beta. apply gp_and. intros _.
    replace (v_num ver =? 5)%N with false by lia. eapply gp_post; [|apply gp_ret]; intros ? r [_ H]; exact H.
  Qed.

  Lemma boom_sec_main v a x : b2n v <> 5%N -> sec_layout (b2n a) = None -> boom (AT B [x00; x]) (sec_parse o (PubVer v) a).
  Proof.
    intros NV SL. unfold sec_parse. eapply boom_bind; [apply gp_rdByte|]. intro u. cbv beta zeta. apply boom_and. intros ->.
    unfold getField1, getField2. replace (v_num (PubVer v) =? 5)%N with false by (change (v_num (PubVer v)) with (b2n v); lia).
    eapply boom_bind; [apply gp_ret|]. intro f. cbv beta. apply boom_and. intros ->.
    eapply boom_bind; [apply gp_opts0_main; exact NV|]. intro. cbv beta.
    eapply boom_bind; [apply gp_ret|]. intro f. cbv beta. apply boom_and. intros ->.
    unfold sec_material. eapply boom_bind; [apply gp_upd|]. intro. cbv beta. apply boom_first. change (b2n x00 =? 0)%N with true. cbv iota.
    apply boom_first. unfold opt_run. apply boom_first. apply boom_secPlain. exact SL.
  Qed.

  (** The optional fields of version 5 are passed over. *)
  Lemma gp_field1 n opt p : b2n n = lenN opt ->
    gp (AT B (n :: opt ++ p)) (getField1 (PubVer x05)) (fun f r => f = (if is_nil opt then None else Some (Some (r_new opt))) /\ AT B p r).
  Proof.
    intro L. unfold getField1. change (v_num (PubVer x05) =? 5)%N with true. cbv iota.
    eapply gp_bind; [apply gp_rdByte|]. intro x. cbv beta. apply gp_and. intros ->.
    destruct opt as [|c opt].
    - replace (b2n n =? 0)%N with true by (rewrite lenN_nil in L; lia). cbn [is_nil app]. apply gp_ret.
    - replace (b2n n =? 0)%N with false by (rewrite lenN_cons in L; lia). cbn [is_nil].
      eapply gp_bind; [apply gp_rdBytes; rewrite L, lenZ_lenN; reflexivity|]. intro x. cbv beta. apply gp_and. intros ->. apply gp_ret.
  Qed.
  Lemma gp_opts5 u n opt q : b2n n = lenN opt -> u = x00 \/ opt = [] ->
    gp (AT B q) (match (if is_nil opt then None else Some (Some (r_new opt))) with Some ro => sec_opts o (PubVer x05) (b2n u) ro | None => ret tt end)
       (fun _ => AT B q).
  Proof.
    intros L [-> | ->].
    - destruct opt as [|c opt]; cbn [is_nil]; [eapply gp_post; [|apply gp_ret]; intros ? r [_ H]; exact H|].
      apply gp_opts0. rewrite lenZ_lenN, <- L. pose proof (b2n_lt n). lia.
    - eapply gp_post; [|apply gp_ret]; intros ? r [_ H]; exact H.
  Qed.
  Lemma boom_sec_cut a u n opt tail : b2n n = lenN opt -> u = x00 \/ opt = [] -> (length tail < 4)%nat ->
    boom (AT B (u :: n :: opt ++ tail)) (sec_parse o (PubVer x05) a).
  Proof.
    intros L H LT. unfold sec_parse. eapply boom_bind; [apply gp_rdByte|]. intro x. cbv beta zeta. apply boom_and. intros ->.
    eapply boom_bind; [apply gp_field1; exact L|]. intro f. cbv beta. apply boom_and. intros ->.
    eapply boom_bind; [eapply gp_opts5; eassumption|]. intro. cbv beta.
    apply boom_first. unfold getField2. change (v_num (PubVer x05) =? 5)%N with true. cbv iota. apply boom_first, boom_readLen4, LT.
  Qed.
  Lemma boom_sec5 a n opt k x rest : b2n n = lenN opt -> length k = 4%nat -> be k = 1%N -> sec_layout (b2n a) = None ->
    boom (AT B (x00 :: n :: opt ++ k ++ x :: rest)) (sec_parse o (PubVer x05) a).
  Proof.
    intros L LK BK SL. unfold sec_parse. eapply boom_bind; [apply gp_rdByte|]. intro u. cbv beta zeta. apply boom_and. intros ->.
    eapply boom_bind; [apply gp_field1; exact L|]. intro f. cbv beta. apply boom_and. intros ->.
    eapply boom_bind; [apply (gp_opts5 x00 n); auto|]. intro. cbv beta.
    eapply boom_bind with (Q := fun f r => f = Some (Some (r_new [x])) /\ AT B rest r).
    - unfold getField2. change (v_num (PubVer x05) =? 5)%N with true. cbv iota.
      eapply gp_bind with (Q := fun y r => y = k /\ AT B (x :: rest) r).
      + intros s Hs. destruct (gp_rdBytes B 4 k (x :: rest) ltac:(unfold lenZ; lia) s Hs) as (y & s' & X & Y).
        exists y, s'. unfold readLen4. rewrite X. auto.
      + intro y. cbv beta. apply gp_and. intros ->. rewrite BK. change (1 =? 0)%N with false. cbv iota.
        eapply gp_bind; [apply (gp_rdBytes B _ [x] rest); reflexivity|]. intro y. cbv beta. apply gp_and. intros ->. apply gp_ret.
    - intro f. cbv beta. apply boom_and. intros ->. unfold sec_material. eapply boom_bind; [apply gp_upd|]. intro. cbv beta.
      apply boom_first. change (b2n x00 =? 0)%N with true. cbv iota. apply boom_first. unfold opt_run. apply boom_first.
      apply (boom_with (r_new [x]) _ _ (AT [x] [x])); [|apply boom_secPlain; exact SL].
      rewrite at_new. split; [reflexivity | apply suf_refl; reflexivity].
  Qed.

  Lemma boom_parts v p a q : B = v :: p -> gp (AT B p) (pub_parse o E (PubVer v)) (fun x r => x = a /\ AT B q r) ->
    boom (AT B q) (sec_parse o (PubVer v) a) -> boom (AT B B) (tag05 o E).
  Proof.
    intros HB G K. unfold tag05. eapply boom_bind with (Q := fun x r => x = v /\ AT B p r); [intros s Hs; rewrite HB in Hs at 2; exact (gp_rdByte B v p s Hs)|].
    intro x. cbv beta zeta. apply boom_and. intros ->. eapply boom_bind; [apply gp_add|]. intro. cbv beta.
    eapply boom_bind; [apply gp_child; exact G|]. intro x. cbv beta. apply boom_and. intros ->. apply boom_first, boom_child, K.
  Qed.
End Boom.

Lemma boom_tag05 o E B : lenZ B < 2 ^ 62 -> sure_crash_key B -> boom (AT B B) (tag05 o E).
Proof.
  intros LB H. destruct H as [t a l mat u n opt tail (Lt & Ll & Lm & Ln) U LT RM | t a l mat n opt k x rest (Lt & Ll & Lm & Ln) LK BK SL | t a x Lt SL | t d a x Lt Ld SL | v x NV].
  - unfold v5_head in *. rewrite !lenZ_app in LB. pose proof (lenZ_nonneg t). pose proof (lenZ_nonneg l). pose proof (lenZ_nonneg opt). pose proof (lenZ_nonneg tail).
    change (lenZ [x05]) with 1 in LB. change (lenZ [a]) with 1 in LB. change (lenZ [u; n]) with 2 in LB.
    eapply boom_parts; [repeat (cbn [app]; rewrite <- ?app_assoc); reflexivity | apply gp_pub5; try assumption; lia | apply boom_sec_cut; assumption].
  - unfold v5_head in *. rewrite !lenZ_app in LB. pose proof (lenZ_nonneg t). pose proof (lenZ_nonneg l). pose proof (lenZ_nonneg opt). pose proof (lenZ_nonneg k). pose proof (lenZ_nonneg (x :: rest)).
    change (lenZ [x05]) with 1 in LB. change (lenZ [a]) with 1 in LB. change (lenZ [x00; n]) with 2 in LB.
    eapply boom_parts; [repeat (cbn [app]; rewrite <- ?app_assoc); reflexivity | apply gp_pub5; try assumption; [left; apply layouts; exact SL | lia] | apply boom_sec5; assumption].
  - eapply boom_parts; [reflexivity | apply gp_pub4; assumption | apply boom_sec_main; [discriminate | exact SL]].
  - eapply boom_parts; [reflexivity | apply gp_pub3; assumption | apply boom_sec_main; [discriminate | exact SL]].
  - eapply boom_parts; [reflexivity | rewrite pub_parse_other by exact NV; apply gp_ret | apply boom_sec_main; [|reflexivity]].
    intro V. apply NV. rewrite V. cbn [In]. auto.
Qed.

Theorem tag_body_boom rec o E tag body c : (tag = 5 \/ tag = 7)%N -> lenZ body < 2 ^ 62 -> sure_crash_key body ->
  fst (tag_body rec o E tag body c) = RPanic.
Proof.
  intros T L H.
  assert (tag_m rec o E tag = no_data (tag05 o E)) as TM by (destruct T as [-> | ->]; reflexivity).
  unfold tag_body. rewrite TM. unfold no_data, bind.
  destruct (boom_tag05 o E body L H (mkSt (r_new body) c (tag_item tag body (tag_dumpflag o tag)))) as (s' & X).
  - cbn [s_rd]. rewrite at_new. split; [reflexivity | apply suf_refl; exact L].
  - rewrite X. reflexivity.
Qed.
