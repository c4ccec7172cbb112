(** * AcceptPktL: how a packet ends (C63). *)
From Coq Require Import Strings.String Strings.Byte List NArith ZArith Bool Lia ZifyBool ZifyN ZifyNat.
From Verif Require Import Base BaseL SpecBase Item Reader ReaderL SpecReader Context Env Time Values Opaque Monad MonadL Pubkey S2k Subs Tags
  SpecValues SpecPacket SpecSub SpecSubs SubL KeyL KeyTailL SpecAccept AcceptL AcceptFrameL.
From Verif Require RedactL RedactTagL RedactSubL RedactPktL.
Import ListNotations.
Local Open Scope N_scope.

(** ** How a call ends *)
Definition closes {A} (m : M A) (l : bytes) (v : verdict) : Prop := forall B cs it, suf B l -> ends_as (fst (m (sat B l cs it))) v.
Lemma ends_map {A B} (f : A -> B) (r : res A) v : ends_as r v ->
  ends_as (match r with ROk a => ROk (f a) | RErr e => RErr e | RPanic => RPanic | RFuel => RFuel end) v.
Proof. destruct v; cbn; [intros [a ->]; eauto | intros (e & T & ->); eauto | intros ->; reflexivity]. Qed.
Lemma ends_bind {A B} (m : M A) (f : A -> M B) s v w : ends_as (fst (m s)) v -> (forall a s1, m s = (ROk a, s1) -> ends_as (fst (f a s1)) w) -> ends_as (fst (bind m f s)) (both v w).
Proof.
  intros H K. unfold bind. destruct (m s) as [r s1]. cbn [fst] in H. destruct v; cbn in H |- *.
  - destruct H as [a ->]. apply K. reflexivity.
  - destruct H as (e & T & ->). eexists. split; [exact T | reflexivity].
  - subst r. reflexivity.
Qed.
Lemma closes_reads {A W} (m : M A) (w : scan W) R l : reads m w R l -> closes m l (verdict_of (w l)).
Proof.
  intros H B cs it S. specialize (H B cs it S). destruct (w l) as [b t| |]; cbn.
  - destruct H as (_ & a & cs1 & it1 & _ & ->). eexists. reflexivity.
  - destruct H as (e & s1 & T & ->). eexists. split; [exact T | reflexivity].
  - destruct H as (s1 & ->). reflexivity.
Qed.
Lemma closes_after {A B W V} (m : M A) (f : A -> M B) (w : scan W) (g : W -> scan V) R l : reads m w R l ->
  (forall a b l2, R a b -> (length l2 <= length l)%nat -> closes (f a) l2 (verdict_of (g b l2))) -> closes (bind m f) l (verdict_of (after w g l)).
Proof.
  intros H K C cs it S. specialize (H C cs it S). unfold after. destruct (w l) as [b t| |].
  - destruct H as ([d ->] & a & cs1 & it1 & Rab & M1). rewrite (bind_ok _ f _ _ _ M1). apply (K a b t Rab); [rewrite app_length; lia | exact (suf_app _ _ _ S)].
  - destruct H as (e & s1 & T & M1). rewrite (bind_err _ f _ _ _ M1). eexists. split; [exact T | reflexivity].
  - destruct H as (s1 & M1). rewrite (bind_panic _ f _ _ M1). reflexivity.
Qed.
Lemma closes_ext {A} (m k : M A) l v : (forall s, k s = m s) -> closes m l v -> closes k l v.
Proof. intros H K B cs it S. rewrite H. apply K, S. Qed.
Lemma closes_quiet {A C} (m : M A) a g (f : A -> M C) l v : quiet m a g -> (forall x, closes (f x) l v) -> closes (bind m f) l v.
Proof. intros H K B cs it S. rewrite (bind_ok _ f _ _ _ (H _)). cbn [sat s_rd s_cs s_cur]. exact (K (a cs it) B _ _ S). Qed.
Lemma closes_upd {C} h (f : unit -> M C) l v : closes (f tt) l v -> closes (bind (upd h) f) l v.
Proof. intro K. apply (closes_quiet _ _ _ _ _ _ (RedactL.quiet_upd h)). intros []. exact K. Qed.

(** Calls that end well; calm ones also leave the input at some point behind. *)
Definition fine {A} (m : M A) (l : bytes) : Prop := forall B cs it, suf B l -> exists a s1, m (sat B l cs it) = (ROk a, s1).
Definition calm {A} (m : M A) (l : bytes) : Prop := forall B cs it, suf B l -> exists a l2 cs1 it1, suf B l2 /\ m (sat B l cs it) = (ROk a, sat B l2 cs1 it1).
Definition easy {A} (m : M A) : Prop := forall s, exists a s1, m s = (ROk a, s1).
Lemma easy_ret {A} (a : A) : easy (ret a).
Proof. intro s. eexists _, _. reflexivity. Qed.
Lemma easy_upd h : easy (upd h).
Proof. intro s. eexists _, _. reflexivity. Qed.
Lemma easy_bind {A B} (m : M A) (f : A -> M B) : easy m -> (forall a, easy (f a)) -> easy (bind m f).
Proof. intros H K s. destruct (H s) as (a & s1 & M1). rewrite (bind_ok _ f _ _ _ M1). apply K. Qed.
Lemma easy_flags l0 : forall k, easy (flag_loop k l0).
Proof. induction l0 as [|b l0 IH]; intro k; cbn [flag_loop]; [apply easy_ret|]. apply easy_bind; [apply easy_upd | intro; apply IH]. Qed.
Lemma fine_easy {A} (m : M A) l : easy m -> fine m l.
Proof. intros H B cs it S. apply H. Qed.
Lemma fine_calm {A} (m : M A) l : calm m l -> fine m l.
Proof. intros H B cs it S. destruct (H B cs it S) as (a & l2 & cs1 & it1 & _ & M1). eauto. Qed.
Lemma fine_bind {A B} (m : M A) (f : A -> M B) l : calm m l -> (forall a l2, fine (f a) l2) -> fine (bind m f) l.
Proof. intros H K C cs it S. destruct (H C cs it S) as (a & l2 & cs1 & it1 & S2 & M1). rewrite (bind_ok _ f _ _ _ M1). apply K, S2. Qed.
Lemma calm_bind {A B} (m : M A) (f : A -> M B) l : calm m l -> (forall a l2, calm (f a) l2) -> calm (bind m f) l.
Proof. intros H K C cs it S. destruct (H C cs it S) as (a & l2 & cs1 & it1 & S2 & M1). rewrite (bind_ok _ f _ _ _ M1). apply K, S2. Qed.
Lemma calm_ret {A} (a : A) l : calm (ret a) l.
Proof. intros B cs it S. exists a, l, cs, it. auto. Qed.
Lemma calm_quiet {A} (m : M A) a g l : quiet m a g -> calm m l.
Proof. intros H B cs it S. rewrite H. cbn [sat s_rd s_cs s_cur]. eexists _, l, _, _. split; [exact S | reflexivity]. Qed.
Lemma calm_upd h l : calm (upd h) l.
Proof. apply (calm_quiet _ _ _ _ (RedactL.quiet_upd h)). Qed.
Lemma calm_byte {C} (f : byte -> M C) b l : (forall x, calm (f x) l) -> calm (bind rdByte f) (b :: l).
Proof. intros K B cs it S. rewrite (bind_ok _ f _ _ _ (rdByte_at _ _ _ _ _ S)). apply K, suf_cons with b, S. Qed.
Lemma fine_ret {A} (a : A) l : fine (ret a) l.
Proof. apply fine_easy, easy_ret. Qed.
Lemma fine_upd h l : fine (upd h) l.
Proof. apply fine_easy, easy_upd. Qed.
Lemma quiet_curName : quiet curName (fun _ i => i_name i) (fun c i => (c, i)).
Proof. intros [r c i]. reflexivity. Qed.
Lemma quiet_setSig x : quiet (setSig x) (fun _ _ => tt) (fun c i => (mkCst (c_mode c) x (c_key c), i)).
Proof. intros [r c i]. reflexivity. Qed.
Lemma fine_rest {C} (f : Z -> M C) l : fine (f (lenZ l)) l -> fine (bind rdRest f) l.
Proof. intros K B cs it S. rewrite (bind_ok _ f _ _ _ (rdRest_at _ _ _ _ S)). apply K, S. Qed.
Lemma fine_len {C} (f : Z -> M C) l : (forall z, fine (f z) l) -> fine (bind rdLen f) l.
Proof. intros K B cs it S. rewrite (bind_ok _ f _ _ _ (rdLen_at _ _ _ _)). apply K, S. Qed.
Lemma fine_raw {C} name f (k : item -> M C) l : (forall x, fine (k x) l) -> fine (bind (rawData name f) k) l.
Proof. intros K B cs it S. rewrite (bind_ok _ k _ _ _ (rawData_at _ _ _ _ _ _ S)). apply K, S. Qed.
Lemma fine_dump {C} f (k : bytes -> M C) l : (forall x, fine (k x) l) -> fine (bind (dumpRest f) k) l.
Proof. intros K B cs it S. rewrite (bind_ok _ k _ _ _ (dumpRest_at f B l cs it S)). apply K, S. Qed.
Lemma fine_addRest name f l : fine (addRest name f) l.
Proof.
  unfold addRest. apply fine_rest. destruct (0 <? lenZ l)%Z; [|apply fine_ret]. apply fine_raw. intro x. apply fine_upd.
Qed.
Lemma fine_2EOF {C} (k : bytes -> M C) l : l <> [] -> (forall x, easy (k x)) -> fine (bind rd2EOF k) l.
Proof.
  intros N K B cs it S. destruct (rd2EOF_at B l cs it S N) as (s1 & M1 & _). rewrite (bind_ok _ k _ _ _ M1). apply K.
Qed.
Lemma positive_rest (l : bytes) : (0 <? lenZ l)%Z = true -> l <> [].
Proof. intros H ->. discriminate. Qed.
Lemma fine_more l : fine more_flags l.
Proof.
  unfold more_flags. apply fine_rest. destruct (0 <? lenZ l)%Z eqn:P; [|apply fine_ret]. apply fine_2EOF; [apply positive_rest, P|]. intro x. apply easy_flags.
Qed.
Lemma easy_mapM {A} (f : A -> M unit) s : (forall a, easy (f a)) -> easy (mapM_ f s).
Proof. intro H. induction s as [|a s IH]; cbn [mapM_]; [apply easy_ret|]. apply easy_bind; [apply H | intro; apply IH]. Qed.
Lemma closes_fine {A} (m : M A) l : fine m l -> closes m l Accepted.
Proof. intros H B cs it S. destruct (H B cs it S) as (a & s1 & ->). eexists. reflexivity. Qed.
Lemma closes_then {A C W} (m : M A) (f : A -> M C) (w : scan W) R l : reads m w R l -> (forall a l2, fine (f a) l2) -> closes (bind m f) l (verdict_of (w l)).
Proof.
  intros H K. replace (verdict_of (w l)) with (verdict_of (after w give l)) by (rewrite after_end; reflexivity).
  apply (closes_after m f w give R l H). intros a b l2 _ _. apply closes_fine, K.
Qed.
Lemma reads_bytes z n l : z = Z.of_N n -> n < 2 ^ 62 -> reads (rdBytes z) (octets n) any l.
Proof.
  intros H L. apply (dec_ext (bind (rdBytes z) ret) _ (after (octets n) give)); [intro s; unfold bind, ret; destruct (rdBytes z s) as [[]]; reflexivity | symmetry; apply after_end|].
  apply dec_octets; [exact H | exact L|]. intros d r _ _. apply dec_ret. exact I.
Qed.
Lemma reads_byte l : reads rdByte (octets 1) any l.
Proof.
  apply (dec_ext (bind rdByte ret) _ (after (octets 1) give)); [intro s; unfold bind, ret; destruct (rdByte s) as [[]]; reflexivity | symmetry; apply after_end|].
  apply dec_octet. intros b r _. apply dec_ret. exact I.
Qed.

Ltac calm_ := first [apply calm_ret | apply calm_upd | apply (calm_quiet _ _ _ _ (quiet_setSig _)) | apply (calm_quiet _ _ _ _ (RedactL.quiet_setKey _)) | apply (calm_quiet _ _ _ _ (RedactL.quiet_setMode _)) | apply (calm_quiet _ _ _ _ RedactL.quiet_getCs)].
Ltac fine_ := repeat first [apply fine_upd | apply fine_ret | apply fine_more | apply fine_raw; intro | apply fine_dump; intro | apply fine_bind; [calm_ | intros] | apply fine_calm; calm_].
Ltac names_ := repeat first [apply (closes_quiet _ _ _ _ _ _ quiet_curName); intro | apply (closes_quiet _ _ _ _ _ _ RedactL.quiet_getCs); intro].

Section Packet.
Variable o : opts.
Variable E : env.
Variable rec : tagrec.
Variable judge : N -> bytes -> verdict.
Hypothesis sizes : int_sizes (e_grow E).
(** Bodies shorter than [K] are judged. *)
Variable K : nat.
Hypothesis judged_ : forall tag b cs, (length b < K)%nat -> lenN b < 2 ^ 32 -> ends_as (fst (rec tag b cs)) (judge tag b).

(** ** Key blocks *)
Lemma key_block fuel : forall n l, (length l < fuel)%nat -> (length l <= n)%nat -> (length l <= K)%nat -> lenN l < 2 ^ 32 -> closes (key_loop rec E fuel) l (block judge (lost (e_grow E)) n l).
Proof.
  induction fuel as [|fuel IH]; intros n l LF LN LK L B cs it S; [lia|]. cbn [key_loop]. destruct l as [|h t].
  - assert (next_rd E (sat B [] cs it) = (ROk None, sat B [] cs it)) as N by (destruct (posn_at _ _ S) as [P D]; apply (next_rd_end E (sat B [] cs it) P D)).
    rewrite (bind_ok _ _ _ _ _ N). destruct n; eexists; reflexivity.
  - destruct n as [|n]; [cbn [length] in LN; lia|]. cbn [block]. destruct (first_packet (h :: t)) as [[[tag b] rest]|] eqn:FP.
    + destruct (first_packet_sound _ _ _ _ FP) as (w & F & Q). destruct (posn_at _ _ S) as [P D]. apply (fun x => eq_trans x Q) in D.
      destruct (next_rd_ok E tag b w rest (sat B (h :: t) cs it) F P D) as (r' & R & D' & (B' & rest' & S' & ->)). rewrite remaining_at in D' by exact S'. subst rest'.
      rewrite (bind_ok _ _ _ _ _ R). pose proof (f_equal (@length byte) Q) as LQ. rewrite app_length in LQ. pose proof (FramingL.framed_longer _ _ _ F) as FL.
      assert (length b < K)%nat as LB by lia. assert (lenN b < 2 ^ 32) as LB2 by (unfold lenN in *; lia). pose proof (judged_ tag b cs LB LB2) as J.
      apply ends_bind.
      * unfold call_rec. cbn [sat s_cs s_rd s_cur]. destruct (rec tag b cs) as [x c1]. exact J.
      * intros [x d] s1 M1. unfold call_rec in M1. cbn [sat s_cs s_rd s_cur] in M1. destruct (rec tag b cs) as [y c1]. injection M1 as _ <-. unfold bind, add, upd. cbn [s_rd s_cs s_cur].
        apply (IH n rest); [lia | lia | lia | unfold lenN in *; lia | exact S'].
    + destruct (next_rd_tail E B (h :: t) cs it sizes S L) as (r & R); [exists h, t; auto|]. rewrite (dropped_lost E h t sizes L) in R.
      destruct (b2n h <? 128) eqn:H128.
      * destruct (posn_at _ _ S) as [P D]. destruct (next_rd_bad E h t (sat B (h :: t) cs it) ltac:(lia) P D) as (r2 & R2). rewrite (bind_err _ _ _ _ _ R2). eexists. split; reflexivity.
      * destruct (lost (e_grow E) (h :: t)).
        -- rewrite (bind_ok _ _ _ _ _ R). eexists. reflexivity.
        -- destruct R as (e & T & R). unfold tail_reason in T. rewrite H128 in T. rewrite (bind_err _ _ _ _ _ R). eexists. split; [exact T | reflexivity].
Qed.

(** ** Sub-packets *)
Definition starts {A} (m : M A) (b : bytes) (v : verdict) : Prop := forall cs it, ends_as (fst (m (mkSt (r_new b) cs it))) v.
Lemma starts_closes {A} (m : M A) b v : lenN b < 2 ^ 32 -> closes m b v -> starts m b v.
Proof. intros L H cs it. rewrite at_new. apply (H b cs it), suf_refl. unfold lenN, lenZ in *. lia. Qed.
Lemma starts_38 b : (length b <= K)%nat -> lenN b < 2 ^ 32 -> 
  starts (sub38 rec o E) b (match b with [] => Rejected Ends_early | v :: w => if b2n v =? 0 then block judge (lost (e_grow E)) (List.length w) w else Accepted end).
Proof.
  intros LK L. apply starts_closes; [exact L|]. intros B cs it S. unfold sub38. destruct b as [|v w].
  - rewrite (bind_err _ _ _ _ _ (rdByte_eof _ _ _ S)). eexists. split; [left; reflexivity | reflexivity].
  - rewrite (bind_ok _ _ _ _ _ (rdByte_at _ _ _ _ _ S)). apply suf_cons in S. rewrite (bind_ok _ _ _ _ _ (add_at _ _ _ _ _)), (bind_ok _ _ _ _ _ (rawData_at _ _ _ _ _ _ S)).
    destruct (b2n v =? 0); [|eexists; reflexivity]. rewrite (bind_ok _ _ _ _ _ (rdLen_at _ _ _ _)). cbn [length] in LK. rewrite lenN_cons in L. pose proof (suf_len _ _ S) as [U _].
    match goal with |- context [sub_it ?i _] => set (i0 := i) end. set (fuel := Datatypes.S (Z.to_nat (lenZ B))).
    assert (length w < fuel)%nat as LF by (unfold fuel, lenZ in *; lia).
    pose proof (key_block fuel (length w) w LF (le_n _) ltac:(lia) ltac:(lia) B cs i0 S) as H. 
    match goal with |- context [sat B w cs ?x] => set (it1 := x) end.
    unfold bind, sub_it. cbn [sat s_rd s_cs s_cur]. change (mkSt (at_ B w) cs i0) with (sat B w cs i0). destruct (key_loop rec E fuel (sat B w cs i0)) as [x s1]. cbn [fst] in H.
    destruct (block judge (lost (e_grow E)) (length w) w); cbn in H |- *; [destruct H as [a ->]; eexists; reflexivity | destruct H as (e & T & ->); eexists; split; [exact T | reflexivity] | subst x; reflexivity].
Qed.
Lemma starts_32 b : (length b < K)%nat -> lenN b < 2 ^ 32 -> starts (sub32 rec) b (judge 2 b).
Proof.
  intros LK L cs it. unfold sub32, bind, getBody, call_rec. cbn [s_rd s_cs s_cur]. change (r_body (r_new b)) with b. pose proof (judged_ 2 b cs LK L) as J. destruct (rec 2 b cs) as [x c1]. cbn [fst] in J.
  destruct (judge 2 b); cbn in J |- *; [destruct J as [a ->]; eexists; reflexivity | destruct J as (e & T & ->); eexists; split; [exact T | reflexivity] | subst x; reflexivity].
Qed.
Lemma starts_ok b (m : M unit) : lenN b < 2 ^ 32 -> fine m b -> starts m b (verdict_of (octets 0 b)).
Proof. intros L H. apply starts_closes; [exact L|]. unfold octets. replace (0 <=? lenN b) with true by lia. apply closes_fine, H. Qed.
Lemma starts_byte b (f : byte -> M unit) : lenN b < 2 ^ 32 -> (forall a l, fine (f a) l) -> starts (bind rdByte f) b (verdict_of (octets 1 b)).
Proof. intros L H. apply starts_closes; [exact L|]. apply (closes_then _ _ _ any); [apply reads_byte | exact H]. Qed.
Lemma verdict_two n m k (b : bytes) : k = n + m -> verdict_of (octets k b) = verdict_of (after (octets n) (fun _ => octets m) b).
Proof.
  intros ->. rewrite <- (after_end (octets (n + m))). pose proof (octets_sum n m (give (tt)) b) as H. apply (f_equal verdict_of) in H.
  unfold after, give in *. destruct (octets (n + m) b); cbn in *; rewrite H; destruct (octets n b) as [? t| |]; try reflexivity; destruct (octets m t); reflexivity.
Qed.
Lemma starts_sub ty b : (length b < K)%nat -> lenN b < 2 ^ 32 -> starts (sub_m rec o E 2 ty) b (sub_verdict judge (lost (e_grow E)) (ty, b)).
Proof.
  intros LK L. unfold sub_m, sub_verdict. change (2 =? 2) with true. cbv iota. cbv zeta. rewrite RedactSubL.type_low.
  assert (forall mk, starts (sub_algs mk o) b (verdict_of (octets 0 b))) as ALGS.
  { intro mk. apply starts_ok; [exact L|]. unfold sub_algs. intros B cs it S. unfold bind, getBody. cbn [sat s_rd]. apply easy_mapM. intro a. apply easy_upd. }
  assert (starts (sub_text o) b (verdict_of (octets 0 b))) as TEXT.
  { apply starts_ok; [exact L|]. intros B cs it S. eexists _, _. reflexivity. }
  assert (starts (ret tt) b (verdict_of (octets 0 b))) as NONE by (apply starts_ok; [exact L | apply fine_ret]).
  assert (starts (sub02 o E) b (verdict_of (octets 4 b))) as S2.
  { apply starts_closes; [exact L|]. unfold sub02, newDateTime. names_. eapply closes_ext; [intro s; apply bind_assoc|]. apply (closes_then _ _ _ any); [apply reads_bytes; reflexivity|]. intros d l.
    fine_. }
  assert (starts (sub03 o E) b (verdict_of (octets 4 b))) as S3.
  { apply starts_closes; [exact L|]. unfold sub03. names_. apply (closes_then _ _ _ any); [apply reads_bytes; reflexivity|]. intros. fine_. }
  assert (starts (sub09 o E) b (verdict_of (octets 4 b))) as S9.
  { apply starts_closes; [exact L|]. unfold sub09. names_. apply (closes_then _ _ _ any); [apply reads_bytes; reflexivity|]. intros. fine_. }
  assert (starts sub04 b (verdict_of (octets 1 b))) as S4.
  { unfold sub04, sub_bool. intros cs it. rewrite bind_assoc. revert cs it. apply starts_byte; [exact L|]. intros. fine_. }
  assert (forall n y, starts (sub_bool n y) b (verdict_of (octets 1 b))) as BOOL.
  { intros n y. apply starts_byte; [exact L|]. intros. fine_. }
  assert (starts sub05 b (verdict_of (octets 2 b))) as S5.
  { rewrite (verdict_two 1 1 2 b eq_refl). apply starts_closes; [exact L|]. unfold sub05. apply (closes_after _ _ _ _ any); [apply reads_byte|]. intros a x l2 _ _. apply closes_upd.
    apply (closes_then _ _ _ any); [apply reads_byte|]. intros. fine_. }
  assert (starts (sub12 o) b (verdict_of (octets 2 b))) as S12.
  { rewrite (verdict_two 1 1 2 b eq_refl). apply starts_closes; [exact L|]. unfold sub12. apply (closes_after _ _ _ _ any); [apply reads_byte|]. intros a x l2 _ _. apply closes_upd.
    apply (closes_then _ _ _ any); [apply reads_byte|]. intros. fine_. }
  assert (starts (sub31 o) b (verdict_of (octets 2 b))) as S31.
  { rewrite (verdict_two 1 1 2 b eq_refl). apply starts_closes; [exact L|]. unfold sub31. apply (closes_after _ _ _ _ any); [apply reads_byte|]. intros a x l2 _ _. apply closes_upd.
    apply (closes_then _ _ _ any); [apply reads_byte|]. intros. fine_. }
  assert (starts sub16 b (verdict_of (octets 8 b))) as S16.
  { apply starts_closes; [exact L|]. unfold sub16. names_. apply (closes_then _ _ _ any); [apply reads_bytes; reflexivity|]. intros. fine_. }
  assert (starts (sub20 o) b (verdict_of ((octets 4 >> _ ; number 2 >> n ; number 2 >> m ; octets n >> _ ; octets m) b))) as S20.
  { apply starts_closes; [exact L|]. unfold sub20. apply (closes_after _ _ _ _ any); [apply reads_bytes; reflexivity|]. intros a x l2 _ _. cbv zeta. do 5 apply closes_upd.
    apply (closes_reads _ _ any). apply dec_number; [reflexivity | reflexivity|]. intros nl l3 N _. apply be_below in N. change (256 ^ 2) with 65536 in N.
    apply dec_number; [reflexivity | reflexivity|]. intros vl l4 V _. apply be_below in V. change (256 ^ 2) with 65536 in V.
    apply dec_octets; [reflexivity | lia|]. intros d l5 _ _. apply dec_upd. apply (dec_ext (bind (rdBytes (Z.of_N (be vl))) (fun value => add (if negb (bland (nth 0 a x00) 0x80 =? 0) then text_item (str "Value") value (oDebug o) else it_nd (str "Value") (dump_bytes value true)))) _
       (after (octets (be vl)) give)); [reflexivity | symmetry; apply after_end|]. apply dec_octets; [reflexivity | lia|]. intros d2 l6 _ _. apply dec_upd_end. exact I. }
  assert (starts sub23 b (verdict_of (octets 1 b))) as S23 by (apply starts_byte; [exact L | intros; fine_]).
  assert (starts sub30 b (verdict_of (octets 1 b))) as S30 by (apply starts_byte; [exact L | intros; fine_]).
  assert (starts sub_fpr b (verdict_of (octets 1 b))) as FPR by (apply starts_byte; [exact L | intros; fine_]).
  assert (starts sub27 b (verdict_of (octets 1 b))) as S27.
  { apply starts_byte; [exact L|]. intros a l. do 8 (apply fine_bind; [apply calm_upd|]; intros). apply fine_rest.
    match goal with |- context [lenZ ?x] => destruct x as [|c t]; [change (0 <? lenZ [])%Z with false; cbv iota; apply fine_bind; [apply calm_ret | intros; apply fine_more]|] end.
    replace (0 <? lenZ (c :: t))%Z with true by (unfold lenZ; cbn [length]; lia). apply fine_bind; [|intros; apply fine_more]. apply calm_byte. intro x. repeat (first [apply calm_upd | apply calm_bind; [apply calm_upd | intros]]). }
  assert (starts (sub29 o) b (verdict_of (octets 1 b))) as S29.
  { apply starts_byte; [exact L|]. intros a l. cbv zeta. apply fine_bind; [apply calm_upd|]. intros _ l2. apply fine_rest. destruct (0 <? lenZ l2)%Z eqn:P; [|apply fine_ret].
    apply fine_2EOF; [apply positive_rest, P|]. intro. apply easy_upd. }
  assert (starts (sub37 o) b (verdict_of (octets 0 b))) as S37 by (apply starts_ok; [exact L | unfold sub37; fine_]).
  pose proof (starts_32 b LK L) as S32. pose proof (starts_38 b ltac:(lia) L) as S38.
  unfold sub07, sub25. clear judged_ LK L. destruct (b2n ty mod 128) as [|p]; [exact NONE|].
  do 6 (destruct p as [p|p|]; [| | auto]); auto; destruct p as [p|p|]; auto.
Qed.
Lemma starts_attribute ty b : lenN b < 2 ^ 32 -> starts (sub_m rec o E 17 ty) b (attribute_verdict (ty, b)).
Proof.
  intro L. rewrite RedactSubL.type_01. unfold attribute_verdict. destruct (b2n ty mod 128 =? 1); [|apply starts_closes; [exact L | apply closes_fine, fine_ret]].
  apply starts_closes; [exact L|]. unfold sub01. apply (closes_after _ _ _ _ any); [apply reads_bytes; reflexivity|]. intros a x l2 _ _. cbv zeta.
  apply (closes_ext (bind rdByte (fun ver => bind (if b2n ver =? 1 then add (it_nv (str "Version") (dec (b2n ver))) else if in_private (b2n ver) then
     add (Item (str "Version") (dec (b2n ver)) [] (str "private or experimental use") []) ;; let* enc := rdByte in
     add (Item (str "Encoding") (if b2n enc =? 1 then str "JPEG" else sUnknown) [] (str "(enc " ++ dec (b2n enc) ++ str ")") [])
     else add (Item (str "Version") (dec (b2n ver)) [] sUnknown [])) (fun _ => bind rdLen (fun size => add (Item (str "Image data") [] [] (n_bytes (size - Z.of_N (be a))) [])))))); [reflexivity|].
  apply (closes_after _ _ _ _ (fun (a : byte) (n : N) => b2n a = n)).
  { apply (dec_ext (bind rdByte ret) _ (after (number 1) give)); [intro s; unfold bind, ret; destruct (rdByte s) as [[]]; reflexivity | symmetry; apply after_end|]. apply dec_byte. intros c r _. apply dec_ret. reflexivity. }
  intros ver v l3 <- _. apply (closes_then _ _ _ any); [|intros _ l4; apply fine_len; intro; apply fine_upd].
  unfold in_private. destruct ((100 <=? b2n ver) && (b2n ver <=? 110)) eqn:P.
  - replace (b2n ver =? 1) with false by lia. apply dec_upd. apply (dec_ext (bind rdByte (fun enc => add (Item (str "Encoding") (if b2n enc =? 1 then str "JPEG" else sUnknown) [] (str "(enc " ++ dec (b2n enc) ++ str ")") []))) _ (after (octets 1) give));
      [reflexivity | symmetry; apply after_end|]. apply dec_octet. intros c r _. apply dec_upd_end. exact I.
  - apply (dec_ext (upd (add_child (if b2n ver =? 1 then it_nv (str "Version") (dec (b2n ver)) else Item (str "Version") (dec (b2n ver)) [] sUnknown []))) _ (after (octets 0) (fun _ => give []))).
    + intro s. destruct (b2n ver =? 1); reflexivity.
    + unfold after, octets, give. replace (0 <=? lenN l3) with true by lia. reflexivity.
    + apply dec_none. apply dec_upd_end. exact I.
Qed.
(** ** Areas *)
Lemma subs_shorter l w : subs_in l w -> Forall (fun p => (length (snd p) < length w)%nat) l.
Proof.
  induction 1 as [|ty body len l w HL H IH]; constructor.
  - cbn [snd]. rewrite app_length. cbn [length]. rewrite app_length. destruct HL; cbn [length]; lia.
  - eapply Forall_impl; [|exact IH]. cbn beta. intros p P. rewrite app_length. cbn [length]. rewrite app_length. lia.
Qed.
Lemma area_ends tagid sub name w s : lenN w < 2 ^ 32 -> (forall ty b, (length b < length w)%nat -> lenN b < 2 ^ 32 -> starts (sub_m rec o E tagid ty) b (sub (ty, b))) ->
  ends_as (fst (sub_area rec o E tagid name w s)) (area sub w).
Proof.
  intros L H. unfold sub_area, area. pose proof (subs_of_ok (length w) w L) as SO. unfold subpackets. destruct (subs_of (length w) w) as [l|].
  - rewrite SO. apply opaque_out in SO; [|exact L]. apply subs_shorter in SO. unfold sub_it. set (it := Item _ _ _ _ _). destruct s as [r cs cur]. cbn [s_rd s_cs s_cur].
    assert (forall cs it, ends_as (fst (mapM_ (sub_one rec o E tagid) l (mkSt r cs it))) (fold_right (fun p v => both (sub p) v) Accepted l)) as M.
    { clear cs it cur. induction SO as [|[ty b] l P SO IH]; intros cs it; cbn [mapM_ fold_right]; [eexists; reflexivity|]. cbn [snd] in P.
      apply ends_bind.
      - unfold sub_one. unfold bind at 1. unfold run_in. cbn [fst snd s_rd s_cs s_cur]. pose proof (H ty b P ltac:(unfold lenN in *; lia) cs (sub_item ty b (oDebug o))) as X.
        destruct (sub_m rec o E tagid ty _) as [x s1]. cbn [fst] in X. destruct (sub (ty, b)); cbn in X |- *; [destruct X as [a ->]; eexists; reflexivity | destruct X as (e & T & ->); eexists; split; [exact T | reflexivity] | subst x; reflexivity].
      - intros [] s1 M1. assert (s_rd s1 = r) as R1.
        { unfold sub_one, bind, run_in in M1. cbn [fst snd s_rd s_cs s_cur] in M1. destruct (sub_m rec o E tagid ty _) as [[x|e| |] s2]; try discriminate. injection M1 as <-. reflexivity. }
        destruct s1 as [r1 c1 i1]. cbn [s_rd] in R1. subst r1. apply IH. }
    specialize (M cs it). destruct (mapM_ (sub_one rec o E tagid) l (mkSt r cs it)) as [x s1]. cbn [fst] in M |- *. exact (ends_map (fun _ => s_cur s1) _ _ M).
  - destruct (opaque_subpackets (length w) w) as [l ok]. cbn [snd] in SO. subst ok. eexists. split; reflexivity.
Qed.
Lemma reads_area tagid sub name w rest : lenN w < 2 ^ 32 -> (forall ty b, (length b < length w)%nat -> lenN b < 2 ^ 32 -> starts (sub_m rec o E tagid ty) b (sub (ty, b))) ->
  reads (sub_area rec o E tagid name w) (judged (area sub w)) any rest.
Proof.
  intros L H B cs it S. pose proof (area_ends tagid sub name w (sat B rest cs it) L H) as X. destruct (RedactPktL.still_area rec o E tagid name w (at_ B rest) (at_ B rest) cs it) as [R _].
  change (mkSt (at_ B rest) cs it) with (sat B rest cs it) in R. destruct (sub_area rec o E tagid name w (sat B rest cs it)) as [x [r1 c1 i1]]. cbn [fst snd s_rd] in X, R. subst r1.
  destruct (area sub w); cbn in X |- *.
  - destruct X as [a ->]. split; [exists []; reflexivity|]. exists a, c1, i1. split; [exact I | reflexivity].
  - destruct X as (e & T & ->). eexists _, _. split; [exact T | reflexivity].
  - subst x. eexists. reflexivity.
Qed.
Lemma reads_sig_area name rest : (length rest <= K)%nat -> reads (sig_area rec o E name) (area_scan judge (lost (e_grow E))) any rest.
Proof.
  intro LR. unfold sig_area, area_scan. apply dec_number; [reflexivity | reflexivity|]. intros d r D ER. apply be_below in D. change (256 ^ 2) with 65536 in D. cbv zeta. destruct (0 <? be d) eqn:P.
  - apply dec_octets; [reflexivity | lia|]. intros x r2 X E2. apply (dec_end _ _ _ any); [|intros i [] r3 _ _; apply dec_upd_end; exact I].
    apply reads_area; [lia|]. intros ty b LB L32. apply starts_sub; [|exact L32]. apply (f_equal (@length byte)) in E2, ER. rewrite app_length in E2, ER. lia.
  - assert (be d = 0) as -> by lia. apply (dec_ext (ret tt) _ (give tt)); [reflexivity| | apply dec_ret; exact I]. unfold after, octets. replace (0 <=? lenN r) with true by lia. reflexivity.
Qed.

(** ** The packets, tag by tag *)
Ltac octet_ := apply dec_octet; intros ? ? _.
Ltac upd_ := apply dec_upd.
Lemma dec_number_octet {A V} z n (f : bytes -> M A) (g : scan V) R rest : z = Z.of_N n -> n < 2 ^ 62 ->
  (forall d rest2, lenN d = n -> rest = d ++ rest2 -> reads (f d) g R rest2) -> reads (bind (rdBytes z) f) (after (octets n) (fun _ => g)) R rest.
Proof. apply (dec_octets z n f (fun _ => g) R rest). Qed.
Ltac octets_ := apply dec_number_octet; [reflexivity | reflexivity|]; intros ? ? _ _.
Lemma reads_tag01 rest : reads (tag01 o) (packet_scan judge (lost (e_grow E)) (fun _ _ => false) 1) any rest.
Proof.
  unfold tag01. cbn [packet_scan]. apply (dec_quiet _ _ _ _ _ _ _ (RedactL.quiet_setMode _)). intro u. apply (dec_sum 1 8); [reflexivity|]. octet_. upd_. octets_. upd_. apply dec_byte. intros pub r2 _. upd_.
  apply (dec_end _ _ _ any); [apply dec_ses|]. intros [] [] r3 _ _. apply dec_addRest.
Qed.
Lemma reads_sigV4 rest : (length rest <= K)%nat ->
  reads (sigV4 rec o E) (octets 1 >> _ ; number 1 >> a ; octets 1 >> _ ; area_scan judge (lost (e_grow E)) >> _ ; area_scan judge (lost (e_grow E)) >> _ ; octets 2 >> _ ; fields_scan sig_layout a) any rest.
Proof.
  intro LK. unfold sigV4. apply dec_octet. intros s r1 E1. upd_. apply dec_byte. intros pub r2 E2. upd_. apply dec_octet. intros h r3 E3. upd_.
  assert (length r3 <= K)%nat as L3 by (subst; cbn [length] in LK; lia).
  apply (dec_bind _ _ _ _ any); [apply reads_sig_area, L3|]. intros [] [] r4 _ L4. apply (dec_bind _ _ _ _ any); [apply reads_sig_area; lia|]. intros [] [] r5 _ _.
  octets_. upd_. apply dec_sig.
Qed.
(** Nothing in a signature of version 3 makes the program crash. *)
Definition whole {A W} (m : M A) (w : scan W) rest : Prop := reads m w any rest /\ forall l, w l <> Crash.
Lemma reads_sigV3 rest : exists w : scan unit, reads (sigV3 o E) w any rest /\ forall l, w l <> Crash.
Proof.
  exists (number 1 >> sz ; (if sz =? 5 then octets 1 >> _ ; octets 4 >> _ ; give tt else octets sz >> _ ; give tt) >> _ ; octets 8 >> _ ; number 1 >> a ; octets 1 >> _ ; octets 2 >> _ ; fields_scan sig_layout a). split.
  - unfold sigV3. apply dec_byte. intros sz r _. pose proof (b2n_lt sz). apply (dec_bind _ _ _ _ any).
    + apply dec_child. destruct (b2n sz =? 5); cbn [negb].
      * octet_. upd_. unfold newDateTime. apply dec_assoc. octets_. apply dec_ret_bind. apply dec_upd_end. exact I.
      * upd_. apply dec_number_octet; [reflexivity | lia|]. intros d r2 _ _. apply dec_upd_end. exact I.
    + intros [] [] r2 _ _. octets_. upd_. apply dec_byte. intros pub r3 _. upd_. octet_. upd_. octets_. upd_. apply dec_sig.
  - assert (forall n l, octets n l <> Crash) as H1 by (intros n l; unfold octets; destruct (_ <=? _); discriminate).
    assert (forall A B (w : scan A) (f : A -> scan B), (forall l, w l <> Crash) -> (forall a l, f a l <> Crash) -> forall l, after w f l <> Crash) as H2.
    { intros A B w f HA HB l. unfold after. specialize (HA l). destruct (w l); [apply HB | discriminate | congruence]. }
    assert (forall A (a : A) l, give a l <> Crash) as H3 by (intros; discriminate).
    assert (forall n l, number n l <> Crash) as H4 by (intros n; unfold number; apply H2; auto).
    assert (forall s l, slot_scan s l <> Crash) as H5.
    { intros s. destruct s; cbn [slot_scan]; try (apply H2; [apply H4|]; intro; apply H2; auto); intro l; unfold look; (destruct l; [discriminate|]); revert l; intro l; (apply H2; [apply H4|]; intro; apply H2; auto). }
    assert (forall a l, fields_scan sig_layout a l <> Crash) as H6.
    { intros a. unfold fields_scan. destruct (sig_layout a) as [l|]; [|apply H3]. unfold slots_scan. induction l as [|s l IH]; cbn [fold_right]; [apply H3|]. apply H2; [apply H5 | intro; exact IH]. }
    apply H2; [apply H4|]. intro sz. apply H2; [destruct (sz =? 5); apply H2; auto; intro; apply H2; auto|]. intro. apply H2; [apply H1|]. intro. apply H2; [apply H4|]. intro. apply H2; [apply H1|]. intro. apply H2; [apply H1|]. intro. apply H6.
Qed.
Lemma reads_tag02 rest : (length rest <= K)%nat -> closes (tag02 rec o E) rest (verdict_of (packet_scan judge (lost (e_grow E)) (fun _ _ => false) 2 rest)).
Proof.
  intro LK. cbn [packet_scan]. unfold tag02. apply (closes_after _ _ _ _ (fun (a : byte) (n : N) => b2n a = n)).
  { apply (dec_ext (bind rdByte ret) _ (after (number 1) give)); [intro s; unfold bind, ret; destruct (rdByte s) as [[]]; reflexivity | symmetry; apply after_end|]. apply dec_byte. intros c r _. apply dec_ret. reflexivity. }
  intros v n l2 <- L2. cbv zeta. apply closes_upd.
  assert (v_isdraft (SigVer v) = (b2n v =? 5)) as -> by reflexivity. assert (v_iscur (SigVer v) = (b2n v =? 4)) as -> by reflexivity. change (v_num (SigVer v)) with (b2n v).
  destruct (b2n v =? 5) eqn:V5; [|destruct (b2n v =? 4) eqn:V4]; cbn [orb].
  - rewrite orb_true_r. apply (closes_then _ _ _ any); [apply reads_sigV4; lia|]. intros _ l3. apply fine_addRest.
  - apply (closes_then _ _ _ any); [apply reads_sigV4; lia|]. intros _ l3. apply fine_addRest.
  - destruct (v_isold (SigVer v) && (b2n v =? 3)).
    + destruct (reads_sigV3 l2) as (w & H & NC). intros B cs it S. specialize (H B cs it S). unfold bind, catchM. specialize (NC l2). destruct (w l2) as [u t| |]; [| |congruence].
      * destruct H as ([d ->] & a & cs1 & it1 & _ & ->). destruct (fine_addRest sUnknownData (oDebug o) t B cs1 it1 (suf_app _ _ _ S)) as (a2 & s2 & ->). eexists. reflexivity.
      * destruct H as (e & s1 & _ & ->). eexists. reflexivity.
    + apply closes_fine, fine_addRest.
Qed.
Lemma symver_cur v : v_iscur (SymSessKeyVer v) = (b2n v =? 4).
Proof. reflexivity. Qed.
Lemma reads_tag03 rest : reads (tag03 o) (packet_scan judge (lost (e_grow E)) (fun _ _ => false) 3) any rest.
Proof.
  unfold tag03. cbn [packet_scan]. apply (dec_quiet _ _ _ _ _ _ _ (RedactL.quiet_setMode _)). intro u. apply dec_byte. intros v r _. cbv zeta. upd_. rewrite symver_cur.
  destruct (b2n v =? 4); [|apply dec_ret_bind, dec_addRest]. apply dec_assoc. octet_. apply dec_assoc. upd_. apply dec_assoc. apply (dec_bind _ _ _ _ any); [|intros; apply dec_ret_bind, dec_addRest].
  intros B cs it S. pose proof (dec_s2k (oDebug o) _ B cs it S) as H. destruct (specifier_scan _) as [y t| |]; [|exact H..]. destruct H as [D (a & c1 & i1 & _ & M1)]. split; [exact D|]. exists a, c1, i1. split; [exact I | exact M1].
Qed.
Lemma reads_tag04 rest : reads (tag04 o) (packet_scan judge (lost (e_grow E)) (fun _ _ => false) 4) any rest.
Proof.
  unfold tag04. cbn [packet_scan]. apply (dec_sum 1 12); [reflexivity|]. octet_. upd_. apply (dec_sum 1 11); [reflexivity|]. octet_. upd_. apply (dec_sum 1 10); [reflexivity|]. octet_. upd_.
  apply (dec_sum 1 9); [reflexivity|]. octet_. upd_. apply (dec_sum 8 1); [reflexivity|]. octets_. upd_. octet_. upd_. apply dec_addRest.
Qed.
Lemma reads_tag05 rest : reads (tag05 o E) (packet_scan judge (lost (e_grow E)) (fun _ _ => false) 5) any rest.
Proof.
  unfold tag05. cbn [packet_scan]. apply dec_byte. intros v r _. cbv zeta. upd_. apply (dec_bind _ _ _ _ RedactTagL.is_octet); [apply dec_child, dec_public|]. intros pub n r2 P _. unfold RedactTagL.is_octet in P. subst n.
  apply (dec_end _ _ _ any); [apply dec_child, dec_secret|]. intros [] [] r3 _ _. apply dec_addRest.
Qed.
Lemma reads_tag06 rest : reads (tag06 o E) (packet_scan judge (lost (e_grow E)) (fun _ _ => false) 6) any rest.
Proof.
  unfold tag06. cbn [packet_scan]. apply dec_byte. intros v r _. cbv zeta. upd_. apply (dec_bind _ _ _ _ RedactTagL.is_octet); [apply dec_public|]. intros pub n r2 _ _. apply dec_addRest.
Qed.
Lemma reads_tag08 rest : closes (tag08 o E) rest (verdict_of (packet_scan judge (lost (e_grow E)) (damaged E) 8 rest)).
Proof.
  cbn [packet_scan]. unfold tag08. apply (closes_after _ _ _ _ (fun (a : byte) (n : N) => b2n a = n)).
  { apply (dec_ext (bind rdByte ret) _ (after (number 1) give)); [intro s; unfold bind, ret; destruct (rdByte s) as [[]]; reflexivity | symmetry; apply after_end|]. apply dec_byte. intros c r _. apply dec_ret. reflexivity. }
  intros c n l2 <- _. apply closes_upd. intros B cs it S. rewrite (bind_ok _ _ _ _ _ (rdRest_at _ _ _ _ S)). unfold look. destruct l2 as [|x t]; [eexists; reflexivity|].
  replace (0 <? lenZ (x :: t))%Z with true by (unfold lenZ; cbn [length]; lia). rewrite (bind_ok _ _ _ _ _ (rawData_at _ _ _ _ _ _ S)). cbv zeta.
  destruct (b2n c =? 0) eqn:C0.
  - replace (1 <=? b2n c) with false by lia. cbn [andb]. destruct (rd2EOF_at B (x :: t) cs it S ltac:(discriminate)) as (s1 & M1 & _). rewrite (bind_ok _ _ _ _ _ M1). eexists. reflexivity.
  - replace (1 <=? b2n c) with true by lia. cbn [andb]. destruct (b2n c <=? 3); [|eexists; reflexivity]. cbn [andb]. destruct (rd2EOF_at B (x :: t) cs it S ltac:(discriminate)) as (s1 & M1 & _). rewrite (bind_ok _ _ _ _ _ M1).
    unfold copy_from, damaged, max_decompressed. destruct (e_inflate E (b2n c) (x :: t)) as [|d ok]; [eexists; split; reflexivity|]. destruct (2 ^ 30 <=? lenN d) eqn:G.
    + replace (lenN d <? 2 ^ 30) with false by lia. rewrite andb_false_r. destruct ok; eexists; reflexivity.
    + replace (lenN d <? 2 ^ 30) with true by lia. destruct ok; eexists; [reflexivity | split; reflexivity].
Qed.
Lemma reads_tag11 rest : reads (tag11 o E) (packet_scan judge (lost (e_grow E)) (fun _ _ => false) 11) any rest.
Proof.
  unfold tag11. cbn [packet_scan]. octet_. upd_. apply dec_byte. intros n r _. pose proof (b2n_lt n).
  assert (forall A V (f : bytes -> M A) (g : scan V) R rest, (forall d rest2, reads (f d) g R rest2) -> reads (bind (newLiteralFname (Z.of_N (b2n n))) f) (after (octets (b2n n)) (fun _ => g)) R rest) as FN.
  { intros A V f g R l HF. unfold newLiteralFname. destruct (Z.of_N (b2n n) <? 1)%Z eqn:Z.
    - apply dec_ret_bind. replace (b2n n) with 0 by lia. apply dec_none. apply HF.
    - apply dec_number_octet; [reflexivity | lia|]. intros d r2 _ _. apply HF. }
  apply FN. intros d r2. upd_. unfold newDateTime. apply dec_assoc. octets_. apply dec_ret_bind. upd_. unfold tag_raw. apply dec_raw. intro x. apply dec_upd_end. exact I.
Qed.
Lemma closes_tag20 rest : closes (tag20 o) rest (verdict_of (packet_scan judge (lost (e_grow E)) (fun _ _ => false) 20 rest)).
Proof.
  cbn [packet_scan]. rewrite (octets_sum 1 3). unfold tag20. apply (closes_after _ _ _ _ any); [apply reads_byte|]. intros v x l1 _ _. apply closes_upd. rewrite (octets_sum 1 2).
  apply (closes_after _ _ _ _ any); [apply reads_byte|]. intros sy x2 l2 _ _. apply closes_upd. rewrite (octets_sum 1 1).
  apply (closes_after _ _ _ _ any); [apply reads_byte|]. intros ae x3 l3 _ _. apply closes_upd. apply (closes_after _ _ _ _ any); [apply reads_byte|]. intros c x4 l4 _ _. apply closes_upd.
  intros B cs it S. unfold bind at 1, catchM. assert (exists n, aead_ivlen ae = Z.of_N n /\ n < 2 ^ 62) as (n & EQ & LN).
  { unfold aead_ivlen. destruct (b2n ae) as [|[p|[p|p|]|]]; first [exists 16; split; reflexivity | exists 0; split; reflexivity]. }
  pose proof (reads_bytes _ n l4 EQ LN B cs it S) as H. unfold octets in H. destruct (n <=? lenN l4).
  - destruct H as ([d Q] & a & cs1 & it1 & _ & ->). cbv iota beta. unfold bind, add, upd. cbn [sat s_rd s_cs s_cur]. rewrite Q in S.
    destruct (fine_addRest (str "Encrypted data and authentication tag") (oDebug o) _ B cs1 (add_child (it_nd (str "IV") (dump_bytes a true)) it1) (suf_app _ _ _ S)) as (a2 & s2 & X). unfold sat in X. rewrite X. eexists. reflexivity.
  - destruct H as (e & s1 & _ & ->). eexists. reflexivity.
Qed.

(** ** Every packet *)
Lemma ends_no_data (m : M unit) s v : ends_as (fst (m s)) v -> ends_as (fst (no_data m s)) v.
Proof. intro H. unfold no_data. replace v with (both v Accepted) by (destruct v; reflexivity). apply ends_bind; [exact H|]. intros. eexists. reflexivity. Qed.
Lemma starts_tag tag b : (length b <= K)%nat -> lenN b < 2 ^ 32 -> starts (tag_m rec o E tag) b (verdict_of (packet_scan judge (lost (e_grow E)) (damaged E) tag b)).
Proof.
  intros LK L. assert (suf b b) as S0 by (apply suf_refl; unfold lenN, lenZ in *; lia).
  assert (forall m v, closes m b v -> starts (no_data m) b v) as ND.
  { intros m v H cs it. apply ends_no_data. revert cs it. apply starts_closes; [exact L | exact H]. }
  assert (forall m, fine m b -> starts (no_data m) b Accepted) as FD by (intros m H; apply ND, closes_fine, H).
  pose proof (ND _ _ (closes_reads _ _ _ _ (reads_tag01 b))) as T1. pose proof (ND _ _ (reads_tag02 b LK)) as T2. pose proof (ND _ _ (closes_reads _ _ _ _ (reads_tag03 b))) as T3.
  pose proof (ND _ _ (closes_reads _ _ _ _ (reads_tag04 b))) as T4. pose proof (ND _ _ (closes_reads _ _ _ _ (reads_tag05 b))) as T5. pose proof (ND _ _ (closes_reads _ _ _ _ (reads_tag06 b))) as T6.
  pose proof (starts_closes _ _ _ L (reads_tag08 b)) as T8. pose proof (ND _ _ (closes_reads _ _ _ _ (reads_tag11 b))) as T11. pose proof (ND _ _ (closes_tag20 b)) as T20.
  assert (starts (no_data (tag17 rec o E)) b (verdict_of (packet_scan judge (lost (e_grow E)) (damaged E) 17 b))) as T17.
  { intros cs it. apply ends_no_data. unfold tag17. cbn [packet_scan]. unfold bind at 1, getBody. cbn [s_rd]. change (r_body (r_new b)) with b. unfold look.
    replace (verdict_of (judged (area attribute_verdict b) b)) with (both (area attribute_verdict b) Accepted) by (destruct (area attribute_verdict b); reflexivity).
    apply ends_bind; [|intros; eexists; reflexivity]. apply area_ends; [exact L|]. intros ty x _ LX. apply starts_attribute, LX. }
  assert (starts (no_data (tag09 o)) b Accepted) as T9 by (apply FD; unfold tag09; fine_).
  assert (starts (no_data (tag18 o)) b Accepted) as T18 by (apply FD; unfold tag18; fine_).
  assert (starts (no_data (tag19 o)) b Accepted) as T19 by (apply FD; unfold tag19; fine_).
  assert (forall n f, starts (no_data (tag_raw n f)) b Accepted) as TR by (intros; apply FD; unfold tag_raw; fine_).
  assert (starts (no_data (tag13 o)) b Accepted) as T13 by (intros cs it; eexists; reflexivity).
  assert (starts (no_data (ret tt)) b Accepted) as T0 by (intros cs it; eexists; reflexivity).
  cbn [packet_scan] in *. clear judged_ LK L. unfold tag_m, packet_scan. destruct tag as [|p]; [exact T0|].
  do 5 (destruct p as [p|p|]; [| | auto]); auto.
Qed.
Lemma body_ends tag b cs : (length b <= K)%nat -> lenN b < 2 ^ 32 -> ends_as (fst (tag_body rec o E tag b cs)) (verdict_of (packet_scan judge (lost (e_grow E)) (damaged E) tag b)).
Proof.
  intros LK L. unfold tag_body. pose proof (starts_tag tag b LK L) as H. match goal with |- context [tag_m rec o E tag (mkSt _ ?c ?i)] => specialize (H c i) end.
  destruct (tag_m rec o E tag _) as [x s1]. cbn [fst] in H |- *. destruct (verdict_of _); cbn in H |- *; [destruct H as [a ->]; eexists; reflexivity | destruct H as (e & T & ->); eexists; split; [exact T | reflexivity] | subst x; reflexivity].
Qed.
End Packet.

Lemma fuel_ends o E n : int_sizes (e_grow E) -> forall tag b cs, (length b < n)%nat -> lenN b < 2 ^ 32 -> ends_as (fst (parse_tag_fuel n o E tag b cs)) (fate_depth (lost (e_grow E)) (damaged E) n tag b).
Proof.
  intro G. induction n as [|n IH]; intros tag b cs L L2; [lia|]. cbn [parse_tag_fuel fate_depth]. apply (body_ends o E _ (fate_depth (lost (e_grow E)) (damaged E) n) G n); [exact IH | lia | exact L2].
Qed.
Lemma parse_tag_ends o E tag b cs : int_sizes (e_grow E) -> lenN b < 2 ^ 32 -> ends_as (fst (parse_tag o E tag b cs)) (fate (lost (e_grow E)) (damaged E) tag b).
Proof. intros G L. apply fuel_ends; [exact G | lia | exact L]. Qed.
