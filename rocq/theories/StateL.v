(** * StateL: which parts of the shared state the parsers change (C10, C11). *)
From Coq Require Import Strings.String Strings.Byte List NArith ZArith Bool Lia ZifyBool ZifyN ZifyNat.
From Verif Require Import Base BaseL Item Reader Context Env Time Values Opaque Monad Pubkey S2k Subs Tags SubParse Parse ReaderL MonadL SpecBase SpecSub SpecSubs SubL SubsL SpecNest SpecParse SpecState PropSub.
Import ListNotations.
Local Open Scope N_scope.

(** The part [f] of the state is left as it is, whatever the outcome. *)
Definition keeps {A X} (f : cst -> X) (m : M A) : Prop := forall s, f (s_cs (snd (m s))) = f (s_cs s).

Section Keeps.
  Context {X : Type} (f : cst -> X).
  Notation K := (keeps f).
  Lemma keeps_ret {A} (a : A) : K (ret a). Proof. intro. reflexivity. Qed.
  Lemma keeps_fail {A} e : K (@fail A e). Proof. intro. reflexivity. Qed.
  Lemma keeps_of_res {A} (r : res A) : K (of_res r). Proof. intro. reflexivity. Qed.
  Lemma keeps_bind {A B} (m : M A) (g : A -> M B) : K m -> (forall a, K (g a)) -> K (bind m g).
  Proof.
    intros H G s. unfold bind. specialize (H s). destruct (m s) as [[a|e| |] s']; cbn [snd] in *; try exact H. rewrite G. exact H.
  Qed.
  Lemma keeps_on_rd {A} (g : reader -> res A * reader) : K (on_rd g).
  Proof. intro s. unfold on_rd. destruct (g (s_rd s)). reflexivity. Qed.
  Lemma keeps_byte : K rdByte. Proof. apply keeps_on_rd. Qed.
  Lemma keeps_bytes n : K (rdBytes n). Proof. apply keeps_on_rd. Qed.
  Lemma keeps_2eof : K rd2EOF. Proof. apply keeps_on_rd. Qed.
  Lemma keeps_seek a b : K (rdSeek a b). Proof. apply keeps_on_rd. Qed.
  Lemma keeps_rest : K rdRest. Proof. intro. reflexivity. Qed.
  Lemma keeps_len : K rdLen. Proof. intro. reflexivity. Qed.
  Lemma keeps_body : K getBody. Proof. intro. reflexivity. Qed.
  Lemma keeps_name : K curName. Proof. intro. reflexivity. Qed.
  Lemma keeps_get : K getCs. Proof. intro. reflexivity. Qed.
  Lemma keeps_upd g : K (upd g). Proof. intro. reflexivity. Qed.
  Lemma keeps_add c : K (add c). Proof. apply keeps_upd. Qed.
  Lemma keeps_addo c : K (addo c). Proof. apply keeps_upd. Qed.
  Lemma keeps_note c : K (setNote c). Proof. apply keeps_upd. Qed.
  Lemma keeps_value c : K (setValue c). Proof. apply keeps_upd. Qed.
  Lemma keeps_dump c : K (setDump c). Proof. apply keeps_upd. Qed.
  Lemma keeps_put c : K (putCur c). Proof. apply keeps_upd. Qed.
  Lemma keeps_child {A} i (m : M A) : K m -> K (child i m).
  Proof. intros H s. unfold child. specialize (H (mkSt (s_rd s) (s_cs s) i)). destruct (m _). exact H. Qed.
  Lemma keeps_sub_it {A} i (m : M A) : K m -> K (sub_it i m).
  Proof. intros H s. unfold sub_it. specialize (H (mkSt (s_rd s) (s_cs s) i)). destruct (m _). exact H. Qed.
  Lemma keeps_run_in {A} r i (m : M A) : K m -> K (run_in r i m).
  Proof. intros H s. unfold run_in. specialize (H (mkSt r (s_cs s) i)). destruct (m _). exact H. Qed.
  Lemma keeps_with_rd {A} r (m : M A) : K m -> K (with_rd r m).
  Proof. intros H s. unfold with_rd. specialize (H (mkSt r (s_cs s) (s_cur s))). destruct (m _). exact H. Qed.
  Lemma keeps_catch {A} (m : M A) : K m -> K (catchM m).
  Proof. intros H s. unfold catchM. specialize (H s). destruct (m s) as [[] ?]; exact H. Qed.
  Lemma keeps_dumprest b : K (dumpRest b). Proof. intro s. unfold dumpRest. destruct b; reflexivity. Qed.
  Lemma keeps_mapM {A} (g : A -> M unit) l : (forall a, K (g a)) -> K (mapM_ g l).
  Proof. intro H. induction l; cbn [mapM_]; [apply keeps_ret | apply keeps_bind; auto]. Qed.
  Lemma keeps_parm : K newECParm.
  Proof. 
    intro s. unfold newECParm. pose proof (keeps_byte s) as H. destruct (rdByte s) as [[l|e| |] s']; cbn [snd] in *; try exact H.
    destruct (b2n l =? 0); [exact H|]. rewrite (keeps_bytes _ s'). exact H.
  Qed.
  Lemma keeps_len4 : K readLen4.
  Proof. intro s. unfold readLen4. pose proof (keeps_bytes 4 s) as H. destruct (rdBytes 4 s) as [[l|e| |] s']; exact H. Qed.
  Lemma keeps_next E : K (next_rd E).
  Proof. intro s. unfold next_rd. destruct (next_packet _ _ _ _) as [[[p|e]|] r]; reflexivity. Qed.
  Lemma keeps_opt_run {A} ro (m : M A) : K m -> K (opt_run ro m).
  Proof. intro H. destruct ro; cbn [opt_run]; apply keeps_bind; [apply keeps_with_rd, H | intro; apply keeps_ret | exact H | intro; apply keeps_ret]. Qed.
  Lemma keeps_flags l : forall k, K (flag_loop k l).
  Proof. induction l; intro k; cbn [flag_loop]; [apply keeps_ret | apply keeps_bind; [apply keeps_addo | intro; apply IHl]]. Qed.
  (** Parts that [f] does not look at. *)
  Definition no_mode := forall x, K (setMode x).
  Definition no_sig := forall x, K (setSig x).
  Definition no_key := forall x, K (setKey x).
End Keeps.
Ltac kp1 := lazymatch goal with
  | |- keeps _ (bind _ _) => apply keeps_bind; [|intro]
  | |- keeps _ (ret _) => apply keeps_ret
  | |- keeps _ (fail _) => apply keeps_fail
  | |- keeps _ (of_res _) => apply keeps_of_res
  | |- keeps _ rdByte => apply keeps_byte
  | |- keeps _ (rdBytes _) => apply keeps_bytes
  | |- keeps _ rd2EOF => apply keeps_2eof
  | |- keeps _ (rdSeek _ _) => apply keeps_seek
  | |- keeps _ rdRest => apply keeps_rest
  | |- keeps _ rdLen => apply keeps_len
  | |- keeps _ getBody => apply keeps_body
  | |- keeps _ curName => apply keeps_name
  | |- keeps _ getCs => apply keeps_get
  | |- keeps _ (add _) => apply keeps_add
  | |- keeps _ (addo _) => apply keeps_addo
  | |- keeps _ (setNote _) => apply keeps_note
  | |- keeps _ (setValue _) => apply keeps_value
  | |- keeps _ (setDump _) => apply keeps_dump
  | |- keeps _ (putCur _) => apply keeps_put
  | |- keeps _ (child _ _) => apply keeps_child
  | |- keeps _ (sub_it _ _) => apply keeps_sub_it
  | |- keeps _ (run_in _ _ _) => apply keeps_run_in
  | |- keeps _ (with_rd _ _) => apply keeps_with_rd
  | |- keeps _ (opt_run _ _) => apply keeps_opt_run
  | |- keeps _ (catchM _) => apply keeps_catch
  | |- keeps _ (dumpRest _) => apply keeps_dumprest
  | |- keeps _ (next_rd _) => apply keeps_next
  | |- keeps _ newECParm => apply keeps_parm
  | |- keeps _ readLen4 => apply keeps_len4
  | |- keeps _ (mapM_ _ _) => apply keeps_mapM; intro
  | |- keeps _ (setMode _) => match goal with H : no_mode _ |- _ => apply H end
  | |- keeps _ (setSig _) => match goal with H : no_sig _ |- _ => apply H end
  | |- keeps _ (setKey _) => match goal with H : no_key _ |- _ => apply H end
  | |- keeps _ (flag_loop _ _) => apply keeps_flags
  | |- keeps _ (if ?x then _ else _) => destruct x
  | |- keeps _ (match ?x with _ => _ end) => destruct x
  | |- keeps _ ?m => let h := head m in unfold h
  end
with head m := lazymatch m with ?g _ => head g | _ => m end.
Ltac kp := cbv zeta; repeat kp1.


Section Kept.
  Context {X : Type} (f : cst -> X).
  Notation K := (keeps f).
  (** Sub-packets. *)
  Lemma keeps_sub rec o E ty : (sub_type ty = 2 \/ sub_type ty = 3 -> no_sig f) -> (sub_type ty = 9 -> no_key f) ->
    sub_type ty <> 32 -> sub_type ty <> 38 -> K (sub_m rec o E 2 ty).
  Proof.
    intros HS HK N32 N38. unfold sub_m. rewrite bland_type. change (2 =? 2) with true. cbv iota.
    destruct (N.eq_dec (sub_type ty) 2) as [T|N2]; [rewrite T in *; specialize (HS (or_introl eq_refl)); kp|].
    destruct (N.eq_dec (sub_type ty) 3) as [T|N3]; [rewrite T in *; specialize (HS (or_intror eq_refl)); kp|].
    destruct (N.eq_dec (sub_type ty) 9) as [T|N9]; [rewrite T in *; specialize (HK eq_refl); kp|]. clear HS HK.
    destruct (sub_type ty) as [|p]; [kp|]. do 6 (try destruct p as [p|p|]); try congruence; kp.
  Qed.
  Lemma keeps_attr rec o E ty : K (sub_m rec o E 17 ty).
  Proof. unfold sub_m. change (17 =? 2) with false. cbv iota. destruct (bland ty 127) as [|[]]; kp. Qed.
  (** Packets other than signatures. *)
  Lemma keeps_tag rec o E tag : tag <> 2 -> (In tag [1; 3; 9; 18] -> no_mode f) -> (In tag [5; 6; 7; 14] -> no_key f) -> K (tag_m rec o E tag).
  Proof.
    intros N2 HM HK. unfold tag_m.
    destruct (in_dec N.eq_dec tag [1; 3; 9; 18]) as [I|N1].
    { specialize (HM I). clear HK N2. cbn [In] in I. repeat destruct I as [<-|I]; try (destruct I; fail); kp. }
    destruct (in_dec N.eq_dec tag [5; 6; 7; 14]) as [I|N5].
    { specialize (HK I). clear HM N2. cbn [In] in I. repeat destruct I as [<-|I]; try (destruct I; fail); kp. }
    destruct (N.eq_dec tag 17) as [->|N17].
    { assert (forall sp, K (sub_one rec o E 17 sp)) as S1.
      { intro sp. unfold sub_one. apply keeps_bind; [apply keeps_run_in, keeps_attr | intro; apply keeps_add]. }
      unfold no_data, tag17, sub_area. apply keeps_bind; [|intro; apply keeps_ret]. apply keeps_bind; [apply keeps_body | intro b].
      apply keeps_bind; [|intro; apply keeps_add]. destruct (subpackets b) as [l []]; [|apply keeps_fail]. apply keeps_sub_it, keeps_mapM, S1. }
    clear HM HK. destruct tag as [|p]; [kp|]. do 5 (try destruct p as [p|p|]); try congruence;
      try (exfalso; apply N1; cbn [In]; auto 6; fail); try (exfalso; apply N5; cbn [In]; auto 6; fail); kp.
  Qed.

  Lemma keeps_v3 o E : K (sigV3 o E). Proof. kp. Qed.
  Lemma keeps_sig o pub : K (parseSig o pub). Proof. kp. Qed.
  Lemma keeps_rest_item n b : K (addRest n b). Proof. kp. Qed.

  (** ** Signatures *)
  Lemma kept_bind {A B} (m : M A) (g : A -> M B) s : K m ->
    (forall a s', m s = (ROk a, s') -> f (s_cs (snd (g a s'))) = f (s_cs s')) -> f (s_cs (snd (bind m g s))) = f (s_cs s).
  Proof.
    intros H G. unfold bind. specialize (H s). destruct (m s) as [[a|e| |] s'] eqn:R; cbn [snd] in *; try exact H. rewrite (G a s' eq_refl). exact H.
  Qed.
  Lemma ok_byte B rest cs it b s : suf B rest -> rdByte (sat B rest cs it) = (ROk b, s) -> exists r, rest = b :: r /\ s = sat B r cs it.
  Proof.
    intros S H. destruct rest as [|x r].
    - rewrite rdByte_eof in H by exact S. discriminate.
    - rewrite rdByte_at in H by exact S. inversion H; subst. eauto.
  Qed.
  Lemma ok_bytes B rest n cs it d s : suf B rest -> (n < 65536)%N -> rdBytes (Z.of_N n) (sat B rest cs it) = (ROk d, s) ->
    exists r, rest = d ++ r /\ lenN d = n /\ s = sat B r cs it.
  Proof.
    intros S L H. destruct (N.le_gt_cases n (lenN rest)) as [G|G].
    - assert (exists d r, rest = d ++ r /\ lenN d = n) as (d' & r & -> & L').
      { exists (firstn (N.to_nat n) rest), (skipn (N.to_nat n) rest). rewrite firstn_skipn. split; [reflexivity|]. unfold lenN in *. rewrite firstn_length. lia. }
      rewrite rdBytes_at in H by (assumption || (unfold lenZ, lenN in *; lia)). inversion H; subst. eauto.
    - rewrite rdBytes_short in H by (assumption || lia || (unfold lenZ, lenN in *; lia)). discriminate H.
  Qed.

  Variables (rec : tagrec) (o : opts) (E : env).
  (** A sub-packet that leaves [f] alone. *)
  Definition calm (p : byte * bytes) : Prop :=
    forall cs it, f (s_cs (snd (sub_m rec o E 2 (fst p) (mkSt (r_new (snd p)) cs it)))) = f cs.
  Lemma kept_subs l : Forall calm l -> K (mapM_ (sub_one rec o E 2) l).
  Proof.
    induction 1 as [|p l C _ IH]; cbn [mapM_]; [apply keeps_ret|]. apply keeps_bind; [|intro; exact IH].
    unfold sub_one. apply keeps_bind; [|intro; apply keeps_add]. intro s. unfold run_in. specialize (C (s_cs s) (sub_item (fst p) (snd p) (oDebug o))).
    destruct (sub_m _ _ _ _ _ _). exact C.
  Qed.
  Lemma kept_area B rest cs it name : suf B rest ->
    (forall A l r, rest = be_enc 2 (lenN A) ++ A ++ r -> lenN A < 65536 -> subs_in l A -> Forall calm l) ->
    f (s_cs (snd (sig_area rec o E name (sat B rest cs it)))) = f cs /\
    (forall s, sig_area rec o E name (sat B rest cs it) = (ROk tt, s) ->
      exists A l r cs' it', rest = be_enc 2 (lenN A) ++ A ++ r /\ lenN A < 65536 /\ subs_in l A /\ s = sat B r cs' it').
  Proof.
    intros S H. unfold sig_area at 1 2.
    change (f cs) with (f (s_cs (sat B rest cs it))).
    destruct (rdBytes 2 (sat B rest cs it)) as [[d|e| |] s1] eqn:R1.
    2-4: (split; [|unfold bind; rewrite R1; discriminate]; apply kept_bind; [apply keeps_bytes|]; intros a s' Q; rewrite R1 in Q; discriminate Q).
    destruct (ok_bytes B rest 2 cs it d s1 S ltac:(lia) R1) as (r1 & -> & L2 & ->). apply suf_app in S.
    assert (d = be_enc 2 (be d)) as Ed by (symmetry; apply (PropSub.be_of 2); unfold lenN in L2; lia).
    pose proof (PropSub.be_small 2 d ltac:(unfold lenN in L2; lia)) as Bd. change (256 ^ N.of_nat 2) with 65536 in Bd.
    rewrite !(bind_ok _ _ _ _ _ R1). cbv zeta. destruct (0 <? be d) eqn:Z.
    2: { split; [reflexivity|]. intros s Q. inversion Q; subst. exists [], [], r1, cs, it. change (lenN []) with 0. assert (be d = 0) as K0 by lia. rewrite K0 in Ed. rewrite <- Ed. repeat split; try reflexivity. constructor. }
    destruct (rdBytes (Z.of_N (be d)) (sat B r1 cs it)) as [[A|e| |] s2] eqn:R2.
    2-4: (unfold bind; rewrite R2; split; [|discriminate]; pose proof (keeps_bytes f (Z.of_N (be d)) (sat B r1 cs it)) as Q; rewrite R2 in Q; exact Q).
    destruct (ok_bytes B r1 (be d) cs it A s2 S Bd R2) as (r2 & -> & LA & ->).
    rewrite !(bind_ok _ _ _ _ _ R2). rewrite <- LA in Ed.
    assert (forall s, f (s_cs (snd (sub_area rec o E 2 name A s))) = f (s_cs s)) as KA.
    { unfold sub_area. destruct (subpackets A) as [l ok] eqn:XS. destruct ok; [|intro; apply keeps_fail].
      apply keeps_sub_it, kept_subs, (H A l r2); [rewrite <- Ed; reflexivity | lia|]. apply subpackets_in; [lia | exact XS]. }
    split; [change (f (s_cs (sat B (d ++ A ++ r2) cs it))) with (f (s_cs (sat B r2 cs it))); refine (keeps_bind f _ _ KA _ _); intro; apply keeps_add|].
    intros s Q. assert (s_rd (snd (sub_area rec o E 2 name A (sat B r2 cs it))) = s_rd (sat B r2 cs it)) as RD.
    { unfold sub_area. destruct (subpackets A) as [l ok]. destruct ok; [|reflexivity]. unfold sub_it.
      assert (forall l s, s_rd (snd (mapM_ (sub_one rec o E 2) l s)) = s_rd s) as RR.
      { clear. intro l. induction l as [|p l IH]; intro s; [reflexivity|]. cbn [mapM_]. unfold bind, sub_one, run_in, add, upd. unfold bind.
        destruct (sub_m _ _ _ _ _ _) as [[]]; cbn [snd s_rd]; try reflexivity. rewrite IH. reflexivity. }
      specialize (RR l (mkSt (s_rd (sat B r2 cs it)) (s_cs (sat B r2 cs it)) (Item name [] (dump_bytes A (oDebug o)) (n_bytes (lenZ A)) []))).
      destruct (mapM_ _ _ _). exact RR. }
    assert (exists l, fst (sub_area rec o E 2 name A (sat B r2 cs it)) = RErr EStruct \/ subs_in l A) as (l & SL).
    { unfold sub_area. destruct (subpackets A) as [l ok] eqn:XS. exists l. destruct ok; [right; apply subpackets_in; [lia | exact XS] | left; reflexivity]. }
    unfold bind in Q. destruct (sub_area rec o E 2 name A (sat B r2 cs it)) as [[i|e| |] s3]; try discriminate.
    destruct SL as [SL|SL]; [discriminate SL|].
    inversion Q; subst. exists A, l, r2, (s_cs s3), (add_child i (s_cur s3)). split; [reflexivity|]. split; [lia|]. split; [exact SL|].
    cbn [snd] in RD. unfold sat. rewrite RD. reflexivity.
  Qed.
  Lemma kept_v4 B v rest cs it : suf B rest -> B = v :: rest -> b2n v = 4 \/ b2n v = 5 ->
    (forall area l, area_of B area -> subs_in l area -> Forall calm l) ->
    f (s_cs (snd (sigV4 rec o E (sat B rest cs it)))) = f cs.
  Proof.
    intros S EB V H. unfold sigV4.
    refine (eq_trans (kept_bind _ _ _ (keeps_byte f) _) eq_refl). intros t s1 R. destruct (ok_byte _ _ _ _ _ _ S R) as (r1 & -> & ->). apply suf_cons in S. clear R.
    erewrite bind_ok by apply add_at. cbn beta. change (s_cs (sat B r1 cs it)) with cs. match goal with |- context [sat B r1 cs (add_child ?c it)] => generalize (add_child c it); clear it; intro it end.
    refine (eq_trans (kept_bind _ _ _ (keeps_byte f) _) eq_refl). intros a s1 R. destruct (ok_byte _ _ _ _ _ _ S R) as (r2 & -> & ->). apply suf_cons in S. clear R.
    erewrite bind_ok by apply add_at. cbn beta. change (s_cs (sat B r2 cs it)) with cs. match goal with |- context [sat B r2 cs (add_child ?c it)] => generalize (add_child c it); clear it; intro it end.
    refine (eq_trans (kept_bind _ _ _ (keeps_byte f) _) eq_refl). intros h s1 R. destruct (ok_byte _ _ _ _ _ _ S R) as (r3 & -> & ->). apply suf_cons in S. clear R.
    erewrite bind_ok by apply add_at. cbn beta. change (s_cs (sat B r3 cs it)) with cs. match goal with |- context [sat B r3 cs (add_child ?c it)] => generalize (add_child c it); clear it; intro it end.
    destruct (kept_area B r3 cs it (str "Hashed Subpacket") S) as [K1 O1].
    { intros A l r -> L SI. apply (H A l); [rewrite EB; apply area_hashed; assumption | exact SI]. }
    unfold bind at 1. destruct (sig_area rec o E (str "Hashed Subpacket") (sat B r3 cs it)) as [[[]|e| |] s1]; cbn [fst snd] in *; try exact K1.
    destruct (O1 s1 eq_refl) as (A1 & l1 & r4 & cs1 & it1 & E3 & L1 & _ & ->). subst r3. rewrite <- K1. cbn [sat s_cs].
    do 2 apply suf_app in S.
    destruct (kept_area B r4 cs1 it1 (str "Unhashed Subpacket") S) as [K2 O2].
    { intros A l r -> L SI. apply (H A l); [rewrite EB; apply area_unhashed; assumption | exact SI]. }
    unfold bind at 1. destruct (sig_area rec o E (str "Unhashed Subpacket") (sat B r4 cs1 it1)) as [[[]|e| |] s2]; cbn [fst snd] in *; try exact K2.
    rewrite <- K2. apply keeps_bind; [kp | intro]. apply keeps_bind; [kp | intro]. apply keeps_sig.
  Qed.
  Lemma kept_sig body cs it : sized body -> (forall area l, area_of body area -> subs_in l area -> Forall calm l) ->
    f (s_cs (snd (tag02 rec o E (mkSt (r_new body) cs it)))) = f cs.
  Proof.
    intros L H. unfold tag02. rewrite at_new. fold (sat body body cs it).
    pose proof (suf_refl body L) as S.
    refine (eq_trans (kept_bind _ _ _ (keeps_byte f) _) eq_refl). intros v s1 R. destruct (ok_byte _ _ _ _ _ _ S R) as (r1 & EB & ->). clear R.
    assert (suf body r1) as S1 by (rewrite EB in S |- *; apply suf_cons in S; exact S). cbv zeta.
    erewrite bind_ok by apply add_at. change (s_cs (sat body r1 cs it)) with cs. match goal with |- context [sat body r1 cs (add_child ?c it)] => generalize (add_child c it); clear it; intro it end.
    assert (b2n v = 4 \/ b2n v = 5 -> f (s_cs (snd ((sigV4 rec o E ;; addRest sUnknownData (oDebug o)) (sat body r1 cs it)))) = f (s_cs (sat body r1 cs it))) as V4.
    { intro V. unfold bind. pose proof (kept_v4 body v r1 cs it S1 EB V H) as K4. destruct (sigV4 rec o E (sat body r1 cs it)) as [[a|e| |] s2]; cbn [fst snd] in *; try exact K4.
      rewrite (keeps_rest_item _ _ s2). exact K4. }
    unfold v_isdraft, v_iscur, v_num, SigVer. cbn [v_ver v_draft v_cur]. change (5 =? 0) with false. cbv iota.
    destruct (b2n v =? 5) eqn:D; [apply V4; lia|]. destruct (b2n v =? 4) eqn:C; [apply V4; lia|].
    destruct (_ && _); [|apply keeps_rest_item]. apply keeps_bind; [apply keeps_catch, keeps_v3|]. intro a. destruct a; [apply keeps_rest_item | apply keeps_ret].
  Qed.
End Kept.
