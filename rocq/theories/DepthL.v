(** * DepthL: how deep the items of packets are inside each other. *)
From Coq Require Import Strings.String Strings.Byte List NArith ZArith Bool Arith Lia ZifyBool ZifyN ZifyNat.
From Verif Require Import Base Item Reader Context Env Values Opaque Monad Pubkey S2k Subs Tags Parse.
From Verif Require Import SpecBase SpecParse BaseL ReaderL FrameL SpecSize SizePL.
Import ListNotations.
Local Open Scope Z_scope.

Definition dep (i : item) : Z := Z.of_nat (item_depth i).
Lemma dep_pos i : 1 <= dep i.
Proof. destruct i. unfold dep. cbn [item_depth]. lia. Qed.
Lemma dep_leaf i : i_items i = [] -> dep i = 1.
Proof. destruct i. cbn [i_items]. intros ->. reflexivity. Qed.
Lemma dep_add c i : dep (add_child c i) = Z.max (dep i) (1 + dep c).
Proof.
  destruct i as [n v d t l]. unfold dep. cbn [add_child item_depth]. rewrite map_app. cbn [map].
  assert (forall l x, list_max (l ++ [x]) = Nat.max (list_max l) x) as H.
  { clear. induction l as [|y l IH]; intro x; cbn [app]; change (list_max (?a :: ?b)) with (Nat.max a (list_max b)); [change (list_max (@nil nat)) with 0%nat; lia|]. rewrite IH. lia. }
  rewrite H. lia.
Qed.
Lemma dep_w i x : dep (w_name x i) = dep i /\ dep (w_value x i) = dep i /\ dep (w_note x i) = dep i /\ dep (w_dump x i) = dep i.
Proof. destruct i. auto. Qed.

(** Every item filled stays within [k]. *)
Definition deep {A} (k : Z) (m : M A) (P : A -> Prop) : Prop := forall s, weak_inv (s_rd s) -> dep (s_cur s) <= k ->
  let '(r, s') := m s in
  match r with
  | ROk a => weak_inv (s_rd s') /\ dep (s_cur s') <= k /\ P a
  | RErr _ => weak_inv (s_rd s') /\ dep (s_cur s') <= k
  | _ => True
  end.
Lemma dp_post {A} k (m : M A) (P Q : A -> Prop) : deep k m P -> (forall a, P a -> Q a) -> deep k m Q.
Proof. intros H W s I D. specialize (H s I D). destruct (m s) as [[a|e| |] s']; auto. destruct H as (? & ? & ?). auto. Qed.
Lemma dp_bind {A B} k (m : M A) (f : A -> M B) P Q : deep k m P -> (forall a, P a -> deep k (f a) Q) -> deep k (bind m f) Q.
Proof.
  intros H K s I D. specialize (H s I D). unfold bind. destruct (m s) as [[a|e| |] s']; auto. destruct H as (H1 & H2 & H3). exact (K a H3 s' H1 H2).
Qed.
Lemma dp_ret {A} k (a : A) (P : A -> Prop) : P a -> deep k (ret a) P.
Proof. intros H s I D. unfold ret. auto. Qed.
Lemma dp_fail {A} k e (P : A -> Prop) : deep k (fail e) P.
Proof. intros s I D. unfold fail. auto. Qed.
(** What only reads. *)
Definition still {A} (m : M A) : Prop := forall s, s_cur (snd (m s)) = s_cur s.
Lemma dp_still {A} k c (m : M A) P f : spends c m P f -> still m -> deep k m P.
Proof.
  intros H S s I D. specialize (H s I). specialize (S s). destruct (m s) as [[a|e| |] s']; auto; cbn [snd] in S; rewrite S.
  - destruct H as (? & _ & ?). auto.
  - destruct H as (? & _). auto.
Qed.
Lemma on_rd_still {A} (f : reader -> res A * reader) : still (on_rd f).
Proof. intro s. unfold on_rd. destruct (f (s_rd s)). reflexivity. Qed.
Lemma dp_byte k : deep k rdByte any. Proof. exact (dp_still k 0 _ _ _ (sp_rdByte 0 (Z.le_refl 0)) (on_rd_still _)). Qed.
Lemma dp_bytes k n : deep k (rdBytes n) (got n). Proof. exact (dp_still k 0 _ _ _ (sp_rdBytes 0 n (Z.le_refl 0)) (on_rd_still _)). Qed.
Lemma dp_2eof k : deep k rd2EOF any.
Proof. eapply dp_post; [exact (dp_still k 0 _ _ _ (sp_rd2EOF 0 (Z.le_refl 0)) (on_rd_still _))|]. intros; exact I. Qed.
Lemma dp_seek3 k : deep k (rdSeek (-3) 1) any. Proof. exact (dp_still k 36 _ _ _ (sp_seek3 36 (Z.le_refl 36)) (on_rd_still _)). Qed.
Lemma dp_seek_end k : deep k (rdSeek 0 2) any. Proof. exact (dp_still k 0 _ _ _ (sp_seek_end 0 (Z.le_refl 0)) (on_rd_still _)). Qed.
Lemma dp_quiet {A} k (m : M A) : quiet m -> deep k m any.
Proof. intro Q. exact (dp_still k 0 _ _ _ (sp_quiet 0 m Q (Z.le_refl 0)) (fun s => proj2 (Q s))). Qed.
Lemma q_rest : quiet rdRest. Proof. intro s. split; reflexivity. Qed.
Lemma q_len : quiet rdLen. Proof. intro s. split; reflexivity. Qed.
Lemma q_name : quiet curName. Proof. intro s. split; reflexivity. Qed.
Lemma q_body : quiet getBody. Proof. intro s. split; reflexivity. Qed.
Lemma q_dump b : quiet (dumpRest b). Proof. intro s. unfold dumpRest. destruct b; split; reflexivity. Qed.
(** Items. *)
Ltac ok := split; [auto|split; [auto|exact Logic.I]].
Lemma dp_add k i : 1 + dep i <= k -> deep k (add i) any.
Proof. intros H s I D. unfold add, upd. cbn [s_rd s_cur]. rewrite dep_add. split; [auto|]. split; [lia|exact Logic.I]. Qed.
Lemma dp_addo k v x : 2 <= k -> deep k (addo (flag_item v x)) any.
Proof.
  intros H s I D. unfold addo, upd, flag_item. cbn [s_rd s_cur]. destruct (v =? 0)%N; cbn [add_opt]; [split; [auto|split; [lia|exact Logic.I]]|].
  rewrite dep_add. match goal with |- context [1 + dep ?x] => rewrite (dep_leaf x) by reflexivity end. split; [auto|]. split; [lia|exact Logic.I].
Qed.
Lemma dp_note k x : deep k (setNote x) any.
Proof. intros s I D. unfold setNote, upd. cbn [s_rd s_cur]. rewrite (proj1 (proj2 (proj2 (dep_w _ _)))). ok. Qed.
Lemma dp_value k x : deep k (setValue x) any.
Proof. intros s I D. unfold setValue, upd. cbn [s_rd s_cur]. rewrite (proj1 (proj2 (dep_w _ _))). ok. Qed.
Lemma dp_dump k x : deep k (setDump x) any.
Proof. intros s I D. unfold setDump, upd. cbn [s_rd s_cur]. rewrite (proj2 (proj2 (proj2 (dep_w _ _)))). ok. Qed.
Lemma dp_put k i : dep i <= k -> deep k (putCur i) any.
Proof. intros H s I D. unfold putCur, upd. cbn [s_rd s_cur]. ok. Qed.
(** Combinators. *)
Lemma dp_child {A} k it (m : M A) P : dep it <= k - 1 -> deep (k - 1) m P -> deep k (child it m) P.
Proof.
  intros T H s I D. specialize (H (mkSt (s_rd s) (s_cs s) it) I T). unfold child. destruct (m _) as [[a|e| |] s']; auto; cbn [s_rd s_cur] in *; rewrite dep_add.
  - destruct H as (? & ? & ?). split; [auto|]. split; [lia|auto].
  - destruct H as (? & ?). split; [auto|lia].
Qed.
Lemma dp_sub {A} k j it (m : M A) P : dep it <= j -> deep j m P -> deep k (sub_it it m) (fun i => dep i <= j).
Proof.
  intros T H s I D. specialize (H (mkSt (s_rd s) (s_cs s) it) I T). unfold sub_it. destruct (m _) as [[a|e| |] s']; auto; cbn [s_rd s_cur] in *.
  - destruct H as (? & ? & ?). auto.
  - destruct H as (? & ?). auto.
Qed.
Lemma dp_catch {A} k (m : M A) P : deep k m P -> deep k (catchM m) any.
Proof.
  intros H s I D. specialize (H s I D). unfold catchM. destruct (m s) as [[a|e| |] s']; auto; [destruct H as (? & ? & ?)|destruct H as (? & ?)]; split; auto; split; auto; exact Logic.I.
Qed.
Lemma dp_with {A} k r (m : M A) P : weak_inv r -> deep k m P -> deep k (with_rd r m) (fun p => weak_inv (snd p)).
Proof.
  intros W H s I D. specialize (H (mkSt r (s_cs s) (s_cur s)) W D). unfold with_rd. destruct (m _) as [[a|e| |] s']; auto; cbn [s_rd s_cur fst snd] in *.
  - destruct H as (? & ? & ?). auto.
  - destruct H as (? & ?). auto.
Qed.
Lemma dp_opt {A} k ro (m : M A) P : owk ro -> deep k m P -> deep k (opt_run ro m) (fun p => owk (snd p)).
Proof.
  intros W H. destruct ro as [r|]; cbn [opt_run owk] in *.
  - eapply dp_bind; [exact (dp_with k r m P W H)|]. intros [a r'] K. apply dp_ret. exact K.
  - eapply dp_bind; [exact H|]. intros a _. apply dp_ret. exact I.
Qed.

(** Proof search. *)
Ltac leaf := cbv delta [v_item keyid_item pub_item sig_item hash_item sym_item aead_item comp_item s2k_item salt_item stretch_item
    dt_item filetime_item pubkeytime_item sigtime_item expire_item oid_item ecparm_item mpi_item litfmt_item text_item hashleft_item it_nv it_nd] beta;
  repeat match goal with
         | |- context [if ?x then _ else _] => destruct x
         | |- context [match ?x with _ => _ end] => destruct x
         end; reflexivity.
Ltac one := match goal with |- context [dep ?x] => rewrite (dep_leaf x) by first [assumption | leaf] end; lia.
Ltac prim2 := fail.
Ltac prim := lazymatch goal with
  | |- deep _ rdByte _ => apply dp_byte
  | |- deep _ (rdBytes _) _ => apply dp_bytes
  | |- deep _ rd2EOF _ => apply dp_2eof
  | |- deep _ (rdSeek (-3) 1) _ => apply dp_seek3
  | |- deep _ (rdSeek 0 2) _ => apply dp_seek_end
  | |- deep _ getBody _ => apply (dp_quiet _ _ q_body)
  | |- deep _ rdRest _ => apply (dp_quiet _ _ q_rest)
  | |- deep _ rdLen _ => apply (dp_quiet _ _ q_len)
  | |- deep _ curName _ => apply (dp_quiet _ _ q_name)
  | |- deep _ getCs _ => apply (dp_quiet _ _ q_cs)
  | |- deep _ (setMode ?x) _ => apply (dp_quiet _ _ (q_mode x))
  | |- deep _ (setSig ?x) _ => apply (dp_quiet _ _ (q_sig x))
  | |- deep _ (setKey ?x) _ => apply (dp_quiet _ _ (q_key x))
  | |- deep _ (dumpRest ?b) _ => apply (dp_quiet _ _ (q_dump b))
  | |- deep _ (add _) _ => apply dp_add; one
  | |- deep _ (addo _) _ => apply dp_addo; lia
  | |- deep _ (setNote _) _ => apply dp_note
  | |- deep _ (setValue _) _ => apply dp_value
  | |- deep _ (setDump _) _ => apply dp_dump
  | |- deep _ (putCur _) _ => apply dp_put; one
  | |- _ => prim2
  end.
Ltac fin := eapply dp_post; [prim | cbv beta; intros; try exact I; auto].
Ltac dp := lazymatch goal with
  | |- deep _ (bind _ _) _ => try (eapply dp_bind; [first [prim | dp] | ]; let a := fresh "a" in let H := fresh "H" in intros a H; cbv beta; dp)
  | |- deep _ (ret _) _ => apply dp_ret; try exact I; auto
  | |- deep _ (fail _) _ => apply dp_fail
  | |- deep _ (if ?b then _ else _) _ => let E := fresh "E" in destruct b eqn:E; dp
  | |- _ => try fin
  end.

Lemma dp_raw k n f : deep k (rawData n f) (fun i => i_items i = []).
Proof. unfold rawData. dp. Qed.
Lemma dp_addRest k n f : 2 <= k -> deep k (addRest n f) any.
Proof.
  intro K. unfold addRest. eapply dp_bind; [prim|]. intros z _. cbv beta. destruct (0 <? z); [|dp]. eapply dp_bind; [apply dp_raw|]. intros i Hi. cbv beta in *. dp.
Qed.
Lemma dp_mpi k : deep k newMPI any. Proof. unfold newMPI. dp. Qed.
Lemma dp_oid k : deep k newOID any. Proof. unfold newOID. dp. Qed.
Lemma dp_dt k u : deep k (newDateTime u) any. Proof. unfold newDateTime. dp. Qed.
Lemma dp_fname k n : deep k (newLiteralFname n) any. Proof. unfold newLiteralFname. dp. Qed.
Lemma dp_ecparm k : deep k newECParm any.
Proof.
  intros s W D. unfold newECParm. pose proof (dp_byte k s W D) as H. destruct (rdByte s) as [[b|e| |] s']; auto.
  - destruct H as (H1 & H2 & _). destruct (b2n b =? 0)%N; [split; auto; split; auto; exact I|].
    pose proof (dp_bytes k (Z.of_N (b2n b)) s' H1 H2) as K. destruct (rdBytes _ s') as [[d|e| |] s'']; auto. destruct K as (? & ? & ?). ok.
  - destruct H. split; auto; split; auto; exact I.
Qed.
Ltac prim2 ::= lazymatch goal with
  | |- deep _ newMPI _ => apply dp_mpi
  | |- deep _ newOID _ => apply dp_oid
  | |- deep _ (newDateTime _) _ => apply dp_dt
  | |- deep _ (newLiteralFname _) _ => apply dp_fname
  | |- deep _ newECParm _ => apply dp_ecparm
  | |- deep _ (rawData _ _) _ => apply dp_raw
  | |- deep _ (addRest _ _) _ => apply dp_addRest; lia
  end.
Lemma kdf_depth o ep : dep (kdf_item o ep) <= 2.
Proof.
  unfold kdf_item. destruct ep as [|e0 [|e1 [|e2 t]]]; cbv zeta; try (destruct (b2n e0 =? 1)%N); rewrite ?dep_add; rewrite !dep_leaf by reflexivity; lia.
Qed.
Lemma dp_ecdh k o : 3 <= k -> deep k (ecdhPub o) any.
Proof.
  intro K. unfold ecdhPub, addOID, addPoint. do 2 (eapply dp_bind; [dp|]; intros ? _; cbv beta). eapply dp_bind; [prim|]. intros ep _. cbv beta. apply dp_add.
  pose proof (kdf_depth o ep). lia.
Qed.
Lemma dp_pub k o p : 3 <= k -> deep k (parsePub o p) any.
Proof.
  intro K. unfold parsePub. eapply dp_bind; [prim|]. intros z _. cbv beta.
  repeat match goal with |- deep _ (if ?b then _ else _) _ => destruct b end; try (apply dp_ecdh, K);
    unfold rsaPub, dsaPub, elgPub, ecdsaPub, eddsaPub, addMPI, addOID, addPoint, addSized; dp.
Qed.
Lemma dp_secenc k o p : 2 <= k -> deep k (parseSecEnc o p) any.
Proof. intro K. unfold parseSecEnc, addSized. dp. Qed.
Lemma dp_secplain k o p : 2 <= k -> deep k (parseSecPlain o p) any.
Proof. intro K. unfold parseSecPlain, rsaSec, unknownSec, addMPI. dp. Qed.
Lemma dp_ses k o p : 3 <= k -> deep k (parseSes o p) any.
Proof. intro K. unfold parseSes, addMPI, addPoint, addSized. dp. Qed.
Lemma dp_sig k o p : 3 <= k -> deep k (parseSig o p) any.
Proof. intro K. unfold parseSig, addMPI, addPoint, addSized. dp. Qed.

(** String-to-key specifiers. *)
Lemma dp_s2k_fields k id f : 3 <= k -> deep k (s2k_fields id f) any.
Proof.
  intro K. unfold s2k_fields. cbv zeta. destruct (_ || _ || _); [dp|]. destruct (_ =? 101)%N; [|dp]. eapply dp_bind; [prim|]. intros z _. cbv beta. destruct (z <? 4); [dp|].
  eapply dp_bind; [prim|]. intros mrk G. cbv beta. destruct (beqs mrk _); [|dp].
  eapply dp_bind; [prim|]. intros c _. cbv beta. cbv zeta. eapply dp_bind with (P := fun g => dep g <= 2).
  { destruct (_ =? 1002)%N; [|apply dp_ret; one]. eapply dp_bind; [prim|]. intros l _. cbv beta. eapply dp_bind; [prim|]. intros ser G'. cbv beta. apply dp_ret.
    rewrite dep_add. rewrite !dep_leaf by reflexivity. lia. }
  intros g Hg. cbv beta in *. eapply dp_bind; [apply dp_add; lia|]. intros ? _. cbv beta. dp.
Qed.
Lemma dp_s2k k f : 4 <= k -> deep k (s2k_parse f) any.
Proof. intro K. unfold s2k_parse. eapply dp_bind; [prim|]. intros ss _. cbv beta. apply dp_child; [one|]. apply dp_s2k_fields. lia. Qed.

(** Keys. *)
Lemma dp_pub_parse k o E v : 3 <= k -> deep k (pub_parse o E v) any.
Proof.
  intro K. unfold pub_parse, pubV5, pubV4, pubV3, keyTime, keyAlg. destruct (v_isdraft v); [|destruct (v_iscur v); [|destruct (_ && _)]]; [..|dp].
  - eapply dp_bind; [dp|]. intros ? _. cbv beta. eapply dp_bind with (P := any); [dp|]. intros p _. cbv beta. do 2 (eapply dp_bind; [prim|]; intros ? ?; cbv beta in *).
    eapply dp_bind; [eapply dp_with; [apply new_weak; unfold got in *; lia|apply dp_pub, K]|]. intros q _. cbv beta. dp.
  - eapply dp_bind; [dp|]. intros ? _. cbv beta. eapply dp_bind with (P := any); [dp|]. intros p _. cbv beta. eapply dp_bind; [apply dp_pub, K|]. intros ? _. cbv beta. dp.
  - eapply dp_bind; [dp|]. intros ? _. cbv beta. do 2 (eapply dp_bind; [prim|]; intros ? ?; cbv beta in *). eapply dp_bind with (P := any); [dp|]. intros p _. cbv beta.
    eapply dp_bind; [apply dp_pub, K|]. intros ? _. cbv beta. dp.
Qed.
Definition rowk (f : option (option reader)) : Prop := match f with Some ro => owk ro | None => True end.
Lemma dp_field1 k v : deep k (getField1 v) rowk.
Proof.
  unfold getField1. destruct (_ =? 5)%N; [|apply dp_ret; exact I]. eapply dp_bind; [prim|]. intros l _. cbv beta. destruct (_ =? 0)%N; [apply dp_ret; exact I|].
  eapply dp_bind; [prim|]. intros b G. cbv beta. apply dp_ret. apply new_weak, G.
Qed.
Lemma dp_field2 k v : deep k (getField2 v) rowk.
Proof.
  unfold getField2. destruct (_ =? 5)%N; [|apply dp_ret; exact I]. eapply dp_bind with (P := any).
  { intros s W D. unfold readLen4. pose proof (dp_bytes k 4 s W D) as H. destruct (rdBytes 4 s) as [[b|e| |] s']; auto. destruct H as (? & ? & ?). ok. }
  intros l _. cbv beta. destruct (_ =? 0)%N; [apply dp_ret; exact I|]. eapply dp_bind; [prim|]. intros b G. cbv beta. apply dp_ret. apply new_weak, G.
Qed.
Lemma dp_sec_opts k o v u ro : 4 <= k -> owk ro -> deep k (sec_opts o v u ro) any.
Proof.
  intros K W. unfold sec_opts. eapply dp_bind with (P := fun p => owk (snd p)).
  { destruct (negb _); [|apply dp_ret; exact W]. eapply dp_opt; [exact W|]. instantiate (1 := any). dp. }
  intros [symid ro1] W1. cbv beta. cbn [snd] in W1. eapply dp_bind with (P := fun p => owk (snd p)).
  { destruct (u =? 253)%N; [|apply dp_ret; exact W1]. eapply dp_opt; [exact W1|]. instantiate (1 := any). dp. }
  intros [u2 ro2] W2. cbv beta. cbn [snd] in W2. eapply dp_bind with (P := fun p => owk (snd p)).
  { destruct (u =? 0)%N; [apply dp_ret; exact W2|]. destruct (usage_s2k u); [|apply dp_ret; exact W2]. eapply dp_opt; [exact W2|apply dp_s2k; exact K]. }
  intros [iv ro3] W3. cbv beta. cbn [snd] in W3. eapply dp_bind with (P := any).
  { destruct (_ && _); [|dp]. unfold sec_iv. eapply dp_bind with (P := fun i => i_items i = []); [dp|]. intros i Hi. cbv beta in *. dp. }
  intros ? _. cbv beta. destruct (_ =? 5)%N; [|dp]. eapply dp_bind; [eapply dp_opt; [exact W3|apply dp_addRest; lia]|]. intros ? _. cbv beta. dp.
Qed.
Lemma dp_sec_material k o v p u ro : 4 <= k -> owk ro -> deep k (sec_material o v p u ro) any.
Proof.
  intros K W. unfold sec_material. eapply dp_bind; [prim|]. intros ? _. cbv beta. eapply dp_bind with (P := fun p => owk (snd p)).
  { destruct (u =? 0)%N.
    - eapply dp_bind; [eapply dp_opt; [exact W|apply dp_secplain; lia]|]. intros [a9 r] R. cbv beta in *. do 2 (eapply dp_bind; [prim|]; intros ? ?; cbv beta in *). apply dp_ret. exact R.
    - eapply dp_opt; [exact W|apply dp_secenc; lia]. }
  intros [a9 r] R. cbv beta. cbn [snd] in *. destruct (_ =? 5)%N; [|dp]. eapply dp_bind; [eapply dp_opt; [exact R|apply dp_addRest; lia]|]. intros ? _. cbv beta. dp.
Qed.
Lemma dp_sec k o v p : 4 <= k -> deep k (sec_parse o v p) any.
Proof.
  intro K. unfold sec_parse. eapply dp_bind; [prim|]. intros u _. cbv beta. cbv zeta. eapply dp_bind; [apply dp_field1|]. intros f1 W1. cbv beta.
  eapply dp_bind with (P := any). { destruct f1 as [ro|]; [apply dp_sec_opts; [exact K|exact W1]|dp]. }
  intros ? _. cbv beta. eapply dp_bind; [apply dp_field2|]. intros f2 W2. cbv beta. destruct f2 as [ro|]; [apply dp_sec_material; [exact K|exact W2]|dp].
Qed.

(** Sub-packets. *)
Lemma dp_flags k l : 2 <= k -> forall j, deep k (flag_loop j l) any.
Proof. intro K. induction l as [|b l IH]; intro j; cbn [flag_loop]; [dp|]. eapply dp_bind; [prim|]. intros ? _. cbv beta. apply IH. Qed.
Lemma dp_more k : 2 <= k -> deep k more_flags any.
Proof. intro K. unfold more_flags. eapply dp_bind; [prim|]. intros z _. cbv beta. destruct (0 <? z); [|dp]. eapply dp_bind; [prim|]. intros l _. cbv beta. apply dp_flags, K. Qed.
