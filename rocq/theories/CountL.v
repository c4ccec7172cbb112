(** * CountL: items are paid for by octets, eight items an octet. *)
From Coq Require Import Strings.String Strings.Byte List NArith ZArith Bool Arith Lia ZifyBool ZifyN ZifyNat.
From Verif Require Import Base Item Reader Context Env Values Opaque Monad Pubkey S2k Subs Tags Parse.
From Verif Require Import SpecBase SpecParse BaseL ReaderL FrameL SpecCount.
Import ListNotations.
Local Open Scope Z_scope.

Definition cnt (i : item) : Z := Z.of_nat (item_count i).
Definition lft (r : reader) : Z := Z.max 0 (lenZ (r_buf r) - r_off r).
Definition bal (s : st) : Z := cnt (s_cur s) + 8 * lft (s_rd s).

Lemma cnt_eq n v d t l : cnt (Item n v d t l) = 1 + Z.of_nat (list_sum (map item_count l)).
Proof. unfold cnt. cbn [item_count]. lia. Qed.
Lemma cnt_pos i : 1 <= cnt i.
Proof. destruct i. rewrite cnt_eq. lia. Qed.
Lemma cnt_add i j : cnt (add_child i j) = cnt i + cnt j.
Proof.
  destruct j as [n v d t l]. cbn [add_child]. rewrite !cnt_eq, map_app, list_sum_app. cbn [map].
  change (list_sum [item_count i]) with (item_count i + 0)%nat. unfold cnt. lia.
Qed.
Lemma cnt_leaf i : i_items i = [] -> cnt i = 1.
Proof. destruct i as [n v d t l]. cbn [i_items]. intros ->. reflexivity. Qed.
Lemma cnt_same i j : i_items i = i_items j -> cnt i = cnt j.
Proof. destruct i, j. cbn [i_items]. intros ->. reflexivity. Qed.
Lemma lft_pos r : 0 <= lft r.
Proof. unfold lft. lia. Qed.

Definition spends {A} (c : Z) (m : M A) (P : A -> Prop) (f : A -> Z) : Prop := forall s, weak_inv (s_rd s) ->
  let '(r, s') := m s in
  match r with
  | ROk a => weak_inv (s_rd s') /\ bal s' + f a <= bal s + c /\ P a
  | RErr _ => weak_inv (s_rd s') /\ bal s' <= bal s + c
  | _ => True
  end.
Definition any {A} (a : A) := True.

Lemma sp_weak {A} c c' (m : M A) (P Q : A -> Prop) (f g : A -> Z) :
  spends c m P f -> c <= c' -> (forall a, P a -> Q a /\ g a <= f a) -> spends c' m Q g.
Proof.
  intros H C W s I. specialize (H s I). destruct (m s) as [[a|e| |] s']; auto.
  - destruct H as (H1 & H2 & H3). destruct (W a H3). split; [auto|]. split; [lia|auto].
  - destruct H. split; [auto|lia].
Qed.
Lemma sp_post {A} c (m : M A) (P Q : A -> Prop) (f g : A -> Z) :
  spends c m P f -> (forall a, P a -> Q a /\ g a <= f a) -> spends c m Q g.
Proof. intros H W. exact (sp_weak c c m P Q f g H (Z.le_refl c) W). Qed.
Lemma sp_bind {A B} c (m : M A) (k : A -> M B) (P : A -> Prop) (f : A -> Z) (Q : B -> Prop) (g : B -> Z) :
  spends c m P f -> (forall a, P a -> spends (f a) (k a) Q g) -> spends c (bind m k) Q g.
Proof.
  intros H K s I. specialize (H s I). unfold bind. destruct (m s) as [[a|e| |] s']; auto.
  destruct H as (H1 & H2 & H3). specialize (K a H3 s' H1). destruct (k a s') as [[b|e| |] s'']; auto.
  - destruct K as (K1 & K2 & K3). split; [auto|]. split; [lia|auto].
  - destruct K. split; [auto|lia].
Qed.
Lemma sp_ret {A} c (a : A) (P : A -> Prop) g : P a -> g a <= c -> spends c (ret a) P g.
Proof. intros p H s I. unfold ret. split; [auto|]. split; [lia|auto]. Qed.
Lemma sp_done {A} c (a : A) : spends c (ret a) any (fun _ => c).
Proof. apply sp_ret; [exact I|lia]. Qed.
Lemma sp_fail {A} c e (P : A -> Prop) g : 0 <= c -> spends c (fail e) P g.
Proof. intros H s I. unfold fail. split; [auto|lia]. Qed.

Lemma bal_cur rd cs i : bal (mkSt rd cs i) = cnt i + 8 * lft rd.
Proof. reflexivity. Qed.

(** Reading. *)
(** What is known of octets that were read. *)
Definition got (n : Z) (d : bytes) : Prop := sized d /\ 0 <= lenZ d /\ (0 <= n < 2 ^ 62 -> lenZ d = n).
Lemma slice_len' l i j : 0 <= i -> i <= j -> j <= lenZ l -> lenZ (slice l i j) = j - i.
Proof. intros. unfold slice, lenZ in *. rewrite firstn_length, skipn_length. lia. Qed.
Lemma sp_on_rd {A} c (f : reader -> res A * reader) (P : A -> Prop) (g : A -> Z) : 0 <= c ->
  (forall r, weak_inv r -> match f r with
                           | (ROk a, r') => weak_inv r' /\ 8 * lft r' + g a <= 8 * lft r + c /\ P a
                           | (RErr _, r') => r' = r
                           | _ => True end) -> spends c (on_rd f) P g.
Proof.
  intros C H s I. specialize (H _ I). unfold on_rd. destruct (f (s_rd s)) as [[a|e| |] r']; auto.
  - destruct H as (H1 & H2 & H3). unfold bal. cbn [s_rd s_cur]. split; [auto|]. split; [lia|auto].
  - subst r'. unfold bal. cbn [s_rd s_cur]. split; [auto|lia].
Qed.
Lemma readbytes_spends n r : weak_inv r ->
  match r_readbytes n r with
  | (ROk d, r') => weak_inv r' /\ lft r' + lenZ d = lft r /\ got n d
  | (RErr _, r') => r' = r
  | _ => True
  end.
Proof.
  intros [H1 H2]. unfold r_readbytes, r_size, got, sized. destruct (n =? 0) eqn:N.
  - split; [split; auto|]. change (lenZ (@nil byte)) with 0. lia.
  - destruct (r_off r >=? lenZ (r_buf r)) eqn:O; [reflexivity|]. cbv zeta.
    destruct (wrap64 (r_off r + n) >? lenZ (r_buf r)) eqn:J; [reflexivity|].
    destruct ((r_off r <? 0) || (wrap64 (r_off r + n) <? r_off r)) eqn:Q; [exact I|].
    assert (0 <= r_off r) by lia. assert (r_off r <= wrap64 (r_off r + n)) by lia.
    rewrite slice_len' by lia. unfold weak_inv, lft. cbn [r_buf r_off]. split; [lia|]. split; [lia|]. split; [lia|]. split; [lia|].
    intro Hn. rewrite wrap64_small by lia. lia.
Qed.
Lemma sp_rdBytes c n : 0 <= c -> spends c (rdBytes n) (got n) (fun d => c + 8 * lenZ d).
Proof.
  intro C. apply sp_on_rd; [exact C|]. intros r I. pose proof (readbytes_spends n r I) as H.
  destruct (r_readbytes n r) as [[d|e| |] r']; auto. destruct H as (H1 & H2 & H3). split; [auto|]. split; [lia|auto].
Qed.
Lemma sp_rdByte c : 0 <= c -> spends c rdByte any (fun _ => c + 8).
Proof.
  intro C. apply sp_on_rd; [exact C|]. intros r I. pose proof (readbytes_spends 1 r I) as H. unfold r_readbyte.
  destruct (r_readbytes 1 r) as [[d|e| |] r']; auto. destruct H as (H1 & H2 & H3). destruct H3 as (_ & _ & H3). specialize (H3 ltac:(lia)).
  destruct d as [|b d]; [discriminate H3|]. split; [auto|]. split; [lia|exact Logic.I].
Qed.
Lemma sp_rd2EOF c : 0 <= c -> spends c rd2EOF (fun d => sized d /\ 0 <= lenZ d) (fun d => c + 8 * lenZ d).
Proof.
  intro C. apply sp_on_rd; [exact C|]. intros r [I1 I2]. unfold r_read2eof, r_size.
  destruct (r_off r >=? lenZ (r_buf r)) eqn:O; [reflexivity|]. destruct (r_off r <? 0) eqn:Q; [exact I|].
  unfold weak_inv, lft. cbn [r_buf r_off]. rewrite wrap64_small by lia. split; [lia|].
  unfold sized, lenZ in *. rewrite skipn_length. lia.
Qed.
Lemma sp_seek_back c n : 0 <= c -> 0 <= n -> spends (c + 8 * n) (rdSeek (- n) 1) any (fun _ => c).
Proof.
  intros C N. apply sp_on_rd; [lia|]. intros r [I1 I2]. unfold r_seek, r_size. cbn [Z.eqb Pos.eqb].
  destruct (_ || _) eqn:Q; [reflexivity|]. unfold weak_inv, lft. cbn [r_buf r_off].
  assert (wrap64 (r_off r + - n) < 0 \/ wrap64 (r_off r + - n) >= r_off r - n) as W.
  { unfold wrap64. destruct (Z_lt_dec n (2 ^ 62)). 2:{ pose proof (Z.mod_pos_bound (r_off r + - n + 2 ^ 63) (2 ^ 64)). lia. }
    right. rewrite Z.mod_small by lia. lia. }
  split; [lia|]. split; [lia|exact I].
Qed.
Lemma sp_seek_end c : 0 <= c -> spends c (rdSeek 0 2) any (fun _ => c).
Proof.
  intro C. apply sp_on_rd; [exact C|]. intros r [I1 I2]. unfold r_seek, r_size. cbn [Z.eqb Pos.eqb].
  rewrite Z.add_0_r. assert (0 <= lenZ (r_buf r)) by (unfold lenZ; lia). rewrite wrap64_small by lia.
  destruct (_ || _); [reflexivity|]. unfold weak_inv, lft. cbn [r_buf r_off]. split; [lia|]. split; [lia|exact I].
Qed.

(** Operations that leave reader and item alone. *)
Definition quiet {A} (m : M A) : Prop := forall s, s_rd (snd (m s)) = s_rd s /\ s_cur (snd (m s)) = s_cur s.
Lemma sp_quiet {A} c (m : M A) : quiet m -> 0 <= c -> spends c m any (fun _ => c).
Proof.
  intros Q C s I. destruct (Q s) as [Q1 Q2]. destruct (m s) as [[a|e| |] s']; cbn [snd] in *; auto; unfold bal; rewrite Q1, Q2.
  - split; [auto|]. split; [lia|exact Logic.I].
  - split; [auto|lia].
Qed.
Ltac quiet := intros s; split; reflexivity.
Lemma q_rest : quiet rdRest. Proof. quiet. Qed.
Lemma q_len : quiet rdLen. Proof. quiet. Qed.
Lemma q_name : quiet curName. Proof. quiet. Qed.
Lemma q_cs : quiet getCs. Proof. quiet. Qed.
Lemma q_mode x : quiet (setMode x). Proof. quiet. Qed.
Lemma q_sig x : quiet (setSig x). Proof. quiet. Qed.
Lemma q_key x : quiet (setKey x). Proof. quiet. Qed.
Lemma q_dump b : quiet (dumpRest b). Proof. intros s. unfold dumpRest. destruct b; split; reflexivity. Qed.

Lemma sp_body c : 0 <= c -> spends c getBody (fun b => sized b /\ 0 <= lenZ b) (fun _ => c).
Proof. intros C s [I1 I2]. unfold getBody, sized, r_body. split; [split; auto|]. unfold lenZ in *. lia. Qed.

(** Items. *)
Lemma sp_upd c k (h : item -> item) : (forall i, cnt (h i) <= cnt i + k) -> spends c (upd h) any (fun _ => c - k).
Proof. intros H s I. unfold upd, bal. cbn [s_rd s_cur]. specialize (H (s_cur s)). split; [auto|]. split; [lia|exact Logic.I]. Qed.
Lemma sp_add c i : spends c (add i) any (fun _ => c - cnt i).
Proof. apply sp_upd. intro j. rewrite cnt_add. lia. Qed.
Lemma sp_add1 c i : i_items i = [] -> spends c (add i) any (fun _ => c - 1).
Proof. intro H. apply sp_upd. intro j. rewrite cnt_add, (cnt_leaf i H). lia. Qed.
Lemma sp_addo c v x : spends c (addo (flag_item v x)) any (fun _ => c - 1).
Proof.
  apply sp_upd. intro j. unfold flag_item. destruct (v =? 0)%N; cbn [add_opt]; [lia|]. rewrite cnt_add. rewrite cnt_leaf by reflexivity. lia.
Qed.
Lemma sp_note c x : spends c (setNote x) any (fun _ => c - 0).
Proof. apply sp_upd. intros []. rewrite Z.add_0_r. apply Z.eq_le_incl, cnt_same. reflexivity. Qed.
Lemma sp_value c x : spends c (setValue x) any (fun _ => c - 0).
Proof. apply sp_upd. intros []. rewrite Z.add_0_r. apply Z.eq_le_incl, cnt_same. reflexivity. Qed.
Lemma sp_dump c x : spends c (setDump x) any (fun _ => c - 0).
Proof. apply sp_upd. intros []. rewrite Z.add_0_r. apply Z.eq_le_incl, cnt_same. reflexivity. Qed.
Lemma sp_put c i : i_items i = [] -> spends c (putCur i) any (fun _ => c - 0).
Proof. intro H. apply sp_upd. intro j. rewrite (cnt_leaf i H). pose proof (cnt_pos j). lia. Qed.

(** Combinators. *)
Lemma sp_child {A} c it (m : M A) (P : A -> Prop) (f : A -> Z) : spends c m P f -> spends (c + cnt it) (child it m) P f.
Proof.
  intros H s I. specialize (H (mkSt (s_rd s) (s_cs s) it) I). unfold child. destruct (m _) as [[a|e| |] s']; auto; unfold bal in *; cbn [s_rd s_cur] in *.
  - destruct H as (H1 & H2 & H3). rewrite cnt_add. split; [auto|]. split; [lia|auto].
  - destruct H. rewrite cnt_add. split; [auto|lia].
Qed.
Lemma sp_sub {A} c it (m : M A) (P : A -> Prop) (f : A -> Z) : (forall a, P a -> 0 <= f a) -> spends c m P f ->
  spends (c + cnt it) (sub_it it m) any cnt.
Proof.
  intros F H s I. specialize (H (mkSt (s_rd s) (s_cs s) it) I). unfold sub_it. destruct (m _) as [[a|e| |] s']; auto; unfold bal in *; cbn [s_rd s_cur] in *.
  - destruct H as (H1 & H2 & H3). specialize (F a H3). split; [auto|]. split; [lia|exact Logic.I].
  - destruct H. pose proof (cnt_pos (s_cur s')). split; [auto|lia].
Qed.
Lemma sp_catch {A} c (m : M A) (P : A -> Prop) (f : A -> Z) : spends c m P f ->
  spends c (catchM m) (fun x => match x with Some a => P a | None => True end) (fun x => match x with Some a => f a | None => 0 end).
Proof.
  intros H s I. specialize (H s I). unfold catchM. destruct (m s) as [[a|e| |] s']; auto. destruct H. split; [auto|]. split; [lia|auto].
Qed.
Lemma sp_with {A} c r (m : M A) (P : A -> Prop) (f : A -> Z) : weak_inv r -> spends c m P f ->
  spends (c + 8 * lft r) (with_rd r m) (fun p => P (fst p) /\ weak_inv (snd p)) (fun p => f (fst p) + 8 * lft (snd p)).
Proof.
  intros W H s I. specialize (H (mkSt r (s_cs s) (s_cur s)) W). unfold with_rd. destruct (m _) as [[a|e| |] s']; auto; unfold bal in *; cbn [s_rd s_cur fst snd] in *.
  - destruct H as (H1 & H2 & H3). split; [auto|]. split; [lia|auto].
  - destruct H. pose proof (lft_pos (s_rd s')). split; [auto|lia].
Qed.
Definition owk (ro : option reader) : Prop := match ro with Some r => weak_inv r | None => True end.
Definition oleft (ro : option reader) : Z := match ro with Some r => 8 * lft r | None => 0 end.
Lemma oleft_pos ro : 0 <= oleft ro.
Proof. destruct ro as [r|]; cbn [oleft]; [pose proof (lft_pos r)|]; lia. Qed.
Lemma sp_opt {A} c ro (m : M A) (P : A -> Prop) (f : A -> Z) : owk ro -> spends c m P f ->
  spends (c + oleft ro) (opt_run ro m) (fun p => P (fst p) /\ owk (snd p)) (fun p => f (fst p) + oleft (snd p)).
Proof.
  intros W H. destruct ro as [r|]; cbn [opt_run owk oleft] in *.
  - eapply sp_bind; [apply (sp_with _ _ _ _ _ W H)|]. intros [a r'] [K1 K2]. apply sp_ret; cbn [fst snd owk oleft] in *; [auto|lia].
  - rewrite Z.add_0_r. eapply sp_bind; [exact H|]. intros a K. apply sp_ret; cbn [fst snd owk oleft]; [auto|lia].
Qed.

(** Filling an item from a reader of its own. *)
Definition fills {A} (b : bytes) (c : Z) (m : M A) : Prop := forall s, s_rd s = r_new b ->
  match m s with (ROk _, s') => cnt (s_cur s') <= cnt (s_cur s) + c | _ => True end.
Lemma new_weak b : sized b -> weak_inv (r_new b).
Proof. unfold sized, weak_inv. cbn [r_new r_buf r_off]. intro. assert (0 <= lenZ b) by (unfold lenZ; lia). lia. Qed.
Lemma new_lft b : lft (r_new b) = lenZ b.
Proof. unfold lft. cbn [r_new r_buf r_off]. unfold lenZ. lia. Qed.
Lemma sp_fills {A} b c (m : M A) (P : A -> Prop) (f : A -> Z) : sized b -> spends c m P f -> (forall a, P a -> 0 <= f a) -> fills b (c + 8 * lenZ b) m.
Proof.
  intros S H F s R. specialize (H s). rewrite R in H. specialize (H (new_weak b S)). destruct (m s) as [[a|e| |] s']; auto.
  destruct H as (H1 & H2 & H3). specialize (F a H3). unfold bal in H2. rewrite R, new_lft in H2. pose proof (lft_pos (s_rd s')). lia.
Qed.
Lemma sp_run {A} b c it (m : M A) : fills b c m -> 0 <= c -> spends (c + cnt it) (run_in (r_new b) it m) any (fun p => cnt (snd p)).
Proof.
  intros H C s I. specialize (H (mkSt (r_new b) (s_cs s) it) eq_refl). unfold run_in. destruct (m _) as [[a|e| |] s']; auto; unfold bal in *; cbn [s_rd s_cur snd] in *.
  - split; [auto|]. split; [lia|exact Logic.I].
  - pose proof (cnt_pos it). split; [auto|lia].
Qed.

(** Proof search. *)
Ltac leaf := cbv delta [v_item keyid_item pub_item sig_item hash_item sym_item aead_item comp_item s2k_item salt_item stretch_item
    dt_item filetime_item pubkeytime_item sigtime_item expire_item oid_item ecparm_item mpi_item litfmt_item text_item hashleft_item it_nv it_nd] beta;
  repeat match goal with
         | |- context [if ?x then _ else _] => destruct x
         | |- context [match ?x with _ => _ end] => destruct x
         end; reflexivity.
Ltac nn := unfold got, any in *; try lia.
Ltac prim2 := fail.
Ltac prim := lazymatch goal with
  | |- spends _ rdByte _ _ => apply sp_rdByte; nn
  | |- spends _ (rdBytes _) _ _ => apply sp_rdBytes; nn
  | |- spends _ rd2EOF _ _ => apply sp_rd2EOF; nn
  | |- spends _ getBody _ _ => apply sp_body; nn
  | |- spends _ rdRest _ _ => apply (sp_quiet _ _ q_rest); nn
  | |- spends _ rdLen _ _ => apply (sp_quiet _ _ q_len); nn
  | |- spends _ curName _ _ => apply (sp_quiet _ _ q_name); nn
  | |- spends _ getCs _ _ => apply (sp_quiet _ _ q_cs); nn
  | |- spends _ (setMode ?x) _ _ => apply (sp_quiet _ _ (q_mode x)); nn
  | |- spends _ (setSig ?x) _ _ => apply (sp_quiet _ _ (q_sig x)); nn
  | |- spends _ (setKey ?x) _ _ => apply (sp_quiet _ _ (q_key x)); nn
  | |- spends _ (dumpRest ?b) _ _ => apply (sp_quiet _ _ (q_dump b)); nn
  | |- spends _ (add _) _ _ => apply sp_add1; first [assumption | leaf]
  | |- spends _ (addo _) _ _ => apply sp_addo
  | |- spends _ (setNote _) _ _ => apply sp_note
  | |- spends _ (setValue _) _ _ => apply sp_value
  | |- spends _ (setDump _) _ _ => apply sp_dump
  | |- spends _ (putCur _) _ _ => apply sp_put; leaf
  | |- _ => prim2
  end.
Ltac fin := eapply sp_post; [prim | cbv beta; intros; split; [try exact I; auto | nn]].
Ltac sp := lazymatch goal with
  | |- spends _ (bind _ _) _ _ => try (eapply sp_bind; [prim | ]; let a := fresh "a" in let H := fresh "H" in intros a H; cbv beta; sp)
  | |- spends _ (ret _) _ _ => apply sp_ret; [try exact I; auto | cbv beta; nn]
  | |- spends _ (if ?b then _ else _) _ _ => let E := fresh "E" in destruct b eqn:E; sp
  | |- _ => try fin
  end.

Lemma sp_raw c n f : 0 <= c -> spends c (rawData n f) (fun i => i_items i = []) (fun _ => c).
Proof. intro C. unfold rawData. sp. Qed.
Lemma sp_addRest c n f : 0 <= c -> spends (c + 1) (addRest n f) any (fun _ => c).
Proof.
  intro C. unfold addRest. sp. eapply sp_bind; [apply sp_raw; nn|]. intros i Hi. cbv beta.
  eapply sp_post; [apply (sp_add1 _ _ Hi)|]. intros; split; [exact I|nn].
Qed.
Lemma sp_mpi c : 0 <= c -> spends c newMPI any (fun _ => c + 16).
Proof. intro C. unfold newMPI. sp. Qed.
Lemma sp_oid c : 0 <= c -> spends c newOID any (fun _ => c + 8).
Proof. intro C. unfold newOID. sp. Qed.
Lemma sp_dt c u : 0 <= c -> spends c (newDateTime u) any (fun _ => c + 32).
Proof. intro C. unfold newDateTime. sp. Qed.
Lemma sp_fname c n : 0 <= c -> spends c (newLiteralFname n) any (fun _ => c).
Proof. intro C. unfold newLiteralFname. sp. Qed.
Lemma sp_ecparm c : 0 <= c -> spends c newECParm (fun d => 0 <= lenZ d) (fun d => c + 8 * lenZ d).
Proof.
  intros C s W. unfold newECParm. pose proof (sp_rdByte 0 (Z.le_refl 0) s W) as H. destruct (rdByte s) as [[b|e| |] s']; auto.
  - destruct H as (H1 & H2 & _). cbv beta in H2. destruct (b2n b =? 0)%N.
    + split; [auto|]. change (lenZ (@nil byte)) with 0. lia.
    + pose proof (sp_rdBytes 8 (Z.of_N (b2n b)) ltac:(lia) s' H1) as K. destruct (rdBytes _ s') as [[d|e| |] s'']; auto.
      * destruct K as (K1 & K2 & K3). cbv beta in K2. split; [auto|]. unfold got in K3. lia.
      * destruct K. split; [auto|]. lia.
  - destruct H. split; [auto|]. change (lenZ (@nil byte)) with 0. lia.
Qed.
Ltac prim2 ::= lazymatch goal with
  | |- spends _ newMPI _ _ => apply sp_mpi; nn
  | |- spends _ newOID _ _ => apply sp_oid; nn
  | |- spends _ (newDateTime _) _ _ => apply sp_dt; nn
  | |- spends _ (newLiteralFname _) _ _ => apply sp_fname; nn
  | |- spends _ newECParm _ _ => apply sp_ecparm; nn
  | |- spends _ (rawData _ _) _ _ => apply sp_raw; nn
  end.

(** Algorithm-specific fields. *)
Lemma sp_addMPI c o n : 0 <= c -> spends c (addMPI o n) any (fun _ => c + 15).
Proof. intro C. unfold addMPI. sp. Qed.
Lemma sp_addPoint c o n : 0 <= c -> spends c (addPoint o n) any (fun _ => c + 15).
Proof. intro C. unfold addPoint. sp. Qed.
Lemma sp_addOID c : 0 <= c -> spends c addOID any (fun _ => c + 7).
Proof. intro C. unfold addOID. sp. Qed.
Lemma sp_sized c o z n : 0 <= c -> spends c (addSized o z n) any (fun _ => c - 1).
Proof. intro C. unfold addSized. sp. Qed.
Lemma kdf_count o ep : cnt (kdf_item o ep) <= 1 + 8 * lenZ ep.
Proof.
  unfold kdf_item. destruct ep as [|e0 [|e1 [|e2 t]]]; cbv zeta; try (destruct (b2n e0 =? 1)%N); rewrite ?cnt_add;
    repeat (rewrite cnt_leaf by reflexivity); unfold lenZ; cbn [length]; lia.
Qed.
Ltac prim2 ::= lazymatch goal with
  | |- spends _ newMPI _ _ => apply sp_mpi; nn
  | |- spends _ newOID _ _ => apply sp_oid; nn
  | |- spends _ (newDateTime _) _ _ => apply sp_dt; nn
  | |- spends _ (newLiteralFname _) _ _ => apply sp_fname; nn
  | |- spends _ newECParm _ _ => apply sp_ecparm; nn
  | |- spends _ (rawData _ _) _ _ => apply sp_raw; nn
  | |- spends _ (addMPI _ _) _ _ => apply sp_addMPI; nn
  | |- spends _ (addPoint _ _) _ _ => apply sp_addPoint; nn
  | |- spends _ addOID _ _ => apply sp_addOID; nn
  | |- spends _ (addSized _ _ _) _ _ => apply sp_sized; nn
  end.
Lemma sp_ecdh c o : 0 <= c -> spends c (ecdhPub o) any (fun _ => c).
Proof.
  intro C. unfold ecdhPub. eapply sp_bind; [prim|]. intros ? _. cbv beta. eapply sp_bind; [prim|]. intros ? _. cbv beta. eapply sp_bind; [prim|].
  intros ep L. eapply sp_post; [apply sp_add|]. intros ? _. cbv beta. split; [exact I|]. pose proof (kdf_count o ep). nn.
Qed.
Lemma sp_pub c o p : 1 <= c -> spends c (parsePub o p) any (fun _ => c - 1).
Proof.
  intro C. unfold parsePub, rsaPub, dsaPub, elgPub, ecdsaPub, eddsaPub. sp.
  eapply sp_post; [apply sp_ecdh; nn|]. intros; split; [exact I|nn].
Qed.
Lemma sp_secenc c o p : 1 <= c -> spends c (parseSecEnc o p) any (fun _ => c - 1).
Proof.
  intro C. unfold parseSecEnc. eapply sp_bind; [prim|]. intros z _. eapply sp_bind; [prim|]. intros ? _. cbv beta. cbv beta.
  eapply sp_bind; [apply sp_seek_end; nn|]. intros ? _. cbv beta. sp.
Qed.
Lemma sp_secplain c o p : 1 <= c -> spends c (parseSecPlain o p) any (fun _ => c - 1).
Proof. intro C. unfold parseSecPlain, rsaSec, unknownSec. sp. Qed.
Lemma sp_ses c o p : 1 <= c -> spends c (parseSes o p) any (fun _ => c - 1).
Proof. intro C. unfold parseSes. sp. Qed.
Lemma sp_sig c o p : 1 <= c -> spends c (parseSig o p) any (fun _ => c - 1).
Proof. intro C. unfold parseSig. sp. Qed.

Lemma sp_child1 {A} c it (m : M A) (P : A -> Prop) (f : A -> Z) : i_items it = [] -> spends (c - 1) m P f -> spends c (child it m) P f.
Proof. intros L H. replace c with (c - 1 + cnt it) by (rewrite (cnt_leaf it L); lia). apply sp_child, H. Qed.
Lemma sp_seek3 c : 24 <= c -> spends c (rdSeek (-3) 1) any (fun _ => c - 24).
Proof. intro C. replace c with (c - 24 + 8 * 3) at 1 by lia. apply (sp_seek_back (c - 24) 3); lia. Qed.

(** String-to-key specifiers. *)
Lemma sp_s2k_fields c id f : 0 <= c -> spends c (s2k_fields id f) any (fun _ => c).
Proof.
  intro C. unfold s2k_fields. cbv zeta. destruct (_ || _ || _).
  - eapply sp_bind; [prim|]. intros h _. cbv beta. eapply sp_bind; [prim|]. intros ? _. cbv beta.
    eapply sp_bind.
    { instantiate (1 := fun _ => c). instantiate (1 := any). sp. }
    intros ? _. cbv beta. eapply sp_bind.
    { instantiate (1 := fun _ => c). instantiate (1 := any). sp. }
    intros ? _. sp.
  - destruct (_ =? 101)%N; [|sp]. eapply sp_bind; [prim|]. intros z _. cbv beta. destruct (z <? 4); [sp|].
    eapply sp_bind; [prim|]. intros mrk G. cbv beta. destruct (beqs mrk _).
    + eapply sp_bind; [prim|]. intros k _. cbv beta. cbv zeta. eapply sp_bind.
      { instantiate (1 := fun _ => c + 2). instantiate (1 := fun g => cnt g <= 2). destruct (_ =? 1002)%N.
        - eapply sp_bind; [prim|]. intros l _. cbv beta. eapply sp_bind; [prim|]. intros ser G'. cbv beta. apply sp_ret; [|nn].
          rewrite cnt_add. rewrite !cnt_leaf by reflexivity. lia.
        - apply sp_ret; [|nn]. rewrite cnt_leaf by reflexivity. lia. }
      intros g Hg. cbv beta. eapply sp_bind; [apply sp_add|]. intros ? _. cbv beta. apply sp_ret; [exact I|nn].
    + eapply sp_bind; [apply sp_seek3; nn|]. intros ? _. cbv beta. apply sp_ret; [exact I|nn].
Qed.
Lemma sp_s2k c f : 0 <= c -> spends c (s2k_parse f) any (fun _ => c + 7).
Proof.
  intro C. unfold s2k_parse. eapply sp_bind; [prim|]. intros ss _. cbv beta. apply sp_child1; [reflexivity|].
  eapply sp_post; [apply sp_s2k_fields; nn|]. intros; split; [exact I|nn].
Qed.

(** Keys. *)
Ltac prim2 ::= lazymatch goal with
  | |- spends _ newMPI _ _ => apply sp_mpi; nn
  | |- spends _ newOID _ _ => apply sp_oid; nn
  | |- spends _ (newDateTime _) _ _ => apply sp_dt; nn
  | |- spends _ (newLiteralFname _) _ _ => apply sp_fname; nn
  | |- spends _ newECParm _ _ => apply sp_ecparm; nn
  | |- spends _ (rawData _ _) _ _ => apply sp_raw; nn
  | |- spends _ (addMPI _ _) _ _ => apply sp_addMPI; nn
  | |- spends _ (addPoint _ _) _ _ => apply sp_addPoint; nn
  | |- spends _ addOID _ _ => apply sp_addOID; nn
  | |- spends _ (addSized _ _ _) _ _ => apply sp_sized; nn
  | |- spends _ (parsePub _ _) _ _ => apply sp_pub; nn
  | |- spends _ (parseSes _ _) _ _ => apply sp_ses; nn
  | |- spends _ (parseSig _ _) _ _ => apply sp_sig; nn
  | |- spends _ (parseSecEnc _ _) _ _ => apply sp_secenc; nn
  | |- spends _ (parseSecPlain _ _) _ _ => apply sp_secplain; nn
  | |- spends _ (s2k_parse _) _ _ => apply sp_s2k; nn
  end.
Lemma sp_rest1 c n f : 1 <= c -> spends c (addRest n f) any (fun _ => c - 1).
Proof. intro C. replace c with (c - 1 + 1) at 1 by lia. apply sp_addRest. lia. Qed.
Lemma sp_keyTime c o E : 0 <= c -> spends c (keyTime o E) any (fun _ => c + 31).
Proof. intro C. unfold keyTime. sp. Qed.
Lemma sp_keyAlg c o : 0 <= c -> spends c (keyAlg o) any (fun _ => c + 7).
Proof. intro C. unfold keyAlg. sp. Qed.
Lemma sp_frame {A} k c (m : M A) (P : A -> Prop) (f : A -> Z) : spends k m P f -> k <= c -> spends c m P (fun a => f a + (c - k)).
Proof.
  intros H L s I. specialize (H s I). destruct (m s) as [[a|e| |] s']; auto.
  - destruct H as (H1 & H2 & H3). split; [auto|]. split; [lia|auto].
  - destruct H. split; [auto|lia].
Qed.
Lemma sp_drop {A} b k c (m : M A) : sized b -> spends k m any (fun _ => 0) -> k + 8 * lenZ b <= c ->
  spends c (with_rd (r_new b) m) any (fun _ => c - k - 8 * lenZ b).
Proof.
  intros S H L. eapply sp_post; [apply (sp_frame _ c _ _ _ (sp_with k (r_new b) m any _ (new_weak b S) H))|].
  - rewrite new_lft. lia.
  - intros [a r] _. cbv beta. cbn [fst snd]. split; [exact I|]. rewrite new_lft. pose proof (lft_pos r). lia.
Qed.
Lemma sp_pub_parse c o E v : 0 <= c -> spends c (pub_parse o E v) any (fun _ => c).
Proof.
  intro C. unfold pub_parse, pubV5, pubV4, pubV3. destruct (v_isdraft v); [|destruct (v_iscur v); [|destruct (_ && _)]]; [..|sp].
  - eapply sp_bind; [apply sp_keyTime; nn|]. intros ? _. cbv beta. eapply sp_bind; [apply sp_keyAlg; nn|]. intros p _. cbv beta.
    eapply sp_bind; [prim|]. intros sz Gs. cbv beta. eapply sp_bind; [prim|]. intros b Gb. cbv beta.
    eapply sp_bind; [apply (sp_drop b 1); [apply Gb| |nn]|].
    + eapply sp_post; [apply sp_pub; lia|]. intros; split; [exact I|lia].
    + intros q _. cbv beta. apply sp_ret; [exact I|nn].
  - eapply sp_bind; [apply sp_keyTime; nn|]. intros ? _. cbv beta. eapply sp_bind; [apply sp_keyAlg; nn|]. intros p _. cbv beta.
    eapply sp_bind; [prim|]. intros ? _. apply sp_ret; [exact I|nn].
  - eapply sp_bind; [apply sp_keyTime; nn|]. intros ? _. cbv beta. eapply sp_bind; [prim|]. intros d Gd. cbv beta.
    eapply sp_bind; [prim|]. intros ? _. cbv beta. eapply sp_bind; [apply sp_keyAlg; nn|]. intros p _. cbv beta.
    eapply sp_bind; [prim|]. intros ? _. apply sp_ret; [exact I|nn].
Qed.

(** Secret keys. *)
Definition rowk (f : option (option reader)) : Prop := match f with Some ro => owk ro | None => True end.
Definition roleft (f : option (option reader)) : Z := match f with Some ro => oleft ro | None => 0 end.
Lemma sp_field1 c v : 0 <= c -> spends c (getField1 v) rowk (fun f => c + roleft f).
Proof.
  intro C. unfold getField1. destruct (_ =? 5)%N; [|apply sp_ret; [exact I|cbn [roleft oleft]; lia]].
  eapply sp_bind; [prim|]. intros l _. cbv beta. destruct (_ =? 0)%N; [apply sp_ret; [exact I|cbn [roleft]; lia]|].
  eapply sp_bind; [prim|]. intros b G. cbv beta. apply sp_ret; [apply new_weak, G|]. cbn [roleft oleft]. rewrite new_lft. lia.
Qed.
Lemma sp_len4 c : 0 <= c -> spends c readLen4 any (fun _ => c).
Proof.
  intros C s W. unfold readLen4. pose proof (sp_rdBytes c 4 C s W) as H. destruct (rdBytes 4 s) as [[b|e| |] s']; auto.
  destruct H as (H1 & H2 & H3). split; [auto|]. split; [nn|exact I].
Qed.
Lemma sp_field2 c v : 0 <= c -> spends c (getField2 v) rowk (fun f => c + roleft f).
Proof.
  intro C. unfold getField2. destruct (_ =? 5)%N; [|apply sp_ret; [exact I|cbn [roleft oleft]; lia]].
  eapply sp_bind; [apply sp_len4; nn|]. intros l _. cbv beta. destruct (_ =? 0)%N; [apply sp_ret; [exact I|cbn [roleft]; lia]|].
  eapply sp_bind; [prim|]. intros b G. cbv beta. apply sp_ret; [apply new_weak, G|]. cbn [roleft oleft]. rewrite new_lft. lia.
Qed.
(** An optional field read from [ro]: all its octets pay. *)
Lemma sp_field {A} k c ro (m : M A) : owk ro -> spends k m any (fun _ => 0) -> k + oleft ro <= c ->
  spends c (opt_run ro m) (fun p => owk (snd p)) (fun p => c - k - oleft ro + oleft (snd p)).
Proof.
  intros W H L. eapply sp_post; [apply (sp_frame _ c _ _ _ (sp_opt k ro m any _ W H)); lia|].
  intros [a r] [_ R]. cbv beta. cbn [fst snd] in *. split; [exact R|lia].
Qed.
Lemma sp_sec_opts c o v u ro : owk ro -> 2 + oleft ro <= c -> spends c (sec_opts o v u ro) any (fun _ => c - 2 - oleft ro).
Proof.
  intros W C. unfold sec_opts. pose proof (oleft_pos ro).
  eapply sp_bind with (P := fun p => owk (snd p)) (f := fun p => c - oleft ro + oleft (snd p)).
  { destruct (negb _); [|apply sp_ret; cbn [snd]; [auto|lia]]. eapply sp_post; [apply (sp_field 0); [exact W|sp|lia]|].
    intros [a9 r] R. cbn [snd] in *. split; [exact R|lia]. }
  intros [symid ro1] W1. cbn [snd] in W1. cbv beta. cbn [snd]. pose proof (oleft_pos ro1).
  eapply sp_bind with (P := fun p => owk (snd p)) (f := fun p => c - oleft ro + oleft (snd p)).
  { destruct (u =? 253)%N; [|apply sp_ret; cbn [snd]; [auto|lia]]. eapply sp_post; [apply (sp_field 0); [exact W1|sp|lia]|].
    intros [a9 r] R. cbn [snd] in *. split; [exact R|lia]. }
  intros [u2 ro2] W2. cbn [snd] in W2. cbv beta. cbn [snd]. pose proof (oleft_pos ro2).
  eapply sp_bind with (P := fun p => owk (snd p)) (f := fun p => c - oleft ro + oleft (snd p)).
  { destruct (u =? 0)%N; [apply sp_ret; cbn [snd]; [auto|lia]|]. destruct (usage_s2k u); [|apply sp_ret; cbn [snd]; [auto|lia]].
    eapply sp_post; [apply (sp_field 0); [exact W2| |lia]|].
    - eapply sp_post; [prim|]. intros; split; [exact I|lia].
    - intros [a9 r] R. cbn [snd] in *. split; [exact R|lia]. }
  intros [iv ro3] W3. cbn [snd] in W3. cbv beta. cbn [snd]. pose proof (oleft_pos ro3).
  eapply sp_bind with (P := any) (f := fun _ => c - oleft ro + oleft ro3 - 1).
  { destruct (_ && _); [|apply sp_ret; [exact I|lia]]. unfold sec_iv.
    eapply sp_bind with (P := fun i => i_items i = []) (f := fun _ => c - oleft ro + oleft ro3).
    - eapply sp_bind; [prim|]. intros d G. cbv beta. apply sp_ret; [reflexivity|nn].
    - intros i Hi. eapply sp_post; [apply (sp_add1 _ _ Hi)|]. intros; split; [exact I|lia]. }
  intros ? _. cbv beta. destruct (_ =? 5)%N; [|apply sp_ret; [exact I|lia]].
  eapply sp_bind; [apply (sp_field 1); [exact W3| |lia]|].
  - eapply sp_post; [apply sp_rest1; lia|]. intros; split; [exact I|lia].
  - intros [a9 r] _. cbv beta. cbn [snd]. pose proof (oleft_pos r). apply sp_ret; [exact I|lia].
Qed.
Lemma sp_sec_material c o v p u ro : owk ro -> 2 + oleft ro <= c -> spends c (sec_material o v p u ro) any (fun _ => c - 2 - oleft ro).
Proof.
  intros W C. unfold sec_material. pose proof (oleft_pos ro). eapply sp_bind; [prim|]. intros ? _. cbv beta.
  eapply sp_bind with (P := fun p => owk (snd p)) (f := fun p => c - 1 - oleft ro + oleft (snd p)).
  { destruct (u =? 0)%N.
    - eapply sp_bind; [apply (sp_field 1); [exact W| |lia]|].
      + eapply sp_post; [apply sp_secplain; lia|]. intros; split; [exact I|lia].
      + intros [a9 r] R. cbv beta. cbn [snd] in *. pose proof (oleft_pos r). eapply sp_bind; [prim|]. intros d G. cbv beta. eapply sp_bind; [prim|].
        intros ? _. cbv beta. apply sp_ret; cbn [snd]; [exact R|nn].
    - eapply sp_post; [apply (sp_field 1); [exact W| |lia]|].
      + eapply sp_post; [apply sp_secenc; lia|]. intros; split; [exact I|lia].
      + intros [a9 r] R. cbn [snd] in *. split; [exact R|lia]. }
  intros [a9 r] R. cbv beta. cbn [snd] in *. pose proof (oleft_pos r). destruct (_ =? 5)%N; [|apply sp_ret; [exact I|lia]].
  eapply sp_bind; [apply (sp_field 1); [exact R| |lia]|].
  - eapply sp_post; [apply sp_rest1; lia|]. intros; split; [exact I|lia].
  - intros [a' r'] _. cbv beta. cbn [snd]. pose proof (oleft_pos r'). apply sp_ret; [exact I|lia].
Qed.
Lemma sp_sec c o v p : 0 <= c -> spends c (sec_parse o v p) any (fun _ => c + 4).
Proof.
  intro C. unfold sec_parse. eapply sp_bind; [prim|]. intros u _. cbv beta. cbv zeta. eapply sp_bind; [apply sp_field1; nn|].
  intros f1 W1. cbv beta. eapply sp_bind with (P := any) (f := fun _ => c + 6).
  { destruct f1 as [ro|]; cbn [rowk roleft] in *; [|apply sp_ret; [exact I|lia]].
    eapply sp_post; [apply sp_sec_opts; [exact W1|lia]|]. intros; split; [exact I|lia]. }
  intros ? _. cbv beta. eapply sp_bind; [apply sp_field2; nn|]. intros f2 W2. cbv beta.
  destruct f2 as [ro|]; cbn [rowk roleft] in *; [|apply sp_ret; [exact I|lia]].
  eapply sp_post; [apply sp_sec_material; [exact W2|lia]|]. intros; split; [exact I|lia].
Qed.

(** Sub-packets. *)
Definition rec_ok (rec : tagrec) : Prop := forall tag body cs, sized body ->
  match rec tag body cs with (ROk p, _) => cnt (fst p) <= 8 * lenZ body + 8 | _ => True end.
Lemma sp_rec c rec tag b : 0 <= c -> rec_ok rec -> sized b -> spends c (call_rec rec tag b) (fun p => cnt (fst p) <= 8 * lenZ b + 8) (fun _ => c).
Proof.
  intros C R S s W. unfold call_rec. specialize (R tag b (s_cs s) S). destruct (rec tag b (s_cs s)) as [[p|e| |] cs]; auto; unfold bal; cbn [s_rd s_cur].
  - split; [auto|]. split; [lia|exact R].
  - split; [auto|lia].
Qed.
Lemma sp_flags l : forall c k, 0 <= c -> spends (c + lenZ l) (flag_loop k l) any (fun _ => c).
Proof.
  induction l as [|b l IH]; intros c k C; cbn [flag_loop].
  - apply sp_ret; [exact I|]. unfold lenZ. lia.
  - eapply sp_bind; [prim|]. intros ? _. cbv beta. replace (c + lenZ (b :: l) - 1) with (c + lenZ l) by (unfold lenZ; cbn [length]; lia). apply IH, C.
Qed.
Lemma sp_more c : 0 <= c -> spends c more_flags any (fun _ => c).
Proof.
  intro C. unfold more_flags. eapply sp_bind; [prim|]. intros z _. cbv beta. destruct (0 <? z); [|sp]. eapply sp_bind; [prim|]. intros l [_ G]. cbv beta.
  eapply sp_post; [apply (sp_frame (c + lenZ l)); [apply sp_flags, C|lia]|]. intros; split; [exact I|lia].
Qed.
Ltac prim2 ::= lazymatch goal with
  | |- spends _ newMPI _ _ => apply sp_mpi; nn
  | |- spends _ newOID _ _ => apply sp_oid; nn
  | |- spends _ (newDateTime _) _ _ => apply sp_dt; nn
  | |- spends _ (newLiteralFname _) _ _ => apply sp_fname; nn
  | |- spends _ newECParm _ _ => apply sp_ecparm; nn
  | |- spends _ (rawData _ _) _ _ => apply sp_raw; nn
  | |- spends _ (addMPI _ _) _ _ => apply sp_addMPI; nn
  | |- spends _ (addPoint _ _) _ _ => apply sp_addPoint; nn
  | |- spends _ addOID _ _ => apply sp_addOID; nn
  | |- spends _ (addSized _ _ _) _ _ => apply sp_sized; nn
  | |- spends _ (parsePub _ _) _ _ => apply sp_pub; nn
  | |- spends _ (parseSes _ _) _ _ => apply sp_ses; nn
  | |- spends _ (parseSig _ _) _ _ => apply sp_sig; nn
  | |- spends _ (parseSecEnc _ _) _ _ => apply sp_secenc; nn
  | |- spends _ (parseSecPlain _ _) _ _ => apply sp_secplain; nn
  | |- spends _ (s2k_parse _) _ _ => apply sp_s2k; nn
  | |- spends _ more_flags _ _ => apply sp_more; nn
  | |- spends _ (addRest _ _) _ _ => apply sp_rest1; nn
  | |- spends _ (keyTime _ _) _ _ => apply sp_keyTime; nn
  | |- spends _ (keyAlg _) _ _ => apply sp_keyAlg; nn
  | |- spends _ (pub_parse _ _ _) _ _ => apply sp_pub_parse; nn
  | |- spends _ (sec_parse _ _ _) _ _ => apply sp_sec; nn
  end.
Lemma sp_next c E : 0 <= c -> spends c (next_rd E) (fun n => match n with Some (_, b) => sized b /\ 0 <= lenZ b | None => True end)
  (fun n => match n with Some (_, b) => c + 8 * lenZ b + 8 | None => c end).
Proof.
  intros C s W. unfold next_rd.
  assert (rdr_inv (r_buf (s_rd s)) (s_rd s)) as RI by (split; [reflexivity|exact W]).
  pose proof (next_packet_rdr (e_grow E) (S (S (length (r_buf (s_rd s))))) _ (s_rd s) RI) as H.
  assert (rdr_left (s_rd s) <= S (S (length (r_buf (s_rd s)))))%nat as F. { unfold rdr_left, weak_inv, lenZ in *. lia. }
  specialize (H F). destruct (next_packet _ _ _ _) as [[[[tag b]|e]|] r']; auto.
  - destruct H as ((B & I1 & I2) & H2 & H3). cbn [s_rd s_cur]. unfold bal. cbn [s_rd s_cur]. unfold weak_inv, sized. rewrite B.
    split; [lia|]. assert (lenZ b + lft r' + 1 <= lft (s_rd s)) as Q. { unfold lft, rdr_left in *. rewrite B in *. unfold lenZ in *. lia. }
    split; [lia|]. unfold lft, weak_inv, lenZ in *. lia.
  - destruct H as ((B & I1 & I2) & H2 & _). assert (lft r' <= lft (s_rd s)) as Q. { unfold lft, rdr_left in *. rewrite B in *. unfold lenZ in *. lia. }
    assert (weak_inv r') as W'. { unfold weak_inv. rewrite B. lia. }
    unfold bal. destruct (rerr_err e); cbn [s_rd s_cur]; (split; [exact W'|]); try split; try exact I; lia.
Qed.
Lemma sp_key_loop rec E : rec_ok rec -> forall fuel c, 0 <= c -> spends c (key_loop rec E fuel) any (fun _ => c).
Proof.
  intro R. induction fuel as [|fuel IH]; intros c C; cbn [key_loop]; [intros s W; exact I|].
  eapply sp_bind; [apply sp_next; exact C|]. intros [[tag b]|] G; cbv beta; [|sp]. destruct G as [S L].
  eapply sp_bind; [apply sp_rec; [nn|exact R|exact S]|]. intros p Hp. cbv beta in *. eapply sp_bind; [apply sp_add|]. intros ? _. cbv beta.
  eapply sp_post; [apply IH; lia|]. intros; split; [exact I|lia].
Qed.

Lemma sp_sub31 c o : 0 <= c -> spends c (sub31 o) any (fun _ => 0).
Proof. intro C. unfold sub31. sp. Qed.
Lemma sp_sub12 c o : 0 <= c -> spends c (sub12 o) any (fun _ => 0).
Proof. intro C. unfold sub12. cbv zeta. sp. Qed.
Lemma sp_sub_fpr c : 0 <= c -> spends c sub_fpr any (fun _ => 0).
Proof. intro C. unfold sub_fpr. cbv zeta. sp. Qed.
Lemma sp_sub37 c o : 1 <= c -> spends c (sub37 o) any (fun _ => 0).
Proof. intro C. unfold sub37. sp. Qed.
Lemma sp_sub04 c : 0 <= c -> spends c sub04 any (fun _ => 0).
Proof.
  intro C. unfold sub04, sub_bool. eapply sp_bind with (P := any) (f := fun _ => c); [sp|]. intros ? _. cbv beta. sp.
Qed.
Lemma sp_sub27 c : 0 <= c -> spends c sub27 any (fun _ => 0).
Proof.
  intro C. unfold sub27. do 10 (eapply sp_bind; [prim|]; intros ? _; cbv beta).
  eapply sp_bind with (P := any) (f := fun _ => c); [sp|]. intros ? _. cbv beta. sp.
Qed.
Lemma sp_sub01 c : 0 <= c -> spends c sub01 any (fun _ => 0).
Proof.
  intro C. unfold sub01. eapply sp_bind; [prim|]. intros l G. cbv beta. cbv zeta. eapply sp_bind; [prim|]. intros v _. cbv beta.
  eapply sp_bind with (P := any) (f := fun _ => c + 8); [sp|]. intros ? _. cbv beta. sp.
Qed.
Lemma sp_sub38 c rec o E : rec_ok rec -> 0 <= c -> spends c (sub38 rec o E) any (fun _ => 0).
Proof.
  intros R C. unfold sub38. eapply sp_bind; [prim|]. intros v _. cbv beta. eapply sp_bind; [prim|]. intros ? _. cbv beta.
  eapply sp_bind; [prim|]. intros it Hit. cbv beta in *. destruct (_ =? 0)%N; [|sp]. eapply sp_bind; [prim|]. intros z _. cbv beta.
  - eapply sp_bind with (P := any) (f := cnt).
    + eapply sp_weak; [apply (sp_sub 0 it _ any (fun _ => 0)); [intros; lia|apply sp_key_loop; [exact R|lia]]| |].
      * rewrite cnt_leaf by assumption. nn.
      * intros; split; [exact I|lia].
    + intros i _. eapply sp_post; [apply sp_add|]. intros; split; [exact I|lia].
Qed.
Lemma fills_sub rec o E tagid ty b : rec_ok rec -> sized b -> fills b (8 * lenZ b + 8) (sub_m rec o E tagid ty).
Proof.
  intros R S. assert (0 <= lenZ b) as L by (unfold lenZ; lia).
  assert (forall A (m : M A), spends 8 m any (fun _ => 0) -> fills b (8 * lenZ b + 8) m) as K.
  { intros A m H. replace (8 * lenZ b + 8) with (8 + 8 * lenZ b) by lia. apply (sp_fills b 8 m any _ S H). intros; lia. }
  assert (forall mk, (forall a f, i_items (mk a f) = []) -> fills b (8 * lenZ b + 8) (sub_algs mk o)) as ALG.
  { intros mk Hm s Hs. unfold sub_algs, getBody, bind, r_body. rewrite Hs. cbn [r_new r_buf].
    assert (forall l s, match mapM_ (fun a => add (mk a (oDebug o))) l s with (ROk _, s') => cnt (s_cur s') <= cnt (s_cur s) + lenZ l | _ => True end) as ML.
    { clear -Hm. induction l as [|x l IH]; intro s; cbn [mapM_]; [unfold ret, lenZ; cbn [length]; lia|]. unfold bind at 1, add at 1, upd at 1.
      specialize (IH (mkSt (s_rd s) (s_cs s) (add_child (mk x (oDebug o)) (s_cur s)))). cbn [s_cur] in IH.
      destruct (mapM_ _ l _) as [[a|e| |] s']; auto. rewrite cnt_add, (cnt_leaf _ (Hm x (oDebug o))) in IH. unfold lenZ in *. cbn [length]. lia. }
    specialize (ML b s). destruct (mapM_ _ b s) as [[a|e| |] s']; auto. lia. }
  unfold sub_m. cbv zeta.
  destruct (tagid =? 2)%N.
  - repeat match goal with |- fills _ _ (match ?x with _ => _ end) => destruct x end;
      lazymatch goal with
      | |- fills _ _ (ret _) => apply K, sp_ret; [exact I|lia]
      | |- fills _ _ (sub_algs _ _) => apply ALG; reflexivity
      | |- fills _ _ (sub31 _) => apply K, sp_sub31; lia
      | |- fills _ _ sub27 => apply K, sp_sub27; lia
      | |- fills _ _ sub_fpr => apply K, sp_sub_fpr; lia
      | |- fills _ _ (sub37 _) => apply K, sp_sub37; lia
      | |- fills _ _ (sub38 _ _ _) => apply K, sp_sub38; [exact R|lia]
      | |- fills _ _ (sub12 _) => apply K, sp_sub12; lia
      | |- fills _ _ sub04 => apply K, sp_sub04; lia
      | |- fills _ _ (sub32 _) => idtac
      | |- _ => apply K; unfold sub02, sub03, sub05, sub07, sub09, sub16, sub20, sub23, sub25, sub29, sub30, sub_text, sub_bool; sp
      end.
    (* sub32 *)
    unfold sub32. intros s Hs. unfold bind, getBody, r_body, call_rec. rewrite Hs. cbn [r_new r_buf]. specialize (R 2%N b (s_cs s) S).
    destruct (rec 2%N b (s_cs s)) as [[p|e| |] cs]; auto. cbn [add upd s_cur]. rewrite cnt_add. lia.
  - repeat match goal with |- fills _ _ (match ?x with _ => _ end) => destruct x end;
      lazymatch goal with |- fills _ _ sub01 => apply K, sp_sub01; lia | |- _ => apply K, sp_ret; [exact I|lia] end.
Qed.
Lemma sp_sub_one c rec o E tagid sp : rec_ok rec -> sized (snd sp) -> 8 * lenZ (snd sp) + 9 <= c ->
  spends c (sub_one rec o E tagid sp) any (fun _ => c - (8 * lenZ (snd sp) + 9)).
Proof.
  intros R S C. unfold sub_one. assert (0 <= lenZ (snd sp)) by (unfold lenZ; lia).
  eapply sp_bind with (P := any) (f := fun p => cnt (snd p) + (c - (8 * lenZ (snd sp) + 9))).
  - eapply sp_post; [apply (sp_frame _ c _ _ _ (sp_run (snd sp) _ _ _ (fills_sub rec o E tagid (fst sp) (snd sp) R S) ltac:(lia)))|].
    + unfold sub_item. rewrite cnt_leaf by reflexivity. lia.
    + intros [u i] _. cbn [snd]. unfold sub_item. rewrite (cnt_leaf (Item _ _ _ _ [])) by reflexivity. split; [exact I|lia].
  - intros [u i] _. cbn [snd]. eapply sp_post; [apply sp_add|]. intros; split; [exact I|lia].
Qed.
Definition area_sum (l : list subpkt) : Z := fold_right (fun sp n => 8 * lenZ (snd sp) + 9 + n) 0 l.
Lemma area_sum_cons sp l : area_sum (sp :: l) = 8 * lenZ (snd sp) + 9 + area_sum l.
Proof. reflexivity. Qed.
Lemma area_sum_pos l : 0 <= area_sum l.
Proof. induction l as [|sp l IH]; cbn [area_sum fold_right]; [lia|]. fold (area_sum l). unfold lenZ. lia. Qed.
Lemma sp_sub_all rec o E tagid l : rec_ok rec -> Forall (fun sp => sized (snd sp)) l -> forall c, area_sum l <= c ->
  spends c (mapM_ (sub_one rec o E tagid) l) any (fun _ => c - area_sum l).
Proof.
  intro R. induction l as [|sp l IH]; intros F c C; cbn [mapM_]; [apply sp_ret; [exact I|cbn [area_sum fold_right]; lia]|]. rewrite area_sum_cons in *.
  pose proof (area_sum_pos l). inversion F; subst. assert (0 <= lenZ (snd sp)) by (unfold lenZ; lia). eapply sp_bind; [apply sp_sub_one; [exact R|assumption|lia]|]. intros ? _. cbv beta.
  eapply sp_post; [apply IH; [assumption|lia]|]. intros; split; [exact I|lia].
Qed.
Lemma area_fits fuel : forall l, area_sum (fst (opaque_subpackets fuel l)) <= 8 * lenZ l.
Proof.
  induction fuel as [|fuel IH]; intros l; destruct l as [|b l]; cbn [opaque_subpackets fst]; try (unfold lenZ; cbn [area_sum fold_right length]; lia).
  destruct (next_subpacket (b :: l)) as [[sp rest]|] eqn:N; [|unfold lenZ; cbn [fst area_sum fold_right length]; lia].
  apply next_subpacket_shorter in N. specialize (IH rest). destruct (opaque_subpackets fuel rest) as [r ok]. cbn [fst] in *. rewrite area_sum_cons.
  unfold lenZ in *. cbn [length] in *. lia.
Qed.
Lemma sp_area c rec o E tagid n b : rec_ok rec -> sized b -> 1 + 8 * lenZ b <= c ->
  spends c (sub_area rec o E tagid n b) any (fun i => cnt i + (c - 1 - 8 * lenZ b)).
Proof.
  intros R S C. unfold sub_area, subpackets. assert (0 <= lenZ b) by (unfold lenZ; lia).
  pose proof (area_fits (length b) b) as A. pose proof (opaque_subpackets_shorter (length b) b) as Q.
  destruct (opaque_subpackets (length b) b) as [sps ok]. cbn [fst] in *. destruct ok; [|apply sp_fail; lia].
  assert (Forall (fun sp => sized (snd sp)) sps) as F. { apply Forall_forall. intros sp HI. specialize (Q sp HI). unfold sized, lenZ in *. lia. }
  pose proof (area_sum_pos sps).
  eapply sp_post; [apply (sp_frame (8 * lenZ b + 1)); [|lia]|].
  - eapply (sp_sub (8 * lenZ b) (Item n _ _ _ [])); [|apply (sp_sub_all rec o E tagid sps R F); exact A]. intros; cbv beta; lia.
  - intros i _. cbv beta. split; [exact I|lia].
Qed.

(** Packets. *)
Lemma sp_sig_area c rec o E n : rec_ok rec -> 0 <= c -> spends c (sig_area rec o E n) any (fun _ => c).
Proof.
  intros R C. unfold sig_area. eapply sp_bind; [prim|]. intros z G. cbv beta. cbv zeta. destruct (0 <? be z)%N; [|sp].
  eapply sp_bind; [prim|]. intros b Gb. cbv beta. eapply sp_bind; [apply sp_area; [exact R|apply Gb|nn]|].
  intros i _. cbv beta. eapply sp_post; [apply sp_add|]. intros; split; [exact I|nn].
Qed.
Lemma sp_sigV4 c rec o E : rec_ok rec -> 0 <= c -> spends c (sigV4 rec o E) any (fun _ => c + 1).
Proof.
  intros R C. unfold sigV4. do 6 (eapply sp_bind; [prim|]; intros ? _; cbv beta).
  do 2 (eapply sp_bind; [apply sp_sig_area; [exact R|nn]|]; intros ? _; cbv beta). sp.
Qed.
Lemma sp_sigV3 c o E : 0 <= c -> spends c (sigV3 o E) any (fun _ => c + 1).
Proof.
  intro C. unfold sigV3. eapply sp_bind; [prim|]. intros z _. cbv beta. eapply sp_bind with (P := any) (f := fun _ => c + 7).
  - apply sp_child1; [reflexivity|]. sp.
  - intros ? _. cbv beta. sp.
Qed.

Lemma w_note_items x i : i_items (w_note x i) = i_items i. Proof. destruct i. reflexivity. Qed.
Lemma w_value_items x i : i_items (w_value x i) = i_items i. Proof. destruct i. reflexivity. Qed.
Lemma sp_tag01 c o : 1 <= c -> spends c (tag01 o) any (fun _ => 0).
Proof. intro C. unfold tag01. sp. Qed.
Lemma sp_tag02 c rec o E : rec_ok rec -> 0 <= c -> spends c (tag02 rec o E) any (fun _ => 0).
Proof.
  intros R C. unfold tag02. eapply sp_bind; [prim|]. intros v _. cbv beta. cbv zeta. eapply sp_bind; [prim|]. intros ? _. cbv beta.
  destruct (v_isdraft _); [|destruct (v_iscur _); [|destruct (_ && _); [|sp]]].
  - eapply sp_bind; [apply sp_sigV4; [exact R|nn]|]. intros ? _. cbv beta. sp.
  - eapply sp_bind; [apply sp_sigV4; [exact R|nn]|]. intros ? _. cbv beta. sp.
  - eapply sp_bind; [apply sp_catch, sp_sigV3; nn|]. intros [u|] _; cbv beta; sp.
Qed.
Lemma sp_tag03 c o : 0 <= c -> spends c (tag03 o) any (fun _ => 0).
Proof.
  intro C. unfold tag03. do 2 (eapply sp_bind; [prim|]; intros ? _; cbv beta). cbv zeta. eapply sp_bind; [prim|]. intros ? _. cbv beta.
  eapply sp_bind with (P := any) (f := fun _ => c + 7); [sp|]. intros ? _. cbv beta. sp.
Qed.
Lemma sp_tag04 c o : 0 <= c -> spends c (tag04 o) any (fun _ => 0).
Proof. intro C. unfold tag04. sp. Qed.
Lemma sp_tag05 c o E : 0 <= c -> spends c (tag05 o E) any (fun _ => 0).
Proof.
  intro C. unfold tag05. eapply sp_bind; [prim|]. intros v _. cbv beta. cbv zeta. eapply sp_bind; [prim|]. intros ? _. cbv beta.
  eapply sp_bind; [apply sp_child1; [reflexivity|apply sp_pub_parse; nn]|]. intros p _. cbv beta.
  eapply sp_bind; [apply sp_child1; [reflexivity|apply sp_sec; nn]|]. intros ? _. cbv beta. sp.
Qed.
Lemma sp_tag06 c o E : 0 <= c -> spends c (tag06 o E) any (fun _ => 0).
Proof. intro C. unfold tag06. cbv zeta. sp. Qed.
Lemma sp_tag08 c o E : 0 <= c -> spends c (tag08 o E) any (fun _ => 0).
Proof.
  intro C. unfold tag08. do 3 (eapply sp_bind; [prim|]; intros ? _; cbv beta). destruct (0 <? _); [|sp]. eapply sp_bind; [prim|]. intros it Hi. cbv beta in *. cbv zeta.
  destruct (_ =? 0)%N; [sp|]. destruct (_ <=? 3)%N; [|sp]. eapply sp_bind; [prim|]. intros z Gz. cbv beta.
  destruct (copy_from _) as [out|[]]; [sp| |].
  - eapply sp_bind; [apply sp_add1; rewrite w_value_items; exact Hi|]. intros ? _. cbv beta. sp.
  - eapply sp_bind; [prim|]. intros ? _. cbv beta. apply sp_fail. nn.
Qed.
Lemma sp_tag09 c o : 1 <= c -> spends c (tag09 o) any (fun _ => 0).
Proof.
  intro C. unfold tag09. eapply sp_bind; [prim|]. intros it Hi. cbv beta in *. eapply sp_bind; [prim|]. intros cs _. cbv beta.
  eapply sp_bind; [apply sp_add1; rewrite w_value_items; exact Hi|]. intros ? _. cbv beta. sp.
Qed.
Lemma sp_tag_raw c n f : 1 <= c -> spends c (tag_raw n f) any (fun _ => 0).
Proof. intro C. unfold tag_raw. sp. Qed.
Lemma sp_tag11 c o E : 0 <= c -> spends c (tag11 o E) any (fun _ => 0).
Proof. intro C. unfold tag11, tag_raw. sp. Qed.
Lemma sp_tag13 c o : 1 <= c -> spends c (tag13 o) any (fun _ => 0).
Proof. intro C. unfold tag13. sp. Qed.
Lemma sp_tag18 c o : 1 <= c -> spends c (tag18 o) any (fun _ => 0).
Proof.
  intro C. unfold tag18. eapply sp_bind; [prim|]. intros it Hi. cbv beta in *. eapply sp_bind; [prim|]. intros cs _. cbv beta.
  eapply sp_bind; [apply sp_add1; destruct (c_mode cs); rewrite ?w_note_items; exact Hi|]. intros ? _. cbv beta. sp.
Qed.
Lemma sp_tag19 c o : 1 <= c -> spends c (tag19 o) any (fun _ => 0).
Proof.
  intro C. unfold tag19. eapply sp_bind; [prim|]. intros it Hi. cbv beta in *.
  eapply sp_post; [apply sp_add1; rewrite w_note_items; exact Hi|]. intros; split; [exact I|nn].
Qed.
Lemma sp_tag20 c o : 0 <= c -> spends c (tag20 o) any (fun _ => 0).
Proof.
  intro C. unfold tag20. do 8 (eapply sp_bind; [prim|]; intros ? _; cbv beta). eapply sp_bind; [apply sp_catch, sp_rdBytes; nn|].
  intros [iv|] G; cbv beta in *; sp.
Qed.

Lemma sub_all_rd rec o E tagid l : forall s, s_rd (snd (mapM_ (sub_one rec o E tagid) l s)) = s_rd s.
Proof.
  induction l as [|sp l IH]; intro s; cbn [mapM_]; [reflexivity|]. unfold bind at 1, sub_one at 1, bind at 1, run_in.
  destruct (sub_m rec o E tagid (fst sp) _) as [[a|e| |] s']; cbn [snd s_rd add upd]; [rewrite IH|..]; reflexivity.
Qed.
Lemma sub_area_rd rec o E tagid n b s : s_rd (snd (sub_area rec o E tagid n b s)) = s_rd s.
Proof.
  unfold sub_area. destruct (subpackets b) as [sps []]; [|reflexivity]. unfold sub_it.
  pose proof (sub_all_rd rec o E tagid sps (mkSt (s_rd s) (s_cs s) (Item n [] (dump_bytes b (oDebug o)) (n_bytes (lenZ b)) []))) as H.
  destruct (mapM_ _ _ _) as [r s']. exact H.
Qed.
Lemma tag_count rec o E tag body : rec_ok rec -> sized body -> fills body (8 * lenZ body + 7) (tag_m rec o E tag).
Proof.
  intros R S. assert (0 <= lenZ body) as L by (unfold lenZ; lia).
  assert (forall A (m : M A), spends 7 m any (fun _ => 0) -> fills body (8 * lenZ body + 7) m) as K.
  { intros A m H. replace (8 * lenZ body + 7) with (7 + 8 * lenZ body) by lia. apply (sp_fills body 7 m any _ S H). intros; lia. }
  assert (forall (m : M unit), spends 7 m any (fun _ => 0) -> fills body (8 * lenZ body + 7) (no_data m)) as KN.
  { intros m H. apply K. unfold no_data. eapply sp_bind; [exact H|]. intros ? _. sp. }
  unfold tag_m.
  repeat match goal with |- fills _ _ (match ?x with _ => _ end) => destruct x end;
    lazymatch goal with
    | |- fills _ _ (no_data (ret _)) => apply KN, sp_ret; [exact I|lia]
    | |- fills _ _ (no_data (tag01 _)) => apply KN, sp_tag01; lia
    | |- fills _ _ (no_data (tag02 _ _ _)) => apply KN, sp_tag02; [exact R|lia]
    | |- fills _ _ (no_data (tag03 _)) => apply KN, sp_tag03; lia
    | |- fills _ _ (no_data (tag04 _)) => apply KN, sp_tag04; lia
    | |- fills _ _ (no_data (tag05 _ _)) => apply KN, sp_tag05; lia
    | |- fills _ _ (no_data (tag06 _ _)) => apply KN, sp_tag06; lia
    | |- fills _ _ (tag08 _ _) => apply K, sp_tag08; lia
    | |- fills _ _ (no_data (tag09 _)) => apply KN, sp_tag09; lia
    | |- fills _ _ (no_data (tag_raw _ _)) => apply KN, sp_tag_raw; lia
    | |- fills _ _ (no_data (tag11 _ _)) => apply KN, sp_tag11; lia
    | |- fills _ _ (no_data (tag13 _)) => apply KN, sp_tag13; lia
    | |- fills _ _ (no_data (tag18 _)) => apply KN, sp_tag18; lia
    | |- fills _ _ (no_data (tag19 _)) => apply KN, sp_tag19; lia
    | |- fills _ _ (no_data (tag20 _)) => apply KN, sp_tag20; lia
    | |- fills _ _ (no_data (tag17 _ _ _)) => idtac
    end.
  (* tag17 *)
  intros s Hs. unfold no_data, tag17, bind, getBody, r_body. rewrite Hs. cbn [r_new r_buf].
  pose proof (sp_area (1 + 8 * lenZ body) rec o E 17 (str "Subpacket") body R S ltac:(lia)) as H.
  specialize (H s). rewrite Hs in H. specialize (H (new_weak body S)). pose proof (sub_area_rd rec o E 17 (str "Subpacket") body s) as Q.
  destruct (sub_area rec o E 17 (str "Subpacket") body s) as [[i|e| |] s']; auto. destruct H as (_ & H & _). cbn [snd] in Q.
  cbn [add upd ret s_cur]. rewrite cnt_add. unfold bal in H. rewrite Q, Hs in H. lia.
Qed.
Lemma rec_all n o E : rec_ok (parse_tag_fuel n o E).
Proof.
  induction n as [|n IH]; intros tag body cs S; [exact I|]. cbn [parse_tag_fuel]. unfold tag_body.
  pose proof (tag_count _ o E tag body IH S (mkSt (r_new body) cs (tag_item tag body (tag_dumpflag o tag))) eq_refl) as H.
  destruct (tag_m _ o E tag _) as [[d|e| |] s']; auto. cbn [fst]. cbn [s_cur] in H. unfold tag_item in H. rewrite (cnt_leaf (Item _ _ _ _ [])) in H by reflexivity. lia.
Qed.

(** The item of a packet: at most eight items an octet of the body, and eight more. *)
Lemma parse_tag_count o E tag body cs i d cs' : sized body -> parse_tag o E tag body cs = (ROk (i, d), cs') -> cnt i <= 8 * lenZ body + 8.
Proof. intros SB H. pose proof (rec_all (S (length body)) o E tag body cs SB) as R. unfold parse_tag in H. rewrite H in R. exact R. Qed.
