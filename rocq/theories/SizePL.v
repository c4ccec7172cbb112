(** * SizePL: what items hold beyond 352 octets is paid for by the octets read, twelve an octet. *)
From Coq Require Import Strings.String Strings.Byte List NArith ZArith Bool Arith Lia ZifyBool ZifyN ZifyNat.
From Verif Require Import Base Item Reader Context Env Values Opaque Monad Pubkey S2k Subs Tags Parse.
From Verif Require Import SpecBase SpecParse BaseL ReaderL FrameL SizeL SizeItemL.
Import ListNotations.
Local Open Scope Z_scope.

Definition lft (r : reader) : Z := Z.max 0 (lenZ (r_buf r) - r_off r).
Definition bal (s : st) : Z := exc (s_cur s) + 12 * lft (s_rd s).
Lemma lft_pos r : 0 <= lft r.
Proof. unfold lft. lia. Qed.

Definition spends {A} (c : Z) (m : M A) (P : A -> Prop) (f : A -> Z) : Prop := forall s, weak_inv (s_rd s) ->
  let '(r, s') := m s in
  match r with
  | ROk a => weak_inv (s_rd s') /\ bal s' + f a <= bal s + c /\ P a
  | RErr _ => weak_inv (s_rd s') /\ bal s' <= bal s + c
  | _ => True
  end.
Definition any {A} (a : A) := True.
(** The same for the last step: what is left unread is given up. *)
Definition closes {A} (c : Z) (m : M A) : Prop := forall s, weak_inv (s_rd s) ->
  match m s with (ROk _, s') => exc (s_cur s') <= bal s + c | _ => True end.
(** Filling an item from a reader of its own. *)
Definition fills {A} (b : bytes) (m : M A) : Prop := forall s, s_rd s = r_new b -> lenZ (i_name (s_cur s)) <= 104 ->
  match m s with (ROk _, s') => exc (s_cur s') <= exc (s_cur s) + 12 * lenZ b | _ => True end.

Lemma sp_weak {A} c c' (m : M A) (P Q : A -> Prop) (f g : A -> Z) :
  spends c m P f -> c <= c' -> (forall a, P a -> Q a /\ g a <= f a) -> spends c' m Q g.
Proof.
  intros H C W s I. specialize (H s I). destruct (m s) as [[a|e| |] s']; auto.
  - destruct H as (H1 & H2 & H3). destruct (W a H3). split; [auto|]. split; [lia|auto].
  - destruct H. split; [auto|lia].
Qed.
Lemma sp_post {A} c (m : M A) (P Q : A -> Prop) (f g : A -> Z) :
  spends c m P f -> (forall a, P a -> Q a /\ g a <= f a) -> spends c m Q g.
Proof. intros H W. exact (sp_weak c c m P Q f g H (Z.le_refl c) W). Qed.
Lemma sp_bind {A B} c (m : M A) (k : A -> M B) (P : A -> Prop) (f : A -> Z) (Q : B -> Prop) (g : B -> Z) :
  spends c m P f -> (forall a, P a -> spends (f a) (k a) Q g) -> spends c (bind m k) Q g.
Proof.
  intros H K s I. specialize (H s I). unfold bind. destruct (m s) as [[a|e| |] s']; auto.
  destruct H as (H1 & H2 & H3). specialize (K a H3 s' H1). destruct (k a s') as [[b|e| |] s'']; auto.
  - destruct K as (K1 & K2 & K3). split; [auto|]. split; [lia|auto].
  - destruct K. split; [auto|lia].
Qed.
Lemma cl_bind {A B} c (m : M A) (k : A -> M B) (P : A -> Prop) (f : A -> Z) :
  spends c m P f -> (forall a, P a -> closes (f a) (k a)) -> closes c (bind m k).
Proof.
  intros H K s I. specialize (H s I). unfold bind. destruct (m s) as [[a|e| |] s']; auto.
  destruct H as (H1 & H2 & H3). specialize (K a H3 s' H1). destruct (k a s') as [[b|e| |] s'']; auto. lia.
Qed.
Lemma sp_closes {A} c (m : M A) (P : A -> Prop) (f : A -> Z) : spends c m P f -> (forall a, P a -> 0 <= f a) -> closes c m.
Proof.
  intros H F s I. specialize (H s I). destruct (m s) as [[a|e| |] s']; auto. destruct H as (H1 & H2 & H3). specialize (F a H3). unfold bal in *.
  pose proof (lft_pos (s_rd s')). lia.
Qed.
Lemma cl_then {A B} c (m : M A) (b : B) : closes c m -> closes c (m ;; ret b).
Proof. intros H s I. specialize (H s I). unfold bind, ret. destruct (m s) as [[a|e| |] s']; auto. Qed.
Lemma sp_ret {A} c (a : A) (P : A -> Prop) g : P a -> g a <= c -> spends c (ret a) P g.
Proof. intros p H s I. unfold ret. split; [auto|]. split; [lia|auto]. Qed.
Lemma sp_fail {A} c e (P : A -> Prop) g : 0 <= c -> spends c (fail e) P g.
Proof. intros H s I. unfold fail. split; [auto|lia]. Qed.
Lemma sp_frame {A} k c (m : M A) (P : A -> Prop) (f : A -> Z) : spends k m P f -> k <= c -> spends c m P (fun a => f a + (c - k)).
Proof.
  intros H L s I. specialize (H s I). destruct (m s) as [[a|e| |] s']; auto.
  - destruct H as (H1 & H2 & H3). split; [auto|]. split; [lia|auto].
  - destruct H. split; [auto|lia].
Qed.

(** Reading. *)
Definition got (n : Z) (d : bytes) : Prop := lenZ d < 2 ^ 62 /\ 0 <= lenZ d /\ (0 <= n < 2 ^ 62 -> lenZ d = n).
Lemma slice_len' l i j : 0 <= i -> i <= j -> j <= lenZ l -> lenZ (slice l i j) = j - i.
Proof. intros. unfold slice, lenZ in *. rewrite firstn_length, skipn_length. lia. Qed.
Lemma sp_on_rd {A} c (f : reader -> res A * reader) (P : A -> Prop) (g : A -> Z) : 0 <= c ->
  (forall r, weak_inv r -> match f r with
                           | (ROk a, r') => weak_inv r' /\ 12 * lft r' + g a <= 12 * lft r + c /\ P a
                           | (RErr _, r') => r' = r
                           | _ => True end) -> spends c (on_rd f) P g.
Proof.
  intros C H s I. specialize (H _ I). unfold on_rd. destruct (f (s_rd s)) as [[a|e| |] r']; auto.
  - destruct H as (H1 & H2 & H3). unfold bal. cbn [s_rd s_cur]. split; [auto|]. split; [lia|auto].
  - subst r'. unfold bal. cbn [s_rd s_cur]. split; [auto|lia].
Qed.
Lemma readbytes_spends n r : weak_inv r ->
  match r_readbytes n r with
  | (ROk d, r') => weak_inv r' /\ lft r' + lenZ d = lft r /\ got n d
  | (RErr _, r') => r' = r
  | _ => True
  end.
Proof.
  intros [H1 H2]. unfold r_readbytes, r_size, got. destruct (n =? 0) eqn:N.
  - split; [split; auto|]. change (lenZ (@nil byte)) with 0. lia.
  - destruct (r_off r >=? lenZ (r_buf r)) eqn:O; [reflexivity|]. cbv zeta.
    destruct (wrap64 (r_off r + n) >? lenZ (r_buf r)) eqn:J; [reflexivity|].
    destruct ((r_off r <? 0) || (wrap64 (r_off r + n) <? r_off r)) eqn:Q; [exact I|].
    assert (0 <= r_off r) by lia. assert (r_off r <= wrap64 (r_off r + n)) by lia.
    rewrite slice_len' by lia. unfold weak_inv, lft. cbn [r_buf r_off]. split; [lia|]. split; [lia|]. split; [lia|]. split; [lia|].
    intro Hn. rewrite wrap64_small by lia. lia.
Qed.
Lemma sp_rdBytes c n : 0 <= c -> spends c (rdBytes n) (got n) (fun d => c + 12 * lenZ d).
Proof.
  intro C. apply sp_on_rd; [exact C|]. intros r I. pose proof (readbytes_spends n r I) as H.
  destruct (r_readbytes n r) as [[d|e| |] r']; auto. destruct H as (H1 & H2 & H3). split; [auto|]. split; [lia|auto].
Qed.
Lemma sp_rdByte c : 0 <= c -> spends c rdByte any (fun _ => c + 12).
Proof.
  intro C. apply sp_on_rd; [exact C|]. intros r I. pose proof (readbytes_spends 1 r I) as H. unfold r_readbyte.
  destruct (r_readbytes 1 r) as [[d|e| |] r']; auto. destruct H as (H1 & H2 & H3). destruct H3 as (_ & _ & H3). specialize (H3 ltac:(lia)).
  destruct d as [|b d]; [discriminate H3|]. split; [auto|]. split; [lia|exact Logic.I].
Qed.
Lemma sp_rd2EOF c : 0 <= c -> spends c rd2EOF (fun d => lenZ d < 2 ^ 62 /\ 0 <= lenZ d) (fun d => c + 12 * lenZ d).
Proof.
  intro C. apply sp_on_rd; [exact C|]. intros r [I1 I2]. unfold r_read2eof, r_size.
  destruct (r_off r >=? lenZ (r_buf r)) eqn:O; [reflexivity|]. destruct (r_off r <? 0) eqn:Q; [exact I|].
  unfold weak_inv, lft. cbn [r_buf r_off]. rewrite wrap64_small by lia. split; [lia|].
  unfold lenZ in *. rewrite skipn_length. lia.
Qed.
Lemma sp_seek_back c n : 0 <= c -> 0 <= n -> spends (c + 12 * n) (rdSeek (- n) 1) any (fun _ => c).
Proof.
  intros C N. apply sp_on_rd; [lia|]. intros r [I1 I2]. unfold r_seek, r_size. cbn [Z.eqb Pos.eqb].
  destruct (_ || _) eqn:Q; [reflexivity|]. unfold weak_inv, lft. cbn [r_buf r_off].
  assert (wrap64 (r_off r + - n) < 0 \/ wrap64 (r_off r + - n) >= r_off r - n) as W.
  { unfold wrap64. destruct (Z_lt_dec n (2 ^ 62)). 2:{ pose proof (Z.mod_pos_bound (r_off r + - n + 2 ^ 63) (2 ^ 64)). lia. }
    right. rewrite Z.mod_small by lia. lia. }
  split; [lia|]. split; [lia|exact I].
Qed.
Lemma sp_seek3 c : 36 <= c -> spends c (rdSeek (-3) 1) any (fun _ => c - 36).
Proof. intro C. replace c with (c - 36 + 12 * 3) at 1 by lia. apply (sp_seek_back (c - 36) 3); lia. Qed.
Lemma sp_seek_end c : 0 <= c -> spends c (rdSeek 0 2) any (fun _ => c).
Proof.
  intro C. apply sp_on_rd; [exact C|]. intros r [I1 I2]. unfold r_seek, r_size. cbn [Z.eqb Pos.eqb].
  rewrite Z.add_0_r. assert (0 <= lenZ (r_buf r)) by (unfold lenZ; lia). rewrite wrap64_small by lia.
  destruct (_ || _); [reflexivity|]. unfold weak_inv, lft. cbn [r_buf r_off]. split; [lia|]. split; [lia|exact I].
Qed.

(** Operations that leave reader and item alone. *)
Definition quiet {A} (m : M A) : Prop := forall s, s_rd (snd (m s)) = s_rd s /\ s_cur (snd (m s)) = s_cur s.
Lemma sp_quiet {A} c (m : M A) : quiet m -> 0 <= c -> spends c m any (fun _ => c).
Proof.
  intros Q C s I. destruct (Q s) as [Q1 Q2]. destruct (m s) as [[a|e| |] s']; cbn [snd] in *; auto; unfold bal; rewrite Q1, Q2.
  - split; [auto|]. split; [lia|exact Logic.I].
  - split; [auto|lia].
Qed.
Ltac quiet := intros s; split; reflexivity.
Lemma q_cs : quiet getCs. Proof. quiet. Qed.
Lemma q_mode x : quiet (setMode x). Proof. quiet. Qed.
Lemma q_sig x : quiet (setSig x). Proof. quiet. Qed.
Lemma q_key x : quiet (setKey x). Proof. quiet. Qed.
Definition in64 (z : Z) : Prop := - 2 ^ 63 <= z < 2 ^ 63.
Lemma sp_rest c : 0 <= c -> spends c rdRest in64 (fun _ => c).
Proof. intros C s I. unfold rdRest. split; [auto|]. split; [lia|apply wrap64_in]. Qed.
Lemma sp_len c : 0 <= c -> spends c rdLen (fun z => 0 <= z < 2 ^ 62) (fun _ => c).
Proof. intros C s [I1 I2]. unfold rdLen. split; [split; auto|]. split; [lia|]. unfold r_size, lenZ in *. lia. Qed.
Lemma sp_dump0 c : 0 <= c -> spends c (dumpRest false) (fun d => d = []) (fun _ => c).
Proof. intros C s I. unfold dumpRest. split; [auto|]. split; [lia|reflexivity]. Qed.

(** Items. *)
Lemma sp_upd c k (h : item -> item) : (forall i, exc (h i) <= exc i + k) -> spends c (upd h) any (fun _ => c - k).
Proof. intros H s I. unfold upd, bal. cbn [s_rd s_cur]. specialize (H (s_cur s)). split; [auto|]. split; [lia|exact Logic.I]. Qed.
Lemma sp_add c i : spends c (add i) any (fun _ => c - exc i).
Proof. apply sp_upd. intro j. rewrite exc_add. lia. Qed.
Lemma sp_addk c k i : exc i <= k -> spends c (add i) any (fun _ => c - k).
Proof. intro H. apply sp_upd. intro j. rewrite exc_add. lia. Qed.
Lemma sp_addo c v x : lenZ x <= 112 -> spends c (addo (flag_item v x)) any (fun _ => c - 0).
Proof.
  intro L. apply sp_upd. intro j. unfold flag_item. destruct (v =? 0)%N; cbn [add_opt]; [lia|]. rewrite exc_add. unfold it_nv. rewrite exc_leaf.
  len.
Qed.
Lemma sp_note c x : lenZ x <= 104 -> spends c (setNote x) any (fun _ => c - 0).
Proof. intro L. apply sp_upd. intro i. pose proof (exc_note x i). rewrite (over_short 104 x L) in *. lia. Qed.
Lemma sp_value c x : lenZ x <= 112 -> spends c (setValue x) any (fun _ => c - 0).
Proof. intro L. apply sp_upd. intro i. pose proof (exc_value x i). rewrite (over_short 112 x L) in *. lia. Qed.
Lemma sp_setdump c x : spends c (setDump x) any (fun _ => c - lenZ x).
Proof. apply sp_upd. intro i. pose proof (exc_dump x i). unfold over in *. pose proof (lenZ_pos x). lia. Qed.

(** Combinators. *)
Lemma sp_child {A} c it (m : M A) (P : A -> Prop) (f : A -> Z) : spends c m P f -> exc it <= 0 -> spends c (child it m) P f.
Proof.
  intros H X s I. specialize (H (mkSt (s_rd s) (s_cs s) it) I). unfold child. destruct (m _) as [[a|e| |] s']; auto; unfold bal in *; cbn [s_rd s_cur] in *.
  - destruct H as (H1 & H2 & H3). rewrite exc_add. split; [auto|]. split; [lia|auto].
  - destruct H. rewrite exc_add. split; [auto|lia].
Qed.
Lemma sp_sub {A} c it (m : M A) (P : A -> Prop) (f : A -> Z) : (forall a, P a -> 0 <= f a) -> spends c m P f -> exc it <= 0 ->
  spends c (sub_it it m) any exc.
Proof.
  intros F H X s I. specialize (H (mkSt (s_rd s) (s_cs s) it) I). unfold sub_it. destruct (m _) as [[a|e| |] s']; auto; unfold bal in *; cbn [s_rd s_cur] in *.
  - destruct H as (H1 & H2 & H3). specialize (F a H3). split; [auto|]. split; [lia|exact Logic.I].
  - destruct H. pose proof (exc_pos (s_cur s')). split; [auto|lia].
Qed.
Lemma sp_catch {A} c (m : M A) (P : A -> Prop) (f : A -> Z) : spends c m P f ->
  spends c (catchM m) (fun x => match x with Some a => P a | None => True end) (fun x => match x with Some a => f a | None => 0 end).
Proof.
  intros H s I. specialize (H s I). unfold catchM. destruct (m s) as [[a|e| |] s']; auto. destruct H. split; [auto|]. split; [lia|auto].
Qed.
Lemma sp_with {A} c r (m : M A) (P : A -> Prop) (f : A -> Z) : weak_inv r -> spends c m P f ->
  spends (c + 12 * lft r) (with_rd r m) (fun p => P (fst p) /\ weak_inv (snd p)) (fun p => f (fst p) + 12 * lft (snd p)).
Proof.
  intros W H s I. specialize (H (mkSt r (s_cs s) (s_cur s)) W). unfold with_rd. destruct (m _) as [[a|e| |] s']; auto; unfold bal in *; cbn [s_rd s_cur fst snd] in *.
  - destruct H as (H1 & H2 & H3). split; [auto|]. split; [lia|auto].
  - destruct H. pose proof (lft_pos (s_rd s')). split; [auto|lia].
Qed.
Definition owk (ro : option reader) : Prop := match ro with Some r => weak_inv r | None => True end.
Definition oleft (ro : option reader) : Z := match ro with Some r => 12 * lft r | None => 0 end.
Lemma oleft_pos ro : 0 <= oleft ro.
Proof. destruct ro as [r|]; cbn [oleft]; [pose proof (lft_pos r)|]; lia. Qed.
Lemma sp_opt {A} c ro (m : M A) (P : A -> Prop) (f : A -> Z) : owk ro -> spends c m P f ->
  spends (c + oleft ro) (opt_run ro m) (fun p => P (fst p) /\ owk (snd p)) (fun p => f (fst p) + oleft (snd p)).
Proof.
  intros W H. destruct ro as [r|]; cbn [opt_run owk oleft] in *.
  - eapply sp_bind; [apply (sp_with _ _ _ _ _ W H)|]. intros [a r'] [K1 K2]. apply sp_ret; cbn [fst snd owk oleft] in *; [auto|lia].
  - rewrite Z.add_0_r. eapply sp_bind; [exact H|]. intros a K. apply sp_ret; cbn [fst snd owk oleft]; [auto|lia].
Qed.
Lemma new_weak b : lenZ b < 2 ^ 62 -> weak_inv (r_new b).
Proof. unfold weak_inv. cbn [r_new r_buf r_off]. intro. assert (0 <= lenZ b) by (unfold lenZ; lia). lia. Qed.
Lemma new_lft b : lft (r_new b) = lenZ b.
Proof. unfold lft. cbn [r_new r_buf r_off]. unfold lenZ. lia. Qed.
Lemma cl_fills {A} b (m : M A) : lenZ b < 2 ^ 62 -> closes 0 m -> fills b m.
Proof.
  intros L H s R _. specialize (H s). rewrite R in H. specialize (H (new_weak b L)). destruct (m s) as [[a|e| |] s']; auto.
  unfold bal in H. rewrite R, new_lft in H. lia.
Qed.
Lemma sp_fills {A} b (m : M A) (P : A -> Prop) (f : A -> Z) : lenZ b < 2 ^ 62 -> spends 0 m P f -> (forall a, P a -> 0 <= f a) -> fills b m.
Proof. intros L H F. apply cl_fills; [exact L|]. exact (sp_closes 0 m P f H F). Qed.
Lemma sp_run {A} c b it (m : M A) : fills b m -> 12 * lenZ b <= c -> exc it <= 0 -> lenZ (i_name it) <= 104 ->
  spends c (run_in (r_new b) it m) any (fun p => exc (snd p) + (c - 12 * lenZ b)).
Proof.
  intros H C X N s I. specialize (H (mkSt (r_new b) (s_cs s) it) eq_refl N). unfold run_in. destruct (m _) as [[a|e| |] s']; auto; unfold bal in *; cbn [s_rd s_cur snd] in *.
  - split; [auto|]. split; [lia|exact Logic.I].
  - split; [auto|]. pose proof (lenZ_pos b). lia.
Qed.

(** The rest of the octets as a dump, as the last step. *)
Lemma dump_rest f s : weak_inv (s_rd s) -> match dumpRest f s with (ROk d, s') => s' = s /\ lenZ d <= 3 * lft (s_rd s) | _ => True end.
Proof.
  intros [I1 I2]. unfold dumpRest. destruct f; [|split; [reflexivity|pose proof (lft_pos (s_rd s)); change (@lenZ byte []) with 0; lia]].
  unfold r_dumpstring, r_rest, r_size. assert (0 <= lenZ (r_buf (s_rd s))) by apply lenZ_pos.
  rewrite (wrap64_small (lenZ (r_buf (s_rd s)) - r_off (s_rd s))) by lia.
  replace (lenZ (r_buf (s_rd s)) - (lenZ (r_buf (s_rd s)) - r_off (s_rd s))) with (r_off (s_rd s)) by lia. rewrite wrap64_small by lia.
  destruct (_ >=? _) eqn:G; [split; [reflexivity|pose proof (lft_pos (s_rd s)); change (@lenZ byte []) with 0; lia]|]. destruct (_ <? 0) eqn:Q; [exact I|].
  split; [reflexivity|]. etransitivity; [apply hexdump_len|]. unfold lft, lenZ in *. rewrite skipn_length. lia.
Qed.
Lemma cl_raw c n f : 0 <= c -> lenZ n <= 104 -> closes c (let* i := rawData n f in add i).
Proof.
  intros C N s I. unfold rawData, bind, ret. pose proof (sp_rest 0 (Z.le_refl 0) s I) as R. destruct (rdRest s) as [[z|e| |] s1] eqn:RE; auto.
  destruct R as (R1 & R2 & R3). unfold rdRest in RE. inversion RE; subst s1 z. pose proof (dump_rest f s I) as D.
  destruct (dumpRest f s) as [[d|e| |] s2]; auto. destruct D as [-> D]. cbn [add upd s_cur]. unfold add, upd. cbn [s_cur]. rewrite exc_add, exc_leaf.
  pose proof (n_bytes_len (r_rest (s_rd s)) ltac:(unfold in64 in R3; lia)). unfold bal. pose proof (lft_pos (s_rd s)). unfold over. change (@lenZ byte []) with 0. lia.
Qed.
Lemma cl_dump c f : 0 <= c -> closes c (let* d := dumpRest f in setDump d).
Proof.
  intros C s I. unfold bind. pose proof (dump_rest f s I) as D. destruct (dumpRest f s) as [[d|e| |] s2]; auto. destruct D as [-> D].
  unfold setDump, upd. cbn [s_cur]. pose proof (exc_dump d (s_cur s)). unfold bal, over in *. pose proof (lft_pos (s_rd s)). lia.
Qed.
