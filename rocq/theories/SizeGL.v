(** * SizeGL: sub-packets and packets hold a bounded amount of text for each octet, without the debug option. *)
From Coq Require Import Strings.String Strings.Byte List NArith ZArith Bool Arith Lia ZifyBool ZifyN ZifyNat.
From Verif Require Import Base Item Reader Context Env Values Opaque Monad Pubkey S2k Subs Tags Parse.
From Verif Require Import SpecBase SpecParse BaseL ReaderL FrameL SizeL SizeItemL SizePL SizeTL.
Import ListNotations.
Local Open Scope Z_scope.

(** Tags have six bits. *)
Lemma land63 n : (N.land n 63 < 64)%N.
Proof. change 63%N with (N.ones 6). rewrite N.land_ones. apply N.mod_lt. discriminate. Qed.
Lemma next_tag {S} (read : N -> S -> (bytes * option rerr) * S) grow fuel s tag b s' :
  next_packet read grow fuel s = (Some (inl (tag, b)), s') -> (tag < 64)%N.
Proof.
  unfold next_packet. destruct (readHeader read s) as [[[[t c]|e]|] s1] eqn:H; try discriminate.
  assert (t < 64)%N as T.
  { unfold readHeader in H. destruct (read_full read 1 1 [] s) as [[[[|b0 [|]]|e]|] s2]; try discriminate H. cbv zeta in H.
    destruct (_ =? 0)%N; [discriminate H|]. destruct (_ =? 0)%N.
    - assert (N.shiftr (N.land (b2n b0) 63) 2 < 64)%N as L.
      { rewrite N.shiftr_div_pow2. pose proof (land63 (b2n b0)). change (2 ^ 2)%N with 4%N. apply N.div_lt_upper_bound; lia. }
      destruct (_ =? 3)%N; [inversion H; subst; exact L|].
      destruct (readFull _ _ _) as [[[l|e]|] s3]; try discriminate H. inversion H; subst; exact L.
    - destruct (readLength _ _) as [[[[l []]|e]|] s3]; try discriminate H; inversion H; subst; apply land63. }
  destruct (read_all _ _ _ _ _ _) as [[[x|e]|] [c' s2]]; intro Q; inversion Q; subst; exact T.
Qed.

Definition rec_ok (rec : tagrec) : Prop := forall tag body cs, (tag < 64)%N -> lenZ body < 2 ^ 62 ->
  match rec tag body cs with (ROk p, _) => exc (fst p) <= 12 * lenZ body | _ => True end.
Lemma sp_rec c rec tag b : 0 <= c -> rec_ok rec -> (tag < 64)%N -> lenZ b < 2 ^ 62 ->
  spends c (call_rec rec tag b) (fun p => exc (fst p) <= 12 * lenZ b) (fun _ => c).
Proof.
  intros C R T S s W. unfold call_rec. specialize (R tag b (s_cs s) T S). destruct (rec tag b (s_cs s)) as [[p|e| |] cs]; auto; unfold bal; cbn [s_rd s_cur].
  - split; [auto|]. split; [lia|exact R].
  - split; [auto|lia].
Qed.
Lemma sp_flags l : forall c k, 0 <= c -> Z.of_N k + lenZ l < 2 ^ 63 -> spends c (flag_loop k l) any (fun _ => c).
Proof.
  induction l as [|b l IH]; intros c k C K; cbn [flag_loop].
  - apply sp_ret; [exact I|lia].
  - unfold lenZ in K. cbn [length] in K. eapply sp_bind.
    { apply sp_addo, uflag_len. lia. }
    intros ? _. cbv beta. eapply sp_post; [apply IH; unfold lenZ; lia|]. intros; split; [exact I|lia].
Qed.
Lemma sp_more c : 0 <= c -> spends c more_flags any (fun _ => c).
Proof.
  intro C. unfold more_flags. eapply sp_bind; [prim|]. intros z _. cbv beta. destruct (0 <? z); [|sp]. eapply sp_bind; [prim|]. intros l [G1 G2]. cbv beta.
  eapply sp_post; [apply sp_flags; lia|]. intros; split; [exact I|lia].
Qed.
Lemma sp_next c E : 0 <= c -> spends c (next_rd E) (fun n => match n with Some (t, b) => (t < 64)%N /\ lenZ b < 2 ^ 62 /\ 0 <= lenZ b | None => True end)
  (fun n => match n with Some (_, b) => c + 12 * lenZ b | None => c end).
Proof.
  intros C s W. unfold next_rd.
  assert (rdr_inv (r_buf (s_rd s)) (s_rd s)) as RI by (split; [reflexivity|exact W]).
  pose proof (next_packet_rdr (e_grow E) (S (S (length (r_buf (s_rd s))))) _ (s_rd s) RI) as H.
  assert (rdr_left (s_rd s) <= S (S (length (r_buf (s_rd s)))))%nat as F. { unfold rdr_left, weak_inv, lenZ in *. lia. }
  specialize (H F). destruct (next_packet _ _ _ _) as [[[[tag b]|e]|] r'] eqn:Q0; auto.
  - apply next_tag in Q0. destruct H as ((B & I1 & I2) & H2 & H3). cbn [s_rd s_cur]. unfold bal. cbn [s_rd s_cur]. unfold weak_inv. rewrite B.
    split; [lia|]. assert (lenZ b + lft r' + 1 <= lft (s_rd s)) as Q. { unfold lft, rdr_left in *. rewrite B in *. unfold lenZ in *. lia. }
    split; [lia|]. split; [exact Q0|]. unfold lft, weak_inv, lenZ in *. lia.
  - destruct H as ((B & I1 & I2) & H2 & _). assert (lft r' <= lft (s_rd s)) as Q. { unfold lft, rdr_left in *. rewrite B in *. unfold lenZ in *. lia. }
    assert (weak_inv r') as W'. { unfold weak_inv. rewrite B. lia. }
    unfold bal. destruct (rerr_err e); cbn [s_rd s_cur]; (split; [exact W'|]); try split; try exact I; lia.
Qed.
Lemma sp_key_loop rec E : rec_ok rec -> forall fuel c, 0 <= c -> spends c (key_loop rec E fuel) any (fun _ => c).
Proof.
  intro R. induction fuel as [|fuel IH]; intros c C; cbn [key_loop]; [intros s W; exact I|].
  eapply sp_bind; [apply sp_next; exact C|]. intros [[tag b]|] G; cbv beta; [|sp]. destruct G as (T & S & L).
  eapply sp_bind; [apply sp_rec; [nn|exact R|exact T|exact S]|]. intros p Hp. cbv beta in *. eapply sp_bind; [apply sp_add|]. intros ? _. cbv beta.
  eapply sp_post; [apply IH; lia|]. intros; split; [exact I|lia].
Qed.

Ltac prim2 ::= lazymatch goal with
  | |- spends _ newMPI _ _ => apply sp_mpi; nn
  | |- spends _ (newDateTime _) _ _ => apply sp_dt; nn
  | |- spends _ (newLiteralFname _) _ _ => apply sp_fname; nn
  | |- spends _ (addRest _ false) _ _ => apply sp_addRest; ready
  | |- spends _ (rawData _ false) _ _ => apply sp_raw; ready
  | |- spends _ (parseSes _ _) _ _ => apply sp_ses; [assumption|nn]
  | |- spends _ (parseSig _ _) _ _ => apply sp_sig; [assumption|nn]
  | |- spends _ (s2k_parse _) _ _ => apply sp_s2k; nn
  | |- spends _ more_flags _ _ => apply sp_more; nn
  | |- spends _ (keyTime _ _) _ _ => apply sp_keyTime; nn
  | |- spends _ (keyAlg _) _ _ => apply sp_keyAlg; nn
  | |- spends _ (pub_parse _ _ _) _ _ => apply sp_pub_parse; [assumption|nn]
  | |- spends _ (sec_parse _ _ _) _ _ => apply sp_sec; [assumption|nn]
  end.
Ltac cl := lazymatch goal with
  | |- closes _ (let* i := rawData _ _ in add i) => apply cl_raw; ready
  | |- closes _ (bind _ _) => eapply cl_bind; [prim | ]; let a := fresh "a" in let H := fresh "H" in intros a H; cbv beta in *; cl
  end.
Ltac done0 := eapply sp_closes; [sp|intros; nn].

Lemma cl_sub31 o : closes 0 (sub31 o). Proof. unfold sub31. cl. Qed.
Lemma cl_sub12 o : closes 0 (sub12 o). Proof. unfold sub12. cbv zeta. cl. Qed.
Lemma cl_sub_fpr : closes 0 sub_fpr. Proof. unfold sub_fpr. cbv zeta. cl. Qed.
Lemma cl_sub37 o : closes 0 (sub37 o). Proof. unfold sub37. cl. Qed.
Lemma cl_sub04 : closes 0 sub04.
Proof.
  unfold sub04, sub_bool. eapply cl_bind with (P := any) (f := fun _ => 0); [sp|]. intros ? _. cbv beta. apply cl_dump. lia.
Qed.
Lemma sp_sub27 : spends 0 sub27 any (fun _ => 0).
Proof.
  unfold sub27. do 10 (eapply sp_bind; [prim|]; intros ? _; cbv beta).
  eapply sp_bind with (P := any) (f := fun _ => 0); [sp|]. intros ? _. cbv beta. sp.
Qed.
Lemma sp_sub01 : spends 0 sub01 any (fun _ => 0).
Proof.
  unfold sub01. eapply sp_bind; [prim|]. intros l G. cbv beta. cbv zeta. eapply sp_bind; [prim|]. intros v _. cbv beta.
  pose proof (dec_byte v). eapply sp_bind with (P := any) (f := fun _ => 0); [sp|]. intros ? _. cbv beta. eapply sp_bind; [prim|]. intros z Z. cbv beta in *.
  eapply sp_post; [apply (sp_addk _ 0)|]. { rewrite exc_leaf. pose proof (be2 l ltac:(nn)). pose proof (n_bytes_len (z - Z.of_N (be l)) ltac:(lia)). len. }
  intros; split; [exact I|nn].
Qed.
Lemma sp_sub38 rec o E : oDebug o = false -> rec_ok rec -> spends 0 (sub38 rec o E) any (fun _ => 0).
Proof.
  intros D R. unfold sub38. rewrite D. eapply sp_bind; [prim|]. intros v _. cbv beta. pose proof (dec_byte v). eapply sp_bind; [prim|]. intros ? _. cbv beta.
  eapply sp_bind; [prim|]. intros it Hit. cbv beta in *. destruct (_ =? 0)%N.
  - eapply sp_bind; [prim|]. intros z _. cbv beta. eapply sp_bind with (P := any) (f := fun i => exc i).
    + eapply sp_post; [eapply (sp_sub _ it _ any (fun _ => 12)); [intros; lia| |exact Hit]|].
      * eapply sp_post; [apply sp_key_loop; [exact R|nn]|]. intros; split; [exact I|nn].
      * intros; split; [exact I|lia].
    + intros i _. eapply sp_post; [apply sp_add|]. intros; split; [exact I|lia].
  - eapply sp_post; [apply (sp_addk _ 0); exact Hit|]. intros; split; [exact I|nn].
Qed.
Lemma x_name n i : lenZ n <= 104 -> exc (w_name n i) <= exc i.
Proof. intro N. pose proof (exc_name n i). unfold over in *. lia. Qed.
Lemma sp_sub29 o : spends 0 (sub29 o) any (fun _ => 0).
Proof.
  unfold sub29. eapply sp_bind; [prim|]. intros b _. cbv beta. cbv zeta. eapply sp_bind; [apply sp_value; exact (Z.le_trans _ 80 112 (reason_len b) ltac:(lia))|]. intros ? _. cbv beta. sp.
Qed.
Lemma sp_sub20 o : spends 0 (sub20 o) any (fun _ => 0).
Proof.
  unfold sub20. cbv zeta. do 9 (eapply sp_bind; [prim|]; intros ? ?; cbv beta in *). eapply sp_bind; [prim|]. intros ? _. cbv beta. eapply sp_bind; [prim|].
  intros v V. cbv beta in *. eapply sp_post; [apply (sp_addk _ (11 * lenZ v))|].
  - destruct (negb _); [apply x_text; short_str|]. assert (exc (it_nd (str "Value") (dump_bytes v true)) <= 3 * lenZ v) by short. nn.
  - intros; split; [exact I|nn].
Qed.
Lemma fills_sub rec o E tagid ty b : oDebug o = false -> rec_ok rec -> lenZ b < 2 ^ 62 -> fills b (sub_m rec o E tagid ty).
Proof.
  intros D R S. assert (0 <= lenZ b) as L by (unfold lenZ; lia).
  assert (forall A (m : M A), spends 0 m any (fun _ => 0) -> fills b m) as K.
  { intros A m H. apply (sp_fills b m any _ S H). intros; lia. }
  assert (forall A (m : M A), closes 0 m -> fills b m) as KC by (intros A m H; exact (cl_fills b m S H)).
  assert (forall mk, (forall a f, exc (mk a f) <= 0) -> fills b (sub_algs mk o)) as ALG.
  { intros mk Hm s Hs _. unfold sub_algs, getBody, bind, r_body. rewrite Hs. cbn [r_new r_buf].
    assert (forall l s, match mapM_ (fun a => add (mk a (oDebug o))) l s with (ROk _, s') => exc (s_cur s') <= exc (s_cur s) | _ => True end) as ML.
    { clear -Hm. induction l as [|x l IH]; intro s; cbn [mapM_]; [unfold ret; lia|]. unfold bind at 1, add at 1, upd at 1.
      specialize (IH (mkSt (s_rd s) (s_cs s) (add_child (mk x (oDebug o)) (s_cur s)))). cbn [s_cur] in IH.
      destruct (mapM_ _ l _) as [[a|e| |] s']; auto. rewrite exc_add in IH. specialize (Hm x (oDebug o)). lia. }
    specialize (ML b s). destruct (mapM_ _ b s) as [[a|e| |] s']; auto. lia. }
  assert (forall o, fills b (sub_text o)) as TEXT.
  { intros o' s Hs N. unfold sub_text, getBody, curName, putCur, upd, bind, r_body. rewrite Hs. cbn [r_new r_buf s_cur]. pose proof (x_text (i_name (s_cur s)) b (oDebug o') N).
    pose proof (exc_pos (s_cur s)). lia. }
  assert (forall (sel : cst -> option datetime) (m : M unit), spends 0 (let* c := getCs in let* day := rdBytes 4 in m ;; ret (c, day)) (fun p => lenZ (snd p) = 4) (fun _ => 0) ->
    fills b (let* n := curName in let* c := getCs in let* day := rdBytes 4 in m ;; putCur (expire_item E n (sel c) day (oDebug o)))) as EXP.
  { intros sel m H s Hs N. specialize (H s). rewrite Hs in H. specialize (H (new_weak b S)). unfold curName, bind, getCs, ret in *. cbv beta iota in *.
    destruct (rdBytes 4 s) as [[d|e| |] s1]; auto. destruct (m s1) as [[u|e| |] s2]; auto. destruct H as (_ & _ & H). cbn [snd] in H.
    unfold putCur, upd. cbn [s_cur]. pose proof (x_expire E (i_name (s_cur s)) (sel (s_cs s)) d (oDebug o) N ltac:(lia)). pose proof (exc_pos (s_cur s)). lia. }
  assert (forall m : M unit, quiet m -> spends 0 (let* c := getCs in let* day := rdBytes 4 in m ;; ret (c, day)) (fun p => lenZ (snd p) = 4) (fun _ => 0)) as DAY.
  { intros m Q. do 2 (eapply sp_bind; [prim|]; intros ? ?; cbv beta in *). eapply sp_bind; [apply (sp_quiet _ _ Q); nn|]. intros ? _. cbv beta. apply sp_ret; cbn [snd]; nn. }
  assert (fills b (sub02 o E)) as F02.
  { intros s Hs N. pose proof (sp_dt 0 (oUTC o) (Z.le_refl 0) s) as H. rewrite Hs in H. specialize (H (new_weak b S)).
    unfold sub02, curName, bind, setSig, putCur, upd. destruct (newDateTime (oUTC o) s) as [[d|e| |] s1]; auto. destruct H as (_ & _ & H). cbn [s_cur].
    pose proof (x_name (i_name (s_cur s)) (sigtime_item E d (oDebug o)) N). pose proof (x_sigtime E d (oDebug o) H). pose proof (exc_pos (s_cur s)). lia. }
  assert (fills b sub16) as F16.
  { intros s Hs N. unfold sub16, curName, bind, putCur, upd. destruct (rdBytes 8 s) as [[d|e| |] s1]; auto. cbn [s_cur].
    pose proof (x_name (i_name (s_cur s)) (keyid_item d) N). pose proof (x_keyid d). pose proof (exc_pos (s_cur s)). lia. }
  assert (fills b (sub32 rec)) as F32.
  { unfold sub32. intros s Hs _. unfold bind, getBody, r_body, call_rec. rewrite Hs. cbn [r_new r_buf]. specialize (R 2%N b (s_cs s) ltac:(lia) S).
    destruct (rec 2%N b (s_cs s)) as [[p|e| |] cs]; auto. unfold add, upd. cbn [s_cur]. rewrite exc_add. lia. }
  unfold sub_m. cbv zeta.
  destruct (tagid =? 2)%N.
  - repeat match goal with |- fills _ (match ?x with _ => _ end) => destruct x end;
      lazymatch goal with
      | |- fills _ (ret _) => apply K, sp_ret; [exact I|lia]
      | |- fills _ (sub_algs sym_item _) => apply ALG, x_sym
      | |- fills _ (sub_algs hash_item _) => apply ALG, x_hash
      | |- fills _ (sub_algs comp_item _) => apply ALG, x_comp
      | |- fills _ (sub_algs aead_item _) => apply ALG, x_aead
      | |- fills _ (sub_text _) => apply TEXT
      | |- fills _ (sub31 _) => apply KC, cl_sub31
      | |- fills _ sub27 => apply K, sp_sub27
      | |- fills _ sub_fpr => apply KC, cl_sub_fpr
      | |- fills _ (sub37 _) => apply KC, cl_sub37
      | |- fills _ (sub38 _ _ _) => apply K, sp_sub38; [exact D|exact R]
      | |- fills _ (sub12 _) => apply KC, cl_sub12
      | |- fills _ sub04 => apply KC, cl_sub04
      | |- fills _ (sub29 _) => apply K, sp_sub29
      | |- fills _ (sub20 _) => apply K, sp_sub20
      | |- fills _ (sub32 _) => exact F32
      | |- fills _ (sub02 _ _) => exact F02
      | |- fills _ (sub03 _ _) => apply EXP, DAY, q_sig
      | |- fills _ (sub09 _ _) => apply EXP, DAY, q_key
      | |- fills _ sub16 => exact F16
      | |- _ => apply K; unfold sub05, sub07, sub23, sub25, sub30, sub_bool; sp
      end.
  - repeat match goal with |- fills _ (match ?x with _ => _ end) => destruct x end;
      lazymatch goal with |- fills _ sub01 => apply K, sp_sub01 | |- _ => apply K, sp_ret; [exact I|lia] end.
Qed.

Lemma sp_sub_one c rec o E tagid sp : oDebug o = false -> rec_ok rec -> lenZ (snd sp) < 2 ^ 62 -> 12 * lenZ (snd sp) <= c ->
  spends c (sub_one rec o E tagid sp) any (fun _ => c - 12 * lenZ (snd sp)).
Proof.
  destruct sp as [ty b]. unfold sub_one. cbn [fst snd]. intros D R S C. assert (0 <= lenZ b) by apply lenZ_pos. rewrite D.
  eapply sp_bind; [apply sp_run; [exact (fills_sub rec o E tagid ty b D R S)|exact C|exact (x_sub _ _ S)|]|].
  - exact (Z.le_trans _ 80 104 (sub_len ty) ltac:(lia)).
  - intros [u i] _. cbv beta. cbn [snd]. eapply sp_post; [apply sp_add|]. intros; cbv beta. split; [exact I|lia].
Qed.
Definition area_sum (l : list subpkt) : Z := fold_right (fun sp n => 12 * lenZ (snd sp) + n) 0 l.
Lemma area_sum_cons sp l : area_sum (sp :: l) = 12 * lenZ (snd sp) + area_sum l.
Proof. reflexivity. Qed.
Lemma area_sum_pos l : 0 <= area_sum l.
Proof. induction l as [|sp l IH]; cbn [area_sum fold_right]; [lia|]. fold (area_sum l). unfold lenZ. lia. Qed.
Lemma sp_sub_all rec o E tagid l : oDebug o = false -> rec_ok rec -> Forall (fun sp => lenZ (snd sp) < 2 ^ 62) l -> forall c, area_sum l <= c ->
  spends c (mapM_ (sub_one rec o E tagid) l) any (fun _ => c - area_sum l).
Proof.
  intros D R. induction l as [|[ty b] l IH]; intros F c C; cbn [mapM_]; [apply sp_ret; [exact I|cbn [area_sum fold_right]; lia]|]. rewrite area_sum_cons in *.
  pose proof (area_sum_pos l). inversion F; subst. cbn [snd] in *. pose proof (lenZ_pos b). eapply sp_bind; [apply sp_sub_one; [exact D|exact R|assumption|cbn [snd]; lia]|]. intros ? _. cbv beta. cbn [snd].
  eapply sp_post; [apply IH; [assumption|lia]|]. intros; split; [exact I|lia].
Qed.
Lemma area_fits fuel : forall l, area_sum (fst (opaque_subpackets fuel l)) <= 12 * lenZ l.
Proof.
  induction fuel as [|fuel IH]; intros l; destruct l as [|b l]; cbn [opaque_subpackets fst]; try (unfold lenZ; cbn [area_sum fold_right length]; lia).
  destruct (next_subpacket (b :: l)) as [[sp rest]|] eqn:N; [|unfold lenZ; cbn [fst area_sum fold_right length]; lia].
  apply next_subpacket_shorter in N. specialize (IH rest). destruct (opaque_subpackets fuel rest) as [r ok]. cbn [fst] in *. rewrite area_sum_cons.
  unfold lenZ in *. cbn [length] in *. lia.
Qed.
Lemma sp_area c rec o E tagid n b : oDebug o = false -> rec_ok rec -> lenZ n <= 104 -> lenZ b < 2 ^ 62 -> 12 * lenZ b <= c ->
  spends c (sub_area rec o E tagid n b) any (fun i => exc i + (c - 12 * lenZ b)).
Proof.
  intros D R NL S C. unfold sub_area, subpackets. assert (0 <= lenZ b) by (unfold lenZ; lia).
  pose proof (area_fits (length b) b) as A. pose proof (opaque_subpackets_shorter (length b) b) as Q.
  destruct (opaque_subpackets (length b) b) as [sps ok]. cbn [fst] in *. destruct ok; [|apply sp_fail; lia].
  assert (Forall (fun sp => lenZ (snd sp) < 2 ^ 62) sps) as F. { apply Forall_forall. intros [ty d] HI. specialize (Q _ HI). cbn [snd] in *. unfold lenZ in *. lia. }
  pose proof (area_sum_pos sps).
  eapply sp_post; [apply (sp_frame (12 * lenZ b)); [|lia]|].
  - eapply (sp_sub (12 * lenZ b) (Item n _ _ _ [])); [|apply (sp_sub_all rec o E tagid sps D R F); exact A|].
    + intros; cbv beta; lia.
    + rewrite exc_leaf, D. cbn [dump_bytes]. len.
  - intros i _. cbv beta. split; [exact I|lia].
Qed.

(** Packets. *)
Lemma sp_sig_area c rec o E n : oDebug o = false -> rec_ok rec -> lenZ n <= 104 -> 0 <= c -> spends c (sig_area rec o E n) any (fun _ => c).
Proof.
  intros D R NL C. unfold sig_area. eapply sp_bind; [prim|]. intros z G. cbv beta. cbv zeta. destruct (0 <? be z)%N; [|sp].
  eapply sp_bind; [prim|]. intros b Gb. cbv beta. eapply sp_bind; [apply sp_area; [exact D|exact R|exact NL|apply Gb|nn]|].
  intros i _. cbv beta. eapply sp_post; [apply sp_add|]. intros; split; [exact I|nn].
Qed.
Lemma sp_sigV4 c rec o E : oDebug o = false -> rec_ok rec -> 0 <= c -> spends c (sigV4 rec o E) any (fun _ => c).
Proof.
  intros D R C. unfold sigV4. do 6 (eapply sp_bind; [prim|]; intros ? _; cbv beta).
  do 2 (eapply sp_bind; [apply sp_sig_area; [exact D|exact R|short_str|nn]|]; intros ? _; cbv beta). sp.
Qed.
Lemma sp_sigV3 c o E : oDebug o = false -> 0 <= c -> spends c (sigV3 o E) any (fun _ => c).
Proof.
  intros D C. unfold sigV3. eapply sp_bind; [prim|]. intros z _. cbv beta. pose proof (b2n_lt z). eapply sp_bind with (P := any) (f := fun _ => c).
  - apply sp_child; [|rewrite exc_leaf; len]. destruct (negb _); [|sp].
    eapply sp_bind; [apply sp_value; vm_compute; discriminate|]. intros ? _. cbv beta. eapply sp_bind; [prim|]. intros d Gd. cbv beta. rewrite D. cbn [dump_bytes].
    eapply sp_post; [apply sp_setdump|]. intros; split; [exact I|]. change (@lenZ byte []) with 0. nn.
  - intros ? _. cbv beta. sp.
Qed.
Lemma x_value x i : lenZ x <= 112 -> exc (w_value x i) <= exc i.
Proof. intro N. pose proof (exc_value x i). unfold over in *. lia. Qed.
Lemma x_note x i : lenZ x <= 104 -> exc (w_note x i) <= exc i.
Proof. intro N. pose proof (exc_note x i). unfold over in *. lia. Qed.
Lemma sp_tag01 o : oDebug o = false -> spends 0 (tag01 o) any (fun _ => 0).
Proof. intro D. unfold tag01. rewrite ?D. sp. Qed.
Lemma sp_tag02 rec o E : oDebug o = false -> rec_ok rec -> spends 0 (tag02 rec o E) any (fun _ => 0).
Proof.
  intros D R. unfold tag02. eapply sp_bind; [prim|]. intros v _. cbv beta. cbv zeta. eapply sp_bind; [prim|]. intros ? _. cbv beta. rewrite D.
  destruct (v_isdraft _); [|destruct (v_iscur _); [|destruct (_ && _); [|sp]]].
  - eapply sp_bind; [apply sp_sigV4; [exact D|exact R|nn]|]. intros ? _. cbv beta. sp.
  - eapply sp_bind; [apply sp_sigV4; [exact D|exact R|nn]|]. intros ? _. cbv beta. sp.
  - eapply sp_bind; [apply sp_catch, sp_sigV3; [exact D|nn]|]. intros [u|] _; cbv beta; sp.
Qed.
Lemma sp_tag03 o : oDebug o = false -> spends 0 (tag03 o) any (fun _ => 0).
Proof.
  intro D. unfold tag03. rewrite ?D. do 2 (eapply sp_bind; [prim|]; intros ? _; cbv beta). cbv zeta. eapply sp_bind; [prim|]. intros ? _. cbv beta.
  eapply sp_bind with (P := any) (f := fun _ => 0); [sp|]. intros ? _. cbv beta. sp.
Qed.
Lemma sp_tag04 o : oDebug o = false -> spends 0 (tag04 o) any (fun _ => 0).
Proof. intro D. unfold tag04. rewrite ?D. sp. Qed.
Lemma sp_tag05 o E : oDebug o = false -> spends 0 (tag05 o E) any (fun _ => 0).
Proof.
  intro D. unfold tag05. eapply sp_bind; [prim|]. intros v _. cbv beta. cbv zeta. eapply sp_bind; [prim|]. intros ? _. cbv beta.
  eapply sp_bind; [apply sp_child; [apply sp_pub_parse; [exact D|nn]|rewrite exc_leaf; len]|]. intros p _. cbv beta.
  eapply sp_bind; [apply sp_child; [apply sp_sec; [exact D|nn]|rewrite exc_leaf; len]|]. intros ? _. cbv beta. rewrite D. sp.
Qed.
Lemma sp_tag06 o E : oDebug o = false -> spends 0 (tag06 o E) any (fun _ => 0).
Proof. intro D. unfold tag06. cbv zeta. rewrite ?D. sp. Qed.
Lemma sp_tag08 o E : oDebug o = false -> spends 0 (tag08 o E) any (fun _ => 0).
Proof.
  intro D. unfold tag08. rewrite D. do 3 (eapply sp_bind; [prim|]; intros ? _; cbv beta). destruct (0 <? _); [|sp]. eapply sp_bind; [prim|]. intros it Hi. cbv beta in *. cbv zeta.
  assert (forall c, spends c (add it) any (fun _ => c - 0)) as ADD by (intro c; apply sp_addk, Hi).
  destruct (_ =? 0)%N; [|destruct (_ <=? 3)%N].
  - eapply sp_bind; [prim|]. intros z Gz. cbv beta in *. eapply sp_bind; [apply ADD|]. intros ? _. cbv beta. sp.
  - eapply sp_bind; [prim|]. intros z Gz. cbv beta in *. destruct (copy_from _) as [out|[]].
    + eapply sp_bind; [apply ADD|]. intros ? _. cbv beta. sp.
    + eapply sp_bind; [apply (sp_addk _ 0); etransitivity; [apply x_value; vm_compute; discriminate|exact Hi]|]. intros ? _. cbv beta. sp.
    + eapply sp_bind; [apply ADD|]. intros ? _. cbv beta. apply sp_fail. nn.
  - eapply sp_bind; [apply ADD|]. intros ? _. cbv beta. sp.
Qed.
Lemma sp_tag09 o : oDebug o = false -> spends 0 (tag09 o) any (fun _ => 0).
Proof.
  intro D. unfold tag09. rewrite D. eapply sp_bind; [prim|]. intros it Hi. cbv beta in *. eapply sp_bind; [prim|]. intros cs _. cbv beta.
  eapply sp_bind; [apply (sp_addk _ 0); etransitivity; [apply x_value; destruct (c_mode cs); vm_compute; discriminate|exact Hi]|]. intros ? _. cbv beta. sp.
Qed.
Lemma cl_tag11 o E : closes 0 (tag11 o E).
Proof. unfold tag11, tag_raw. cl. Qed.
Lemma sp_tag18 o : oDebug o = false -> spends 0 (tag18 o) any (fun _ => 0).
Proof.
  intro D. unfold tag18. rewrite D. eapply sp_bind; [prim|]. intros it Hi. cbv beta in *. eapply sp_bind; [prim|]. intros cs _. cbv beta.
  eapply sp_bind; [apply (sp_addk _ 0); destruct (c_mode cs); [exact Hi|etransitivity; [apply x_note; vm_compute; discriminate|exact Hi]..]|]. intros ? _. cbv beta. sp.
Qed.
Lemma sp_tag19 o : oDebug o = false -> spends 0 (tag19 o) any (fun _ => 0).
Proof.
  intro D. unfold tag19. rewrite D. eapply sp_bind; [prim|]. intros it Hi. cbv beta in *.
  eapply sp_post; [apply (sp_addk _ 0); etransitivity; [apply x_note; vm_compute; discriminate|exact Hi]|]. intros; split; [exact I|nn].
Qed.
Lemma sp_tag20 o : oDebug o = false -> spends 0 (tag20 o) any (fun _ => 0).
Proof.
  intro D. unfold tag20. rewrite ?D. do 8 (eapply sp_bind; [prim|]; intros ? _; cbv beta). eapply sp_bind; [apply sp_catch, sp_rdBytes; nn|].
  intros [iv|] G; cbv beta in *; [|sp]. eapply sp_bind; [apply (sp_addk _ (3 * lenZ iv)); short|]. intros ? _. cbv beta. sp.
Qed.

Lemma sub_all_rd rec o E tagid l : forall s, s_rd (snd (mapM_ (sub_one rec o E tagid) l s)) = s_rd s.
Proof.
  induction l as [|sp l IH]; intro s; cbn [mapM_]; [reflexivity|]. unfold bind at 1, sub_one at 1, bind at 1, run_in.
  destruct (sub_m rec o E tagid (fst sp) _) as [[a|e| |] s']; cbn [snd s_rd add upd]; [rewrite IH|..]; reflexivity.
Qed.
Lemma sub_area_rd rec o E tagid n b s : s_rd (snd (sub_area rec o E tagid n b s)) = s_rd s.
Proof.
  unfold sub_area. destruct (subpackets b) as [sps []]; [|reflexivity]. unfold sub_it.
  pose proof (sub_all_rd rec o E tagid sps (mkSt (s_rd s) (s_cs s) (Item n [] (dump_bytes b (oDebug o)) (n_bytes (lenZ b)) []))) as H.
  destruct (mapM_ _ _ _) as [r s']. exact H.
Qed.
Lemma tag_fills rec o E tag body : oDebug o = false -> rec_ok rec -> lenZ body < 2 ^ 62 -> fills body (tag_m rec o E tag).
Proof.
  intros D R S. assert (0 <= lenZ body) as L by (unfold lenZ; lia).
  assert (forall A (m : M A), spends 0 m any (fun _ => 0) -> fills body m) as K.
  { intros A m H. apply (sp_fills body m any _ S H). intros; lia. }
  assert (forall (m : M unit), spends 0 m any (fun _ => 0) -> fills body (no_data m)) as KN.
  { intros m H. apply K. unfold no_data. eapply sp_bind; [exact H|]. intros ? _. apply sp_ret; [exact I|cbv beta; lia]. }
  assert (forall (m : M unit), closes 0 m -> fills body (no_data m)) as KC.
  { intros m H. apply (cl_fills body _ S). apply cl_then, H. }
  assert (fills body (no_data (tag13 o))) as F13.
  { intros s Hs _. unfold no_data, tag13, bind, getBody, r_body, ret, add, upd. rewrite Hs. cbn [r_new r_buf s_cur]. rewrite exc_add.
    pose proof (x_text (str "User ID") body (oDebug o) ltac:(vm_compute; discriminate)). lia. }
  assert (fills body (no_data (tag17 rec o E))) as F17.
  { intros s Hs _. unfold no_data, tag17, bind, getBody, r_body. rewrite Hs. cbn [r_new r_buf].
    pose proof (sp_area (12 * lenZ body) rec o E 17 (str "Subpacket") body D R ltac:(vm_compute; discriminate) S ltac:(lia)) as H.
    specialize (H s). rewrite Hs in H. specialize (H (new_weak body S)). pose proof (sub_area_rd rec o E 17 (str "Subpacket") body s) as Q.
    destruct (sub_area rec o E 17 (str "Subpacket") body s) as [[i|e| |] s']; auto. destruct H as (_ & H & _). cbn [snd] in Q.
    unfold add, upd, ret. cbn [s_cur]. rewrite exc_add. unfold bal in H. rewrite Q, Hs in H. lia. }
  unfold tag_m.
  repeat match goal with |- fills _ (match ?x with _ => _ end) => destruct x end;
    lazymatch goal with
    | |- fills _ (no_data (ret _)) => apply KN, sp_ret; [exact I|lia]
    | |- fills _ (no_data (tag01 _)) => apply KN, sp_tag01, D
    | |- fills _ (no_data (tag02 _ _ _)) => apply KN, sp_tag02; [exact D|exact R]
    | |- fills _ (no_data (tag03 _)) => apply KN, sp_tag03, D
    | |- fills _ (no_data (tag04 _)) => apply KN, sp_tag04, D
    | |- fills _ (no_data (tag05 _ _)) => apply KN, sp_tag05, D
    | |- fills _ (no_data (tag06 _ _)) => apply KN, sp_tag06, D
    | |- fills _ (tag08 _ _) => apply (K _ _ (sp_tag08 o E D))
    | |- fills _ (no_data (tag09 _)) => apply KN, sp_tag09, D
    | |- fills _ (no_data (tag_raw _ _)) => apply KC, cl_raw; [lia|short_str]
    | |- fills _ (no_data (tag11 _ _)) => apply KC, cl_tag11
    | |- fills _ (no_data (tag13 _)) => exact F13
    | |- fills _ (no_data (tag18 _)) => apply KN, sp_tag18, D
    | |- fills _ (no_data (tag19 _)) => apply KN, sp_tag19, D
    | |- fills _ (no_data (tag20 _)) => apply KN, sp_tag20, D
    | |- fills _ (no_data (tag17 _ _ _)) => exact F17
    end.
Qed.
Lemma private_idle rec o E tag s : (60 <= tag)%N -> (tag < 64)%N -> tag_m rec o E tag s = (ROk None, s).
Proof. intros T1 T2. assert (tag = 60 \/ tag = 61 \/ tag = 62 \/ tag = 63)%N as [->|[->|[->| ->]]] by lia; reflexivity. Qed.
Lemma rec_all n o E : oDebug o = false -> rec_ok (parse_tag_fuel n o E).
Proof.
  intro D. induction n as [|n IH]; intros tag body cs T S; [exact I|]. cbn [parse_tag_fuel]. unfold tag_body. pose proof (lenZ_pos body) as L.
  pose proof (x_tag tag body (tag_dumpflag o tag) T S) as X. destruct (tag_dumpflag o tag) eqn:F.
  - unfold tag_dumpflag in F. rewrite D in F. destruct ((60 <=? tag)%N && (tag <=? 63)%N) eqn:G; [|discriminate F].
    rewrite private_idle by lia. cbn [fst s_cur]. lia.
  - pose proof (tag_fills _ o E tag body D IH S (mkSt (r_new body) cs (tag_item tag body false)) eq_refl) as H.
    assert (lenZ (i_name (s_cur (mkSt (r_new body) cs (tag_item tag body false)))) <= 104) as N by exact (Z.le_trans _ 64 104 (tag_len tag T) ltac:(lia)).
    specialize (H N). destruct (tag_m _ o E tag _) as [[d|e| |] s']; auto. cbn [fst]. cbn [s_cur] in H. lia.
Qed.

(** What the item of a packet holds beyond 352 octets an item: at most twelve octets for each octet of the body. *)
Lemma parse_tag_size o E tag body cs i d cs' : oDebug o = false -> (tag < 64)%N -> lenZ body < 2 ^ 62 ->
  parse_tag o E tag body cs = (ROk (i, d), cs') -> exc i <= 12 * lenZ body.
Proof. intros D T SB H. pose proof (rec_all (S (length body)) o E D tag body cs T SB) as R. unfold parse_tag in H. rewrite H in R. exact R. Qed.
