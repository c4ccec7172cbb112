(** * DepthGL: how deep sub-packets and packets are inside each other. *)
From Coq Require Import Strings.String Strings.Byte List NArith ZArith Bool Arith Lia ZifyBool ZifyN ZifyNat.
From Verif Require Import Base Item Reader Context Env Values Opaque Monad Pubkey S2k Subs Tags Parse.
From Verif Require Import SpecBase SpecParse BaseL ReaderL FrameL SpecSize SizePL SizeGL DepthL.
Import ListNotations.
Local Open Scope Z_scope.

(** The bound for a packet of a given body: two levels for five octets. *)
Definition rec_dp (rec : tagrec) : Prop := forall tag body cs, lenZ body < 2 ^ 62 ->
  match rec tag body cs with (ROk p, _) => 5 * dep (fst p) <= 25 + 2 * lenZ body | _ => True end.

(** With at most [L] octets left to read. *)
Definition deepL {A} (k L : Z) (m : M A) (P : A -> Prop) : Prop := forall s, weak_inv (s_rd s) -> lft (s_rd s) <= L -> dep (s_cur s) <= k ->
  let '(r, s') := m s in
  match r with
  | ROk a => weak_inv (s_rd s') /\ dep (s_cur s') <= k /\ P a
  | RErr _ => weak_inv (s_rd s') /\ dep (s_cur s') <= k
  | _ => True
  end.
Definition eats {A} (j : Z) (m : M A) : Prop := forall s, weak_inv (s_rd s) ->
  match m s with (ROk _, s') => lft (s_rd s') + j <= lft (s_rd s) | _ => True end.
Lemma dl_of {A} k L (m : M A) P : deep k m P -> deepL k L m P.
Proof. intros H s W _ D. exact (H s W D). Qed.
Lemma dl_bind {A B} k L j (m : M A) (f : A -> M B) P Q : deep k m P -> eats j m -> (forall a, P a -> deepL k (L - j) (f a) Q) -> deepL k L (bind m f) Q.
Proof.
  intros H T K s W LL D. specialize (H s W D). specialize (T s W). unfold bind. destruct (m s) as [[a|e| |] s']; auto. destruct H as (H1 & H2 & H3).
  exact (K a H3 s' H1 ltac:(lia) H2).
Qed.
Lemma dl_sub {A} k L j it (m : M A) P : dep it <= j -> deepL j L m P -> deepL k L (sub_it it m) (fun i => dep i <= j).
Proof.
  intros T H s I LL D. specialize (H (mkSt (s_rd s) (s_cs s) it) I LL T). unfold sub_it. destruct (m _) as [[a|e| |] s']; auto; cbn [s_rd s_cur] in *.
  - destruct H as (? & ? & ?). auto.
  - destruct H as (? & ?). auto.
Qed.
Lemma e_bytes n : eats 0 (rdBytes n).
Proof.
  intros s W. unfold rdBytes, on_rd. pose proof (readbytes_spends n (s_rd s) W) as H. destruct (r_readbytes n (s_rd s)) as [[d|e| |] r']; auto.
  destruct H as (_ & H & _). cbn [s_rd]. unfold lenZ in H. lia.
Qed.
Lemma e_two : eats 2 (rdBytes 2).
Proof.
  intros s W. unfold rdBytes, on_rd. pose proof (readbytes_spends 2 (s_rd s) W) as H. destruct (r_readbytes 2 (s_rd s)) as [[d|e| |] r']; auto.
  destruct H as (_ & H & _ & _ & G). specialize (G ltac:(lia)). cbn [s_rd]. lia.
Qed.
Lemma e_byte : eats 1 rdByte.
Proof.
  intros s W. unfold rdByte, on_rd, r_readbyte. pose proof (readbytes_spends 1 (s_rd s) W) as H. destruct (r_readbytes 1 (s_rd s)) as [[d|e| |] r']; auto.
  destruct H as (_ & H & _ & _ & G). specialize (G ltac:(lia)). destruct d as [|b d]; [discriminate G|]. cbn [s_rd]. lia.
Qed.
Lemma e_quiet {A} (m : M A) : quiet m -> eats 0 m.
Proof. intros Q s W. destruct (Q s) as [H _]. destruct (m s) as [[a|e| |] s']; auto. cbn [snd] in H. rewrite H. lia. Qed.
Lemma e_add i : eats 0 (add i).
Proof. intros s W. unfold add, upd. cbn [s_rd]. lia. Qed.
Lemma q_raw n f : quiet (rawData n f).
Proof. intro s. unfold rawData, bind, rdRest, ret, dumpRest. destruct f; [|split; reflexivity]. destruct (r_dumpstring _ _); split; reflexivity. Qed.

Lemma dp_rec k rec tag b d : lenZ b < 2 ^ 62 -> rec_dp rec -> 25 + 2 * lenZ b <= d -> deep k (call_rec rec tag b) (fun p => 5 * dep (fst p) <= d).
Proof.
  intros S R L s W D. unfold call_rec. specialize (R tag b (s_cs s) S). destruct (rec tag b (s_cs s)) as [[p|e| |] cs]; auto. cbn [s_rd s_cur]. split; [auto|]. split; [auto|lia].
Qed.
Lemma e_rec rec tag b : eats 0 (call_rec rec tag b).
Proof. intros s W. unfold call_rec. destruct (rec tag b (s_cs s)) as [[p|e| |] cs]; auto. cbn [s_rd]. lia. Qed.
Lemma dl_next k L E : deepL k L (next_rd E) (fun n => match n with Some (t, b) => lenZ b < 2 ^ 62 /\ lenZ b + 1 <= L | None => True end).
Proof.
  intros s W LL D. unfold next_rd.
  assert (rdr_inv (r_buf (s_rd s)) (s_rd s)) as RI by (split; [reflexivity|exact W]).
  pose proof (next_packet_rdr (e_grow E) (S (S (length (r_buf (s_rd s))))) _ (s_rd s) RI) as H.
  assert (rdr_left (s_rd s) <= S (S (length (r_buf (s_rd s)))))%nat as F. { unfold rdr_left, weak_inv, lenZ in *. lia. }
  specialize (H F). destruct (next_packet _ _ _ _) as [[[[tag b]|e]|] r'] eqn:Q0; auto.
  - destruct H as ((B & I1 & I2) & H2 & H3). cbn [s_rd s_cur]. unfold weak_inv. rewrite B.
    split; [lia|]. split; [exact D|]. unfold lft, rdr_left, weak_inv in *. rewrite B in *. unfold lenZ in *. lia.
  - destruct H as ((B & I1 & I2) & H2 & _). assert (weak_inv r') as W'. { unfold weak_inv. rewrite B. lia. }
    destruct (rerr_err e); cbn [s_rd s_cur]; auto.
Qed.
Lemma e_next E : eats 0 (next_rd E).
Proof.
  intros s W. unfold next_rd.
  assert (rdr_inv (r_buf (s_rd s)) (s_rd s)) as RI by (split; [reflexivity|exact W]).
  pose proof (next_packet_rdr (e_grow E) (S (S (length (r_buf (s_rd s))))) _ (s_rd s) RI) as H.
  assert (rdr_left (s_rd s) <= S (S (length (r_buf (s_rd s)))))%nat as F. { unfold rdr_left, weak_inv, lenZ in *. lia. }
  specialize (H F). destruct (next_packet _ _ _ _) as [[[[tag b]|e]|] r'] eqn:Q0; auto.
  - destruct H as ((B & I1 & I2) & H2 & H3). cbn [s_rd]. unfold lft, rdr_left in *. rewrite B in *. unfold lenZ in *. lia.
  - destruct H as ((B & I1 & I2) & H2 & _). destruct (rerr_err e); auto. cbn [s_rd]. unfold lft, rdr_left in *. rewrite B in *. unfold lenZ in *. lia.
Qed.
Lemma dl_bind' {A B} k L j (m : M A) (f : A -> M B) P Q : deepL k L m P -> eats j m -> (forall a, P a -> deepL k (L - j) (f a) Q) -> deepL k L (bind m f) Q.
Proof.
  intros H T K s W LL D. specialize (H s W LL D). specialize (T s W). unfold bind. destruct (m s) as [[a|e| |] s']; auto. destruct H as (H1 & H2 & H3).
  exact (K a H3 s' H1 ltac:(lia) H2).
Qed.
Lemma dl_key_loop rec E k L : rec_dp rec -> 28 + 2 * L < 5 * k + 5 -> forall fuel, deepL k L (key_loop rec E fuel) any.
Proof.
  intros R K. induction fuel as [|fuel IH]; cbn [key_loop]; [intros s W LL D; exact I|].
  eapply dl_bind'; [apply dl_next|apply e_next|]. intros [[tag b]|] G; cbv beta; [|apply dl_of, dp_ret; exact I]. destruct G as [S LB].
  replace (L - 0) with L by lia. eapply dl_bind; [apply (dp_rec k rec tag b (23 + 2 * L) S R); lia|apply e_rec|]. intros p Hp. cbv beta in *. replace (L - 0) with L by lia.
  eapply dl_bind; [apply dp_add; lia|apply e_add|]. intros ? _. replace (L - 0) with L by lia. exact IH.
Qed.

(** Sub-packets. *)
Definition holds {A} (b : bytes) (k : Z) (m : M A) : Prop := forall s, s_rd s = r_new b -> dep (s_cur s) <= k ->
  match m s with (ROk _, s') => dep (s_cur s') <= k | _ => True end.
Lemma ho_dp {A} b k (m : M A) P : lenZ b < 2 ^ 62 -> deep k m P -> holds b k m.
Proof.
  intros S H s R D. assert (weak_inv (s_rd s)) as W by (rewrite R; exact (new_weak b S)). specialize (H s W D). destruct (m s) as [[a|e| |] s']; auto. apply H.
Qed.
Lemma ho_dl {A} b k (m : M A) P : lenZ b < 2 ^ 62 -> deepL k (lenZ b) m P -> holds b k m.
Proof.
  intros S H s R D. assert (weak_inv (s_rd s)) as W by (rewrite R; exact (new_weak b S)).
  assert (lft (s_rd s) <= lenZ b) as L by (rewrite R; unfold lft, r_new, lenZ; cbn [r_buf r_off]; lia).
  specialize (H s W L D). destruct (m s) as [[a|e| |] s']; auto. apply H.
Qed.
Ltac prim2 ::= lazymatch goal with
  | |- deep _ newMPI _ => apply dp_mpi
  | |- deep _ newOID _ => apply dp_oid
  | |- deep _ (newDateTime _) _ => apply dp_dt
  | |- deep _ (newLiteralFname _) _ => apply dp_fname
  | |- deep _ newECParm _ => apply dp_ecparm
  | |- deep _ (rawData _ _) _ => apply dp_raw
  | |- deep _ (addRest _ _) _ => apply dp_addRest; lia
  | |- deep _ (parseSes _ _) _ => apply dp_ses; lia
  | |- deep _ (parseSig _ _) _ => apply dp_sig; lia
  | |- deep _ (s2k_parse _) _ => apply dp_s2k; lia
  | |- deep _ more_flags _ => apply dp_more; lia
  | |- deep _ (pub_parse _ _ _) _ => apply dp_pub_parse; lia
  | |- deep _ (sec_parse _ _ _) _ => apply dp_sec; lia
  end.
Lemma dl_sub38 rec o E k L : rec_dp rec -> 31 + 2 * L < 5 * k + 5 -> 2 <= k -> deepL k L (sub38 rec o E) any.
Proof.
  intros R K K2. unfold sub38. eapply dl_bind; [prim|exact e_byte|]. intros v _. eapply dl_bind; [prim|apply e_add|]. intros ? _.
  eapply dl_bind; [prim|apply e_quiet, q_raw|]. intros i Hi. cbv beta in Hi. destruct (_ =? 0)%N; [|apply dl_of, dp_add; one].
  eapply dl_bind; [prim|apply e_quiet, q_len|]. intros z _. eapply dl_bind' with (j := 0).
  - eapply (dl_sub k _ (k - 1)); [|apply dl_key_loop; [exact R|lia]]. rewrite (dep_leaf i Hi). lia.
  - intros s W. unfold sub_it.
    assert (forall fuel s, weak_inv (s_rd s) -> match key_loop rec E fuel s with (ROk _, s') => lft (s_rd s') <= lft (s_rd s) | _ => True end) as KL.
    { clear. induction fuel as [|fuel IH]; intros s W; cbn [key_loop]; [exact I|]. pose proof (e_next E s W) as N. pose proof (dl_next (dep (s_cur s)) (lft (s_rd s)) E s W (Z.le_refl _) (Z.le_refl _)) as NW.
      unfold bind at 1. destruct (next_rd E s) as [[[[tag b]|]|e| |] s1]; auto; [|unfold ret; lia]. destruct NW as (NW & _ & _).
      unfold bind at 1, call_rec at 1. destruct (rec tag b (s_cs s1)) as [[p|e| |] cs]; auto. unfold bind at 1, add at 1, upd at 1. cbn [s_rd s_cs s_cur].
      match goal with |- context [key_loop rec E fuel ?x] => specialize (IH x NW); destruct (key_loop rec E fuel x) as [[u|e| |] s2]; auto end. cbn [s_rd] in IH. lia. }
    specialize (KL (S (Z.to_nat z)) (mkSt (s_rd s) (s_cs s) i) W). cbn [s_rd] in KL. destruct (key_loop _ _ _ _) as [[u|e| |] s']; auto. cbn [s_rd]. lia.
  - intros i' Hi'. cbv beta in Hi'. apply dl_of, dp_add. lia.
Qed.
Lemma ho_sub rec o E tagid ty b k : rec_dp rec -> lenZ b < 2 ^ 62 -> (tagid = 2%N -> 31 + 2 * lenZ b < 5 * k + 5) -> 2 <= k -> holds b k (sub_m rec o E tagid ty).
Proof.
  intros R S KT K2. assert (forall A (m : M A), deep k m any -> holds b k m) as D by (intros A m H; exact (ho_dp b k m any S H)).
  assert (forall mk, (forall a f, dep (mk a f) = 1) -> holds b k (sub_algs mk o)) as ALG.
  { intros mk Hm. apply D. unfold sub_algs. eapply dp_bind; [prim|]. intros l _. clear -Hm K2. induction l as [|x l IH]; cbn [mapM_]; [dp|].
    eapply dp_bind; [apply dp_add; rewrite Hm; lia|]. intros ? _. exact IH. }
  assert (forall n i, dep (w_name n i) = dep i) as WN by (intros n i; apply (dep_w i n)).
  assert (holds b k (sub02 o E)) as F02.
  { apply D. unfold sub02. do 3 (eapply dp_bind; [prim|]; intros ? _; cbv beta). apply dp_put. rewrite WN. one. }
  assert (holds b k sub16) as F16.
  { apply D. unfold sub16. do 2 (eapply dp_bind; [prim|]; intros ? _; cbv beta). apply dp_put. rewrite WN. one. }
  unfold sub_m. cbv zeta.
  destruct (tagid =? 2)%N eqn:T.
  - pose proof (KT (proj1 (N.eqb_eq _ _) T)) as K.
    assert (holds b k (sub32 rec)) as F32.
    { unfold sub32. intros s Hs Hd. unfold bind, getBody, r_body, call_rec. rewrite Hs. cbn [r_new r_buf]. specialize (R 2%N b (s_cs s) S).
      destruct (rec 2%N b (s_cs s)) as [[p|e| |] cs]; auto. unfold add, upd. cbn [s_cur]. rewrite dep_add. lia. }
    assert (holds b k (sub38 rec o E)) as F38 by (exact (ho_dl b k _ any S (dl_sub38 rec o E k (lenZ b) R K K2))).
    repeat match goal with |- holds _ _ (match ?x with _ => _ end) => destruct x end;
      lazymatch goal with
      | |- holds _ _ (ret _) => apply D, dp_ret; exact I
      | |- holds _ _ (sub_algs _ _) => apply ALG; intros; apply dep_leaf; leaf
      | |- holds _ _ (sub32 _) => exact F32
      | |- holds _ _ (sub38 _ _ _) => exact F38
      | |- holds _ _ (sub02 _ _) => exact F02
      | |- holds _ _ sub16 => exact F16
      | |- _ => apply D; unfold sub03, sub04, sub05, sub07, sub09, sub12, sub20, sub23, sub25, sub27, sub29, sub30, sub31, sub37, sub_fpr, sub_bool, sub_text; cbv zeta; dp
      end.
  - repeat match goal with |- holds _ _ (match ?x with _ => _ end) => destruct x end;
      lazymatch goal with |- holds _ _ sub01 => apply D; unfold sub01; cbv zeta; dp | |- _ => apply D, dp_ret; exact I end.
Qed.
Lemma dp_sub_one rec o E tagid sp k : rec_dp rec -> lenZ (snd sp) < 2 ^ 62 -> (tagid = 2%N -> 31 + 2 * lenZ (snd sp) < 5 * k) -> 3 <= k -> deep k (sub_one rec o E tagid sp) any.
Proof.
  destruct sp as [ty b]. cbn [snd]. intros R S K K3. unfold sub_one. cbn [fst snd]. eapply dp_bind with (P := fun p => dep (snd p) <= k - 1).
  - intros s W D. unfold run_in. pose proof (ho_sub rec o E tagid ty b (k - 1) R S ltac:(intro T; specialize (K T); lia) ltac:(lia) (mkSt (r_new b) (s_cs s) (sub_item ty b (oDebug o))) eq_refl) as H.
    cbn [s_cur] in H. specialize (H ltac:(rewrite dep_leaf by reflexivity; lia)). destruct (sub_m _ _ _ _ _ _) as [[a|e| |] s']; auto.
  - intros p Hp. cbv beta in Hp. apply dp_add. lia.
Qed.
Lemma dp_area rec o E tagid n b k j : rec_dp rec -> lenZ b < 2 ^ 62 -> (tagid = 2%N -> 27 + 2 * lenZ b < 5 * j) -> 3 <= j -> deep k (sub_area rec o E tagid n b) (fun i => dep i <= j).
Proof.
  intros R S K K3. unfold sub_area, subpackets. pose proof (opaque_subpackets_shorter (length b) b) as Q.
  destruct (opaque_subpackets (length b) b) as [sps ok]. cbn [fst] in *. destruct ok; [|apply dp_fail].
  eapply (dp_sub k j); [rewrite dep_leaf by reflexivity; lia|]. instantiate (1 := any). induction sps as [|[ty d] sps IH]; cbn [mapM_]; [dp|].
  assert (lenZ d + 2 <= lenZ b) as L by (specialize (Q _ (or_introl eq_refl)); cbn [snd] in Q; unfold lenZ; clear - Q; lia).
  eapply dp_bind; [apply dp_sub_one; [exact R|cbn [snd]; lia|cbn [snd]; intro T; specialize (K T); lia|lia]|]. intros ? _. apply IH. intros x Hx. apply Q. right. exact Hx.
Qed.
(** How large an area may be with [L] octets left. *)
Definition wide (k L : Z) : Prop := forall a, a + 2 <= L -> a <= 65535 -> 32 + 2 * a < 5 * k.
Lemma dl_sig_area rec o E n k L : rec_dp rec -> wide k L -> 5 <= k -> deepL k L (sig_area rec o E n) any.
Proof.
  intros R W K. unfold sig_area. eapply dl_bind; [prim|exact e_two|]. intros z G. cbv zeta. destruct (0 <? be z)%N; [|apply dl_of, dp_ret; exact I].
  pose proof (SizeItemL.be2 z ltac:(unfold got in G; lia)) as B.
  assert (deepL k (L - 2) (rdBytes (Z.of_N (be z))) (fun d => lenZ d < 2 ^ 62 /\ lenZ d + 2 <= L /\ lenZ d <= 65535)) as RB.
  { intros s I LL D. pose proof (dp_bytes k (Z.of_N (be z)) s I D) as H. pose proof (readbytes_spends (Z.of_N (be z)) (s_rd s) I) as Q. unfold rdBytes, on_rd in *.
    destruct (r_readbytes _ _) as [[d|e| |] r']; auto. destruct H as (H1 & H2 & H3). destruct Q as (_ & Q & _). cbn [s_rd s_cur] in *. pose proof (lft_pos r').
    destruct H3 as (G1 & G2 & G3). specialize (G3 ltac:(lia)). split; [exact H1|]. split; [exact H2|]. lia. }
  eapply dl_bind'; [exact RB|apply e_bytes|]. intros d (D1 & D2 & D3). cbv beta. apply dl_of. specialize (W (lenZ d) D2 D3).
  eapply dp_bind; [apply (dp_area rec o E 2 n d k (k - 1)); [exact R|exact D1|lia|lia]|]. intros i Hi. cbv beta in Hi. apply dp_add. lia.
Qed.
Lemma wide_less k L L' : L' <= L -> wide k L -> wide k L'.
Proof. intros H W a A B. apply W; lia. Qed.
Lemma e_sig_area rec o E n : eats 0 (sig_area rec o E n).
Proof.
  intros s W. unfold sig_area, bind at 1. pose proof (e_two s W) as H. pose proof (dp_bytes (dep (s_cur s)) 2 s W (Z.le_refl _)) as HW. destruct (rdBytes 2 s) as [[z|e| |] s1]; auto.
  cbv zeta. destruct (0 <? be z)%N; [|unfold ret; lia]. unfold bind at 1. destruct HW as (HW & _). pose proof (e_bytes (Z.of_N (be z)) s1 HW) as H1.
  destruct (rdBytes _ s1) as [[d|e| |] s2]; auto. unfold bind. pose proof (sub_area_rd rec o E 2 n d s2) as Q. destruct (sub_area rec o E 2 n d s2) as [[i|e| |] s3]; auto.
  unfold add, upd. cbn [s_rd snd] in *. rewrite Q. lia.
Qed.
Lemma dl_sigV4 rec o E k L : rec_dp rec -> wide k (L - 3) -> 5 <= k -> deepL k L (sigV4 rec o E) any.
Proof.
  intros R W K. unfold sigV4. do 3 (eapply dl_bind; [prim|exact e_byte|]; intros ? _; eapply dl_bind; [prim|apply e_add|]; intros ? _).
  do 2 (eapply dl_bind'; [apply dl_sig_area; [exact R|eapply wide_less; [|exact W]; lia|exact K]|apply e_sig_area|]; intros ? _).
  apply dl_of. dp.
Qed.
Lemma dl_tag02 rec o E k L : rec_dp rec -> wide k (L - 4) -> 5 <= k -> deepL k L (tag02 rec o E) any.
Proof.
  intros R W K. unfold tag02. eapply dl_bind; [prim|exact e_byte|]. intros v _. cbv zeta. eapply dl_bind; [prim|apply e_add|]. intros ? _.
  assert (deepL k (L - 1 - 0) (sigV4 rec o E;; addRest sUnknownData (oDebug o)) any) as V4.
  { intros s I LL D. pose proof (dl_sigV4 rec o E k (L - 1 - 0) R ltac:(eapply wide_less; [|exact W]; lia) K s I LL D) as H. unfold bind.
    destruct (sigV4 rec o E s) as [[u|e| |] s']; auto. destruct H as (H1 & H2 & _). exact (dp_addRest k sUnknownData (oDebug o) ltac:(lia) s' H1 H2). }
  destruct (v_isdraft _); [exact V4|]. destruct (v_iscur _); [exact V4|]. apply dl_of. destruct (_ && _); [|dp].
  eapply dp_bind; [eapply dp_catch|].
  - unfold sigV3. instantiate (1 := any). eapply dp_bind; [prim|]. intros z _. cbv beta. eapply dp_bind with (P := any).
    + apply dp_child; [rewrite dep_leaf by reflexivity; lia|]. dp.
    + intros ? _. cbv beta. dp.
  - intros [u|] _; dp.
Qed.
Lemma ho_no b k m : lenZ b < 2 ^ 62 -> holds b k m -> holds b k (no_data m).
Proof. intros S H s Hs Hd. specialize (H s Hs Hd). unfold no_data, bind, ret. destruct (m s) as [[u|e| |] s']; auto. Qed.
Lemma dp_wv k v i : 1 + dep i <= k -> deep k (add (w_value v i)) any.
Proof. intro H. apply dp_add. rewrite (proj1 (proj2 (dep_w i v))). exact H. Qed.
Lemma dp_wn k v i : 1 + dep i <= k -> deep k (add (w_note v i)) any.
Proof. intro H. apply dp_add. rewrite (proj1 (proj2 (proj2 (dep_w i v)))). exact H. Qed.
Lemma dp_tag05 k o E : 5 <= k -> deep k (tag05 o E) any.
Proof.
  intro K. unfold tag05. eapply dp_bind; [prim|]. intros v _. cbv beta. cbv zeta. eapply dp_bind; [prim|]. intros ? _. cbv beta.
  eapply dp_bind; [apply dp_child; [rewrite dep_leaf by reflexivity; lia|apply dp_pub_parse; lia]|]. intros p _. cbv beta.
  eapply dp_bind; [apply dp_child; [rewrite dep_leaf by reflexivity; lia|apply dp_sec; lia]|]. intros ? _. cbv beta. dp.
Qed.
Lemma dp_tag08 k o E : 5 <= k -> deep k (tag08 o E) any.
Proof.
  intro K. unfold tag08. do 3 (eapply dp_bind; [prim|]; intros ? _; cbv beta). destruct (0 <? _); [|dp]. eapply dp_bind; [prim|]. intros it Hi. cbv beta in *. cbv zeta.
  destruct (_ =? 0)%N; [|destruct (_ <=? 3)%N]; [dp| |dp].
  eapply dp_bind; [prim|]. intros z _. cbv beta in *. destruct (copy_from _) as [out|[]]; [dp| |dp].
  eapply dp_bind; [apply dp_wv; one|]. intros ? _. cbv beta. dp.
Qed.
Lemma dp_tag03 k o : 5 <= k -> deep k (tag03 o) any.
Proof.
  intro K. unfold tag03. do 2 (eapply dp_bind; [prim|]; intros ? _; cbv beta). cbv zeta. eapply dp_bind; [prim|]. intros ? _. cbv beta.
  eapply dp_bind with (P := any); [dp|]. intros ? _. cbv beta. dp.
Qed.
Lemma dp_tag09 k o : 5 <= k -> deep k (tag09 o) any.
Proof.
  intro K. unfold tag09. eapply dp_bind; [prim|]. intros it Hi. cbv beta in *. eapply dp_bind; [prim|]. intros cs _. cbv beta.
  eapply dp_bind; [apply dp_wv; one|]. intros ? _. cbv beta. dp.
Qed.
Lemma dp_tag18 k o : 5 <= k -> deep k (tag18 o) any.
Proof.
  intro K. unfold tag18. eapply dp_bind; [prim|]. intros it Hi. cbv beta in *. eapply dp_bind; [prim|]. intros cs _. cbv beta.
  eapply dp_bind; [destruct (c_mode cs); [apply dp_add; one|apply dp_wn; one..]|]. intros ? _. cbv beta. dp.
Qed.
Lemma dp_tag19 k o : 5 <= k -> deep k (tag19 o) any.
Proof. intro K. unfold tag19. eapply dp_bind; [prim|]. intros it Hi. cbv beta in *. apply dp_wn. one. Qed.
Lemma dp_tag20 k o : 5 <= k -> deep k (tag20 o) any.
Proof.
  intro K. unfold tag20. do 8 (eapply dp_bind; [prim|]; intros ? _; cbv beta). eapply dp_bind; [eapply dp_catch, dp_bytes|]. intros [iv|] _; dp.
Qed.
Lemma ho_tag rec o E tag body k : rec_dp rec -> lenZ body < 2 ^ 62 -> wide k (lenZ body - 4) -> 5 <= k -> holds body k (tag_m rec o E tag).
Proof.
  intros R S W K. assert (forall A (m : M A), deep k m any -> holds body k m) as D by (intros A m H; exact (ho_dp body k m any S H)).
  assert (forall m, deep k m any -> holds body k (no_data m)) as DN by (intros m H; apply (ho_no body k m S), D, H).
  assert (holds body k (no_data (tag02 rec o E))) as F02.
  { apply (ho_no body k _ S). apply (ho_dl body k _ any S). apply dl_tag02; assumption. }
  assert (holds body k (no_data (tag17 rec o E))) as F17.
  { intros s Hs Hd. unfold no_data, tag17, bind, getBody, r_body. rewrite Hs. cbn [r_new r_buf].
    assert (weak_inv (s_rd s)) as WI by (rewrite Hs; exact (new_weak body S)).
    pose proof (dp_area rec o E 17 (str "Subpacket") body k 3 R S ltac:(discriminate) ltac:(lia) s WI Hd) as H.
    destruct (sub_area rec o E 17 (str "Subpacket") body s) as [[i|e| |] s']; auto. destruct H as (_ & H1 & H2).
    unfold add, upd, ret. cbn [s_cur]. rewrite dep_add. lia. }
  unfold tag_m.
  repeat match goal with |- holds _ _ (match ?x with _ => _ end) => destruct x end;
    lazymatch goal with
    | |- holds _ _ (no_data (ret _)) => apply DN, dp_ret; exact I
    | |- holds _ _ (no_data (tag02 _ _ _)) => exact F02
    | |- holds _ _ (no_data (tag05 _ _)) => apply DN, dp_tag05, K
    | |- holds _ _ (tag08 _ _) => apply D, dp_tag08, K
    | |- holds _ _ (no_data (tag17 _ _ _)) => exact F17
    | |- holds _ _ (no_data (tag09 _)) => apply DN, dp_tag09, K
    | |- holds _ _ (no_data (tag18 _)) => apply DN, dp_tag18, K
    | |- holds _ _ (no_data (tag19 _)) => apply DN, dp_tag19, K
    | |- holds _ _ (no_data (tag20 _)) => apply DN, dp_tag20, K
    | |- holds _ _ (no_data (tag03 _)) => apply DN, dp_tag03, K
    | |- _ => apply DN; unfold tag01, tag03, tag04, tag06, tag_raw, tag11, tag13, tag_raw; cbv zeta; dp
    end.
Qed.
Lemma wide_of n k : 25 + 2 * n < 5 * k + 5 -> wide k (n - 4).
Proof. intros H a A B. lia. Qed.
Lemma wide_most k L : 26221 <= k -> wide k L.
Proof. intros H a A B. lia. Qed.
Lemma tag_holds rec o E tag body cs k : rec_dp rec -> lenZ body < 2 ^ 62 -> wide k (lenZ body - 4) -> 5 <= k ->
  match tag_body rec o E tag body cs with (ROk p, _) => dep (fst p) <= k | _ => True end.
Proof.
  intros R S W K. unfold tag_body.
  pose proof (ho_tag rec o E tag body k R S W K (mkSt (r_new body) cs (tag_item tag body (tag_dumpflag o tag))) eq_refl) as H. cbn [s_cur] in H.
  specialize (H ltac:(rewrite dep_leaf by reflexivity; lia)). destruct (tag_m rec o E tag _) as [[d|e| |] s']; auto.
Qed.
Lemma rec_deep n o E : rec_dp (parse_tag_fuel n o E).
Proof.
  induction n as [|n IH]; intros tag body cs S; [exact I|]. cbn [parse_tag_fuel]. assert (0 <= lenZ body) as L by (unfold lenZ; lia).
  set (k := (25 + 2 * lenZ body) / 5). assert (5 * k <= 25 + 2 * lenZ body < 5 * k + 5) as K.
  { unfold k. pose proof (Z.div_mod (25 + 2 * lenZ body) 5 ltac:(lia)). pose proof (Z.mod_pos_bound (25 + 2 * lenZ body) 5 ltac:(lia)). lia. }
  clearbody k. pose proof (tag_holds _ o E tag body cs k IH S (wide_of _ _ (proj2 K)) ltac:(lia)) as H.
  destruct (tag_body _ o E tag body cs) as [[p|e| |] c]; auto. lia.
Qed.
(** The item of one packet. *)
Lemma parse_tag_deep o E tag body cs i d cs' : lenZ body < 2 ^ 62 -> parse_tag o E tag body cs = (ROk (i, d), cs') ->
  5 * dep i <= 25 + 2 * lenZ body /\ dep i <= 26221.
Proof.
  intros S H. unfold parse_tag in H. split.
  - pose proof (rec_deep (Datatypes.S (length body)) o E tag body cs S) as R. rewrite H in R. exact R.
  - cbn [parse_tag_fuel] in H. pose proof (tag_holds _ o E tag body cs 26221 (rec_deep (length body) o E) S (wide_most _ _ (Z.le_refl _)) ltac:(lia)) as R.
    rewrite H in R. exact R.
Qed.
