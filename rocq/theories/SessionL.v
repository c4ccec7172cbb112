(** * SessionL: what reading leaves of a reader; Parse from any state of a parser (C60). *)
From Coq Require Import Strings.Byte List NArith ZArith Bool Arith Lia ZifyBool ZifyN ZifyNat.
From Verif Require Import Base Item Context Env Opaque Tags Parse Session SpecBase SpecFrame BaseL FrameL FramingL PropFrame.
Import ListNotations.
Local Open Scope N_scope.

(** ** The readers *)

Section Left.
  Variable ok : bool.
  Notation inv := (c_inv ok).
  Notation spent s := (c_data s = []).

  Lemma chunk_any n s : inv s -> let '((b, e), s') := chunk_read n s in inv s' /\ (e <> None -> spent s' /\ e = Some (c_fin ok) /\ b = []).
  Proof.
    intros [P K]. unfold chunk_read, chunk_end. destruct (k_pieces s) as [|p t] eqn:Q.
    - split; [split; assumption|]. unfold c_data. rewrite Q, K. destruct (n =? 0); [congruence|]. intros _. unfold c_fin. destruct ok; auto.
    - split; [|congruence]. unfold pieces_ok in P. rewrite Q in P. pose proof (Forall_inv_tail P) as P2.
      split; [|exact K]. unfold pieces_ok. cbn [k_pieces]. destruct (skipn (N.to_nat n) p) eqn:S; [exact P2 | constructor; [discriminate | exact P2]].
  Qed.

  Lemma read_full_any fuel : forall n acc s, inv s ->
    let '(r, s') := read_full chunk_read fuel n acc s in inv s' /\ (forall e, r = Some (inr e) -> spent s' /\ (e = c_fin ok \/ e = RUnexp)).
  Proof.
    induction fuel as [|fuel IH]; intros n acc s I; cbn [read_full]; (destruct (n <=? lenN acc); [split; [exact I | discriminate]|]).
    - split; [exact I | discriminate].
    - pose proof (chunk_any (n - lenN acc) s I) as C. destruct (chunk_read (n - lenN acc) s) as [[b [x|]] s'].
      + destruct C as [I' C]. destruct (C ltac:(discriminate)) as (S' & [= ->] & ->).
        destruct (n <=? lenN (acc ++ [])); [split; [exact I' | discriminate]|].
        destruct (c_fin ok) eqn:F, (acc ++ []); (split; [exact I'|]); intros e [= <-]; auto.
      + apply IH, C.
  Qed.

  Lemma readFull_any n s : inv s ->
    let '(r, s') := readFull chunk_read n s in inv s' /\ (forall e, r = Some (inr e) -> spent s' /\ (e = RIo \/ e = RUnexp)).
  Proof.
    intro I. unfold readFull. pose proof (read_full_any (N.to_nat n) n [] s I) as H. destruct (read_full _ _ _ _ s) as [[[l|x]|] s'].
    - split; [apply H | discriminate].
    - destruct H as [I' H]. destruct (H x eq_refl) as [S' D]. destruct x; (split; [exact I'|]); intros e [= <-]; (split; [exact S'|]); auto;
        unfold c_fin in D; destruct ok, D; auto; discriminate.
    - split; [apply H | discriminate].
  Qed.

  Ltac full := match goal with |- context [readFull chunk_read ?n ?s] =>
    let H := fresh "H" in pose proof (readFull_any n s ltac:(assumption)) as H; destruct (readFull chunk_read n s) as [[[?|?]|] ?]; destruct H as [? H] end.

  Lemma readLength_any s : inv s ->
    let '(r, s') := readLength chunk_read s in inv s' /\ (forall e, r = Some (inr e) -> spent s' /\ (e = RIo \/ e = RUnexp)).
  Proof.
    intro I. unfold readLength. full; try (split; [assumption | try discriminate]); try (intros e [= <-]; auto).
    destruct b as [|b [|? ?]]; try (split; [assumption | discriminate]). cbv zeta.
    destruct (b2n b <? 192); [split; [assumption | discriminate]|].
    destruct (b2n b <? 224).
    { full; try (split; [assumption | try discriminate]); try (intros e [= <-]; auto). destruct b0 as [|? [|? ?]]; split; try assumption; discriminate. }
    destruct (b2n b <? 255); [split; [assumption | discriminate]|].
    full; split; try assumption; try discriminate; intros e [= <-]; auto.
  Qed.

  Lemma readHeader_any s : inv s ->
    let '(r, s') := readHeader chunk_read s in inv s' /\
      (forall e, r = Some (inr e) -> e = RStruct \/ (spent s' /\ (e = c_fin ok \/ e = RIo \/ e = RUnexp))).
  Proof.
    intro I. unfold readHeader. pose proof (read_full_any 1 1 [] s I) as H. destruct (read_full _ _ _ _ s) as [[[l|x]|] s1]; destruct H as [I1 H].
    2: split; [exact I1|]; intros e [= <-]; right; destruct (H x eq_refl) as (? & [->| ->]); auto.
    2: split; [exact I1 | discriminate].
    destruct l as [|b [|? ?]]; try (split; [exact I1 | discriminate]). cbv zeta.
    destruct (N.land (b2n b) 128 =? 0); [split; [exact I1|]; intros e [= <-]; auto|].
    destruct (N.land (b2n b) 64 =? 0).
    - destruct (N.land (b2n b) 3 =? 3); [split; [exact I1 | discriminate]|].
      full; split; try assumption; try discriminate. intros e [= <-]. right. destruct (H0 _ eq_refl) as (? & [->| ->]); auto.
    - pose proof (readLength_any s1 I1) as L. destruct (readLength chunk_read s1) as [[[[len []]|x]|] s2]; destruct L as [I2 L];
        split; try assumption; try discriminate.
      intros e [= <-]. right. destruct (L x eq_refl) as (? & [->| ->]); auto.
  Qed.

  Lemma cread_go_any n rem part s : inv s ->
    let '((b, r), (c', s')) := (let want := N.min n rem in let '((b, e), s') := chunk_read want s in
      let e' := match e with Some RBareEof => if lenN b <? want then Some RUnexp else e | _ => e end in
      ((b, @Some (option rerr + rerr) (inl e')), (CPart (rem - lenN b) part, s'))) in
    inv s' /\ (forall e, r = Some (inl (Some e)) -> e <> RBareEof -> spent s' /\ (e = RIo \/ e = RUnexp)) /\ (forall e, r <> Some (inr e)).
  Proof.
    intro I. cbv zeta. pose proof (chunk_any (N.min n rem) s I) as C. destruct (chunk_read (N.min n rem) s) as [[b e] s'].
    destruct C as [I' C]. split; [exact I'|]. split; [|intros; discriminate].
    intros x X N. destruct e as [y|]; [|discriminate X]. destruct (C ltac:(discriminate)) as (S & [= ->] & ->). split; [exact S|].
    unfold c_fin in X. destruct ok; [|injection X as <-; auto]. destruct (lenN [] <? N.min n rem); injection X as <-; auto. congruence.
  Qed.

  Lemma cread_any n c s : inv s ->
    let '((b, r), (c', s')) := cread chunk_read n (c, s) in
    inv s' /\ (forall e, r = Some (inl (Some e)) -> e <> RBareEof -> spent s' /\ (e = RIo \/ e = RUnexp)) /\ (forall e, r <> Some (inr e)).
  Proof.
    intro I. unfold cread. destruct c as [|k|rem part].
    - pose proof (chunk_any n s I) as C. destruct (chunk_read n s) as [[b e] s']. destruct C as [I' C]. split; [exact I'|]. split; [|intros; discriminate].
      intros x X N. destruct e as [y|]; [|discriminate X]. destruct (C ltac:(discriminate)) as (S & [= ->] & ->). split; [exact S|].
      unfold c_fin in X. destruct ok; injection X as <-; auto. congruence.
    - destruct (k =? 0); [split; [exact I|]; split; [congruence | intros; discriminate]|].
      pose proof (chunk_any (N.min n k) s I) as C. destruct (chunk_read (N.min n k) s) as [[b e] s']. destruct C as [I' C]. split; [exact I'|]. split; [|intros; discriminate].
      intros x X N. destruct e as [y|]; [|discriminate X]. destruct (C ltac:(discriminate)) as (S & [= ->] & ->). split; [exact S|].
      unfold c_fin in X. destruct ok; [|injection X as <-; auto]. destruct (0 <? k - lenN []); injection X as <-; auto. congruence.
    - destruct (rem =? 0).
      + destruct part; [|split; [exact I|]; split; [congruence | intros; discriminate]].
        pose proof (readLength_any s I) as L. destruct (readLength chunk_read s) as [[[[len part']|x]|] s1]; destruct L as [I1 L].
        * destruct (len =? 0); [split; [exact I1|]; split; [congruence | intros; discriminate]|]. exact (cread_go_any n len part' s1 I1).
        * split; [exact I1|]. split; [|intros; discriminate]. intros e [= <-] _. exact (L x eq_refl).
        * split; [exact I1|]. split; intros; discriminate.
      + exact (cread_go_any n rem part s I).
  Qed.

  Lemma read_all_any grow fuel : forall cap acc c s, inv s ->
    let '(r, (c', s')) := read_all chunk_read grow fuel cap acc (c, s) in
    inv s' /\ (forall e, r = Some (inr e) -> spent s' /\ (e = RIo \/ e = RUnexp)).
  Proof.
    induction fuel as [|fuel IH]; intros cap acc c s I; cbn [read_all]; [split; [exact I | discriminate]|]. cbv zeta.
    match goal with |- context [cread chunk_read ?n (c, s)] => pose proof (cread_any n c s I) as C; destruct (cread chunk_read n (c, s)) as [[b r] [c1 s1]] end.
    destruct C as (I1 & C1 & C2). destruct r as [[[x|]|x]|].
    - destruct x; (split; [exact I1|]); try discriminate; intros e [= <-]; apply (C1 _ eq_refl); discriminate.
    - apply IH, I1.
    - exfalso. exact (C2 x eq_refl).
    - split; [exact I1 | discriminate].
  Qed.
End Left.

(** Whatever is read, the reader stays one; at the end, or after an error other than an octet that begins no packet, nothing is left. *)
Theorem next_chunks_left E ok c : c_inv ok c -> let '(r, c') := next_chunks E c in c_inv ok c' /\
  (r = ROk None -> c_data c' = [] /\ ok = true) /\ (forall e, r = RErr e -> e <> EStruct -> c_data c' = []).
Proof.
  intro I. unfold next_chunks, next_packet. pose proof (readHeader_any ok c I) as H. destruct (readHeader chunk_read c) as [[[[tag k]|x]|] s1]; destruct H as [I1 H].
  - match goal with |- context [read_all chunk_read ?g ?f ?cap ?a (k, s1)] =>
      pose proof (read_all_any ok g f cap a k s1 I1) as R; destruct (read_all chunk_read g f cap a (k, s1)) as [[[b|x]|] [k2 s2]] end;
      destruct R as [I2 R].
    + split; [exact I2|]. split; discriminate.
    + destruct (R x eq_refl) as [S [->| ->]]; cbn [rerr_err]; (split; [exact I2|]); (split; [discriminate | auto]).
    + split; [exact I2|]. split; discriminate.
  - destruct (H x eq_refl) as [->|(S & D)]; [split; [exact I1|]; split; [discriminate|]; cbn [rerr_err]; congruence|].
    destruct D as [->|[->| ->]]; unfold c_fin; destruct ok; cbn [rerr_err]; (split; [exact I1|]); split; auto; discriminate.
  - split; [exact I1|]. split; discriminate.
Qed.

(** ** Parse from any state *)

Lemma run_loop o E fuel : forall c cs acc, fst (parse_run o E fuel c cs acc) = parse_loop o E fuel c cs acc.
Proof.
  induction fuel as [|fuel IH]; intros c cs acc; cbn [parse_run parse_loop]; [reflexivity|].
  destruct (next_chunks E c) as [[[[tag body]|]|e| |] c']; try reflexivity.
  destruct (packets_parse o E tag body cs) as [[i|e| |] cs']; try reflexivity. apply IH.
Qed.

(** The reader stays one, the packets recorded before stay first, and after a success nothing is left to read. *)
Lemma run_left o E ok fuel : forall c cs acc, c_inv ok c ->
  let '((l, r), (c', cs')) := parse_run o E fuel c cs acc in
  c_inv ok c' /\ (exists more, l = acc ++ more) /\ (r = ROk tt -> c_data c' = [] /\ ok = true).
Proof.
  induction fuel as [|fuel IH]; intros c cs acc I; cbn [parse_run].
  { split; [exact I|]. split; [exists []; rewrite app_nil_r; reflexivity | discriminate]. }
  pose proof (next_chunks_left E ok c I) as N. destruct (next_chunks E c) as [[[[tag body]|]|e| |] c1]; destruct N as (I1 & N & _).
  2-5: split; [exact I1|]; split; [exists []; rewrite app_nil_r; reflexivity|]; try discriminate; intros _; exact (N eq_refl).
  destruct (packets_parse o E tag body cs) as [[i|e| |] cs1].
  2-4: split; [exact I1|]; split; [exists []; rewrite app_nil_r; reflexivity | discriminate].
  specialize (IH c1 cs1 (acc ++ [i]) I1). destruct (parse_run o E fuel c1 cs1 (acc ++ [i])) as [[l r] [c' cs']].
  destruct IH as (? & (more & ->) & ?). split; [assumption|]. split; [|assumption]. exists (i :: more). rewrite <- app_assoc. reflexivity.
Qed.

Lemma run_end o E n c cs acc : c_inv true c -> c_data c = [] ->
  exists c', parse_run o E (S n) c cs acc = ((acc, ROk tt), (c', cs)) /\ c_inv true c' /\ c_data c' = [].
Proof.
  intros I D. cbn [parse_run]. destruct (next_chunks_end E true c I D) as (c' & N). rewrite N.
  pose proof (next_chunks_left E true c I) as L. rewrite N in L. destruct L as (I' & L & _). exists c'. split; [reflexivity|]. split; [exact I' | apply L; reflexivity].
Qed.

Lemma run_packets o E ok l w : packets_in l w -> forall fuel c cs acc rest, c_inv ok c -> c_data c = w ++ rest -> (length (w ++ rest) < fuel)%nat ->
  snd (parse_list o E l cs) = ROk tt ->
  exists c' fuel', c_data c' = rest /\ c_inv ok c' /\ (length rest < fuel')%nat /\
    parse_run o E fuel c cs acc = parse_run o E fuel' c' (list_state o E l cs) (acc ++ fst (parse_list o E l cs)).
Proof.
  induction 1 as [|tag body l w w' F P IH]; intros fuel c cs acc rest I D L H.
  - exists c, fuel. cbn [parse_list fst snd list_state]. rewrite app_nil_r. auto.
  - rewrite <- app_assoc in D, L. destruct (next_chunks_ok E ok tag body w (w' ++ rest) c F I D) as (c1 & N & D1 & I1).
    pose proof (framed_longer _ _ _ F) as LF. destruct fuel as [|fuel]; [lia|]. cbn [parse_list list_state parse_run] in H |- *. rewrite N.
    destruct (packets_parse o E tag body cs) as [[i|e| |] cs1]; try discriminate H. cbn [snd].
    rewrite app_length in L. assert (snd (parse_list o E l cs1) = ROk tt) as H1 by (destruct (parse_list o E l cs1); exact H).
    destruct (IH fuel c1 cs1 (acc ++ [i]) rest I1 D1 ltac:(lia) H1) as (c' & fuel' & D' & I' & L' & ->).
    exists c', fuel'. split; [exact D'|]. split; [exact I'|]. split; [exact L'|].
    destruct (parse_list o E l cs1) as [is r]. cbn [fst snd]. rewrite <- app_assoc. reflexivity.
Qed.

Lemma list_state_app o E l1 : forall l2 cs, list_state o E (l1 ++ l2) cs = list_state o E l2 (list_state o E l1 cs).
Proof. induction l1 as [|[t b] l1 IH]; intros l2 cs; [reflexivity | apply IH]. Qed.

(** The packets of an input, from any state. *)
Lemma run_input o E l w c cs acc : input_of l w -> delivers c w -> exists c' cs',
  parse_run o E (S (chunks_len c)) c cs acc = ((acc ++ fst (parse_list o E l cs), snd (parse_list o E l cs)), (c', cs')) /\
  (snd (parse_list o E l cs) = ROk tt -> cs' = list_state o E l cs).
Proof.
  intros I D. pose proof (delivers_inv c w D) as [IV DD]. rewrite chunks_len_data, DD.
  pose proof (run_loop o E (S (length w)) c cs acc) as RL.
  assert (parse_loop o E (S (length w)) c cs acc = (acc ++ fst (parse_list o E l cs), snd (parse_list o E l cs))) as PL.
  { clear RL. destruct I as [l w P | l w tag body P T].
    - destruct (loop_packets o E true l w P (S (length w)) c cs acc []) as (c' & f' & D' & I' & L & ->); try assumption; rewrite ?app_nil_r; try assumption; try lia.
      destruct (parse_list o E l cs) as [is [u|e| |]]; cbn [fst snd both]; try reflexivity.
      destruct f' as [|f']; [cbn [length] in L; lia|]. cbn [parse_loop]. destruct (next_chunks_end E true c' I' D') as (c2 & ->). destruct u. reflexivity.
    - destruct (loop_packets o E true l w P (S (length (w ++ n2b (131 + 4 * tag) :: body))) c cs acc (n2b (131 + 4 * tag) :: body)) as (c' & f' & D' & I' & L & ->); try assumption; [lia|].
      rewrite parse_list_app. destruct (parse_list o E l cs) as [is [u|e| |]]; cbn [fst snd]; try reflexivity.
      destruct f' as [|f']; [lia|]. cbn [parse_loop parse_list]. destruct (next_chunks_raw E tag body c' T I' D') as (c2 & -> & D2 & I2).
      destruct (packets_parse o E tag body (list_state o E l cs)) as [[i|e| |] cs1]; unfold both; cbn [fst snd]; rewrite ?app_nil_r; try reflexivity.
      destruct f' as [|f']; [cbn [length] in L; lia|]. cbn [parse_loop]. destruct (next_chunks_end E true c2 I2 D2) as (c3 & ->). rewrite <- app_assoc. reflexivity. }
  rewrite PL in RL. destruct (parse_run o E (S (length w)) c cs acc) as [x [c' cs']] eqn:R. cbn [fst] in RL. subst x. exists c', cs'. split; [reflexivity|].
  intro H. destruct I as [l w P | l w tag body P T].
  - destruct (run_packets o E true l w P (S (length w)) c cs acc []) as (c1 & f1 & D1 & I1 & L1 & R1); try assumption; rewrite ?app_nil_r; try assumption; try lia.
    destruct f1 as [|f1]; [cbn [length] in L1; lia|]. destruct (run_end o E f1 c1 (list_state o E l cs) (acc ++ fst (parse_list o E l cs)) I1 D1) as (c2 & R2 & _).
    rewrite R1, R2 in R. injection R as _ _ <-. reflexivity.
  - rewrite parse_list_app in H.
    assert (snd (parse_list o E l cs) = ROk tt) as H1 by (destruct (parse_list o E l cs) as [is [u|e| |]]; cbn [snd] in *; try discriminate H; destruct u; reflexivity).
    destruct (run_packets o E true l w P (S (length (w ++ n2b (131 + 4 * tag) :: body))) c cs acc (n2b (131 + 4 * tag) :: body)) as (c1 & f1 & D1 & I1 & L1 & R1); try assumption; [lia|].
    rewrite R1 in R. destruct f1 as [|f1]; [lia|]. cbn [parse_run] in R. destruct (next_chunks_raw E tag body c1 T I1 D1) as (c2 & N2 & D2 & I2). rewrite N2 in R.
    destruct (parse_list o E l cs) as [is ru]. cbn [snd] in H1. subst ru. cbn [fst snd parse_list] in H. rewrite list_state_app. cbn [list_state].
    destruct (packets_parse o E tag body (list_state o E l cs)) as [[i|e| |] cs1]; try discriminate H. cbn [snd].
    destruct f1 as [|f1]; [cbn [length] in L1; lia|]. destruct (run_end o E f1 c2 cs1 ((acc ++ is) ++ [i]) I2 D2) as (c3 & R3 & _). cbn [fst] in R. rewrite R3 in R. inversion R. reflexivity.
Qed.

Lemma parse_new_pieces o E src k : parse_new o E src = ROk k -> pieces_ok k.
Proof.
  assert (forall k, new_reader_armor E src = ROk k -> pieces_ok k) as A.
  { intros k'. unfold new_reader_armor. destruct (armtext_get src); try discriminate. destruct (e_armor E a) as [[ps ok]|]; [|discriminate].
    intros [= <-]. unfold pieces_ok. cbn [k_pieces]. apply Forall_forall. intros p H. apply filter_In in H. destruct H as [_ H]. destruct p; [discriminate H | discriminate]. }
  unfold parse_new. destruct (oArmor o); [apply A|]. destruct (new_reader_armor E src) eqn:R; try discriminate.
  - intros [= <-]. apply A, eq_refl.
  - intros [= <-]. unfold chunks_of, pieces_ok. cbn [k_pieces]. destruct (scanned (st_data src)); repeat constructor. discriminate.
Qed.
