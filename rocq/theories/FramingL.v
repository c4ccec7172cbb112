(** * FramingL: reading a packet in its frame gives back the packet, and a cut frame an error. *)
From Coq Require Import Strings.String Strings.Byte List NArith ZArith Bool Lia ZifyBool ZifyN ZifyNat.
From Verif Require Import Base BaseL Reader ReaderL Env Opaque SpecBase SpecFrame.
Import ListNotations.
Local Open Scope N_scope.

Lemma split_at {A} (n : nat) (d : list A) : (n <= length d)%nat -> exists a b, d = a ++ b /\ length a = n.
Proof. intro H. exists (firstn n d), (skipn n d). split; [symmetry; apply firstn_skipn | rewrite firstn_length; lia]. Qed.

(** If b ++ x = d ++ rest and b is not longer than d, then b is a prefix of d. *)
Lemma app_prefix {A} (b : list A) : forall d x rest, b ++ x = d ++ rest -> (length b <= length d)%nat ->
  exists d', d = b ++ d' /\ x = d' ++ rest.
Proof.
  induction b as [|a b IH]; intros d x rest H L; [exists d; auto|]. destruct d as [|c d]; [cbn [length] in L; lia|].
  cbn [app] in H. injection H as <- H. destruct (IH d x rest H ltac:(cbn [length] in L; lia)) as (d' & -> & ->). exists d'. auto.
Qed.

(** What follows the current part of a body: nothing after the last part, else further parts. *)
Inductive after : bool -> bytes -> bytes -> Prop :=
| after_last : after false [] []
| after_more body w : in_parts body w -> after true body w.
(** What is still to come for a contents reader: the octets [w] in the stream carry [body]. *)
Inductive pending : cont -> bytes -> bytes -> Prop :=
| pend_span body : pending (CSpan (lenN body)) body body
| pend_part b part body w : after part body w -> pending (CPart (lenN b) part) (b ++ body) (b ++ w).

Lemma in_parts_inv body w : in_parts body w ->
  exists part len b body2 w2, w = len ++ b ++ w2 /\ body = b ++ body2 /\ after part body2 w2 /\
    (part = false /\ new_length (lenN b) len \/ part = true /\ exists k, k <= 30 /\ lenN b = 2 ^ k /\ len = [n2b (224 + k)]).
Proof.
  intro H. destruct H as [body len H | k p body w K L H].
  - exists false, len, body, [], []. rewrite !app_nil_r. repeat split; [constructor | auto].
  - exists true, [n2b (224 + k)], p, body, w. repeat split; [constructor; exact H | right; split; [reflexivity | exists k; auto]].
Qed.

Lemma all_below (p : N -> bool) m : forallb (fun i => p (N.of_nat i)) (seq 0 m) = true -> forall n, n < N.of_nat m -> p n = true.
Proof. intros A n L. rewrite forallb_forall in A. specialize (A (N.to_nat n)). rewrite N2Nat.id in A. apply A, in_seq. lia. Qed.
Lemma old_header tag lt : tag < 16 -> lt < 4 ->
  N.land (128 + lt + 4 * tag) 128 =? 0 = false /\ N.land (128 + lt + 4 * tag) 64 =? 0 = true /\
  N.shiftr (N.land (128 + lt + 4 * tag) 63) 2 = tag /\ N.land (128 + lt + 4 * tag) 3 = lt.
Proof.
  intros T L.
  pose (p := fun lt tag => (negb (N.land (128 + lt + 4 * tag) 128 =? 0) && (N.land (128 + lt + 4 * tag) 64 =? 0) &&
    (N.shiftr (N.land (128 + lt + 4 * tag) 63) 2 =? tag) && (N.land (128 + lt + 4 * tag) 3 =? lt))%bool).
  pose proof (all_below (fun lt => forallb (fun i => p lt (N.of_nat i)) (seq 0 16)) 4 eq_refl lt L) as A.
  cbv beta in A. apply (all_below (p lt) 16 A) in T. unfold p in T.
  rewrite !andb_true_iff, negb_true_iff, !N.eqb_eq, N.eqb_neq in T. destruct T as (((A1 & A2) & A3) & A4).
  rewrite N.eqb_neq, N.eqb_eq. auto.
Qed.
Lemma new_header tag : tag < 64 ->
  N.land (192 + tag) 128 =? 0 = false /\ N.land (192 + tag) 64 =? 0 = false /\ N.land (192 + tag) 63 = tag.
Proof.
  intros T. pose proof (all_below (fun tag =>
    negb (N.land (192 + tag) 128 =? 0) && negb (N.land (192 + tag) 64 =? 0) && (N.land (192 + tag) 63 =? tag))%bool 64 eq_refl tag T) as A.
  cbv beta in A. rewrite !andb_true_iff, !negb_true_iff, !N.eqb_eq in A. destruct A as ((A1 & A2) & A3). auto.
Qed.


Lemma land31 k : k <= 30 -> N.land (224 + k) 31 = k.
Proof.
  intro H. assert (forallb (fun i => N.land (224 + N.of_nat i) 31 =? N.of_nat i) (seq 0 31) = true) as A by reflexivity.
  rewrite forallb_forall in A. specialize (A (N.to_nat k)). rewrite N2Nat.id in A. apply N.eqb_eq, A, in_seq. lia.
Qed.

Section Framing.
  Context {S : Type} (read : ioread S) (data : S -> bytes) (inv : S -> Prop).
  (** A Read of octets that are there delivers at least one of them. *)
  Hypothesis Hgood : forall n s, 0 < n -> inv s -> n <= lenN (data s) ->
    exists b s', read n s = ((b, None), s') /\ b <> [] /\ lenN b <= n /\ data s = b ++ data s' /\ inv s'.

  Lemma read_full_ok fuel : forall acc d rest s, inv s -> data s = d ++ rest -> (length d <= fuel)%nat ->
    exists s', read_full read fuel (lenN (acc ++ d)) acc s = (Some (inl (acc ++ d)), s') /\ data s' = rest /\ inv s'.
  Proof.
    induction fuel as [|fuel IH]; intros acc d rest s I D F.
    - destruct d as [|x d]; [|cbn [length] in F; lia]. exists s. cbn [read_full]. rewrite app_nil_r, N.leb_refl. auto.
    - cbn [read_full]. destruct d as [|x d].
      { exists s. rewrite app_nil_r, N.leb_refl. auto. }
      assert (lenN (acc ++ x :: d) = lenN acc + lenN (x :: d)) as LA by (unfold lenN; rewrite app_length; lia).
      assert (0 < lenN (x :: d)) as LD by (rewrite lenN_cons; lia).
      replace (lenN (acc ++ x :: d) <=? lenN acc) with false by lia.
      replace (lenN (acc ++ x :: d) - lenN acc) with (lenN (x :: d)) by lia.
      destruct (Hgood (lenN (x :: d)) s LD I) as (b & s' & R & NE & LB & DS & I').
      { rewrite D. unfold lenN. rewrite app_length. lia. }
      rewrite R. rewrite D in DS. symmetry in DS. destruct (app_prefix b (x :: d) (data s') rest DS ltac:(unfold lenN in LB; lia)) as (d' & E & D').
      rewrite E, app_assoc. apply (IH (acc ++ b) d' rest s' I' D').
      apply (f_equal (@length byte)) in E. rewrite app_length in E. destruct b as [|y b]; [congruence|]. cbn [length] in *. lia.
  Qed.

  Lemma readFull_ok d rest s n : inv s -> data s = d ++ rest -> n = lenN d ->
    exists s', readFull read n s = (Some (inl d), s') /\ data s' = rest /\ inv s'.
  Proof.
    intros I D ->. unfold readFull. destruct (read_full_ok (N.to_nat (lenN d)) [] d rest s I D) as (s' & R & D' & I').
    { unfold lenN. lia. }
    exists s'. cbn [app] in R. rewrite R. auto.
  Qed.

  Lemma readLength_ok n len rest s : new_length n len -> inv s -> data s = len ++ rest ->
    exists s', readLength read s = (Some (inl (n, false)), s') /\ data s' = rest /\ inv s'.
  Proof.
    intros L I D. unfold readLength. destruct L as [H | H | H].
    - destruct (readFull_ok [n2b n] rest s 1 I D eq_refl) as (s' & -> & D' & I'). rewrite b2n_n2b_small by lia.
      replace (n <? 192) with true by lia. exists s'. auto.
    - set (q := (n - 192) / 256) in *. set (m := (n - 192) mod 256) in *.
      assert (n - 192 = 256 * q + m) as DM by (apply N.div_mod; discriminate).
      assert (m < 256) as LM by (apply N.mod_lt; discriminate).
      assert (q < 32) as LQ by (apply N.div_lt_upper_bound; lia).
      destruct (readFull_ok [n2b (192 + q)] (n2b m :: rest) s 1 I D eq_refl) as (s' & -> & D' & I').
      rewrite b2n_n2b_small by lia. replace (192 + q <? 192) with false by lia. replace (192 + q <? 224) with true by lia.
      destruct (readFull_ok [n2b m] rest s' 1 I' D' eq_refl) as (s2 & -> & D2 & I2). rewrite b2n_n2b_small by lia.
      replace ((192 + q - 192) * 256 + (m + 192)) with n by lia. exists s2. auto.
    - destruct (readFull_ok [xff] (be_enc 4 n ++ rest) s 1 I D eq_refl) as (s' & -> & D' & I').
      change (b2n xff <? 192) with false. change (b2n xff <? 224) with false. change (b2n xff <? 255) with false. cbv iota.
      destruct (readFull_ok (be_enc 4 n) rest s' 4 I' D') as (s2 & -> & D2 & I2); [unfold lenN; rewrite be_enc_length; reflexivity|].
      rewrite be_be_enc. change (256 ^ N.of_nat 4) with (2 ^ 32). rewrite N.mod_small by exact H. exists s2. auto.
  Qed.

  Lemma readLength_part k rest s : k <= 30 -> inv s -> data s = n2b (224 + k) :: rest ->
    exists s', readLength read s = (Some (inl (2 ^ k, true)), s') /\ data s' = rest /\ inv s'.
  Proof.
    intros K I D. unfold readLength. destruct (readFull_ok [n2b (224 + k)] rest s 1 I D eq_refl) as (s' & -> & D' & I').
    rewrite b2n_n2b_small by lia. replace (224 + k <? 192) with false by lia. replace (224 + k <? 224) with false by lia.
    replace (224 + k <? 255) with true by lia. rewrite land31 by exact K. exists s'. auto.
  Qed.

  Lemma readLength_parts part len (b : bytes) rest s :
    part = false /\ new_length (lenN b) len \/ part = true /\ (exists k, k <= 30 /\ lenN b = 2 ^ k /\ len = [n2b (224 + k)]) ->
    inv s -> data s = len ++ rest ->
    exists s', readLength read s = (Some (inl (lenN b, part)), s') /\ data s' = rest /\ inv s'.
  Proof.
    intros [(-> & H) | (-> & k & K & -> & ->)] I D; [apply readLength_ok with (len := len) | apply readLength_part]; assumption.
  Qed.

  (** One Read of the contents: some more of the body, or its end. *)
  Definition cread_go (n rem : N) (part : bool) (s : S) : (bytes * rout (option rerr)) * (cont * S) :=
    let want := N.min n rem in
    let '((b, e), s') := read want s in
    let e' := match e with
              | Some RBareEof => if lenN b <? want then Some RUnexp else e
              | _ => e
              end in
    ((b, Some (inl e')), (CPart (rem - lenN b) part, s')).
  Definition delivered (n : N) (x : (bytes * rout (option rerr)) * (cont * S)) (body rest : bytes) : Prop :=
    exists b c' body' w' s', x = ((b, Some (inl None)), (c', s')) /\ b <> [] /\ lenN b <= n /\ body = b ++ body' /\
      pending c' body' w' /\ inv s' /\ data s' = w' ++ rest.
  Lemma cread_go_ok n part b1 body2 w2 rest s : 0 < n -> 0 < lenN b1 -> inv s -> data s = b1 ++ w2 ++ rest -> after part body2 w2 ->
    delivered n (cread_go n (lenN b1) part s) (b1 ++ body2) rest.
  Proof.
    intros Hn L1 I D PP. unfold cread_go. cbv zeta.
    destruct (Hgood (N.min n (lenN b1)) s ltac:(lia) I) as (b & s' & R & NE & LB & DS & I').
    { rewrite D. unfold lenN in *. rewrite !app_length. lia. }
    rewrite R. rewrite D in DS. symmetry in DS.
    destruct (app_prefix b b1 (data s') (w2 ++ rest) DS ltac:(unfold lenN in *; lia)) as (b2 & -> & D').
    exists b, (CPart (lenN (b ++ b2) - lenN b) part), (b2 ++ body2), (b2 ++ w2), s'.
    split; [reflexivity|]. split; [exact NE|]. split; [lia|]. split; [rewrite <- app_assoc; reflexivity|].
    split; [|split; [exact I' | rewrite D', <- app_assoc; reflexivity]].
    replace (lenN (b ++ b2) - lenN b) with (lenN b2) by (unfold lenN; rewrite app_length; lia). constructor. exact PP.
  Qed.
  Lemma cread_ok n c body w rest s : 0 < n -> pending c body w -> inv s -> data s = w ++ rest ->
    delivered n (cread read n (c, s)) body rest
    \/ (body = [] /\ exists c' s', cread read n (c, s) = (([], Some (inl (Some RBareEof))), (c', s')) /\ inv s' /\ data s' = rest).
  Proof.
    intros Hn P I D. assert (forall b : bytes, (lenN b =? 0) = true -> b = []) as Z0.
    { intros [|x b] Z; [reflexivity | rewrite lenN_cons in Z; lia]. }
    destruct P as [body | b part body w H]; unfold cread.
    - destruct (lenN body =? 0) eqn:Z.
      + right. apply Z0 in Z. subst body. split; [reflexivity|]. eexists _, _. split; [reflexivity|]. auto.
      + left. destruct (Hgood (N.min n (lenN body)) s ltac:(lia) I) as (b & s' & R & NE & LB & DS & I').
        { rewrite D. unfold lenN. rewrite app_length. lia. }
        rewrite R. rewrite D in DS. symmetry in DS.
        destruct (app_prefix b body (data s') rest DS ltac:(unfold lenN in *; lia)) as (b2 & -> & D').
        exists b, (CSpan (lenN (b ++ b2) - lenN b)), b2, b2, s'.
        split; [reflexivity|]. split; [exact NE|]. split; [lia|]. split; [reflexivity|]. split; [|auto].
        replace (lenN (b ++ b2) - lenN b) with (lenN b2) by (unfold lenN; rewrite app_length; lia). constructor.
    - rewrite <- app_assoc in D. destruct (lenN b =? 0) eqn:Z.
      + apply Z0 in Z. subst b. cbn [app] in *. destruct H as [|body w H].
        * right. split; [reflexivity|]. eexists _, _. split; [reflexivity|]. auto.
        * destruct (in_parts_inv body w H) as (part & len & b1 & body2 & w2 & -> & -> & A & L).
          rewrite <- !app_assoc in D. destruct (readLength_parts part len b1 _ s L I D) as (s1 & -> & D1 & I1).
          destruct (lenN b1 =? 0) eqn:KZ.
          -- right. pose proof (Z0 _ KZ) as ->. destruct L as [(-> & _) | (_ & k & _ & K & _)]; [|change (lenN []) with 0 in K; pose proof (N.pow_nonzero 2 k); lia].
             inversion A; subst. split; [reflexivity|]. eexists _, _. split; [reflexivity|]. auto.
          -- left. apply (cread_go_ok n part b1 body2 w2 rest s1 Hn ltac:(lia) I1 D1 A).
      + left. apply (cread_go_ok n part b body w rest s Hn ltac:(lia) I D H).
  Qed.

  Lemma read_all_ok grow fuel : forall cap acc c body w rest s, (length body < fuel)%nat -> lenN acc <= cap -> pending c body w -> inv s -> data s = w ++ rest ->
    exists c' s', read_all read grow fuel cap acc (c, s) = (Some (inl (acc ++ body)), (c', s')) /\ data s' = rest /\ inv s'.
  Proof.
    induction fuel as [|fuel IH]; intros cap acc c body w rest s F LC P I D; [lia|]. cbn [read_all].
    set (cap' := if lenN acc <? cap then cap else N.max (cap + 1) (grow cap)).
    assert (0 < cap' - lenN acc) as Hn by (unfold cap'; destruct (lenN acc <? cap) eqn:E; lia).
    destruct (cread_ok _ c body w rest s Hn P I D) as [(b & c' & body' & w' & s' & -> & NE & LB & -> & P' & I' & D') | (-> & c' & s' & -> & I' & D')].
    - rewrite app_assoc. apply (IH cap' (acc ++ b) c' body' w' rest s'); try assumption.
      + rewrite app_length in F. destruct b; [congruence | cbn [length] in F; lia].
      + unfold lenN in *. rewrite app_length. lia.
    - rewrite app_nil_r. exists c', s'. auto.
  Qed.

  Lemma readHeader_old tag lt k (body : bytes) rest s : tag < 16 -> lt < 3 -> 2 ^ lt = N.of_nat k -> lenN body < 256 ^ N.of_nat k -> inv s ->
    data s = n2b (128 + lt + 4 * tag) :: be_enc k (lenN body) ++ rest ->
    exists s', readHeader read s = (Some (inl (tag, CSpan (lenN body))), s') /\ data s' = rest /\ inv s'.
  Proof.
    intros T LT K L I D. destruct (read_full_ok 1 [] [n2b (128 + lt + 4 * tag)] _ s I D ltac:(reflexivity)) as (s1 & R & D1 & I1).
    unfold readHeader. cbn [app] in R. change (lenN [n2b (128 + lt + 4 * tag)]) with 1 in R. rewrite R. cbv zeta.
    rewrite b2n_n2b_small by lia. destruct (old_header tag lt T ltac:(lia)) as (-> & -> & -> & ->).
    replace (lt =? 3) with false by lia.
    destruct (readFull_ok (be_enc k (lenN body)) rest s1 (2 ^ lt) I1 D1) as (s2 & -> & D2 & I2); [unfold lenN; rewrite be_enc_length; exact K|].
    rewrite be_be_enc, N.mod_small by exact L. exists s2. auto.
  Qed.
  (** The contents reader of a packet in a frame of definite length. *)
  Lemma readHeader_ok tag body w rest s : framed tag body w -> inv s -> data s = w ++ rest ->
    exists c s' w', readHeader read s = (Some (inl (tag, c)), s') /\ pending c body w' /\ data s' = w' ++ rest /\ inv s'.
  Proof.
    intros F I D. destruct F as [T L | T L | T L | w T P].
    1-3: cbn [app] in D; rewrite <- app_assoc in D.
    - destruct (readHeader_old tag 0 1 body (body ++ rest) s T ltac:(lia) eq_refl L I D) as (s1 & R & D1 & I1).
      eexists _, s1, body. rewrite R. split; [reflexivity|]. split; [constructor | auto].
    - destruct (readHeader_old tag 1 2 body (body ++ rest) s T ltac:(lia) eq_refl L I D) as (s1 & R & D1 & I1).
      eexists _, s1, body. rewrite R. split; [reflexivity|]. split; [constructor | auto].
    - destruct (readHeader_old tag 2 4 body (body ++ rest) s T ltac:(lia) eq_refl L I D) as (s1 & R & D1 & I1).
      eexists _, s1, body. rewrite R. split; [reflexivity|]. split; [constructor | auto].
    - destruct (read_full_ok 1 [] [n2b (192 + tag)] (w ++ rest) s I D ltac:(reflexivity)) as (s1 & R & D1 & I1).
      destruct (in_parts_inv body w P) as (part & len & b1 & body2 & w2 & -> & -> & A & K).
      rewrite <- !app_assoc in D1. destruct (readLength_parts part len b1 _ s1 K I1 D1) as (s2 & RL & D2 & I2).
      unfold readHeader. cbn [app] in R. change (lenN [n2b (192 + tag)]) with 1 in R. rewrite R. cbv zeta.
      rewrite b2n_n2b_small by lia. destruct (new_header tag T) as (-> & -> & ->). rewrite RL.
      destruct part.
      + eexists _, s2, (b1 ++ w2). split; [reflexivity|]. split; [constructor; exact A | rewrite <- app_assoc; auto].
      + inversion A; subst. rewrite !app_nil_r. eexists _, s2, b1. split; [reflexivity|]. split; [constructor | auto].
  Qed.

  Theorem next_packet_ok grow fuel tag body w rest s : framed tag body w -> inv s -> data s = w ++ rest -> (length body < fuel)%nat ->
    exists s', next_packet read grow fuel s = (Some (inl (tag, body)), s') /\ data s' = rest /\ inv s'.
  Proof.
    intros F I D L. unfold next_packet. destruct (readHeader_ok tag body w rest s F I D) as (c & s1 & w' & -> & P & D1 & I1).
    destruct (read_all_ok grow fuel 512 [] c body w' rest s1 L ltac:(discriminate) P I1 D1) as (c' & s2 & -> & D2 & I2).
    exists s2. auto.
  Qed.
End Framing.

Lemma app_cases {A} (q : list A) : forall len v x, len ++ v = q ++ x ->
  (exists y, len = q ++ y /\ y <> []) \/ (exists q', q = len ++ q' /\ v = q' ++ x).
Proof.
  induction q as [|a q IH]; intros len v x H.
  - destruct len as [|l len]; [right; exists []; auto | left; exists (l :: len); split; [reflexivity | discriminate]].
  - destruct len as [|l len]; [right; exists (a :: q); auto|]. cbn [app] in H. injection H as -> H.
    destruct (IH len v x H) as [(y & -> & N) | (q' & -> & ->)]; [left; exists y; auto | right; exists q'; auto].
Qed.

(** The error for data that ends too early. *)
Definition cut_error (fin : rerr) : rerr := match fin with RBareEof => RUnexp | e => e end.

Lemma cons_inj {A} (a b : A) l m : a :: l = b :: m -> a = b /\ l = m.
Proof. intro H. injection H. auto. Qed.

Section Cut.
  Context {S : Type} (read : ioread S) (data : S -> bytes) (inv : S -> Prop) (fin : rerr).
  Hypothesis Hchunk : forall n s, 0 < n -> inv s -> data s <> [] ->
    exists b s', read n s = ((b, None), s') /\ b <> [] /\ lenN b <= n /\ data s = b ++ data s' /\ inv s'.
  Hypothesis Hend : forall n s, 0 < n -> inv s -> data s = [] -> read n s = (([], Some fin), s).

  Lemma chunk_good n s : 0 < n -> inv s -> n <= lenN (data s) ->
    exists b s', read n s = ((b, None), s') /\ b <> [] /\ lenN b <= n /\ data s = b ++ data s' /\ inv s'.
  Proof. intros Hn I L. apply Hchunk; try assumption. intro D. rewrite D in L. change (lenN []) with 0 in L. lia. Qed.

  Lemma read_full_cut fuel : forall n acc s, inv s -> lenN acc + lenN (data s) < n -> (length (data s) < fuel)%nat ->
    exists s', read_full read fuel n acc s =
      (Some (inr (match fin with RBareEof => match acc ++ data s with [] => RBareEof | _ => RUnexp end | e => e end)), s').
  Proof.
    induction fuel as [|fuel IH]; intros n acc s I L F; [lia|]. cbn [read_full]. replace (n <=? lenN acc) with false by lia.
    destruct (data s) as [|x d] eqn:D.
    - rewrite (Hend (n - lenN acc) s ltac:(lia) I D). rewrite !app_nil_r. exists s. replace (n <=? lenN acc) with false by lia.
      destruct fin; try reflexivity. destruct acc; reflexivity.
    - destruct (Hchunk (n - lenN acc) s ltac:(lia) I ltac:(congruence)) as (b & s' & -> & NE & LB & DS & I').
      rewrite D in DS. pose proof (f_equal (@length byte) DS) as LL. rewrite app_length in LL.
      destruct (IH n (acc ++ b) s' I') as (s2 & R).
      + unfold lenN in *. rewrite app_length. lia.
      + destruct b; [congruence | cbn [length] in *; lia].
      + rewrite <- app_assoc, <- DS in R. exists s2. exact R.
  Qed.
  Lemma readFull_cut n s : inv s -> lenN (data s) < n -> exists s', readFull read n s = (Some (inr (cut_error fin)), s').
  Proof.
    intros I L. unfold readFull. destruct (read_full_cut (N.to_nat n) n [] s I) as (s' & ->).
    - change (lenN []) with 0. lia.
    - unfold lenN in L. lia.
    - exists s'. destruct fin; try reflexivity. cbn [app]. destruct (data s); reflexivity.
  Qed.

  Lemma readLength_cut part len (b : bytes) q y s :
    part = false /\ new_length (lenN b) len \/ part = true /\ (exists k, k <= 30 /\ lenN b = 2 ^ k /\ len = [n2b (224 + k)]) ->
    inv s -> data s = q -> len = q ++ y -> y <> [] -> exists s', readLength read s = (Some (inr (cut_error fin)), s').
  Proof.
    intros L I D E Y. unfold readLength. destruct q as [|x q].
    { destruct (readFull_cut 1 s I) as (s' & ->); [rewrite D; change (lenN []) with 0; lia | exists s'; reflexivity]. }
    destruct (readFull_ok read data inv chunk_good [x] q s 1 I D eq_refl) as (s1 & -> & D1 & I1).
    destruct L as [(_ & L) | (_ & k & _ & _ & ->)].
    2:{ destruct q; [destruct y|]; cbn [app] in E; congruence. }
    destruct L as [H | H | H].
    - destruct q; [destruct y|]; cbn [app] in E; congruence.
    - cbn [app] in E. apply cons_inj in E. destruct E as (<- & E). assert ((lenN b - 192) / 256 < 32) as LQ by (apply N.div_lt_upper_bound; lia).
      remember ((lenN b - 192) / 256) as g eqn:G. clear G.
      rewrite b2n_n2b_small by lia. replace (192 + g <? 192) with false by lia.
      replace (192 + g <? 224) with true by lia.
      assert (q = []) as -> by (destruct q; [reflexivity|]; cbn [app] in E; injection E as _ E; destruct q; [destruct y|]; cbn [app] in E; congruence).
      destruct (readFull_cut 1 s1 I1) as (s' & ->); [rewrite D1; change (lenN []) with 0; lia | exists s'; reflexivity].
    - cbn [app] in E. apply cons_inj in E. destruct E as (<- & E). change (b2n xff <? 192) with false. change (b2n xff <? 224) with false. change (b2n xff <? 255) with false. cbv iota.
      destruct (readFull_cut 4 s1 I1) as (s' & ->); [|exists s'; reflexivity].
      apply (f_equal (@length byte)) in E. rewrite be_enc_length, app_length in E. rewrite D1. unfold lenN. destruct y; [congruence | cbn [length] in E; lia].
  Qed.

  Definition cut_now (x : (bytes * rout (option rerr)) * (cont * S)) : Prop :=
    exists b cs, x = ((b, Some (inl (Some (cut_error fin)))), cs).
  Definition cut_later (n : N) (x : (bytes * rout (option rerr)) * (cont * S)) (q x0 : bytes) : Prop :=
    exists b c' body' q' s', x = ((b, Some (inl None)), (c', s')) /\ lenN b <= n /\ (length q' < length q)%nat /\
      pending c' body' (q' ++ x0) /\ inv s' /\ data s' = q'.
  Hypothesis Hfin : fin = RBareEof \/ fin = RIo.

  Lemma cread_go_cut n part b1 body2 w2 q x s : 0 < n -> 0 < lenN b1 -> inv s -> data s = q -> b1 ++ w2 = q ++ x -> after part body2 w2 ->
    cut_now (cread_go read n (lenN b1) part s) \/ cut_later n (cread_go read n (lenN b1) part s) q x.
  Proof.
    intros Hn L1 I D E A. unfold cread_go. cbv zeta. destruct q as [|z q].
    - left. rewrite (Hend (N.min n (lenN b1)) s ltac:(lia) I D). unfold cut_now. change (lenN []) with 0.
      replace (0 <? N.min n (lenN b1)) with true by lia. destruct Hfin as [-> | ->]; eexists _, _; reflexivity.
    - right. destruct (Hchunk (N.min n (lenN b1)) s ltac:(lia) I ltac:(congruence)) as (b & s' & -> & NE & LB & DS & I').
      rewrite D in DS. rewrite DS, <- app_assoc in E. symmetry in E.
      destruct (app_prefix b b1 (data s' ++ x) w2 E ltac:(unfold lenN in *; lia)) as (b2 & -> & D').
      exists b, (CPart (lenN (b ++ b2) - lenN b) part), (b2 ++ body2), (data s'), s'.
      split; [reflexivity|]. split; [lia|].
      split; [rewrite DS, app_length; destruct b; [congruence | cbn [length]; lia]|]. split; [|auto].
      rewrite D'. replace (lenN (b ++ b2) - lenN b) with (lenN b2) by (unfold lenN; rewrite app_length; lia). constructor. exact A.
  Qed.
  Lemma cread_cut n c body q x s : 0 < n -> pending c body (q ++ x) -> x <> [] -> inv s -> data s = q ->
    cut_now (cread read n (c, s)) \/ cut_later n (cread read n (c, s)) q x.
  Proof.
    intros Hn P X I D. assert (forall b : bytes, (lenN b =? 0) = true -> b = []) as Z0.
    { intros [|z b] Z; [reflexivity | rewrite lenN_cons in Z; lia]. }
    remember (q ++ x) as w eqn:W. destruct P as [body | b part body w H]; unfold cread.
    - destruct (lenN body =? 0) eqn:Z.
      { apply Z0 in Z. rewrite W in Z. apply app_eq_nil in Z. tauto. }
      destruct q as [|z q].
      + left. rewrite (Hend (N.min n (lenN body)) s ltac:(lia) I D). change (lenN []) with 0.
        replace (0 <? lenN body - 0) with true by lia. unfold cut_now. destruct Hfin as [-> | ->]; eexists _, _; reflexivity.
      + right. destruct (Hchunk (N.min n (lenN body)) s ltac:(lia) I ltac:(congruence)) as (b & s' & -> & NE & LB & DS & I').
        rewrite D in DS. rewrite DS, <- app_assoc in W.
        exists b, (CSpan (lenN body - lenN b)), (data s' ++ x), (data s'), s'.
        split; [reflexivity|]. split; [lia|].
      split; [rewrite DS, app_length; destruct b; [congruence | cbn [length]; lia]|]. split; [|auto].
        replace (lenN body - lenN b) with (lenN (data s' ++ x)) by (rewrite W; unfold lenN; rewrite (app_length b); lia). constructor.
    - destruct (lenN b =? 0) eqn:Z.
      + apply Z0 in Z. subst b. cbn [app] in *. destruct H as [|body w H].
        { symmetry in W. apply app_eq_nil in W. tauto. }
        destruct (in_parts_inv body w H) as (part & len & b1 & body2 & w2 & -> & -> & A & L).
        destruct (app_cases q len (b1 ++ w2) x W) as [(y & E & NY) | (q' & -> & E)].
        * left. destruct (readLength_cut part len b1 q y s L I D E NY) as (s1 & ->). eexists _, _. reflexivity.
        * destruct (readLength_parts read data inv chunk_good part len b1 q' s L I D) as (s1 & -> & D1 & I1).
          destruct (lenN b1 =? 0) eqn:KZ.
          { pose proof (Z0 _ KZ) as ->. destruct L as [(-> & _) | (_ & k & _ & K & _)]; [|change (lenN []) with 0 in K; pose proof (N.pow_nonzero 2 k); lia].
            inversion A; subst. symmetry in E. apply app_eq_nil in E. tauto. }
          destruct (cread_go_cut n part b1 body2 w2 q' x s1 Hn ltac:(lia) I1 D1 E A) as [C | (b & c' & body' & q2 & s' & C & LB & E2 & P & I2 & D2)].
          -- left. exact C.
          -- right. exists b, c', body', q2, s'. split; [exact C|]. split; [exact LB|]. split; [rewrite app_length; lia | auto].
      + apply (cread_go_cut n part b body w q x s Hn ltac:(lia) I D W H).
  Qed.

  Lemma read_all_cut grow fuel : forall cap acc c body q x s, (length q < fuel)%nat -> lenN acc <= cap -> pending c body (q ++ x) -> x <> [] ->
    inv s -> data s = q -> exists cs', read_all read grow fuel cap acc (c, s) = (Some (inr (cut_error fin)), cs').
  Proof.
    induction fuel as [|fuel IH]; intros cap acc c body q x s F LC P X I D; [lia|]. cbn [read_all].
    set (cap' := if lenN acc <? cap then cap else N.max (cap + 1) (grow cap)).
    assert (0 < cap' - lenN acc) as Hn by (unfold cap'; destruct (lenN acc <? cap) eqn:E; lia).
    destruct (cread_cut _ c body q x s Hn P X I D) as [(b & cs & ->) | (b & c' & body' & q' & s' & -> & LB & LQ & P' & I' & D')].
    - exists cs. destruct Hfin as [-> | ->]; reflexivity.
    - apply (IH cap' (acc ++ b) c' body' q' x s'); try assumption; [lia|]. unfold lenN in *. rewrite app_length. lia.
  Qed.

  Lemma readHeader_first (z : byte) q s : inv s -> data s = z :: q ->
    exists s', read_full read 1 1 [] s = (Some (inl [z]), s') /\ data s' = q /\ inv s'.
  Proof. intros I D. exact (read_full_ok read data inv chunk_good 1 [] [z] q s I D ltac:(reflexivity)). Qed.

  (** A packet that ends too early is an error: never the end of the input. *)
  Theorem next_packet_cut grow fuel tag body q x s : framed tag body (q ++ x) -> q <> [] -> x <> [] -> inv s -> data s = q -> (length q < fuel)%nat ->
    exists s', next_packet read grow fuel s = (Some (inr (cut_error fin)), s').
  Proof.
    intros F Q X I D L. destruct q as [|z q]; [congruence|]. destruct (readHeader_first z q s I D) as (s1 & R & D1 & I1).
    unfold next_packet, readHeader. rewrite R. cbv zeta. cbn [app] in F. cbn [length] in L.
    (* old format *)
    assert (forall lt k, tag < 16 -> lt < 3 -> 2 ^ lt = N.of_nat k -> z = n2b (128 + lt + 4 * tag) -> lenN body < 256 ^ N.of_nat k ->
      be_enc k (lenN body) ++ body = q ++ x ->
      exists s', match (if N.land (b2n z) 0x80 =? 0 then (Some (inr RStruct), s1)
        else if N.land (b2n z) 0x40 =? 0 then
          (if N.land (b2n z) 3 =? 3 then (Some (inl (N.shiftr (N.land (b2n z) 0x3f) 2, CRaw)), s1)
           else match readFull read (2 ^ N.land (b2n z) 3) s1 with
             | (Some (inl l), s2) => (Some (inl (N.shiftr (N.land (b2n z) 0x3f) 2, CSpan (be l))), s2)
             | (Some (inr e), s2) => (Some (inr e), s2)
             | (None, s2) => (None, s2)
             end)
        else
          match readLength read s1 with
          | (Some (inl (len, true)), s2) => (Some (inl (N.land (b2n z) 0x3f, CPart len true)), s2)
          | (Some (inl (len, false)), s2) => (Some (inl (N.land (b2n z) 0x3f, CSpan len)), s2)
          | (Some (inr e), s2) => (Some (inr e), s2)
          | (None, s2) => (None, s2)
          end) with
      | (Some (inl (tag, c)), s1) =>
        match read_all read grow fuel 512 [] (c, s1) with
        | (Some (inl body), (_, s2)) => (Some (inl (tag, body)), s2)
        | (Some (inr e), (_, s2)) => (Some (inr e), s2)
        | (None, (_, s2)) => (None, s2)
        end
      | (Some (inr e), s1) => (Some (inr e), s1)
      | (None, s1) => (None, s1)
      end = (Some (inr (cut_error fin)), s')) as OLD.
    { intros lt k T LT K -> LB E. rewrite b2n_n2b_small by lia. destruct (old_header tag lt T ltac:(lia)) as (-> & -> & -> & ->).
      replace (lt =? 3) with false by lia. destruct (app_cases q _ _ x E) as [(y & E2 & NY) | (q' & -> & E2)].
      - destruct (readFull_cut (2 ^ lt) s1 I1) as (s2 & ->); [|exists s2; reflexivity].
        apply (f_equal (@length byte)) in E2. rewrite be_enc_length, app_length in E2. rewrite D1, K. unfold lenN.
        destruct y; [congruence | cbn [length] in E2; lia].
      - destruct (readFull_ok read data inv chunk_good (be_enc k (lenN body)) q' s1 (2 ^ lt) I1 D1) as (s2 & -> & D2 & I2); [unfold lenN; rewrite be_enc_length; exact K|].
        rewrite be_be_enc, N.mod_small by exact LB. rewrite app_length in L.
        destruct (read_all_cut grow fuel 512 [] (CSpan (lenN body)) body q' x s2 ltac:(lia) ltac:(discriminate)) as ((c3 & s3) & ->); try assumption.
        + rewrite <- E2. constructor.
        + exists s3. reflexivity. }
    remember (z :: q ++ x) as w eqn:W. destruct F as [T LB | T LB | T LB | w T P]; apply cons_inj in W; destruct W as (HZ & W).
    - apply (OLD 0 1%nat T ltac:(lia) eq_refl (eq_sym HZ) LB W).
    - apply (OLD 1 2%nat T ltac:(lia) eq_refl (eq_sym HZ) LB W).
    - apply (OLD 2 4%nat T ltac:(lia) eq_refl (eq_sym HZ) LB W).
    - clear OLD. subst z. rewrite b2n_n2b_small by lia. destruct (new_header tag T) as (-> & -> & ->).
      destruct (in_parts_inv body w P) as (part & len & b1 & body2 & w2 & -> & -> & A & K).
      destruct (app_cases q _ _ x W) as [(y & E2 & NY) | (q' & -> & E2)].
      + destruct (readLength_cut part len b1 q y s1 K I1 D1 E2 NY) as (s2 & ->). exists s2. reflexivity.
      + destruct (readLength_parts read data inv chunk_good part len b1 q' s1 K I1 D1) as (s2 & -> & D2 & I2). rewrite app_length in L.
        destruct part.
        * destruct (read_all_cut grow fuel 512 [] (CPart (lenN b1) true) (b1 ++ body2) q' x s2 ltac:(lia) ltac:(discriminate)) as ((c3 & s3) & ->); try assumption.
          -- rewrite <- E2. constructor. exact A.
          -- exists s3. reflexivity.
        * assert (w2 = []) as -> by (inversion A; reflexivity). rewrite app_nil_r in E2.
          destruct (read_all_cut grow fuel 512 [] (CSpan (lenN b1)) b1 q' x s2 ltac:(lia) ltac:(discriminate)) as ((c3 & s3) & ->); try assumption; try reflexivity.
          -- rewrite <- E2. constructor.
          -- exists s3. reflexivity.
  Qed.

  (** No more octets: the end. *)
  Theorem next_packet_end grow fuel s : inv s -> data s = [] -> exists s', next_packet read grow fuel s = (Some (inr fin), s').
  Proof.
    intros I D. unfold next_packet, readHeader. cbn [read_full]. change (1 <=? lenN []) with false. cbv iota.
    rewrite (Hend (1 - lenN []) s ltac:(reflexivity) I D). exists s. destruct Hfin as [-> | ->]; reflexivity.
  Qed.

  (** Indeterminate length: the contents reach to the end. *)
  Lemma read_all_raw grow fuel : forall cap acc s, fin = RBareEof -> (length (data s) < fuel)%nat -> lenN acc <= cap -> inv s ->
    exists cs', read_all read grow fuel cap acc (CRaw, s) = (Some (inl (acc ++ data s)), cs') /\ data (snd cs') = [] /\ inv (snd cs').
  Proof.
    induction fuel as [|fuel IH]; intros cap acc s Fi F LC I; [lia|]. cbn [read_all].
    set (cap' := if lenN acc <? cap then cap else N.max (cap + 1) (grow cap)).
    assert (0 < cap' - lenN acc) as Hn by (unfold cap'; destruct (lenN acc <? cap) eqn:E; lia).
    unfold cread. destruct (data s) as [|z d] eqn:D.
    - rewrite (Hend _ s Hn I D), Fi. eexists. split; [reflexivity | auto].
    - destruct (Hchunk _ s Hn I ltac:(congruence)) as (b & s' & -> & NE & LB & DS & I').
      rewrite <- D, DS. apply (f_equal (@length byte)) in DS. rewrite D, app_length in DS.
      destruct (IH cap' (acc ++ b) s' Fi) as (cs' & -> & DI); try assumption.
      + destruct b; [congruence | cbn [length] in *; lia].
      + unfold lenN in *. rewrite app_length. lia.
      + exists cs'. rewrite <- app_assoc. auto.
  Qed.
End Cut.

(** ** Readers that deliver pieces *)
From Verif Require Import Item Context Parse FrameL.

Definition c_data (c : chunks) : bytes := concat (k_pieces c).
Definition c_inv (ok : bool) (c : chunks) : Prop := pieces_ok c /\ k_ok c = ok.
Definition c_fin (ok : bool) : rerr := if ok then RBareEof else RIo.

Lemma chunk_gives ok n c : 0 < n -> c_inv ok c -> c_data c <> [] ->
  exists b c', chunk_read n c = ((b, None), c') /\ b <> [] /\ lenN b <= n /\ c_data c = b ++ c_data c' /\ c_inv ok c'.
Proof.
  intros Hn [P K] D. destruct c as [[|p t] ok']; [exfalso; apply D; reflexivity|]. unfold chunk_read, c_data, c_inv, pieces_ok in *. cbn [k_pieces k_ok concat] in *.
  inversion P as [|? ? P1 P2]; subst. eexists _, _. split; [reflexivity|].
  pose proof (firstn_skipn (N.to_nat n) p) as FS. split; [|split; [|split; [|split]]].
  - intro Z. destruct p as [|z p]; [congruence|]. destruct (N.to_nat n) eqn:E; [lia | discriminate Z].
  - unfold lenN. rewrite firstn_length. lia.
  - cbn [k_pieces]. destruct (skipn (N.to_nat n) p) eqn:E; cbn [concat]; rewrite ?app_nil_r in FS.
    + rewrite FS. reflexivity.
    + rewrite app_assoc, FS. reflexivity.
  - cbn [k_pieces]. destruct (skipn (N.to_nat n) p) eqn:E; [exact P2 | constructor; [discriminate | exact P2]].
  - reflexivity.
Qed.
Lemma chunk_ends ok n c : 0 < n -> c_inv ok c -> c_data c = [] -> chunk_read n c = (([], Some (c_fin ok)), c).
Proof.
  intros Hn [P K] D. destruct c as [[|p t] ok']; unfold chunk_read, c_data, c_inv, pieces_ok, chunk_end, c_fin in *; cbn [k_pieces k_ok concat] in *.
  - subst. replace (n =? 0) with false by lia. reflexivity.
  - inversion P; subst. destruct p; [congruence | discriminate D].
Qed.
Lemma c_fin_is ok : c_fin ok = RBareEof \/ c_fin ok = RIo. Proof. destruct ok; auto. Qed.
Lemma framed_longer tag body w : framed tag body w -> (length body < length w)%nat.
Proof.
  assert (forall body w, in_parts body w -> (length body <= length w)%nat) as K.
  { intros b v H. induction H; cbn [length]; rewrite ?app_length; lia. }
  intro F. destruct F as [T L | T L | T L | w T P]; cbn [length]; rewrite ?app_length, ?be_enc_length; try lia. apply K in P. lia.
Qed.
Lemma chunks_len_data c : chunks_len c = length (c_data c). Proof. reflexivity. Qed.

Theorem next_chunks_ok E ok tag body w rest c : framed tag body w -> c_inv ok c -> c_data c = w ++ rest ->
  exists c', next_chunks E c = (ROk (Some (tag, body)), c') /\ c_data c' = rest /\ c_inv ok c'.
Proof.
  intros F I D. unfold next_chunks.
  destruct (next_packet_ok chunk_read c_data (c_inv ok) (chunk_good chunk_read c_data (c_inv ok) (c_fin ok) (chunk_gives ok) (chunk_ends ok)) (e_grow E)
    (Datatypes.S (Datatypes.S (chunks_len c))) tag body w rest c F I D) as (c' & -> & D' & I').
  - pose proof (framed_longer _ _ _ F). rewrite chunks_len_data, D, app_length. lia.
  - exists c'. auto.
Qed.
Theorem next_chunks_cut E ok tag body q x c : framed tag body (q ++ x) -> q <> [] -> x <> [] -> c_inv ok c -> c_data c = q ->
  exists c', next_chunks E c = (RErr (if ok then EUnexp else EIO), c').
Proof.
  intros F Q X I D. unfold next_chunks.
  destruct (next_packet_cut chunk_read c_data (c_inv ok) (c_fin ok) (chunk_gives ok) (chunk_ends ok) (c_fin_is ok) (e_grow E)
    (Datatypes.S (Datatypes.S (chunks_len c))) tag body q x c F Q X I D) as (c' & ->).
  - rewrite chunks_len_data, D. lia.
  - exists c'. destruct ok; reflexivity.
Qed.
Theorem next_chunks_end E ok c : c_inv ok c -> c_data c = [] ->
  exists c', next_chunks E c = ((if ok then ROk None else RErr EIO), c').
Proof.
  intros I D. unfold next_chunks.
  destruct (next_packet_end chunk_read c_data (c_inv ok) (c_fin ok) (chunk_ends ok) (c_fin_is ok) (e_grow E) (Datatypes.S (Datatypes.S (chunks_len c))) c I D) as (c' & ->).
  exists c'. destruct ok; reflexivity.
Qed.
Theorem next_chunks_raw E tag body c : tag < 16 -> c_inv true c -> c_data c = n2b (131 + 4 * tag) :: body ->
  exists c', next_chunks E c = (ROk (Some (tag, body)), c') /\ c_data c' = [] /\ c_inv true c'.
Proof.
  intros T I D. unfold next_chunks, next_packet, readHeader.
  destruct (readHeader_first chunk_read c_data (c_inv true) (c_fin true) (chunk_gives true) (chunk_ends true) _ _ c I D) as (c1 & -> & D1 & I1). cbv zeta.
  rewrite b2n_n2b_small by lia. replace (131 + 4 * tag) with (128 + 3 + 4 * tag) by lia.
  destruct (old_header tag 3 T ltac:(lia)) as (-> & -> & -> & ->). change (3 =? 3) with true. cbv iota.
  destruct (read_all_raw chunk_read c_data (c_inv true) RBareEof (chunk_gives true) (chunk_ends true) (e_grow E)
    (Datatypes.S (Datatypes.S (chunks_len c))) 512 [] c1 eq_refl) as (cs' & R & D2 & I2).
  - rewrite chunks_len_data, D, D1. cbn [length]. lia.
  - discriminate.
  - exact I1.
  - rewrite R. destruct cs' as [c2 s2]. rewrite D1. exists s2. auto.
Qed.

(** ** The loop over the packets *)
Definition both (acc : info) (p : info * res unit) : info * res unit := (acc ++ fst p, snd p).

Lemma loop_packets o E ok l w : packets_in l w -> forall fuel c cs acc rest, c_inv ok c -> c_data c = w ++ rest -> (length (w ++ rest) < fuel)%nat ->
  exists c' fuel', c_data c' = rest /\ c_inv ok c' /\ (length rest < fuel')%nat /\
    parse_loop o E fuel c cs acc =
      match snd (parse_list o E l cs) with
      | ROk _ => parse_loop o E fuel' c' (list_state o E l cs) (acc ++ fst (parse_list o E l cs))
      | _ => both acc (parse_list o E l cs)
      end.
Proof.
  induction 1 as [|tag body l w w' F P IH]; intros fuel c cs acc rest I D L.
  - exists c, fuel. cbn [parse_list fst snd list_state]. rewrite app_nil_r. auto.
  - rewrite <- app_assoc in D, L. destruct (next_chunks_ok E ok tag body w (w' ++ rest) c F I D) as (c1 & N & D1 & I1).
    pose proof (framed_longer _ _ _ F) as LF. destruct fuel as [|fuel]; [lia|]. cbn [parse_loop parse_list list_state]. rewrite N.
    destruct (packets_parse o E tag body cs) as [[i|e| |] cs1] eqn:PP; cbn [snd].
    2-4: exists (mkChunks (match rest with [] => [] | _ => [rest] end) ok), (Datatypes.S (length rest)); unfold both; cbn [fst snd]; rewrite app_nil_r;
      (split; [destruct rest; [reflexivity | unfold c_data; cbn; rewrite app_nil_r; reflexivity]|]);
      (split; [split; [destruct rest; repeat constructor; discriminate | reflexivity]|]); (split; [lia | reflexivity]).
    rewrite app_length in L. destruct (IH fuel c1 cs1 (acc ++ [i]) rest I1 D1 ltac:(lia)) as (c' & fuel' & D' & I' & L' & ->).
    exists c', fuel'. split; [exact D'|]. split; [exact I'|]. split; [exact L'|].
    destruct (parse_list o E l cs1) as [is r]. cbn [fst snd]. unfold both. cbn [fst snd]. rewrite <- app_assoc. destruct r; reflexivity.
Qed.
