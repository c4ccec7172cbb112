(** * FrameL: reading packets from any reader never gets stuck and never delivers more than the reader holds. *)
From Coq Require Import Strings.Byte List NArith ZArith Bool Lia ZifyBool ZifyN ZifyNat.
From Verif Require Import Base BaseL Reader ReaderL Env Opaque.
Import ListNotations.
Local Open Scope N_scope.

Section Measure.
  Context {S : Type} (read : ioread S) (mu : S -> nat) (inv : S -> Prop).
  (** A Read of at least one octet delivers octets it removes from the source, and at least one unless it reports an error. *)
  Hypothesis Hread : forall n s, 0 < n -> inv s ->
    let '((b, e), s') := read n s in
    inv s' /\ (length b + mu s' <= mu s)%nat /\ lenN b <= n /\ (e = None -> b <> []).

  Lemma read_full_spec fuel : forall n acc s, inv s -> (N.to_nat n <= fuel + length acc)%nat -> lenN acc <= n ->
    let '(r, s') := read_full read fuel n acc s in
    inv s' /\ (mu s' <= mu s)%nat /\
    match r with
    | None => False
    | Some (inl b) => lenN b = n /\ (length b + mu s' <= length acc + mu s)%nat
    | Some (inr _) => True
    end.
  Proof.
    induction fuel as [|fuel IH]; intros n acc s I F L; cbn [read_full].
    - replace (n <=? lenN acc) with true by (unfold lenN in *; lia). unfold lenN in *. repeat split; try assumption; lia.
    - destruct (n <=? lenN acc) eqn:Q; [unfold lenN in *; repeat split; try assumption; lia|].
      pose proof (Hread (n - lenN acc) s ltac:(lia) I) as H.
      destruct (read (n - lenN acc) s) as [[b e] s'] eqn:R. destruct H as (I' & M' & B' & NE).
      assert (lenN (acc ++ b) = lenN acc + lenN b) as LA by (unfold lenN; rewrite app_length; lia).
      destruct e as [e|].
      + destruct (n <=? lenN (acc ++ b)) eqn:Q'.
        * rewrite app_length. repeat split; try assumption; lia.
        * assert (inv s' /\ (mu s' <= mu s)%nat /\ True) as K by (repeat split; [assumption | lia]).
          destruct e, (acc ++ b); exact K.
      + assert (1 <= length b)%nat as LB by (destruct b; [destruct (NE eq_refl eq_refl) | cbn [length]; lia]).
        specialize (IH n (acc ++ b) s' I'). rewrite app_length in IH.
        specialize (IH ltac:(lia) ltac:(lia)).
        destruct (read_full read fuel n (acc ++ b) s') as [r s2]. destruct IH as (I2 & M2 & R2).
        repeat split; [assumption | lia |]. destruct r as [[r|]|]; [lia | exact Logic.I | exact R2].
  Qed.

  Lemma readFull_spec n s : inv s ->
    let '(r, s') := readFull read n s in
    inv s' /\ (mu s' <= mu s)%nat /\
    match r with
    | None => False
    | Some (inl b) => lenN b = n /\ (length b + mu s' <= mu s)%nat
    | Some (inr _) => True
    end.
  Proof.
    intro I. unfold readFull. pose proof (read_full_spec (N.to_nat n) n [] s I ltac:(cbn [length]; lia) ltac:(unfold lenN; cbn [length]; lia)) as H.
    destruct (read_full read (N.to_nat n) n [] s) as [[[b|e]|] s']; [exact H | | exact H]. destruct e; exact H.
  Qed.

  Lemma readLength_spec s : inv s ->
    let '(r, s') := readLength read s in
    inv s' /\ (mu s' <= mu s)%nat /\
    match r with
    | None => False
    | Some (inl (len, part)) => (mu s' < mu s)%nat /\ (part = true -> 0 < len)
    | Some (inr _) => True
    end.
  Proof.
    intro I. unfold readLength. pose proof (readFull_spec 1 s I) as H.
    destruct (readFull read 1 s) as [[[l|e]|] s1]; [| exact H | destruct H as (_ & _ & []) ].
    destruct H as (I1 & M1 & L1 & M1'). destruct l as [|b [|c l]]; [discriminate L1 | | unfold lenN in L1; cbn [length] in L1; lia].
    cbn [length] in M1'.
    destruct (b2n b <? 192); [repeat split; try assumption; try lia; discriminate|].
    destruct (b2n b <? 224).
    - pose proof (readFull_spec 1 s1 I1) as H. destruct (readFull read 1 s1) as [[[l|e]|] s2].
      + destruct H as (I2 & M2 & L2 & M2'). destruct l as [|c [|c' l]]; [discriminate L2 | | unfold lenN in L2; cbn [length] in L2; lia].
        repeat split; try assumption; try lia; discriminate.
      + destruct H as (I2 & M2 & _). repeat split; [assumption | lia].
      + destruct H as (_ & _ & []).
    - destruct (b2n b <? 255).
      + repeat split; try assumption; try lia.
      + pose proof (readFull_spec 4 s1 I1) as H. destruct (readFull read 4 s1) as [[[l|e]|] s2].
        * destruct H as (I2 & M2 & L2 & M2'). repeat split; try assumption; try lia; discriminate.
        * destruct H as (I2 & M2 & _). repeat split; [assumption | lia].
        * destruct H as (_ & _ & []).
  Qed.

  Lemma readHeader_spec s : inv s ->
    let '(r, s') := readHeader read s in
    inv s' /\ (mu s' <= mu s)%nat /\
    match r with
    | None => False
    | Some (inl _) => (mu s' < mu s)%nat
    | Some (inr _) => True
    end.
  Proof.
    intro I. unfold readHeader. pose proof (read_full_spec 1 1 [] s I ltac:(cbn [length]; lia) ltac:(unfold lenN; cbn [length]; lia)) as H.
    destruct (read_full read 1 1 [] s) as [[[l|e]|] s1]; [| exact H | destruct H as (_ & _ & [])].
    destruct H as (I1 & M1 & L1 & M1'). destruct l as [|b [|c l]]; [discriminate L1 | | unfold lenN in L1; cbn [length] in L1; lia].
    cbn [length] in M1'.
    destruct (N.land (b2n b) 128 =? 0); [repeat split; [assumption | lia]|].
    destruct (N.land (b2n b) 64 =? 0).
    - destruct (N.land (b2n b) 3 =? 3); [repeat split; [assumption | lia | try lia]|].
      pose proof (readFull_spec (2 ^ N.land (b2n b) 3) s1 I1) as H.
      destruct (readFull read (2 ^ N.land (b2n b) 3) s1) as [[[l|e]|] s2].
      + destruct H as (I2 & M2 & L2 & M2'). repeat split; try assumption; lia.
      + destruct H as (I2 & M2 & _). repeat split; [assumption | lia].
      + destruct H as (_ & _ & []).
    - pose proof (readLength_spec s1 I1) as H. destruct (readLength read s1) as [[[[len part]|e]|] s2].
      + destruct H as (I2 & M2 & L2 & _). destruct part; repeat split; try assumption; lia.
      + destruct H as (I2 & M2 & _). repeat split; [assumption | lia].
      + destruct H as (_ & _ & []).
  Qed.

  Lemma cread_spec n c s : 0 < n -> inv s ->
    let '((b, e), (c', s')) := cread read n (c, s) in
    inv s' /\ (length b + mu s' <= mu s)%nat /\ lenN b <= n /\
    match e with
    | None => False
    | Some (inl None) => b <> []
    | Some (inl (Some _)) => True
    | Some (inr _) => False
    end.
  Proof.
    intros Hn I. unfold cread. destruct c as [|k|rem part].
    - pose proof (Hread n s Hn I) as H. destruct (read n s) as [[b e] s']. destruct H as (I' & M' & L' & NE).
      repeat split; try assumption. destruct e; [exact Logic.I | apply NE; reflexivity].
    - destruct (k =? 0) eqn:K; [cbn; repeat split; try assumption; try lia; unfold lenN; cbn; lia|].
      pose proof (Hread (N.min n k) s ltac:(lia) I) as H. destruct (read (N.min n k) s) as [[b e] s']. destruct H as (I' & M' & L' & NE).
      repeat split; try assumption; try lia. destruct e as [e|]; [| apply NE; reflexivity].
      destruct e; try exact Logic.I. destruct (0 <? k - lenN b); exact Logic.I.
    - assert (forall rem part s, inv s -> 0 < rem ->
        let '((b, e), (c', s')) :=
          (let want := N.min n rem in
           let '((b, e), s') := read want s in
           let e' := match e with
                     | Some RBareEof => if lenN b <? want then Some RUnexp else e
                     | _ => e
                     end in
           ((b, Some (inl e')), (CPart (rem - lenN b) part, s'))) : (bytes * rout (option rerr)) * (cont * S) in
        inv s' /\ (length b + mu s' <= mu s)%nat /\ lenN b <= n /\
        match e with None => False | Some (inl None) => b <> [] | Some (inl (Some _)) => True | Some (inr _) => False end) as GO.
      { clear rem part s I. intros rem part s I Hr. cbv zeta.
        pose proof (Hread (N.min n rem) s ltac:(lia) I) as H. destruct (read (N.min n rem) s) as [[b e] s']. destruct H as (I' & M' & L' & NE).
        repeat split; try assumption; try lia. destruct e as [e|]; [| apply NE; reflexivity].
        destruct e; try exact Logic.I. destruct (lenN b <? N.min n rem); exact Logic.I. }
      destruct (rem =? 0) eqn:R.
      + destruct part.
        * pose proof (readLength_spec s I) as H. destruct (readLength read s) as [[[[len p']|e]|] s1].
          -- destruct H as (I1 & M1 & M1' & _). destruct (len =? 0) eqn:Q.
             ++ cbn; repeat split; try assumption; try lia; unfold lenN; cbn; lia.
             ++ specialize (GO len p' s1 I1 ltac:(lia)). cbv zeta in GO |- *. destruct (read (N.min n len) s1) as [[b e] s2].
                destruct GO as (G1 & G2 & G3 & G4). repeat split; try assumption; lia.
          -- destruct H as (I1 & M1 & _). cbn; repeat split; try assumption; try lia; unfold lenN; cbn; lia.
          -- destruct H as (_ & _ & []).
        * cbn; repeat split; try assumption; try lia; unfold lenN; cbn; lia.
      + exact (GO rem part s I ltac:(lia)).
  Qed.

  Lemma read_all_spec grow fuel : forall cap acc c s, inv s -> (mu s < fuel)%nat -> lenN acc <= cap ->
    let '(r, (c', s')) := read_all read grow fuel cap acc (c, s) in
    inv s' /\ (mu s' <= mu s)%nat /\
    match r with
    | None => False
    | Some (inl b) => (length b + mu s' <= length acc + mu s)%nat
    | Some (inr _) => True
    end.
  Proof.
    induction fuel as [|fuel IH]; intros cap acc c s I F C; [lia|]. cbn [read_all].
    set (cap' := if lenN acc <? cap then cap else N.max (cap + 1) (grow cap)).
    assert (0 < cap' - lenN acc) as P by (unfold cap'; destruct (lenN acc <? cap) eqn:Q; lia).
    pose proof (cread_spec (cap' - lenN acc) c s P I) as H.
    destruct (cread read (cap' - lenN acc) (c, s)) as [[b e] [c' s']]. destruct H as (I' & M' & L' & R').
    destruct e as [[[e|]|e]|]; try contradiction.
    - assert (inv s' /\ (mu s' <= mu s)%nat /\ (length (acc ++ b) + mu s' <= length acc + mu s)%nat) as K
        by (rewrite app_length; repeat split; try assumption; lia).
      destruct K as (K1 & K2 & K3).
      destruct e; repeat split; try assumption; exact Logic.I.
    - assert (1 <= length b)%nat by (destruct b; [congruence | cbn [length]; lia]).
      assert (lenN (acc ++ b) <= cap') as C' by (unfold lenN in *; rewrite app_length; lia).
      specialize (IH cap' (acc ++ b) c' s' I' ltac:(lia) C'). rewrite app_length in IH.
      destruct (read_all read grow fuel cap' (acc ++ b) (c', s')) as [r [c2 s2]]. destruct IH as (I2 & M2 & R2).
      repeat split; try assumption; [lia|]. destruct r as [[r|]|]; [lia | exact Logic.I | exact R2].
  Qed.

  Lemma next_packet_spec grow fuel s : inv s -> (mu s <= fuel)%nat ->
    let '(r, s') := next_packet read grow fuel s in
    inv s' /\ (mu s' <= mu s)%nat /\
    match r with
    | None => False
    | Some (inl (_, body)) => (length body + mu s' < mu s)%nat
    | Some (inr _) => True
    end.
  Proof.
    intros I F. unfold next_packet. pose proof (readHeader_spec s I) as H.
    destruct (readHeader read s) as [[[[tag c]|e]|] s1]; [| exact H | destruct H as (_ & _ & [])].
    destruct H as (I1 & M1 & L1).
    pose proof (read_all_spec grow fuel 512 [] c s1 I1 ltac:(lia) ltac:(unfold lenN; cbn; lia)) as H.
    destruct (read_all read grow fuel 512 [] (c, s1)) as [[[b|e]|] [c2 s2]].
    - destruct H as (I2 & M2 & B2). cbn [length] in B2. repeat split; try assumption; lia.
    - destruct H as (I2 & M2 & _). repeat split; [assumption | lia].
    - destruct H as (_ & _ & []).
  Qed.
End Measure.

(** The program's own reader. *)
Definition rdr_inv (B : bytes) (r : reader) : Prop :=
  r_buf r = B /\ (0 <= r_off r <= 2 * lenZ B)%Z /\ (lenZ B < 2 ^ 62)%Z.
Definition rdr_left (r : reader) : nat := Z.to_nat (lenZ (r_buf r) - r_off r).

Lemma rdr_read_measure B n r : 0 < n -> rdr_inv B r ->
  let '((b, e), r') := rdr_read n r in
  rdr_inv B r' /\ (length b + rdr_left r' <= rdr_left r)%nat /\ lenN b <= n /\ (e = None -> b <> []).
Proof.
  intros Hn (HB & HO & HL). unfold rdr_read.
  destruct (2 ^ 63 <=? n) eqn:Q.
  { repeat split; try assumption; try lia; try discriminate; unfold lenN; cbn; lia. }
  unfold r_read, r_readbytes. replace (Z.of_N n =? 0)%Z with false by lia.
  assert (forall e : rerr, let '((b, e'), r') := (([] : bytes, Some e), r) in
    rdr_inv B r' /\ (length b + rdr_left r' <= rdr_left r)%nat /\ lenN b <= n /\ (e' = None -> b <> [])) as KO.
  { intro e. repeat split; try assumption; try lia; try discriminate; unfold lenN; cbn; lia. }
  destruct (r_off r >=? r_size r)%Z eqn:Q1; [apply (KO RWrapEof)|].
  destruct (wrap64 (r_off r + Z.of_N n) >? r_size r)%Z eqn:Q2; [apply (KO RUnexp)|].
  destruct ((r_off r <? 0) || (wrap64 (r_off r + Z.of_N n) <? r_off r))%Z eqn:Q3; [apply (KO RIo)|].
  clear KO. unfold r_size in *. rewrite HB in *.
  assert (wrap64 (r_off r + Z.of_N n) = r_off r + Z.of_N n)%Z as W.
  { destruct (Z.ltb_spec (r_off r + Z.of_N n) (2 ^ 63)) as [L|G]; [apply wrap64_small; lia|exfalso].
    assert (wrap64 (r_off r + Z.of_N n) < 0)%Z; [|lia].
    unfold wrap64. rewrite (Z.mod_eq _ (2 ^ 64)) by lia.
    assert (2 ^ 64 = 18446744073709551616)%Z as E1 by reflexivity.
    assert (2 ^ 63 = 9223372036854775808)%Z as E2 by reflexivity.
    assert (2 ^ 62 = 4611686018427387904)%Z as E3 by reflexivity.
    assert (2 ^ 63 = 9223372036854775808)%N as E4 by reflexivity.
    assert ((r_off r + Z.of_N n + 2 ^ 63) / 2 ^ 64 = 1)%Z as Dv by (symmetry; apply Z.div_unique with (r := (r_off r + Z.of_N n + 2 ^ 63 - 2 ^ 64)%Z); lia).
    rewrite ?Dv. lia. }
  rewrite W in *. unfold slice. cbn [r_buf r_off].
  assert (length (firstn (Z.to_nat (r_off r + Z.of_N n - r_off r)) (skipn (Z.to_nat (r_off r)) B)) = N.to_nat n) as LS.
  { rewrite firstn_length, skipn_length. unfold lenZ in *. lia. }
  repeat split; cbn [r_buf r_off]; try assumption; try lia.
  - unfold rdr_left. cbn [r_buf r_off]. rewrite LS, HB. lia.
  - unfold lenN. rewrite LS. lia.
  - intros _ K. rewrite K in LS. cbn [length] in LS. lia.
Qed.

(** Readers that deliver their data in non-empty pieces. *)
Definition pieces_ok (c : chunks) : Prop := Forall (fun p => p <> []) (k_pieces c).
Definition chunks_left (c : chunks) : nat := length (concat (k_pieces c)).

Lemma chunk_read_measure n c : 0 < n -> pieces_ok c ->
  let '((b, e), c') := chunk_read n c in
  pieces_ok c' /\ (length b + chunks_left c' <= chunks_left c)%nat /\ lenN b <= n /\ (e = None -> b <> []).
Proof.
  intros Hn HP. unfold chunk_read, pieces_ok, chunks_left in *. destruct c as [[|p t] ok]; cbn [k_pieces k_ok] in *.
  - replace (n =? 0) with false by lia. repeat split; try assumption; try lia; unfold lenN; cbn; try lia.
    unfold chunk_end. discriminate.
  - inversion HP; subst.
    assert (length p = length (firstn (N.to_nat n) p) + length (skipn (N.to_nat n) p))%nat as L
      by (rewrite <- app_length, firstn_skipn; reflexivity).
    repeat split.
    + destruct (skipn (N.to_nat n) p); [assumption | constructor; [discriminate | assumption]].
    + destruct (skipn (N.to_nat n) p); cbn [concat]; rewrite ?app_length in *; cbn [length] in *; lia.
    + unfold lenN. rewrite firstn_length. lia.
    + intros _ K. destruct p; [congruence|]. destruct (N.to_nat n) eqn:Q; [lia | discriminate K].
Qed.

Lemma next_packet_rdr grow fuel B r : rdr_inv B r -> (rdr_left r <= fuel)%nat ->
  let '(x, r') := next_packet rdr_read grow fuel r in
  rdr_inv B r' /\ (rdr_left r' <= rdr_left r)%nat /\
  match x with
  | None => False
  | Some (inl (_, body)) => (length body + rdr_left r' < rdr_left r)%nat
  | Some (inr _) => True
  end.
Proof. apply (next_packet_spec rdr_read rdr_left (rdr_inv B) (rdr_read_measure B)). Qed.

Lemma next_packet_chunks grow fuel c : pieces_ok c -> (chunks_left c <= fuel)%nat ->
  let '(x, c') := next_packet chunk_read grow fuel c in
  pieces_ok c' /\ (chunks_left c' <= chunks_left c)%nat /\
  match x with
  | None => False
  | Some (inl (_, body)) => (length body + chunks_left c' < chunks_left c)%nat
  | Some (inr _) => True
  end.
Proof. apply (next_packet_spec chunk_read chunks_left pieces_ok chunk_read_measure). Qed.

(** Sub-packets are shorter than the area they are in. *)
Lemma next_subpacket_shorter l sp rest : next_subpacket l = Some (sp, rest) ->
  (length (snd sp) + length rest + 2 <= length l)%nat.
Proof.
  assert (forall sublen t0, (if (wrap32 (lenN t0) <? sublen) || (sublen =? 0) then None else
    match t0 with
    | [] => None
    | ty :: t => Some ((ty, firstn (N.to_nat (sublen - 1)) t), skipn (N.to_nat (sublen - 1)) t)
    end) = Some (sp, rest) -> (length (snd sp) + length rest + 1 <= length t0)%nat) as FIN.
  { intros sublen t0 H. destruct (_ || _) in H; [discriminate|]. destruct t0 as [|ty t]; [discriminate|].
    inversion H; subst. cbn [snd length]. rewrite firstn_length, skipn_length. lia. }
  unfold next_subpacket. destruct l as [|b0 t0]; [discriminate|]. intro H. cbn [length].
  destruct (b2n b0 <? 192).
  - destruct t0; [discriminate|]. apply FIN in H. cbn [length] in *. lia.
  - destruct (b2n b0 <? 255).
    + destruct t0 as [|b1 [|x t]]; try discriminate. apply FIN in H. cbn [length] in *. lia.
    + destruct t0 as [|a [|b [|c [|d [|x t]]]]]; try discriminate. apply FIN in H. cbn [length] in *. lia.
Qed.

Lemma opaque_subpackets_shorter fuel : forall l sp, In sp (fst (opaque_subpackets fuel l)) ->
  (length (snd sp) + 2 <= length l)%nat.
Proof.
  induction fuel as [|fuel IH]; intros l sp H; destruct l as [|b l]; cbn [opaque_subpackets fst In] in H; try contradiction.
  destruct (next_subpacket (b :: l)) as [[s rest]|] eqn:N; [|contradiction].
  apply next_subpacket_shorter in N. destruct (opaque_subpackets fuel rest) as [r ok] eqn:R. cbn [fst In] in H.
  destruct H as [->|H]; [lia|]. specialize (IH rest sp). rewrite R in IH. specialize (IH H). lia.
Qed.

Lemma subpackets_shorter l sp : In sp (fst (subpackets l)) -> (length (snd sp) < length l)%nat.
Proof. intro H. apply opaque_subpackets_shorter in H. lia. Qed.
