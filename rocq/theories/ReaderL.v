(** * ReaderL: lemmas about the byte cursor. *)
From Coq Require Import Strings.String Strings.Byte List NArith ZArith Bool Lia ZifyBool ZifyN ZifyNat.
From Verif Require Import Base BaseL Reader SpecReader.
Import ListNotations.
Local Open Scope Z_scope.

Lemma remaining_len r : in_buffer r -> lenZ (remaining r) = lenZ (r_buf r) - r_off r.
Proof. intros [H _]. unfold remaining, lenZ in *. rewrite skipn_length. lia. Qed.

Lemma readbytes_spec n r : in_buffer r -> 0 <= n -> r_off r + n < 2 ^ 63 ->
  read_spec n r (fst (r_readbytes n r)) (snd (r_readbytes n r)).
Proof.
  intros Hr Hn Hlt. pose proof (remaining_len r Hr) as HL. destruct Hr as [Ho Hs].
  unfold r_readbytes, r_size.
  destruct (Z.eqb_spec n 0) as [->|Hn0].
  { simpl. replace r with (mkReader (r_buf r) (r_off r + 0)) at 2 by (destruct r; simpl; f_equal; lia).
    apply read_done with (rest := remaining r); reflexivity. }
  destruct (Z.geb_spec (r_off r) (lenZ (r_buf r))).
  { simpl. apply read_eof; [lia|]. apply lenZ_0. lia. }
  rewrite wrap64_small by lia.
  destruct (Z.gtb_spec (r_off r + n) (lenZ (r_buf r))).
  { simpl. apply read_short. lia. }
  replace ((r_off r <? 0) || (r_off r + n <? r_off r)) with false by lia.
  simpl. apply read_done with (rest := skipn (Z.to_nat n) (remaining r)).
  - unfold slice, remaining. replace (r_off r + n - r_off r) with n by lia.
    symmetry. apply firstn_skipn.
  - unfold slice, lenZ. rewrite firstn_length, skipn_length. unfold lenZ in *. lia.
Qed.

Lemma read_spec_len1 r x r' : read_spec 1 r x r' ->
  (exists b, x = ROk [b]) \/ exists e, x = RErr e.
Proof.
  intro H. inversion H; subst; [left | right; eauto ..].
  destruct data as [|b [|c d]]; rewrite ?lenZ_cons, ?lenZ_nil in *; try lia.
  - exists b; reflexivity.
  - pose proof (lenZ_nonneg d). lia.
Qed.

Lemma do_read_readbytes c r : in_buffer r -> 0 <= call_len c -> r_off r + call_len c < 2 ^ 63 ->
  do_read c r = r_readbytes (call_len c) r.
Proof.
  intros Hr Hn Hlt. destruct c; try reflexivity. cbn [do_read call_len] in *. unfold r_readbyte.
  pose proof (readbytes_spec 1 r Hr Hn Hlt) as S.
  destruct (r_readbytes 1 r) as [x r']. cbn [fst snd] in S.
  destruct (read_spec_len1 _ _ _ S) as [[b ->]|[e ->]]; reflexivity.
Qed.

Lemma read_spec_in_buffer n r x r' : in_buffer r -> 0 <= n -> read_spec n r x r' ->
  in_buffer r' /\ r_buf r' = r_buf r.
Proof.
  intros Hr Hn H. inversion H; subst; try (split; [assumption | reflexivity]).
  pose proof (remaining_len r Hr) as L. rewrite H0, lenZ_app in L.
  pose proof (lenZ_nonneg rest). destruct Hr. split; [|reflexivity]. split; cbn; lia.
Qed.

Lemma delivered_spec cs : forall r, in_buffer r ->
  Forall (fun c => 0 <= call_len c /\ lenZ (r_buf r) + call_len c < 2 ^ 63) cs ->
  let '(ds, r') := delivered cs r in
  in_buffer r' /\ r_buf r' = r_buf r /\ remaining r = ds ++ remaining r'
  /\ r_off r' = r_off r + lenZ ds.
Proof.
  induction cs as [|c cs IH]; intros r Hr HF.
  - cbn [delivered]. rewrite lenZ_nil. repeat split; try apply Hr; lia.
  - inversion HF as [|? ? [Hc1 Hc2] HF']; subst. cbn [delivered].
    assert (r_off r + call_len c < 2 ^ 63) as Hb by (destruct Hr; lia).
    rewrite (do_read_readbytes c r Hr Hc1 Hb).
    pose proof (readbytes_spec _ r Hr Hc1 Hb) as S.
    destruct (r_readbytes (call_len c) r) as [x r1]. cbn [fst snd] in S.
    destruct (read_spec_in_buffer _ _ _ _ Hr Hc1 S) as [Hr1 HB].
    specialize (IH r1 Hr1). rewrite HB in IH. specialize (IH HF').
    destruct (delivered cs r1) as [ds r2]. destruct IH as (I1 & I2 & I3 & I4).
    split; [assumption|]. split; [congruence|].
    inversion S; subst; cbn [app]; try (split; [assumption | lia]).
    rewrite lenZ_app. split.
    + rewrite <- app_assoc, <- I3, H. f_equal. unfold remaining in *. cbn [r_off r_buf].
      rewrite Z2Nat.inj_add by (destruct Hr; lia).
      rewrite skipn_add, H.
      replace (Z.to_nat (call_len c)) with (length data) by (unfold lenZ in *; lia).
      rewrite skipn_app, skipn_all, Nat.sub_diag. reflexivity.
    + cbn [r_off] in I4. lia.
Qed.

Lemma seek_spec off whence r : in_buffer r -> int64 off ->
  r_seek off whence r =
  match seek_target off whence r with
  | Some t => if (0 <=? t) && (t <=? lenZ (r_buf r)) then (ROk t, mkReader (r_buf r) t) else (RErr EOffset, r)
  | None => (RErr EWhence, r)
  end.
Proof.
  intros [Ho Hs] [H1 H2]. unfold r_seek, r_size, seek_target.
  set (L := lenZ (r_buf r)) in *.
  assert (E : forall base, 0 <= base <= L ->
    (let origin := wrap64 (base + off) in
     if (origin <? 0) || (origin >? L) then (RErr EOffset, r) else (ROk origin, mkReader (r_buf r) origin))
    = (if (0 <=? base + off) && (base + off <=? L) then (ROk (base + off), mkReader (r_buf r) (base + off))
       else (RErr EOffset, r))).
  { intros base Hb. cbv zeta. destruct (Z_lt_dec (base + off) (2 ^ 63)).
    - rewrite wrap64_small by lia.
      destruct ((base + off <? 0) || (base + off >? L)) eqn:C;
      destruct ((0 <=? base + off) && (base + off <=? L)) eqn:D; try reflexivity; lia.
    - assert (wrap64 (base + off) < 0).
      { unfold wrap64. replace (base + off + 2 ^ 63) with (base + off - 2 ^ 63 + 1 * 2 ^ 64) by lia.
        rewrite Z.mod_add by lia. rewrite Z.mod_small by lia. lia. }
      replace ((wrap64 (base + off) <? 0) || (wrap64 (base + off) >? L)) with true by lia.
      replace ((0 <=? base + off) && (base + off <=? L)) with false by lia. reflexivity. }
  destruct (Z.eqb_spec whence 0) as [->|N0]; [apply (E 0); lia|].
  destruct (Z.eqb_spec whence 1) as [->|N1]; [apply (E (r_off r)); lia|].
  destruct (Z.eqb_spec whence 2) as [->|N2]; [apply (E L); lia|].
  destruct whence as [|[[| |]|[| |]|]|]; reflexivity || lia.
Qed.

(** The weak invariant, which every operation preserves. *)
Definition weak_inv (r : reader) : Prop :=
  0 <= r_off r <= 2 * lenZ (r_buf r) /\ lenZ (r_buf r) < 2 ^ 62.

Lemma readbytes_beyond n r : lenZ (r_buf r) <= r_off r -> n <> 0 -> r_readbytes n r = (RErr EEof, r).
Proof.
  intros H Hn. unfold r_readbytes, r_size.
  replace (n =? 0) with false by lia. replace (r_off r >=? lenZ (r_buf r)) with true by lia. reflexivity.
Qed.

Lemma readbytes_0 r : r_readbytes 0 r = (ROk [], r).
Proof. reflexivity. Qed.

(** readbytes under the weak invariant *)
Lemma readbytes_weak n r : weak_inv r -> 0 <= n < 2 ^ 62 ->
  let '(x, r') := r_readbytes n r in
  x <> RPanic /\ x <> RFuel /\ r_buf r' = r_buf r /\ (r' = r \/ in_buffer r') /\ r_off r <= r_off r' /\
  (forall d, x = ROk d -> lenZ d = n).
Proof.
  intros [H1 H2] Hn.
  destruct (Z_lt_dec (r_off r) (lenZ (r_buf r))) as [Hlt|Hge].
  - assert (in_buffer r) as HI by (split; lia).
    assert (r_off r + n < 2 ^ 63) as Hs by lia.
    pose proof (readbytes_spec n r HI ltac:(lia) Hs) as S.
    destruct (r_readbytes n r) as [x r']. cbn [fst snd] in S.
    destruct (read_spec_in_buffer n r x r' HI (proj1 Hn) S) as [HI' HB].
    inversion S; subst; cbn; repeat split; auto; try discriminate; try lia; intros d' E; inversion E; subst; auto.
  - destruct (Z.eq_dec n 0) as [->|Hn0].
    + rewrite readbytes_0. repeat split; auto; try discriminate; try lia. intros d E; inversion E; reflexivity.
    + rewrite readbytes_beyond by lia. repeat split; auto; try discriminate; lia.
Qed.

Lemma do_read_weak c r : weak_inv r -> 0 <= call_len c < 2 ^ 62 ->
  let '(x, r') := do_read c r in
  is_panic x = false /\ r_buf r' = r_buf r /\ (r' = r \/ in_buffer r').
Proof.
  intros H Hn. pose proof (readbytes_weak _ r H Hn) as W.
  destruct c; cbn [do_read call_len] in *; unfold r_read, r_readbyte in *;
  destruct (r_readbytes _ r) as [x r'] eqn:E; destruct W as (W1 & W2 & W3 & W4 & W5 & W6).
  - destruct x as [[|b l]| | |]; cbn; auto; congruence.
  - destruct x; cbn; auto; congruence.
  - destruct x; cbn; auto; congruence.
Qed.

Lemma seek_weak off whence r : lenZ (r_buf r) < 2 ^ 62 ->
  let '(x, r') := r_seek off whence r in
  is_panic x = false /\ r_buf r' = r_buf r /\ (r' = r \/ in_buffer r').
Proof.
  intros HL. unfold r_seek, r_size.
  assert (E : forall base,
    let '(x, r') := (let origin := wrap64 (base + off) in
     if (origin <? 0) || (origin >? lenZ (r_buf r)) then (RErr EOffset, r) else (ROk origin, mkReader (r_buf r) origin)) in
    is_panic x = false /\ r_buf r' = r_buf r /\ (r' = r \/ in_buffer r')).
  { intro base. cbv zeta.
    destruct ((wrap64 (base + off) <? 0) || (wrap64 (base + off) >? lenZ (r_buf r))) eqn:C; cbn; auto.
    repeat split; auto. right. split; cbn; lia. }
  destruct (whence =? 0); [apply (E 0)|].
  destruct (whence =? 1); [apply (E (r_off r))|].
  destruct (whence =? 2); [apply E|]. cbn; auto.
Qed.

Lemma in_buffer_weak r : in_buffer r -> lenZ (r_buf r) < 2 ^ 62 -> weak_inv r.
Proof. intros [H1 H2] H. pose proof (lenZ_nonneg (r_buf r)). split; lia. Qed.

Lemma step_weak o r : weak_inv r -> op_ok o ->
  let '(p, r') := step o r in
  p = false /\ r_buf r' = r_buf r /\ weak_inv r' /\
  ((in_buffer r -> (o = OpRead2EOF -> r_off r = 0 \/ lenZ (r_buf r) <= r_off r) -> in_buffer r')).
Proof.
  intros H Ho.
  assert (K : forall (p : bool) r', p = false /\ r_buf r' = r_buf r /\ (r' = r \/ in_buffer r') ->
    p = false /\ r_buf r' = r_buf r /\ weak_inv r' /\
    ((in_buffer r -> (o = OpRead2EOF -> r_off r = 0 \/ lenZ (r_buf r) <= r_off r) -> in_buffer r'))).
  { intros p r' (A & B & C). split; [assumption|]. split; [assumption|].
    destruct C as [->|C]; [split; auto|]. split; [|auto].
    apply in_buffer_weak; [assumption | rewrite B; apply H]. }
  destruct o; cbn [step op_ok] in *.
  - pose proof (do_read_weak c r H Ho) as W. destruct (do_read c r). apply K, W.
  - unfold r_readat. pose proof (seek_weak off 0 r (proj2 H)) as W.
    destruct (r_seek off 0 r) as [x r1]. destruct W as (W1 & W2 & W3).
    destruct x; cbn [is_panic] in W1; try discriminate.
    + unfold r_read.
      assert (weak_inv r1) as Hr1.
      { destruct W3 as [->|W3]; [assumption|]. apply in_buffer_weak; [assumption | rewrite W2; apply H]. }
      pose proof (readbytes_weak n r1 Hr1 (proj1 Ho)) as V.
      destruct (r_readbytes n r1) as [y r2]. destruct V as (V1 & V2 & V3 & V4 & V5 & V6).
      apply K. repeat split; [destruct y; auto; congruence | congruence |].
      destruct V4 as [->|V4]; auto.
    + apply K. auto.
    + apply K. auto.
  - pose proof (seek_weak off whence r (proj2 H)) as W. destruct (r_seek off whence r). apply K, W.
  - unfold r_writeto. destruct writer_ok; apply K; cbn; repeat split; auto.
    right. split; cbn; unfold r_size; [pose proof (lenZ_nonneg (r_buf r)); lia | destruct H; lia].
  - unfold r_read2eof, r_size. destruct H as [H1 H2].
    destruct (Z.geb_spec (r_off r) (lenZ (r_buf r))).
    + split; [reflexivity|]. split; [reflexivity|]. split; [split; assumption | auto].
    + replace (r_off r <? 0) with false by lia. rewrite wrap64_small by lia.
      split; [reflexivity|]. split; [reflexivity|].
      split; [split; cbn [r_off r_buf]; lia|].
      intros _ H3. destruct (H3 eq_refl); [|lia]. split; cbn [r_off r_buf]; lia.
  - unfold r_dumpstring. destruct (off >=? r_size r); [split; auto|].
    replace (off <? 0) with false by lia. split; auto.
Qed.

Lemma run_ops_weak l : forall r, weak_inv r -> Forall op_ok l ->
  let '(p, r') := run_ops l r in
  p = false /\ r_buf r' = r_buf r /\ weak_inv r' /\
  (in_buffer r -> eof_from_start l r -> in_buffer r').
Proof.
  induction l as [|o l IH]; intros r H HF; cbn [run_ops eof_from_start].
  - split; auto.
  - inversion HF as [|? ? Ho HF']; subst. pose proof (step_weak o r H Ho) as S.
    destruct (step o r) as [p r1]. destruct S as (S1 & S2 & S3 & S4).
    specialize (IH r1 S3 HF'). destruct (run_ops l r1) as [q r2]. destruct IH as (I1 & I2 & I3 & I4).
    subst. split; [reflexivity|]. split; [congruence|]. split; [assumption|].
    intros B [E1 E2]. cbn [snd] in E2. apply I4; auto.
Qed.

Lemma do_read_spec c r : in_buffer r -> 0 <= call_len c -> r_off r + call_len c < 2 ^ 63 ->
  read_spec (call_len c) r (fst (do_read c r)) (snd (do_read c r)).
Proof. intros. rewrite do_read_readbytes by assumption. apply readbytes_spec; assumption. Qed.

Lemma delivered_history cs r ds r' : in_buffer r ->
  Forall (fun c => 0 <= call_len c /\ lenZ (r_buf r) + call_len c < 2 ^ 63) cs ->
  delivered cs r = (ds, r') ->
  in_buffer r' /\ r_buf r' = r_buf r /\ remaining r = ds ++ remaining r' /\ r_off r' = r_off r + lenZ ds.
Proof. intros H1 H2 E. pose proof (delivered_spec cs r H1 H2) as S. rewrite E in S. exact S. Qed.

Lemma run_ops_no_panic l data : lenZ data < 2 ^ 62 -> Forall op_ok l ->
  fst (run_ops l (r_new data)) = false /\
  r_buf (snd (run_ops l (r_new data))) = data /\
  - lenZ data <= r_rest (snd (run_ops l (r_new data))) <= lenZ data.
Proof.
  intros HL HF. pose proof (lenZ_nonneg data).
  assert (weak_inv (r_new data)) as W by (split; cbn [r_new r_off r_buf]; lia).
  pose proof (run_ops_weak l (r_new data) W HF) as S.
  destruct (run_ops l (r_new data)) as [p r']. cbn [fst snd] in *.
  destruct S as (S1 & S2 & [S3 S3'] & S4). cbn [r_new r_buf] in S2.
  split; [assumption|]. split; [assumption|].
  unfold r_rest, r_size. rewrite S2 in *. rewrite wrap64_small by lia. lia.
Qed.

Lemma run_ops_in_buffer l data : lenZ data < 2 ^ 62 -> Forall op_ok l ->
  eof_from_start l (r_new data) ->
  0 <= r_rest (snd (run_ops l (r_new data))) <= lenZ data.
Proof.
  intros HL HF HE. pose proof (lenZ_nonneg data).
  assert (weak_inv (r_new data)) as W by (split; cbn [r_new r_off r_buf]; lia).
  pose proof (run_ops_weak l (r_new data) W HF) as S.
  destruct (run_ops l (r_new data)) as [p r']. cbn [fst snd] in *.
  destruct S as (S1 & S2 & S3 & S4). cbn [r_new r_buf] in S2.
  assert (in_buffer r') as [B1 B2] by (apply S4; [split; cbn [r_new r_off r_buf]; lia | assumption]).
  unfold r_rest, r_size. rewrite S2 in *. rewrite wrap64_small by lia. lia.
Qed.

Lemma read2eof_spec r : in_buffer r -> lenZ (r_buf r) < 2 ^ 62 -> r_off r < lenZ (r_buf r) ->
  exists r', r_read2eof r = (ROk (remaining r), r') /\ r_buf r' = r_buf r /\ r_rest r' = - r_off r.
Proof.
  intros [H1 H2] H3 H4. unfold r_read2eof, r_size.
  replace (r_off r >=? lenZ (r_buf r)) with false by lia.
  replace (r_off r <? 0) with false by lia.
  rewrite wrap64_small by lia. eexists. split; [reflexivity|]. split; [reflexivity|].
  unfold r_rest, r_size. cbn [r_off r_buf]. rewrite wrap64_small by lia. lia.
Qed.

Lemma do_read_past_end c r : r_rest r < 0 -> lenZ (r_buf r) < 2 ^ 62 -> 0 <= r_off r < 2 ^ 63 ->
  call_len c <> 0 -> do_read c r = (RErr EEof, r).
Proof.
  intros H1 H2 H3 H4. unfold r_rest, r_size in H1. pose proof (lenZ_nonneg (r_buf r)).
  rewrite wrap64_small in H1 by lia.
  destruct c; cbn [do_read call_len] in *; unfold r_read, r_readbyte; rewrite readbytes_beyond by lia; reflexivity.
Qed.
