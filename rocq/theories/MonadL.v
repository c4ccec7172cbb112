(** * MonadL: symbolic execution of the parsing monad on a reader whose remaining octets are known. *)
From Coq Require Import Strings.String Strings.Byte List NArith ZArith Bool Lia ZifyBool ZifyN ZifyNat.
From Verif Require Import Base BaseL SpecBase Item Reader ReaderL SpecReader Context Env Values Monad.
Import ListNotations.
Local Open Scope Z_scope.

(** The reader over buffer [B] with [rest] still to be read. *)
Definition at_ (B rest : bytes) : reader := mkReader B (lenZ B - lenZ rest).
(** [rest] is the end of [B], and [B] fits in memory. *)
Definition suf (B rest : bytes) : Prop := (exists pre, B = pre ++ rest) /\ lenZ B < 2 ^ 62.

Lemma suf_refl B : lenZ B < 2 ^ 62 -> suf B B.
Proof. intro H. split; [exists []; reflexivity | assumption]. Qed.
Lemma suf_app B d rest : suf B (d ++ rest) -> suf B rest.
Proof. intros [[pre ->] H]. split; [exists (pre ++ d); rewrite app_assoc; reflexivity | assumption]. Qed.
Lemma suf_cons B b rest : suf B (b :: rest) -> suf B rest.
Proof. apply (suf_app B [b] rest). Qed.
Lemma suf_len B rest : suf B rest -> 0 <= lenZ rest <= lenZ B /\ lenZ B < 2 ^ 62.
Proof.
  intros [[pre ->] H]. rewrite lenZ_app in *. pose proof (lenZ_nonneg pre). pose proof (lenZ_nonneg rest). lia.
Qed.
Lemma at_in_buffer B rest : suf B rest -> in_buffer (at_ B rest).
Proof. intro H. apply suf_len in H. split; cbn [at_ r_off r_buf]; lia. Qed.
Lemma at_new B : r_new B = at_ B B.
Proof. unfold r_new, at_. f_equal. lia. Qed.

Lemma at_skipn B rest : suf B rest -> skipn (Z.to_nat (lenZ B - lenZ rest)) B = rest.
Proof.
  intros [[pre ->] H]. rewrite lenZ_app.
  replace (Z.to_nat (lenZ pre + lenZ rest - lenZ rest)) with (length pre) by (unfold lenZ; lia).
  rewrite skipn_app, skipn_all, Nat.sub_diag. reflexivity.
Qed.

Lemma remaining_at B rest : suf B rest -> remaining (at_ B rest) = rest.
Proof. intro H. unfold remaining. cbn [at_ r_off r_buf]. apply at_skipn, H. Qed.

Lemma rest_at B rest : suf B rest -> r_rest (at_ B rest) = lenZ rest.
Proof.
  intro H. apply suf_len in H. unfold r_rest, r_size. cbn [at_ r_off r_buf]. rewrite wrap64_small by lia. lia.
Qed.

Lemma readbytes_at B d rest : suf B (d ++ rest) ->
  r_readbytes (lenZ d) (at_ B (d ++ rest)) = (ROk d, at_ B rest).
Proof.
  intro H. pose proof (suf_len _ _ H) as [L1 L2]. rewrite lenZ_app in L1.
  pose proof (lenZ_nonneg d). pose proof (lenZ_nonneg rest).
  unfold r_readbytes, r_size. cbn [at_ r_off r_buf]. rewrite lenZ_app.
  destruct (Z.eqb_spec (lenZ d) 0) as [E|E].
  { apply Z.eq_le_incl, lenZ_0 in E. subst d. cbn [app]. reflexivity. }
  replace (lenZ B - (lenZ d + lenZ rest) >=? lenZ B) with false by lia.
  rewrite wrap64_small by lia.
  replace (lenZ B - (lenZ d + lenZ rest) + lenZ d) with (lenZ B - lenZ rest) by lia.
  replace (lenZ B - lenZ rest >? lenZ B) with false by lia.
  match goal with |- (if ?c then _ else _) = _ => replace c with false by lia end.
  unfold at_. f_equal. f_equal. unfold slice. replace (lenZ B - lenZ rest - (lenZ B - (lenZ d + lenZ rest))) with (lenZ d) by lia.
  pose proof (at_skipn _ _ H) as K. rewrite lenZ_app in K. rewrite K.
  unfold lenZ. rewrite Nat2Z.id, firstn_app, Nat.sub_diag, firstn_all. cbn. apply app_nil_r.
Qed.

Lemma readbytes_short B rest n : suf B rest -> lenZ rest < n -> n < 2 ^ 62 ->
  r_readbytes n (at_ B rest) = (RErr (if is_nil rest then EEof else EUnexp), at_ B rest).
Proof.
  intros H Hn Hn2. pose proof (suf_len _ _ H) as [L1 L2].
  unfold r_readbytes, r_size. cbn [at_ r_off r_buf].
  replace (n =? 0) with false by lia.
  destruct rest as [|b rest]; cbn [is_nil].
  - rewrite lenZ_nil. replace (lenZ B - 0 >=? lenZ B) with true by lia. reflexivity.
  - rewrite lenZ_cons in *. pose proof (lenZ_nonneg rest).
    replace (lenZ B - (1 + lenZ rest) >=? lenZ B) with false by lia.
    rewrite wrap64_small by lia.
    match goal with |- (if ?c then _ else _) = _ => replace c with true by lia end. reflexivity.
Qed.

Lemma readbyte_at B b rest : suf B (b :: rest) -> r_readbyte (at_ B (b :: rest)) = (ROk b, at_ B rest).
Proof.
  intro H. unfold r_readbyte. pose proof (readbytes_at B [b] rest H) as E.
  change (lenZ [b]) with 1 in E. cbn [app] in E. rewrite E. reflexivity.
Qed.
Lemma readbyte_eof B : suf B [] -> r_readbyte (at_ B []) = (RErr EEof, at_ B []).
Proof. intro H. unfold r_readbyte. rewrite readbytes_short by (assumption || reflexivity). reflexivity. Qed.

Lemma dumpstring_at B rest : suf B rest -> r_dumpstring (lenZ B - lenZ rest) (at_ B rest) = ROk (hexdump rest).
Proof.
  intro H. pose proof (suf_len _ _ H) as [L1 L2]. unfold r_dumpstring, r_size. cbn [at_ r_buf].
  destruct rest as [|b rest].
  - rewrite lenZ_nil. replace (lenZ B - 0 >=? lenZ B) with true by lia. reflexivity.
  - rewrite at_skipn by assumption. rewrite lenZ_cons in *. pose proof (lenZ_nonneg rest).
    replace (lenZ B - (1 + lenZ rest) >=? lenZ B) with false by lia.
    replace (lenZ B - (1 + lenZ rest) <? 0) with false by lia. reflexivity.
Qed.

(** ** Monadic versions *)

Lemma bind_ok {A B} (m : M A) (f : A -> M B) s a s' : m s = (ROk a, s') -> bind m f s = f a s'.
Proof. intro H. unfold bind. rewrite H. reflexivity. Qed.
Lemma bind_err {A B} (m : M A) (f : A -> M B) s e s' : m s = (RErr e, s') -> bind m f s = (RErr e, s').
Proof. intro H. unfold bind. rewrite H. reflexivity. Qed.
Lemma bind_panic {A B} (m : M A) (f : A -> M B) s s' : m s = (RPanic, s') -> bind m f s = (RPanic, s').
Proof. intro H. unfold bind. rewrite H. reflexivity. Qed.
Lemma bind_assoc {A B C} (m : M A) (f : A -> M B) (g : B -> M C) s :
  bind (bind m f) g s = bind m (fun a => bind (f a) g) s.
Proof. unfold bind. destruct (m s) as [[] ?]; reflexivity. Qed.

(** A state with the reader at [rest] of [B]. *)
Definition sat (B rest : bytes) (cs : cst) (it : item) : st := mkSt (at_ B rest) cs it.

Lemma rdByte_at B b rest cs it : suf B (b :: rest) -> rdByte (sat B (b :: rest) cs it) = (ROk b, sat B rest cs it).
Proof. intro H. unfold rdByte, on_rd, sat. cbn [s_rd]. rewrite readbyte_at by assumption. reflexivity. Qed.
Lemma rdByte_eof B cs it : suf B [] -> rdByte (sat B [] cs it) = (RErr EEof, sat B [] cs it).
Proof. intro H. unfold rdByte, on_rd, sat. cbn [s_rd]. rewrite readbyte_eof by assumption. reflexivity. Qed.
Lemma rdBytes_at B d rest n cs it : suf B (d ++ rest) -> n = lenZ d ->
  rdBytes n (sat B (d ++ rest) cs it) = (ROk d, sat B rest cs it).
Proof. intros H ->. unfold rdBytes, on_rd, sat. cbn [s_rd]. rewrite readbytes_at by assumption. reflexivity. Qed.
Lemma rdBytes_short B rest n cs it : suf B rest -> lenZ rest < n -> n < 2 ^ 62 ->
  rdBytes n (sat B rest cs it) = (RErr (if is_nil rest then EEof else EUnexp), sat B rest cs it).
Proof. intros. unfold rdBytes, on_rd, sat. cbn [s_rd]. rewrite readbytes_short by assumption. reflexivity. Qed.
Lemma rdRest_at B rest cs it : suf B rest -> rdRest (sat B rest cs it) = (ROk (lenZ rest), sat B rest cs it).
Proof. intro H. unfold rdRest, sat. cbn [s_rd]. rewrite rest_at by assumption. reflexivity. Qed.
Lemma rdLen_at B rest cs it : rdLen (sat B rest cs it) = (ROk (lenZ B), sat B rest cs it).
Proof. reflexivity. Qed.
Lemma add_at c B rest cs it : add c (sat B rest cs it) = (ROk tt, sat B rest cs (add_child c it)).
Proof. reflexivity. Qed.
Lemma addo_at c B rest cs it : addo c (sat B rest cs it) = (ROk tt, sat B rest cs (add_opt c it)).
Proof. reflexivity. Qed.
Lemma dumpRest_at f B rest cs it : suf B rest ->
  dumpRest f (sat B rest cs it) = (ROk (dump_bytes rest f), sat B rest cs it).
Proof.
  intro H. unfold dumpRest, sat. destruct f; [|reflexivity]. cbn [s_rd]. rewrite rest_at by assumption.
  unfold r_size. cbn [at_ r_buf]. fold (at_ B rest). pose proof (suf_len _ _ H) as [L1 L2].
  rewrite wrap64_small by lia. rewrite dumpstring_at by assumption. reflexivity.
Qed.
Lemma rawData_at name f B rest cs it : suf B rest ->
  rawData name f (sat B rest cs it) = (ROk (Item name [] (dump_bytes rest f) (n_bytes (lenZ rest)) []), sat B rest cs it).
Proof.
  intro H. unfold rawData. erewrite bind_ok by (apply rdRest_at, H). erewrite bind_ok by (apply dumpRest_at, H). reflexivity.
Qed.

(** What addRest adds. *)
Definition rest_item (name : bytes) (f : bool) (rest : bytes) : option item :=
  match rest with
  | [] => None
  | _ => Some (Item name [] (dump_bytes rest f) (n_bytes (lenZ rest)) [])
  end.
Lemma addRest_at name f B rest cs it : suf B rest ->
  addRest name f (sat B rest cs it) = (ROk tt, sat B rest cs (add_opt (rest_item name f rest) it)).
Proof.
  intro H. unfold addRest. erewrite bind_ok by (apply rdRest_at, H).
  destruct rest as [|b rest]; [reflexivity|].
  replace (0 <? lenZ (b :: rest)) with true by (rewrite lenZ_cons; pose proof (lenZ_nonneg rest); lia).
  erewrite bind_ok by (apply rawData_at, H). apply add_at.
Qed.

Lemma rd2EOF_at B rest cs it : suf B rest -> rest <> [] ->
  exists s', rd2EOF (sat B rest cs it) = (ROk rest, s') /\ s_cs s' = cs /\ s_cur s' = it /\ r_buf (s_rd s') = B.
Proof.
  intros H NE. pose proof (suf_len _ _ H) as [L1 L2]. unfold rd2EOF, on_rd, r_read2eof, r_size, sat. cbn [s_rd at_ r_off r_buf s_cs s_cur].
  destruct rest as [|b rest]; [congruence|]. pose proof (lenZ_nonneg rest).
  rewrite at_skipn by assumption. rewrite lenZ_cons in *.
  replace (lenZ B - (1 + lenZ rest) >=? lenZ B) with false by lia.
  replace (lenZ B - (1 + lenZ rest) <? 0) with false by lia.
  eexists. repeat split.
Qed.

(** ** MPIs *)

Lemma newMPI_at B bits data rest cs it : suf B (be_enc 2 bits ++ data ++ rest) ->
  (bits < 65536)%N -> lenN data = ((bits + 7) / 8)%N ->
  newMPI (sat B (be_enc 2 bits ++ data ++ rest) cs it) = (ROk (mkMPI bits data), sat B rest cs it).
Proof.
  intros H Hb Hd. unfold newMPI.
  erewrite bind_ok by (apply rdBytes_at; [exact H | unfold lenZ; rewrite be_enc_length; reflexivity]).
  rewrite be_be_enc. change (256 ^ N.of_nat 2)%N with 65536%N. rewrite N.mod_small by assumption.
  erewrite bind_ok. reflexivity.
  apply rdBytes_at; [apply suf_app in H; exact H|]. rewrite lenZ_lenN, Hd.
  rewrite N2Z.inj_div, N2Z.inj_add. reflexivity.
Qed.

(** Any reader inside its buffer is of the form [at_]. *)
Lemma in_buffer_at r : in_buffer r -> lenZ (r_buf r) < 2 ^ 62 ->
  r = at_ (r_buf r) (remaining r) /\ suf (r_buf r) (remaining r).
Proof.
  intros H L. split.
  - unfold at_. rewrite (remaining_len r H). destruct r as [bb oo]; cbn [r_buf r_off]. f_equal. lia.
  - split; [|assumption]. exists (firstn (Z.to_nat (r_off r)) (r_buf r)). symmetry. apply firstn_skipn.
Qed.

Lemma mpi_octets_div bits k : mpi_octets bits k -> k = ((bits + 7) / 8)%N.
Proof. unfold mpi_octets. intro H. apply N.div_unique with (r := (bits + 7 - 8 * k)%N); lia. Qed.
Lemma mpi_octets_ex bits : mpi_octets bits ((bits + 7) / 8).
Proof.
  unfold mpi_octets. pose proof (N.div_mod (bits + 7) 8 ltac:(discriminate)).
  pose proof (N.mod_lt (bits + 7) 8 ltac:(discriminate)). lia.
Qed.

Lemma two_octets (l : bytes) : length l = 2%nat -> l = be_enc 2 (be l).
Proof. intro H. rewrite <- H. symmetry. apply be_enc_be. Qed.

Lemma newMPI_front r cs it bits data rest :
  in_buffer r -> lenZ (r_buf r) < 2 ^ 62 -> mpi_front (remaining r) bits data rest ->
  exists r', newMPI (mkSt r cs it) = (ROk (mkMPI bits data), mkSt r' cs it)
             /\ r_buf r' = r_buf r /\ in_buffer r' /\ remaining r' = rest.
Proof.
  intros H L (E & Hb & Hd). destruct (in_buffer_at r H L) as [Er Hs].
  exists (at_ (r_buf r) rest). rewrite E in Hs.
  assert (suf (r_buf r) rest) as Hs2 by (apply suf_app, suf_app in Hs; exact Hs).
  split; [|split; [reflexivity|split; [apply at_in_buffer; assumption | apply remaining_at; assumption]]].
  rewrite Er, E. cbn [at_ r_buf]. apply newMPI_at; [assumption|assumption|]. apply mpi_octets_div. assumption.
Qed.

Lemma newMPI_short r cs it :
  in_buffer r -> lenZ (r_buf r) < 2 ^ 62 ->
  (forall bits data rest, ~ mpi_front (remaining r) bits data rest) ->
  exists e s', newMPI (mkSt r cs it) = (RErr e, s') /\ (e = EEof \/ e = EUnexp).
Proof.
  intros H L NF. destruct (in_buffer_at r H L) as [Er Hs].
  set (R := remaining r) in *. set (B := r_buf r) in *. rewrite Er. change (mkSt (at_ B R) cs it) with (sat B R cs it).
  unfold newMPI. destruct (Z_lt_dec (lenZ R) 2) as [HR|HR].
  { erewrite bind_err by (apply rdBytes_short; [exact Hs|exact HR|reflexivity]).
    eexists _, _. split; [reflexivity|]. destruct (is_nil R); auto. }
  assert (exists a b t, R = a :: b :: t) as (a & b & t & ER).
  { destruct R as [|a [|b t]]; try (exfalso; apply HR; reflexivity); eauto. }
  assert (R = [a; b] ++ t) as ER2 by exact ER. rewrite ER2 in Hs |- *.
  erewrite bind_ok by (apply rdBytes_at; [exact Hs | reflexivity]).
  pose proof (be_lt [a; b]) as HB. change (256 ^ lenN [a; b])%N with 65536%N in HB.
  set (bits := be [a; b]) in *.
  destruct (Z_lt_dec (lenZ t) ((Z.of_N bits + 7) / 8)) as [Ht|Ht].
  { erewrite bind_err.
    - eexists _, _. split; [reflexivity|]. instantiate (1 := if is_nil t then EEof else EUnexp). destruct (is_nil t); auto.
    - apply rdBytes_short; [eapply suf_app; exact Hs | exact Ht |].
      assert ((Z.of_N bits + 7) / 8 <= (65535 + 7) / 8) by (apply Z.div_le_mono; lia).
      change ((65535 + 7) / 8) with 8192 in *. lia. }
  exfalso. set (k := ((bits + 7) / 8)%N).
  assert (Z.of_N k = (Z.of_N bits + 7) / 8) as Hk by (unfold k; rewrite N2Z.inj_div, N2Z.inj_add; reflexivity).
  apply (NF bits (firstn (N.to_nat k) t) (skipn (N.to_nat k) t)). repeat split; [|assumption|..].
  - rewrite ER2, firstn_skipn. f_equal. apply two_octets. reflexivity.
  - unfold lenN. rewrite firstn_length. pose proof (mpi_octets_ex bits) as [M1 M2]. fold k in M1, M2. unfold lenZ in Ht. lia.
  - unfold lenN. rewrite firstn_length. pose proof (mpi_octets_ex bits) as [M1 M2]. fold k in M1, M2. unfold lenZ in Ht. lia.
Qed.
