(** * PropCount: a result has at most eight items for each octet (C55). *)
From Coq Require Import Strings.String Strings.Byte List NArith ZArith Bool Arith Lia ZifyBool ZifyN ZifyNat.
From Verif Require Import Base Item Reader Context Env Values Opaque Monad Subs Tags Parse.
From Verif Require Import SpecBase BaseL SpecFrame SpecNest SpecParse FrameL FramingL GrammarL ParseL CompL PropFrame PropHistory SpecCount CountL Witness.
Import ListNotations.
Local Open Scope Z_scope.

(** The packets in the contents of a compressed packet. *)
Lemma expand_count o E fuel : forall c it cs i cs', chunks_ok c ->
  expand_loop o E fuel c it cs = (ROk i, cs') -> cnt i <= cnt it + 8 * Z.of_nat (chunks_left c).
Proof.
  induction fuel as [|fuel IH]; intros c it cs i cs' [PO L] H; [discriminate H|]. cbn [expand_loop] in H. unfold next_chunks in H.
  pose proof (next_packet_chunks (e_grow E) (S (S (chunks_len c))) c PO) as N. specialize (N ltac:(unfold chunks_left, chunks_len; lia)).
  destruct (next_packet _ _ _ _) as [[[[tag b]|e]|] c']; [| |discriminate H].
  - destruct N as (PO' & N1 & N2). destruct (parse_tag o E tag b cs) as [[[i1 x]|e| |] cs1] eqn:P; try discriminate H.
    apply IH in H; [|split; [exact PO'|lia]]. rewrite cnt_add in H. apply parse_tag_count in P; [|unfold sized, lenZ; lia]. unfold lenZ in P. lia.
  - destruct (rerr_err e); inversion H; subst; lia.
Qed.
Lemma contents_sized E body d : contents E body d -> sized body -> sized d.
Proof. destruct 1 as [z|a z d A Z F L]; unfold sized, lenZ, lenN in *; cbn [length]; lia. Qed.
(** One packet, and what is in it. *)
Lemma packet_count o E tag body cs i cs' n : sized body -> unpacked E [(tag, body)] n ->
  packets_parse o E tag body cs = (ROk i, cs') -> cnt i <= 8 * (lenZ body + 1 + Z.of_nat n).
Proof.
  intros S U H. unfold packets_parse in H. destruct (parse_tag o E tag body cs) as [[[it x]|e| |] cs1] eqn:P; try discriminate H.
  pose proof (parse_tag_count o E tag body cs it x cs1 S P) as C. destruct x as [d|]; [|inversion H; subst; lia].
  destruct (expanded_contents o E tag body cs it d cs1 S P) as [-> D].
  assert (sized d /\ (length d <= n)%nat) as [SD LD].
  { destruct D as [D| ->].
    - split; [exact (contents_sized E body d D S)|]. inversion U as [|t b l k NT U'|b l k NC U'|b d' l k D' U']; subst; [contradiction|destruct (NC d D)|].
      inversion U'; subst. assert (d' = d) as -> by (destruct D' as [z|a z d' A1 Z1 F1 L1]; inversion D as [z'|a' z' d1 A2 Z2 F2 L2]; subst; try reflexivity; try (exfalso; revert A1 || revert A2; change (b2n x00) with 0%N; lia); congruence). lia.
    - split; [unfold sized, lenZ; cbn [length]; lia|cbn [length]; lia]. }
  apply expand_count in H; destruct (chunks_of_ok d true SD) as [CO CL]; [|exact CO]. rewrite CL in H. lia.
Qed.
Definition list_size (l : list (N * bytes)) : nat := list_sum (map (fun p => S (length (snd p))) l).
Lemma list_count o E l : forall cs n, Forall (fun p => sized (snd p)) l -> unpacked E l n ->
  Z.of_nat (result_count (fst (parse_list o E l cs))) <= 8 * (Z.of_nat (list_size l) + Z.of_nat n).
Proof.
  induction l as [|[tag body] l IH]; intros cs n F U; cbn [parse_list]; [cbn [fst result_count map list_sum fold_right]; lia|].
  inversion F as [|p l' S F']; subst. cbn [snd] in S.
  assert (exists a b, unpacked E [(tag, body)] a /\ unpacked E l b /\ (a + b = n)%nat) as (a & b & UA & UB & <-).
  { inversion U; subst; [exists 0%nat, n|exists 0%nat, n|exists (length d), n0]; (split; [|split; [assumption|lia]]).
    - constructor; [assumption|constructor].
    - apply unpacked_closed; [assumption|constructor].
    - replace (length d) with (length d + 0)%nat by lia. apply unpacked_open; [assumption|constructor]. }
  destruct (packets_parse o E tag body cs) as [[i|e| |] cs'] eqn:P; try (cbn [fst result_count map list_sum fold_right]; lia).
  specialize (IH cs' b F' UB). pose proof (packet_count o E tag body cs i cs' a S UA P) as C.
  destruct (parse_list o E l cs') as [is r]. cbn [fst] in *. unfold result_count, list_size in *. cbn [map snd].
  change (list_sum (?x :: ?y)) with (x + list_sum y)%nat. unfold cnt, lenZ in C. lia.
Qed.
Lemma unpacked_some E l : exists n, unpacked E l n.
Proof.
  induction l as [|[tag body] l [n IH]]; [exists 0%nat; constructor|]. destruct (N.eq_dec tag 8) as [->|N]; [|exists n; constructor; assumption].
  assert ((exists d, contents E body d) \/ forall d, ~ contents E body d) as [[d D]|D].
  { destruct body as [|a z]; [right; intros d D; inversion D|]. destruct (N.eq_dec (b2n a) 0) as [A|A].
    - left. exists z. replace a with x00 by (symmetry; apply b2n_inj; exact A). constructor.
    - assert (forall d, contents E (a :: z) d -> (1 <= b2n a <= 3)%N /\ z <> [] /\ e_inflate E (b2n a) z = DStream d true /\ (lenN d < 2 ^ 30)%N) as K.
      { intros d D. inversion D; subst; [contradiction|auto]. }
      destruct (N.le_gt_cases (b2n a) 3) as [A3|A3]; [|right; intros d D; destruct (K d D); lia].
      destruct z as [|x z]; [right; intros d D; destruct (K d D) as (_ & Q & _); contradiction|].
      destruct (e_inflate E (b2n a) (x :: z)) as [|d []] eqn:F; [right; intros d D; destruct (K d D) as (_ & _ & Q & _); congruence| |right; intros d' D; destruct (K d' D) as (_ & _ & Q & _); congruence].
      destruct (N.lt_ge_cases (lenN d) (2 ^ 30)) as [L|L]; [|right; intros d' D; destruct (K d' D) as (_ & _ & Q & R); inversion Q; subst; lia].
      left. exists d. apply contents_inflated; [lia|discriminate|exact F|exact L]. }
  - exists (length d + n)%nat. apply unpacked_open; assumption.
  - exists n. apply unpacked_closed; assumption.
Qed.
Lemma list_size_cons t b l : list_size ((t, b) :: l) = (S (length b) + list_size l)%nat.
Proof. reflexivity. Qed.
Lemma list_size_app l l' : list_size (l ++ l') = (list_size l + list_size l')%nat.
Proof. unfold list_size. rewrite map_app, list_sum_app. reflexivity. Qed.
Lemma packets_size l w : packets_in l w -> (list_size l <= length w)%nat.
Proof.
  induction 1 as [|tag body l w w' F P IH]; [apply le_n|]. apply framed_longer in F. rewrite app_length, list_size_cons. lia.
Qed.
Lemma input_size l w : input_of l w -> (list_size l <= length w)%nat.
Proof.
  destruct 1 as [l w P|l w tag body P T]; apply packets_size in P; [exact P|]. rewrite list_size_app, list_size_cons, app_length.
  change (list_size []) with 0%nat. cbn [length]. lia.
Qed.
Lemma list_sized l : Z.of_nat (list_size l) < 2 ^ 62 -> Forall (fun p : N * bytes => sized (snd p)) l.
Proof.
  induction l as [|[t b] l IH]; [constructor|]. rewrite list_size_cons. intro H. constructor; [unfold sized, lenZ; cbn [snd]; lia|apply IH; lia].
Qed.

(** C55.  A well-formed input gives at most eight items for each octet of it and of the contents of its compressed packets. *)
Theorem C55_items : forall (o : opts) (E : env) (l : list (N * bytes)) (w : bytes) (c : chunks) (n : nat),
  input_of l w -> delivers c w -> sized w -> unpacked E l n ->
  (result_count (fst (parse_chunks o E c)) <= 8 * (length w + n))%nat.
Proof.
  intros o E l w c n I D S U. rewrite (C01_framing o E l w c I D). pose proof (input_size l w I) as Z.
  assert (Forall (fun p => sized (snd p)) l) as F by (apply list_sized; unfold sized, lenZ in S; lia).
  pose proof (list_count o E l cst_init n F U). lia.
Qed.
Print Assumptions C55_items.

(** C55.  So do any octets, of which the packets they begin with are opened. *)
Theorem C55_any_octets : forall (o : opts) (E : env) (w : bytes) (c : chunks), delivers c w -> sized w ->
  exists l n, begins l w /\ unpacked E l n /\ (result_count (fst (parse_chunks o E c)) <= 8 * (length w + n))%nat.
Proof.
  intros o E w c D S. destruct (C02_every_input o E c w D) as (l & w1 & rest & -> & P & K).
  assert (forall l', begins l' (w1 ++ rest) -> fst (parse_chunks o E c) = fst (parse_list o E l' cst_init) ->
    exists l n, begins l (w1 ++ rest) /\ unpacked E l n /\ (result_count (fst (parse_chunks o E c)) <= 8 * (length (w1 ++ rest) + n))%nat) as Q.
  { intros l' B R. destruct (unpacked_some E l') as [n U]. exists l', n. split; [exact B|]. split; [exact U|]. rewrite R.
    destruct B as (v & t & EQ & I). apply input_size in I. rewrite EQ in S |- *. rewrite app_length. unfold sized, lenZ in S. rewrite app_length in S.
    pose proof (list_count o E l' cst_init n (list_sized l' ltac:(lia)) U). lia. }
  destruct K as [[-> K]|[(tag & body & T & -> & K)|[(b & t & B & -> & K)|(tag & body & x & R & X & F & K)]]].
  - apply (Q l); [exists w1, []; split; [reflexivity|exact (all_definite _ _ P)]|rewrite K; reflexivity].
  - apply (Q (l ++ [(tag, body)])); [exists (w1 ++ n2b (131 + 4 * tag) :: body), []; split; [rewrite app_nil_r; reflexivity|exact (last_to_end _ _ _ _ P T)]|rewrite K; reflexivity].
  - apply (Q l); [exists w1, (b :: t); split; [reflexivity|exact (all_definite _ _ P)]|rewrite K; unfold or_else; destruct (parse_list o E l cst_init) as [? []]; reflexivity].
  - apply (Q l); [exists w1, rest; split; [reflexivity|exact (all_definite _ _ P)]|rewrite K; unfold or_else; destruct (parse_list o E l cst_init) as [? []]; reflexivity].
Qed.
Print Assumptions C55_any_octets.

(** C55.  Without compressed packets: at most eight items an octet of the input. *)
Theorem C55_no_compression : forall (o : opts) (E : env) (w : bytes) (c : chunks), delivers c w -> sized w ->
  (forall l body, begins l w -> ~ In (8%N, body) l) ->
  (result_count (fst (parse_chunks o E c)) <= 8 * length w)%nat.
Proof.
  intros o E w c D S N. destruct (C55_any_octets o E w c D S) as (l & n & B & U & H).
  assert (n = 0%nat) as ->; [|lia]. assert (forall body, ~ In (8%N, body) l) as NI by (intro body; exact (N l body B)). clear -U NI.
  induction U as [|tag body l n T U IH|body l n C U IH|body d l n C U IH]; [reflexivity|apply IH|exfalso; apply (NI body); left; reflexivity|exfalso; apply (NI body); left; reflexivity].
  intros b H. apply (NI b). right. exact H.
Qed.
Print Assumptions C55_no_compression.

(** A signature whose hashed sub-packets are key flags, stored in a compressed packet without compression. *)
Definition flags_signature (k : nat) : bytes :=
  [x04; x13; x01; x08; x00; n2b (N.of_nat (3 * k))] ++ concat (repeat [x02; x1b; xff] k) ++ [x00; x00; xab; xcd; x00; x01; x01].
Definition flags_input : bytes := let s := flags_signature 10 in [xa0; n2b (lenN s + 3); x00; xc2; n2b (lenN s)] ++ s.
Example C55_items_used :
  let body := skipn 2 flags_input in
  input_of [(8%N, body)] flags_input /\ delivers (chunks_of flags_input true) flags_input /\ sized flags_input /\
  unpacked env0 [(8%N, body)] (length (skipn 1 body)) /\ snd (parse_chunks o_plain env0 (chunks_of flags_input true)) = ROk tt.
Proof.
  cbv zeta. split; [|split; [|split; [|split]]].
  - apply all_definite. rewrite <- (app_nil_r flags_input) at 2. apply one_more; [|constructor]. exact (old_one 8 (skipn 2 flags_input) eq_refl eq_refl).
  - split; [repeat constructor; discriminate|split; reflexivity].
  - reflexivity.
  - rewrite <- (Nat.add_0_r (length _)). apply unpacked_open; [|constructor]. exact (contents_plain env0 (skipn 3 flags_input)).
  - vm_compute. reflexivity.
Qed.
(** One item an octet would be too few: a signature in a packet of its own. *)
Example C55_more_items_than_octets :
  let w := let s := flags_signature 30 in [xc2; n2b (lenN s)] ++ s in
  snd (parse_chunks o_plain env0 (chunks_of w true)) = ROk tt /\
  (2 * length w < result_count (fst (parse_chunks o_plain env0 (chunks_of w true))))%nat.
Proof. cbv zeta. split; [vm_compute; reflexivity|]. vm_compute. lia. Qed.
