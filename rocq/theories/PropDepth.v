(** * PropDepth: how deep a result is (C66). *)
From Coq Require Import Strings.String Strings.Byte List NArith ZArith Bool Arith Lia ZifyBool ZifyN ZifyNat.
From Verif Require Import Base Utf8 Item Json Reader Context Env Values Opaque Monad Subs Tags Parse.
From Verif Require Import SpecBase BaseL SpecFrame SpecNest SpecParse FrameL FramingL GrammarL ParseL StreamL CompL PropFrame PropHistory SpecCount PropCount SpecSize SizeL PropSize DepthL DepthGL Witness.
Import ListNotations.
Local Open Scope Z_scope.

(** A packet and the packets in its compressed contents. *)
Lemma expand_deep o E k : 2 <= k -> forall fuel c it cs i cs', chunks_ok c -> dep it <= k ->
  (forall n, n <= Z.of_nat (chunks_left c) -> forall tag body cs0 i0 d0 cs1, lenZ body <= n -> parse_tag o E tag body cs0 = (ROk (i0, d0), cs1) -> 1 + dep i0 <= k) ->
  expand_loop o E fuel c it cs = (ROk i, cs') -> dep i <= k.
Proof.
  intros K. induction fuel as [|fuel IH]; intros c it cs i cs' [PO L] D B H; [discriminate H|]. cbn [expand_loop] in H. unfold next_chunks in H.
  pose proof (next_packet_chunks (e_grow E) (S (S (chunks_len c))) c PO) as N. specialize (N ltac:(unfold chunks_left, chunks_len; lia)).
  destruct (next_packet _ _ _ _) as [[[[tag b]|e]|] c']; [| |discriminate H].
  - destruct N as (PO' & N1 & N2). destruct (parse_tag o E tag b cs) as [[[i1 x]|e| |] cs1] eqn:P; try discriminate H.
    apply IH in H; [exact H|split; [exact PO'|lia]| |].
    + rewrite dep_add. specialize (B (lenZ b) ltac:(unfold lenZ; lia) tag b cs i1 x cs1 (Z.le_refl _) P). lia.
    + intros n LN. apply B. lia.
  - destruct (rerr_err e); inversion H; subst; lia.
Qed.
Lemma packet_deep o E tag body cs i cs' n : sized body -> unpacked E [(tag, body)] n -> packets_parse o E tag body cs = (ROk i, cs') ->
  5 * dep i <= 30 + 2 * (lenZ body + Z.of_nat n).
Proof.
  intros S U H. unfold packets_parse in H. destruct (parse_tag o E tag body cs) as [[[it x]|e| |] cs1] eqn:P; try discriminate H.
  pose proof (parse_tag_deep o E tag body cs it x cs1 S P) as [C _]. destruct x as [d|]; [|inversion H; subst; lia].
  destruct (expanded_contents o E tag body cs it d cs1 S P) as [-> D]. assert (0 <= lenZ body) as LB by (unfold lenZ; lia).
  assert (sized d /\ (length d <= n)%nat) as [SD LD].
  { destruct D as [D| ->].
    - split; [exact (contents_sized E body d D S)|]. inversion U as [|t b l k NT U'|b l k NC U'|b d' l k D' U']; subst; [contradiction|destruct (NC d D)|].
      inversion U'; subst. assert (d' = d) as -> by (destruct D' as [z|a z d' A1 Z1 F1 L1]; inversion D as [z'|a' z' d1 A2 Z2 F2 L2]; subst; try reflexivity; try (exfalso; revert A1 || revert A2; change (b2n x00) with 0%N; lia); congruence). lia.
    - split; [unfold sized, lenZ; cbn [length]; lia|cbn [length]; lia]. }
  set (k := (30 + 2 * (lenZ body + Z.of_nat n)) / 5). assert (5 * k <= 30 + 2 * (lenZ body + Z.of_nat n) < 5 * k + 5) as K.
  { unfold k. pose proof (Z.div_mod (30 + 2 * (lenZ body + Z.of_nat n)) 5 ltac:(lia)). pose proof (Z.mod_pos_bound (30 + 2 * (lenZ body + Z.of_nat n)) 5 ltac:(lia)). lia. }
  clearbody k. destruct (chunks_of_ok d true SD) as [CO CL]. apply (expand_deep o E k ltac:(lia)) in H; [lia|exact CO|lia|].
  rewrite CL. intros m LM tag' b' cs0 i0 d0 cs2 LB' P'. unfold sized, lenZ in SD. apply parse_tag_deep in P'; [|lia]. lia.
Qed.
Lemma packet_deep_const o E tag body cs i cs' : sized body -> packets_parse o E tag body cs = (ROk i, cs') -> dep i <= 26222.
Proof.
  intros S H. unfold packets_parse in H. destruct (parse_tag o E tag body cs) as [[[it x]|e| |] cs1] eqn:P; try discriminate H.
  pose proof (parse_tag_deep o E tag body cs it x cs1 S P) as [_ C]. destruct x as [d|]; [|inversion H; subst; lia].
  destruct (expanded_contents o E tag body cs it d cs1 S P) as [-> D].
  assert (sized d) as SD by (destruct D as [D| ->]; [exact (contents_sized E body d D S)|unfold sized, lenZ; cbn [length]; lia]).
  destruct (chunks_of_ok d true SD) as [CO CL]. apply (expand_deep o E 26222 ltac:(lia)) in H; [lia|exact CO|lia|].
  rewrite CL. intros m LM tag' b' cs0 i0 d0 cs2 LB' P'. unfold sized, lenZ in SD. apply parse_tag_deep in P'; [|lia]. lia.
Qed.
Lemma result_depth_app l i : Z.of_nat (result_depth (l ++ [i])) = Z.max (Z.of_nat (result_depth l)) (dep i).
Proof.
  unfold result_depth, dep. rewrite map_app. cbn [map]. induction (map item_depth l) as [|x m IH]; cbn [app]; change (list_max (?a :: ?b)) with (Nat.max a (list_max b)).
  - change (list_max (@nil nat)) with 0%nat. lia.
  - lia.
Qed.
Lemma loop_deep o E fuel : forall c cs acc, chunks_ok c -> Z.of_nat (result_depth acc) <= 26222 ->
  Z.of_nat (result_depth (fst (parse_loop o E fuel c cs acc))) <= 26222.
Proof.
  induction fuel as [|fuel IH]; intros c cs acc [PO L] A; [exact A|]. cbn [parse_loop]. unfold next_chunks.
  pose proof (next_packet_chunks (e_grow E) (S (S (chunks_len c))) c PO) as N. specialize (N ltac:(unfold chunks_left, chunks_len; lia)).
  destruct (next_packet _ _ _ _) as [[[[tag b]|e]|] c']; [| |exact A].
  - destruct N as (PO' & N1 & N2). destruct (packets_parse o E tag b cs) as [[i|e| |] cs1] eqn:P; try exact A.
    apply IH; [split; [exact PO'|lia]|]. rewrite result_depth_app. apply packet_deep_const in P; [lia|unfold sized, lenZ; lia].
  - destruct (rerr_err e); exact A.
Qed.

(** C66.  Whatever the source and the options, no more than 26222 items are inside each other. *)
Theorem C66_bounded : forall (o : opts) (E : env) (src : stream), fits E src ->
  Z.of_nat (result_depth (fst (parse_stream o E src))) <= 26222.
Proof.
  intros o E src F. unfold parse_stream. destruct (parse_new o E src) as [c|e| |] eqn:P; try (cbn; lia). apply loop_deep; [exact (parse_new_ok o E src c F P)|cbn; lia].
Qed.
Print Assumptions C66_bounded.
(** C66.  The same for octets delivered in pieces. *)
Theorem C66_pieces : forall (o : opts) (E : env) (w : bytes) (c : chunks), delivers c w -> sized w ->
  Z.of_nat (result_depth (fst (parse_chunks o E c))) <= 26222.
Proof.
  intros o E w c (PO & CW & _) S. apply loop_deep; [|cbn; lia]. split; [exact PO|]. unfold chunks_left. rewrite CW. exact S.
Qed.
Print Assumptions C66_pieces.

(** C66.  Short inputs give shallow results: five octets for two levels. *)
Lemma list_deep o E l : forall cs n, Forall (fun p => sized (snd p)) l -> unpacked E l n ->
  5 * Z.of_nat (result_depth (fst (parse_list o E l cs))) <= 30 + 2 * (Z.of_nat (list_size l) + Z.of_nat n).
Proof.
  induction l as [|[tag body] l IH]; intros cs n F U; cbn [parse_list]; [unfold result_depth; cbn [fst map list_max fold_right]; lia|].
  inversion F as [|p l' S F']; subst. cbn [snd] in S.
  assert (exists a b, unpacked E [(tag, body)] a /\ unpacked E l b /\ (a + b = n)%nat) as (a & b & UA & UB & <-).
  { inversion U; subst; [exists 0%nat, n|exists 0%nat, n|exists (length d), n0]; (split; [|split; [assumption|lia]]).
    - constructor; [assumption|constructor].
    - apply unpacked_closed; [assumption|constructor].
    - replace (length d) with (length d + 0)%nat by lia. apply unpacked_open; [assumption|constructor]. }
  rewrite list_size_cons.
  destruct (packets_parse o E tag body cs) as [[i|e| |] cs'] eqn:P; try (unfold result_depth; cbn [fst map list_max fold_right]; lia).
  specialize (IH cs' b F' UB). pose proof (packet_deep o E tag body cs i cs' a S UA P) as C.
  destruct (parse_list o E l cs') as [is r]. cbn [fst] in *. unfold result_depth in *. cbn [map]. change (list_max (?x :: ?y)) with (Nat.max x (list_max y)). fold (dep i) in *. unfold dep in C. unfold lenZ in C. lia.
Qed.
Theorem C66_short : forall (o : opts) (E : env) (l : list (N * bytes)) (w : bytes) (c : chunks) (n : nat),
  input_of l w -> delivers c w -> sized w -> unpacked E l n ->
  5 * Z.of_nat (result_depth (fst (parse_chunks o E c))) <= 30 + 2 * Z.of_nat (length w + n).
Proof.
  intros o E l w c n I D S U. rewrite (C01_framing o E l w c I D). pose proof (input_size l w I) as Z.
  assert (Forall (fun p => sized (snd p)) l) as F by (apply list_sized; unfold sized, lenZ in S; lia).
  pose proof (list_deep o E l cst_init n F U). lia.
Qed.
Print Assumptions C66_short.

(** C66.  So the plain text, too, is at most so many octets for each octet of the input and of the contents of its compressed packets. *)
Theorem C66_text_linear : forall (o : opts) (E : env) (l : list (N * bytes)) (w : bytes) (c : chunks) (n : nat) (ind : bytes),
  oDebug o = false -> input_of l w -> delivers c w -> sized w -> unpacked E l n ->
  Z.of_nat (length (info_text ind (fst (parse_chunks o E c)))) <= (2884 + 419552 * lenZ ind) * Z.of_nat (length w + n).
Proof.
  intros o E l w c n ind DB I D S U. pose proof (C65_held o E l w c n DB I D S U) as H. pose proof (C55_items o E l w c n I D S U) as C.
  pose proof (C66_pieces o E w c D S) as K. pose proof (C65_text ind (fst (parse_chunks o E c))) as T.
  set (r := fst (parse_chunks o E c)) in *. clearbody r. set (N0 := (length w + n)%nat) in *. clearbody N0. unfold lenZ.
  apply inj_le in T. rewrite Nat2Z.inj_add, Nat2Z.inj_mul, Nat2Z.inj_add, Nat2Z.inj_mul, Nat2Z.inj_mul in T.
  set (cnt := Z.of_nat (result_count r)) in *. set (oc := Z.of_nat (result_octets r)) in *. set (dp := Z.of_nat (result_depth r)) in *. set (li := Z.of_nat (length ind)) in *.
  assert (0 <= cnt <= 8 * Z.of_nat N0) as C' by (unfold cnt; lia). assert (0 <= dp) by (unfold dp; lia). assert (0 <= li) by (unfold li; lia).
  assert (Z.of_nat 2 * li * dp <= 52444 * li) as Q by nia. assert (0 <= Z.of_nat 2 * li * dp) by nia.
  assert (cnt * (Z.of_nat 7 + Z.of_nat 2 * li * dp) <= 8 * Z.of_nat N0 * (7 + 52444 * li)) by (apply Z.mul_le_mono_nonneg; lia).
  lia.
Qed.
Print Assumptions C66_text_linear.

(** Signatures in the sub-packets of signatures. *)
Fixpoint embedded (k : nat) : bytes :=
  match k with
  | O => [x04; x00; x00; x02; x00; x00; x00; x00; x12; x34]
  | Datatypes.S k' =>
    let b := embedded k' in let n := length b in
    let sub := n2b (192 + (N.of_nat n + 1 - 192) / 256) :: n2b (N.of_nat n + 1 - 192) :: x20 :: b in
    let sub := if (N.of_nat n + 1 <? 192)%N then n2b (N.of_nat n + 1) :: x20 :: b else sub in
    [x04; x00; x00; x02; n2b (N.of_nat (length sub) / 256); n2b (N.of_nat (length sub))] ++ sub ++ [x00; x00; x12; x34]
  end.
Definition embedded_input (k : nat) : bytes := let b := embedded k in xc2 :: xff :: x00 :: x00 :: n2b (N.of_nat (length b) / 256) :: n2b (N.of_nat (length b)) :: b.
Example C66_used :
  fits env0 (mkStream (embedded_input 40) true) /\ delivers (chunks_of (embedded_input 3) true) (embedded_input 3) /\ sized (embedded_input 3) /\
  input_of [(2%N, embedded 3)] (embedded_input 3) /\ unpacked env0 [(2%N, embedded 3)] 0%nat /\
  snd (parse_stream o_plain env0 (mkStream (embedded_input 40) true)) = ROk tt /\
  result_depth (fst (parse_stream o_plain env0 (mkStream (embedded_input 40) true))) = (2 + 3 * 40)%nat.
Proof.
  split; [split; [vm_compute; reflexivity|discriminate]|]. split; [split; [repeat constructor; discriminate|split; reflexivity]|]. split; [reflexivity|].
  split; [|split; [constructor; [discriminate|constructor]|split; vm_compute; reflexivity]].
  apply all_definite. rewrite <- (app_nil_r (embedded_input 3)). apply one_more; [|constructor].
  apply (new_format 2 _ (xff :: x00 :: x00 :: n2b (N.of_nat (length (embedded 3)) / 256) :: n2b (N.of_nat (length (embedded 3))) :: embedded 3)); [reflexivity|].
  apply (part_last (embedded 3) [xff; x00; x00; n2b (N.of_nat (length (embedded 3)) / 256); n2b (N.of_nat (length (embedded 3)))]). constructor. reflexivity.
Qed.
