(** * PropDump: how long dumps are, and how much is shown with the debug option (C65). *)
From Coq Require Import Strings.String Strings.Byte List NArith ZArith Bool Arith Lia ZifyBool ZifyN ZifyNat.
From Verif Require Import Base Utf8 Item Json Reader Context Env Values Opaque Monad Subs Tags Parse Radix64.
From Verif Require Import SpecBase BaseL SpecFrame SpecNest SpecParse FrameL FramingL GrammarL ParseL StreamL CompL PropFrame PropHistory SpecCount PropCount SpecSize SpecDump SizeL SizeGL PropSize DepthL DepthGL PropDepth SizeItemL JsonL JsonDocL SpecJson PropJson PropParse PropRadix64 ArmorSizeL DumpL PropBound Witness.
From Verif Require Import Cli Facade SpecFacade PropFacade PropAcceptCmd SpecArmor.
Import ListNotations.
Local Open Scope Z_scope.

(** A packet and the packets in its compressed contents. *)
Lemma expand_narrow o E B : forall fuel c it cs i cs', chunks_ok c -> Z.of_nat (chunks_left c) <= B -> dw it <= 3 * B ->
  expand_loop o E fuel c it cs = (ROk i, cs') -> dw i <= 3 * B.
Proof.
  induction fuel as [|fuel IH]; intros c it cs i cs' [PO L] CB D H; [discriminate H|]. cbn [expand_loop] in H. unfold next_chunks in H.
  pose proof (next_packet_chunks (e_grow E) (S (S (chunks_len c))) c PO) as N. specialize (N ltac:(unfold chunks_left, chunks_len; lia)).
  destruct (next_packet _ _ _ _) as [[[[tag b]|e]|] c']; [| |discriminate H].
  - destruct N as (PO' & N1 & N2). destruct (parse_tag o E tag b cs) as [[[i1 x]|e| |] cs1] eqn:P; try discriminate H.
    apply IH in H; [exact H|split; [exact PO'|lia]|lia|]. rewrite dw_add. apply parse_tag_narrow in P; [|unfold lenZ; lia]. unfold lenZ in P. lia.
  - destruct (rerr_err e); inversion H; subst; lia.
Qed.
Lemma packet_narrow o E tag body cs i cs' n : sized body -> unpacked E [(tag, body)] n -> packets_parse o E tag body cs = (ROk i, cs') ->
  dw i <= 3 * (1 + lenZ body + Z.of_nat n).
Proof.
  intros S U H. unfold packets_parse in H. destruct (parse_tag o E tag body cs) as [[[it x]|e| |] cs1] eqn:P; try discriminate H.
  pose proof (parse_tag_narrow o E tag body cs it x cs1 S P) as C. destruct x as [d|]; [|inversion H; subst; lia].
  destruct (expanded_contents o E tag body cs it d cs1 S P) as [-> D]. assert (0 <= lenZ body) as LB by (unfold lenZ; lia).
  assert (sized d /\ (length d <= n)%nat) as [SD LD].
  { destruct D as [D| ->].
    - split; [exact (contents_sized E body d D S)|]. inversion U as [|t b l k NT U'|b l k NC U'|b d' l k D' U']; subst; [contradiction|destruct (NC d D)|].
      inversion U'; subst. assert (d' = d) as -> by (destruct D' as [z|a z d' A1 Z1 F1 L1]; inversion D as [z'|a' z' d1 A2 Z2 F2 L2]; subst; try reflexivity; try (exfalso; revert A1 || revert A2; change (b2n x00) with 0%N; lia); congruence). lia.
    - split; [unfold sized, lenZ; cbn [length]; lia|cbn [length]; lia]. }
  destruct (chunks_of_ok d true SD) as [CO CL]. apply (expand_narrow o E (1 + lenZ body + Z.of_nat n)) in H; [exact H|exact CO|lia|lia].
Qed.
Lemma list_narrow o E l : forall cs n, Forall (fun p => sized (snd p)) l -> unpacked E l n ->
  Z.of_nat (result_dump (fst (parse_list o E l cs))) <= 3 * (Z.of_nat (list_size l) + Z.of_nat n).
Proof.
  induction l as [|[tag body] l IH]; intros cs n F U; cbn [parse_list]; [unfold result_dump; cbn [fst map list_max fold_right]; lia|].
  inversion F as [|p l' S F']; subst. cbn [snd] in S.
  assert (exists a b, unpacked E [(tag, body)] a /\ unpacked E l b /\ (a + b = n)%nat) as (a & b & UA & UB & <-).
  { inversion U; subst; [exists 0%nat, n|exists 0%nat, n|exists (length d), n0]; (split; [|split; [assumption|lia]]).
    - constructor; [assumption|constructor].
    - apply unpacked_closed; [assumption|constructor].
    - replace (length d) with (length d + 0)%nat by lia. apply unpacked_open; [assumption|constructor]. }
  rewrite list_size_cons.
  destruct (packets_parse o E tag body cs) as [[i|e| |] cs'] eqn:P; try (unfold result_dump; cbn [fst map list_max fold_right]; lia).
  specialize (IH cs' b F' UB). pose proof (packet_narrow o E tag body cs i cs' a S UA P) as C.
  destruct (parse_list o E l cs') as [is r]. cbn [fst] in *. unfold result_dump in *. cbn [map]. change (list_max (?x :: ?y)) with (Nat.max x (list_max y)). unfold dw in C. unfold lenZ in C. lia.
Qed.

(** C65.  No dump, whatever the options, is longer than three octets for each octet of the source and of the contents of the compressed packets. *)
Theorem C65_dumps : forall (o : opts) (E : env) (src : stream), fits E src -> decodes_armor E ->
  exists l n, (forall t b, In (t, b) l -> stream_met o E src t b) /\ unpacked E l n /\
    Z.of_nat (result_dump (fst (parse_stream o E src))) <= 3 * Z.of_nat (length (st_data src) + 1 + n).
Proof.
  intros o E src F D. destruct (source_packets o E src F D) as (l & -> & M & _ & S1 & _ & Z). destruct (unpacked_some E l) as [n U].
  exists l, n. split; [exact M|]. split; [exact U|]. pose proof (list_narrow o E l cst_init n Z U). lia.
Qed.
Print Assumptions C65_dumps.

(** Two runs with options that agree on armor and utc meet the same packets. *)
Lemma reading_same E c l1 c1 : reading E c l1 c1 -> forall l2 c2, reading E c l2 c2 -> length l1 = length l2 -> l1 = l2.
Proof.
  induction 1 as [c|c p c1 l c' N R IH]; intros l2 c2 R2 LE; inversion R2 as [?|? p2 c3 l3 ? N2 R3]; subst; try discriminate LE; [reflexivity|].
  rewrite N in N2. inversion N2; subst. f_equal. eapply IH; [exact R3|]. cbn [length] in LE. lia.
Qed.
Lemma source_packets_two o o' E src : fits E src -> decodes_armor E -> same_armor_utc o o' ->
  exists l, fst (parse_stream o E src) = fst (parse_list o E l cst_init) /\ fst (parse_stream o' E src) = fst (parse_list o' E l cst_init) /\
    (forall t b, In (t, b) l -> stream_met o E src t b) /\
    (list_size l <= S (length (st_data src)))%nat /\ Forall (fun p => (fst p < 64)%N) l /\ Forall (fun p => sized (snd p)) l.
Proof.
  intros F D SA. destruct (C05_only_dumps_differ o o' E src F SA) as [_ AL].
  pose proof (C03_terminates o E src F) as NF. pose proof (C03_terminates o' E src F) as NF'. unfold parse_stream in *.
  assert (parse_new o' E src = parse_new o E src) as PN by (unfold parse_new, oArmor; destruct SA as [-> _]; reflexivity). rewrite PN in *.
  destruct (parse_new o E src) as [c|e| |] eqn:N;
    [|exists []; cbn; repeat split; auto using Nat.le_0_l; intros t b []..].
  destruct (parse_chunks o E c) as [items r] eqn:P. destruct (C02_any_input o E c items r P NF) as (l & c' & R & PL & _).
  destruct (parse_chunks o' E c) as [items' r'] eqn:P'. destruct (C02_any_input o' E c items' r' P' NF') as (l' & c'' & R' & PL' & _).
  assert (forall o l items, parse_list o E l cst_init = (items, ROk tt) -> length items = length l) as LEN.
  { clear. intros o l items PL. apply parse_list_items in PL. induction PL as [|x y l l' _ _ IH]; cbn [length]; congruence. }
  cbn [fst] in *. assert (length items = length items') as LI by (clear -AL; induction AL; cbn [length]; congruence).
  assert (l = l') as <- by (apply (reading_same E c l c' R l' c'' R'); rewrite <- (LEN _ _ _ PL), <- (LEN _ _ _ PL'); exact LI).
  pose proof (parse_new_ok o E src c F N) as [PO L]. destruct (reading_size E c l c' R PO) as [S1 T1]. pose proof (source_size o E src c D N) as S2.
  exists l. rewrite PL, PL'. split; [reflexivity|]. split; [reflexivity|]. split; [intros t b I; exists c; split; [exact N|]; exact (met_top E c t b t b (reading_met E c l c' R t b I) (nested_self E t b))|].
  split; [lia|]. split; [exact T1|]. apply list_sized. lia.
Qed.

(** The text of a tree is that of a tree with other dumps, and its own dumps. *)
Lemma alike_octets : forall i i', alike eq dumps_agree eq i i' -> (item_octets i <= item_octets i' + item_count i * longest_dump i)%nat.
Proof.
  apply (item_strong (fun i => forall i', alike eq dumps_agree eq i i' -> (item_octets i <= item_octets i' + item_count i * longest_dump i)%nat)).
  intros n v d t l IH i' A. inversion A as [n0 v0 v' d0 d' t0 t' l0 l' EV _ ET FA]; subst. cbn [item_octets item_count longest_dump].
  set (D := Nat.max (length d) (list_max (map longest_dump l))).
  assert (list_sum (map item_octets l) <= list_sum (map item_octets l') + list_sum (map item_count l) * D)%nat as G; [|lia].
  assert (forall c, In c l -> (longest_dump c <= D)%nat) as LD.
  { intros c HC. pose proof (list_max_in (map longest_dump l) (longest_dump c) (in_map _ _ _ HC)). unfold D. lia. }
  clearbody D. clear A. induction FA as [|x y l l' HA FA IHl]; [cbn; lia|]. cbn [map]. change (list_sum (?a :: ?b)) with (a + list_sum b)%nat.
  pose proof (IH x (or_introl eq_refl) y HA) as H. specialize (IHl (fun c Hc => IH c (or_intror Hc)) (fun c Hc => LD c (or_intror Hc))). specialize (LD x (or_introl eq_refl)).
  assert (item_count x * longest_dump x <= item_count x * D)%nat by (apply Nat.mul_le_mono_l; exact LD). lia.
Qed.
Lemma alikes_octets l l' : Forall2 (alike eq dumps_agree eq) l l' -> (result_octets l <= result_octets l' + result_count l * result_dump l)%nat.
Proof.
  intro FA. unfold result_octets, result_count. assert (forall c, In c l -> (longest_dump c <= result_dump l)%nat) as LD by (intros c HC; exact (list_max_in _ _ (in_map longest_dump l c HC))).
  set (D := result_dump l) in *. clearbody D. induction FA as [|x y l l' HA FA IHl]; [cbn; lia|]. cbn [map]. change (list_sum (?a :: ?b)) with (a + list_sum b)%nat.
  pose proof (alike_octets x y HA) as H. specialize (IHl (fun c Hc => LD c (or_intror Hc))). specialize (LD x (or_introl eq_refl)).
  assert (item_count x * longest_dump x <= item_count x * D)%nat by (apply Nat.mul_le_mono_l; exact LD). lia.
Qed.

(** C65.  With any options, debug among them: the text held by the result, and the outputs, of any source. *)
Theorem C65_any_options : forall (o : opts) (E : env) (src : stream), fits E src -> decodes_armor E ->
  exists l n, (forall t b, In (t, b) l -> stream_met o E src t b) /\ unpacked E l n /\
    let r := fst (parse_stream o E src) in let size := Z.of_nat (length (st_data src) + 1 + n) in
    Z.of_nat (result_octets r) <= 2828 * size + 24 * size ^ 2 /\
    (forall ind, Z.of_nat (length (info_text ind r)) <= (2884 + 419552 * lenZ ind) * size + 24 * size ^ 2) /\
    Z.of_nat (length (info_json r)) <= 17400 * size + 144 * size ^ 2 + 14 /\
    (forall k text, 0 < k -> info_JSON k r = ROk text -> Z.of_nat (length text) <= 17400 * size + 144 * size ^ 2 + 14 + (64 * size + 3) * (2 + 10000 * k)).
Proof.
  intros o E src F D. set (o' := o_set DEBUG false o).
  assert (same_armor_utc o o') as SA by (unfold o', same_armor_utc, o_get, o_set, DEBUG, ARMOR, UTC; cbn; auto).
  assert (oDebug o' = false) as DB by (unfold o', oDebug, o_get, o_set, DEBUG; cbn; auto).
  destruct (source_packets_two o o' E src F D SA) as (l & EQ & EQ' & M & S1 & T & Z). destruct (unpacked_some E l) as [n U].
  exists l, n. split; [exact M|]. split; [exact U|]. cbv zeta. pose proof (C66_bounded o E src F) as K.
  pose proof (alikes_octets _ _ (proj2 (C05_only_dumps_differ o o' E src F SA))) as AL. rewrite EQ, EQ' in *.
  pose proof (list_count o E l cst_init n Z U) as C. pose proof (list_narrow o E l cst_init n Z U) as NW.
  pose proof (list_count o' E l cst_init n Z U) as C'. pose proof (list_held o' E l DB cst_init n T Z U) as H. pose proof (held_octets (fst (parse_list o' E l cst_init))) as O.
  set (r := fst (parse_list o E l cst_init)) in *. set (r' := fst (parse_list o' E l cst_init)) in *. clearbody r r'. pose proof (C65_json r) as J.
  set (N0 := Z.of_nat (length (st_data src) + 1 + n)) in *. assert (Z.of_nat (list_size l) + Z.of_nat n <= N0) as L by (unfold N0; lia). assert (0 <= N0) by (unfold N0; lia). clearbody N0.
  set (cnt := Z.of_nat (result_count r)) in *. assert (0 <= cnt <= 8 * N0) as C0 by (unfold cnt; lia).
  assert (Z.of_nat (result_octets r) <= 2828 * N0 + 24 * N0 ^ 2) as OB.
  { apply inj_le in AL. rewrite Nat2Z.inj_add, Nat2Z.inj_mul in AL. fold cnt in AL.
    assert (cnt * Z.of_nat (result_dump r) <= 8 * N0 * (3 * N0)) by (apply Z.mul_le_mono_nonneg; lia). rewrite Z.pow_2_r. lia. }
  split; [exact OB|]. split; [|split; [lia|]].
  - intro ind. pose proof (C65_text ind r) as X. apply inj_le in X. rewrite Nat2Z.inj_add, Nat2Z.inj_mul, Nat2Z.inj_add, Nat2Z.inj_mul, Nat2Z.inj_mul in X. unfold lenZ. fold cnt in X.
    set (oc := Z.of_nat (result_octets r)) in *. set (dp := Z.of_nat (result_depth r)) in *. set (li := Z.of_nat (length ind)) in *.
    assert (0 <= dp) by (unfold dp; lia). assert (0 <= li) by (unfold li; lia).
    assert (Z.of_nat 2 * li * dp <= 52444 * li) as Q by nia. assert (0 <= Z.of_nat 2 * li * dp) by nia.
    assert (cnt * (Z.of_nat 7 + Z.of_nat 2 * li * dp) <= 8 * N0 * (7 + 52444 * li)) by (apply Z.mul_le_mono_nonneg; lia).
    lia.
  - intros k text KP HJ. pose proof (C65_json_indented k r text KP HJ) as X. unfold lenZ in X. fold cnt in X.
    assert ((8 * cnt + 3) * (2 + k * 10000) <= (64 * N0 + 3) * (2 + 10000 * k)) by (apply Z.mul_le_mono_nonneg; lia). lia.
Qed.
Print Assumptions C65_any_options.

(** The longest output of a result of the given size with any options. *)
Definition longest_dumped (fl : flags) (size : Z) : Z := longest fl size + 144 * size ^ 2.
Lemma put_split w out s : exists j k, fst (put w out s) = firstn j out ++ firstn k s.
Proof.
  unfold put. destruct (w_room w) as [k|]; cbn [fst].
  - exists k, (k - length out)%nat. apply firstn_app.
  - exists (length out), (length s). now rewrite !firstn_all.
Qed.
Lemma firstn_lenZ {A} k (l : list A) : lenZ (firstn k l) <= lenZ l.
Proof. unfold lenZ. apply inj_le. rewrite firstn_length. apply Nat.le_min_r. Qed.
(** What the command shows of an input. *)
Definition shows_at_most (fl : flags) (w : world) (c : command) (shown : bytes) : Prop := shown = [] \/
  exists src o l n, input w c src /\ in_force fl c o /\ (forall t b, In (t, b) l -> stream_met o (w_env w) src t b) /\ unpacked (w_env w) l n /\
    lenZ shown <= longest_dumped fl (Z.of_nat (length (st_data src) + 1 + n)).
Lemma shows_less fl w c k shown : shows_at_most fl w c shown -> shows_at_most fl w c (firstn k shown).
Proof.
  intros [->|(src & o & l & n & A & B & C & U & L)]; [left; apply firstn_nil|right]. exists src, o, l, n. repeat (split; [assumption|]). pose proof (firstn_lenZ k shown). lia.
Qed.
Lemma dump_at_most fl w c o src : decodes_armor (w_env w) -> fits (w_env w) src -> input w c src -> in_force fl c o -> shows_at_most fl w c (snd (dump fl w o src)).
Proof.
  intros D F Hi Ho. unfold dump. destruct (parse_stream o (w_env w) src) as [l [[]|e| |]] eqn:P; try (left; reflexivity).
  destruct (marshal fl l) as [text|e| |] eqn:M; try (left; reflexivity).
  destruct (C65_any_options o (w_env w) src F D) as (ps & n & Met & U & _ & T & J & JI). rewrite P in T, J, JI. cbn [fst] in T, J, JI.
  assert (shows_at_most fl w c text) as LE.
  { right. exists src, o, ps, n. repeat (split; [assumption|]). set (size := Z.of_nat (length (st_data src) + 1 + n)) in *. clearbody size.
    assert (0 <= size ^ 2) by (rewrite Z.pow_2_r; apply Z.square_nonneg).
    unfold marshal in M. unfold longest_dumped, longest, lenZ. destruct (f_json fl).
    - destruct (Z.ltb_spec 0 (f_indent fl)) as [I|I]; [specialize (JI _ _ I M); lia|]. unfold info_JSON in M. replace (0 <? f_indent fl) with false in M by lia. inversion M; subst. lia.
    - destruct (Z.gtb_spec (f_indent fl) 0) as [I|I]; inversion M; subst; [specialize (T (repeat x20 (Z.to_nat (f_indent fl))))|specialize (T [x09])]; unfold lenZ in T.
      + rewrite repeat_length, Z2Nat.id in T by lia. rewrite Z.max_r by lia. lia.
      + rewrite Z.max_l by lia. change (Z.of_nat (length [x09])) with 1 in T. lia. }
  unfold write_from. cbn [st_data st_ok]. destruct (put_split w [] text) as (j & k & Q). destruct (put w [] text) as [out ok]. cbn [fst snd] in *. rewrite Q, firstn_nil. apply shows_less, LE.
Qed.
(** C65.  The command with any flags: standard output holds no more than so much for the input, behind which --debug may put one error message. *)
Theorem C65_command_any : forall (fl : flags) (w : world) (c : command), dump_command c = true ->
  decodes_armor (w_env w) -> (forall src, input w c src -> fits (w_env w) src) ->
  exists shown message, snd (execute fl w c) = shown ++ message /\
    (message = [] \/ f_on fl DEBUG = true /\ exists e k, message = firstn k (w_error w e ++ [x0a])) /\
    (shown = [] \/
     exists src o l n, input w c src /\ in_force fl c o /\ (forall t b, In (t, b) l -> stream_met o (w_env w) src t b) /\ unpacked (w_env w) l n /\
       lenZ shown <= longest_dumped fl (Z.of_nat (length (st_data src) + 1 + n))).
Proof.
  intros fl w c Hc D F. destruct (run_dump_step fl w c Hc) as (s & ER & H). unfold execute. rewrite ER.
  assert (shows_at_most fl w c (snd s)) as S.
  { destruct H as [(src & Hi & o & Ho & ->)|[_ [[e ->]|(u & k & r & _ & [-> | [-> _]])]]]; try (left; reflexivity). apply dump_at_most; auto. }
  fold (shows_at_most fl w c). destruct s as [r out]. cbn [snd] in S. unfold debug_print.
  destruct r as [u|e| |]; [| |exists out, []; rewrite app_nil_r; auto..]; [exists out, []; rewrite app_nil_r; auto|].
  destruct (f_on fl DEBUG) eqn:DB; [|exists out, []; rewrite app_nil_r; auto]. cbn [snd].
  destruct (put_split w out (w_error w e ++ [x0a])) as (j & k & ->). exists (firstn j out), (firstn k (w_error w e ++ [x0a])).
  split; [reflexivity|]. split; [right; eauto|]. apply shows_less, S.
Qed.
Print Assumptions C65_command_any.

(** The signature with a notation: with the debug option the longest dump is that of the packet, three octets for each of its 31, but one. *)
Example C65_dumps_used : let src := mkStream notation_signature true in
  fits env_armor src /\ decodes_armor env_armor /\ snd (parse_stream o_debug env_armor src) = ROk tt /\
  result_dump (fst (parse_stream o_debug env_armor src)) = (3 * (length notation_signature - 2) - 1)%nat /\
  result_dump (fst (parse_stream o_plain env_armor src)) = 11%nat.
Proof.
  cbv zeta. split; [apply decoder_fits; [exact decodes_armor_used | vm_compute; reflexivity]|].
  split; [exact decodes_armor_used|]. split; [vm_compute; reflexivity|]. split; vm_compute; reflexivity.
Qed.
(** The command with --debug: dumps on standard output for a good packet; for a wrong checksum, the message alone. *)
Example C65_command_any_used : let w := armor_world (unlines (changed_block (str "ygNQR1A=") "=GG5/")) in let fl := PropFacade.flags_of [DEBUG] in
  dump_command (CRoot false false []) = true /\ f_on fl DEBUG = true /\ decodes_armor (w_env w) /\ (forall src, input w (CRoot false false []) src -> fits (w_env w) src) /\
  fst (execute fl w (CRoot false false [])) = Some 0 /\ (length (snd (execute (PropFacade.flags_of []) w (CRoot false false []))) < length (snd (execute fl w (CRoot false false []))))%nat.
Proof.
  cbv zeta. split; [reflexivity|]. split; [reflexivity|]. split; [exact decodes_armor_used|]. split; [|split; [vm_compute; reflexivity|vm_compute; lia]].
  intros src H. inversion H; subst; [|discriminate || congruence..]. apply decoder_fits; [exact decodes_armor_used | vm_compute; reflexivity].
Qed.
