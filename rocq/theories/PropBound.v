(** * PropBound: how much any source makes the program show (C55, C65, C66), binary or armored, whole or failing. *)
From Coq Require Import Strings.String Strings.Byte List NArith ZArith Bool Arith Lia ZifyBool ZifyN ZifyNat.
From Verif Require Import Base Utf8 Item Json Reader Context Env Values Opaque Monad Subs Tags Parse Radix64.
From Verif Require Import SpecBase BaseL SpecFrame SpecNest SpecParse FrameL FramingL GrammarL ParseL StreamL CompL PropFrame PropHistory SpecCount PropCount SpecSize SizeL SizeGL PropSize DepthL DepthGL PropDepth SizeItemL JsonL JsonDocL SpecJson PropJson PropParse PropRadix64 ArmorSizeL Witness.
From Verif Require Import Cli Facade SpecFacade PropFacade PropAcceptCmd SpecArmor.
Import ListNotations.
Local Open Scope Z_scope.

(** The packets that a reader delivers are not longer than what it delivers. *)
Lemma next_chunks_some E c tag b c' : pieces_ok c -> next_chunks E c = (ROk (Some (tag, b)), c') ->
  pieces_ok c' /\ (length b + chunks_left c' < chunks_left c)%nat /\ (tag < 64)%N.
Proof.
  intros PO H. unfold next_chunks in H.
  pose proof (next_packet_chunks (e_grow E) (S (S (chunks_len c))) c PO ltac:(unfold chunks_left, chunks_len; lia)) as N.
  destruct (next_packet _ _ _ _) as [[[[t0 b0]|e]|] c0] eqn:NP; [|destruct (rerr_err e); discriminate H|discriminate H].
  inversion H; subst. destruct N as (P' & _ & L). split; [exact P'|]. split; [exact L|]. exact (next_tag _ _ _ _ _ _ _ NP).
Qed.
Lemma reading_size E c l c' : reading E c l c' -> pieces_ok c -> (list_size l <= chunks_left c)%nat /\ Forall (fun p => (fst p < 64)%N) l.
Proof.
  induction 1 as [c|c [tag b] c1 l c' N R IH]; intro PO; [split; [apply Nat.le_0_l|constructor]|].
  destruct (next_chunks_some E c tag b c1 PO N) as (PO1 & L & T). destruct (IH PO1) as [L1 F1]. rewrite list_size_cons. split; [lia|]. constructor; assumption.
Qed.
Lemma reading_met E c l c' : reading E c l c' -> forall t b, In (t, b) l -> input_packet E c t b.
Proof.
  induction 1 as [c|c [tag b0] c1 l c' N R IH]; intros t b I; [destruct I|]. destruct I as [I|I].
  - inversion I; subst. exact (ip_next E c t b c1 N).
  - exact (ip_later E c tag b0 c1 t b N (IH t b I)).
Qed.
(** What a source delivers is at most one octet longer than it: the decoder of armored text gets a line feed at its end. *)
Lemma source_size o E src c : decodes_armor E -> parse_new o E src = ROk c -> (chunks_left c <= S (length (st_data src)))%nat.
Proof.
  intros D H. assert (forall c0, new_reader_armor E src = ROk c0 -> (chunks_left c0 <= S (length (st_data src)))%nat) as R.
  { clear H. intros c0 H. unfold new_reader_armor in H. destruct (armtext_get src) as [txt| | |] eqn:AG; try discriminate H.
    destruct (e_armor E txt) as [[ps ok]|] eqn:A; [|discriminate H]. inversion H; subst. unfold chunks_left. cbn [k_pieces].
    destruct (filter_pieces ps) as [_ ->]. destruct (D txt) as (cuts & Q). rewrite A in Q. apply armor_decode_len in Q. apply armtext_len in AG. lia. }
  unfold parse_new in H. destruct (oArmor o); [exact (R c H)|]. destruct (new_reader_armor E src) as [c0|e| |] eqn:N; try discriminate H; inversion H; subst; [exact (R c eq_refl)|].
  pose proof (scanned_le (st_data src)) as L. unfold chunks_left, chunks_of. destruct (scanned (st_data src)) as [|x l]; cbn [k_pieces concat is_nil app length] in *; rewrite ?app_nil_r; lia.
Qed.

(** The packets that the result of a parse shows. *)
Lemma source_packets o E src : fits E src -> decodes_armor E ->
  exists l, fst (parse_stream o E src) = fst (parse_list o E l cst_init) /\ (forall t b, In (t, b) l -> stream_met o E src t b) /\
    length (fst (parse_stream o E src)) = length l /\
    (list_size l <= S (length (st_data src)))%nat /\ Forall (fun p => (fst p < 64)%N) l /\ Forall (fun p => sized (snd p)) l.
Proof.
  intros F D. pose proof (C03_terminates o E src F) as NF. unfold parse_stream in *. destruct (parse_new o E src) as [c|e| |] eqn:N;
    [|exists []; cbn; repeat split; auto using Nat.le_0_l; intros t b []..].
  destruct (parse_chunks o E c) as [items r] eqn:P. destruct (C02_any_input o E c items r P NF) as (l & c' & R & PL & _).
  pose proof (parse_new_ok o E src c F N) as [PO L]. destruct (reading_size E c l c' R PO) as [S1 T1]. pose proof (source_size o E src c D N) as S2.
  exists l. cbn [fst]. rewrite PL. split; [reflexivity|]. split; [intros t b I; exists c; split; [exact N|]; exact (met_top E c t b t b (reading_met E c l c' R t b I) (nested_self E t b))|].
  split; [apply parse_list_items in PL; clear -PL; induction PL as [|x y l l' _ _ IH]; cbn [length]; congruence|]. split; [lia|]. split; [exact T1|]. apply list_sized. lia.
Qed.

(** C55.  Any source, whatever it holds and however it ends, gives at most eight items for each octet of it, of a line feed
    after it and of the contents of the compressed packets that are met. *)
Theorem C55_any_source : forall (o : opts) (E : env) (src : stream), fits E src -> decodes_armor E ->
  exists l n, (forall t b, In (t, b) l -> stream_met o E src t b) /\ unpacked E l n /\
    (result_count (fst (parse_stream o E src)) <= 8 * (length (st_data src) + 1 + n))%nat.
Proof.
  intros o E src F D. destruct (source_packets o E src F D) as (l & -> & M & _ & S1 & _ & Z). destruct (unpacked_some E l) as [n U].
  exists l, n. split; [exact M|]. split; [exact U|]. pose proof (list_count o E l cst_init n Z U). lia.
Qed.
Print Assumptions C55_any_source.

(** C55.  Where no compressed packet is met: at most eight items an octet. *)
Theorem C55_any_source_plain : forall (o : opts) (E : env) (src : stream), fits E src -> decodes_armor E ->
  (forall b, ~ stream_met o E src 8 b) ->
  (result_count (fst (parse_stream o E src)) <= 8 * (length (st_data src) + 1))%nat.
Proof.
  intros o E src F D N. destruct (C55_any_source o E src F D) as (l & n & M & U & H). assert (n = 0%nat) as ->; [|lia].
  assert (forall b, ~ In (8%N, b) l) as NI by (intros b I; exact (N b (M 8%N b I))). clear -U NI.
  induction U as [|tag body l n T U IH|body l n C U IH|body d l n C U IH]; [reflexivity|apply IH|exfalso; apply (NI body); left; reflexivity|exfalso; apply (NI body); left; reflexivity].
  intros b H. apply (NI b). right. exact H.
Qed.
Print Assumptions C55_any_source_plain.

(** Indented JSON: line breaks, each followed by at most the indentation of the deepest level, and a blank after the name of a member. *)
Fixpoint breaks (r : raw) : Z :=
  match r with
  | RString _ => 0
  | RArray l => 1 + fold_right (fun x s => 1 + breaks x + s) 0 l
  | RObject l => 1 + fold_right (fun m s => 1 + breaks (snd m) + s) 0 l
  end.
Lemma breaks_nonneg r : 0 <= breaks r.
Proof.
  induction r as [s|l IH|l IH] using raw_ind'; cbn [breaks]; [lia|..]; induction IH as [|x l Hx _ IHl]; cbn [fold_right]; lia.
Qed.
Definition width (l : list bytes) : Z := fold_right (fun x s => lenZ x + s) 0 l.
Lemma join_width sep x l : lenZ (join sep (x :: l)) = width (x :: l) + lenZ sep * lenZ l.
Proof.
  revert x. induction l as [|y l IH]; intro x; [unfold width, lenZ; cbn; lia|].
  change (join sep (x :: y :: l)) with (x ++ sep ++ join sep (y :: l)). rewrite !lenZ_app, IH. unfold width. cbn [fold_right].
  change (lenZ (y :: l)) with (Z.of_nat (S (length l))). unfold lenZ. lia.
Qed.
Lemma newline_width ind d : lenZ (json_newline ind d) = 1 + lenZ ind * Z.of_nat d.
Proof. unfold json_newline, lenZ. induction d as [|d IH]; [cbn [repeat_bytes length]; lia|]. cbn [repeat_bytes length] in *. rewrite app_length. lia. Qed.
Lemma open_close_width a b ind d l D : Z.of_nat d + 1 <= D ->
  lenZ (open_close a b ind d l) <= 2 + width l + (lenZ l - 1 + (if is_nil l then 1 else 0)) + (1 + lenZ l) * (1 + lenZ ind * D).
Proof.
  intro L. unfold open_close. destruct l as [|x l]; [change (lenZ [a; b]) with 2; change (lenZ (@nil bytes)) with 0; cbn [width fold_right is_nil]; pose proof (lenZ_nonneg ind); nia|]. rewrite lenZ_cons.
  rewrite !lenZ_app, join_width, lenZ_cons, !newline_width, !lenZ_cons. cbn [is_nil]. change (lenZ (@nil byte)) with 0. rewrite Nat2Z.inj_succ.
  pose proof (lenZ_nonneg ind) as I. pose proof (lenZ_nonneg l) as K. set (li := lenZ ind) in *. set (k := lenZ l) in *. set (dd := Z.of_nat d) in *.
  assert (0 <= dd) by (unfold dd; lia). assert (li * Z.succ dd <= li * D) by (apply Z.mul_le_mono_nonneg_l; lia). assert (li * dd <= li * D) by (apply Z.mul_le_mono_nonneg_l; lia).
  assert (k * (1 + li * Z.succ dd) <= k * (1 + li * D)) by (apply Z.mul_le_mono_nonneg_l; lia). lia.
Qed.
Lemma compact_width l : l <> [] -> lenZ (join [x2c] l) = width l + (lenZ l - 1).
Proof. destruct l as [|x l]; [congruence|]. intros _. rewrite join_width. change (lenZ [x2c]) with 1. change (lenZ (x :: l)) with (Z.of_nat (S (length l))). unfold lenZ. lia. Qed.
Lemma fold_depth {A} (f : A -> N) l x : In x l -> (f x <= fold_right (fun c m => N.max (f c) m) 0 l)%N.
Proof. induction l as [|y l IH]; intros H; [destruct H|]. cbn [fold_right]. destruct H as [->|H]; [lia|]. specialize (IH H). lia. Qed.
Lemma block_width a b ind d (P C : list bytes) B D : Z.of_nat d + 1 <= D -> length P = length C -> 0 <= B ->
  width P <= width C + B * (2 + lenZ ind * D) - lenZ C * (1 + lenZ ind * D) ->
  lenZ (open_close a b ind d P) <= lenZ (a :: join [x2c] C ++ [b]) + (1 + B) * (2 + lenZ ind * D).
Proof.
  intros L N BB Q. pose proof (open_close_width a b ind d P D L) as O. pose proof (lenZ_nonneg ind) as I. assert (lenZ P = lenZ C) as N' by (unfold lenZ; now rewrite N).
  assert (0 <= lenZ ind * D) as W0 by (apply Z.mul_nonneg_nonneg; lia). set (W := lenZ ind * D) in *. clearbody W.
  rewrite lenZ_cons, lenZ_app. change (lenZ [b]) with 1. destruct C as [|c C]; destruct P as [|p P]; try discriminate N.
  - cbn [open_close join]. change (lenZ [a; b]) with 2. change (lenZ (@nil byte)) with 0. nia.
  - rewrite compact_width by discriminate. rewrite N' in O. cbn [is_nil] in O. set (k := lenZ (c :: C)) in *. lia.
Qed.
Lemma pretty_width ind D : forall r d, Z.of_nat d + Z.of_N (raw_depth r) <= D ->
  lenZ (raw_pretty ind d r) <= lenZ (raw_compact r) + breaks r * (2 + lenZ ind * D).
Proof.
  intro r. induction r as [s|l IH|l IH] using raw_ind'; intros d L; cbn [raw_pretty raw_compact breaks raw_depth] in *; [lia|..]; rewrite N2Z.inj_add in L.
  - apply block_width; [lia|now rewrite !map_length|clear; induction l as [|x l IH]; cbn [fold_right]; [lia|pose proof (breaks_nonneg x); lia]|].
    assert (forall x, In x l -> lenZ (raw_pretty ind (S d) x) <= lenZ (raw_compact x) + breaks x * (2 + lenZ ind * D)) as Q.
    { intros x I. apply (proj1 (Forall_forall _ _) IH x I). pose proof (fold_depth raw_depth l x I). lia. }
    clear IH L. induction l as [|x l IHl]; [cbn; lia|]. cbn [map fold_right]. unfold width in *. cbn [fold_right].
    rewrite lenZ_cons. specialize (IHl (fun y Hy => Q y (or_intror Hy))). specialize (Q x (or_introl eq_refl)). lia.
  - apply block_width; [lia|now rewrite !map_length|clear; induction l as [|x l IH]; cbn [fold_right]; [lia|pose proof (breaks_nonneg (snd x)); lia]|].
    assert (forall x, In x l -> lenZ (pretty_member (fst x) (raw_pretty ind (S d) (snd x))) <= 1 + lenZ (json_member (fst x) (raw_compact (snd x))) + breaks (snd x) * (2 + lenZ ind * D)) as Q.
    { intros x I. assert (lenZ (raw_pretty ind (S d) (snd x)) <= lenZ (raw_compact (snd x)) + breaks (snd x) * (2 + lenZ ind * D)) as H.
      { apply (proj1 (Forall_forall _ _) IH x I). pose proof (fold_depth (fun m => raw_depth (snd m)) l x I). lia. }
      unfold pretty_member, json_member. rewrite !lenZ_cons, !lenZ_app. change (lenZ [x22; x3a; x20]) with 3. change (lenZ [x22; x3a]) with 2. lia. }
    clear IH L. induction l as [|x l IHl]; [cbn; lia|]. cbn [map fold_right]. unfold width in *. cbn [fold_right].
    rewrite lenZ_cons. specialize (IHl (fun y Hy => Q y (or_intror Hy))). specialize (Q x (or_introl eq_refl)). lia.
Qed.
Lemma item_breaks : forall i, breaks (raw_item i) <= 7 * Z.of_nat (item_count i) + Z.of_nat (item_count i) - 1.
Proof.
  apply (item_strong (fun i => breaks (raw_item i) <= 7 * Z.of_nat (item_count i) + Z.of_nat (item_count i) - 1)). intros n v d t l IH. cbn [raw_item breaks item_count].
  assert (fold_right (fun x s => 1 + breaks x + s) 0 (map raw_item l) <= 8 * Z.of_nat (list_sum (map item_count l))) as G.
  { clear - IH. induction l as [|c l IHl]; [cbn; lia|]. cbn [map fold_right]. change (list_sum (?x :: ?y)) with (x + list_sum y)%nat.
    pose proof (IH c (or_introl eq_refl)). specialize (IHl (fun x Hx => IH x (or_intror Hx))). lia. }
  unfold raw_opt. rewrite !fold_right_app. destruct l as [|c l]; cbn [is_nil]; destruct (is_nil t), (is_nil d), (is_nil v); cbn [fold_right snd breaks] in *; lia.
Qed.
Lemma info_breaks l : breaks (raw_info l) <= 8 * Z.of_nat (result_count l) + 3.
Proof.
  unfold raw_info, result_count. destruct l as [|c l]; [cbn; lia|]. cbn [is_nil breaks fold_right snd].
  assert (fold_right (fun x s => 1 + breaks x + s) 0 (map raw_item (c :: l)) <= 8 * Z.of_nat (list_sum (map item_count (c :: l)))) as G; [|lia].
  induction (c :: l) as [|x k IH]; [cbn; lia|]. cbn [map fold_right]. change (list_sum (?x :: ?y)) with (x + list_sum y)%nat. pose proof (item_breaks x). lia.
Qed.

(** C65.  Indented JSON, where there is one: at most eight lines an item, none of them indented more than 10000 times. *)
Theorem C65_json_indented : forall (n : Z) (l : info) (text : bytes), 0 < n -> info_JSON n l = ROk text ->
  lenZ text <= lenZ (info_json l) + (8 * Z.of_nat (result_count l) + 3) * (2 + n * 10000).
Proof.
  intros n l text N H. rewrite indent_result in H by exact N. destruct (_ <=? _)%N eqn:LE; [|discriminate H]. inversion H; subst text. rewrite info_json_raw.
  pose proof (pretty_width (repeat_bytes [x20] (Z.to_nat n)) 10000 (raw_info l) 0) as P. rewrite raw_info_depth in P. unfold max_nesting in LE. specialize (P ltac:(lia)).
  assert (lenZ (repeat_bytes [x20] (Z.to_nat n)) = n) as W by (clear -N; unfold lenZ; rewrite <- (Z2Nat.id n) at 2 by lia; induction (Z.to_nat n) as [|k IH]; [reflexivity|]; cbn [repeat_bytes app length]; lia).
  rewrite W in P. pose proof (info_breaks l) as B. apply (Z.le_trans _ _ _ P). apply Z.add_le_mono_l. apply Z.mul_le_mono_nonneg_r; [lia|exact B].
Qed.
Print Assumptions C65_json_indented.

(** C65, C66.  Without the debug option: the text held by the result, the text output and the JSON output, compact or indented, of any source. *)
Theorem C65_any_source : forall (o : opts) (E : env) (src : stream), fits E src -> decodes_armor E -> oDebug o = false ->
  exists l n, (forall t b, In (t, b) l -> stream_met o E src t b) /\ unpacked E l n /\
    let r := fst (parse_stream o E src) in let size := Z.of_nat (length (st_data src) + 1 + n) in
    Z.of_nat (result_octets r) <= 2828 * size /\
    (forall ind, Z.of_nat (length (info_text ind r)) <= (2884 + 419552 * lenZ ind) * size) /\
    Z.of_nat (length (info_json r)) <= 17400 * size + 14 /\
    (forall k text, 0 < k -> info_JSON k r = ROk text -> Z.of_nat (length text) <= 17400 * size + 14 + (64 * size + 3) * (2 + 10000 * k)).
Proof.
  intros o E src F D DB. destruct (source_packets o E src F D) as (l & EQ & M & _ & S1 & T & Z). destruct (unpacked_some E l) as [n U].
  exists l, n. split; [exact M|]. split; [exact U|]. cbv zeta. pose proof (C66_bounded o E src F) as K. rewrite EQ in *.
  pose proof (list_count o E l cst_init n Z U) as C. pose proof (list_held o E l DB cst_init n T Z U) as H. pose proof (held_octets (fst (parse_list o E l cst_init))) as O.
  set (r := fst (parse_list o E l cst_init)) in *. clearbody r. pose proof (C65_json r) as J. split; [lia|].
  set (N0 := Z.of_nat (length (st_data src) + 1 + n)) in *. assert (Z.of_nat (list_size l) + Z.of_nat n <= N0) as L by (unfold N0; lia). clearbody N0.
  set (cnt := Z.of_nat (result_count r)) in *. assert (0 <= cnt <= 8 * N0) as C' by (unfold cnt; lia).
  split; [|split; [lia|]].
  - intro ind. pose proof (C65_text ind r) as X. apply inj_le in X. rewrite Nat2Z.inj_add, Nat2Z.inj_mul, Nat2Z.inj_add, Nat2Z.inj_mul, Nat2Z.inj_mul in X. unfold lenZ. fold cnt in X.
    set (oc := Z.of_nat (result_octets r)) in *. set (dp := Z.of_nat (result_depth r)) in *. set (li := Z.of_nat (length ind)) in *.
    assert (0 <= dp) by (unfold dp; lia). assert (0 <= li) by (unfold li; lia).
    assert (Z.of_nat 2 * li * dp <= 52444 * li) as Q by nia. assert (0 <= Z.of_nat 2 * li * dp) by nia.
    assert (cnt * (Z.of_nat 7 + Z.of_nat 2 * li * dp) <= 8 * N0 * (7 + 52444 * li)) by (apply Z.mul_le_mono_nonneg; lia).
    lia.
  - intros k text KP HJ. pose proof (C65_json_indented k r text KP HJ) as X. unfold lenZ in X. fold cnt in X.
    assert ((8 * cnt + 3) * (2 + k * 10000) <= (64 * N0 + 3) * (2 + 10000 * k)) by (apply Z.mul_le_mono_nonneg; lia). lia.
Qed.
Print Assumptions C65_any_source.

(** The longest output of a result of the given size, with the options for the output. *)
Definition longest (fl : flags) (size : Z) : Z :=
  if f_json fl then 17400 * size + 14 + (if 0 <? f_indent fl then (64 * size + 3) * (2 + 10000 * f_indent fl) else 0)
  else (2884 + 419552 * Z.max 1 (f_indent fl)) * size.

(** C65.  The command, whatever happens: without --debug, standard output holds nothing, or no more than so much for each octet of the
    input and of the contents of the compressed packets that are met in it. *)
Theorem C65_command : forall (fl : flags) (w : world) (c : command), dump_command c = true -> f_on fl DEBUG = false ->
  decodes_armor (w_env w) -> (forall src, input w c src -> fits (w_env w) src) ->
  snd (execute fl w c) = [] \/
  exists src o l n, input w c src /\ in_force fl c o /\ (forall t b, In (t, b) l -> stream_met o (w_env w) src t b) /\ unpacked (w_env w) l n /\
    lenZ (snd (execute fl w c)) <= longest fl (Z.of_nat (length (st_data src) + 1 + n)).
Proof.
  intros fl w c Hc Hd D F. unfold execute.
  destruct (run_dump fl w c Hc Hd) as [(src & Hi & o & Ho & ->)|[_ [[e ->]|(u & k & r & _ & [-> | [-> _]])]]]; try (left; reflexivity).
  unfold dump. destruct (parse_stream o (w_env w) src) as [l [[]|e| |]] eqn:P; try (left; reflexivity).
  destruct (marshal fl l) as [text|e| |] eqn:M; try (left; reflexivity). right.
  assert (oDebug o = false) as DB by (unfold oDebug, o_get; rewrite (Ho DEBUG); cbn; exact Hd).
  destruct (C65_any_source o (w_env w) src (F src Hi) D DB) as (ps & n & Met & U & _ & T & J & JI). rewrite P in T, J, JI. cbn [fst] in T, J, JI.
  exists src, o, ps, n. split; [exact Hi|]. split; [exact Ho|]. split; [exact Met|]. split; [exact U|].
  set (size := Z.of_nat (length (st_data src) + 1 + n)) in *. clearbody size.
  assert (lenZ text <= longest fl size) as LE.
  { unfold marshal in M. unfold longest, lenZ. destruct (f_json fl).
    - destruct (Z.ltb_spec 0 (f_indent fl)) as [I|I]; [exact (JI _ _ I M)|]. unfold info_JSON in M. replace (0 <? f_indent fl) with false in M by lia. inversion M; subst. lia.
    - destruct (Z.gtb_spec (f_indent fl) 0) as [I|I]; inversion M; subst; [specialize (T (repeat x20 (Z.to_nat (f_indent fl))))|specialize (T [x09])]; unfold lenZ in T.
      + rewrite repeat_length, Z2Nat.id in T by lia. rewrite Z.max_r by lia. exact T.
      + rewrite Z.max_l by lia. exact T. }
  unfold write_from. cbn [st_data st_ok]. destruct (takes_dec w text) as [TT|TT].
  - rewrite put_takes by exact TT. exact LE.
  - destruct (put_fails w text TT) as (k & _ & _ & ->). refine (Z.le_trans _ (lenZ text) _ _ LE). unfold lenZ. apply inj_le. cbn [negb snd]. rewrite firstn_length. apply Nat.le_min_r.
Qed.
Print Assumptions C65_command.

(** A source that ends with an error: an armored marker packet whose checksum is wrong.  It gives items nevertheless. *)
Example C65_any_source_used : let src := mkStream (unlines (changed_block (str "ygNRR1A=") "=GG5/")) true in
  fits env_armor src /\ decodes_armor env_armor /\ oDebug o_plain = false /\ snd (parse_stream o_plain env_armor src) = RErr EIO /\
  (0 < result_count (fst (parse_stream o_plain env_armor src)))%nat /\ (forall b, ~ stream_met o_plain env_armor src 8 b).
Proof.
  cbv zeta. split; [apply decoder_fits; [exact decodes_armor_used | vm_compute; reflexivity]|].
  split; [exact decodes_armor_used|]. split; [reflexivity|]. split; [vm_compute; reflexivity|]. split; [vm_compute; lia|].
  intros b (c & P & M). vm_compute in P. inversion P; subst c.
  assert (forall t x, input_packet env_armor {| k_pieces := [[xca; x03; x51; x47; x50]]; k_ok := false |} t x -> t = 10%N /\ x = [x51; x47; x50]) as Q.
  { intros t x I. inversion I as [c0 t0 b0 c' N|c0 t1 b1 c' t0 b0 N I']; subst; vm_compute in N; inversion N; subst; [auto|]. inversion I' as [? ? ? ? N'|? ? ? ? ? ? N' ?]; vm_compute in N'; discriminate N'. }
  inversion M as [t0 b0 I Ne|body d t0 b0 I C J Ne]; subst; apply Q in I as [I1 I2]; [subst; inversion Ne|discriminate I1].
Qed.
(** The command with the whole packet writes JSON with four blanks a level. *)
Example C65_command_used : let w := armor_world (unlines (changed_block (str "ygNQR1A=") "=GG5/")) in let fl := mkFlags true 4 (f_on (flags_of [])) in
  dump_command (CRoot false false []) = true /\ f_on fl DEBUG = false /\ decodes_armor (w_env w) /\ (forall src, input w (CRoot false false []) src -> fits (w_env w) src) /\
  fst (execute fl w (CRoot false false [])) = Some 0 /\ (100 < length (snd (execute fl w (CRoot false false []))))%nat.
Proof.
  cbv zeta. split; [reflexivity|]. split; [reflexivity|]. split; [exact decodes_armor_used|]. split; [|split; [vm_compute; reflexivity|vm_compute; lia]].
  intros src H. inversion H; subst; [|discriminate || congruence..]. apply decoder_fits; [exact decodes_armor_used | vm_compute; reflexivity].
Qed.
