(** * PropFrame: C01, C02. *)
From Coq Require Import Strings.String Strings.Byte List NArith ZArith Bool Lia ZifyBool ZifyN ZifyNat.
From Verif Require Import Base Item Reader Context Env Values Opaque Monad Subs Tags Parse SpecBase BaseL SpecValues SpecText SpecArmor PropArmor
  SpecPacket PacketL FrameL SpecFrame GrammarL FramingL HeadL Witness.
Import ListNotations.
Local Open Scope N_scope.

(** The packets used in the examples: a literal data packet and a marker packet. *)
Definition lit_body : bytes := [x62; x01; x61; x00; x00; x00; x01; x78; x79].
Definition ex_packets : list (N * bytes) := [(11, lit_body); (10, [x50; x47; x50]); (63, [x2a])].
(** Framed in three ways: old format with two length octets, partial lengths, five length octets. *)
Definition ex_bytes : bytes :=
  ([xad; x00; x09] ++ lit_body) ++ ([xca; xe1; x50; x47; x01; x50]) ++ [xff; xff; x00; x00; x00; x01; x2a].
Example ex_framed : packets_in ex_packets ex_bytes.
Proof.
  unfold ex_bytes, ex_packets. rewrite <- (app_nil_r [xff; _; _; _; _; _; _]). constructor; [|constructor; [|constructor; [|constructor]]].
  - apply (old_two 11 lit_body); reflexivity.
  - apply (new_format 10 [x50; x47; x50] [xe1; x50; x47; x01; x50]); [reflexivity|].
    apply (part_more 1 [x50; x47] [x50] [x01; x50]); [discriminate | reflexivity |].
    apply (part_last [x50] [x01]). apply (len_one 1). reflexivity.
  - apply (new_format 63 [x2a] [xff; x00; x00; x00; x01; x2a]); [reflexivity|].
    apply (part_last [x2a] [xff; x00; x00; x00; x01]). apply (len_five 1). reflexivity.
Qed.
(** The reader delivers the input in two pieces, cut inside the first body. *)
Definition ex_reader : chunks := mkChunks [firstn 5 ex_bytes; skipn 5 ex_bytes] true.
Example ex_delivers : delivers ex_reader ex_bytes.
Proof. split; [repeat constructor; discriminate | split; reflexivity]. Qed.

Lemma delivers_inv c w : delivers c w -> c_inv true c /\ c_data c = w.
Proof. intros (A & B & D). repeat split; assumption. Qed.
Lemma packets_in_app l1 w1 : packets_in l1 w1 -> forall l2 w2, packets_in l2 w2 -> packets_in (l1 ++ l2) (w1 ++ w2).
Proof.
  induction 1 as [|tag body l w w' F P IH]; intros l2 w2 Q; [exact Q|]. rewrite <- app_assoc. cbn [app]. constructor; [exact F | apply IH, Q].
Qed.
Lemma parse_list_app o E l1 : forall l2 cs, parse_list o E (l1 ++ l2) cs =
  match snd (parse_list o E l1 cs) with
  | ROk _ => both (fst (parse_list o E l1 cs)) (parse_list o E l2 (list_state o E l1 cs))
  | _ => parse_list o E l1 cs
  end.
Proof.
  induction l1 as [|[tag body] l1 IH]; intros l2 cs.
  - cbn [app parse_list fst snd list_state both]. unfold both. cbn [app]. destruct (parse_list o E l2 cs); reflexivity.
  - cbn [app parse_list list_state]. destruct (packets_parse o E tag body cs) as [[i|e| |] cs1]; cbn [fst snd]; try reflexivity.
    rewrite IH. destruct (parse_list o E l1 cs1) as [is [u|e| |]]; cbn [fst snd]; reflexivity.
Qed.

(** C01.  A sequence of packets, each in any legal frame (the last one possibly of indeterminate length), gives exactly
    what the packets give one after the other: the frames and the pieces in which the reader delivers do not matter. *)
Theorem C01_framing : forall (o : opts) (E : env) (l : list (N * bytes)) (w : bytes) (c : chunks),
  input_of l w -> delivers c w -> parse_chunks o E c = parse_list o E l cst_init.
Proof.
  intros o E l w c I D. apply delivers_inv in D. destruct D as [IV D]. unfold parse_chunks. rewrite chunks_len_data, D.
  destruct I as [l w P | l w tag body P T].
  - destruct (loop_packets o E true l w P (S (length w)) c cst_init [] []) as (c' & f' & D' & I' & L & ->); try assumption.
    + rewrite app_nil_r. exact D.
    + rewrite app_nil_r. lia.
    + destruct (parse_list o E l cst_init) as [is [u|e| |]]; cbn [fst snd app both]; try reflexivity.
      destruct f' as [|f']; [cbn [length] in L; lia|]. cbn [parse_loop]. destruct (next_chunks_end E true c' I' D') as (c2 & ->). destruct u. reflexivity.
  - destruct (loop_packets o E true l w P (S (length (w ++ n2b (131 + 4 * tag) :: body))) c cst_init [] (n2b (131 + 4 * tag) :: body)) as (c' & f' & D' & I' & L & ->); try assumption; [lia|].
    rewrite parse_list_app. destruct (parse_list o E l cst_init) as [is [u|e| |]]; cbn [fst snd app]; try reflexivity.
    destruct f' as [|f']; [lia|]. cbn [parse_loop parse_list]. destruct (next_chunks_raw E tag body c' T I' D') as (c2 & -> & D2 & I2).
    destruct (packets_parse o E tag body (list_state o E l cst_init)) as [[i|e| |] cs1]; unfold both; cbn [fst snd]; rewrite ?app_nil_r; try reflexivity.
    destruct f' as [|f']; [cbn [length] in L; lia|]. cbn [parse_loop]. destruct (next_chunks_end E true c2 I2 D2) as (c3 & ->). reflexivity.
Qed.
Print Assumptions C01_framing.
Example C01_framing_used : parse_chunks o_plain env0 ex_reader = parse_list o_plain env0 ex_packets cst_init
  /\ snd (parse_chunks o_plain env0 ex_reader) = ROk tt /\ length (fst (parse_chunks o_plain env0 ex_reader)) = 3%nat.
Proof.
  split; [apply (C01_framing o_plain env0 ex_packets ex_bytes); [constructor; exact ex_framed | exact ex_delivers]|].
  vm_compute. auto.
Qed.

(** C01.  When parsing succeeds there is one item per packet, in order: its name shows the tag, its note the number of
    body octets, its dump (if asked for) the body; only the fields below it depend on the contents. *)
Lemma parse_list_items o E l : forall cs items, parse_list o E l cs = (items, ROk tt) ->
  Forall2 (fun p i => exists fields, i = packet_shown o (fst p) (snd p) fields) l items.
Proof.
  induction l as [|[tag body] l IH]; intros cs items H.
  - inversion H. constructor.
  - cbn [parse_list] in H. destruct (packets_parse o E tag body cs) as [[i|e| |] cs1] eqn:P; try discriminate H.
    destruct (parse_list o E l cs1) as [is r] eqn:R. inversion H; subst. constructor; [|apply (IH cs1); exact R].
    pose proof (packets_parse_extends o E tag body cs i cs1 P) as (A1 & A2 & A3 & A4 & f & A5). rewrite tag_item_shown in *.
    exists f. destruct i as [n v d t ch]. cbn in *. subst. reflexivity.
Qed.
Theorem C01_one_item_each : forall (o : opts) (E : env) (l : list (N * bytes)) (w : bytes) (c : chunks) (items : info),
  input_of l w -> delivers c w -> parse_chunks o E c = (items, ROk tt) ->
  Forall2 (fun p i => exists fields, i = packet_shown o (fst p) (snd p) fields) l items.
Proof.
  intros o E l w c items I D H. rewrite (C01_framing o E l w c I D) in H. eapply parse_list_items. exact H.
Qed.
Print Assumptions C01_one_item_each.

(** C01.  The same for the bytes of a file (no armor asked for or found, no line of 64 KiB or more). *)
Theorem C01_file : forall (o : opts) (E : env) (l : list (N * bytes)) (w : bytes),
  input_of l w -> oArmor o = false -> short_lines w ->
  (forall block, first_block (lines_of w) block -> e_armor E (unlines block) = None) ->
  parse_bytes o E w = parse_list o E l cst_init.
Proof.
  intros o E l w I A S NA. rewrite (C43_complete_partial o E w A S NA). apply (C01_framing o E l w); [exact I|].
  split; [destruct w; repeat constructor; discriminate | split; [destruct w; [reflexivity | cbn; rewrite app_nil_r; reflexivity] | reflexivity]].
Qed.
Print Assumptions C01_file.
Example C01_file_used : short_lines ex_bytes /\ (forall block, first_block (lines_of ex_bytes) block -> e_armor env0 (unlines block) = None).
Proof. split; [repeat constructor | intros block _; reflexivity]. Qed.

(** ** C02 *)

(** C02.  Whatever follows some complete packets, their items are shown first, unchanged. *)
Theorem C02_keeps_earlier : forall (o : opts) (E : env) (l : list (N * bytes)) (w rest : bytes) (c : chunks) (items : info),
  packets_in l w -> parse_list o E l cst_init = (items, ROk tt) -> pieces_ok c -> concat (k_pieces c) = w ++ rest ->
  exists more r, parse_chunks o E c = (items ++ more, r).
Proof.
  intros o E l w rest c items P H PO D. unfold parse_chunks. rewrite chunks_len_data. unfold c_data. rewrite D.
  destruct (loop_packets o E (k_ok c) l w P (S (length (w ++ rest))) c cst_init [] rest) as (c' & f' & D' & I' & L & ->); try assumption; [split; [exact PO | reflexivity] | lia |].
  rewrite H. cbn [fst snd app]. generalize (list_state o E l cst_init). intro cs. clear. revert c' cs items.
  induction f' as [|f IH]; intros c cs items; cbn [parse_loop].
  - exists [], RFuel. rewrite app_nil_r. reflexivity.
  - destruct (next_chunks E c) as [[[[t b]|]|e| |] c1].
    2-5: exists []; eexists; rewrite app_nil_r; reflexivity.
    destruct (packets_parse o E t b cs) as [[i|e| |] cs1].
    2-4: exists []; eexists; rewrite app_nil_r; reflexivity.
    destruct (IH c1 cs1 (items ++ [i])) as (more & r & ->). exists (i :: more), r. rewrite <- app_assoc. reflexivity.
Qed.
Print Assumptions C02_keeps_earlier.

(** C02.  A packet that fails ends the parse with its error; the items are those of the packets before it. *)
Theorem C02_failing_packet : forall (o : opts) (E : env) (l : list (N * bytes)) (w : bytes) (items : info) (tag : N) (body wp rest : bytes) (c : chunks) (e : err),
  packets_in l w -> parse_list o E l cst_init = (items, ROk tt) ->
  framed tag body wp -> fst (packets_parse o E tag body (list_state o E l cst_init)) = RErr e ->
  pieces_ok c -> concat (k_pieces c) = w ++ wp ++ rest ->
  parse_chunks o E c = (items, RErr e).
Proof.
  intros o E l w items tag body wp rest c e P H F HE PO D. unfold parse_chunks. rewrite chunks_len_data. unfold c_data. rewrite D.
  destruct (loop_packets o E (k_ok c) l w P (S (length (w ++ wp ++ rest))) c cst_init [] (wp ++ rest)) as (c' & f' & D' & I' & L & ->); try assumption; [split; [exact PO | reflexivity] | lia |].
  rewrite H. cbn [fst snd app]. destruct f' as [|f']; [lia|]. cbn [parse_loop].
  destruct (next_chunks_ok E (k_ok c) tag body wp rest c' F I' D') as (c2 & -> & _).
  destruct (packets_parse o E tag body _) as [r cs1]. cbn [fst] in HE. subst r. reflexivity.
Qed.
Print Assumptions C02_failing_packet.
(** A signature packet without a version fails after the two packets. *)
Example C02_failing_packet_used : parse_chunks o_plain env0 (chunks_of (ex_bytes ++ [xc2; x00] ++ ex_bytes) true)
  = (fst (parse_list o_plain env0 ex_packets cst_init), RErr EEof).
Proof.
  apply (C02_failing_packet o_plain env0 ex_packets ex_bytes (fst (parse_list o_plain env0 ex_packets cst_init)) 2 [] [xc2; x00] ex_bytes).
  - exact ex_framed.
  - vm_compute. reflexivity.
  - apply (new_format 2 [] [x00]); [reflexivity | apply (part_last [] [x00]); apply (len_one 0); reflexivity].
  - vm_compute. reflexivity.
  - repeat constructor. discriminate.
  - vm_compute. reflexivity.
Qed.

(** C02.  Cut a last packet anywhere after its first octet and before its end: the parse fails, with unexpected EOF when the
    reader ended normally, and the items of the packets before it are kept. *)
Theorem C02_cut_packet : forall (o : opts) (E : env) (l : list (N * bytes)) (w : bytes) (items : info) (tag : N) (body q x : bytes) (c : chunks),
  packets_in l w -> parse_list o E l cst_init = (items, ROk tt) ->
  framed tag body (q ++ x) -> q <> [] -> x <> [] -> pieces_ok c -> concat (k_pieces c) = w ++ q ->
  parse_chunks o E c = (items, RErr (if k_ok c then EUnexp else EIO)).
Proof.
  intros o E l w items tag body q x c P H F Q X PO D. unfold parse_chunks. rewrite chunks_len_data. unfold c_data. rewrite D.
  destruct (loop_packets o E (k_ok c) l w P (S (length (w ++ q))) c cst_init [] q) as (c' & f' & D' & I' & L & ->); try assumption; [split; [exact PO | reflexivity] | lia |].
  rewrite H. cbn [fst snd app]. destruct f' as [|f']; [lia|]. cbn [parse_loop].
  destruct (next_chunks_cut E (k_ok c) tag body q x c' F Q X I' D') as (c2 & ->). destruct (k_ok c); reflexivity.
Qed.
Print Assumptions C02_cut_packet.
(** The marker packet in two parts, cut after the first part: three packets are complete. *)
Example C02_cut_packet_used : parse_chunks o_plain env0 (chunks_of (ex_bytes ++ [xca; xe1; x50; x47]) true)
  = (fst (parse_list o_plain env0 ex_packets cst_init), RErr EUnexp).
Proof.
  apply (C02_cut_packet o_plain env0 ex_packets ex_bytes (fst (parse_list o_plain env0 ex_packets cst_init)) 10 [x50; x47; x50] [xca; xe1; x50; x47] [x01; x50]).
  - exact ex_framed.
  - vm_compute. reflexivity.
  - apply (new_format 10 [x50; x47; x50] [xe1; x50; x47; x01; x50]); [reflexivity|].
    apply (part_more 1 [x50; x47] [x50] [x01; x50]); [discriminate | reflexivity |].
    apply (part_last [x50] [x01]). apply (len_one 1). reflexivity.
  - discriminate.
  - discriminate.
  - repeat constructor. discriminate.
  - vm_compute. reflexivity.
Qed.

(** C02.  On any input whatever, the items shown are those of the packets read before the end or the failure, in order;
    after them the input is at its end, cannot be read further, or holds a packet that fails. *)
Theorem C02_any_input : forall (o : opts) (E : env) (c : chunks) (items : info) (r : res unit),
  parse_chunks o E c = (items, r) -> r <> RFuel ->
  exists l c', reading E c l c' /\ parse_list o E l cst_init = (items, ROk tt) /\
    match next_chunks E c' with
    | (ROk None, _) => r = ROk tt
    | (ROk (Some (tag, body)), _) =>
      match fst (packets_parse o E tag body (list_state o E l cst_init)) with
      | ROk _ => False
      | RErr e => r = RErr e
      | RPanic => r = RPanic
      | RFuel => False
      end
    | (RErr e, _) => r = RErr e
    | (RPanic, _) => r = RPanic
    | (RFuel, _) => False
    end.
Proof.
  intros o E c items r H NF. unfold parse_chunks in H. generalize (S (chunks_len c)) as fuel, H. clear H.
  assert (forall fuel c cs acc, parse_loop o E fuel c cs acc = (items, r) ->
    exists l c' more, reading E c l c' /\ items = acc ++ more /\ parse_list o E l cs = (more, ROk tt) /\
    match next_chunks E c' with
    | (ROk None, _) => r = ROk tt
    | (ROk (Some (tag, body)), _) =>
      match fst (packets_parse o E tag body (list_state o E l cs)) with
      | ROk _ => False
      | RErr e => r = RErr e
      | RPanic => r = RPanic
      | RFuel => False
      end
    | (RErr e, _) => r = RErr e
    | (RPanic, _) => r = RPanic
    | (RFuel, _) => False
    end) as K.
  { clear c. induction fuel as [|fuel IH]; intros c cs acc H; [inversion H; subst; congruence|]. cbn [parse_loop] in H.
    destruct (next_chunks E c) as [[[[t b]|]|e| |] c1] eqn:N.
    2-5: exists [], c, []; rewrite app_nil_r, N; inversion H; subst; try congruence; repeat split; constructor.
    destruct (packets_parse o E t b cs) as [[i|e| |] cs1] eqn:PP.
    2-4: exists [], c, []; rewrite app_nil_r, N; cbn [list_state]; rewrite PP; inversion H; subst; try congruence; repeat split; constructor.
    destruct (IH c1 cs1 (acc ++ [i]) H) as (l & c' & more & R & E1 & E2 & K).
    exists ((t, b) :: l), c', (i :: more). split; [econstructor; eassumption|]. split; [rewrite E1, <- app_assoc; reflexivity|].
    cbn [parse_list list_state]. rewrite PP, E2. cbn [snd]. auto. }
  intros fuel H. destruct (K fuel c cst_init [] H) as (l & c' & more & R & -> & P & Q). exists l, c'. auto.
Qed.
Print Assumptions C02_any_input.
Example C02_any_input_used : parse_chunks o_plain env0 (chunks_of (ex_bytes ++ [x00]) true) = (fst (parse_list o_plain env0 ex_packets cst_init), RErr EStruct).
Proof. vm_compute. reflexivity. Qed.

(** C02.  Where a packet should begin, an octet with the top bit clear ends the parse with a structural error. *)
Lemma next_chunks_bad E ok b t c : b2n b < 128 -> c_inv ok c -> c_data c = b :: t -> exists c', next_chunks E c = (RErr EStruct, c').
Proof.
  intros B I D. unfold next_chunks, next_packet, readHeader.
  destruct (readHeader_first chunk_read c_data (c_inv ok) (c_fin ok) (chunk_gives ok) (chunk_ends ok) b t c I D) as (c1 & -> & _). cbv zeta.
  assert (N.land (b2n b) 128 = 0) as ->; [|eexists; reflexivity].
  destruct b; try reflexivity; vm_compute in B; discriminate B.
Qed.
Definition or_else (x : info * res unit) (e : err) : info * res unit := (fst x, match snd x with ROk _ => RErr e | r => r end).
Lemma loop_then o E ok l w rest c e : packets_in l w -> c_inv ok c -> c_data c = w ++ rest ->
  (forall c', c_inv ok c' -> c_data c' = rest -> exists c2, next_chunks E c' = (RErr e, c2)) ->
  parse_chunks o E c = or_else (parse_list o E l cst_init) e.
Proof.
  intros P I D N. unfold parse_chunks, or_else. rewrite chunks_len_data, D.
  destruct (loop_packets o E ok l w P (S (length (w ++ rest))) c cst_init [] rest) as (c' & f' & D' & I' & L & ->); try assumption; [lia|].
  destruct (parse_list o E l cst_init) as [is [u|e'| |]]; cbn [fst snd app]; try reflexivity.
  destruct f' as [|f']; [lia|]. cbn [parse_loop]. destruct (N c' I' D') as (c2 & ->). reflexivity.
Qed.
Theorem C02_no_packet : forall (o : opts) (E : env) (l : list (N * bytes)) (w : bytes) (b : byte) (t : bytes) (c : chunks),
  packets_in l w -> b2n b < 128 -> pieces_ok c -> concat (k_pieces c) = w ++ b :: t ->
  parse_chunks o E c = or_else (parse_list o E l cst_init) EStruct.
Proof.
  intros o E l w b t c P B PO D. apply (loop_then o E (k_ok c) l w (b :: t) c EStruct P); [split; [exact PO | reflexivity] | exact D|].
  intros c' I' D'. exact (next_chunks_bad E (k_ok c) b t c' B I' D').
Qed.
Print Assumptions C02_no_packet.

(** C01 and C02 together, for every input: it is some complete packets followed by nothing, by a packet of
    indeterminate length, by something that is no packet, or by a packet that is cut short, and the result is what
    the packets show, followed in the last two cases by the error (unless a packet fails before). *)
Theorem C02_every_input : forall (o : opts) (E : env) (c : chunks) (w : bytes), delivers c w ->
  exists l w1 rest, w = w1 ++ rest /\ packets_in l w1 /\
  ((rest = [] /\ parse_chunks o E c = parse_list o E l cst_init) \/
   (exists tag body, tag < 16 /\ rest = n2b (131 + 4 * tag) :: body /\ parse_chunks o E c = parse_list o E (l ++ [(tag, body)]) cst_init) \/
   (exists b t, b2n b < 128 /\ rest = b :: t /\ parse_chunks o E c = or_else (parse_list o E l cst_init) EStruct) \/
   (exists tag body x, rest <> [] /\ x <> [] /\ framed tag body (rest ++ x) /\ parse_chunks o E c = or_else (parse_list o E l cst_init) EUnexp)).
Proof.
  intros o E c w D. destruct (GrammarL.octets_are_packets w) as (l & w1 & rest & -> & P & T). exists l, w1, rest. split; [reflexivity|]. split; [exact P|].
  destruct T as [|b t B|tag body T|q tag body x Q X F _].
  - left. split; [reflexivity|]. rewrite app_nil_r in D. exact (C01_framing o E l w1 c (all_definite _ _ P) D).
  - right. right. left. exists b, t. split; [exact B|]. split; [reflexivity|]. destruct D as (D1 & D2 & D3).
    exact (C02_no_packet o E l w1 b t c P B D1 D2).
  - right. left. exists tag, body. split; [exact T|]. split; [reflexivity|]. exact (C01_framing o E _ _ c (last_to_end _ _ _ _ P T) D).
  - right. right. right. exists tag, body, x. split; [exact Q|]. split; [exact X|]. split; [exact F|]. apply delivers_inv in D as [IV D].
    apply (loop_then o E true l w1 q c EUnexp P IV D). intros c' I' D'. exact (next_chunks_cut E true tag body q x c' F Q X I' D').
Qed.
Print Assumptions C02_every_input.
Example C02_every_input_used : delivers (chunks_of (ex_bytes ++ [xca; xe1; x50]) true) (ex_bytes ++ [xca; xe1; x50]) /\
  parse_chunks o_plain env0 (chunks_of (ex_bytes ++ [xca; xe1; x50]) true) = or_else (parse_list o_plain env0 ex_packets cst_init) EUnexp.
Proof. split; [split; [repeat constructor; discriminate | split; reflexivity] | vm_compute; reflexivity]. Qed.

(** C01.  What is in the input counts, not how it is cut into pieces: two readers that deliver the same octets, whatever they are, give the same. *)
Theorem C01_pieces : forall (o : opts) (E : env) (c1 c2 : chunks) (w : bytes), delivers c1 w -> delivers c2 w -> parse_chunks o E c1 = parse_chunks o E c2.
Proof.
  intros o E c1 c2 w D1 D2. destruct (GrammarL.octets_are_packets w) as (l & w1 & rest & -> & P & T). destruct T as [|b t B|tag body T|q tag body x Q X F _].
  - rewrite app_nil_r in D1, D2. rewrite (C01_framing o E l w1 c1 (all_definite _ _ P) D1), (C01_framing o E l w1 c2 (all_definite _ _ P) D2). reflexivity.
  - destruct D1 as (A1 & A2 & _), D2 as (B1 & B2 & _). rewrite (C02_no_packet o E l w1 b t c1 P B A1 A2), (C02_no_packet o E l w1 b t c2 P B B1 B2). reflexivity.
  - rewrite (C01_framing o E _ _ c1 (last_to_end _ _ _ _ P T) D1), (C01_framing o E _ _ c2 (last_to_end _ _ _ _ P T) D2). reflexivity.
  - apply delivers_inv in D1 as [I1 D1]. apply delivers_inv in D2 as [I2 D2].
    assert (forall c, c_inv true c -> c_data c = w1 ++ q -> parse_chunks o E c = or_else (parse_list o E l cst_init) EUnexp) as K.
    { intros c IV D. apply (loop_then o E true l w1 q c EUnexp P IV D). intros c' I' D'. exact (next_chunks_cut E true tag body q x c' F Q X I' D'). }
    rewrite (K c1 I1 D1), (K c2 I2 D2). reflexivity.
Qed.
Print Assumptions C01_pieces.
Example C01_pieces_used : delivers (mkChunks (map (fun b => [b]) (ex_bytes ++ [xca; xe1; x50])) true) (ex_bytes ++ [xca; xe1; x50]) /\
  delivers (chunks_of (ex_bytes ++ [xca; xe1; x50]) true) (ex_bytes ++ [xca; xe1; x50]).
Proof. split; (split; [repeat constructor; discriminate | split; reflexivity]). Qed.
