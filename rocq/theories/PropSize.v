(** * PropSize: how much text a result holds and how long its outputs are (C65). *)
From Coq Require Import Strings.String Strings.Byte List NArith ZArith Bool Arith Lia ZifyBool ZifyN ZifyNat.
From Verif Require Import Base Utf8 Item Json Reader Context Env Values Opaque Monad Subs Tags Parse.
From Verif Require Import SpecBase BaseL SpecFrame SpecNest SpecParse FrameL FramingL GrammarL ParseL CompL PropFrame PropHistory SpecCount PropCount SpecSize SizeL SizeItemL SizeGL Witness.
Import ListNotations.
Local Open Scope Z_scope.

(** The packets in the contents of a compressed packet. *)
Lemma expand_size o E fuel : oDebug o = false -> forall c it cs i cs', chunks_ok c ->
  expand_loop o E fuel c it cs = (ROk i, cs') -> exc i <= exc it + 12 * Z.of_nat (chunks_left c).
Proof.
  intro D. induction fuel as [|fuel IH]; intros c it cs i cs' [PO L] H; [discriminate H|]. cbn [expand_loop] in H. unfold next_chunks in H.
  pose proof (next_packet_chunks (e_grow E) (S (S (chunks_len c))) c PO) as N. specialize (N ltac:(unfold chunks_left, chunks_len; lia)).
  destruct (next_packet _ _ _ _) as [[[[tag b]|e]|] c'] eqn:Q; [| |discriminate H].
  - apply next_tag in Q. destruct N as (PO' & N1 & N2). destruct (parse_tag o E tag b cs) as [[[i1 x]|e| |] cs1] eqn:P; try discriminate H.
    apply IH in H; [|split; [exact PO'|lia]]. rewrite exc_add in H. apply parse_tag_size in P; [|exact D|exact Q|unfold lenZ; lia]. unfold lenZ in P. lia.
  - destruct (rerr_err e); inversion H; subst; lia.
Qed.
(** One packet, and what is in it. *)
Lemma packet_size o E tag body cs i cs' n : oDebug o = false -> (tag < 64)%N -> sized body -> unpacked E [(tag, body)] n ->
  packets_parse o E tag body cs = (ROk i, cs') -> exc i <= 12 * (lenZ body + Z.of_nat n).
Proof.
  intros DB T S U H. unfold packets_parse in H. destruct (parse_tag o E tag body cs) as [[[it x]|e| |] cs1] eqn:P; try discriminate H.
  pose proof (parse_tag_size o E tag body cs it x cs1 DB T S P) as C. destruct x as [d|]; [|inversion H; subst; lia].
  destruct (expanded_contents o E tag body cs it d cs1 S P) as [-> D].
  assert (sized d /\ (length d <= n)%nat) as [SD LD].
  { destruct D as [D| ->].
    - split; [exact (contents_sized E body d D S)|]. inversion U as [|t b l k NT U'|b l k NC U'|b d' l k D' U']; subst; [contradiction|destruct (NC d D)|].
      inversion U'; subst. assert (d' = d) as -> by (destruct D' as [z|a z d' A1 Z1 F1 L1]; inversion D as [z'|a' z' d1 A2 Z2 F2 L2]; subst; try reflexivity; try (exfalso; revert A1 || revert A2; change (b2n x00) with 0%N; lia); congruence). lia.
    - split; [unfold sized, lenZ; cbn [length]; lia|cbn [length]; lia]. }
  apply (expand_size _ _ _ DB) in H; destruct (chunks_of_ok d true SD) as [CO CL]; [|exact CO]. rewrite CL in H. lia.
Qed.
Definition excs (l : list item) : Z := fold_right (fun i z => exc i + z) 0 l.
Lemma list_held o E l : oDebug o = false -> forall cs n, Forall (fun p => (fst p < 64)%N) l -> Forall (fun p => sized (snd p)) l -> unpacked E l n ->
  excs (fst (parse_list o E l cs)) <= 12 * (Z.of_nat (list_size l) + Z.of_nat n).
Proof.
  intro DB. induction l as [|[tag body] l IH]; intros cs n TT F U; cbn [parse_list]; [cbn [fst excs fold_right]; lia|].
  inversion F as [|p l' S F']; subst. cbn [snd] in S. inversion TT as [|p l' T TT']; subst. cbn [fst] in T.
  assert (exists a b, unpacked E [(tag, body)] a /\ unpacked E l b /\ (a + b = n)%nat) as (a & b & UA & UB & <-).
  { inversion U; subst; [exists 0%nat, n|exists 0%nat, n|exists (length d), n0]; (split; [|split; [assumption|lia]]).
    - constructor; [assumption|constructor].
    - apply unpacked_closed; [assumption|constructor].
    - replace (length d) with (length d + 0)%nat by lia. apply unpacked_open; [assumption|constructor]. }
  rewrite list_size_cons.
  destruct (packets_parse o E tag body cs) as [[i|e| |] cs'] eqn:P; try (cbn [fst excs fold_right]; lia).
  specialize (IH cs' b TT' F' UB). pose proof (packet_size o E tag body cs i cs' a DB T S UA P) as C.
  destruct (parse_list o E l cs') as [is r]. cbn [fst] in *. cbn [excs fold_right]. fold (excs is). unfold lenZ in C. lia.
Qed.
Lemma held_octets l : Z.of_nat (result_octets l) <= 352 * Z.of_nat (result_count l) + excs l.
Proof.
  induction l as [|i l IH]; [cbn; lia|]. unfold result_octets, result_count in *. cbn [map excs fold_right]. fold (excs l).
  change (list_sum (?x :: ?y)) with (x + list_sum y)%nat. pose proof (octets_exc i). lia.
Qed.
Lemma packets_tags l w : packets_in l w -> Forall (fun p => (fst p < 64)%N) l.
Proof. induction 1 as [|tag body l w w' F P IH]; constructor; [destruct F; cbn [fst]; lia|exact IH]. Qed.
Lemma input_tags l w : input_of l w -> Forall (fun p => (fst p < 64)%N) l.
Proof.
  destruct 1 as [l w P|l w tag body P T]; apply packets_tags in P; [exact P|]. apply Forall_app. split; [exact P|]. constructor; [cbn [fst]; lia|constructor].
Qed.

(** C65.  Without the debug option: at most 2828 octets of text for each octet of a well-formed input and of the contents of its compressed packets. *)
Theorem C65_held : forall (o : opts) (E : env) (l : list (N * bytes)) (w : bytes) (c : chunks) (n : nat),
  oDebug o = false -> input_of l w -> delivers c w -> sized w -> unpacked E l n ->
  Z.of_nat (result_octets (fst (parse_chunks o E c))) <= 2828 * Z.of_nat (length w + n).
Proof.
  intros o E l w c n DB I D S U. pose proof (C55_items o E l w c n I D S U) as C. rewrite (C01_framing o E l w c I D) in *. pose proof (input_size l w I) as Z.
  assert (Forall (fun p => sized (snd p)) l) as F by (apply list_sized; unfold sized, lenZ in S; lia).
  pose proof (list_held o E l DB cst_init n (input_tags l w I) F U). pose proof (held_octets (fst (parse_list o E l cst_init))). lia.
Qed.
Print Assumptions C65_held.

(** C65.  So for any octets, of which the packets they begin with are opened. *)
Theorem C65_any_octets : forall (o : opts) (E : env) (w : bytes) (c : chunks), oDebug o = false -> delivers c w -> sized w ->
  exists l n, begins l w /\ unpacked E l n /\ Z.of_nat (result_octets (fst (parse_chunks o E c))) <= 2828 * Z.of_nat (length w + n).
Proof.
  intros o E w c DB D S. destruct (C02_every_input o E c w D) as (l & w1 & rest & -> & P & K).
  assert (forall l', begins l' (w1 ++ rest) -> fst (parse_chunks o E c) = fst (parse_list o E l' cst_init) ->
    exists l n, begins l (w1 ++ rest) /\ unpacked E l n /\ Z.of_nat (result_octets (fst (parse_chunks o E c))) <= 2828 * Z.of_nat (length (w1 ++ rest) + n)) as Q.
  { intros l' B R. destruct (unpacked_some E l') as [n U]. exists l', n. split; [exact B|]. split; [exact U|]. rewrite R.
    destruct B as (v & t & EQ & I). pose proof (input_tags l' v I) as TT. apply input_size in I. rewrite EQ in S |- *. rewrite app_length. unfold sized, lenZ in S. rewrite app_length in S.
    pose proof (list_sized l' ltac:(lia)) as F. pose proof (list_count o E l' cst_init n F U). pose proof (list_held o E l' DB cst_init n TT F U).
    pose proof (held_octets (fst (parse_list o E l' cst_init))). lia. }
  destruct K as [[-> K]|[(tag & body & T & -> & K)|[(b & t & B & -> & K)|(tag & body & x & R & X & F & K)]]].
  - apply (Q l); [exists w1, []; split; [reflexivity|exact (all_definite _ _ P)]|rewrite K; reflexivity].
  - apply (Q (l ++ [(tag, body)])); [exists (w1 ++ n2b (131 + 4 * tag) :: body), []; split; [rewrite app_nil_r; reflexivity|exact (last_to_end _ _ _ _ P T)]|rewrite K; reflexivity].
  - apply (Q l); [exists w1, (b :: t); split; [reflexivity|exact (all_definite _ _ P)]|rewrite K; unfold or_else; destruct (parse_list o E l cst_init) as [? []]; reflexivity].
  - apply (Q l); [exists w1, rest; split; [reflexivity|exact (all_definite _ _ P)]|rewrite K; unfold or_else; destruct (parse_list o E l cst_init) as [? []]; reflexivity].
Qed.
Print Assumptions C65_any_octets.

(** The outputs of a result: their length, from the text it holds, the number of its items and their depth. *)
Lemma repeat_len x k : length (repeat_bytes x k) = (k * length x)%nat.
Proof. induction k as [|k IH]; cbn [repeat_bytes]; [reflexivity|]. rewrite app_length, IH. reflexivity. Qed.
Lemma text_len ind : forall i lvl, (length (item_text ind lvl i) <= item_octets i + item_count i * (7 + 2 * length ind * (lvl + item_depth i)))%nat.
Proof.
  apply (item_strong (fun i => forall lvl, (length (item_text ind lvl i) <= item_octets i + item_count i * (7 + 2 * length ind * (lvl + item_depth i)))%nat)).
  intros n v d t l IH lvl. cbn [item_text item_octets item_count item_depth].
  set (D := list_max (map item_depth l)).
  assert (forall l', incl l' l -> (length ((fix go (l : list item) : bytes := match l with [] => [] | c :: t => item_text ind (Datatypes.S lvl) c ++ go t end) l')
    <= list_sum (map item_octets l') + list_sum (map item_count l') * (7 + 2 * length ind * (lvl + Datatypes.S D)))%nat) as G.
  { induction l' as [|c l' IHl]; intro I; [cbn; lia|]. cbn [map]. change (list_sum (?x :: ?y)) with (x + list_sum y)%nat. rewrite app_length.
    assert (In c l) as HC by (apply I; left; reflexivity).
    pose proof (IH c HC (Datatypes.S lvl)) as H. cbv beta in H. specialize (IHl (fun x Hx => I x (or_intror Hx))).
    assert (item_depth c <= D)%nat as LD. { unfold D. pose proof (proj1 (list_max_le (map item_depth l) D) ltac:(unfold D; lia)) as Q. rewrite Forall_map in Q. exact (proj1 (Forall_forall _ _) Q c HC). }
    assert (item_count c * (7 + 2 * length ind * (Datatypes.S lvl + item_depth c)) <= item_count c * (7 + 2 * length ind * (lvl + Datatypes.S D)))%nat.
    { apply Nat.mul_le_mono_l, Nat.add_le_mono_l, Nat.mul_le_mono_l. lia. }
    lia. }
  specialize (G l (incl_refl l)). rewrite !app_length, !repeat_len. cbn [length].
  assert (length (if is_nil v then [] else str ": " ++ v) <= 2 + length v)%nat as V by (destruct v; cbn; lia).
  assert (length (if is_nil t then [] else str " (" ++ t ++ str ")") <= 3 + length t)%nat as T by (destruct t; cbn; rewrite ?app_length; cbn; lia).
  assert (length (if is_nil d then [] else (repeat_bytes ind (Datatypes.S lvl) ++ d ++ [x0a])) <= Datatypes.S lvl * length ind + 1 + length d)%nat as DD.
  { destruct d; cbn [is_nil]; [lia|]. rewrite !app_length, repeat_len. cbn [length]. lia. }
  set (G0 := list_sum (map item_count l)) in *. set (O0 := list_sum (map item_octets l)) in *. set (i0 := length ind) in *.
  assert (lvl * i0 + Datatypes.S lvl * i0 <= 2 * i0 * (lvl + Datatypes.S D))%nat by nia. nia.
Qed.
Theorem C65_text : forall (ind : bytes) (l : info),
  (length (info_text ind l) <= result_octets l + result_count l * (7 + 2 * length ind * result_depth l))%nat.
Proof.
  intros ind l. unfold info_text, result_octets, result_count, result_depth. set (D := list_max (map item_depth l)).
  assert (forall l', incl l' l -> (length (flat_map (item_text ind 0) l') <= list_sum (map item_octets l') + list_sum (map item_count l') * (7 + 2 * length ind * D))%nat) as G.
  { induction l' as [|c l' IHl]; intro I; [cbn; lia|]. cbn [map flat_map]. change (list_sum (?x :: ?y)) with (x + list_sum y)%nat. rewrite app_length.
    assert (In c l) as HC by (apply I; left; reflexivity). pose proof (text_len ind c 0) as H. specialize (IHl (fun x Hx => I x (or_intror Hx))).
    assert (item_depth c <= D)%nat as LD. { pose proof (proj1 (list_max_le (map item_depth l) D) ltac:(unfold D; lia)) as Q. rewrite Forall_map in Q. exact (proj1 (Forall_forall _ _) Q c HC). }
    assert (item_count c * (7 + 2 * length ind * (0 + item_depth c)) <= item_count c * (7 + 2 * length ind * D))%nat.
    { apply Nat.mul_le_mono_l, Nat.add_le_mono_l, Nat.mul_le_mono_l. lia. }
    lia. }
  apply G, incl_refl.
Qed.
Print Assumptions C65_text.

(** JSON. *)
Lemma json_rune_len x : lenZ (json_rune x) <= 6.
Proof.
  destruct x as [r|]; [|vm_compute; discriminate]. unfold json_rune. destruct (r <? 128)%N.
  - unfold json_ascii. repeat match goal with |- context [if ?b then _ else _] => destruct b end; vm_compute; discriminate.
  - destruct (_ || _); [vm_compute; discriminate|]. pose proof (enc_rune_len r). lia.
Qed.
Lemma json_string_len s : (length (json_string s) <= 6 * length s + 2)%nat.
Proof.
  unfold json_string. cbn [length]. rewrite app_length. cbn [length]. pose proof (flat_len json_rune 6 (scan s) ltac:(lia) json_rune_len) as H.
  pose proof (scan_len s). unfold lenZ in H. lia.
Qed.
Lemma join_len l : (length (join [x2c] l) <= list_sum (map (fun x => 1 + length x) l))%nat.
Proof.
  induction l as [|x l IH]; [reflexivity|]. cbn [map]. change (list_sum (?a :: ?b)) with (a + list_sum b)%nat. destruct l as [|y l]; [cbn; lia|].
  change (join [x2c] (x :: y :: l)) with (x ++ [x2c] ++ join [x2c] (y :: l)). rewrite !app_length. cbn [length]. lia.
Qed.
Lemma json_member_len nm v : length (json_member nm v) = (length (str nm) + 3 + length v)%nat.
Proof. unfold json_member. cbn [length]. rewrite !app_length. cbn [length]. lia. Qed.
Definition spread (l : list bytes) : nat := list_sum (map (fun x => 1 + length x)%nat l).
Lemma spread_app l l' : spread (l ++ l') = (spread l + spread l')%nat.
Proof. unfold spread. rewrite map_app, list_sum_app. reflexivity. Qed.
Lemma json_opt_len nm s : (spread (json_opt nm s) <= length (str nm) + 6 + 6 * length s)%nat.
Proof.
  unfold json_opt. destruct s as [|b s]; cbn [is_nil]; [cbn; lia|]. unfold spread. cbn [map list_sum fold_right]. rewrite json_member_len.
  pose proof (json_string_len (b :: s)). lia.
Qed.
Lemma json_len : forall i, (length (item_json i) + 1 <= 6 * item_octets i + 54 * item_count i)%nat.
Proof.
  apply (item_strong (fun i => (length (item_json i) + 1 <= 6 * item_octets i + 54 * item_count i)%nat)). intros n v d t l IH. cbn [item_json item_octets item_count].
  assert (forall l', incl l' l -> (spread ((fix go (l : list item) : list bytes := match l with [] => [] | c :: r => item_json c :: go r end) l')
    <= 6 * list_sum (map item_octets l') + 54 * list_sum (map item_count l'))%nat) as G.
  { induction l' as [|c l' IHl]; intro I; [cbn; lia|]. unfold spread in *. cbn [map]. change (list_sum (?x :: ?y)) with (x + list_sum y)%nat.
    pose proof (IH c (I c (or_introl eq_refl))). specialize (IHl (fun x Hx => I x (or_intror Hx))). cbn [length]. lia. }
  specialize (G l (incl_refl l)). set (js := (fix go (l : list item) : list bytes := match l with [] => [] | c :: r => item_json c :: go r end) l) in *. clearbody js.
  unfold json_object. cbn [length]. rewrite app_length. cbn [length]. pose proof (join_len ([json_member "name" (json_string n)] ++ json_opt "value" v ++ json_opt "dump" d ++ json_opt "note" t
    ++ (if is_nil l then [] else [json_member "Item" (json_array js)]))) as J. fold (spread ([json_member "name" (json_string n)] ++ json_opt "value" v ++ json_opt "dump" d ++ json_opt "note" t
    ++ (if is_nil l then [] else [json_member "Item" (json_array js)]))) in J. rewrite !spread_app in J.
  pose proof (json_opt_len "value" v) as V. pose proof (json_opt_len "dump" d) as DD. pose proof (json_opt_len "note" t) as T.
  assert (spread [json_member "name" (json_string n)] <= 10 + 6 * length n)%nat as NM.
  { unfold spread. cbn [map list_sum fold_right]. rewrite json_member_len. pose proof (json_string_len n). change (length (str "name")) with 4%nat. lia. }
  assert (spread (if is_nil l then [] else [json_member "Item" (json_array js)]) <= 10 + spread js)%nat as IT.
  { destruct (is_nil l); [cbn; lia|]. unfold spread at 1. cbn [map list_sum fold_right]. rewrite json_member_len. unfold json_array. cbn [length]. rewrite app_length. cbn [length].
    pose proof (join_len js). fold (spread js) in *. change (length (str "Item")) with 4%nat. lia. }
  change (length (str "value")) with 5%nat in V. change (length (str "dump")) with 4%nat in DD. change (length (str "note")) with 4%nat in T. lia.
Qed.
Theorem C65_json : forall (l : info), (length (info_json l) <= 6 * result_octets l + 54 * result_count l + 14)%nat.
Proof.
  intro l. unfold info_json, result_octets, result_count. set (js := map item_json l).
  assert (spread js <= 6 * list_sum (map item_octets l) + 54 * list_sum (map item_count l))%nat as G.
  { unfold js. clear. induction l as [|c l IH]; [cbn; lia|]. unfold spread in *. cbn [map]. change (list_sum (?x :: ?y)) with (x + list_sum y)%nat. pose proof (json_len c). lia. }
  clearbody js. unfold json_object. cbn [length]. rewrite app_length. cbn [length]. destruct (is_nil l); [cbn; lia|]. cbn [join]. rewrite json_member_len. unfold json_array.
  cbn [length]. rewrite app_length. cbn [length]. pose proof (join_len js). fold (spread js) in *. change (length (str "Packet")) with 6%nat. lia.
Qed.
Print Assumptions C65_json.

(** C65.  The compact JSON of any input, without the debug option. *)
Theorem C65_json_linear : forall (o : opts) (E : env) (l : list (N * bytes)) (w : bytes) (c : chunks) (n : nat),
  oDebug o = false -> input_of l w -> delivers c w -> sized w -> unpacked E l n ->
  Z.of_nat (length (info_json (fst (parse_chunks o E c)))) <= 17400 * Z.of_nat (length w + n) + 14.
Proof.
  intros o E l w c n DB I D S U. pose proof (C65_held o E l w c n DB I D S U). pose proof (C55_items o E l w c n I D S U). pose proof (C65_json (fst (parse_chunks o E c))). lia.
Qed.
Print Assumptions C65_json_linear.

(** A signature with a notation: the hypotheses are met; an octet of the input may take more than ten of text. *)
Definition notation_signature : bytes :=
  [xc2; x1f; x04; x00; x01; x02; x00; x12; x11; x14; x80; x00; x00; x00; x00; x04; x00; x04; xff; xfe; xfd; xfc; xff; xff; xff; xff; x00; x00; x12; x34; x00; x01; x01].
Example C65_held_used :
  let body := skipn 2 notation_signature in
  oDebug o_plain = false /\ input_of [(2%N, body)] notation_signature /\ delivers (chunks_of notation_signature true) notation_signature /\ sized notation_signature /\
  unpacked env0 [(2%N, body)] 0%nat /\ snd (parse_chunks o_plain env0 (chunks_of notation_signature true)) = ROk tt /\
  (10 * length notation_signature < result_octets (fst (parse_chunks o_plain env0 (chunks_of notation_signature true))))%nat.
Proof.
  cbv zeta. split; [reflexivity|]. split; [|split; [|split; [|split; [|split]]]].
  - apply all_definite. rewrite <- (app_nil_r notation_signature) at 2. apply one_more; [|constructor].
    apply (new_format 2 _ (x1f :: skipn 2 notation_signature)); [reflexivity|]. apply (part_last (skipn 2 notation_signature) [x1f]). constructor. reflexivity.
  - split; [repeat constructor; discriminate|split; reflexivity].
  - reflexivity.
  - constructor; [discriminate|constructor].
  - vm_compute. reflexivity.
  - vm_compute. lia.
Qed.
(** With the debug option every level of nesting repeats the octets inside: the same input holds a good deal more. *)
Example C65_debug_more :
  (result_octets (fst (parse_chunks o_plain env0 (chunks_of notation_signature true))) + 6 * length notation_signature
   < result_octets (fst (parse_chunks o_debug env0 (chunks_of notation_signature true))))%nat.
Proof. vm_compute. lia. Qed.
(** The bounds on the outputs are exact enough to be met closely: an item with every part. *)
Example C65_text_close : let i := Item (str "a") (str "b") (str "c") (str "d") [] in
  length (info_text [x09] [i]) = (4 + 1 * (7 + 2 * 1 * 1) - 1)%nat /\ length (info_json [Item [x00] [x00] [x00] [x00] []]) = (6 * 4 + 54 + 14 - 13)%nat.
Proof. vm_compute. auto. Qed.
