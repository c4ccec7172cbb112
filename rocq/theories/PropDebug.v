(** * PropDebug: C59, with --debug the packets can be read back from the output. *)
From Coq Require Import Strings.String Strings.Byte List NArith ZArith Bool Lia ZifyBool ZifyN ZifyNat.
From Verif Require Import Base Item Context Env Opaque Parse SpecBase SpecText SpecPacket SpecParse SpecArmor SpecFrame Json SpecJson Facade SpecFacade
  SpecDebug DebugL TextL PropFrame PropParse PropArmor PropJson PropFacade Witness.
Import ListNotations.
Local Open Scope N_scope.

(** C59.  Whatever is read and however it ends, the packets read before are in the items, with their tags and all their octets. *)
Theorem C59_items : forall (o : opts) (E : env) (c : chunks) (items : info) (r : res unit),
  oDebug o = true -> parse_chunks o E c = (items, r) -> r <> RFuel ->
  exists l c', reading E c l c' /\ read_packets items = Some l /\ (r = ROk tt -> exists c2, next_chunks E c' = (ROk None, c2)).
Proof.
  intros o E c items r D H NF. destruct (C02_any_input o E c items r H NF) as (l & c' & R & P & N). exists l, c'. split; [exact R|]. split.
  - apply (read_packets_shown o l items D). eapply parse_list_items. exact P.
  - intros ->. destruct (next_chunks E c') as [[[[t b]|]|e| |] c2]; try discriminate N; try contradiction; [|eauto].
    destruct (fst (packets_parse o E t b (list_state o E l cst_init))); try discriminate N; contradiction.
Qed.
Print Assumptions C59_items.

(** C59.  When the whole input is parsed, the items give back all its packets. *)
Theorem C59_all : forall (o : opts) (E : env) (c : chunks) (d : bytes) (l : list (N * bytes)) (items : info),
  oDebug o = true -> delivers c d -> input_of l d -> parse_chunks o E c = (items, ROk tt) -> read_packets items = Some l.
Proof.
  intros o E c d l items D V I H. apply (read_packets_shown o l items D). exact (C01_one_item_each o E l d c items I V H).
Qed.
Print Assumptions C59_all.

Lemma clean_nn s : clean s -> no_newline s.
Proof.
  intros (l & F & ->) I. unfold utf8s in I. apply in_flat_map in I as (c & Ic & I). rewrite Forall_forall in F.
  destruct (F c Ic) as [S K]. unfold utf8 in I.
  assert (forall n, n2b n = x0a -> n mod 256 = 10) as B.
  { intros n H. apply (f_equal b2n) in H. rewrite BaseL.b2n_n2b in H. exact H. }
  destruct S as [S|S]; repeat match type of I with context [if ?x then _ else _] => destruct x eqn:? end;
    repeat (destruct I as [I|I]; [apply B in I; unfold control in K; try lia; (Z.div_mod_to_equations; lia)|]); destruct I.
Qed.

Lemma calm_items o E src : fits E src -> Forall calm_item (fst (parse_stream o E src)).
Proof.
  intro F. eapply Forall_impl; [|exact (C13_only_the_format_octet o E src F)].
  fix IH 2. intros i H. destruct H as [n v d t l Hn Hv Hd Ht Hl]. constructor; [apply clean_nn, Hn | | apply clean_nn, Hd | apply clean_nn, Ht | ].
  - destruct Hv as [Hv|(f & _ & ->)]; [left; apply clean_nn, Hv|]. destruct (utf8_octet f) as [->|U]; [|left; exact U].
    unfold plain_value. destruct (Byte.eqb f x0a) eqn:B; [right; f_equal; apply BaseL.byte_eqb_spec; exact B|].
    left. intros [->|[]]. discriminate B.
  - induction Hl as [|x l H _ IHl]; constructor; [apply IH; exact H | exact IHl].
Qed.

Lemma indentation_ok ind : indentation ind -> no_newline ind /\ ind <> [] /\ inside ind = true.
Proof.
  intros [->|(n & Hn & ->)]; [repeat split; [intros [H|[]]; discriminate H | discriminate]|].
  destruct n as [|n]; [lia|]. repeat split; [|discriminate]. intro I. apply repeat_spec in I. discriminate I.
Qed.

(** C59.  The text output gives them back as well, whatever else is in the packets. *)
Theorem C59_text : forall (o : opts) (E : env) (src : stream) (c : chunks) (d : bytes) (l : list (N * bytes)) (items : info) (ind : bytes),
  fits E src -> oDebug o = true -> parse_new o E src = ROk c -> delivers c d -> input_of l d ->
  parse_stream o E src = (items, ROk tt) -> indentation ind ->
  read_text ind (info_text ind items) = Some l.
Proof.
  intros o E src c d l items ind F D N V I H K. destruct (indentation_ok ind K) as (K1 & K2 & K3).
  apply (read_text_items o ind l items K1 K2 K3 D).
  - pose proof (calm_items o E src F) as Q. rewrite H in Q. exact Q.
  - unfold parse_stream in H. rewrite N in H. exact (C01_one_item_each o E l d c items I V H).
Qed.
Print Assumptions C59_text.

(** C59.  Whoever reads the JSON output as JSON gets items that give them back. *)
Theorem C59_json : forall (o : opts) (E : env) (src : stream) (c : chunks) (d : bytes) (l : list (N * bytes)) (items : info) (n : Z) (b : bytes) (v : json) (read : list item),
  fits E src -> oDebug o = true -> parse_new o E src = ROk c -> delivers c d -> input_of l d ->
  parse_stream o E src = (items, ROk tt) -> info_JSON n items = ROk b ->
  json_text v b -> Forall (all_fields is_utf8) read -> document read v -> read_packets read = Some l.
Proof.
  intros o E src c d l items n b v read F D N V I H J T U DV.
  assert (items = fst (parse_stream o E src)) as EI by (rewrite H; reflexivity).
  rewrite EI in J. rewrite (C37_parse_reads_back o E src n b v read F J T U DV), <- EI.
  unfold parse_stream in H. rewrite N in H. exact (C59_all o E c d l items D V I H).
Qed.
Print Assumptions C59_json.

(** C59.  For the octets of a file without armored text in it: the text of what the parser returns gives back its packets. *)
Theorem C59_file : forall (o : opts) (E : env) (l : list (N * bytes)) (w : bytes) (items : info) (ind : bytes),
  fits E (mkStream w true) -> oDebug o = true -> input_of l w -> oArmor o = false -> short_lines w ->
  (forall block, first_block (lines_of w) block -> e_armor E (unlines block) = None) ->
  parse_bytes o E w = (items, ROk tt) -> indentation ind -> read_text ind (info_text ind items) = Some l.
Proof.
  intros o E l w items ind F D I A S NA H K. destruct (indentation_ok ind K) as (K1 & K2 & K3).
  apply (read_text_items o ind l items K1 K2 K3 D).
  - pose proof (calm_items o E (mkStream w true) F) as Q. change (parse_stream o E (mkStream w true)) with (parse_bytes o E w) in Q. rewrite H in Q. exact Q.
  - rewrite (C01_file o E l w I A S NA) in H. eapply parse_list_items. exact H.
Qed.
Print Assumptions C59_file.

(** What a reader of the command's output gets: the packets, from the text or from the JSON text. *)
Definition output_gives (fl : flags) (text : bytes) (l : list (N * bytes)) : Prop :=
  if f_json fl then exists v read, json_text v text /\ document read v /\ Forall (all_fields is_utf8) read /\ read_packets read = Some l /\
                     forall v' read', json_text v' text -> document read' v' -> Forall (all_fields is_utf8) read' -> read_packets read' = Some l
  else read_text (if (0 <? f_indent fl)%Z then repeat x20 (Z.to_nat (f_indent fl)) else [x09]) text = Some l.

(** C59.  The command: if everything goes well, its standard output gives back the packets of its input. *)
Theorem C59_command : forall fl w c text, dump_command c = true -> f_on fl DEBUG = true ->
  (forall src, input w c src -> fits (w_env w) src) -> all_well fl w c text ->
  execute fl w c = (Some 0%Z, text) /\
  exists src o ch, input w c src /\ in_force fl c o /\ parse_new o (w_env w) src = ROk ch /\
    forall d l, delivers ch d -> input_of l d -> output_gives fl text l.
Proof.
  intros fl w c text Hc Hd Hf W. split; [apply C44_success; assumption|].
  destruct W as (src & o & items & Hi & Ho & Hp & Hr & Ht). exists src, o.
  assert (oDebug o = true) as D by (unfold oDebug, o_get; rewrite (Ho DEBUG); exact Hd).
  destruct (parse_new o (w_env w) src) as [ch|e| |] eqn:N; [|unfold parse_stream in Hp; rewrite N in Hp; discriminate Hp ..].
  exists ch. repeat split; try assumption. intros d l V I. unfold output_gives.
  destruct Hr as [(J & R)|[(J & K & ->)|(J & K & ->)]]; rewrite J.
  - assert (exists v, document items v /\ json_text v text) as (v & DV & T).
    { destruct (Z.leb_spec (f_indent fl) 0) as [L|L].
      - destruct (C37_compact items _ L) as (v & b & E & DV & T). rewrite R in E. injection E as <-. eauto.
      - destruct (N.leb_spec (all_levels items) 4999) as [L'|L'].
        + destruct (C37_indented_partial items _ L L') as (v & b & E & DV & T). rewrite R in E. injection E as <-. eauto.
        + rewrite (C37_too_deep items _ L L') in R. discriminate R. }
    exists v, items. split; [exact T|]. split; [exact DV|].
    assert (Forall (all_fields is_utf8) items) as U by (pose proof (C14_all_utf8 o (w_env w) src (Hf src Hi)) as Q; rewrite Hp in Q; exact Q).
    split; [exact U|]. split; [|intros v' read' T' D' U'].
    + eapply C59_json; eauto.
    + eapply C59_json; eauto.
  - replace (0 <? f_indent fl)%Z with true by lia. eapply C59_text; eauto. right. exists (Z.to_nat (f_indent fl)). split; [lia | reflexivity].
  - replace (0 <? f_indent fl)%Z with false by lia. eapply C59_text; eauto. left. reflexivity.
Qed.
Print Assumptions C59_command.

(** C59.  So inputs that are shown alike have the same packets (however these are framed). *)
Theorem C59_same_text : forall (o o' : opts) (E E' : env) (src src' : stream) (c c' : chunks) (d d' : bytes) (l l' : list (N * bytes)) (items items' : info) (ind : bytes),
  fits E src -> fits E' src' -> oDebug o = true -> oDebug o' = true ->
  parse_new o E src = ROk c -> delivers c d -> input_of l d -> parse_stream o E src = (items, ROk tt) ->
  parse_new o' E' src' = ROk c' -> delivers c' d' -> input_of l' d' -> parse_stream o' E' src' = (items', ROk tt) ->
  indentation ind -> info_text ind items = info_text ind items' -> l = l'.
Proof.
  intros o o' E E' src src' c c' d d' l l' items items' ind F F' D D' N V I P N' V' I' P' K H.
  pose proof (C59_text o E src c d l items ind F D N V I P K) as A.
  pose proof (C59_text o' E' src' c' d' l' items' ind F' D' N' V' I' P' K) as B. rewrite H, B in A. congruence.
Qed.
Print Assumptions C59_same_text.

(** Without --debug they are not: two literal packets with different data. *)
Theorem C59_only_debug : exists d d' l l', input_of l d /\ input_of l' d' /\ l <> l' /\
  parse_bytes o_plain env0 d = parse_bytes o_plain env0 d' /\ snd (parse_bytes o_plain env0 d) = ROk tt.
Proof.
  exists [xcb; x07; x62; x00; x00; x00; x00; x00; x78], [xcb; x07; x62; x00; x00; x00; x00; x00; x79],
    [(11, [x62; x00; x00; x00; x00; x00; x78])], [(11, [x62; x00; x00; x00; x00; x00; x79])].
  assert (forall b, lenN b = 7 -> input_of [(11, b)] (xcb :: x07 :: b)) as H.
  { intros b L. apply all_definite. pose proof (one_more 11 b [] (xcb :: x07 :: b) []) as Q. rewrite app_nil_r in Q. apply Q; [|constructor].
    apply (new_format 11 b (x07 :: b)); [reflexivity|]. apply (part_last b [x07]). rewrite L. apply (len_one 7). reflexivity. }
  split; [apply H; reflexivity|]. split; [apply H; reflexivity|]. split; [discriminate|]. split; vm_compute; reflexivity.
Qed.
Print Assumptions C59_only_debug.

(** The three packets of [ex_bytes], and a literal packet whose format octet is a line feed, which breaks a line of the text. *)
Definition lf_bytes : bytes := ex_bytes ++ [xcb; x08; x0a; x00; x00; x00; x00; x00; x78; x79] ++ [xcd; x00].
Example C59_example : read_text [x09] (info_text [x09] (fst (parse_bytes o_debug env0 lf_bytes))) =
    Some (ex_packets ++ [(11, [x0a; x00; x00; x00; x00; x00; x78; x79]); (13, [])])
  /\ snd (parse_bytes o_debug env0 lf_bytes) = ROk tt /\ fits env0 (mkStream lf_bytes true) /\ oDebug o_debug = true.
Proof. split; [vm_compute; reflexivity|]. split; [vm_compute; reflexivity|]. split; [split; [vm_compute; reflexivity | discriminate] | reflexivity]. Qed.
Definition debug_flags : flags := mkFlags true 2 (fun c => (c =? DEBUG)%Z).
Example C59_example_command : exists text, all_well debug_flags (world0 (mkStream lf_bytes true)) (CRoot false false []) text /\ f_on debug_flags DEBUG = true.
Proof.
  destruct (parse_stream (parse_context debug_flags) env0 (mkStream lf_bytes true)) as [items r] eqn:P.
  assert (r = ROk tt) as -> by (pose proof (f_equal snd P) as Q; vm_compute in Q; symmetry; exact Q).
  assert (exists b, info_JSON 2 items = ROk b) as (b & J) by (rewrite <- (f_equal fst P : _ = items); vm_compute; eexists; reflexivity).
  exists b. split; [|reflexivity]. exists (mkStream lf_bytes true), (parse_context debug_flags), items.
  split; [apply in_stdin|]. split; [now apply context_in_force|]. split; [exact P|]. split; [left; auto | intros k [=]].
Qed.
