(** * PropJson: the JSON output (C37). *)
From Coq Require Import Strings.String Strings.Byte List NArith ZArith Bool Lia ZifyBool ZifyN ZifyNat.
From Verif Require Import Base BaseL SpecBase SpecValues Utf8 Item SpecText Utf8L TextL Json SpecJson JsonL JsonDocL.
From Verif Require Import Context Env Parse Witness SpecPacket SpecNest SpecSub SubL UnfoldL SpecParse PropSig PropSub SpecFrame SpecArmor PropFrame Opaque SpecSubs ParseL RelL SpecComp SubParse Tags PropParse.
Import ListNotations.
Local Open Scope N_scope.

Lemma ws_blanks n : ws (repeat_bytes [x20] n).
Proof. induction n as [|n IH]; [constructor|]. cbn [repeat_bytes]. constructor; [left; reflexivity | exact IH]. Qed.

(** C37.  The compact output is a JSON text of the document of the tree. *)
Theorem C37_compact : forall (l : list item) (n : Z), (n <= 0)%Z ->
  exists v b, info_JSON n l = ROk b /\ document l v /\ json_text v b.
Proof.
  intros l n N. unfold info_JSON. replace (0 <? n)%Z with false by lia.
  exists (raw_value (raw_info l)), (info_json l). split; [reflexivity|]. split; [apply document_raw|].
  exists [], (info_json l), []. repeat split; [constructor| |constructor|rewrite app_nil_r; reflexivity].
  rewrite info_json_raw. apply compact_text, raw_info_plain.
Qed.
Print Assumptions C37_compact.

Lemma indent_result n l : (0 < n)%Z ->
  info_JSON n l = if 1 + 2 * all_levels l <=? max_nesting then ROk (raw_pretty (repeat_bytes [x20] (Z.to_nat n)) 0 (raw_info l)) else RErr EJSON.
Proof.
  intro N. unfold info_JSON. replace (0 <? n)%Z with true by lia. cbv zeta.
  rewrite info_json_raw. rewrite <- (app_nil_r (raw_compact (raw_info l))).
  rewrite (indent_raw _ _ (raw_info_plain l) [] false 0%nat 0 ltac:(vm_compute; discriminate)).
  rewrite raw_info_depth. rewrite N.add_0_l. destruct (_ <=? _); [|reflexivity]. cbn [lead deeper app indent_loop put]. rewrite app_nil_r. reflexivity.
Qed.

(** C37.  With an indent width the output is a JSON text of the same document, for every tree of at most 4999 levels. *)
Theorem C37_indented_partial : forall (l : list item) (n : Z), (0 < n)%Z -> all_levels l <= 4999 ->
  exists v b, info_JSON n l = ROk b /\ document l v /\ json_text v b.
Proof.
  intros l n N L. rewrite indent_result by assumption. replace (1 + 2 * all_levels l <=? max_nesting) with true by (unfold max_nesting; lia).
  eexists (raw_value (raw_info l)), _. split; [reflexivity|]. split; [apply document_raw|].
  exists [], (raw_pretty (repeat_bytes [x20] (Z.to_nat n)) 0 (raw_info l)), []. repeat split; [constructor| |constructor|rewrite app_nil_r; reflexivity].
  apply pretty_text; [apply ws_blanks | apply raw_info_plain].
Qed.
Print Assumptions C37_indented_partial.

(** C37.  A deeper tree has no indented JSON output at all, but an error. *)
Theorem C37_too_deep : forall (l : list item) (n : Z), (0 < n)%Z -> 4999 < all_levels l -> info_JSON n l = RErr EJSON.
Proof.
  intros l n N L. rewrite indent_result by assumption. replace (1 + 2 * all_levels l <=? max_nesting) with false by (unfold max_nesting; lia). reflexivity.
Qed.
Print Assumptions C37_too_deep.

(** C37.  Reading the text: a text stands for one value, a value for one tree of valid strings; so whoever reads the
    output as JSON gets the tree back. *)
Theorem C37_reads_back : forall (l l' : list item) (n : Z) (b : bytes) (v : json),
  Forall (all_fields is_utf8) l -> info_JSON n l = ROk b ->
  json_text v b -> Forall (all_fields is_utf8) l' -> document l' v -> l' = l.
Proof.
  intros l l' n b v U H T U' D.
  assert (exists w, document l w /\ json_text w b) as (w & D' & T').
  { destruct (Z.leb_spec n 0) as [N|N].
    - destruct (C37_compact l n N) as (w & b' & H' & D' & T'). rewrite H in H'. injection H' as <-. eauto.
    - rewrite indent_result in H by assumption.
      destruct (N.leb_spec (1 + 2 * all_levels l) max_nesting) as [L|L]; [|discriminate].
      destruct (C37_indented_partial l n N ltac:(unfold max_nesting in L; lia)) as (w & b' & H' & D' & T').
      rewrite indent_result in H' by assumption. replace (1 + 2 * all_levels l <=? max_nesting) with true in H' by lia.
      rewrite H in H'. injection H' as <-. eauto. }
  rewrite (json_text_fun _ _ _ T T') in D. exact (document_tree _ _ _ U' U D D').
Qed.
Print Assumptions C37_reads_back.

(** C37.  Different trees have different texts, whatever the indent widths. *)
Theorem C37_injective : forall (l l' : list item) (n n' : Z) (b : bytes),
  Forall (all_fields is_utf8) l -> Forall (all_fields is_utf8) l' ->
  info_JSON n l = ROk b -> info_JSON n' l' = ROk b -> l = l'.
Proof.
  intros l l' n n' b U U' H H'.
  assert (exists v, document l v /\ json_text v b) as (v & D & T).
  { destruct (Z.leb_spec n 0) as [N|N].
    - destruct (C37_compact l n N) as (w & b' & E & D' & T'). rewrite H in E. injection E as <-. eauto.
    - destruct (N.leb_spec (all_levels l) 4999) as [L|L].
      + destruct (C37_indented_partial l n N L) as (w & b' & E & D' & T'). rewrite H in E. injection E as <-. eauto.
      + rewrite (C37_too_deep l n N L) in H. discriminate. }
  exact (C37_reads_back l' l n' b v U' H' T U D).
Qed.
Print Assumptions C37_injective.

(** C37.  A text stands for one value only; a tree, valid strings or not, has one document. *)
Theorem C37_one_value : forall (v v' : json) (b : bytes), json_text v b -> json_text v' b -> v = v'.
Proof. exact json_text_fun. Qed.
Print Assumptions C37_one_value.
Theorem C37_one_document : forall (l : list item) (v v' : json), document l v -> document l v' -> v = v'.
Proof. exact document_fun. Qed.
Print Assumptions C37_one_document.

(** C37.  For the result of any parse (its strings are valid UTF-8, C14): whoever reads the JSON output gets back the
    packets that were recorded. *)
Theorem C37_parse_reads_back : forall (o : opts) (E : env) (src : stream) (n : Z) (b : bytes) (v : json) (l : list item),
  fits E src -> info_JSON n (fst (parse_stream o E src)) = ROk b ->
  json_text v b -> Forall (all_fields is_utf8) l -> document l v -> l = fst (parse_stream o E src).
Proof. intros o E src n b v l F H T U DV. exact (C37_reads_back _ l n b v (C14_all_utf8 o E src F) H T U DV). Qed.
Print Assumptions C37_parse_reads_back.

(** ** Trees that are too deep *)

(** Signatures inside signatures: version 4, an algorithm without a layout, one embedded signature in the first area. *)
Fixpoint deep (k : nat) : bytes :=
  sig_octets x04 x00 x00 x08
    (match k with O => [] | S j => (xff :: be_enc 4 (1 + lenN (deep j))) ++ x20 :: deep j ++ [] end) [] [x00; x00] [].

Lemma deep_area k : deep (S k) = sig_octets x04 x00 x00 x08 ((xff :: be_enc 4 (1 + lenN (deep k))) ++ x20 :: deep k ++ []) [] [x00; x00] [].
Proof. reflexivity. Qed.

Lemma be_enc_len w n : length (be_enc w n) = w.
Proof. revert n. induction w as [|w IH]; intro n; [reflexivity|]. cbn [be_enc]. rewrite app_length, IH. cbn. lia. Qed.

Lemma deep_length k : lenN (deep k) = 10 + 16 * N.of_nat k.
Proof.
  unfold lenN. induction k as [|k IH]; [reflexivity|]. rewrite deep_area. unfold sig_octets.
  repeat progress (rewrite ?app_length, ?be_enc_len; cbn [length app]). change (length (encs [])) with 0%nat. lia.
Qed.

Lemma levels_child i l c : In c (i_items i) -> i_items i = l -> 1 + levels c <= levels i.
Proof.
  intros I <-. destruct i as [n v d t l]. rewrite levels_eq. cbn [i_items] in I. apply N.add_le_mono_l.
  unfold all_levels. induction l as [|x l IH]; [destruct I|]. cbn [fold_right]. destruct I as [->|I]; [lia|]. specialize (IH I). lia.
Qed.

Lemma deep_levels k : 10 + 16 * N.of_nat k < 65000 -> forall cs, four_octet_dates cs ->
  exists i, parse_tag o_plain env0 2 (deep k) cs = (ROk (i, None), cs) /\ 1 + 3 * N.of_nat k <= levels i.
Proof.
  induction k as [|k IH]; intros L cs D.
  - pose proof (C22_unknown_algorithm o_plain env0 cs x04 x00 x00 x08 [] [] [x00; x00] [] [] [] [] [] cs cs) as H. cbv zeta in H.
    eexists. split.
    + change (deep 0) with (sig_octets x04 x00 x00 x08 [] [] [x00; x00] [] ++ []).
      apply H; try reflexivity; try assumption; [left; reflexivity | constructor | constructor].
    + pose proof (levels_pos). apply levels_pos.
  - destruct (IH ltac:(lia) cs D) as (i & P & LV).
    pose proof (deep_length k) as LD. pose proof (deep_length (S k)) as LS.
    set (A := (xff :: be_enc 4 (1 + lenN (deep k))) ++ x20 :: deep k ++ []).
    assert (parse_sub o_plain env0 2 x20 (deep k) cs = (ROk (sub_shown o_plain x20 (deep k) [i]), cs)) as PS.
    { rewrite C49_embedded by reflexivity. rewrite P. reflexivity. }
    pose proof (C22_unknown_algorithm o_plain env0 cs x04 x00 x00 x08 A [] [x00; x00] [] [(x20, deep k)] []
                  [sub_shown o_plain x20 (deep k) [i]] [] cs cs) as H. cbv zeta in H.
    eexists. split.
    + rewrite deep_area. rewrite <- (app_nil_r (sig_octets _ _ _ _ _ _ _ _)). apply H; try reflexivity.
      * left. reflexivity.
      * unfold A. unfold lenN in *. repeat progress (rewrite ?app_length, ?be_enc_len; cbn [length app]). lia.
      * unfold A. constructor; [apply slen_five; lia | constructor].
      * constructor.
      * cbn [sub_list]. rewrite PS. reflexivity.
      * unfold sized. rewrite app_nil_r. unfold A. rewrite <- deep_area. unfold lenN, lenZ in *. lia.
      * assumption.
    + match goal with |- _ <= levels (packet_shown _ _ _ ?kids) =>
        assert (In (area_shown o_plain "Hashed Subpacket" A [sub_shown o_plain x20 (deep k) [i]]) kids) as I1 by (cbn; tauto) end.
      pose proof (levels_child (sub_shown o_plain x20 (deep k) [i]) _ i (or_introl eq_refl) eq_refl) as L1.
      pose proof (levels_child (area_shown o_plain "Hashed Subpacket" A [sub_shown o_plain x20 (deep k) [i]]) _ _ (or_introl eq_refl) eq_refl) as L2.
      match goal with |- _ <= levels ?p => pose proof (levels_child p _ _ I1 eq_refl) as L3 end. lia.
Qed.

Lemma short_piece p data : In p (split_lines data) -> (length p <= length data)%nat.
Proof.
  revert p. induction data as [|b t IH]; intros p I; [destruct I as [<-|[]]; cbn; lia|].
  cbn [split_lines] in I. destruct (Byte.eqb b x0a).
  - destruct I as [<-|I]; [cbn; lia|]. specialize (IH p I). cbn. lia.
  - destruct (split_lines t) as [|h r]; [destruct I as [<-|[]]; cbn; lia|].
    destruct I as [<-|I]; [specialize (IH h (or_introl eq_refl)); cbn; lia|]. specialize (IH p (or_intror I)). cbn. lia.
Qed.

(** One signature packet behind a five-octet length. *)
Lemma one_signature d i cs : lenN d < 60000 -> parse_tag o_plain env0 2 d cst_init = (ROk (i, None), cs) ->
  parse_bytes o_plain env0 (xc2 :: xff :: be_enc 4 (lenN d) ++ d) = ([i], ROk tt).
Proof.
  intros L P. rewrite (C01_file o_plain env0 [(2, d)]).
  - cbn [parse_list]. unfold packets_parse. rewrite P. reflexivity.
  - apply all_definite. rewrite <- (app_nil_r (xc2 :: _)). constructor; [|constructor].
    change (xc2 :: xff :: be_enc 4 (lenN d) ++ d) with (n2b (192 + 2) :: (xff :: be_enc 4 (lenN d)) ++ d).
    apply new_format; [reflexivity|]. apply part_last. apply len_five. lia.
  - reflexivity.
  - apply Forall_forall. intros p I. apply short_piece in I. cbn [length] in I.
    rewrite app_length, be_enc_len in I. unfold lenN in *. lia.
  - reflexivity.
Qed.

Lemma deep_signature : exists d i, lenN d = 27210 /\ parse_tag o_plain env0 2 d cst_init = (ROk (i, None), cst_init) /\ 4999 < levels i.
Proof.
  assert (exists k, N.of_nat k = 1700) as (k & K) by (exists (N.to_nat 1700); lia).
  destruct (deep_levels k ltac:(lia) cst_init) as (i & P & L); [intros d [H|H]; discriminate H|].
  exists (deep k), i. rewrite deep_length. split; [lia|]. split; [exact P | lia].
Qed.

(** C37 is false of indented output in this respect: an input of 27216 octets that parses without error and has a
    compact JSON output, but none with any indent width. *)
Theorem C37_indented_refuted : exists (data : bytes) (items : list item),
  lenN data = 27216 /\ parse_bytes o_plain env0 data = (items, ROk tt) /\
  (exists b, info_JSON 0 items = ROk b) /\ forall n, (0 < n)%Z -> info_JSON n items = RErr EJSON.
Proof.
  destruct deep_signature as (d & i & LD & P & L).
  exists (xc2 :: xff :: be_enc 4 (lenN d) ++ d), [i]. split; [|split; [|split; [eexists; reflexivity|]]].
  - unfold lenN at 1. cbn [length]. rewrite app_length, be_enc_len. unfold lenN in *. lia.
  - apply (one_signature d i cst_init); [lia | exact P].
  - intros n N. apply C37_too_deep; [assumption|]. unfold all_levels. cbn [fold_right]. lia.
Qed.
Print Assumptions C37_indented_refuted.

(** ** The hypotheses are met *)

Definition ex_tree : list item :=
  [Item (str "User ID <a@b>") (str "tab" ++ [x09] ++ [xc3; xa9]) [] (str "3 bytes")
     [Item (str "x") [] (str "0a 0b") [] []]].
Example C37_tree_valid : Forall (all_fields is_utf8) ex_tree.
Proof.
  repeat constructor; apply utf8_valid_spec; reflexivity.
Qed.
Example C37_tree_levels : all_levels ex_tree = 2.
Proof. reflexivity. Qed.
(** What the program writes, octet for octet. *)
Example C37_tree_text : info_JSON 0 ex_tree =
  ROk (str "{""Packet"":[{""name"":""User ID \u003ca@b\u003e"",""value"":""tab\t" ++ [xc3; xa9]
       ++ str """,""note"":""3 bytes"",""Item"":[{""name"":""x"",""dump"":""0a 0b""}]}]}").
Proof. reflexivity. Qed.
Example C37_empty_text : info_JSON 0 [] = ROk (str "{}") /\ info_JSON 2 [] = ROk (str "{}").
Proof. split; reflexivity. Qed.
Definition nl : bytes := [x0a].
Example C37_tree_indented : info_JSON 2 [Item (str "x") [] (str "0a") [] [Item (str "y") [] [] [] []]] =
  ROk (str "{" ++ nl ++ str "  ""Packet"": [" ++ nl ++ str "    {" ++ nl ++ str "      ""name"": ""x""," ++ nl
       ++ str "      ""dump"": ""0a""," ++ nl ++ str "      ""Item"": [" ++ nl ++ str "        {" ++ nl
       ++ str "          ""name"": ""y""" ++ nl ++ str "        }" ++ nl ++ str "      ]" ++ nl ++ str "    }" ++ nl
       ++ str "  ]" ++ nl ++ str "}").
Proof. reflexivity. Qed.

(** The expected output of facade/json_test.go (TestJsonOn), from the bytes of facade/facade_test.go. *)
Example golden_json :
  info_JSON 2 (fst (parse_bytes (o_new []) env0 [xa8; x03; x50; x47; x50; xc3; x04; x04; x03; x00; x01; xc9; x38; xe7; x2d; x2f; xb1; xf1; x0f; xc3; xce; x55; x5d; xb2; x8a; x4b; xe8; x4f; x43; x15; x6e; x7d; x90; x90; x53; x6a; x9a; xe3; xaa; x1c; x68; xd6; xd3; xfc; x6a; x4e; x79; xa8; xe7; xb1; xa5; x87; xea; xcc; xcc; x99; x66; x31; xad; xff; xe1; xa3; x03; xb6; x47; x85; x76; xbd; x0b])) =
  ROk (str "{" ++ nl
   ++ str "  ""Packet"": [" ++ nl
   ++ str "    {" ++ nl
   ++ str "      ""name"": ""Marker Packet (Obsolete Literal Packet) (tag 10)""," ++ nl
   ++ str "      ""note"": ""3 bytes""," ++ nl
   ++ str "      ""Item"": [" ++ nl
   ++ str "        {" ++ nl
   ++ str "          ""name"": ""Literal data""," ++ nl
   ++ str "          ""note"": ""3 bytes""" ++ nl
   ++ str "        }" ++ nl
   ++ str "      ]" ++ nl
   ++ str "    }," ++ nl
   ++ str "    {" ++ nl
   ++ str "      ""name"": ""Symmetric-Key Encrypted Session Key Packet (tag 3)""," ++ nl
   ++ str "      ""note"": ""4 bytes""," ++ nl
   ++ str "      ""Item"": [" ++ nl
   ++ str "        {" ++ nl
   ++ str "          ""name"": ""Version""," ++ nl
   ++ str "          ""value"": ""4""," ++ nl
   ++ str "          ""note"": ""current""" ++ nl
   ++ str "        }," ++ nl
   ++ str "        {" ++ nl
   ++ str "          ""name"": ""Symmetric Algorithm""," ++ nl
   ++ str "          ""value"": ""CAST5 (128 bit key, as per) (sym 3)""" ++ nl
   ++ str "        }," ++ nl
   ++ str "        {" ++ nl
   ++ str "          ""name"": ""String-to-Key (S2K) Algorithm""," ++ nl
   ++ str "          ""value"": ""Simple S2K (s2k 0)""," ++ nl
   ++ str "          ""Item"": [" ++ nl
   ++ str "            {" ++ nl
   ++ str "              ""name"": ""Hash Algorithm""," ++ nl
   ++ str "              ""value"": ""MD5 (hash 1)""" ++ nl
   ++ str "            }" ++ nl
   ++ str "          ]" ++ nl
   ++ str "        }" ++ nl
   ++ str "      ]" ++ nl
   ++ str "    }," ++ nl
   ++ str "    {" ++ nl
   ++ str "      ""name"": ""Symmetrically Encrypted Data Packet (tag 9)""," ++ nl
   ++ str "      ""note"": ""56 bytes""," ++ nl
   ++ str "      ""Item"": [" ++ nl
   ++ str "        {" ++ nl
   ++ str "          ""name"": ""Encrypted data""," ++ nl
   ++ str "          ""value"": ""sym alg is specified in sym-key encrypted session key""," ++ nl
   ++ str "          ""note"": ""56 bytes""" ++ nl
   ++ str "        }" ++ nl
   ++ str "      ]" ++ nl
   ++ str "    }" ++ nl
   ++ str "  ]" ++ nl
   ++ str "}").
Proof. vm_compute. reflexivity. Qed.
