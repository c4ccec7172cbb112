(** * PropRadix64: C52 and C53. *)
From Coq Require Import Strings.String Strings.Byte List NArith ZArith Bool Arith Lia ZifyBool ZifyN ZifyNat.
From Verif Require Import Base BaseL SpecBase Item Context Env Values Opaque Parse SpecText SpecArmor SpecFrame ArmorL Witness StreamL FrameL FramingL GrammarL.
From Verif Require Import Radix64 SpecRadix64 Radix64L ChecksumL ArmorTextL DamageL PropFrame.
Import ListNotations.
Local Open Scope N_scope.

(** The environments of this file decode armor as [armor_decode] does, in pieces of whatever sizes. *)
Definition decodes_armor (E : env) : Prop := forall txt, exists cuts,
  match e_armor E txt with
  | None => armor_decode cuts txt = None
  | Some (pieces, ok) => armor_decode cuts txt = Some (concat pieces, ok)
  end.
Definition env_armor : env :=
  mkEnv (e_grow env0) (e_inflate env0) (e_tz env0)
        (fun txt => match armor_decode [2; 1]%nat txt with Some (d, ok) => Some ([firstn 7 d; skipn 7 d], ok) | None => None end).
Example decodes_armor_used : decodes_armor env_armor.
Proof.
  intro txt. exists [2; 1]%nat. cbn [e_armor env_armor]. destruct (armor_decode _ txt) as [[d ok]|]; [|reflexivity].
  cbn [concat]. rewrite app_nil_r, firstn_skipn. reflexivity.
Qed.

Lemma short_lines_by data : forallb (fun p => lenN p <? 65536) (split_lines data) = true -> short_lines data.
Proof. intro H. apply Forall_forall. intros p I. rewrite forallb_forall in H. apply H in I. apply N.ltb_lt, I. Qed.

(** The example of RFC 4880, section 6.6, with something around it and line ends of two octets. *)
Definition rfc_data : bytes :=
  [xc8; x38; x01; x3b; x6d; x96; xc4; x11; xef; xec; xef; x17; xec; xef; xe3; xca; x00; x04; xce; x89; x79; xea; x25; x0a; x89;
   x79; x95; xf9; x79; xa9; x0a; xd9; xa9; xa9; x05; x0a; x89; x0a; xc5; xa9; xc9; x45; xa9; x40; xc1; xa2; xfc; xd2; xbc;
   x14; x85; x8c; xd4; xa2; x54; x7b; x2e; x00].
Definition rfc_lines (sum : string) : list bytes :=
  [str "-----BEGIN PGP MESSAGE-----"; str "Version: OpenPrivacy 0.99"; [];
   str "yDgBO22WxBHv7O8X7O/jygAEzol56iUKiXmV+XmpCtmpqQUKiQrFqclFqUDBovzS"; str "vBSFjNSiVHsuAA=="; str sum;
   str "-----END PGP MESSAGE-----"].
Definition rfc_text (sum : string) : bytes :=
  str "Hello" ++ [x0d; x0a] ++ flat_map (fun l => l ++ [x0d; x0a]) (rfc_lines sum) ++ str "Bye".
Lemma rfc_with sum n : str sum = sum_line n -> armored_with [sum_line n] rfc_data (rfc_lines sum).
Proof.
  intro S. unfold rfc_lines. rewrite S.
  exists (str "-----BEGIN PGP MESSAGE-----"), [str "Version: OpenPrivacy 0.99"], [],
    [str "yDgBO22WxBHv7O8X7O/jygAEzol56iUKiXmV+XmpCtmpqQUKiQrFqclFqUDBovzS"; str "vBSFjNSiVHsuAA=="], (str "-----END PGP MESSAGE-----").
  split; [reflexivity|]. split; [|split; [|split; [|split]]].
  - exists (str "MESSAGE"). split; [reflexivity|]. split; [discriminate|]. split; [vm_compute; discriminate|].
    split; [repeat constructor; vm_compute; discriminate | intros [t T]; discriminate T].
  - constructor; [|constructor]. exists (str "Version"), x4f, (str "penPrivacy 0.99"). split; [reflexivity|]. split; [discriminate|]. split; [vm_compute; discriminate|].
    split; [repeat constructor; vm_compute; discriminate|]. split; [vm_compute; split; discriminate|].
    intro I. cbn in I. repeat (destruct I as [I|I]; [discriminate|]). destruct I.
  - split; [reflexivity | constructor].
  - split; [vm_compute; reflexivity | repeat constructor; vm_compute; discriminate].
  - exists (str " MESSAGE-----"). split; [reflexivity|]. split; [reflexivity|]. intro I. cbn in I. repeat (destruct I as [I|I]; [discriminate|]). destruct I.
Qed.
Example rfc_armored : armored rfc_data (rfc_lines "=njUN").
Proof. unfold armored. apply rfc_with. vm_compute. reflexivity. Qed.
Lemma rfc_block sum : sum = "=njUN"%string \/ sum = "=njUO"%string ->
  short_lines (rfc_text sum) /\ first_block (lines_of (rfc_text sum)) (rfc_lines sum).
Proof.
  intro S. split; [apply short_lines_by; destruct S; subst; vm_compute; reflexivity|].
  exists [str "Hello"], (str "-----BEGIN PGP MESSAGE-----"),
    [str "Version: OpenPrivacy 0.99"; []; str "yDgBO22WxBHv7O8X7O/jygAEzol56iUKiXmV+XmpCtmpqQUKiQrFqclFqUDBovzS"; str "vBSFjNSiVHsuAA=="; str sum],
    (str "-----END PGP MESSAGE-----"), [str "Bye"].
  split; [destruct S; subst; vm_compute; reflexivity|]. split; [reflexivity|].
  split; [constructor; [intros [[t T] _]; discriminate T | constructor]|].
  split; [split; [exists (str " MESSAGE-----"); reflexivity | intros [t T]; discriminate T]|].
  split; [|exists (str " MESSAGE-----"); reflexivity].
  repeat constructor; intros [t T]; try discriminate T. destruct S; subst; discriminate T.
Qed.

(** C52.  A text that contains an armored block of [data], with its checksum, any headers and anything around it, gives what the
    octets [data] give by themselves. *)
Theorem C52_as_binary : forall (o : opts) (E : env) (text data : bytes) (block : list bytes),
  decodes_armor E -> short_lines text -> first_block (lines_of text) block -> armored data block ->
  exists c, delivers c data /\ parse_bytes o E text = parse_chunks o E c.
Proof.
  intros o E text data block D S B A.
  assert (exists ps, e_armor E (unlines block) = Some (ps, true) /\ concat ps = data) as (ps & EA & C).
  { destruct (D (unlines block)) as [cuts H]. rewrite (decode_with_sum cuts (checksum data) data block (checksum_small data) A) in H.
    rewrite N.eqb_refl in H. destruct (e_armor E (unlines block)) as [[ps ok]|]; [|discriminate]. exists ps. split; congruence. }
  exists (mkChunks (filter (fun p => negb (is_nil p)) ps) true). destruct (filter_pieces ps) as [F1 F2].
  split; [split; [exact F1 | split; [cbn [k_pieces]; congruence | reflexivity]]|].
  unfold parse_bytes, parse_stream, parse_new, new_reader_armor. rewrite (armtext_block text block S B), EA. destruct (oArmor o); reflexivity.
Qed.
Print Assumptions C52_as_binary.

(** C52.  So the packets in the data are shown, one after the other. *)
Theorem C52_packets : forall (o : opts) (E : env) (text data : bytes) (block : list bytes) (l : list (N * bytes)),
  decodes_armor E -> short_lines text -> first_block (lines_of text) block -> armored data block -> input_of l data ->
  parse_bytes o E text = parse_list o E l cst_init.
Proof.
  intros o E text data block l D S B A I. destruct (C52_as_binary o E text data block D S B A) as (c & DC & ->).
  exact (C01_framing o E l data c I DC).
Qed.
Print Assumptions C52_packets.
Example C52_used : decodes_armor env_armor /\ short_lines (rfc_text "=njUN") /\ first_block (lines_of (rfc_text "=njUN")) (rfc_lines "=njUN") /\
  armored rfc_data (rfc_lines "=njUN") /\ exists body, input_of [(8, body)] rfc_data.
Proof.
  split; [exact decodes_armor_used|]. destruct (rfc_block "=njUN" (or_introl eq_refl)) as [S B]. split; [exact S|]. split; [exact B|].
  split; [exact rfc_armored|]. exists (tl (tl rfc_data)). constructor.
  change rfc_data with ((n2b (192 + 8) :: [n2b 56] ++ tl (tl rfc_data)) ++ []). constructor; [|constructor].
  apply new_format; [reflexivity|]. apply (part_last _ [n2b 56]). apply (len_one 56). reflexivity.
Qed.

(** C52.  The checksum line may be missing. *)
Theorem C52_without_checksum : forall (o : opts) (E : env) (text data : bytes) (block : list bytes),
  decodes_armor E -> short_lines text -> first_block (lines_of text) block -> armored_with [] data block ->
  exists c, delivers c data /\ parse_bytes o E text = parse_chunks o E c.
Proof.
  intros o E text data block D S B A.
  assert (exists ps, e_armor E (unlines block) = Some (ps, true) /\ concat ps = data) as (ps & EA & C).
  { destruct (D (unlines block)) as [cuts H]. rewrite (decode_without_sum cuts data block A) in H.
    destruct (e_armor E (unlines block)) as [[ps ok]|]; [|discriminate]. exists ps. split; congruence. }
  exists (mkChunks (filter (fun p => negb (is_nil p)) ps) true). destruct (filter_pieces ps) as [F1 F2].
  split; [split; [exact F1 | split; [cbn [k_pieces]; congruence | reflexivity]]|].
  unfold parse_bytes, parse_stream, parse_new, new_reader_armor. rewrite (armtext_block text block S B), EA. destruct (oArmor o); reflexivity.
Qed.
Print Assumptions C52_without_checksum.
Example C52_without_used : armored_with [] [xca; x00] [str "-----BEGIN PGP X-----"; [x20]; str "yg"; str "A="; str "-----END PGP"].
Proof.
  exists (str "-----BEGIN PGP X-----"), [], [x20], [str "yg"; str "A="], (str "-----END PGP"). split; [reflexivity|].
  split; [exists (str "X"); split; [reflexivity|]; split; [discriminate|]; split; [discriminate|]; split; [repeat constructor; vm_compute; discriminate | intros [t T]; discriminate T]|].
  split; [constructor|]. split; [split; [reflexivity | repeat constructor]|].
  split; [split; [vm_compute; reflexivity | repeat constructor; vm_compute; discriminate]|].
  exists []. split; [reflexivity|]. split; [reflexivity | intros []].
Qed.

(** ** C53 *)

(** A reader that ends with an error: whatever it delivers, the parse fails. *)
Lemma next_chunks_raw_fails E tag body c : tag < 16 -> c_inv false c -> c_data c = n2b (131 + 4 * tag) :: body ->
  exists c', next_chunks E c = (RErr EIO, c').
Proof.
  intros T I D. unfold next_chunks, next_packet, readHeader.
  destruct (readHeader_first chunk_read c_data (c_inv false) (c_fin false) (chunk_gives false) (chunk_ends false) _ _ c I D) as (c1 & -> & D1 & I1). cbv zeta.
  rewrite b2n_n2b_small by lia. replace (131 + 4 * tag) with (128 + 3 + 4 * tag) by lia.
  destruct (old_header tag 3 T ltac:(lia)) as (-> & -> & -> & ->). change (3 =? 3) with true. cbv iota.
  assert (forall fuel cap acc s, (length (c_data s) < fuel)%nat -> lenN acc <= cap -> c_inv false s ->
    exists cs', read_all chunk_read (e_grow E) fuel cap acc (CRaw, s) = (Some (inr RIo), cs')) as R.
  { clear. induction fuel as [|fuel IH]; intros cap acc s F LC I; [lia|]. cbn [read_all].
    set (cap' := if lenN acc <? cap then cap else N.max (cap + 1) (e_grow E cap)).
    assert (0 < cap' - lenN acc) as Hn by (unfold cap'; destruct (lenN acc <? cap) eqn:E1; lia).
    unfold cread. destruct (c_data s) as [|z d] eqn:D.
    - rewrite (chunk_ends false _ s Hn I D). eexists. reflexivity.
    - destruct (chunk_gives false _ s Hn I ltac:(congruence)) as (b & s' & -> & NE & LB & DS & I').
      apply (f_equal (@length byte)) in DS. rewrite D, app_length in DS. apply IH; [destruct b; [congruence | cbn [length] in *; lia] | | exact I'].
      unfold lenN in *. rewrite app_length. lia. }
  destruct (R (S (S (chunks_len c))) 512 [] c1) as (cs' & ->).
  - rewrite chunks_len_data, D, D1. cbn [length]. lia.
  - discriminate.
  - exact I1.
  - destruct cs' as [c2 s2]. exists s2. reflexivity.
Qed.
Lemma bad_end o E c : c_inv false c -> exists items r, parse_chunks o E c = (items, r) /\ r <> ROk tt.
Proof.
  intro I. destruct (octets_are_packets (c_data c)) as (l & w & rest & D & P & T).
  assert (exists e, parse_chunks o E c = or_else (parse_list o E l cst_init) e) as [e ->].
  { destruct T as [|b t B|tag body T|q tag body x Q X F _].
    - exists EIO. apply (loop_then o E false l w [] c EIO P I D). intros c' I' D'. exact (next_chunks_end E false c' I' D').
    - exists EStruct. apply (loop_then o E false l w (b :: t) c EStruct P I D). intros c' I' D'. exact (next_chunks_bad E false b t c' B I' D').
    - exists EIO. eapply (loop_then o E false l w _ c EIO P I D). intros c' I' D'. exact (next_chunks_raw_fails E tag body c' T I' D').
    - exists EIO. apply (loop_then o E false l w q c EIO P I D). intros c' I' D'. exact (next_chunks_cut E false tag body q x c' F Q X I' D'). }
  unfold or_else. eexists _, _. split; [reflexivity|]. destruct (snd (parse_list o E l cst_init)); discriminate.
Qed.
Lemma armor_bad o E text block : decodes_armor E -> short_lines text -> first_block (lines_of text) block ->
  (forall cuts, exists d, armor_decode cuts (unlines block) = Some (d, false)) ->
  exists c, k_ok c = false /\ Forall (fun p => p <> []) (k_pieces c) /\
    (exists cuts, armor_decode cuts (unlines block) = Some (concat (k_pieces c), false)) /\ parse_bytes o E text = parse_chunks o E c.
Proof.
  intros D S B A. destruct (D (unlines block)) as [cuts H]. destruct (A cuts) as [d' AD].
  destruct (e_armor E (unlines block)) as [[ps ok]|] eqn:EA; [|congruence]. rewrite H in AD. injection AD as C ->.
  exists (mkChunks (filter (fun p => negb (is_nil p)) ps) false). destruct (filter_pieces ps) as [F1 F2].
  split; [reflexivity|]. split; [exact F1|]. split; [exists cuts; cbn [k_pieces]; rewrite F2; exact H|].
  unfold parse_bytes, parse_stream, parse_new, new_reader_armor. rewrite (armtext_block text block S B), EA. destruct (oArmor o); reflexivity.
Qed.

(** C53.  When the checksum in the text is not that of the data, the parse never succeeds. *)
Theorem C53_wrong_checksum : forall (o : opts) (E : env) (text data : bytes) (block : list bytes) (n : N),
  decodes_armor E -> short_lines text -> first_block (lines_of text) block ->
  n < 2 ^ 24 -> n <> checksum data -> armored_with [sum_line n] data block ->
  snd (parse_bytes o E text) <> ROk tt.
Proof.
  intros o E text data block n D S B HN NE A.
  destruct (armor_bad o E text block D S B) as (c & K & P & _ & ->).
  - intro cuts. exists data. rewrite (decode_with_sum cuts n data block HN A). do 2 f_equal. apply N.eqb_neq, NE.
  - destruct (bad_end o E c) as (items & r & -> & NR); [split; assumption | exact NR].
Qed.
Print Assumptions C53_wrong_checksum.

(** C53.  Packets that are complete are shown all the same; the error comes behind them. *)
Theorem C53_wrong_checksum_shows : forall (o : opts) (E : env) (text data : bytes) (block : list bytes) (n : N) (l : list (N * bytes)),
  decodes_armor E -> short_lines text -> first_block (lines_of text) block ->
  n < 2 ^ 24 -> n <> checksum data -> armored_with [sum_line n] data block -> packets_in l data ->
  parse_bytes o E text = or_else (parse_list o E l cst_init) EIO.
Proof.
  intros o E text data block n l D S B HN NE A P.
  assert (forall cuts, armor_decode cuts (unlines block) = Some (data, false)) as AD.
  { intro cuts. rewrite (decode_with_sum cuts n data block HN A). do 2 f_equal. apply N.eqb_neq, NE. }
  destruct (armor_bad o E text block D S B) as (c & K & PO & [cuts X] & ->); [intro cuts; exists data; apply AD|].
  rewrite AD in X. injection X as X. apply (loop_then o E false l data [] c EIO P); [split; assumption | rewrite app_nil_r; symmetry; exact X|].
  intros c' I' D'. exact (next_chunks_end E false c' I' D').
Qed.
Print Assumptions C53_wrong_checksum_shows.
(** The last character of the checksum is wrong. *)
Example C53_wrong_used : short_lines (rfc_text "=njUO") /\ first_block (lines_of (rfc_text "=njUO")) (rfc_lines "=njUO") /\
  (exists n, n < 2 ^ 24 /\ n <> checksum rfc_data /\ armored_with [sum_line n] rfc_data (rfc_lines "=njUO")).
Proof.
  destruct (rfc_block "=njUO" (or_intror eq_refl)) as [S B]. split; [exact S|]. split; [exact B|].
  exists 10368270. split; [reflexivity|]. split; [vm_compute; discriminate|]. apply rfc_with. vm_compute. reflexivity.
Qed.

(** C53.  When up to three octets in a row are damaged and the checksum is that of the undamaged data, the parse never succeeds. *)
Theorem C53_damage : forall (o : opts) (E : env) (text data damage : bytes) (block : list bytes),
  decodes_armor E -> short_lines text -> first_block (lines_of text) block ->
  damaged data damage -> armored_with [sum_line (checksum data)] damage block ->
  snd (parse_bytes o E text) <> ROk tt.
Proof.
  intros o E text data damage block D S B X A.
  exact (C53_wrong_checksum o E text damage block (checksum data) D S B (checksum_small data) (damage_changes _ _ X) A).
Qed.
Print Assumptions C53_damage.
Ltac no_lf := let I := fresh in intro I; vm_compute in I; repeat (destruct I as [I|I]; [discriminate|]); destruct I.
Lemma begin_message : begin_armor (str "-----BEGIN PGP MESSAGE-----").
Proof. exists (str "MESSAGE"). split; [reflexivity|]. split; [discriminate|]. split; [discriminate|]. split; [repeat constructor; vm_compute; discriminate | intros [t T]; discriminate T]. Qed.
Lemma end_message : end_armor (str "-----END PGP MESSAGE-----").
Proof. exists (str " MESSAGE-----"). split; [reflexivity|]. split; [reflexivity|]. no_lf. Qed.
Lemma block_first mid : Forall (fun l => ~ end_line l) mid ->
  let block := str "-----BEGIN PGP MESSAGE-----" :: mid ++ [str "-----END PGP MESSAGE-----"] in
  lines_of (unlines block) = block -> first_block (lines_of (unlines block)) block.
Proof.
  intros F block ->. exists [], (str "-----BEGIN PGP MESSAGE-----"), mid, (str "-----END PGP MESSAGE-----"), [].
  split; [reflexivity|]. split; [reflexivity|]. split; [constructor|].
  split; [split; [exists (str " MESSAGE-----"); reflexivity | intros [t T]; discriminate T]|].
  split; [exact F | exists (str " MESSAGE-----"); reflexivity].
Qed.
Definition changed_block (l : bytes) (sum : string) : list bytes := [str "-----BEGIN PGP MESSAGE-----"; []; l; str sum; str "-----END PGP MESSAGE-----"].
(** In the body of a marker packet, 50 has become 51. *)
Example C53_damage_used : damaged [xca; x03; x50; x47; x50] [xca; x03; x51; x47; x50] /\
  str "=GG5/" = sum_line (checksum [xca; x03; x50; x47; x50]) /\
  let b := changed_block (str "ygNRR1A=") "=GG5/" in
  armored_with [str "=GG5/"] [xca; x03; x51; x47; x50] b
  /\ short_lines (unlines b) /\ first_block (lines_of (unlines b)) b /\ parse_bytes o_plain env_armor (unlines b) =
     or_else (parse_list o_plain env_armor [(10, [x51; x47; x50])] cst_init) EIO.
Proof.
  split; [exists [xca; x03], [x50], [x51], [x47; x50]; repeat split; [cbn; lia | discriminate]|]. split; [vm_compute; reflexivity|]. intro b.
  split; [|split; [apply short_lines_by; vm_compute; reflexivity | split; [|vm_compute; reflexivity]]].
  - exists (str "-----BEGIN PGP MESSAGE-----"), [], [], [str "ygNRR1A="], (str "-----END PGP MESSAGE-----"). split; [reflexivity|].
    split; [exact begin_message|]. split; [constructor|]. split; [split; [reflexivity | repeat constructor]|].
    split; [split; [vm_compute; reflexivity | repeat constructor; vm_compute; discriminate] | exact end_message].
  - apply (block_first [[]; str "ygNRR1A="; str "=GG5/"]); [|vm_compute; reflexivity].
    repeat constructor; try discriminate; intros [t T]; discriminate T.
Qed.

(** C53.  Any one character of the data lines changed into any other octet, except that no = and no line feed is involved: the
    parse never succeeds, unless the changed text stands for the same data. *)
Theorem C53_one_character : forall (o : opts) (E : env) (text data b bl u v e : bytes) (hs ls1 ls2 : list bytes) (x c : byte),
  begin_armor b -> Forall header hs -> blank bl -> data_lines data (ls1 ++ (u ++ x :: v) :: ls2) -> end_armor e ->
  decodes_armor E -> short_lines text ->
  first_block (lines_of text) (b :: hs ++ bl :: (ls1 ++ (u ++ c :: v) :: ls2) ++ [sum_line (checksum data); e]) ->
  x <> x3d -> c <> x3d -> c <> x0a ->
  snd (parse_bytes o E text) <> ROk tt \/ exists ch, delivers ch data /\ parse_bytes o E text = parse_chunks o E ch.
Proof.
  intros o E text data b bl u v e hs ls1 ls2 x c HB HH HL HD HE D S B NX NC NL.
  set (block := b :: hs ++ bl :: (ls1 ++ (u ++ c :: v) :: ls2) ++ [sum_line (checksum data); e]) in *.
  destruct (D (unlines block)) as [cuts H].
  destruct (decode_changed cuts data b hs bl ls1 u x v ls2 c e HB HH HL HD HE NX NC NL) as (d & ok & AD & OK). change (armor_decode cuts (unlines block) = Some (d, ok)) in AD.
  destruct (e_armor E (unlines block)) as [[ps ok']|] eqn:EA; [|congruence]. rewrite AD in H. injection H as -> ->.
  destruct (filter_pieces ps) as [F1 F2].
  assert (parse_bytes o E text = parse_chunks o E (mkChunks (filter (fun p => negb (is_nil p)) ps) ok')) as ->.
  { unfold parse_bytes, parse_stream, parse_new, new_reader_armor. rewrite (armtext_block text block S B), EA. destruct (oArmor o); reflexivity. }
  destruct ok'.
  - right. eexists. split; [|reflexivity]. split; [exact F1 | split; [cbn [k_pieces]; rewrite F2; exact (OK eq_refl) | reflexivity]].
  - left. match goal with |- snd (parse_chunks o E ?ch) <> _ => destruct (bad_end o E ch) as (items & r & -> & NR) end; [split; [exact F1 | reflexivity] | exact NR].
Qed.
Print Assumptions C53_one_character.

(** C53.  With padding involved, the checksum need not notice: here the last character of the data has become =, which drops an
    octet from the body of the packet. *)
Definition pad_text (c : string) : bytes :=
  unlines [str "-----BEGIN PGP MESSAGE-----"; []; str ("qwAAGsg" ++ c); str "=Gbg5"; str "-----END PGP MESSAGE-----"].
Theorem C53_padding_refuted :
  parse_bytes o_plain env_armor (pad_text "R") = parse_list o_plain env_armor [(10, [x00; x00; x1a; xc8; x11])] cst_init
  /\ parse_bytes o_plain env_armor (pad_text "=") = parse_list o_plain env_armor [(10, [x00; x00; x1a; xc8])] cst_init
  /\ snd (parse_bytes o_plain env_armor (pad_text "=")) = ROk tt.
Proof. vm_compute. auto. Qed.
Print Assumptions C53_padding_refuted.

(** C53.  A data line of more than 96 characters is never accepted. *)
Theorem C53_long_line : forall (o : opts) (E : env) (text data b bl l : bytes) (hs ls rest : list bytes),
  begin_armor b -> Forall header hs -> blank bl -> data_lines data ls ->
  96 < lenN l -> ~ In x0a l -> ~ In x0d l -> ~ starts_with (str "-----END ") l ->
  decodes_armor E -> short_lines text -> first_block (lines_of text) (b :: hs ++ bl :: ls ++ l :: rest) ->
  snd (parse_bytes o E text) <> ROk tt.
Proof.
  intros o E text data b bl l hs ls rest HB HH HL HD L NA ND NE D S B.
  destruct (armor_bad o E text _ D S B) as (c & K & P & _ & ->).
  - intro cuts. apply decode_long; try assumption; [eapply data_lines_ok; exact HD | intros t ->; apply NE; exists t; reflexivity].
  - destruct (bad_end o E c) as (items & r & -> & NR); [split; assumption | exact NR].
Qed.
Print Assumptions C53_long_line.

(** C52.  A header whose value is empty is not accepted, although everything else is in order. *)
Definition empty_header_block : list bytes :=
  [str "-----BEGIN PGP MESSAGE-----"; str "Comment: "; []; str "ygNQR1A="; str "=GG5/"; str "-----END PGP MESSAGE-----"].
Theorem C52_empty_header_refuted :
  parse_bytes (o_new [(ARMOR, true)]) env_armor (unlines empty_header_block) = ([], RErr EArmorDecode)
  /\ parse_bytes o_plain env_armor (unlines empty_header_block) = ([], RErr EStruct)
  /\ parse_bytes o_plain env_armor (unlines (hd [] empty_header_block :: tl (tl empty_header_block))) = parse_list o_plain env_armor [(10, [x50; x47; x50])] cst_init.
Proof. vm_compute. auto. Qed.
Print Assumptions C52_empty_header_refuted.

(** One character of the data changed (the R of the example above into S), and a line of 97 characters. *)
Example C53_one_character_used :
  data_lines [xab; x00; x00; x1a; xc8; x11] ([] ++ (str "qwAAGsg" ++ x52 :: []) :: []) /\ str "=Gbg5" = sum_line (checksum [xab; x00; x00; x1a; xc8; x11]) /\
  short_lines (unlines (changed_block (str "qwAAGsgS") "=Gbg5")) /\
  first_block (lines_of (unlines (changed_block (str "qwAAGsgS") "=Gbg5"))) (changed_block (str "qwAAGsgS") "=Gbg5") /\
  snd (parse_bytes o_plain env_armor (unlines (changed_block (str "qwAAGsgS") "=Gbg5"))) = RErr EIO.
Proof.
  split; [split; [vm_compute; reflexivity | repeat constructor; vm_compute; discriminate]|]. split; [vm_compute; reflexivity|].
  split; [apply short_lines_by; vm_compute; reflexivity|]. split; [|vm_compute; reflexivity].
  apply (block_first [[]; str "qwAAGsgS"; str "=Gbg5"]); [|vm_compute; reflexivity].
  repeat constructor; try discriminate; intros [t T]; discriminate T.
Qed.
Example C53_long_line_used : let l := repeat x41 97 in
  96 < lenN l /\ ~ In x0a l /\ ~ In x0d l /\ ~ starts_with (str "-----END ") l /\ short_lines (unlines (changed_block l "=Gbg5")) /\
  first_block (lines_of (unlines (changed_block l "=Gbg5"))) (changed_block l "=Gbg5").
Proof.
  intro l. split; [reflexivity|]. split; [no_lf|]. split; [no_lf|]. split; [intros [t T]; discriminate T|]. split; [apply short_lines_by; vm_compute; reflexivity|].
  apply (block_first [[]; l; str "=Gbg5"]); [|vm_compute; reflexivity].
  repeat constructor; try discriminate; intros [t T]; discriminate T.
Qed.
