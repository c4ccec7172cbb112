(** * PropCommand: C67, for the command. *)
From Coq Require Import Strings.String Strings.Byte List NArith ZArith Bool Lia ZifyBool ZifyN ZifyNat.
From Verif Require Import Base Item Context Env Parse Json Facade Cli SpecBase SpecText SpecFrame SpecParse SpecArmor SpecRadix64 SpecJson SpecFacade SpecCli SpecValues SpecPacket SpecSub SpecSubs SpecSecret
  SpecShown SpecCommand Witness PropFrame PropText PropJson PropRadix64 PropFacade PropCli PropAcceptCmd ArmorSizeL PropShown.
From Verif Require StreamL ArmorL ArmorTextL ChecksumL.
Import ListNotations.
Local Open Scope Z_scope.

Lemma asks_cli args l c : asks args l c -> exists fl, cli args = Some (fl, c) /\ flags_asked l fl.
Proof. intros [l' args' W | c' n l' pre m x post N W L]; [exact (C57_root l' args' W) | exact (C57_sub c' n l' pre m x post N W L)]. Qed.

Lemma asked_in_force l fl c : flags_asked l fl -> in_force fl c (options_asked l c).
Proof.
  intros (_ & _ & A & C & D & I & L & M & P & U) code. unfold options_asked. destruct (Z.eqb_spec code ARMOR) as [->|NA]; [rewrite A; reflexivity|].
  cbn [existsb]. 
  destruct (Z.eqb_spec code CERT) as [->|?]; [rewrite C; reflexivity|].
  destruct (Z.eqb_spec code DEBUG) as [->|?]; [rewrite D; reflexivity|].
  destruct (Z.eqb_spec code INTEGER) as [->|?]; [rewrite I; reflexivity|].
  destruct (Z.eqb_spec code LITERAL) as [->|?]; [rewrite L; reflexivity|].
  destruct (Z.eqb_spec code MARKER) as [->|?]; [rewrite M; reflexivity|].
  destruct (Z.eqb_spec code PRIVATE) as [->|?]; [rewrite P; reflexivity|].
  destruct (Z.eqb_spec code UTC) as [->|?]; [rewrite U; reflexivity|]. reflexivity.
Qed.

(** A text in memory: its octets, and those that its armored block holds. *)
Definition in_store (octets : bytes) : Prop := lenZ octets < 2 ^ 62 - 1.
Lemma armored_sized text data block : short_lines text -> first_block (lines_of text) block -> armored data block -> in_store text -> sized data.
Proof.
  intros S B A L. pose proof (StreamL.armtext_len _ _ (ArmorL.armtext_block text block S B)) as LT. cbn [st_data] in LT.
  pose proof (ArmorTextL.decode_with_sum [] (checksum data) data block (ChecksumL.checksum_small data) A) as D. apply armor_decode_len in D.
  unfold in_store, sized, lenZ, lenN in *. lia.
Qed.
Lemma holds_parse o E l octets items : decodes_armor E -> in_store octets -> holds o E l octets -> all_read o E l cst_init items ->
  parse_bytes o E octets = (items, ROk tt).
Proof.
  intros DA S H R. revert S. destruct H as [w I A SL NB | text block data SL B AB I]; intro S.
  - rewrite (C01_file o E l w I A SL NB). apply all_parse; [exact R | | exact four_init]. eapply all_sized; [exact (input_sizes _ _ I) | unfold in_store in S; unfold sized; lia].
  - rewrite (C52_packets o E text data block l DA SL B AB I). apply all_parse; [exact R | | exact four_init].
    eapply all_sized; [exact (input_sizes _ _ I) | exact (armored_sized text data block SL B AB S)].
Qed.

Lemma command_well args l c w octets pk items text : asks args l c -> dump_command c = true -> decodes_armor (w_env w) -> in_store octets ->
  input w c (mkStream octets true) -> holds (options_asked l c) (w_env w) pk octets -> all_read (options_asked l c) (w_env w) pk cst_init items ->
  (forall fl, flags_asked l fl -> rendering fl items text) -> takes w text -> main w args = Some (Some 0, text).
Proof.
  intros A D DA ST I H R T K. destruct (asks_cli _ _ _ A) as (fl & CL & FA). unfold main. rewrite CL. cbn [option_map fst snd].
  f_equal. apply C44_success; [exact D | |].
  { intros src I'. rewrite (input_unique w c src _ I' I). apply decoder_fits; [exact DA | exact ST]. } exists (mkStream octets true), (options_asked l c), items.
  split; [exact I|]. split; [apply asked_in_force, FA|]. split; [|split; [apply T, FA | exact K]].
  apply (holds_parse _ _ pk octets items DA); [exact ST | exact H | exact R].
Qed.

(** C67.  The command, given its options in any of the ways they may be written, ends with success and writes for the packets of the input (a file, standard
    input, the clipboard, a response from the network; octets as they are or armored) exactly the lines that the specification gives. *)
Theorem C67_command : forall (w : world) (args : list bytes) (l : list (string * value)) (c : command) (octets : bytes) (pk : list (N * bytes)) (items : list item),
  asks args l c -> dump_command c = true -> on l "json" = false ->
  decodes_armor (w_env w) -> in_store octets ->
  input w c (mkStream octets true) -> holds (options_asked l c) (w_env w) pk octets -> all_read (options_asked l c) (w_env w) pk cst_init items ->
  let text := lines_shown (indent_asked l) items in
  takes w text -> main w args = Some (Some 0, text).
Proof.
  intros w args l c octets pk items A D J DA ST I H R text K. apply (command_well args l c w octets pk items text); try assumption.
  intros fl (FJ & FI & _). right. rewrite J in FJ. unfold text, lines_shown, indent_asked. rewrite <- FI, <- C36_text.
  destruct (Z.ltb_spec 0 (f_indent fl)) as [P|P]; [left | right]; (split; [exact FJ|]); (split; [lia|]); reflexivity.
Qed.
Print Assumptions C67_command.

(** C67.  With --json it writes a JSON text that stands for the items (a tree that is too deep cannot be indented: C37). *)
Theorem C67_command_json : forall (w : world) (args : list bytes) (l : list (string * value)) (c : command) (octets : bytes) (pk : list (N * bytes)) (items : list item),
  asks args l c -> dump_command c = true -> on l "json" = true -> number l "indent" 0 <= 0 \/ (all_levels items <= 4999)%N ->
  decodes_armor (w_env w) -> in_store octets -> w_room w = None ->
  input w c (mkStream octets true) -> holds (options_asked l c) (w_env w) pk octets -> all_read (options_asked l c) (w_env w) pk cst_init items ->
  exists v text, main w args = Some (Some 0, text) /\ document items v /\ json_text v text.
Proof.
  intros w args l c octets pk items A D J LV DA ST RM I H R.
  assert (exists v b, info_JSON (number l "indent" 0) items = ROk b /\ document items v /\ json_text v b) as (v & b & P & DC & JT).
  { destruct (Z.leb_spec (number l "indent" 0) 0) as [N|N]; [apply C37_compact; exact N|]. apply C37_indented_partial; [exact N | destruct LV; [lia | assumption]]. }
  exists v, b. split; [|split; assumption]. apply (command_well args l c w octets pk items b); try assumption.
  - intros fl (FJ & FI & _). left. rewrite J in FJ. split; [exact FJ|]. rewrite FI. exact P.
  - intros k Q. rewrite RM in Q. discriminate.
Qed.
Print Assumptions C67_command_json.

(** ** A transferable public key: the key, a user ID and a certification, in a file read with -u *)
Local Open Scope N_scope.
Definition demo_n : list field := [FMpi "RSA public modulus n" 9 [x01; xff]; FMpi "RSA public encryption exponent e" 2 [x03]].
Definition demo_s : list field := [FMpi "RSA signature value m^d mod n" 9 [x01; xfe]].
Definition demo_id : bytes := [x01; x23; x45; x67; x89; xab; xcd; xef].
Definition demo_key : bytes := x04 :: public_part x04 1 0 x01 demo_n ++ [].
Definition demo_sig : bytes := sig_octets x04 x13 x01 x08 [x05; x02; x00; x00; x00; x02] (x09 :: x10 :: demo_id) [xab; xcd] demo_s ++ [].
Definition demo_packets : list (N * bytes) := [(6, demo_key); (13, str "Ann"); (2, demo_sig)].
Definition demo_octets : bytes :=
  (n2b (128 + 4 * 6) :: be_enc 1 (lenN demo_key) ++ demo_key) ++ (n2b (192 + 13) :: [n2b 3] ++ str "Ann") ++ (n2b (129 + 4 * 2) :: be_enc 2 (lenN demo_sig) ++ demo_sig) ++ [].
Definition demo_asked : list (string * value) := [("utc"%string, VBool true)].

Lemma demo_input : input_of demo_packets demo_octets.
Proof.
  apply all_definite. unfold demo_packets, demo_octets. apply one_more; [apply old_one; reflexivity|].
  apply one_more; [apply new_format; [reflexivity|]; apply (part_last (str "Ann") [n2b 3]), len_one; reflexivity|].
  apply one_more; [apply old_two; reflexivity | constructor].
Qed.
Lemma demo_sub1 o E cs : exists r cs', subs_in [(x02, be_enc 4 2)] [x05; x02; x00; x00; x00; x02] /\ subs_read o E [(x02, be_enc 4 2)] cs r cs'.
Proof.
  eexists _, _. split.
  - apply (one_more_sub x02 (be_enc 4 2) [n2b 5] [] []); [apply slen_one; reflexivity | constructor].
  - eapply ss_more; [|constructor]. apply s_known. rewrite <- (app_nil_r (be_enc 4 2)). apply rd_created; reflexivity.
Qed.
Lemma demo_sub2 o E cs : exists r cs', subs_in [(x10, demo_id)] (x09 :: x10 :: demo_id) /\ subs_read o E [(x10, demo_id)] cs r cs'.
Proof.
  eexists _, _. split.
  - apply (one_more_sub x10 demo_id [n2b 9] [] []); [apply slen_one; reflexivity | constructor].
  - eapply ss_more; [|constructor]. apply s_known. rewrite <- (app_nil_r demo_id). apply rd_issuer; reflexivity.
Qed.
Lemma demo_reads o E cs : exists items, all_read o E demo_packets cs items.
Proof.
  destruct (demo_sub1 o E (with_key (key_time o 1) cs)) as (r1 & cs1 & I1 & R1). destruct (demo_sub2 o E cs1) as (r2 & cs2 & I2 & R2).
  eexists. unfold demo_packets. eapply ar_more; [|eapply ar_more; [|eapply ar_more; [|constructor]]].
  - apply t_plain; [discriminate|]. refine (p_public o E 6 x04 (be_enc 4 1 ++ x01 :: encs demo_n ++ []) x01 (Some 1) _ [] _ _ _); [cbn; auto|].
    apply k_4; [reflexivity | reflexivity|]. apply f_all. eexists. split; [reflexivity|]. repeat constructor; cbn; try reflexivity; discriminate.
  - apply t_plain; [discriminate|]. apply p_user_id. change (str "Ann") with (utf8s [65; 110; 110]). apply text_valid; [|discriminate].
    repeat constructor; unfold scalar; cbn; lia.
  - apply t_plain; [discriminate|]. unfold demo_sig. rewrite <- sig_fields_split. eapply p_signature; [left; reflexivity | reflexivity | apply f_all | reflexivity | reflexivity | exact I1 | exact I2 | exact R1 | exact R2].
    eexists. split; [reflexivity|]. repeat constructor; cbn; try reflexivity; discriminate.
Qed.
Lemma demo_holds o : oArmor o = false -> holds o env_armor demo_packets demo_octets.
Proof.
  intro A. apply holds_binary; [exact demo_input | exact A | repeat constructor|].
  intros block (pre & b & mid & e & post & E & _ & _ & ((t & B) & _) & _). exfalso.
  assert (In b (lines_of demo_octets)) as IB by (rewrite E; apply in_elt). rewrite B in IB. vm_compute in IB. intuition discriminate.
Qed.
Definition demo_text : list (nat * string) :=
  [(0, "Public-Key Packet (tag 6) (13 bytes)");
   (1, "Version: 4 (current)");
   (1, "Public key creation time: 1970-01-01T00:00:01Z");
   (1, "Public-key Algorithm: RSA (Encrypt or Sign) (pub 1)");
   (1, "RSA public modulus n (9 bits)");
   (1, "RSA public encryption exponent e (2 bits)");
   (0, "User ID Packet (tag 13) (3 bytes)");
   (1, "User ID: Ann");
   (0, "Signature Packet (tag 2) (30 bytes)");
   (1, "Version: 4 (current)");
   (1, "Signiture Type: Positive certification of a User ID and Public-Key packet (0x13)");
   (1, "Public-key Algorithm: RSA (Encrypt or Sign) (pub 1)");
   (1, "Hash Algorithm: SHA2-256 (hash 8)");
   (1, "Hashed Subpacket (6 bytes)");
   (2, "Signature Creation Time (sub 2): 1970-01-01T00:00:02Z");
   (1, "Unhashed Subpacket (10 bytes)");
   (2, "Issuer (sub 16): 0x0123456789abcdef");
   (1, "Hash left 2 bytes");
   (2, "ab cd");
   (1, "RSA signature value m^d mod n (9 bits)")]%nat%string.
Definition demo_output : bytes := flat_map (fun p => repeat x09 (fst p) ++ str (snd p) ++ [x0a]) demo_text.
Example C67_command_used : let w := armor_world demo_octets in
  asks [str "-u"] demo_asked (CRoot false false []) /\ dump_command (CRoot false false []) = true /\ on demo_asked "json" = false /\
  decodes_armor (w_env w) /\ in_store demo_octets /\ input w (CRoot false false []) (mkStream demo_octets true) /\
  holds (options_asked demo_asked (CRoot false false [])) (w_env w) demo_packets demo_octets /\
  (exists items, all_read (options_asked demo_asked (CRoot false false [])) (w_env w) demo_packets cst_init items) /\ w_room w = None /\ (number demo_asked "indent" 0 <= 0)%Z.
Proof.
  cbv zeta. split.
  - change [str "-u"] with ([str "-" ++ ["u"%byte]] ++ []). change demo_asked with ([("utc"%string, VBool true)] ++ []).
    apply (asks_root ([("utc"%string, VBool true)] ++ [])). apply wa_more; [|constructor]. apply w_letters; [apply letters_more; [member | constructor] | discriminate].
  - split; [reflexivity|]. split; [reflexivity|]. split; [exact decodes_armor_used|]. split; [reflexivity|].
    split; [exact (in_stdin (armor_world demo_octets))|]. split; [apply demo_holds; reflexivity|]. split; [apply demo_reads|]. split; [reflexivity | discriminate].
Qed.
Example C67_command_shows : main (armor_world demo_octets) [str "-u"] = Some (Some 0%Z, demo_output).
Proof. vm_compute. reflexivity. Qed.
