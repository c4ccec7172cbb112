(** * C67 for the command, second part: it succeeds only on what the specification describes. *)
From Coq Require Import Strings.String Strings.Byte List NArith ZArith Bool Lia ZifyBool ZifyN ZifyNat.
From Verif Require Import Base BaseL Item Reader Opaque Context Env Parse Json Facade Cli SpecBase SpecText SpecFrame SpecParse SpecArmor SpecRadix64 SpecJson SpecFacade SpecCli SpecValues SpecPacket
  SpecShown SpecCommand Witness PropFrame PropText PropJson PropArmor PropRadix64 PropFacade PropCli PropAcceptCmd ArmorSizeL PropShown PropCommand.
From Verif Require SpecAccept PropAccept PropShownAll StreamL ArmorL FramingL PropComp.
Import ListNotations.
Local Open Scope N_scope.

Lemma delivers_all w : delivers (chunks_of w true) w.
Proof. destruct (PropComp.chunks_of_inv w) as [CI CD]. split; [apply CI | split; [exact CD | apply CI]]. Qed.

(** C67.  What NewBytes and Parse give for octets with lines of less than 64 KiB: they succeed if and only if the octets, or those of their
    first armored block, are packets that the specification describes; the items are those described. *)
Theorem C67_bytes_all : forall (o : opts) (E : env) (octets : bytes) (items : list item),
  SpecAccept.int_sizes (e_grow E) -> decodes_armor E -> short_lines octets -> lenN octets < 2 ^ 32 - 1 ->
  (parse_bytes o E octets = (items, ROk tt) <-> exists data l, stands_for o E octets data /\ input_of l data /\ all_read o E l cst_init items).
Proof.
  intros o E octets items G DA SL L.
  assert (forall block, first_block (lines_of octets) block -> new_reader_armor E (mkStream octets true) =
    match e_armor E (unlines block) with Some (ps, ok) => ROk (mkChunks (filter (fun p => negb (is_nil p)) ps) ok) | None => RErr EArmorDecode end) as NB.
  { intros block B. unfold new_reader_armor. rewrite (ArmorL.armtext_block octets block SL B). reflexivity. }
  assert (forall block ps ok, first_block (lines_of octets) block -> e_armor E (unlines block) = Some (ps, ok) -> lenN (concat ps) < 2 ^ 32) as LB.
  { intros block ps ok B EA. pose proof (StreamL.armtext_len _ _ (ArmorL.armtext_block octets block SL B)) as LT. cbn [st_data] in LT.
    destruct (DA (unlines block)) as (cuts & H). rewrite EA in H. apply armor_decode_len in H. unfold lenN in *. change (2 ^ 32) with 4294967296 in *. lia. }
  assert (forall ps, delivers (mkChunks (filter (fun p => negb (is_nil p)) ps) true) (concat ps)) as DP.
  { intro ps. destruct (StreamL.filter_pieces ps) as [F1 F2]. split; [exact F1|]. split; [exact F2 | reflexivity]. }
  assert (forall block ps, first_block (lines_of octets) block -> e_armor E (unlines block) = Some (ps, true) ->
    parse_bytes o E octets = parse_chunks o E (mkChunks (filter (fun p => negb (is_nil p)) ps) true)) as PB.
  { intros block ps B EA. unfold parse_bytes, parse_stream, parse_new. rewrite (NB block B), EA. destruct (oArmor o); reflexivity. }
  assert ((exists block ps, first_block (lines_of octets) block /\ e_armor E (unlines block) = Some (ps, true)) \/
          (exists block ps, first_block (lines_of octets) block /\ e_armor E (unlines block) = Some (ps, false)) \/
          (forall block, first_block (lines_of octets) block -> e_armor E (unlines block) = None)) as CASES.
  { destruct (ArmorL.arm_cases (lines_of octets)) as [[block B]|[NX _]].
    - destruct (e_armor E (unlines block)) as [[ps [|]]|] eqn:EA; [left; eauto | right; left; eauto|]. right. right. intros block2 B2.
      pose proof (ArmorL.armtext_block octets block2 SL B2) as Q. rewrite (ArmorL.armtext_block octets block SL B) in Q. injection Q as <-. exact EA.
    - right. right. intros block B. exfalso. pose proof (ArmorL.armtext_block octets block SL B) as Q. rewrite (ArmorL.armtext_none octets SL NX) in Q. discriminate. }
  split.
  - intro P. destruct CASES as [(block & ps & B & EA) | [(block & ps & B & EA) | NA]].
    + rewrite (PB block ps B EA) in P. apply (PropShownAll.C67_input_all o E (concat ps) _ items G (DP ps) (LB _ _ _ B EA)) in P as (l & I & R).
      exists (concat ps), l. split; [eapply stands_armored; eassumption | auto].
    + exfalso. assert (parse_bytes o E octets = parse_chunks o E (mkChunks (filter (fun p => negb (is_nil p)) ps) false)) as Q
        by (unfold parse_bytes, parse_stream, parse_new; rewrite (NB block B), EA; destruct (oArmor o); reflexivity).
      destruct (bad_end o E (mkChunks (filter (fun p => negb (is_nil p)) ps) false)) as (is & r & Q2 & NR); [split; [apply (StreamL.filter_pieces ps) | reflexivity]|]. rewrite Q2 in Q. congruence.
    + destruct (oArmor o) eqn:OA.
      * exfalso. unfold parse_bytes, parse_stream, parse_new in P. rewrite OA in P. assert (exists e, new_reader_armor E (mkStream octets true) = RErr e) as [e Q]; [|rewrite Q in P; discriminate].
        destruct (ArmorL.arm_cases (lines_of octets)) as [[block B]|[NX _]]; [rewrite (NB block B), (NA block B); eauto|]. unfold new_reader_armor. rewrite (ArmorL.armtext_none octets SL NX). eauto.
      * rewrite (C43_complete_partial o E octets OA SL NA) in P. apply (PropShownAll.C67_input_all o E octets _ items G (delivers_all octets)) in P as (l & I & R); [|lia].
        exists octets, l. split; [apply stands_itself; assumption | auto].
  - intros (data & l & ST & I & R). revert SL L NB LB PB CASES. destruct ST as [w OA NA | text block ps B EA]; intros SL L NB LB PB _.
    + rewrite (C43_complete_partial o E w OA SL NA). apply (PropShownAll.C67_input_all o E w _ items G (delivers_all w)); [lia | eauto].
    + rewrite (PB block ps B EA). apply (PropShownAll.C67_input_all o E (concat ps) _ items G (DP ps) (LB _ _ _ B EA)). eauto.
Qed.
Print Assumptions C67_bytes_all.

(** C67.  The command without --json and --debug ends with success if and only if the specification describes its input and the output takes the
    lines; it then writes just these lines. *)
Theorem C67_command_all : forall (w : world) (args : list bytes) (l : list (string * value)) (c : command) (octets text : bytes),
  asks args l c -> dump_command c = true -> on l "json" = false -> on l "debug" = false ->
  SpecAccept.int_sizes (e_grow (w_env w)) -> decodes_armor (w_env w) -> short_lines octets -> lenN octets < 2 ^ 32 - 1 -> input w c (mkStream octets true) ->
  (main w args = Some (Some 0%Z, text) <->
   exists data pk items, stands_for (options_asked l c) (w_env w) octets data /\ input_of pk data /\ all_read (options_asked l c) (w_env w) pk cst_init items /\
     text = lines_shown (indent_asked l) items /\ takes w text).
Proof.
  intros w args l c octets text A D J NDB G DA SL L I. destruct (asks_cli _ _ _ A) as (fl & CL & FA).
  assert (main w args = Some (execute fl w c)) as M by (unfold main; rewrite CL; reflexivity).
  assert (forall src, input w c src -> fits (w_env w) src) as FT.
  { intros src I'. rewrite (input_unique w c src _ I' I). apply decoder_fits; [exact DA|]. cbn [st_data]. unfold lenZ, lenN in *. change (2 ^ 32) with 4294967296 in *. lia. }
  assert (forall items, rendering fl items text <-> text = lines_shown (indent_asked l) items) as RD.
  { intro items. destruct FA as (FJ & FI & _). unfold rendering, lines_shown, indent_asked. rewrite <- FI. rewrite J in FJ. rewrite FJ. rewrite <- C36_text.
    destruct (Z.ltb_spec 0 (f_indent fl)) as [P|P]; split; intro Q.
    - destruct Q as [[Q _]|[(_ & _ & Q)|(_ & Q & _)]]; [discriminate | exact Q | lia].
    - right. left. split; [reflexivity|]. split; [lia | exact Q].
    - destruct Q as [[Q _]|[(_ & Q & _)|(_ & _ & Q)]]; [discriminate | lia | exact Q].
    - right. right. split; [reflexivity|]. split; [lia | exact Q]. }
  rewrite M. split.
  - intro H. assert (f_on fl DEBUG = false) as FD by (destruct FA as (_ & _ & _ & _ & X & _); rewrite X; exact NDB).
    destruct (C44_only_success fl w c D FD) as (text2 & (src & o & items & I' & O & P & R & T) & Q); [injection H as ->; reflexivity|].
    assert (text2 = text) as -> by (injection H as H; rewrite H in Q; symmetry; exact Q).
    rewrite (input_unique w c src _ I' I) in P. rewrite (same_in_force fl c o (options_asked l c) _ _ (FT _ I) O (asked_in_force l fl c FA)) in P.
    apply (C67_bytes_all _ _ octets items G DA SL L) in P as (data & pk & ST & IN & AR). exists data, pk, items. rewrite <- RD. auto.
  - intros (data & pk & items & ST & IN & AR & TX & TK). f_equal. apply C44_success; [exact D | exact FT|]. exists (mkStream octets true), (options_asked l c), items.
    split; [exact I|]. split; [apply asked_in_force, FA|]. split; [|split; [apply RD, TX | exact TK]]. apply (C67_bytes_all _ _ octets items G DA SL L). eauto.
Qed.
Print Assumptions C67_command_all.

(** The key of C67_command_used.  Its octets with a packet behind them that ends early are no longer described, and the command fails. *)
Definition demo_cut : bytes := demo_octets ++ [xc4; x02; x03].
Example C67_command_all_used : let w := armor_world demo_octets in let c := CRoot false false [] in
  asks [str "-u"] demo_asked c /\ dump_command c = true /\ on demo_asked "json" = false /\ on demo_asked "debug" = false /\
  SpecAccept.int_sizes (e_grow (w_env w)) /\ decodes_armor (w_env w) /\ short_lines demo_octets /\ lenN demo_octets < 2 ^ 32 - 1 /\ input w c (mkStream demo_octets true) /\
  main w [str "-u"] = Some (Some 0%Z, demo_output) /\
  (exists data pk items, stands_for (options_asked demo_asked c) (w_env w) demo_octets data /\ input_of pk data /\
     all_read (options_asked demo_asked c) (w_env w) pk cst_init items /\ demo_output = lines_shown (indent_asked demo_asked) items) /\
  fst (execute (flags_of [UTC]) (armor_world demo_cut) c) = Some 1%Z.
Proof.
  cbv zeta. destruct C67_command_used as (A & D & J & DA & _ & I & _). assert (SpecAccept.int_sizes (e_grow (w_env (armor_world demo_octets)))) as G by apply PropAccept.C63_packet_used.
  assert (short_lines demo_octets) as SL by repeat constructor.
  split; [exact A|]. split; [exact D|]. split; [exact J|]. split; [reflexivity|]. split; [exact G|]. split; [exact DA|]. split; [exact SL|]. split; [reflexivity|]. split; [exact I|].
  split; [exact C67_command_shows|]. split; [|vm_compute; reflexivity].
  destruct (proj1 (C67_command_all (armor_world demo_octets) [str "-u"] demo_asked (CRoot false false []) demo_octets demo_output A D J eq_refl G DA SL eq_refl I) C67_command_shows) as (data & pk & items & H1 & H2 & H3 & H4 & _).
  exists data, pk, items. auto.
Qed.
