(** * PropArmor: C42 and C43. *)
From Coq Require Import Strings.String Strings.Byte List NArith ZArith Bool Lia.
From Verif Require Import Base BaseL SpecBase Item Context Env Values Opaque Parse SpecText SpecArmor ArmorL Witness.
Import ListNotations.
Local Open Scope N_scope.

(** C42.  The extractor returns exactly the lines of the first block, with line feeds as line ends.  [first_block] says
    nothing about what stands before or after the block, so that has no influence. *)
Theorem C42_extracts_first_block : forall (data : bytes) (block : list bytes),
  short_lines data -> first_block (lines_of data) block ->
  armtext_get (mkStream data true) = ROk (unlines block).
Proof. exact armtext_block. Qed.
Print Assumptions C42_extracts_first_block.

(** C42.  Without such a block it fails. *)
Theorem C42_fails_without_block : forall data : bytes,
  short_lines data -> ~ (exists block, first_block (lines_of data) block) ->
  armtext_get (mkStream data true) = RErr EArmorText.
Proof. exact armtext_none. Qed.
Print Assumptions C42_fails_without_block.

(** C42.  Whatever it returns is the first block. *)
Theorem C42_only_blocks : forall (data txt : bytes), armtext_get (mkStream data true) = ROk txt ->
  short_lines data /\ exists block, first_block (lines_of data) block /\ txt = unlines block.
Proof.
  intros data txt H.
  assert (short_lines data) as S.
  { assert (forall p : bytes, {lenN p < 65536} + {~ lenN p < 65536}) as D by (intro p; destruct (lenN p <? 65536) eqn:Q; [left; apply N.ltb_lt, Q | right; apply N.ltb_ge in Q; lia]).
    destruct (Forall_dec _ D (split_lines data)) as [S|NS]; [exact S|]. rewrite (armtext_long data true NS) in H. discriminate. }
  split; [exact S|]. destruct (arm_cases (lines_of data)) as [[block B]|[NB _]].
  - exists block. split; [exact B|]. rewrite (armtext_block data block S B) in H. congruence.
  - rewrite (armtext_none data S NB) in H. discriminate.
Qed.
Print Assumptions C42_only_blocks.

(** C42.  A line of 64 KiB or more is an error. *)
Theorem C42_long_line : forall data : bytes, ~ short_lines data -> armtext_get (mkStream data true) = RErr ETooLong.
Proof. intros data H. apply armtext_long, H. Qed.
Print Assumptions C42_long_line.

Definition armor_example : bytes :=
  str "Hello" ++ [x0d; x0a] ++ str "-----BEGIN PGP SIGNED MESSAGE-----" ++ [x0a; x0a] ++ str "text" ++ [x0a]
  ++ str "-----BEGIN PGP SIGNATURE-----" ++ [x0d; x0a; x0d; x0a] ++ str "aGVsbG8=" ++ [x0d; x0a]
  ++ str "-----END PGP SIGNATURE-----" ++ [x0d; x0a] ++ str "-----BEGIN PGP MESSAGE-----".
Example C42_witness :
  armtext_get (mkStream armor_example true)
  = ROk (unlines [str "-----BEGIN PGP SIGNATURE-----"; []; str "aGVsbG8="; str "-----END PGP SIGNATURE-----"])
  /\ armtext_get (mkStream (str "no armor here") true) = RErr EArmorText.
Proof. vm_compute. auto. Qed.

(** C43.  Without the armor option, when no armored block is found or the block found cannot be decoded, the packets
    parsed are those of the complete input, provided that all lines are shorter than 64 KiB. *)
Theorem C43_complete_partial : forall (o : opts) (E : env) (data : bytes),
  oArmor o = false -> short_lines data ->
  (forall block, first_block (lines_of data) block -> e_armor E (unlines block) = None) ->
  parse_bytes o E data = parse_chunks o E (chunks_of data true).
Proof.
  intros o E data A S NA. unfold parse_bytes, parse_stream, parse_new. rewrite A.
  assert (exists e, new_reader_armor E (mkStream data true) = RErr e) as [e ->].
  { unfold new_reader_armor. destruct (arm_cases (lines_of data)) as [[block B]|[NB _]].
    - rewrite (armtext_block data block S B), (NA block B). eauto.
    - rewrite (armtext_none data S NB). eauto. }
  cbn [st_data]. unfold scanned. rewrite (scan_lines_of data S). reflexivity.
Qed.
Print Assumptions C43_complete_partial.

(** C43 is false when the first 64 KiB of the input contain no line feed: the rest of the input, whatever
    it is, is lost. *)
Theorem C43_rest_is_lost : forall (o : opts) (E : env) (first rest : bytes),
  oArmor o = false -> lenN first = 65536 -> ~ In x0a first ->
  parse_bytes o E (first ++ rest) = parse_chunks o E (chunks_of first true).
Proof.
  intros o E first rest A L NI. unfold parse_bytes, parse_stream, parse_new. rewrite A.
  assert (first <> []) as NE by (intros ->; discriminate).
  pose proof (scan_lines_run first [] 0 0 rest eq_refl NI L NE) as R.
  unfold new_reader_armor, armtext_get. cbn [st_data]. rewrite R. unfold scanned. rewrite R.
  rewrite N.add_0_l. unfold lenN. rewrite Nat2N.id, firstn_app, Nat.sub_diag, firstn_all. cbn [firstn]. rewrite app_nil_r. reflexivity.
Qed.
Print Assumptions C43_rest_is_lost.

(** A marker packet with 65540 octets of body: complete, and an error after the loss. *)
Definition long_packet : bytes := [xca; xff; x00; x01; x00; x04] ++ repeat x61 (N.to_nat 65540).
Theorem C43_long_line_refuted : exists data : bytes,
  snd (parse_chunks o_plain env0 (chunks_of data true)) = ROk tt
  /\ parse_bytes o_plain env0 data = ([], RErr EUnexp).
Proof.
  exists long_packet. split; [vm_compute; reflexivity|].
  replace long_packet with (firstn (N.to_nat 65536) long_packet ++ skipn (N.to_nat 65536) long_packet) by apply firstn_skipn.
  rewrite C43_rest_is_lost; [vm_compute; reflexivity | reflexivity | vm_compute; reflexivity |].
  intro I. assert (existsb (Byte.eqb x0a) (firstn (N.to_nat 65536) long_packet) = true) as X.
  { apply existsb_exists. exists x0a. split; [exact I | reflexivity]. }
  vm_compute in X. discriminate.
Qed.
Print Assumptions C43_long_line_refuted.

(** C43 is also false when the input source fails: what was read before the failure is parsed as if it were all. *)
Theorem C43_read_error_refuted : exists (data : bytes),
  snd (parse_stream o_plain env0 (mkStream data false)) = ROk tt.
Proof. exists [xca; x00]. vm_compute. reflexivity. Qed.
Print Assumptions C43_read_error_refuted.

Example C43_witness :
  let data := [xca; x03; x50; x47; x50] in
  short_lines data /\ (forall block, first_block (lines_of data) block -> e_armor env0 (unlines block) = None).
Proof.
  split; [repeat constructor|]. intros block (pre & b & mid & e & post & E & _ & _ & B & _).
  exfalso. vm_compute in E. destruct pre as [|p pre]; cbn [app] in E.
  - injection E as <- E. destruct mid; discriminate.
  - injection E as _ E. destruct pre; discriminate.
Qed.
