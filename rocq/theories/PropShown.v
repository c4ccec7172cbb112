(** * PropShown: C67. *)
From Coq Require Import Strings.String Strings.Byte List NArith ZArith Bool Lia ZifyBool ZifyN ZifyNat.
From Verif Require Import Base Item Reader Context Env Values Opaque Monad Subs SubParse Tags Parse SpecBase BaseL SpecValues SpecText SpecPacket PacketL
  SpecFrame FramingL SpecNest CompL SpecParse SpecComp SpecSub SpecSubs SpecLiteral SpecSecret SpecShown Witness
  PropFrame PropPacket PropSecret PropSig PropSub PropAttr PropKeyBlock PropLiteral PropComp ShownL ShownSigL ShownKeyL.
From Verif Require HiddenL TagL.
Import ListNotations.
Local Open Scope N_scope.

Scheme packet_ind' := Minimality for packet_reads Sort Prop
with subs_ind' := Minimality for subs_read Sort Prop
with sub_ind' := Minimality for sub_packet_reads Sort Prop
with packets_ind' := Minimality for packets_read Sort Prop.
Combined Scheme reads_ind from packet_ind', subs_ind', sub_ind', packets_ind'.

Lemma subs_sizes l A : subs_in l A -> Forall (fun p => (length (snd p) <= length A)%nat) l.
Proof.
  induction 1 as [|ty body len l w L S IH]; constructor.
  - cbn [snd]. rewrite app_length. cbn [length]. rewrite app_length. lia.
  - eapply Forall_impl; [|exact IH]. cbn beta. intros p Q. rewrite app_length. cbn [length]. rewrite app_length. lia.
Qed.
Lemma packets_sizes l w : packets_in l w -> Forall (fun p => (length (snd p) <= length w)%nat) l.
Proof.
  induction 1 as [|tag body l w w' F P IH]; constructor.
  - cbn [snd]. apply framed_longer in F. rewrite app_length. lia.
  - eapply Forall_impl; [|exact IH]. cbn beta. intros p Q. rewrite app_length. lia.
Qed.
Lemma input_sizes l w : input_of l w -> Forall (fun p => (length (snd p) <= length w)%nat) l.
Proof.
  intros [l' w' P | l' w' tag body P T]; [apply packets_sizes, P|]. apply Forall_app. split.
  - eapply Forall_impl; [|exact (packets_sizes _ _ P)]. cbn beta. intros p Q. rewrite app_length. lia.
  - repeat constructor. cbn [snd]. rewrite app_length. cbn [length]. lia.
Qed.
Lemma all_sized (A : Type) (l : list (A * bytes)) (w : bytes) : Forall (fun p => (length (snd p) <= length w)%nat) l -> sized w -> Forall (fun p => sized (snd p)) l.
Proof. intros F S. eapply Forall_impl; [|exact F]. cbn beta. intros [a b] L. cbn [snd] in *. unfold sized, lenZ, lenN in *. lia. Qed.
Lemma small_sized (A : bytes) : lenN A < 2 ^ 32 -> sized A.
Proof. unfold sized, lenZ, lenN. change (2 ^ 32) with 4294967296. lia. Qed.
Lemma contents_sized E b d : contents E b d -> sized b -> sized d.
Proof. intros [z | a z d' A Z I L] S; [unfold sized, lenZ, lenN in *; cbn [length] in S; lia|]. unfold sized, lenZ, lenN in *. change (2 ^ 30) with 1073741824 in L. lia. Qed.

Lemma four_init : four_octet_dates cst_init.
Proof. intros d [H|H]; discriminate. Qed.
Lemma four_mode x cs : four_octet_dates cs -> four_octet_dates (with_mode x cs).
Proof. intros F d H. apply F. exact H. Qed.
Lemma four_key o t cs : four_octet_dates cs -> four_octet_dates (with_key (key_time o t) cs).
Proof. intros F d [H|H]; [apply F; left; exact H|]. cbn [with_key c_key key_time] in H. injection H as <-. apply le_n. Qed.
Lemma four_sub o E ty cs b i cs' : sub_reads o E ty cs b i cs' -> four_octet_dates cs -> four_octet_dates cs'.
Proof.
  intros R F. destruct R; try exact F; intros d [Q|Q]; cbn [with_sig with_key c_sig c_key] in Q; try discriminate; try (apply F; auto; fail).
  injection Q as <-. apply le_n.
Qed.

Lemma image_header_fields v rest fs : image_header v rest fs -> image_fields v rest fs.
Proof. intros []; constructor; assumption. Qed.
Lemma attributes_list o E cs : forall l r, Forall2 (fun p i => attribute_reads o (fst p) (snd p) i) l r -> Forall (fun p => sized (snd p)) l ->
  sub_list o E 17 l cs = (ROk r, cs).
Proof.
  induction 1 as [|[ty b] i l r A F IH]; intro S; [reflexivity|]. inversion S; subst. cbn [sub_list fst snd] in *.
  assert (parse_sub o E 17 ty b cs = (ROk i, cs)) as ->.
  { destruct A as [a b' v rest fs T I | body T]; [|apply C28_unknown_attribute; exact T].
    exact (C32_shown o E ty a b' v rest fs cs T (image_header_fields _ _ _ I) ltac:(assumption)). }
  rewrite IH by assumption. reflexivity.
Qed.

Lemma closed_contents o E a z d cs : sized (a :: z) -> contents E (a :: z) d -> exists x, parse_tag o E 8 (a :: z) cs = (ROk (compressed_shown o a z [] [], x), cs).
Proof.
  intros L C. rewrite tag08_closed by exact L. cbv zeta. rewrite <- compressed_eq. inversion C as [z' | a' z' d' A Z EI LD]; subst.
  - destruct d as [|b z]; [eexists; reflexivity|]. change (b2n x00 =? 0) with true. cbv iota. eexists. reflexivity.
  - destruct z as [|b z]; [congruence|]. replace (b2n a =? 0) with false by lia. replace (b2n a <=? 3) with true by lia.
    rewrite EI. unfold copy_from, max_decompressed. replace (2 ^ 30 <=? lenN d) with false by lia. eexists. reflexivity.
Qed.
Lemma closed_unknown o E a z cs : sized (a :: z) -> 3 < b2n a \/ z = [] -> exists x, parse_tag o E 8 (a :: z) cs = (ROk (compressed_shown o a z [] [], x), cs).
Proof.
  intros L H. rewrite tag08_closed by exact L. cbv zeta. rewrite <- compressed_eq. destruct z as [|b z]; [eexists; reflexivity|].
  destruct H as [H|H]; [|discriminate]. replace (b2n a =? 0) with false by lia. replace (b2n a <=? 3) with false by lia. eexists. reflexivity.
Qed.
Lemma closed_large o E a z d ok cs : sized (a :: z) -> 1 <= b2n a <= 3 -> z <> [] -> e_inflate E (b2n a) z = DStream d ok -> 2 ^ 30 <= lenN d ->
  exists x, parse_tag o E 8 (a :: z) cs = (ROk (compressed_shown o a z (str "<too laege decompressed data>") [], x), cs).
Proof.
  intros L A Z EI LD. rewrite tag08_closed by exact L. cbv zeta. rewrite <- compressed_eq. destruct z as [|b z]; [congruence|].
  replace (b2n a =? 0) with false by lia. replace (b2n a <=? 3) with true by lia. rewrite EI. unfold copy_from, max_decompressed.
  replace (2 ^ 30 <=? lenN d) with true by lia. eexists. reflexivity.
Qed.

Lemma public_tag_in tag : In tag [6; 14] -> is_public tag.
Proof. intros [<-|[<-|[]]]; [left | right]; reflexivity. Qed.
Lemma secret_tag_in tag : In tag [5; 7] -> is_secret tag.
Proof. intros [<-|[<-|[]]]; [left | right]; reflexivity. Qed.

Lemma sig_fields_split v t a h A1 A2 h2 l rest : sig_octets v t a h A1 A2 h2 [] ++ encs l ++ rest = sig_octets v t a h A1 A2 h2 l ++ rest.
Proof. unfold sig_octets. cbn [encs flat_map]. rewrite <- ?app_assoc. cbn [app]. rewrite <- ?app_assoc. cbn [app]. rewrite <- ?app_assoc. reflexivity. Qed.
Lemma four_noted o t cs : four_octet_dates cs -> four_octet_dates (key_noted o t cs).
Proof. destruct t; [apply four_key | auto]. Qed.
Lemma all_short (A : Type) (l : list (A * bytes)) (w : bytes) n : Forall (fun p => (length (snd p) <= length w)%nat) l -> lenN w < n -> Forall (fun p => lenN (snd p) < n) l.
Proof. intros F S. eapply Forall_impl; [|exact F]. cbn beta. intros [a b] L. cbn [snd] in *. unfold lenN in *. lia. Qed.

Lemma reads_parse o E :
  (forall tag b cs it cs', packet_reads o E tag b cs it cs' -> sized b -> four_octet_dates cs ->
     (exists x, parse_tag o E tag b cs = (ROk (it, x), cs')) /\ four_octet_dates cs') /\
  (forall l cs r cs', subs_read o E l cs r cs' -> Forall (fun p => lenN (snd p) < 2 ^ 32) l -> four_octet_dates cs ->
     sub_list o E 2 l cs = (ROk r, cs') /\ four_octet_dates cs') /\
  (forall ty b cs i cs', sub_packet_reads o E ty b cs i cs' -> lenN b < 2 ^ 32 -> four_octet_dates cs ->
     parse_sub o E 2 ty b cs = (ROk i, cs') /\ four_octet_dates cs') /\
  (forall l cs is cs', packets_read o E l cs is cs' -> Forall (fun p => sized (snd p)) l -> four_octet_dates cs ->
     flat_list o E l cs = (ROk is, cs') /\ four_octet_dates cs').
Proof.
  apply reads_ind; cbv zeta.
  - intros v id a d fs rest cs I R S F. split; [|apply four_mode, F]. eexists.
    exact (done0 o E 1 _ cs _ _ (tag01 o) ltac:(is_tag) (ends_session o E v id a d fs rest I R) S).
  - intros a d iv s rest cs R S F. split; [|apply four_mode, F]. eexists. exact (done0 o E 3 _ cs _ _ (tag03 o) ltac:(is_tag) (ends_symmetric o E a d iv s rest R) S).
  - intros v extra cs V S F. split; [|apply four_mode, F]. eexists. apply C21_symkey_session_other; assumption.
  - intros v s h a id l extra cs I S F. split; [|exact F]. eexists. apply C21_one_pass; assumption.
  - intros body cs S F. split; [|apply four_mode, F]. eexists. apply C21_encrypted; assumption.
  - intros body cs S F. split; [|apply four_mode, F]. eexists. apply C21_protected; assumption.
  - intros body cs S F. split; [|exact F]. eexists. apply C21_mdc; assumption.
  - intros v s a c nonce extra cs L S F. split; [|exact F]. destruct (b2n a =? 2) eqn:A.
    + assert (a = x02) as -> by (apply b2n_inj; change (b2n x02) with 2; lia).
      assert (exists n b, nonce = n ++ [b] /\ lenN n = 15) as (n & b & -> & LN).
      { destruct (exists_last (l := nonce) ltac:(intros ->; cbn in L; discriminate)) as (n & b & ->). exists n, b. split; [reflexivity|].
        unfold lenN in *. rewrite app_length in L. cbn [length] in L. lia. }
      eexists. change (encs [FVersion KAead v; FSym s; FAead x02; FChunk c; FDumped "IV" (n ++ [b])] ++ extra) with (v :: s :: x02 :: c :: ((n ++ [b]) ++ []) ++ extra) in *.
      rewrite app_nil_r, <- app_assoc in *. cbn [app] in *.
      pose proof (C21_ocb_refuted o E cs v s c n b extra LN) as H. cbv zeta in H.
      change (encs [FVersion KAead v; FSym s; FAead x02; FChunk c; FDumped "IV" n] ++ b :: extra) with (v :: s :: x02 :: c :: (n ++ []) ++ b :: extra) in H.
      rewrite app_nil_r in H. exact (H S).
    + eexists. apply C21_aead_partial; [lia | exact L | exact S].
  - intros v s a c q cs L S F. split; [|exact F]. eexists.
    refine (done o E 20 [v; s; a; c] q cs _ _ (tag20 o) ltac:(is_tag) (TagL.ends_tag20_short o E v s a c q _) S).
    unfold TagL.aead_iv_octets, aead_nonce_octets in *. destruct (b2n a) as [|[| |]]; try exact L; destruct p; exact L.
  - intros tag v d a t fs rest cs T R S F. split; [|apply four_noted, F]. eexists. rewrite <- noted_eq.
    exact (done0 o E tag _ cs _ _ (tag06 o E) (public_tag o E tag (public_tag_in _ T)) (ends_public o E v d a t fs rest R) S).
  - intros tag v d a t fs d' note is rest cs T R X S F. split; [|apply four_noted, F]. eexists. rewrite <- noted_eq.
    exact (done0 o E tag _ cs _ _ (tag05 o E) (secret_tag o E tag (secret_tag_in _ T)) (ends_secret o E v d a t fs d' note is rest R X) S).
  - intros cs S F. split; [|exact F]. eexists. exact (sig3_parse o E cs [] [] [] (or_introl (conj (sig3_none o E) eq_refl)) S).
  - intros d it cs H S F. split; [|exact F]. eexists. exact (sig3_parse o E cs d [it] [] (or_introl (conj (sig3_cut o E d it H) eq_refl)) S).
  - intros d it rest l cs H T S F. split; [|exact F]. eexists. destruct (sig3_all o E d it rest l H T) as (l' & extra & EQ & K).
    rewrite (sig3_parse o E cs d l' extra K S), EQ. reflexivity.
  - intros v t a h A1 A2 h2 d fs rest l1 l2 r1 r2 cs cs1 cs2 V H2 M L1 L2 S1 S2 R1 IH1 R2 IH2 S F.
    destruct (IH1 (all_short _ _ A1 (2 ^ 32) (subs_sizes _ _ S1) ltac:(change (2 ^ 32) with 4294967296; lia)) F) as (P1 & F1).
    destruct (IH2 (all_short _ _ A2 (2 ^ 32) (subs_sizes _ _ S2) ltac:(change (2 ^ 32) with 4294967296; lia)) F1) as (P2 & F2).
    split; [|exact F2]. eexists. unfold signature_packet. destruct M as [l rest M | s x l LY X FF | d U].
    + rewrite sig_fields_split in *.
      rewrite (C22_signature o E cs v t a h A1 A2 h2 l rest l1 l2 r1 r2 cs1 cs2 V H2 M L1 L2 S1 S2 P1 P2 S F). reflexivity.
    + exfalso. destruct a; try discriminate LY; injection LY as LY; apply last_slot in LY as [-> X2]; cbn in X2; injection X2 as ->; exact X.
    + rewrite (C22_unknown_algorithm o E cs v t a h A1 A2 h2 d l1 l2 r1 r2 cs1 cs2 V H2 U L1 L2 S1 S2 P1 P2 S F). reflexivity.
  - intros v extra cs V S F. split; [|exact F]. eexists. apply C22_other_version; assumption.
  - intros body cs S F. split; [|exact F]. eexists. apply C51_marker, S.
  - intros f name t d it cs N T X S F. split; [|exact F]. eexists. apply C51_literal; assumption.
  - intros body cs S F. split; [|exact F]. eexists. apply C51_trust, S.
  - intros body it cs X S F. split; [|exact F]. eexists. apply C51_user_id; assumption.
  - intros area l r cs L SI A S F. split; [|exact F].
    pose proof (attributes_list o E cs l r A (all_sized _ _ _ (subs_sizes _ _ SI) S)) as SL.
    pose proof (C26_user_attribute o E area l cs L F SI) as H. rewrite SL in H. cbn [fst snd map_res] in H. eexists. apply H. discriminate.
  - intros a z d cs C S F. split; [|exact F]. eapply closed_contents; eassumption.
  - intros a z cs C S F. split; [|exact F]. apply closed_unknown; assumption.
  - intros a z d ok cs A Z EI LD S F. split; [|exact F]. eapply closed_large; eassumption.
  - intros tag body cs T S F. split; [|exact F]. eexists. apply C28_unknown_packet, T.
  - intros cs _ F. split; [reflexivity | exact F].
  - intros ty b l i r cs cs1 cs2 R IH1 RS IH2 S F. inversion S; subst. cbn [snd] in *. destruct (IH1 ltac:(assumption) F) as (P & F1).
    destruct (IH2 ltac:(assumption) F1) as (P2 & F2). split; [|exact F2]. cbn [sub_list]. rewrite P, P2. reflexivity.
  - intros ty b cs i cs' R S F. split; [apply C49_content; [exact R | apply small_sized, S] | eapply four_sub; eassumption].
  - intros ty b cs i cs' T R IH S F. destruct (IH (small_sized _ S) F) as ((x & P) & F1). split; [|exact F1]. rewrite C49_embedded by exact T. rewrite P. reflexivity.
  - intros ty l w is cs cs' T P R IH S F. apply small_sized in S.
    assert (sized w) as SW by (unfold sized, lenZ, lenN in *; cbn [length] in S; lia).
    destruct (IH (all_sized _ _ _ (packets_sizes _ _ P) SW) F) as (FL & F1). split; [|exact F1].
    rewrite (C34_complete o E ty l w cs T S P), FL. reflexivity.
  - intros ty l w q is cs cs' T P FP I LO R IH S F. pose proof (small_sized _ S) as SS.
    assert (sized w /\ lenN q < 2 ^ 32) as [SW SQ] by (unfold sized, lenZ, lenN in *; cbn [length] in *; rewrite app_length in *; lia).
    destruct (IH (all_sized _ _ _ (packets_sizes _ _ P) SW) F) as (FL & F1). split; [|exact F1]. apply (key_cut o E ty l); assumption.
  - intros ty v w cs T V S F. split; [|exact F]. apply key_other; [exact T | apply small_sized, S | exact V].
  - intros ty b cs T S F. split; [|exact F]. apply C28_unknown_subpacket, T.
  - intros cs _ F. split; [reflexivity | exact F].
  - intros tag b l i r cs cs1 cs2 R IH1 RS IH2 S F. inversion S; subst. cbn [snd] in *. destruct (IH1 ltac:(assumption) F) as ((x & P) & F1).
    destruct (IH2 ltac:(assumption) F1) as (P2 & F2). split; [|exact F2]. cbn [flat_list]. rewrite P, P2. reflexivity.
Qed.

(** C67.  A packet that is as described by the specification (SpecShown.v) is parsed, to the item that the specification gives. *)
Theorem C67_packet : forall (o : opts) (E : env) (tag : N) (body : bytes) (cs cs' : cst) (it : item),
  packet_reads o E tag body cs it cs' -> sized body -> four_octet_dates cs -> exists x, parse_tag o E tag body cs = (ROk (it, x), cs').
Proof. intros o E tag body cs cs' it R S F. exact (proj1 (proj1 (reads_parse o E) tag body cs it cs' R S F)). Qed.
Print Assumptions C67_packet.

Lemma top_parse o E tag b cs it cs' : top_reads o E tag b cs it cs' -> sized b -> four_octet_dates cs ->
  packets_parse o E tag b cs = (ROk it, cs') /\ four_octet_dates cs'.
Proof.
  intros R S F. destruct R as [tag body cs i cs' T R | a z d l is cs cs' C I R | a z cs H | a z d ok cs A Z EI LD].
  - destruct (proj1 (reads_parse o E) tag body cs i cs' R S F) as ((x & P) & F1). split; [|exact F1].
    rewrite HiddenL.packets_parse_item by exact T. rewrite P. reflexivity.
  - destruct (proj2 (proj2 (proj2 (reads_parse o E))) l cs is cs' R (all_sized _ _ _ (input_sizes _ _ I) (contents_sized _ _ _ C S)) F) as (FL & F1).
    split; [|exact F1]. destruct (C35_expanded o E a z d l cs S C I) as (P1 & P2). rewrite FL in P1, P2. cbn in P1, P2.
    rewrite (surjective_pairing (packets_parse _ _ _ _ _)), P1, P2. reflexivity.
  - split; [|exact F]. apply C35_unknown_algorithm; assumption.
  - split; [|exact F]. eapply C35_too_large; eassumption.
Qed.
Lemma all_parse o E : forall l cs items, all_read o E l cs items -> Forall (fun p => sized (snd p)) l -> four_octet_dates cs ->
  parse_list o E l cs = (items, ROk tt).
Proof.
  induction 1 as [cs | tag b l i r cs cs1 R RS IH]; intros S F; [reflexivity|]. inversion S; subst. cbn [snd] in *.
  destruct (top_parse o E tag b cs i cs1 R ltac:(assumption) F) as (P & F1). cbn [parse_list]. rewrite P, (IH ltac:(assumption) F1). reflexivity.
Qed.

(** C67.  An input that holds such packets, in any framing and delivered in any pieces, is parsed to their items. *)
Theorem C67_input : forall (o : opts) (E : env) (l : list (N * bytes)) (w : bytes) (c : chunks) (items : list item),
  input_of l w -> delivers c w -> sized w -> all_read o E l cst_init items -> parse_chunks o E c = (items, ROk tt).
Proof.
  intros o E l w c items I D S R. rewrite (C01_framing o E l w c I D). apply all_parse; [exact R | | exact four_init].
  eapply all_sized; [exact (input_sizes _ _ I) | exact S].
Qed.
Print Assumptions C67_input.
(** A one-pass signature and a user ID, delivered octet by octet. *)
Definition sample_pass : bytes := encs [FVersion KOnePass x03; FSigType x00; FHash x08; FPub x01; FKeyID (repeat x01 8); FLast x01] ++ [].
Definition sample_octets : bytes := (n2b (192 + 4) :: [n2b 13] ++ sample_pass) ++ (n2b (192 + 13) :: [n2b 3] ++ str "Ann") ++ [].
Example C67_input_used : forall (o : opts) (E : env), exists l items,
  input_of l sample_octets /\ delivers (mkChunks (map (fun b => [b]) sample_octets) true) sample_octets /\ sized sample_octets /\
  all_read o E l cst_init items /\ length items = 2%nat /\ four_octet_dates cst_init.
Proof.
  intros o E. exists [(4, sample_pass); (13, str "Ann")]. eexists. split.
  { apply all_definite. unfold sample_octets. apply one_more; [apply new_format; [reflexivity|]; apply (part_last _ [n2b 13]), len_one; reflexivity|].
    apply one_more; [apply new_format; [reflexivity|]; apply (part_last _ [n2b 3]), len_one; reflexivity | constructor]. }
  split; [split; [repeat constructor; discriminate | split; reflexivity]|]. split; [reflexivity|]. split; [|split; [|exact four_init]].
  - eapply ar_more; [|eapply ar_more; [|constructor]].
    + apply t_plain; [discriminate|]. apply (p_one_pass o E x03 x00 x08 x01 (repeat x01 8) x01 []). reflexivity.
    + apply t_plain; [discriminate|]. apply p_user_id. change (str "Ann") with (utf8s [65; 110; 110]). apply text_valid; [|discriminate].
      repeat constructor; unfold scalar; cbn; lia.
  - reflexivity.
Qed.
