(** * PropCat: the dump of joined files is the joined dumps (C75). *)
From Coq Require Import Strings.String Strings.Byte List NArith ZArith Bool Lia ZifyBool ZifyN ZifyNat.
From Verif Require Import Base BaseL Item Reader Context Env Parse Json Facade Cli Stderr Tags SpecBase SpecText SpecFrame FramingL SpecParse SpecNest SpecArmor SpecHistory SpecShown SpecFacade SpecCli SpecCommand
  SpecPipe SpecCat HistoryL StreamL PropArmor PropParse PropFrame PropHistory PropText PropFacade PropCli PropRadix64 PropAcceptCmd ArmorSizeL PropShown PropCommand Witness.
From Verif Require CompL PropCommandAll.
Import ListNotations.
Local Open Scope N_scope.

Lemma free_packet o E tag b c1 c2 : ~ looks_back tag -> sized b -> fst (packets_parse o E tag b c1) = fst (packets_parse o E tag b c2).
Proof.
  intros T S. unfold looks_back in T. cbn [In] in T.
  assert (fst (parse_tag o E tag b c1) = fst (parse_tag o E tag b c2)) as F by (apply free_tag; try exact S; intros ->; tauto).
  assert (forall k r, parse_tag o E tag b k = (ROk r, snd (parse_tag o E tag b k)) -> snd r = None) as NX.
  { intros k [i0 [d|]] K; [|reflexivity]. destruct (CompL.expanded_contents _ _ _ _ _ _ _ _ S K) as [T8 _]. exfalso. apply T. subst tag. tauto. }
  unfold packets_parse. destruct (parse_tag o E tag b c1) as [r1 k1] eqn:Q1, (parse_tag o E tag b c2) as [r2 k2] eqn:Q2. cbn [fst] in F. subst r2.
  destruct r1 as [[i0 x]|e| |]; try reflexivity.
  pose proof (NX c1 (i0, x)) as X. rewrite Q1 in X. specialize (X eq_refl). cbn [snd] in X. subst x. reflexivity.
Qed.
Lemma free_list o E l : Forall (fun p => ~ looks_back (fst p) /\ sized (snd p)) l -> forall c1 c2, parse_list o E l c1 = parse_list o E l c2.
Proof.
  induction 1 as [|[t b] l [T S] F IH]; intros c1 c2; [reflexivity|]. cbn [parse_list]. cbn [fst snd] in T, S.
  pose proof (free_packet o E t b c1 c2 T S) as Q.
  destruct (packets_parse o E t b c1) as [r1 k1], (packets_parse o E t b c2) as [r2 k2]. cbn [fst] in Q. subst r2.
  destruct r1; try reflexivity. rewrite (IH k1 k2). reflexivity.
Qed.
Lemma input_app l w l2 w2 : packets_in l w -> input_of l2 w2 -> input_of (l ++ l2) (w ++ w2).
Proof.
  intros P I. destruct I as [l2 w2 P2|l2 w2 tag body P2 T].
  - apply all_definite, packets_in_app; assumption.
  - rewrite !app_assoc. apply last_to_end; [apply packets_in_app; assumption | exact T].
Qed.
Lemma input_short l w : input_of l w -> sized w -> Forall (fun p => sized (snd p)) l.
Proof.
  intros I S. destruct I as [l w P|l w tag body P T].
  - apply (packets_short l w P S).
  - assert (sized w /\ sized body) as [SW SB] by (unfold sized, lenZ in *; rewrite app_length in S; cbn [length] in S; lia).
    apply Forall_app. split; [apply (packets_short l w P SW)|]. constructor; [exact SB | constructor].
Qed.

(** C75.  Octets that are packets, put behind complete packets that are shown without error: if none of them looks back, the result is the items of both,
    and the outcome that of the second. *)
Theorem C75_parse : forall (o : opts) (E : env) (l l2 : list (N * bytes)) (w1 w2 : bytes) (items : info),
  as_they_are o E w1 -> as_they_are o E w2 -> as_they_are o E (w1 ++ w2) -> sized w2 ->
  packets_in l w1 -> parse_bytes o E w1 = (items, ROk tt) ->
  input_of l2 w2 -> Forall (fun p => ~ looks_back (fst p)) l2 ->
  parse_bytes o E (w1 ++ w2) = (items ++ fst (parse_bytes o E w2), snd (parse_bytes o E w2)).
Proof.
  intros o E l l2 w1 w2 items (A & S1 & N1) (_ & S2 & N2) (_ & S3 & N3) SZ P H I F.
  rewrite (C01_file o E l w1 (all_definite _ _ P) A S1 N1) in H. rewrite (C01_file o E l2 w2 I A S2 N2), (C01_file o E (l ++ l2) (w1 ++ w2) (input_app l w1 l2 w2 P I) A S3 N3).
  rewrite parse_list_app, H. cbn [fst snd]. unfold both.
  rewrite (free_list o E l2) with (c2 := cst_init).
  - reflexivity.
  - pose proof (input_short l2 w2 I SZ) as SH. rewrite Forall_forall in *. intros p Hp. split; [apply F, Hp | apply SH, Hp].
Qed.
Print Assumptions C75_parse.

(** C75.  Any octets behind complete packets that are shown without error: the outcome is that of the second octets alone, and so are their items, but for
    dates of expiration and the kind of session key. *)
Theorem C75_parse_any : forall (o : opts) (E : env) (l : list (N * bytes)) (w1 w2 : bytes) (items : info),
  as_they_are o E w1 -> as_they_are o E w2 -> as_they_are o E (w1 ++ w2) -> sized w2 -> minute_zone (e_tz E) ->
  packets_in l w1 -> parse_bytes o E w1 = (items, ROk tt) ->
  exists more, parse_bytes o E (w1 ++ w2) = (items ++ more, snd (parse_bytes o E w2)) /\ Forall2 same_but_history more (fst (parse_bytes o E w2)).
Proof.
  intros o E l w1 w2 items (A & S1 & N1) (_ & S2 & N2) (_ & S3 & N3) SZ MZ P H.
  rewrite (C43_complete_partial o E w1 A S1 N1) in H. rewrite (C43_complete_partial o E w2 A S2 N2), (C43_complete_partial o E (w1 ++ w2) A S3 N3).
  exact (C54_after_packets o E l w1 w2 _ _ _ items MZ SZ P (PropCommandAll.delivers_all w1) (PropCommandAll.delivers_all w2) (PropCommandAll.delivers_all (w1 ++ w2)) H).
Qed.
Print Assumptions C75_parse_any.

(** ** The command *)
Lemma well_lines w args l c octets t : asks args l c -> dump_command c = true -> on l "json" = false -> on l "debug" = false ->
  fits (w_env w) (mkStream octets true) -> input w c (mkStream octets true) -> main w args = Some (Some 0%Z, t) ->
  exists items, parse_bytes (options_asked l c) (w_env w) octets = (items, ROk tt) /\ t = lines_shown (indent_asked l) items.
Proof.
  intros A D J ND F I M. destruct (asks_cli _ _ _ A) as (fl & CL & FA). unfold main in M. rewrite CL in M. cbn [option_map fst snd] in M. injection M as M.
  assert (f_on fl DEBUG = false) as FD by (destruct FA as (_ & _ & _ & _ & X & _); rewrite X; exact ND).
  destruct (C44_only_success fl w c D FD) as (text & (src & o & items & I' & O & P & R & T) & Q); [rewrite M; reflexivity|].
  rewrite M in Q. cbn [snd] in Q. subst text. rewrite (input_unique w c src _ I' I) in P.
  rewrite (same_in_force fl c o (options_asked l c) _ _ F O (asked_in_force l fl c FA)) in P. exists items. split; [exact P|].
  destruct FA as (FJ & FI & _). rewrite J in FJ. unfold lines_shown, indent_asked. rewrite <- FI, <- C36_text.
  destruct R as [[R _]|[(_ & R & ->)|(_ & R & ->)]]; [congruence | |]; destruct (Z.ltb_spec 0 (f_indent fl)); try lia; reflexivity.
Qed.
Lemma lines_well w args l c octets items : asks args l c -> dump_command c = true -> on l "json" = false ->
  fits (w_env w) (mkStream octets true) -> input w c (mkStream octets true) -> w_room w = None ->
  parse_bytes (options_asked l c) (w_env w) octets = (items, ROk tt) -> main w args = Some (Some 0%Z, lines_shown (indent_asked l) items).
Proof.
  intros A D J F I RM P. destruct (asks_cli _ _ _ A) as (fl & CL & FA). unfold main. rewrite CL. cbn [option_map fst snd]. f_equal. apply C44_success; [exact D | |].
  { intros src I'. rewrite (input_unique w c src _ I' I). exact F. }
  exists (mkStream octets true), (options_asked l c), items. split; [exact I|]. split; [apply asked_in_force, FA|]. split; [exact P|].
  split; [|intros k Q; rewrite RM in Q; discriminate]. right. destruct FA as (FJ & FI & _). rewrite J in FJ. unfold lines_shown, indent_asked. rewrite <- FI, <- C36_text.
  destruct (Z.ltb_spec 0 (f_indent fl)) as [Q|Q]; [left | right]; (split; [exact FJ|]); (split; [lia|]); reflexivity.
Qed.
Lemma lines_app ind a b : lines_shown ind (a ++ b) = lines_shown ind a ++ lines_shown ind b.
Proof. unfold lines_shown. rewrite !flat_map_app. reflexivity. Qed.

(** C75.  The command, without --json and --debug, on two files and on the two files joined: if it succeeds on both and no packet of the second looks back,
    it succeeds on the joined file and writes what it writes for the one, followed by what it writes for the other. *)
Theorem C75_command : forall (wa wb wc : world) (args : list bytes) (l : list (string * value)) (c : command) (pk pk2 : list (N * bytes)) (a b t1 t2 : bytes),
  asks args l c -> dump_command c = true -> on l "json" = false -> on l "debug" = false ->
  same_machine wc wa -> same_machine wc wb -> w_room wc = None -> fits (w_env wc) (mkStream (a ++ b) true) -> sized (a ++ b) ->
  input wa c (mkStream a true) -> input wb c (mkStream b true) -> input wc c (mkStream (a ++ b) true) ->
  (let o := options_asked l c in as_they_are o (w_env wc) a /\ as_they_are o (w_env wc) b /\ as_they_are o (w_env wc) (a ++ b)) ->
  packets_in pk a -> input_of pk2 b -> Forall (fun p => ~ looks_back (fst p)) pk2 ->
  fits (w_env wa) (mkStream a true) -> fits (w_env wb) (mkStream b true) ->
  main wa args = Some (Some 0%Z, t1) -> main wb args = Some (Some 0%Z, t2) -> main wc args = Some (Some 0%Z, t1 ++ t2).
Proof.
  intros wa wb wc args l c pk pk2 a b t1 t2 A D J ND (EA & _) (EB & _) RM F SZ IA IB IC (T1 & T2 & T3) P I2 LB FA FB M1 M2.
  destruct (well_lines wa args l c a t1 A D J ND FA IA M1) as (i1 & P1 & ->). destruct (well_lines wb args l c b t2 A D J ND FB IB M2) as (i2 & P2 & ->).
  rewrite EA in P1. rewrite EB in P2. rewrite <- lines_app. apply (lines_well wc args l c (a ++ b)); try assumption.
  rewrite (C75_parse _ _ pk pk2 a b i1 T1 T2 T3 ltac:(unfold sized, lenZ in *; rewrite app_length in SZ; lia) P P1 I2 LB), P2. reflexivity.
Qed.
Print Assumptions C75_command.

(** C75.  Whatever the second file holds: the joined file is accepted if both are, and the output for the first is followed by the output for the second, but for dates of
    expiration and the kind of session key. *)
Theorem C75_command_any : forall (wa wb wc : world) (args : list bytes) (l : list (string * value)) (c : command) (pk : list (N * bytes)) (a b t1 t2 : bytes),
  asks args l c -> dump_command c = true -> on l "json" = false -> on l "debug" = false ->
  same_machine wc wa -> same_machine wc wb -> w_room wc = None -> fits (w_env wc) (mkStream (a ++ b) true) -> sized (a ++ b) -> minute_zone (e_tz (w_env wc)) ->
  input wa c (mkStream a true) -> input wb c (mkStream b true) -> input wc c (mkStream (a ++ b) true) ->
  (let o := options_asked l c in as_they_are o (w_env wc) a /\ as_they_are o (w_env wc) b /\ as_they_are o (w_env wc) (a ++ b)) ->
  packets_in pk a -> fits (w_env wa) (mkStream a true) -> fits (w_env wb) (mkStream b true) ->
  main wa args = Some (Some 0%Z, t1) -> main wb args = Some (Some 0%Z, t2) ->
  exists items more, t2 = lines_shown (indent_asked l) items /\ Forall2 same_but_history more items /\
    main wc args = Some (Some 0%Z, t1 ++ lines_shown (indent_asked l) more).
Proof.
  intros wa wb wc args l c pk a b t1 t2 A D J ND (EA & _) (EB & _) RM F SZ MZ IA IB IC (T1 & T2 & T3) P FA FB M1 M2.
  destruct (well_lines wa args l c a t1 A D J ND FA IA M1) as (i1 & P1 & ->). destruct (well_lines wb args l c b t2 A D J ND FB IB M2) as (i2 & P2 & ->).
  rewrite EA in P1. rewrite EB in P2.
  destruct (C75_parse_any _ _ pk a b i1 T1 T2 T3 ltac:(unfold sized, lenZ in *; rewrite app_length in SZ; lia) MZ P P1) as (more & Q & H). rewrite P2 in Q, H. cbn [fst snd] in Q, H.
  exists i2, more. split; [reflexivity|]. split; [exact H|]. rewrite <- lines_app. apply (lines_well wc args l c (a ++ b)); assumption.
Qed.
Print Assumptions C75_command_any.

(** ** The key of C67, and behind it a key with a user ID; or the same key again, with its signature *)
Definition demo_bare : bytes := (n2b (128 + 4 * 6) :: be_enc 1 (lenN demo_key) ++ demo_key) ++ (n2b (192 + 13) :: [n2b 3] ++ str "Ann") ++ [].
Lemma demo_bare_packets : packets_in [(6, demo_key); (13, str "Ann")] demo_bare.
Proof.
  unfold demo_bare. apply one_more; [apply old_one; reflexivity|].
  apply one_more; [apply new_format; [reflexivity|]; apply (part_last (str "Ann") [n2b 3]), len_one; reflexivity | constructor].
Qed.
Lemma demo_all_packets : packets_in demo_packets demo_octets.
Proof.
  unfold demo_packets, demo_octets. apply one_more; [apply old_one; reflexivity|].
  apply one_more; [apply new_format; [reflexivity|]; apply (part_last (str "Ann") [n2b 3]), len_one; reflexivity|].
  apply one_more; [apply old_two; reflexivity | constructor].
Qed.
Lemma plain_lines o E w : oArmor o = false -> forallb (fun p => negb (beqs (firstn 5 p) (str "-----"))) (lines_of w) = true ->
  forallb (fun p => (lenN p <? 65536)%N) (split_lines w) = true -> as_they_are o E w.
Proof.
  intros A N S. split; [exact A|]. split.
  - apply Forall_forall. intros p I. rewrite forallb_forall in S. apply S in I. lia.
  - intros block (pre & b & mid & e & post & Q & _ & _ & ((t & B) & _) & _). exfalso.
    assert (In b (lines_of w)) as IB by (rewrite Q; apply in_elt). rewrite forallb_forall in N. apply N in IB. rewrite B in IB. cbn in IB. discriminate.
Qed.
Example C75_used : let c := CRoot false false [] in let o := options_asked demo_asked c in
  let wa := armor_world demo_octets in
  (let b := demo_bare in let wb := armor_world b in let wc := armor_world (demo_octets ++ b) in
   asks [str "-u"] demo_asked c /\ same_machine wc wa /\ same_machine wc wb /\ w_room wc = None /\ fits (w_env wc) (mkStream (demo_octets ++ b) true) /\ sized (demo_octets ++ b) /\
   input wa c (mkStream demo_octets true) /\ input wb c (mkStream b true) /\ input wc c (mkStream (demo_octets ++ b) true) /\
   as_they_are o (w_env wc) demo_octets /\ as_they_are o (w_env wc) b /\ as_they_are o (w_env wc) (demo_octets ++ b) /\
   packets_in demo_packets demo_octets /\ (exists pk2, input_of pk2 b /\ Forall (fun p => ~ looks_back (fst p)) pk2) /\
   main wa [str "-u"] = Some (Some 0%Z, demo_output) /\ exists t2, main wb [str "-u"] = Some (Some 0%Z, t2) /\ (100 < lenN t2)%N) /\
  (as_they_are o (w_env wa) (demo_octets ++ demo_octets) /\ minute_zone (e_tz (w_env wa))).
Proof.
  cbv zeta. split.
  - split; [apply C67_command_used|]. split; [repeat split|]. split; [repeat split|]. split; [reflexivity|].
    split; [apply decoder_fits; [exact decodes_armor_used | vm_compute; reflexivity]|]. split; [vm_compute; reflexivity|].
    split; [exact (in_stdin (armor_world demo_octets))|]. split; [exact (in_stdin (armor_world demo_bare))|]. split; [exact (in_stdin (armor_world (demo_octets ++ demo_bare)))|].
    split; [apply plain_lines; vm_compute; reflexivity|]. split; [apply plain_lines; vm_compute; reflexivity|]. split; [apply plain_lines; vm_compute; reflexivity|].
    split; [exact demo_all_packets|]. split.
    { eexists. split; [apply all_definite, demo_bare_packets|]. repeat constructor; cbn; intuition discriminate. }
    split; [exact C67_command_shows|]. eexists. split; [vm_compute; reflexivity | vm_compute; reflexivity].
  - split; [apply plain_lines; vm_compute; reflexivity|]. intros n _. split; [split|]; reflexivity.
Qed.
(** The condition on the second file is needed: encrypted data behind a session key. *)
Example C75_looks_back :
  let esk := [xc3; x04; x04; x09; x00; x08] in let enc := [xc9; x02; x01; x02] in
  exists t1 t2 t, main (armor_world esk) [] = Some (Some 0%Z, t1) /\ main (armor_world enc) [] = Some (Some 0%Z, t2) /\
    main (armor_world (esk ++ enc)) [] = Some (Some 0%Z, t) /\ t <> t1 ++ t2.
Proof. cbv zeta. do 3 eexists. split; [vm_compute; reflexivity|]. split; [vm_compute; reflexivity|]. split; [vm_compute; reflexivity | vm_compute; discriminate]. Qed.
