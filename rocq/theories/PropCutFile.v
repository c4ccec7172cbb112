(** * PropCutFile: a file that is cut short (C79). *)
From Coq Require Import Strings.String Strings.Byte List NArith ZArith Bool Lia ZifyBool ZifyN ZifyNat.
From Verif Require Import Base BaseL Item Reader Opaque Context Env Parse Json Facade Cli SpecBase SpecText SpecFrame FramingL SpecParse SpecArmor SpecRadix64 SpecAccept SpecShown SpecFacade SpecCli SpecCommand
  SpecPipe SpecCat SpecOutcome StreamL PropArmor PropParse PropFrame PropFacade PropCli PropRadix64 PropAcceptCmd ArmorSizeL PropShown PropCommand PropCat Witness.
From Verif Require FrameL GrammarL PropCommandAll PropOutcomeCmd.
Import ListNotations.
Local Open Scope N_scope.

(** Where a cut through packets lies. *)
Lemma cut_where l w : packets_in l w -> forall a b, w = a ++ b ->
  (exists l1 l2, l = l1 ++ l2 /\ packets_in l1 a /\ packets_in l2 b) \/
  (exists l1 a1 tag body q x, packets_in l1 a1 /\ a = a1 ++ q /\ q <> [] /\ x <> [] /\ framed tag body (q ++ x)).
Proof.
  induction 1 as [|tag body l w w' F P IH]; intros a b E.
  - symmetry in E. apply app_eq_nil in E as [-> ->]. left. exists [], []. repeat split; constructor.
  - apply app_eq_app in E as (m & [[-> ->]|[-> ->]]).
    + destruct m as [|y m].
      { rewrite app_nil_r in F. left. exists [(tag, body)], l. split; [reflexivity|]. split; [|exact P]. rewrite <- (app_nil_r a). apply one_more; [exact F | constructor]. }
      destruct a as [|z a].
      { left. exists [], ((tag, body) :: l). split; [reflexivity|]. split; [constructor|]. apply one_more; assumption. }
      right. exists [], [], tag, body, (z :: a), (y :: m). repeat split; [constructor | discriminate | discriminate | exact F].
    + destruct (IH m b eq_refl) as [(l1 & l2 & -> & P1 & P2)|(l1 & a1 & t & bo & q & x & P1 & -> & Q & X & F1)].
      * left. exists ((tag, body) :: l1), l2. split; [reflexivity|]. split; [apply one_more; assumption | exact P2].
      * right. exists ((tag, body) :: l1), (w ++ a1), t, bo, q, x. rewrite <- app_assoc. repeat split; try assumption. apply one_more; assumption.
Qed.

(** Octets that end within a packet are not complete packets. *)
Lemma cut_not_complete l1 a1 : packets_in l1 a1 -> forall tag body q x l, framed tag body (q ++ x) -> q <> [] -> x <> [] -> ~ packets_in l (a1 ++ q).
Proof.
  intros P1 tag body q x l F Q X PL.
  assert (forall l1 a1, packets_in l1 a1 -> forall c l, c_inv true c -> c_data c = a1 ++ q -> packets_in l (a1 ++ q) -> False) as H.
  { clear l1 a1 P1 l PL. induction 1 as [|t b l1 w w' F1 P1 IH]; intros c l I D P.
    - cbn [app] in *. destruct (next_chunks_cut env0 true tag body q x c F Q X I D) as (c1 & N1).
      inversion P as [|t2 b2 l2 w2 w2' F2 P2]; subst; [congruence|].
      destruct (next_chunks_ok env0 true t2 b2 w2 w2' c F2 I ltac:(congruence)) as (c2 & N2 & _). congruence.
    - rewrite <- app_assoc in D, P. destruct (next_chunks_ok env0 true t b w (w' ++ q) c F1 I D) as (c1 & N1 & D1 & I1).
      inversion P as [E0|t2 b2 l2 w2 w2' F2 P2 E1 E2].
      { pose proof (GrammarL.framed_octets _ _ _ F1). symmetry in H. apply app_eq_nil in H. tauto. }
      destruct (next_chunks_ok env0 true t2 b2 w2 w2' c F2 I ltac:(congruence)) as (c2 & N2 & D2 & I2).
      assert (c2 = c1) as -> by congruence. apply (IH c1 l2 I1 D1). congruence. }
  apply (H l1 a1 P1 (chunks_of (a1 ++ q) true) l); [|unfold c_data, chunks_of; destruct (a1 ++ q); cbn; rewrite ?app_nil_r; reflexivity | exact PL].
  split; [|reflexivity]. unfold FrameL.pieces_ok, chunks_of. destruct (a1 ++ q); repeat constructor; discriminate.
Qed.

(** C79.  A file of complete packets is cut anywhere.  If the cut is not between two packets, the command fails and writes nothing. *)
Theorem C79_noticed : forall (w : world) (args : list bytes) (l : list (string * value)) (c : command) (pk : list (N * bytes)) (a b : bytes),
  asks args l c -> dump_command c = true -> on l "debug" = false ->
  packets_in pk (a ++ b) -> input w c (mkStream a true) -> fits (w_env w) (mkStream a true) -> as_they_are (options_asked l c) (w_env w) a ->
  (forall pk1, ~ packets_in pk1 a) ->
  main w args = Some (Some 1%Z, []).
Proof.
  intros w args l c pk a b A D ND P I FT (NA & SL & NB) NP. destruct (asks_cli _ _ _ A) as (fl & CL & FA).
  destruct (cut_where pk _ P a b eq_refl) as [(l1 & l2 & _ & P1 & _)|(l1 & a1 & tag & body & q & x & P1 & EA & Q & X & F)]; [destruct (NP l1 P1)|].
  assert (exists its r, parse_stream (options_asked l c) (w_env w) (mkStream a true) = (its, r) /\ r <> ROk tt /\ r <> RFuel) as (its & r & PS & NO & NF).
  { pose proof (C03_terminates (options_asked l c) (w_env w) (mkStream a true) FT) as T.
    pose proof (C43_complete_partial (options_asked l c) (w_env w) a NA SL NB) as B. unfold parse_bytes in B. rewrite B in *.
    destruct (PropCommandAll.delivers_all a) as (D1 & D2 & D3).
    assert (parse_chunks (options_asked l c) (w_env w) (chunks_of a true) = or_else (parse_list (options_asked l c) (w_env w) l1 cst_init) EUnexp) as H.
    { apply (loop_then (options_asked l c) (w_env w) true l1 a1 q (chunks_of a true) EUnexp P1); [split; [exact D1 | exact D3] | unfold c_data; rewrite D2; exact EA|].
      intros c' I' D'. exact (next_chunks_cut (w_env w) true tag body q x c' F Q X I' D'). }
    rewrite H in *. do 2 eexists. split; [apply surjective_pairing|]. split; [|exact T].
    unfold or_else. destruct (parse_list (options_asked l c) (w_env w) l1 cst_init) as [i [[]|e| |]]; cbn; discriminate. }
  assert (f_on fl DEBUG = false) as FD by (destruct FA as (_ & _ & _ & _ & Y & _); rewrite Y; exact ND).
  unfold main. rewrite CL. cbn [option_map fst snd]. unfold execute.
  destruct (run_dump fl w c D FD) as [(s & Hi & o & Ho & ->)|[N _]]; [|exfalso; exact (N _ I)].
  rewrite (input_unique w c s _ Hi I). unfold dump.
  rewrite (same_in_force fl c o (options_asked l c) _ _ FT Ho (asked_in_force l fl c FA)), PS. destruct r as [[]|e| |]; try congruence; reflexivity.
Qed.
Print Assumptions C79_noticed.

(** C79.  If the cut is between two packets, and the command without --json succeeds on the whole file, then it succeeds on the first part and writes the
    beginning of what it writes for the whole. *)
Theorem C79_between : forall (wa wc : world) (args : list bytes) (l : list (string * value)) (c : command) (pk pk1 : list (N * bytes)) (a b t : bytes),
  asks args l c -> dump_command c = true -> on l "json" = false -> on l "debug" = false -> same_machine wc wa -> w_room wc = None ->
  packets_in pk (a ++ b) -> packets_in pk1 a ->
  input wc c (mkStream (a ++ b) true) -> input wa c (mkStream a true) ->
  fits (w_env wc) (mkStream (a ++ b) true) -> fits (w_env wa) (mkStream a true) ->
  as_they_are (options_asked l c) (w_env wc) (a ++ b) -> as_they_are (options_asked l c) (w_env wc) a ->
  main wc args = Some (Some 0%Z, t) ->
  exists t1 t2, t = t1 ++ t2 /\ main wa args = Some (Some 0%Z, t1).
Proof.
  intros wa wc args l c pk pk1 a b t A D J ND (ME & _ & MR & _) RM P P1 IC IA FC FA (NA & SC & NC) (_ & SA & NB) M.
  destruct (well_lines wc args l c (a ++ b) t A D J ND FC IC M) as (items & PB & ->).
  destruct (cut_where pk _ P a b eq_refl) as [(l1 & l2 & -> & Q1 & Q2)|(l1 & a1 & tag & body & q & x & Q1 & -> & Q & X & F)];
    [|destruct (cut_not_complete l1 a1 Q1 tag body q x pk1 F Q X P1)].
  rewrite (C01_file _ _ (l1 ++ l2) (a ++ b) (all_definite _ _ P) NA SC NC), parse_list_app in PB.
  destruct (parse_list (options_asked l c) (w_env wc) l1 cst_init) as [i1 r1] eqn:H1. cbn [fst snd] in PB.
  assert (r1 = ROk tt) as -> by (destruct r1 as [[]| | |]; congruence). unfold FramingL.both in PB. injection PB as <- _.
  exists (lines_shown (indent_asked l) i1). eexists. split; [apply lines_app|].
  apply (lines_well wa args l c a i1); try assumption; [congruence|]. rewrite ME, (C01_file _ _ l1 a (all_definite _ _ Q1) NA SA NB). exact H1.
Qed.
Print Assumptions C79_between.

(** C79.  A text without an end line, such as an armored text that is cut before it: the command fails and writes nothing, if it takes its input for armored
    text, or else if the text begins with an ASCII character. *)
Theorem C79_armored : forall (w : world) (args : list bytes) (l : list (string * value)) (c : command) (text : bytes),
  asks args l c -> dump_command c = true -> on l "debug" = false -> int_sizes (e_grow (w_env w)) -> decodes_armor (w_env w) ->
  input w c (mkStream text true) -> lenN text < 2 ^ 32 - 1 -> short_lines text ->
  Forall (fun line => ~ end_line line) (lines_of text) ->
  on l "armor" = true \/ armored_source c = true \/ (exists x rest, text = x :: rest /\ b2n x < 128) ->
  main w args = Some (Some 1%Z, []).
Proof.
  intros w args l c text A D ND G DA I L S NE H.
  assert (no_armor (w_env w) (mkStream text true) No_block) as NB.
  { apply no_block; [exact S | reflexivity|]. intros block (pre & b & mid & e & post & E & _ & _ & _ & _ & EL). cbn [st_data] in E. rewrite E in NE.
    apply Forall_app in NE as [_ NE]. inversion NE as [|? ? _ NE']; subst. apply Forall_app in NE' as [_ NE']. inversion NE' as [|? ? X _]; subst. exact (X EL). }
  destruct (oArmor (options_asked l c)) eqn:OA.
  - exact (PropOutcomeCmd.C68_command w args l c (mkStream text true) [] (Rejected No_block) A D ND G DA I L (source_gives_nothing _ _ _ No_block (gives_nothing _ _ _ _ OA NB))).
  - assert (on l "armor" || armored_source c = false) as OF by exact OA. apply orb_false_iff in OF as [O1 O2].
    destruct H as [H|[H|(x & rest & -> & X)]]; [congruence | congruence|].
    apply (PropOutcomeCmd.C68_command w args l c (mkStream (x :: rest) true) [] (Rejected Malformed) A D ND G DA I L).
    apply (source_gives _ _ _ (x :: rest) true); [exact (gives_itself _ _ (mkStream (x :: rest) true) No_block OA NB S) | apply out_no_packet, X].
Qed.
Print Assumptions C79_armored.

(** ** The key of C67, cut behind its user ID, and within the signature behind that; and an armored text cut before its end line *)
Definition demo_between : bytes := firstn 20 demo_octets.
Definition demo_inside : bytes := firstn 41 demo_octets.
Definition cut_text : bytes := str "-----BEGIN PGP MESSAGE-----" ++ [x0a; x0a] ++ str "zQVBbGljZQ==" ++ [x0a].
Lemma demo_between_packets : packets_in [(6, demo_key); (13, str "Ann")] demo_between.
Proof. change demo_between with demo_bare. exact demo_bare_packets. Qed.
Example C79_used : let c := CRoot false false [] in let o := options_asked demo_asked c in
  asks [str "-u"] demo_asked c /\ dump_command c = true /\ on demo_asked "json" = false /\ on demo_asked "debug" = false /\
  packets_in demo_packets (demo_between ++ skipn 20 demo_octets) /\ packets_in [(6, demo_key); (13, str "Ann")] demo_between /\
  packets_in demo_packets (demo_inside ++ skipn 41 demo_octets) /\ (forall pk1, ~ packets_in pk1 demo_inside) /\
  as_they_are o (w_env (armor_world demo_octets)) demo_octets /\ as_they_are o (w_env (armor_world demo_octets)) demo_between /\
  as_they_are o (w_env (armor_world demo_octets)) demo_inside /\
  fits (w_env (armor_world demo_octets)) (mkStream demo_octets true) /\ fits (w_env (armor_world demo_between)) (mkStream demo_between true) /\
  fits (w_env (armor_world demo_inside)) (mkStream demo_inside true) /\
  main (armor_world demo_octets) [str "-u"] = Some (Some 0%Z, demo_output) /\
  main (armor_world demo_between) [str "-u"] = Some (Some 0%Z, firstn 282 demo_output) /\
  main (armor_world demo_inside) [str "-u"] = Some (Some 1%Z, []).
Proof.
  cbv zeta. split; [apply C67_command_used|]. split; [reflexivity|]. split; [reflexivity|]. split; [reflexivity|].
  split; [unfold demo_between; rewrite firstn_skipn; exact demo_all_packets|]. split; [exact demo_between_packets|].
  split; [unfold demo_inside; rewrite firstn_skipn; exact demo_all_packets|]. split.
  { intros pk1. change demo_inside with (demo_between ++ firstn 21 (skipn 20 demo_octets)).
    apply (cut_not_complete _ _ demo_between_packets 2 demo_sig (firstn 21 (skipn 20 demo_octets)) (skipn 41 demo_octets)); [|vm_compute; discriminate|vm_compute; discriminate].
    change (framed 2 demo_sig (n2b (129 + 4 * 2) :: be_enc 2 (lenN demo_sig) ++ demo_sig)). apply old_two; reflexivity. }
  split; [apply plain_lines; vm_compute; reflexivity|]. split; [apply plain_lines; vm_compute; reflexivity|]. split; [apply plain_lines; vm_compute; reflexivity|].
  do 3 (split; [apply decoder_fits; [exact decodes_armor_used | vm_compute; reflexivity]|]).
  split; [exact C67_command_shows|]. split; vm_compute; reflexivity.
Qed.
Example C79_armored_used : short_lines cut_text /\ Forall (fun line => ~ end_line line) (lines_of cut_text) /\ (exists x rest, cut_text = x :: rest /\ b2n x < 128) /\
  main (armor_world cut_text) [str "-u"] = Some (Some 1%Z, []) /\ main (armor_world cut_text) [str "-u"; str "-a"] = Some (Some 1%Z, []).
Proof.
  split; [apply short_lines_by; vm_compute; reflexivity|].
  split; [change (lines_of cut_text) with [str "-----BEGIN PGP MESSAGE-----"; []; str "zQVBbGljZQ=="]; repeat constructor; intros [t T]; discriminate T|].
  split; [exists x2d; eexists; split; [reflexivity | vm_compute; reflexivity]|]. split; vm_compute; reflexivity.
Qed.
(** Neither is noticed: nothing at all, and a packet of indeterminate length. *)
Example C79_not_noticed : main (armor_world []) [str "-u"] = Some (Some 0%Z, []) /\
  exists t t', main (armor_world (xb7 :: str "Alice")) [str "-u"] = Some (Some 0%Z, t) /\ main (armor_world (xb7 :: str "Ali")) [str "-u"] = Some (Some 0%Z, t') /\ t <> t'.
Proof. split; [vm_compute; reflexivity|]. do 2 eexists. split; [vm_compute; reflexivity|]. split; [vm_compute; reflexivity | vm_compute; discriminate]. Qed.
