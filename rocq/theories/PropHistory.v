(** * PropHistory: a packet is shown the same wherever it occurs (C54). *)
From Coq Require Import Strings.String Strings.Byte List NArith ZArith Bool Lia ZifyBool ZifyN ZifyNat.
From Verif Require Import Base Utf8 Item Reader Context Env Time Values Opaque Monad Subs Tags Parse.
From Verif Require Import SpecBase BaseL SpecTime SpecFrame FramingL GrammarL SpecNest SpecParse StreamL PropFrame SpecHistory HistoryL Witness.
Import ListNotations.
Local Open Scope N_scope.

Lemma packets_short l w : packets_in l w -> sized w -> all_short l.
Proof.
  induction 1 as [|tag body l w w' F P IH]; intro S; constructor.
  - cbn [snd]. pose proof (framed_longer _ _ _ F). unfold sized, lenZ in *. rewrite app_length in S. lia.
  - apply IH. unfold sized, lenZ in *. rewrite app_length in S. lia.
Qed.
(** Whatever the octets are, they continue a sequence of packets with a list of packets, and then end or fail. *)
Lemma any_octets w2 : sized w2 -> exists l2 oe, all_short l2 /\ forall o E l1 w1 c, packets_in l1 w1 -> delivers c (w1 ++ w2) ->
  parse_chunks o E c = match oe with None => parse_list o E (l1 ++ l2) cst_init | Some e => or_else (parse_list o E (l1 ++ l2) cst_init) e end.
Proof.
  intro S. destruct (octets_are_packets w2) as (l & w & rest & -> & P & T).
  assert (all_short l) as AS. { apply (packets_short l w P). unfold sized, lenZ in *. rewrite app_length in S. lia. }
  destruct T as [|b t B|tag body T|q tag body x Q X F _].
  - exists l, None. split; [exact AS|]. intros o E l1 w1 c P1 D. rewrite app_nil_r in D.
    exact (C01_framing o E _ _ c (all_definite _ _ (packets_in_app l1 w1 P1 l w P)) D).
  - exists l, (Some EStruct). split; [exact AS|]. intros o E l1 w1 c P1 D. rewrite app_assoc in D. destruct D as (D1 & D2 & D3).
    exact (C02_no_packet o E _ _ b t c (packets_in_app l1 w1 P1 l w P) B D1 D2).
  - exists (l ++ [(tag, body)]), None. split.
    + apply Forall_app. split; [exact AS|]. constructor; [|constructor]. unfold sized, lenZ in *. rewrite app_length in S. cbn [length snd] in *. lia.
    + intros o E l1 w1 c P1 D. rewrite app_assoc in *. exact (C01_framing o E _ _ c (last_to_end _ _ _ _ (packets_in_app l1 w1 P1 l w P) T) D).
  - exists l, (Some EUnexp). split; [exact AS|]. intros o E l1 w1 c P1 D. rewrite app_assoc in D. apply delivers_inv in D as [IV D].
    apply (loop_then o E true _ _ q c EUnexp (packets_in_app l1 w1 P1 l w P) IV D). intros c' I' D'. exact (next_chunks_cut E true tag body q x c' F Q X I' D').
Qed.

(** C54.  Put any octets [w2] behind complete packets that are shown without error.  The outcome is that of [w2] alone, and
    behind the items of the packets there are the items of [w2], but for expiration dates and the kind of session key. *)
Theorem C54_after_packets : forall (o : opts) (E : env) (l : list (N * bytes)) (w1 w2 : bytes) (c c1 c2 : chunks) (items : info),
  minute_zone (e_tz E) -> sized w2 -> packets_in l w1 -> delivers c1 w1 -> delivers c2 w2 -> delivers c (w1 ++ w2) ->
  parse_chunks o E c1 = (items, ROk tt) ->
  exists more, parse_chunks o E c = (items ++ more, snd (parse_chunks o E c2)) /\ Forall2 same_but_history more (fst (parse_chunks o E c2)).
Proof.
  intros o E l w1 w2 c c1 c2 items MZ S P D1 D2 D H1. rewrite (C01_framing o E l w1 c1 (all_definite _ _ P) D1) in H1.
  destruct (any_octets w2 S) as (l2 & oe & AS & K). rewrite (K o E l w1 c P D), (K o E [] [] c2 no_packet D2). cbn [app].
  destruct (list_history o E l2 MZ AS (list_state o E l cst_init) cst_init) as [Q1 Q2].
  rewrite parse_list_app, H1. cbn [fst snd]. unfold both.
  destruct (parse_list o E l2 (list_state o E l cst_init)) as [m1 r1], (parse_list o E l2 cst_init) as [m2 r2]. cbn [fst snd] in Q1, Q2. subst r2.
  exists m1. destruct oe as [e|]; unfold or_else; cbn [fst snd]; auto.
Qed.
Print Assumptions C54_after_packets.

(** C54.  A packet other than a signature (tag 2), compressed data (8) and encrypted data (9, 18) is shown exactly the same in all
    inputs, whatever is before and behind it. *)
Lemma nth_list o E l : forall cs items n tag body, parse_list o E l cs = (items, ROk tt) -> nth_error l n = Some (tag, body) ->
  exists i cs', nth_error items n = Some i /\ fst (packets_parse o E tag body cs') = ROk i.
Proof.
  induction l as [|[t b] l IH]; intros cs items n tag body H N; [destruct n; discriminate N|]. cbn [parse_list] in H.
  destruct (packets_parse o E t b cs) as [[i|e| |] cs1] eqn:PP; try discriminate H.
  destruct (parse_list o E l cs1) as [is r] eqn:R. inversion H; subst. destruct n as [|n]; cbn [nth_error] in *.
  - inversion N; subst. exists i, cs. rewrite PP. auto.
  - exact (IH cs1 is n tag body R N).
Qed.
Theorem C54_same_item : forall (o : opts) (E : env) (l l' : list (N * bytes)) (w w' : bytes) (c c' : chunks) (items items' : info) (n n' : nat) (tag : N) (body : bytes),
  input_of l w -> delivers c w -> parse_chunks o E c = (items, ROk tt) -> nth_error l n = Some (tag, body) ->
  input_of l' w' -> delivers c' w' -> parse_chunks o E c' = (items', ROk tt) -> nth_error l' n' = Some (tag, body) ->
  ~ In tag [2; 8; 9; 18] -> sized body ->
  nth_error items n = nth_error items' n' /\ nth_error items n <> None.
Proof.
  intros o E l l' w w' c c' items items' n n' tag body I D H N I' D' H' N' T S.
  rewrite (C01_framing o E l w c I D) in H. rewrite (C01_framing o E l' w' c' I' D') in H'.
  destruct (nth_list o E l _ _ _ _ _ H N) as (i & cs & -> & P). destruct (nth_list o E l' _ _ _ _ _ H' N') as (i' & cs' & -> & P').
  assert (fst (parse_tag o E tag body cs) = fst (parse_tag o E tag body cs')) as F.
  { apply free_tag; try exact S; intros ->; apply T; cbn [In]; auto. }
  split; [|discriminate]. f_equal. unfold packets_parse in P, P'.
  assert (forall k r, parse_tag o E tag body k = (ROk r, snd (parse_tag o E tag body k)) -> snd r = None) as NX.
  { intros k [i0 [d|]] K; [|reflexivity]. destruct (CompL.expanded_contents _ _ _ _ _ _ _ _ S K) as [T8 _]. exfalso. apply T. rewrite T8. cbn [In]. auto. }
  destruct (parse_tag o E tag body cs) as [r1 k1] eqn:Q1, (parse_tag o E tag body cs') as [r2 k2] eqn:Q2. cbn [fst snd] in *. subst r2.
  destruct r1 as [[i0 x]|e| |]; try discriminate P. pose proof (NX cs (i0, x)) as X. rewrite Q1 in X. specialize (X eq_refl). cbn [snd] in X. subst x.
  cbn [fst] in P, P'. congruence.
Qed.
Print Assumptions C54_same_item.

(** A literal data packet behind the packets of C01, and alone; encrypted data behind a session key, and alone. *)
Example C54_after_used :
  let enc := [xc9; x02; x01; x02] in let lit := [xcb; x07; x62; x00; x00; x00; x00; x00; x41] in
  exists items more, parse_chunks o_plain env0 (chunks_of ex_bytes true) = (items, ROk tt) /\
    parse_chunks o_plain env0 (chunks_of (ex_bytes ++ lit ++ enc) true) = (items ++ more, ROk tt) /\
    snd (parse_chunks o_plain env0 (chunks_of (lit ++ enc) true)) = ROk tt /\ length more = 2%nat.
Proof. cbv zeta. do 2 eexists. split; [vm_compute; reflexivity|]. split; [vm_compute; reflexivity|]. split; vm_compute; reflexivity. Qed.
(** The label of the encrypted data does differ. *)
Example C54_label_differs :
  let esk := [xc3; x04; x04; x09; x00; x08] in let enc := [xc9; x02; x01; x02] in
  skipn 1 (fst (parse_chunks o_plain env0 (chunks_of (esk ++ enc) true))) <> fst (parse_chunks o_plain env0 (chunks_of enc true)).
Proof. vm_compute. discriminate. Qed.
