(** * C68: what any octets show, damaged or not, and how the parse ends. *)
From Coq Require Import Strings.String Strings.Byte List NArith ZArith Bool Lia ZifyBool ZifyN ZifyNat.
From Verif Require Import Base BaseL Item Reader Opaque Context Env Parse SpecBase SpecText SpecFrame SpecParse SpecArmor SpecRadix64 SpecValues SpecPacket
  SpecAccept SpecShown SpecOutcome FramingL AcceptFrameL PropFrame PropArmor PropRadix64 ArmorSizeL PropShown.
From Verif Require PropAccept PropShownAll StreamL ArmorL PropComp PropCommandAll Witness.
Import ListNotations.
Local Open Scope N_scope.

Lemma judged_ends o E tag b cs : int_sizes (e_grow E) -> lenN b < 2 ^ 32 -> ends_as (fst (packets_parse o E tag b cs)) (judged E tag b).
Proof. intros G L. apply PropAccept.top_ends; assumption. Qed.

Lemma outcome_loop o E ok : int_sizes (e_grow E) -> forall cs w items v, outcome o E ok cs w items v -> lenN w < 2 ^ 32 -> four_octet_dates cs ->
  forall fuel c acc, c_inv ok c -> c_data c = w -> (length w < fuel)%nat ->
  exists r, parse_loop o E fuel c cs acc = (acc ++ items, r) /\ ends_as r v.
Proof.
  intros G cs w items v R. induction R as [cs | tag body w rest it items v cs cs' F T R IH | tag body w rest v cs F J NV | tag body it cs cs' T W R | tag body v cs T W J NV | tag body cs T W | b t cs B | tag body q x cs Q X F];
    intros L FD fuel c acc I D LF; (destruct fuel as [|fuel]; [lia|]); cbn [parse_loop].
  - rewrite app_nil_r. destruct (next_chunks_end E ok c I D) as (c1 & ->). destruct ok; eexists; (split; [reflexivity|]); eexists; [reflexivity | split; reflexivity].
  - destruct (next_chunks_ok E ok tag body w rest c F I D) as (c1 & -> & D1 & I1). pose proof (framed_longer _ _ _ F) as FL. rewrite lenN_app in L. rewrite app_length in LF.
    destruct (top_parse o E tag body cs it cs' T) as [-> FD1]; [apply small_sized; unfold lenN in *; lia | exact FD|].
    replace (acc ++ it :: items) with ((acc ++ [it]) ++ items) by (rewrite <- app_assoc; reflexivity). apply IH; [lia | exact FD1 | exact I1 | exact D1 | lia].
  - rewrite app_nil_r. destruct (next_chunks_ok E ok tag body w rest c F I D) as (c1 & -> & _). pose proof (framed_longer _ _ _ F) as FL. rewrite lenN_app in L.
    pose proof (judged_ends o E tag body cs G ltac:(unfold lenN in *; lia)) as H. rewrite J in H. destruct (packets_parse o E tag body cs) as [x c2]. cbn [fst] in H.
    destruct v; [congruence | destruct H as (e & TE & ->); eexists; split; [reflexivity | exists e; split; [exact TE | reflexivity]] | cbn in H; subst x; eexists; split; reflexivity].
  - subst ok. destruct (next_chunks_raw E tag body c T I D) as (c1 & -> & D1 & I1). rewrite lenN_cons in L.
    destruct (top_parse o E tag body cs it cs' R) as [-> FD1]; [apply small_sized; lia | exact FD|]. cbn [length] in LF. destruct fuel as [|fuel]; [lia|]. cbn [parse_loop].
    destruct (next_chunks_end E true c1 I1 D1) as (c2 & ->). eexists. split; [reflexivity | eexists; reflexivity].
  - subst ok. rewrite app_nil_r. destruct (next_chunks_raw E tag body c T I D) as (c1 & -> & _). rewrite lenN_cons in L.
    pose proof (judged_ends o E tag body cs G ltac:(lia)) as H. rewrite J in H. destruct (packets_parse o E tag body cs) as [x c2]. cbn [fst] in H.
    destruct v; [congruence | destruct H as (e & TE & ->); eexists; split; [reflexivity | exists e; split; [exact TE | reflexivity]] | cbn in H; subst x; eexists; split; reflexivity].
  - subst ok. rewrite app_nil_r. destruct (next_chunks_raw_fails E tag body c T I D) as (c1 & ->). eexists. split; [reflexivity | eexists; split; reflexivity].
  - rewrite app_nil_r. destruct (next_chunks_bad E ok b t c B I D) as (c1 & ->). eexists. split; [reflexivity | eexists; split; reflexivity].
  - rewrite app_nil_r. destruct (next_chunks_cut E ok tag body q x c F Q X I D) as (c1 & ->). destruct ok; eexists; (split; [reflexivity|]); eexists; (split; [|reflexivity]); [right|]; reflexivity.
Qed.

(** Every input has an outcome. *)
Lemma outcome_total o E ok : int_sizes (e_grow E) -> forall n w cs, (length w <= n)%nat -> lenN w < 2 ^ 32 -> exists items v, outcome o E ok cs w items v.
Proof.
  intro G. induction n as [|n IH]; intros w cs LN L; (destruct w as [|h t]; [do 2 eexists; apply out_end|]); [cbn [length] in LN; lia|].
  assert (forall tag b, lenN b < 2 ^ 32 -> (exists it cs', top_reads o E tag b cs it cs') \/ judged E tag b <> Accepted) as TR.
  { intros tag b LB. destruct (judged E tag b) eqn:J; [left; exact (PropShownAll.top_inv o E tag b cs G LB J) | right; discriminate | right; discriminate]. }
  destruct (first_packet (h :: t)) as [[[tag b] rest]|] eqn:FP.
  - destruct (first_packet_sound _ _ _ _ FP) as (w & F & Q). pose proof (framed_longer _ _ _ F) as FL. rewrite Q in *. rewrite lenN_app in L. rewrite app_length in LN.
    destruct (TR tag b ltac:(unfold lenN in *; lia)) as [(it & cs' & R)|NV].
    + destruct (IH rest cs' ltac:(lia) ltac:(lia)) as (items & v & O). do 2 eexists. eapply out_packet; eassumption.
    + do 2 eexists. eapply out_stopped; [exact F | reflexivity | exact NV].
  - destruct (first_packet_none h t FP) as [B|[(tag & T & ->)|(tag & body & x & F & NX & _)]].
    + do 2 eexists. apply out_no_packet, B.
    + rewrite lenN_cons in L. destruct ok.
      * destruct (TR tag t ltac:(lia)) as [(it & cs' & R)|NV]; do 2 eexists; [eapply out_last | eapply out_last_stopped]; eauto.
      * do 2 eexists. apply out_last_failed; [exact T | reflexivity].
    + do 2 eexists. eapply out_cut; [discriminate | exact NX | exact F].
Qed.

Lemma ends_one {A} (r : res A) v v' : ends_as r v -> ends_as r v' -> v = v'.
Proof.
  assert (forall e k k', tells e k -> tells e k' -> k = k') as T by (intros e k k'; destruct e, k, k'; cbn; intuition congruence).
  destruct r as [a|e| |]; destruct v as [|k|], v' as [|k'|]; cbn; intros H H'; try reflexivity; try discriminate;
    repeat match goal with X : exists _, _ |- _ => destruct X as [? X] | X : _ /\ _ |- _ => destruct X end; try discriminate.
  f_equal. eapply T; [|eassumption]. congruence.
Qed.

(** C68.  Whatever a reader delivers before it ends or fails, and in whatever pieces: the items that Parse returns and the way it ends are those of
    the specification, and no others. *)
Theorem C68_outcome : forall (o : opts) (E : env) (c : chunks) (w : bytes) (items : list item) (v : verdict),
  int_sizes (e_grow E) -> Forall (fun p => p <> []) (k_pieces c) -> List.concat (k_pieces c) = w -> lenN w < 2 ^ 32 ->
  ((exists r, parse_chunks o E c = (items, r) /\ ends_as r v) <-> outcome o E (k_ok c) cst_init w items v).
Proof.
  intros o E c w items v G P D L. assert (c_inv (k_ok c) c) as I by (split; [exact P | reflexivity]).
  assert (forall items v, outcome o E (k_ok c) cst_init w items v -> exists r, parse_chunks o E c = (items, r) /\ ends_as r v) as S.
  { intros is u O. destruct (outcome_loop o E (k_ok c) G _ _ _ _ O L four_init (S (length w)) c [] I D ltac:(lia)) as (r & H & EA). exists r. split; [|exact EA].
    unfold parse_chunks. rewrite chunks_len_data. unfold c_data. rewrite D. exact H. }
  split; [|apply S]. intros (r & H & EA). destruct (outcome_total o E (k_ok c) G (length w) w cst_init ltac:(lia) L) as (is & u & O).
  destruct (S _ _ O) as (r' & H' & EA'). rewrite H in H'. injection H' as <- <-. rewrite (ends_one _ _ _ EA EA'). exact O.
Qed.
Print Assumptions C68_outcome.

(** C68.  Every input has one outcome. *)
Theorem C68_total : forall (o : opts) (E : env) (whole : bool) (w : bytes), int_sizes (e_grow E) -> lenN w < 2 ^ 32 ->
  exists items v, outcome o E whole cst_init w items v /\ forall items' v', outcome o E whole cst_init w items' v' -> items' = items /\ v' = v.
Proof.
  intros o E ok w G L. destruct (outcome_total o E ok G (length w) w cst_init ltac:(lia) L) as (items & v & O). exists items, v. split; [exact O|]. intros items' v' O'.
  destruct (PropComp.chunks_of_inv w) as [CI CD]. set (c := mkChunks (k_pieces (chunks_of w true)) ok). assert (Forall (fun p => p <> []) (k_pieces c)) as P by apply CI. assert (List.concat (k_pieces c) = w) as D by exact CD.
  destruct (proj2 (C68_outcome o E c w items v G P D L) O) as (r & H & EA). destruct (proj2 (C68_outcome o E c w items' v' G P D L) O') as (r' & H' & EA').
  rewrite H in H'. injection H' as <- <-. split; [reflexivity | exact (ends_one _ _ _ EA' EA)].
Qed.
Print Assumptions C68_total.

(** ** The source *)

Lemma split_cut a b : ~ In x0a a -> split_lines (a ++ x0a :: b) = a :: split_lines b.
Proof.
  induction a as [|x a IH]; intro N; [reflexivity|]. cbn [app split_lines]. destruct (Byte.eqb x x0a) eqn:Q; [apply byte_eqb_spec in Q; subst x; exfalso; apply N; left; reflexivity|].
  rewrite IH; [reflexivity|]. intro I. apply N. right. exact I.
Qed.
Lemma split_one a : ~ In x0a a -> split_lines a = [a].
Proof.
  induction a as [|x a IH]; intro N; [reflexivity|]. cbn [split_lines]. destruct (Byte.eqb x x0a) eqn:Q; [apply byte_eqb_spec in Q; subst x; exfalso; apply N; left; reflexivity|].
  rewrite IH; [reflexivity|]. intro I. apply N. right. exact I.
Qed.
Lemma first_line l : ~ In x0a l \/ exists a b, l = a ++ x0a :: b /\ ~ In x0a a.
Proof.
  induction l as [|x l [IH|(a & b & -> & N)]]; [left; intros []| |]; (destruct (Byte.eqb x x0a) eqn:Q; [apply byte_eqb_spec in Q; subst x; right; exists []; eexists; split; [reflexivity | intros []]|]).
  - left. intros [->|I]; [discriminate Q | exact (IH I)].
  - right. exists (x :: a), b. split; [reflexivity|]. intros [->|I]; [discriminate Q | exact (N I)].
Qed.
Lemma long_line_at n : forall l, (length l <= n)%nat -> ~ short_lines l -> exists kept, line_too_long l kept.
Proof.
  assert (forall run rest : bytes, ~ In x0a run -> ~ lenN run < 65536 -> exists kept, line_too_long (run ++ rest) kept) as HERE.
  { intros run rest N L. assert (exists k, N.of_nat k = 65536) as [k K] by (exists (N.to_nat 65536); apply N2Nat.id). exists ([] ++ firstn k run).
    replace (run ++ rest) with ([] ++ firstn k run ++ skipn k run ++ rest) by (cbn [app]; rewrite app_assoc, firstn_skipn; reflexivity).
    apply too_long; [constructor; [reflexivity | constructor] | left; reflexivity | |].
    - intro I. apply N. rewrite <- (firstn_skipn k run). apply in_or_app. left. exact I.
    - unfold lenN in *. rewrite firstn_length. lia. }
  induction n as [|n IH]; intros l LN NS.
  - destruct l; [|cbn [length] in LN; lia]. exfalso. apply NS. constructor; [reflexivity | constructor].
  - destruct (first_line l) as [N|(a & b & -> & N)].
    + rewrite <- (app_nil_r l). apply HERE; [exact N|]. intro L. apply NS. unfold short_lines. rewrite split_one by exact N. constructor; [exact L | constructor].
    + destruct (N.ltb_spec (lenN a) 65536) as [L|L]; [|apply HERE; [exact N | lia]].
      destruct (IH b) as (kept & K); [rewrite app_length in LN; cbn [length] in LN; lia | | ].
      * intro S. apply NS. unfold short_lines. rewrite split_cut by exact N. constructor; [exact L | exact S].
      * destruct K as [first run rest S EF NR LR]. exists ((a ++ x0a :: first) ++ run).
        replace (a ++ x0a :: first ++ run ++ rest) with ((a ++ x0a :: first) ++ run ++ rest) by (rewrite <- app_assoc; reflexivity). apply too_long; [| | exact NR | exact LR].
        -- unfold short_lines. rewrite split_cut by exact N. constructor; [exact L | exact S].
        -- right. destruct EF as [->|[f ->]]; [exists a; reflexivity | exists (a ++ x0a :: f); rewrite <- app_assoc; reflexivity].
Qed.

Lemma scan_through l : forall cur n pos X, n = lenN cur -> Forall ArmorL.shortp (ArmorL.push cur (split_lines (l ++ [x0a]))) ->
  exists ls, scan_lines (l ++ x0a :: X) cur n pos = (ls, snd (scan_lines X [] 0 (pos + lenN l + 1))).
Proof.
  induction l as [|b l IH]; intros cur n pos X -> F.
  - cbn [app scan_lines]. change (Byte.eqb x0a x0a) with true. cbv iota. change (lenN []) with 0. rewrite N.add_0_r. destruct (scan_lines X [] 0 (pos + 1)) as [ls e]. eexists. reflexivity.
  - cbn [app scan_lines]. cbn [app] in F. rewrite lenN_cons. destruct (Byte.eqb b x0a) eqn:Q.
    + cbn [split_lines] in F. rewrite Q in F. cbn [ArmorL.push] in F. inversion_clear F as [|? ? F1 F2].
      destruct (IH [] 0 (pos + 1) X eq_refl) as (ls & ->); [rewrite ArmorL.push_nil; exact F2|]. replace (pos + 1 + lenN l + 1) with (pos + (1 + lenN l) + 1) by lia. eexists. reflexivity.
    + rewrite ArmorL.push_cons in F by exact Q.
      assert (lenN (b :: cur) < 65536) as B.
      { pose proof (ArmorL.split_lines_ne (l ++ [x0a])). destruct (split_lines (l ++ [x0a])) as [|h r]; [congruence|]. cbn [ArmorL.push] in F.
        inversion_clear F as [|? ? F1 F2]. unfold ArmorL.shortp, lenN in F1. unfold lenN. cbn [rev] in F1. rewrite !app_length, rev_length in F1. cbn [length] in *. lia. }
      rewrite lenN_cons in B. unfold max_token. replace (lenN cur + 1 =? 65536) with false by lia.
      destruct (IH (b :: cur) (lenN cur + 1) (pos + 1) X) as (ls & ->); [rewrite lenN_cons; lia | exact F|]. replace (pos + 1 + lenN l + 1) with (pos + (1 + lenN l) + 1) by lia. eexists. reflexivity.
Qed.
Lemma long_scanned l kept : line_too_long l kept -> exists ls n, scan_lines l [] 0 0 = (ls, Some n) /\ firstn (N.to_nat n) l = kept.
Proof.
  intros [first run rest S EF NR LR]. assert (run <> []) as NE by (intros ->; discriminate LR).
  assert (exists ls, scan_lines (first ++ run ++ rest) [] 0 0 = (ls, Some (lenN first + 65536))) as [ls H].
  { destruct EF as [->|[f ->]].
    - eexists. cbn [app]. rewrite (ArmorL.scan_lines_run run [] 0 0 rest eq_refl NR LR NE), LR. reflexivity.
    - rewrite <- app_assoc. cbn [app]. destruct (scan_through f [] 0 0 (run ++ rest) eq_refl) as (ls & ->); [rewrite ArmorL.push_nil; exact S|].
      rewrite (ArmorL.scan_lines_run run [] 0 _ rest eq_refl NR LR NE), LR. rewrite lenN_app. cbn [snd]. eexists. reflexivity. }
  exists ls, (lenN first + 65536). split; [exact H|]. rewrite <- LR, <- lenN_app, app_assoc. unfold lenN. rewrite Nat2N.id, firstn_app, Nat.sub_diag, firstn_all. cbn [firstn]. apply app_nil_r.
Qed.
Lemma short_dec l : short_lines l \/ ~ short_lines l.
Proof.
  destruct (forallb (fun p => lenN p <? 65536) (split_lines l)) eqn:Q; [left; exact (short_lines_by l Q)|]. right. intro S.
  enough (forallb (fun p => lenN p <? 65536) (split_lines l) = true) by congruence. apply forallb_forall. intros p I. unfold short_lines in S. rewrite Forall_forall in S. specialize (S p I). lia.
Qed.

(** Whatever a source delivers, it gives the octets of packets, or nothing. *)
Lemma gives_total o E src : exists g, gives o E src g.
Proof.
  assert (forall k, no_armor E src k -> exists g, gives o E src g) as NA.
  { intros k N. destruct (oArmor o) eqn:OA; [eexists; eapply gives_nothing; eassumption|].
    destruct (short_dec (st_data src)) as [S|NS]; [eexists; eapply gives_itself; eassumption|].
    destruct (long_line_at _ _ (le_n _) NS) as (kept & K). eexists. eapply gives_beginning; eassumption. }
  destruct (short_dec (st_data src)) as [S|NS]; [|eapply NA, long_line, NS].
  destruct src as [data [|]]; cbn [st_data] in *; [|eapply NA, source_fails; [exact S | reflexivity]].
  destruct (ArmorL.arm_cases (lines_of data)) as [[block B]|[NX _]]; [|eapply NA, no_block; [exact S | reflexivity | intros block B; apply NX; eauto]].
  destruct (e_armor E (unlines block)) as [[ps ok]|] eqn:EA; [eexists; eapply gives_block; eassumption|].
  eapply NA, not_opened; [exact S | reflexivity | exact B | exact EA].
Qed.
Lemma no_armor_error E src k : no_armor E src k -> exists e, tells e k /\ new_reader_armor E src = RErr e.
Proof.
  intro N. unfold new_reader_armor. destruct src as [data ok]. destruct N as [NS | S OK | S OK NB | block S OK B EA]; cbn [st_data st_ok] in *; subst.
  - destruct (long_line_at _ _ (le_n _) NS) as (kept & K). destruct (long_scanned _ _ K) as (ls & n & H & _). unfold armtext_get. cbn [st_data]. rewrite H. eexists. split; reflexivity.
  - unfold armtext_get. cbn [st_data st_ok]. rewrite ArmorL.scan_lines_of by exact S. cbn [negb]. eexists. split; reflexivity.
  - rewrite (ArmorL.armtext_none data S). 1: eexists; split; reflexivity. intros [block B]. exact (NB block B).
  - rewrite (ArmorL.armtext_block data block S B), EA. eexists. split; reflexivity.
Qed.
Lemma gives_parse o E src w whole : gives o E src (inl (w, whole)) ->
  exists c, Forall (fun p => p <> []) (k_pieces c) /\ List.concat (k_pieces c) = w /\ k_ok c = whole /\ parse_stream o E src = parse_chunks o E c.
Proof.
  intro H. inversion H as [data block ps ok S B EA | src' k OA N S | src' kept OA K |]; subst.
  - exists (mkChunks (filter (fun p => negb (is_nil p)) ps) whole). destruct (StreamL.filter_pieces ps) as [F1 F2]. split; [exact F1|]. split; [exact F2|]. split; [reflexivity|].
    unfold parse_stream, parse_new, new_reader_armor. rewrite (ArmorL.armtext_block data block S B), EA. destruct (oArmor o); reflexivity.
  - exists (chunks_of (st_data src) true). destruct (PropComp.chunks_of_inv (st_data src)) as [[CI CK] CD]. split; [exact CI|]. split; [exact CD|]. split; [exact CK|].
    unfold parse_stream, parse_new. rewrite OA. destruct (no_armor_error E src k N) as (e & _ & ->). unfold scanned. rewrite ArmorL.scan_lines_of by exact S. reflexivity.
  - exists (chunks_of w true). destruct (PropComp.chunks_of_inv w) as [[CI CK] CD]. split; [exact CI|]. split; [exact CD|]. split; [exact CK|].
    destruct (long_scanned _ _ K) as (ls & n & Q & KN). unfold parse_stream, parse_new, new_reader_armor, armtext_get, scanned. rewrite OA, Q, KN. reflexivity.
Qed.
Lemma gives_short o E src w whole : decodes_armor E -> gives o E src (inl (w, whole)) -> (length w <= S (length (st_data src)))%nat.
Proof.
  intros DA H. inversion H as [data block ps ok S B EA | src' k OA N S | src' kept OA K |]; subst.
  - pose proof (StreamL.armtext_len _ _ (ArmorL.armtext_block data block S B)) as LT. cbn [st_data] in *. destruct (DA (unlines block)) as (cuts & Q). rewrite EA in Q. apply armor_decode_len in Q. lia.
  - lia.
  - inversion K as [first run rest S EF NR LR Q1 Q2]. subst. rewrite !app_length. lia.
Qed.

(** C68.  The same for New and Parse on any source: armored text or not, with lines of any length, a source that ends or fails, and whatever damage
    there is in the armor or in the packets. *)
Theorem C68_source : forall (o : opts) (E : env) (src : stream) (items : list item) (v : verdict),
  int_sizes (e_grow E) -> decodes_armor E -> lenN (st_data src) < 2 ^ 32 - 1 ->
  ((exists r, parse_stream o E src = (items, r) /\ ends_as r v) <-> source_outcome o E src items v).
Proof.
  intros o E src items v G DA L.
  assert (forall items v, source_outcome o E src items v -> exists r, parse_stream o E src = (items, r) /\ ends_as r v) as S.
  { intros is u [w whole is' u' GV O | k GV].
    - destruct (gives_parse _ _ _ _ _ GV) as (c & P & D & K & ->). subst whole. apply (C68_outcome o E c w is' u' G P D); [|exact O].
      pose proof (gives_short _ _ _ _ _ DA GV). unfold lenN in *. lia.
    - inversion GV as [| | | src' k' OA N]; subst. unfold parse_stream, parse_new. rewrite OA. destruct (no_armor_error E src k N) as (e & T & ->). eexists. split; [reflexivity | exists e; split; [exact T | reflexivity]]. }
  split; [|apply S]. intros (r & H & EA).
  assert (exists is u, source_outcome o E src is u) as (is & u & O).
  { destruct (gives_total o E src) as [[[w whole]|k] GV]; [|do 2 eexists; apply source_gives_nothing, GV].
    destruct (outcome_total o E whole G (length w) w cst_init ltac:(lia)) as (is & u & O); [pose proof (gives_short _ _ _ _ _ DA GV); unfold lenN in *; lia|]. do 2 eexists. eapply source_gives; eassumption. }
  destruct (S _ _ O) as (r' & H' & EA'). rewrite H in H'. injection H' as <- <-. rewrite (ends_one _ _ _ EA EA'). exact O.
Qed.
Print Assumptions C68_source.

(** ** Examples *)

(** A user ID, a one-pass signature packet with one octet only, and octets behind it that are not looked at: the user ID is shown, then the parse is rejected.
    The reader delivers them in pieces, and fails behind them. *)
Example C68_outcome_used : exists it,
  outcome Witness.o_plain Witness.env0 false cst_init ([xcd; x01; x61] ++ [xc4; x01; x00] ++ [x07]) [it] (Rejected Ends_early) /\
  exists e, tells e Ends_early /\ parse_chunks Witness.o_plain Witness.env0 (mkChunks [[xcd; x01]; [x61; xc4; x01; x00]; [x07]] false) = ([it], RErr e).
Proof.
  assert (int_sizes (e_grow Witness.env0)) as G by apply PropAccept.C63_packet_used.
  destruct (PropShownAll.top_inv Witness.o_plain Witness.env0 13 [x61] cst_init G eq_refl) as (it & cs' & R); [vm_compute; reflexivity|]. exists it.
  assert (outcome Witness.o_plain Witness.env0 false cst_init ([xcd; x01; x61] ++ [xc4; x01; x00] ++ [x07]) [it] (Rejected Ends_early)) as O.
  { apply (out_packet _ _ _ 13 [x61] [xcd; x01; x61] ([xc4; x01; x00] ++ [x07]) it [] (Rejected Ends_early) cst_init cs').
    - apply (new_format 13 [x61] [x01; x61]); [reflexivity|]. apply (part_last [x61] [x01]). apply (len_one 1). reflexivity.
    - exact R.
    - apply (out_stopped _ _ _ 4 [x00] [xc4; x01; x00]); [apply (new_format 4 [x00] [x01; x00]); [reflexivity|]; apply (part_last [x00] [x01]); apply (len_one 1); reflexivity | vm_compute; reflexivity | discriminate]. }
  split; [exact O|]. apply (proj2 (C68_outcome Witness.o_plain Witness.env0 (mkChunks [[xcd; x01]; [x61; xc4; x01; x00]; [x07]] false) _ [it] (Rejected Ends_early) G ltac:(repeat constructor; discriminate) eq_refl eq_refl)) in O as (r & P & e & T & ->).
  exists e. split; [exact T | exact P].
Qed.
(** A marker packet with 65540 octets and no line feed: only the first 64 KiB are kept, so that the packet has no end. *)
Example C68_source_used : exists kept,
  gives Witness.o_plain env_armor (mkStream long_packet true) (inl (kept, true)) /\ lenN kept = 65536 /\ decodes_armor env_armor /\ lenN (st_data (mkStream long_packet true)) < 2 ^ 32 - 1 /\
  source_outcome Witness.o_plain env_armor (mkStream long_packet true) [] (Rejected Ends_early).
Proof.
  assert (int_sizes (e_grow env_armor)) as G by apply PropAccept.C63_packet_used. pose proof decodes_armor_used as DA.
  assert (lenN long_packet = 65546) as LL by (vm_compute; reflexivity).
  assert (exists run rest, long_packet = run ++ rest /\ lenN run = 65536 /\ ~ In x0a run /\ exists e, tells e Ends_early /\ parse_chunks Witness.o_plain env_armor (chunks_of run true) = ([], RErr e)) as (run & rest & Q & LR & NR & e & TE & P).
  { exists (firstn (N.to_nat 65536) long_packet), (skipn (N.to_nat 65536) long_packet). split; [symmetry; apply firstn_skipn|]. split; [vm_compute; reflexivity|]. split.
    - intro I. assert (existsb (Byte.eqb x0a) (firstn (N.to_nat 65536) long_packet) = true) as X by (apply existsb_exists; exists x0a; split; [exact I | reflexivity]). vm_compute in X. discriminate.
    - exists EUnexp. split; [right; reflexivity | vm_compute; reflexivity]. }
  assert (forall d, d = run ++ rest -> parse_stream Witness.o_plain env_armor (mkStream d true) = ([], RErr e)) as X
    by (intros d ->; exact (eq_trans (C43_rest_is_lost Witness.o_plain env_armor run rest eq_refl LR NR) P)).
  exists run. split; [apply gives_beginning; [reflexivity|]; cbn [st_data]; rewrite Q; apply (too_long [] run rest); [constructor; [reflexivity | constructor] | left; reflexivity | exact NR | exact LR]|].
  split; [exact LR|]. split; [exact DA|]. split; [cbn [st_data]; rewrite LL; reflexivity|].
  apply (C68_source _ _ _ _ _ G DA); [cbn [st_data]; rewrite LL; reflexivity|]. exists (RErr e). split; [|exists e; split; [exact TE | reflexivity]].
  exact (X long_packet Q).
Qed.
