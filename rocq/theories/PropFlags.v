(** * PropFlags: flags are shown completely (C29). *)
From Coq Require Import Strings.String Strings.Byte List NArith ZArith Bool Lia ZifyBool ZifyN ZifyNat.
From Verif Require Import Base BaseL SpecBase Item Reader ReaderL Context Env Time Values Opaque Monad MonadL Subs Tags SubParse.
From Verif Require Import SpecText SpecValues ValuesL SpecPacket PacketL SpecFrame SpecNest SpecSub SpecSubs SpecParse SubsL PropSub Witness.
Import ListNotations.
Local Open Scope N_scope.

(** ** The lines of one octet tell the octet *)
Definition same_line (i j : item) : bool := beqs (i_name i) (i_name j) && beqs (i_value i) (i_value j).
Fixpoint same_lines (l m : list item) : bool :=
  match l, m with [], [] => true | i :: l, j :: m => same_line i j && same_lines l m | _, _ => false end.
Lemma same_lines_refl l : same_lines l l = true.
Proof. induction l as [|i l IH]; [reflexivity|]. cbn. unfold same_line. rewrite !(proj2 (beqs_spec _ _) eq_refl), IH. reflexivity. Qed.
Definition tells (defs : flag_defs) (k : N) : bool :=
  forallb (fun b => forallb (fun c => implb (same_lines (flag_lines defs k b) (flag_lines defs k c)) (Byte.eqb b c)) all_bytes) all_bytes.
Lemma tells_spec defs k : tells defs k = true -> forall b c, flag_lines defs k b = flag_lines defs k c -> b = c.
Proof.
  intros T b c E. pose proof (byte_all _ (byte_all _ T b) c) as H. cbv beta in H. rewrite E, same_lines_refl in H. apply byte_eqb_spec. exact H.
Qed.

(** ** Lines of octets without meaning *)
Lemma app_eq_both {A} (a : list A) : forall b a' b', a ++ b = a' ++ b' -> length b = length b' -> a = a' /\ b = b'.
Proof.
  induction a as [|x a IH]; intros b [|y a'] b' H L; cbn [app] in H.
  - auto.
  - subst b. cbn [length] in L. rewrite app_length in L. lia.
  - subst b'. cbn [length] in L. rewrite app_length in L. lia.
  - inversion H; subst. destruct (IH b a' b' H2 L) as [-> ->]. auto.
Qed.
Lemma two_hex_inj b c : two_hex b = two_hex c -> b = c.
Proof. rewrite <- !hex2_two_hex. intro H. assert (hexdump [b] = hexdump [c]) as K by (unfold hexdump; cbn [hexdump_from]; rewrite H; reflexivity). apply hexdump_inj in K. congruence. Qed.
Lemma flag_text_inj k b k' b' : flag_text k (b2n b) None = flag_text k' (b2n b') None -> k = k' /\ b = b'.
Proof.
  unfold flag_text. rewrite !n2b_b2n. intro H. apply app_inv_head in H.
  destruct (app_eq_both _ _ _ _ H eq_refl) as [D T].
  split; [apply dec_inj, D|]. apply app_inv_head in T. apply app_inv_tail in T. apply two_hex_inj. exact T.
Qed.
Lemma line_alone k b : flag_lines [(0xff, None)] k b = if b2n b =? 0 then [] else [flag_shown (flag_text k (b2n b) None)].
Proof.
  unfold flag_lines. cbn [flat_map fst snd]. replace (N.land (b2n b) 255) with (b2n b).
  - rewrite app_nil_r. reflexivity.
  - change 255 with (N.ones 8). rewrite N.land_ones. symmetry. apply N.mod_small, (b2n_lt b).
Qed.
Lemma more_label l : forall k i, In i (more_lines k l) -> exists j b, k <= j /\ i = flag_shown (flag_text j (b2n b) None).
Proof.
  induction l as [|b l IH]; intros k i H; [destruct H|]. cbn [more_lines] in H. rewrite line_alone in H. apply in_app_or in H. destruct H as [H|H].
  - destruct (b2n b =? 0); [destruct H|]. destruct H as [<-|[]]. exists k, b. split; [lia | reflexivity].
  - destruct (IH _ _ H) as (j & c & L & ->). exists j, c. split; [lia | reflexivity].
Qed.
Lemma flag_shown_inj t t' : flag_shown t = flag_shown t' -> t = t'.
Proof. unfold flag_shown. congruence. Qed.
Lemma more_inj l : forall l' k, length l = length l' -> more_lines k l = more_lines k l' -> l = l'.
Proof.
  induction l as [|b l IH]; intros [|b' l'] k L H; try discriminate L; [reflexivity|]. injection L as L.
  cbn [more_lines] in H. rewrite !line_alone in H.
  destruct (b2n b =? 0) eqn:Z, (b2n b' =? 0) eqn:Z'; cbn [app] in H.
  - f_equal; [apply b2n_inj; lia | exact (IH _ _ L H)].
  - exfalso. destruct (more_label l (k + 1) (flag_shown (flag_text k (b2n b') None))) as (j & c & G & J); [rewrite H; left; reflexivity|].
    apply flag_shown_inj, flag_text_inj in J. lia.
  - exfalso. destruct (more_label l' (k + 1) (flag_shown (flag_text k (b2n b) None))) as (j & c & G & J); [rewrite <- H; left; reflexivity|].
    apply flag_shown_inj, flag_text_inj in J. lia.
  - assert (flag_shown (flag_text k (b2n b) None) = flag_shown (flag_text k (b2n b') None)) as J by congruence.
    assert (more_lines (k + 1) l = more_lines (k + 1) l') as K by congruence.
    apply flag_shown_inj, flag_text_inj in J. destruct J as [_ ->]. f_equal. exact (IH _ _ L K).
Qed.

(** ** The first octet and the others *)
Lemma split_kinds {A} (P : A -> Prop) (a : list A) : forall b a' b', a ++ b = a' ++ b' -> (forall x, In x a -> P x) -> (forall x, In x a' -> P x) ->
  (forall x, In x b -> ~ P x) -> (forall x, In x b' -> ~ P x) -> a = a' /\ b = b'.
Proof.
  induction a as [|x a IH]; intros b [|y a'] b' H P1 P2 P3 P4; cbn [app] in H.
  - auto.
  - exfalso. apply (P3 y); [rewrite H; left; reflexivity | apply P2; left; reflexivity].
  - exfalso. apply (P4 x); [rewrite <- H; left; reflexivity | apply P1; left; reflexivity].
  - assert (x = y) as -> by congruence. assert (a ++ b = a' ++ b') as K by congruence.
    destruct (IH b a' b' K) as [-> ->]; auto; intros z I; [apply P1 | apply P2]; right; exact I.
Qed.
(** Meanings do not begin like the text for unknown flags. *)
Definition no_clash (defs : flag_defs) : bool :=
  forallb (fun d => match snd d with Some s => negb (beqs (firstn 12 (str s)) (str "Unknown flag")) | None => true end) defs.
Lemma of_first defs k b i : In i (flag_lines defs k b) ->
  exists d, In d defs /\ i = flag_shown (flag_text k (N.land (b2n b) (fst d)) (snd d)).
Proof.
  unfold flag_lines. intro H. apply in_flat_map in H. destruct H as (d & I & H). exists d. split; [exact I|].
  destruct (N.land (b2n b) (fst d) =? 0); [destruct H|]. destruct H as [<-|[]]. reflexivity.
Qed.
Lemma land_byte b m : N.land (b2n b) m < 256.
Proof.
  destruct (N.eq_dec (N.land (b2n b) m) 0) as [->|Z]; [reflexivity|].
  apply N.log2_lt_pow2 with (b := 8); [lia|]. pose proof (N.log2_land (b2n b) m).
  destruct (N.eq_dec (b2n b) 0) as [K|K]; [rewrite K in Z; cbn in Z; congruence|].
  pose proof (proj1 (N.log2_lt_pow2 (b2n b) 8 ltac:(lia)) (b2n_lt b)). lia.
Qed.
Definition labelled (k : N) (i : item) : Prop := exists b, i = flag_shown (flag_text k (b2n b) None).
Lemma first_or_more defs k b i j c : no_clash defs = true -> k < j -> In i (flag_lines defs k b) -> i <> flag_shown (flag_text j (b2n c) None).
Proof.
  intros N L H E. destruct (of_first _ _ _ _ H) as ([m s] & I & ->). cbn [fst snd] in E. apply flag_shown_inj in E. destruct s as [s|].
  - unfold no_clash in N. rewrite forallb_forall in N. specialize (N _ I). cbn [snd] in N. change (flag_text k (N.land (b2n b) m) (Some s)) with (str s) in E. rewrite E in N.
    discriminate N.
  - rewrite <- (b2n_n2b_small (N.land (b2n b) m) (land_byte b m)) in E. apply flag_text_inj in E. lia.
Qed.
Lemma flags_inj defs b b' r r' : no_clash defs = true -> tells defs 1 = true -> length r = length r' ->
  flag_lines defs 1 b ++ more_lines 2 r = flag_lines defs 1 b' ++ more_lines 2 r' -> b = b' /\ r = r'.
Proof.
  intros N T L H. destruct (split_kinds (fun i => forall j c, 2 <= j -> i <> flag_shown (flag_text j (b2n c) None)) _ _ _ _ H) as [A B].
  - intros i I j c J. apply (first_or_more defs 1 b); [exact N | lia | exact I].
  - intros i I j c J. apply (first_or_more defs 1 b'); [exact N | lia | exact I].
  - intros i I K. destruct (more_label _ _ _ I) as (j & c & J & ->). exact (K j c J eq_refl).
  - intros i I K. destruct (more_label _ _ _ I) as (j & c & J & ->). exact (K j c J eq_refl).
  - split; [exact (tells_spec _ _ T _ _ A) | exact (more_inj _ _ _ L B)].
Qed.
Lemma note_inj (a b : bytes) : bytes_note (lenN a) = bytes_note (lenN b) -> length a = length b.
Proof. unfold bytes_note. intro H. apply app_inv_tail, dec_inj in H. unfold lenN in H. lia. Qed.

(** What a flags sub-packet shows when it is accepted. *)
Lemma shown_of o E ty body cs it cs' n : parse_sub o E 2 ty body cs = (ROk it, cs') -> sized body -> fields_need ty body = n -> 
  In (sub_type ty) sub_types -> sub_type ty <> 32 -> sub_type ty <> 38 -> n <= lenN body /\ sub_reads o E ty cs body it cs'.
Proof.
  intros H L <- I N1 N2. destruct (N.le_gt_cases (fields_need ty body) (lenN body)) as [G|G].
  - destruct (C50_only_then o E ty body cs I N1 N2 G) as (i & c & R). split; [exact G|]. pose proof (C49_content _ _ _ _ _ _ _ R L) as K. rewrite H in K. congruence.
  - destruct (C50_too_short o E ty body cs G L) as (e & K & _). rewrite H in K. discriminate K.
Qed.

Lemma parts_inj o ty b l b' l' : sub_shown o ty b l = sub_shown o ty b' l' -> length b = length b' /\ l = l'.
Proof. intro H. split; [|unfold sub_shown in H; congruence]. apply note_inj. unfold sub_shown in H. congruence. Qed.

(** ** C29 *)
(** C29.  Key server preferences (23) and features (30): two sub-packets that are shown alike are the same, so the
    items tell every bit of every octet. *)
Theorem C29_flags_tell : forall o E ty a b cs ca cb it, sub_type ty = 23 \/ sub_type ty = 30 -> sized a -> sized b ->
  parse_sub o E 2 ty a cs = (ROk it, ca) -> parse_sub o E 2 ty b cs = (ROk it, cb) -> a = b.
Proof.
  intros o E ty a b cs ca cb it T LA LB PA PB.
  assert (In (sub_type ty) sub_types /\ sub_type ty <> 32 /\ sub_type ty <> 38) as (I & N1 & N2) by (destruct T as [-> | ->]; cbn; intuition discriminate).
  destruct (shown_of _ _ _ _ _ _ _ _ PA LA eq_refl I N1 N2) as [_ RA]. destruct (shown_of _ _ _ _ _ _ _ _ PB LB eq_refl I N1 N2) as [_ RB].
  assert (exists defs, no_clash defs = true /\ tells defs 1 = true /\
    forall body cs', sub_reads o E ty cs body it cs' -> exists x r, body = x :: r /\ it = sub_shown o ty body (flag_lines defs 1 x ++ more_lines 2 r)) as (defs & N & D & S).
  { destruct T as [T|T]; [exists keyserver1 | exists features1]; (split; [vm_compute; reflexivity|]); (split; [vm_compute; reflexivity|]);
      intros body cs' R; destruct R; try (repeat destruct H as [H|H]; congruence); eauto. }
  destruct (S _ _ RA) as (x & r & -> & EA). destruct (S _ _ RB) as (y & r' & -> & EB).
  rewrite EA in EB. apply parts_inj in EB. destruct EB as [LL EB]. injection LL as LL. destruct (flags_inj defs x y r r' N D LL EB) as [-> ->]. reflexivity.
Qed.
Print Assumptions C29_flags_tell.

(** Key flags: the same if there are at most two octets; the first octet is always told. *)
Theorem C29_key_flags_partial : forall o E ty a b cs ca cb it, sub_type ty = 27 -> sized a -> sized b ->
  parse_sub o E 2 ty a cs = (ROk it, ca) -> parse_sub o E 2 ty b cs = (ROk it, cb) ->
  length a = length b /\ firstn 1 a = firstn 1 b /\ ((length a <= 2)%nat -> a = b).
Proof.
  intros o E ty a b cs ca cb it T LA LB PA PB.
  assert (In (sub_type ty) sub_types /\ sub_type ty <> 32 /\ sub_type ty <> 38) as (I & N1 & N2) by (rewrite T; cbn; intuition discriminate).
  destruct (shown_of _ _ _ _ _ _ _ _ PA LA eq_refl I N1 N2) as [_ RA]. destruct (shown_of _ _ _ _ _ _ _ _ PB LB eq_refl I N1 N2) as [_ RB].
  assert (no_clash key_flags1 = true) as NC by (vm_compute; reflexivity).
  assert (tells key_flags1 1 = true) as D1 by (vm_compute; reflexivity). assert (tells key_flags2 2 = true) as D2 by (vm_compute; reflexivity).
  assert (forall body cs', sub_reads o E ty cs body it cs' -> exists x, (body = [x] /\ it = sub_shown o ty body (flag_lines key_flags1 1 x)) \/
    exists y r, body = x :: y :: r /\ it = sub_shown o ty body (flag_lines key_flags1 1 x ++ flag_lines key_flags2 2 y ++ more_lines 2 r)) as S.
  { intros body cs' R. destruct R; try (repeat destruct H as [H|H]; congruence); eauto 8. }
  (* lines that only the first octet gives *)
  pose (P := fun i => i = flag_shown (flag_text 1 0x40 None) \/ exists m s, In (m, Some s) key_flags1 /\ i = flag_shown (str s)).
  assert (forall x i, In i (flag_lines key_flags1 1 x) -> P i) as F1.
  { intros x i J. pose proof J as J'. destruct (of_first _ _ _ _ J) as ([m s] & K & E1). cbn [fst snd] in E1. destruct s as [s|]; [right; eauto|]. left. rewrite E1.
    cbn [key_flags1 In] in K. repeat destruct K as [K|K]; try discriminate K; try (destruct K; fail). injection K as <-.
    destruct (N.testbit (b2n x) 6) eqn:B6.
    - f_equal. f_equal. change 64 with (2 ^ 6). apply N.bits_inj. intro n. rewrite N.land_spec, N.pow2_bits_eqb. destruct (N.eqb_spec 6 n) as [<-|]; [rewrite B6; reflexivity | apply andb_false_r].
    - exfalso. assert (N.land (b2n x) 64 = 0) as Z.
      { change 64 with (2 ^ 6). apply N.bits_inj. intro n. rewrite N.land_spec, N.pow2_bits_eqb. destruct (N.eqb_spec 6 n) as [<-|]; [rewrite B6; reflexivity | apply andb_false_r]. }
      rewrite Z in E1. subst i. unfold flag_lines in J'. apply in_flat_map in J'. destruct J' as ([m s] & K & J'). cbn [fst snd] in J'.
      destruct (N.land (b2n x) m =? 0) eqn:Z0; [destruct J'|]. destruct J' as [J'|[]].
      cbn [key_flags1 In] in K. repeat destruct K as [K|K]; try (destruct K; fail); injection K as <- <-; try (rewrite Z in Z0; discriminate Z0); discriminate J'. }
  assert (forall y r i, In i (flag_lines key_flags2 2 y ++ more_lines 2 r) -> ~ P i) as F2.
  { intros y r i J K. apply in_app_or in J. destruct J as [J|J].
    - destruct (of_first _ _ _ _ J) as ([m s] & M & ->). cbn [fst snd] in K. destruct K as [K|(m' & s' & M' & K)]; apply flag_shown_inj in K.
      + cbn [key_flags2 In] in M. repeat destruct M as [M|M]; try (destruct M; fail); injection M as <- <-; discriminate K.
      + cbn [key_flags2 In] in M. cbn [key_flags1 In] in M'.
        repeat destruct M as [M|M]; try (destruct M; fail); injection M as <- <-; repeat destruct M' as [M'|M']; try discriminate M'; try (destruct M'; fail); injection M' as <- <-; discriminate K.
    - destruct (more_label _ _ _ J) as (j & c & G & ->). destruct K as [K|(m' & s' & M' & K)]; apply flag_shown_inj in K.
      + change 64 with (b2n x40) in K. apply flag_text_inj in K. lia.
      + cbn [key_flags1 In] in M'. repeat destruct M' as [M'|M']; try discriminate M'; try (destruct M'; fail); injection M' as <- <-; discriminate K. }
  destruct (S _ _ RA) as (x & [(-> & EA)|(y & r & -> & EA)]), (S _ _ RB) as (x' & [(-> & EB)|(y' & r' & -> & EB)]); rewrite EA in EB; apply parts_inj in EB; destruct EB as [LL EB]; try discriminate LL.
  - rewrite (tells_spec _ _ D1 _ _ EB). auto.
  - destruct (split_kinds P _ _ _ _ EB (F1 x) (F1 x') (F2 y r) (F2 y' r')) as [E1 E2]. apply (tells_spec _ _ D1) in E1. subst x'.
    split; [exact LL|]. split; [reflexivity|]. intro G. cbn [length] in G, LL. destruct r, r'; cbn [length] in G, LL; try lia.
    cbn [more_lines] in E2. rewrite !app_nil_r in E2. apply (tells_spec _ _ D2) in E2. subst y'. reflexivity.
Qed.
Print Assumptions C29_key_flags_partial.
(** From the third octet on this fails: the third is labelled like the second. *)
Theorem C29_refuted : exists a b it, a <> b /\
  parse_sub o_plain env0 2 x1b a cst_init = (ROk it, cst_init) /\ parse_sub o_plain env0 2 x1b b cst_init = (ROk it, cst_init).
Proof. exists [x00; x01; x00], [x00; x00; x01]. eexists. split; [discriminate|]. split; vm_compute; reflexivity. Qed.
Print Assumptions C29_refuted.

(** The flags of a notation: the items tell the four octets. *)
Theorem C29_notation_tell : forall o E ty a b cs ca cb it, sub_type ty = 20 -> sized a -> sized b ->
  parse_sub o E 2 ty a cs = (ROk it, ca) -> parse_sub o E 2 ty b cs = (ROk it, cb) -> firstn 4 a = firstn 4 b.
Proof.
  intros o E ty a b cs ca cb it T LA LB PA PB.
  assert (In (sub_type ty) sub_types /\ sub_type ty <> 32 /\ sub_type ty <> 38) as (I & N1 & N2) by (rewrite T; cbn; intuition discriminate).
  destruct (shown_of _ _ _ _ _ _ _ _ PA LA eq_refl I N1 N2) as [_ RA]. destruct (shown_of _ _ _ _ _ _ _ _ PB LB eq_refl I N1 N2) as [_ RB].
  assert (forall body cs', sub_reads o E ty cs body it cs' -> exists f0 f1 f2 f3 i j, firstn 4 body = [f0; f1; f2; f3] /\
    it = sub_shown o ty body (notation_flags f0 f1 f2 f3 ++ [i; j]) /\ i_name i = str "Name" /\ i_name j = str "Value") as S.
  { intros body cs' R. destruct R; try (repeat destruct H as [H|H]; congruence). exists f0, f1, f2, f3, itn, itv. split; [reflexivity|]. split; [reflexivity|].
    split; [destruct H2; reflexivity|]. unfold notation_value in H3. destruct (N.testbit (b2n f0) 7); [destruct H3|subst itv]; reflexivity. }
  destruct (S _ _ RA) as (f0 & f1 & f2 & f3 & i & j & -> & EA & NI & NJ). destruct (S _ _ RB) as (g0 & g1 & g2 & g3 & i' & j' & -> & EB & NI' & NJ').
  rewrite EA in EB. apply parts_inj in EB. destruct EB as [_ EB].
  assert (forall h0 h1 h2 h3 x, In x (notation_flags h0 h1 h2 h3) -> i_name x = str "Flag") as F.
  { intros h0 h1 h2 h3 x J. unfold notation_flags in J. apply in_app_or in J. destruct J as [J|J].
    - destruct (of_first _ _ _ _ J) as (d & _ & ->). reflexivity.
    - destruct (more_label _ _ _ J) as (k & c & _ & ->). reflexivity. }
  destruct (split_kinds (fun x => i_name x = str "Flag") _ _ _ _ EB (F _ _ _ _) (F _ _ _ _)) as [H _].
  - intros x [<-|[<-|[]]]; [rewrite NI | rewrite NJ]; discriminate.
  - intros x [<-|[<-|[]]]; [rewrite NI' | rewrite NJ']; discriminate.
  - destruct (flags_inj notation1 f0 g0 [f1; f2; f3] [g1; g2; g3] ltac:(vm_compute; reflexivity) ltac:(vm_compute; reflexivity) eq_refl H) as [-> K].
    congruence.
Qed.
Print Assumptions C29_notation_tell.

(** C29.  The line of a flag is there if and only if its bit is set. *)
Theorem C29_line_iff_set : forall defs k m s b,
  In (defs, k) [(key_flags1, 1); (key_flags2, 2); (features1, 1); (keyserver1, 1); (notation1, 1)] -> In (m, Some s) defs ->
  (In (flag_shown (str s)) (flag_lines defs k b) <-> N.land (b2n b) m <> 0).
Proof.
  intros defs k m s b D I. split.
  - unfold flag_lines. intro H. apply in_flat_map in H. destruct H as ([m' s'] & J & H). cbn [fst snd] in H.
    destruct (N.land (b2n b) m' =? 0) eqn:Z; [destruct H|]. destruct H as [H|[]]. apply flag_shown_inj in H.
    assert (m' = m); [|subst m'; lia]. clear Z.
    cbn [In] in D. repeat destruct D as [D|D]; try (destruct D; fail); injection D as <- <-;
      cbn [In key_flags1 key_flags2 features1 keyserver1 notation1] in I, J; repeat destruct I as [I|I]; try discriminate I; try (destruct I; fail); injection I as <- <-;
      repeat destruct J as [J|J]; try (destruct J; fail); injection J as <- <-; try reflexivity; discriminate H.
  - intro Z. unfold flag_lines. apply in_flat_map. exists (m, Some s). split; [exact I|]. cbn [fst snd].
    replace (N.land (b2n b) m =? 0) with false by lia. left. reflexivity.
Qed.
Print Assumptions C29_line_iff_set.
Example C29_used : parse_sub o_plain env0 2 x1e [x05; x00; x81] cst_init =
  (ROk (sub_shown o_plain x1e [x05; x00; x81]
     [flag_shown (str "Modification Detection (packets 18 and 19)");
      flag_shown (str "Version 5 Public-Key Packet format and corresponding new fingerprint format");
      flag_shown (str "Unknown flag3(0x81)")]), cst_init).
Proof. vm_compute. reflexivity. Qed.
