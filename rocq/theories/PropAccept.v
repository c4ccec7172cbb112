(** * PropAccept: C63. *)
From Coq Require Import Strings.String Strings.Byte List NArith ZArith Bool Lia ZifyBool ZifyN ZifyNat.
From Verif Require Import Base BaseL SpecBase Item Reader Context Env Values Opaque Monad Subs Tags Parse SpecValues SpecPacket
  SpecFrame FramingL FrameL SpecComp CompL PropFrame Witness SpecAccept AcceptL AcceptFrameL AcceptPktL.
From Verif Require PropComp.
Import ListNotations.
Local Open Scope N_scope.

(** C63.  Whether a packet is shown, ends with an error (and for what reason), or crashes the program follows from its tag and its octets as [fate] says:
    every field must be there; nothing else matters, neither options nor what came before. *)
Theorem C63_packet : forall (o : opts) (E : env) (tag : N) (b : bytes) (cs : cst), int_sizes (e_grow E) -> lenN b < 2 ^ 32 ->
  ends_as (fst (parse_tag o E tag b cs)) (fate (lost (e_grow E)) (damaged E) tag b).
Proof. intros o E tag b cs G L. apply parse_tag_ends; assumption. Qed.
Print Assumptions C63_packet.

(** The sequence of packets that a reader delivers. *)
Lemma next_step E c h t : c_inv true c -> c_data c = h :: t ->
  match first_packet (h :: t) with
  | Some (tag, b, rest) => exists c', next_chunks E c = (ROk (Some (tag, b)), c') /\ c_data c' = rest /\ c_inv true c' /\ (length b + length rest < length (h :: t))%nat
  | None => if b2n h <? 128 then exists c', next_chunks E c = (RErr EStruct, c')
            else if (b2n h <? 192) && (b2n h mod 4 =? 3) then exists c', next_chunks E c = (ROk (Some ((b2n h - 128) / 4, t)), c') /\ c_data c' = [] /\ c_inv true c'
            else exists c', next_chunks E c = (RErr EUnexp, c')
  end.
Proof.
  intros I D. destruct (first_packet (h :: t)) as [[[tag b] rest]|] eqn:FP.
  - destruct (first_packet_sound _ _ _ _ FP) as (w & F & Q). rewrite Q in D. destruct (next_chunks_ok E true tag b w rest c F I D) as (c1 & N & D1 & I1). exists c1.
    pose proof (framed_longer _ _ _ F). rewrite Q, app_length. repeat split; try assumption. 1,2: apply I1. lia.
  - destruct (first_packet_none h t FP) as [G|[(tag & T & ->)|(tag & body & x & F & NX & _)]].
    + replace (b2n h <? 128) with true by lia. apply (next_chunks_bad E true h t c G I D).
    + rewrite b2n_n2b_small by lia. replace (131 + 4 * tag <? 128) with false by lia. replace (131 + 4 * tag <? 192) with true by lia. replace ((131 + 4 * tag) mod 4 =? 3) with true by lia. cbn [andb].
      replace ((131 + 4 * tag - 128) / 4) with tag by lia. apply (next_chunks_raw E tag t c T I D).
    + destruct (next_chunks_cut E true tag body (h :: t) x c F ltac:(discriminate) NX I D) as (c1 & N).
      destruct (b2n h <? 128) eqn:H8; [exfalso; destruct (next_chunks_bad E true h t c ltac:(lia) I D) as (c2 & N2); rewrite N2 in N; discriminate|].
      destruct ((b2n h <? 192) && (b2n h mod 4 =? 3)) eqn:Q; [|eauto]. exfalso.
      assert (h = n2b (131 + 4 * ((b2n h - 131) / 4))) as EH by (replace (131 + 4 * ((b2n h - 131) / 4)) with (b2n h) by lia; symmetry; apply n2b_b2n).
      rewrite EH in D. destruct (next_chunks_raw E ((b2n h - 131) / 4) t c ltac:(lia) I D) as (c2 & N2 & _). rewrite N2 in N. discriminate.
Qed.
Lemma expand_ends o E n : int_sizes (e_grow E) -> forall fuel c it cs l, c_inv true c -> c_data c = l -> (length l < fuel)%nat -> (length l <= n)%nat -> lenN l < 2 ^ 32 ->
  ends_as (fst (expand_loop o E fuel c it cs)) (sequence (fate (lost (e_grow E)) (damaged E)) n l).
Proof.
  intro G. induction n as [|n IH]; intros fuel c it cs l I D LF LN L; (destruct fuel as [|fuel]; [lia|]); cbn [expand_loop]; destruct l as [|h t].
  1,3: destruct (next_chunks_end E true c I D) as (c1 & ->); eexists; reflexivity.
  - cbn [length] in LN. lia.
  - cbn [sequence]. pose proof (next_step E c h t I D) as N. destruct (first_packet (h :: t)) as [[[tag b] rest]|].
    + destruct N as (c1 & -> & D1 & I1 & LL). cbn [length] in LF, LN, LL. rewrite lenN_cons in L.
      pose proof (C63_packet o E tag b cs G ltac:(unfold lenN in *; lia)) as J. destruct (parse_tag o E tag b cs) as [x c2]. cbn [fst] in J.
      destruct (fate (lost (e_grow E)) (damaged E) tag b); cbn in J; [destruct J as [[i d] ->] | destruct J as (e & T & ->); eexists; split; [exact T | reflexivity] | subst x; reflexivity].
      cbn [both]. apply IH; [exact I1 | exact D1 | lia | lia | unfold lenN in *; lia].
    + destruct (b2n h <? 128); [destruct N as (c1 & ->); eexists; split; reflexivity|].
      destruct ((b2n h <? 192) && (b2n h mod 4 =? 3)); [|destruct N as (c1 & ->); eexists; split; [right; reflexivity | reflexivity]].
      destruct N as (c1 & -> & D1 & I1). rewrite lenN_cons in L. pose proof (C63_packet o E ((b2n h - 128) / 4) t cs G ltac:(lia)) as J. destruct (parse_tag o E ((b2n h - 128) / 4) t cs) as [x c2]. cbn [fst] in J.
      destruct (fate (lost (e_grow E)) (damaged E) _ t); cbn in J; [destruct J as [[i d] ->] | destruct J as (e & T & ->); eexists; split; [exact T | reflexivity] | subst x; reflexivity].
      destruct fuel as [|fuel]; [cbn [length] in LF; lia|]. cbn [expand_loop]. destruct (next_chunks_end E true c1 I1 D1) as (c3 & ->). eexists. reflexivity.
Qed.
Lemma top_ends o E tag b cs : int_sizes (e_grow E) -> lenN b < 2 ^ 32 ->
  ends_as (fst (packets_parse o E tag b cs)) (top (lost (e_grow E)) (damaged E) (opened E) tag b).
Proof.
  intros G L. unfold packets_parse, top. pose proof (C63_packet o E tag b cs G L) as J. assert (lenZ b < 2 ^ 62)%Z as LZ by (unfold lenN, lenZ in *; lia).
  destruct (parse_tag o E tag b cs) as [x c2] eqn:PT. cbn [fst] in J.
  destruct (fate (lost (e_grow E)) (damaged E) tag b); cbn in J; [destruct J as [[i d] ->] | destruct J as (e & T & ->); eexists; split; [exact T | reflexivity] | subst x; reflexivity]. cbn [both].
  destruct (N.eq_dec tag 8) as [->|N8].
  - change (8 =? 8) with true. cbv iota. destruct b as [|a z]; [discriminate PT|]. rewrite tag08_closed in PT by exact LZ. cbv zeta in PT. unfold opened.
    assert (forall x, lenN x < 2 ^ 32 -> ends_as (fst (expand_loop o E (S (length x)) (chunks_of x true) i c2)) (sequence (fate (lost (e_grow E)) (damaged E)) (length x) x)) as EX.
    { intros x LX. destruct (PropComp.chunks_of_inv x) as [I D]. apply expand_ends; [exact G | exact I | exact D | lia | lia | exact LX]. }
    rewrite lenN_cons in L. destruct z as [|b z].
    + injection PT as <- <- <-. change (lenN [] =? 0) with true. cbn [negb]. rewrite andb_false_r. destruct (b2n a =? 0); apply (EX []); reflexivity.
    + destruct (b2n a =? 0); [injection PT as <- <- <-; apply EX; lia|]. destruct (b2n a <=? 3); [|injection PT as <- <- <-; apply (EX []); reflexivity].
      replace (lenN (b :: z) =? 0) with false by (rewrite lenN_cons; lia). cbn [negb andb]. unfold copy_from, max_decompressed in PT. destruct (e_inflate E (b2n a) (b :: z)) as [|d0 ok]; [discriminate|].
      destruct (2 ^ 30 <=? lenN d0) eqn:Q.
      * injection PT as <- <- <-. replace (lenN d0 <? 2 ^ 30) with false by lia. destruct ok; eexists; reflexivity.
      * destruct ok; [|discriminate]. injection PT as <- <- <-. replace (lenN d0 <? 2 ^ 30) with true by lia. apply EX. change (2 ^ 30) with 1073741824 in Q. lia.
  - replace (tag =? 8) with false by lia. destruct d as [d|]; [|eexists; reflexivity]. destruct (expanded_contents o E tag b cs i d c2 LZ PT) as [-> _]. congruence.
Qed.

(** C63.  For a whole input: packets are judged one after the other, those in compressed data too; the first that is not accepted
    decides.  At the end there may be nothing, or a last packet without a length; anything else is rejected. *)
Lemma loop_ends o E n : int_sizes (e_grow E) -> forall fuel c cs acc l, c_inv true c -> c_data c = l -> (length l < fuel)%nat -> (length l <= n)%nat -> lenN l < 2 ^ 32 ->
  ends_as (snd (parse_loop o E fuel c cs acc)) (sequence (top (lost (e_grow E)) (damaged E) (opened E)) n l).
Proof.
  intro G. induction n as [|n IH]; intros fuel c cs acc l I D LF LN L; (destruct fuel as [|fuel]; [lia|]); cbn [parse_loop]; destruct l as [|h t].
  1,3: destruct (next_chunks_end E true c I D) as (c1 & ->); eexists; reflexivity.
  - cbn [length] in LN. lia.
  - cbn [sequence]. pose proof (next_step E c h t I D) as N. destruct (first_packet (h :: t)) as [[[tag b] rest]|].
    + destruct N as (c1 & -> & D1 & I1 & LL). cbn [length] in LF, LN, LL. rewrite lenN_cons in L.
      pose proof (top_ends o E tag b cs G ltac:(unfold lenN in *; lia)) as J. destruct (packets_parse o E tag b cs) as [x c2]. cbn [fst] in J.
      destruct (top (lost (e_grow E)) (damaged E) (opened E) tag b); cbn in J; [destruct J as [i ->] | destruct J as (e & T & ->); eexists; split; [exact T | reflexivity] | subst x; reflexivity].
      apply IH; [exact I1 | exact D1 | lia | lia | unfold lenN in *; lia].
    + destruct (b2n h <? 128); [destruct N as (c1 & ->); eexists; split; reflexivity|].
      destruct ((b2n h <? 192) && (b2n h mod 4 =? 3)); [|destruct N as (c1 & ->); eexists; split; [right; reflexivity | reflexivity]].
      destruct N as (c1 & -> & D1 & I1). rewrite lenN_cons in L. pose proof (top_ends o E ((b2n h - 128) / 4) t cs G ltac:(lia)) as J. destruct (packets_parse o E ((b2n h - 128) / 4) t cs) as [x c2]. cbn [fst] in J.
      destruct (top (lost (e_grow E)) (damaged E) (opened E) _ t); cbn in J; [destruct J as [i ->] | destruct J as (e & T & ->); eexists; split; [exact T | reflexivity] | subst x; reflexivity].
      destruct fuel as [|fuel]; [cbn [length] in LF; lia|]. cbn [parse_loop]. destruct (next_chunks_end E true c1 I1 D1) as (c3 & ->). eexists. reflexivity.
Qed.
Theorem C63_input : forall (o : opts) (E : env) (c : chunks) (w : bytes), int_sizes (e_grow E) -> delivers c w -> lenN w < 2 ^ 32 ->
  ends_as (snd (parse_chunks o E c)) (sequence (top (lost (e_grow E)) (damaged E) (opened E)) (List.length w) w).
Proof.
  intros o E c w G D L. apply delivers_inv in D as [I D]. unfold parse_chunks. rewrite chunks_len_data, D. apply (loop_ends o E _ G); [exact I | exact D | lia | lia | exact L].
Qed.
Print Assumptions C63_input.

(** A signature with an area whose last sub-packet is cut, a secret key of an unknown algorithm with one octet of material, and a signature in
    which a key block ends with half a packet: rejected, crashing, accepted. *)
Definition ex_cut_area : bytes := [x04; x00; x01; x08; x00; x03; x05; x02; x00; x00; x00; x00; x00; x00; x00].
Definition ex_one_octet : bytes := [x04; x00; x00; x00; x00; x63; x00; x07].
Definition ex_block : bytes := [x04; x00; x63; x08; x00; x05; x04; x26; x00; xc6; xc0; x00; x00; x00; x00].
Example C63_packet_used : int_sizes (e_grow env0) /\
  (fate (lost (e_grow env0)) (damaged env0) 2 ex_cut_area = Rejected Malformed /\ fst (parse_tag o_plain env0 2 ex_cut_area cst_init) = RErr EStruct) /\
  (fate (lost (e_grow env0)) (damaged env0) 5 ex_one_octet = Crashes /\ fst (parse_tag o_plain env0 5 ex_one_octet cst_init) = RPanic) /\
  (fate (lost (e_grow env0)) (damaged env0) 2 ex_block = Accepted /\ exists i, fst (parse_tag o_plain env0 2 ex_block cst_init) = ROk i).
Proof.
  split; [intros c L; cbn [env0 e_grow]; change (2 ^ 32) with 4294967296 in L; change (2 ^ 62) with 4611686018427387904; lia|].
  vm_compute. split; [auto|]. split; [auto|]. split; [reflexivity|]. eexists. reflexivity.
Qed.
(** Two packets, then a third one of which the last octet is missing: rejected. *)
Definition ex_three : bytes := [xcd; x01; x61; xb4; x01; x62; xcd; x02; x63].
Example C63_input_used : delivers (chunks_of ex_three true) ex_three /\
  sequence (top (lost (e_grow env0)) (damaged env0) (opened env0)) (List.length ex_three) ex_three = Rejected Ends_early /\
  sequence (top (lost (e_grow env0)) (damaged env0) (opened env0)) (List.length ex_three) (ex_three ++ [x64]) = Accepted /\
  sequence (top (lost (e_grow env0)) (damaged env0) (opened env0)) 6 [xb7; x63; x64] = Accepted /\
  snd (parse_chunks o_plain env0 (chunks_of ex_three true)) = RErr EUnexp.
Proof.
  split; [|vm_compute; auto]. split; [repeat constructor; discriminate|]. split; reflexivity.
Qed.

(** C63.  So the outcome is the same for all options, all packets before, all time zones and all ways to deliver the octets. *)
Theorem C63_same_packet : forall (o1 o2 : opts) (E1 E2 : env) (tag : N) (b : bytes) (cs1 cs2 : cst), int_sizes (e_grow E1) -> e_grow E1 = e_grow E2 -> e_inflate E1 = e_inflate E2 -> lenN b < 2 ^ 32 ->
  exists v, ends_as (fst (parse_tag o1 E1 tag b cs1)) v /\ ends_as (fst (parse_tag o2 E2 tag b cs2)) v.
Proof.
  intros o1 o2 E1 E2 tag b cs1 cs2 G G2 F L. exists (fate (lost (e_grow E1)) (damaged E1) tag b). split; [apply C63_packet; assumption|].
  assert (damaged E1 = damaged E2) as -> by (unfold damaged; rewrite F; reflexivity). rewrite G2 in *. apply C63_packet; assumption.
Qed.
Print Assumptions C63_same_packet.
Theorem C63_same_input : forall (o1 o2 : opts) (E1 E2 : env) (c1 c2 : chunks) (w : bytes), int_sizes (e_grow E1) -> e_grow E1 = e_grow E2 -> e_inflate E1 = e_inflate E2 ->
  delivers c1 w -> delivers c2 w -> lenN w < 2 ^ 32 -> exists v, ends_as (snd (parse_chunks o1 E1 c1)) v /\ ends_as (snd (parse_chunks o2 E2 c2)) v.
Proof.
  intros o1 o2 E1 E2 c1 c2 w G G2 F D1 D2 L. eexists. split; [apply (C63_input o1 E1 c1 w); assumption|].
  assert (damaged E1 = damaged E2) as -> by (unfold damaged; rewrite F; reflexivity). assert (opened E1 = opened E2) as -> by (unfold opened; rewrite F; reflexivity). rewrite G2 in *. apply C63_input; assumption.
Qed.
Print Assumptions C63_same_input.
Example C63_same_used : delivers (chunks_of ex_three true) ex_three /\ delivers (mkChunks [[xcd; x01]; [x61; xb4; x01; x62; xcd]; [x02; x63]] true) ex_three /\
  parse_chunks o_plain env0 (chunks_of ex_three true) <> parse_chunks o_debug env0 (mkChunks [[xcd; x01]; [x61; xb4; x01; x62; xcd]; [x02; x63]] true).
Proof. split; [|split]; [split; [repeat constructor; discriminate | split; reflexivity] | split; [repeat constructor; discriminate | split; reflexivity] | vm_compute; discriminate]. Qed.

(** C63.  Packets of the other kinds (user IDs, markers, trust, encrypted data, MDC, private and unknown tags) are accepted with any contents. *)
Theorem C63_always : forall (o : opts) (E : env) (tag : N) (b : bytes) (cs : cst), int_sizes (e_grow E) -> lenN b < 2 ^ 32 ->
  ~ In tag [1; 2; 3; 4; 5; 6; 7; 8; 11; 14; 17; 20] -> exists i, fst (parse_tag o E tag b cs) = ROk i.
Proof.
  intros o E tag b cs G L NI. pose proof (C63_packet o E tag b cs G L) as H. unfold fate in H. cbn [fate_depth] in H.
  assert (forall rec dr da l, packet_scan rec dr da tag l = Found tt l) as X; [|rewrite X in H; exact H]. clear H G L. intros rec dr da l. unfold packet_scan.
  destruct tag as [|p]; [reflexivity|]. do 5 (destruct p as [p|p|]; [| | try reflexivity; exfalso; apply NI; cbn; tauto]); try reflexivity; exfalso; apply NI; cbn; tauto.
Qed.
Print Assumptions C63_always.
Example C63_always_used : ~ In 13 [1; 2; 3; 4; 5; 6; 7; 8; 11; 14; 17; 20] /\ ~ In 61 [1; 2; 3; 4; 5; 6; 7; 8; 11; 14; 17; 20].
Proof. split; intro H; cbn in H; intuition discriminate. Qed.

(** C63.  Only a secret key makes the program crash: a packet of tag 5 or 7, or a signature in which one is nested. *)
Definition calm_scan {A} (w : scan A) : Prop := forall l, w l <> Crash.
Lemma calm_give {A} (a : A) : calm_scan (give a).
Proof. intro l. discriminate. Qed.
Lemma calm_octets n : calm_scan (octets n).
Proof. intro l. unfold octets. destruct (_ <=? _); discriminate. Qed.
Lemma calm_after {A B} (w : scan A) (f : A -> scan B) : calm_scan w -> (forall a, calm_scan (f a)) -> calm_scan (after w f).
Proof. intros H K l. unfold after. specialize (H l). destruct (w l); [apply K | discriminate | congruence]. Qed.
Lemma calm_number n : calm_scan (number n).
Proof. apply calm_after; [apply calm_octets | intro; apply calm_give]. Qed.
Lemma calm_look {A} (f : bytes -> scan A) : (forall l, calm_scan (f l)) -> calm_scan (look f).
Proof. intros H l. apply H. Qed.
Lemma calm_part {A} n (w : scan A) : calm_scan w -> calm_scan (SpecAccept.part n w).
Proof. intro H. apply calm_after; [apply calm_octets|]. intros l x. specialize (H l). destruct (w l); [discriminate | discriminate | congruence]. Qed.
Ltac calm_ := repeat match goal with
  | |- calm_scan (give _) => apply calm_give
  | |- calm_scan (octets _) => apply calm_octets
  | |- calm_scan (number _) => apply calm_number
  | |- calm_scan (after _ _) => apply calm_after; [|intro]
  | |- calm_scan (SpecAccept.part _ _) => apply calm_part
  | |- calm_scan (look _) => apply calm_look; intro
  end.
Lemma calm_fields t a : calm_scan (fields_scan t a).
Proof.
  unfold fields_scan. destruct (t a) as [l|]; [|calm_]. unfold slots_scan. induction l as [|s l IH]; cbn [fold_right]; [calm_|]. apply calm_after; [|intro; exact IH].
  destruct s; cbn [slot_scan]; calm_; match goal with |- calm_scan (match ?l with [] => _ | _ => _ end) => destruct l end; calm_.
Qed.
Lemma calm_specifier : calm_scan specifier_scan.
Proof. unfold specifier_scan. calm_. repeat (match goal with |- calm_scan (if ?b then _ else _) => destruct b end; calm_). Qed.
Lemma calm_public v : calm_scan (public_scan v).
Proof. unfold public_scan. repeat (match goal with |- calm_scan (if ?b then _ else _) => destruct b end); calm_; apply calm_fields. Qed.
Lemma calm_attributes l : area attribute_verdict l <> Crashes.
Proof.
  unfold area. destruct (subs_of (length l) l) as [s|]; [|discriminate]. induction s as [|[ty b] s IH]; cbn [fold_right]; [discriminate|].
  assert (attribute_verdict (ty, b) <> Crashes) as A; [|destruct (attribute_verdict (ty, b)); [exact IH | discriminate | congruence]].
  unfold attribute_verdict. destruct (_ =? 1); [|discriminate]. assert (forall A (w : scan A) x, calm_scan w -> verdict_of (w x) <> Crashes) as V by (intros A w x H; specialize (H x); destruct (w x); [discriminate | discriminate | congruence]).
  apply V. calm_.
Qed.
Theorem C63_crash : forall (o : opts) (E : env) (tag : N) (b : bytes) (cs : cst), int_sizes (e_grow E) -> lenN b < 2 ^ 32 ->
  fst (parse_tag o E tag b cs) = RPanic -> tag = 2 \/ tag = 5 \/ tag = 7.
Proof.
  intros o E tag b cs G L P. pose proof (C63_packet o E tag b cs G L) as H. rewrite P in H. clear P. unfold fate in H. cbn [fate_depth] in H.
  destruct (N.eq_dec tag 2) as [|N2]; [auto|]. destruct (N.eq_dec tag 5) as [|N5]; [auto|]. destruct (N.eq_dec tag 7) as [|N7]; [auto|]. exfalso.
  set (rec := fate_depth (lost (e_grow E)) (damaged E) (length b)) in H.
  assert (packet_scan rec (lost (e_grow E)) (damaged E) tag b <> Crash) as C; [|destruct (packet_scan rec (lost (e_grow E)) (damaged E) tag b); cbn in H; [destruct H; discriminate | destruct H as (x & _ & H); discriminate H | congruence]].
  clear H. assert (calm_scan (packet_scan rec (lost (e_grow E)) (damaged E) tag)) as K; [|apply K].
  assert (calm_scan (look (fun l => judged (area attribute_verdict l)))) as C17.
  { apply calm_look. intro l. pose proof (calm_attributes l) as A. destruct (area attribute_verdict l); [apply calm_give | intro; discriminate | congruence]. }
  assert (forall d, calm_scan (number 1 >> a; look (fun l => match l with [] => give tt | _ => if (1 <=? a) && (a <=? 3) && d a l then judged (Rejected Not_decompressed) else give tt end))) as C8.
  { intro d. apply calm_after; [apply calm_number|]. intro a. apply calm_look. intros [|x l]; [calm_|]. destruct ((1 <=? a) && (a <=? 3) && d a (x :: l)); [intro; discriminate | calm_]. }
  unfold packet_scan. destruct tag as [|p]; [calm_|].
  do 5 (try destruct p as [p|p|]); try congruence; try apply calm_give; try exact C17; try apply C8.
  all: calm_; try apply calm_fields; try apply calm_public; try apply calm_specifier; try (match goal with |- calm_scan (if ?b then _ else _) => destruct b end; calm_; apply calm_specifier).
Qed.
Print Assumptions C63_crash.
Example C63_crash_used : fst (parse_tag o_plain env0 7 ex_one_octet cst_init) = RPanic /\
  fst (parse_tag o_plain env0 2 ([x04; x00; x63; x08; x00; x0d; x0c; x26; x00; xc5; x08] ++ ex_one_octet ++ [x00; x00]) cst_init) = RPanic.
Proof. vm_compute. auto. Qed.
