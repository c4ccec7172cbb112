(** * PropParse: C03, C05, C07, C13, C14. *)
From Coq Require Import Strings.String Strings.Byte List NArith ZArith Bool Lia ZifyBool ZifyN ZifyNat.
From Verif Require Import Base Utf8 Item Reader Context Env Time Values Opaque Monad Subs Tags Parse.
From Verif Require Import SpecBase BaseL ReaderL SpecValues ValuesL SpecTime TimeL SpecText Utf8L TextL FrameL SpecNest CompL RelL ParseL SpecParse StreamL Witness.
Import ListNotations.
Local Open Scope Z_scope.

(** An input for the examples: a literal data packet with format "b", file name "a", date 1 and contents "xy",
    then a marker packet. *)
Definition two_packets : bytes := [xcb; x09; x62; x01; x61; x00; x00; x00; x01; x78; x79; xca; x03; x50; x47; x50].
Definition src2 : stream := mkStream two_packets true.
Example src2_fits : fits env0 src2. Proof. split; [vm_compute; reflexivity | discriminate]. Qed.
Example src2_parses : snd (parse_stream o_plain env0 src2) = ROk tt /\ length (fst (parse_stream o_plain env0 src2)) = 2%nat.
Proof. vm_compute. auto. Qed.

(** ** C03 *)

Lemma leaves_same o E : leaves eq eq eq eq eq o o E E.
Proof. constructor; intros; subst; auto. destruct H; reflexivity. Qed.

(** C03.  For every input and every option setting parsing ends: with a result, an error or a panic. *)
Theorem C03_terminates : forall (o : opts) (E : env) (src : stream), fits E src ->
  snd (parse_stream o E src) <> RFuel.
Proof.
  intros o E src F. apply (rel_stream eq eq eq eq eq o o E E src (leaves_same o E) eq_refl eq_refl F ltac:(auto)).
Qed.
Print Assumptions C03_terminates.

Lemma dates_related cs : four_octet_dates cs -> RC eq (ropt (RDT eq)) cs cs.
Proof.
  intro H. assert (forall d, c_sig cs = Some d \/ c_key cs = Some d -> RDT eq d d) as K.
  { intros d Hd. split; [reflexivity|]. split; [reflexivity|]. unfold dt_unix. pose proof (be_lt (dt_tm d)) as B.
    eapply N.lt_le_trans; [exact B|]. replace (2 ^ 32)%N with (256 ^ 4)%N by reflexivity. specialize (H d Hd).
    apply N.pow_le_mono_r; [discriminate|]. unfold lenN in *. lia. }
  split; [reflexivity|]. split.
  - destruct (c_sig cs) eqn:X; cbn; [apply K; left; reflexivity | exact Logic.I].
  - destruct (c_key cs) eqn:X; cbn; [apply K; right; reflexivity | exact Logic.I].
Qed.

(** C03.  A packet parsed with any recursion depth above its length gives the same result, and the recursion is never
    cut off. *)
Theorem C03_budget : forall (o : opts) (E : env) (tag : N) (body : bytes) (cs : cst) (n : nat),
  sized body -> four_octet_dates cs -> (length body < n)%nat ->
  fst (parse_tag_fuel n o E tag body cs) = fst (parse_tag o E tag body cs) /\
  fst (parse_tag_fuel n o E tag body cs) <> RFuel.
Proof.
  intros o E tag body cs n L D Hn. unfold parse_tag.
  destruct (rel_parse_fuel eq eq eq eq eq eq (ropt (RDT eq)) o o E E (leaves_h _ _ _ _ _ _ _ _ _ (leaves_same o E)) (fun _ _ => True) (fun _ _ _ _ _ _ _ => Logic.I) n (S (length body)) tag body cs cs
    Hn ltac:(lia) L ltac:(unfold Good; auto) (dates_related cs D)) as [H _].
  destruct (fst (parse_tag_fuel n o E tag body cs)) as [[i x]|e| |], (fst (parse_tag_fuel (S (length body)) o E tag body cs)) as [[j y]|e'| |];
    cbn in H; try contradiction; try (split; [reflexivity | discriminate]); (split; [|discriminate]).
  - destruct H as (H1 & H2 & _). cbn [fst snd] in *. apply RI_eq in H1. congruence.
  - congruence.
Qed.
Print Assumptions C03_budget.
Example C03_budget_used : four_octet_dates cst_init. Proof. intros d [H|H]; discriminate H. Qed.

(** C03.  A packet nested in another one, at any depth, is shorter. *)
Theorem C03_nested_shorter : forall (E : env) (t : N) (b : bytes) (t' : N) (b' : bytes), nested E t b t' b' -> sized b ->
  (t' = t /\ b' = b) \/ (length b' < length b)%nat.
Proof.
  induction 1 as [t b | body b t' b' Hs _ IH | body b t1 b1 t' b' Hs Hk _ IH]; intro L; [left; auto| |]; right.
  - apply sig_sub_shorter in Hs. destruct IH as [[_ ->]|IH]; unfold sized, lenZ in *; lia.
  - apply sig_sub_shorter in Hs. apply key_block_shorter in Hk; [|unfold sized, lenZ in *; lia].
    destruct IH as [[_ ->]|IH]; unfold sized, lenZ in *; lia.
Qed.
Print Assumptions C03_nested_shorter.
(** A signature with an embedded signature of one octet. *)
Example C03_nested_used : nested env0 2 [x04; x00; x01; x08; x00; x03; x02; x20; x04; x00; x00; x00; x00] 2 [x04].
Proof.
  apply nested_embedded with (b := [x04]); [|constructor]. exists [x02; x20; x04], [(x20, [x04])], x20.
  split; [|split; [|split]].
  - eapply area_hashed with (v := x04) (t := x00) (p := x01) (h := x08) (l := [x00; x03]); [left|..]; reflexivity.
  - reflexivity.
  - left; reflexivity.
  - reflexivity.
Qed.

(** ** C05 *)

Definition same_opts_but (k : Z) (o1 o2 : opts) : Prop := forall c, c <> k -> o_get c o1 = o_get c o2.

Lemma leaves_dumps (D : bytes -> bytes -> Prop) o1 o2 E : o_get UTC o1 = o_get UTC o2 ->
  (forall l f1 f2, FL o1 o2 f1 f2 -> D (dump_bytes l f1) (dump_bytes l f2)) -> leaves eq eq D eq eq o1 o2 E E.
Proof. intros U H. constructor; intros; subst; auto. Qed.

(** C05.  Two option settings that agree on armor and utc give the same outcome and the same tree, but for dumps that
    only one of them shows. *)
Theorem C05_only_dumps_differ : forall (o1 o2 : opts) (E : env) (src : stream), fits E src -> same_armor_utc o1 o2 ->
  snd (parse_stream o1 E src) = snd (parse_stream o2 E src) /\
  Forall2 (alike eq dumps_agree eq) (fst (parse_stream o1 E src)) (fst (parse_stream o2 E src)).
Proof.
  intros o1 o2 E src F [A U].
  destruct (rel_stream eq eq dumps_agree eq eq o1 o2 E E src) as (H1 & _ & H2); try assumption; auto.
  - apply leaves_dumps; [exact U|]. intros l f1 f2 _. destruct f1, f2; cbn; unfold dumps_agree; auto.
  - split; [exact H1 | apply RI_alikes; exact H2].
Qed.
Print Assumptions C05_only_dumps_differ.

(** C05.  Switching options on only adds dumps. *)
Theorem C05_options_add_dumps : forall (o1 o2 : opts) (E : env) (src : stream), fits E src -> same_armor_utc o1 o2 ->
  (forall c, o_get c o1 = true -> o_get c o2 = true) ->
  Forall2 (alike eq dump_added eq) (fst (parse_stream o1 E src)) (fst (parse_stream o2 E src)).
Proof.
  intros o1 o2 E src F [A U] M.
  destruct (rel_stream eq eq dump_added eq eq o1 o2 E E src) as (_ & _ & H2); try assumption; auto.
  - apply leaves_dumps; [exact U|]. intros l f1 f2 HF.
    assert (f1 = true -> f2 = true) as MF.
    { destruct HF as [|k Hk]; [auto|]. cbn [In] in Hk. pose proof (M DEBUG) as MD.
      destruct Hk as [<-|[<-|[<-|[<-|[<-|[<-|[]]]]]]]; unfold oDebug, oInteger, oLiteral, oMarker, oPrivate, oCert in *;
        intro H; try (apply M; exact H); apply orb_true_iff in H; apply orb_true_iff; destruct H as [H|H]; auto. }
    destruct f1; cbn; unfold dump_added; [rewrite MF by reflexivity; auto | auto].
  - apply RI_alikes; exact H2.
Qed.
Print Assumptions C05_options_add_dumps.
(** The two results really differ. *)
Example C05_used : fits env0 src2 /\ same_armor_utc o_plain (o_new [(DEBUG, true)]) /\
  fst (parse_stream o_plain env0 src2) <> fst (parse_stream (o_new [(DEBUG, true)]) env0 src2).
Proof. split; [exact src2_fits|]. split; [split; reflexivity | vm_compute; discriminate]. Qed.

(** C05.  With debug on, the other dump options do nothing. *)
Theorem C05_debug_shows_all : forall (o1 o2 : opts) (E : env) (src : stream), fits E src -> same_armor_utc o1 o2 ->
  o_get DEBUG o1 = true -> o_get DEBUG o2 = true -> parse_stream o1 E src = parse_stream o2 E src.
Proof.
  intros o1 o2 E src F [A U] D1 D2.
  destruct (rel_stream eq eq eq eq eq o1 o2 E E src) as (H1 & _ & H2); try assumption; auto.
  - apply leaves_dumps; [exact U|]. intros l f1 f2 HF. f_equal.
    destruct HF as [|k Hk]; [reflexivity|]. cbn [In] in Hk.
    destruct Hk as [<-|[<-|[<-|[<-|[<-|[<-|[]]]]]]]; unfold oDebug, oInteger, oLiteral, oMarker, oPrivate, oCert; rewrite D1, D2, ?orb_true_r; reflexivity.
  - apply RI_eqs in H2. destruct (parse_stream o1 E src), (parse_stream o2 E src); cbn in *; congruence.
Qed.
Print Assumptions C05_debug_shows_all.

(** C05.  gdump does nothing at all. *)
Theorem C05_gdump_has_no_effect : forall (o1 o2 : opts) (E : env) (src : stream), fits E src -> same_opts_but GDUMP o1 o2 ->
  parse_stream o1 E src = parse_stream o2 E src.
Proof.
  intros o1 o2 E src F G.
  destruct (rel_stream eq eq eq eq eq o1 o2 E E src) as (H1 & _ & H2); try assumption; auto; try (apply G; discriminate).
  - apply leaves_dumps; [apply G; discriminate|]. intros l f1 f2 HF. f_equal.
    destruct HF as [|k Hk]; [reflexivity|]. cbn [In] in Hk.
    destruct Hk as [<-|[<-|[<-|[<-|[<-|[<-|[]]]]]]]; unfold oDebug, oInteger, oLiteral, oMarker, oPrivate, oCert;
      rewrite ?(G DEBUG) by discriminate; try reflexivity; rewrite G by discriminate; reflexivity.
  - apply RI_eqs in H2. destruct (parse_stream o1 E src), (parse_stream o2 E src); cbn in *; congruence.
Qed.
Print Assumptions C05_gdump_has_no_effect.
Example C05_gdump_used : same_opts_but GDUMP o_plain (o_set GDUMP true o_plain) /\ o_get GDUMP (o_set GDUMP true o_plain) = true.
Proof. split; [|reflexivity]. intros c Hc. unfold o_get, o_set. cbn. apply Z.eqb_neq in Hc. rewrite Hc. reflexivity. Qed.

(** C05.  Every dump shown is the hex text of some octets. *)
Theorem C05_dumps_are_hex : forall (o : opts) (E : env) (src : stream), fits E src ->
  Forall (fields (fun _ => True) (fun _ => True) (fun d => exists l, read_dump d = Some l) (fun _ => True)) (fst (parse_stream o E src)).
Proof.
  intros o E src F.
  destruct (rel_stream (fun _ _ => True) (fun _ _ => True) (fun d _ => exists l, read_dump d = Some l) (fun _ _ => True) (fun _ _ => True) o o E E src)
    as (_ & _ & H2); try assumption; auto.
  - constructor; intros; auto. destruct f1; [exists l; apply hexdump_read | exists []; reflexivity].
  - exact (RI_fieldss (fun _ => True) (fun _ => True) (fun d => exists l, read_dump d = Some l) (fun _ => True) _ _ H2).
Qed.
Print Assumptions C05_dumps_are_hex.

(** ** C07 *)

Lemma zone_leaf E t u1 u2 : (t < 2 ^ 32)%N -> minute_zone (e_tz E) ->
  same_or_instant (unixtime2rfc3339 (e_tz E) t u1) (unixtime2rfc3339 (e_tz E) t u2).
Proof.
  intros L Z. right. exists (Z.of_N t). split; [lia|]. destruct (Z t L) as [Z1 Z2].
  assert (forall u, read_rfc3339 (unixtime2rfc3339 (e_tz E) t u) = Some (Z.of_N t)) as K.
  { intros []; [apply text_utc; assumption | destruct (text_local (e_tz E) t L Z1) as [K _]; rewrite Z2, Z.add_0_r in K; exact K]. }
  split; apply K.
Qed.

(** C07.  Setting or clearing utc changes only values and notes, and these only where both show the same instant.  (For time
    zones whose offsets are whole minutes: others cannot be written in RFC 3339.) *)
Theorem C07_only_dates_differ : forall (o1 o2 : opts) (E : env) (src : stream), fits E src -> same_opts_but UTC o1 o2 ->
  minute_zone (e_tz E) ->
  snd (parse_stream o1 E src) = snd (parse_stream o2 E src) /\ Forall2 (alike same_or_instant eq same_or_instant) (fst (parse_stream o1 E src)) (fst (parse_stream o2 E src)).
Proof.
  intros o1 o2 E src F G MZ.
  destruct (rel_stream eq same_or_instant eq same_or_instant any o1 o2 E E src) as (H1 & _ & H2); try assumption; auto.
  - constructor; intros; unfold same_or_instant, any; auto; try (apply zone_leaf; assumption).
    f_equal. destruct H as [|k Hk]; [reflexivity|]. cbn [In] in Hk.
    destruct Hk as [<-|[<-|[<-|[<-|[<-|[<-|[]]]]]]]; unfold oDebug, oInteger, oLiteral, oMarker, oPrivate, oCert;
      rewrite !G by discriminate; reflexivity.
  - apply G; discriminate.
  - intros; left; reflexivity.
  - split; [exact H1 | apply RI_alikes; exact H2].
Qed.
Print Assumptions C07_only_dates_differ.
Example C07_used : fits env0 src2 /\ same_opts_but UTC o_plain (o_new [(UTC, true)]) /\ minute_zone (e_tz env0) /\ fst (parse_stream o_plain env0 src2) <> fst (parse_stream (o_new [(UTC, true)]) env0 src2).
Proof.
  split; [exact src2_fits|]. split; [|split].
  - intros c Hc. unfold o_get, o_new, o_plain. cbn. unfold o_set, opts_empty. cbn. apply Z.eqb_neq in Hc. rewrite Hc. reflexivity.
  - intros t _. cbn. split; [unfold real_offset; lia | reflexivity].
  - vm_compute. discriminate.
Qed.

(** C07.  Whatever the time zone: the outcome, the shape, the names and the dumps do not depend on utc. *)
Theorem C07_structure : forall (o1 o2 : opts) (E : env) (src : stream), fits E src -> same_opts_but UTC o1 o2 ->
  snd (parse_stream o1 E src) = snd (parse_stream o2 E src) /\ Forall2 (alike any eq any) (fst (parse_stream o1 E src)) (fst (parse_stream o2 E src)).
Proof.
  intros o1 o2 E src F G.
  destruct (rel_stream eq any eq any any o1 o2 E E src) as (H1 & _ & H2); try assumption; unfold any; auto.
  - constructor; intros; auto.
    f_equal. destruct H as [|k Hk]; [reflexivity|]. cbn [In] in Hk.
    destruct Hk as [<-|[<-|[<-|[<-|[<-|[<-|[]]]]]]]; unfold oDebug, oInteger, oLiteral, oMarker, oPrivate, oCert;
      rewrite !G by discriminate; reflexivity.
  - apply G; discriminate.
  - split; [exact H1 | apply RI_alikes; exact H2].
Qed.
Print Assumptions C07_structure.

(** C07.  With utc on, the result does not depend on the time zone. *)
Theorem C07_utc_ignores_zone : forall (o : opts) (E E' : env) (src : stream), fits E src -> o_get UTC o = true ->
  same_but_zone E E' -> parse_stream o E src = parse_stream o E' src.
Proof.
  intros o E E' src F U (Z1 & Z2 & Z3).
  destruct (rel_stream eq eq eq eq (fun u v => u = true /\ v = true) o o E E' src) as (H1 & _ & H2); try assumption; auto.
  - constructor; intros; subst; auto; try (destruct H0 as [-> ->]; reflexivity).
    + destruct H; reflexivity.
    + rewrite Z2. reflexivity.
  - apply RI_eqs in H2. destruct (parse_stream o E src), (parse_stream o E' src); cbn in *; congruence.
Qed.
Print Assumptions C07_utc_ignores_zone.
Example C07_zone_used :
  let E' := mkEnv (e_grow env0) (e_inflate env0) (fun _ => 0) (e_armor env0) in
  same_but_zone env0 E' /\ parse_stream o_plain env0 src2 <> parse_stream o_plain E' src2.
Proof. split; [repeat split | vm_compute; discriminate]. Qed.

(** ** C13, C14 *)

Lemma clean_leaves (V : bytes -> Prop) o E : (forall x, clean x -> V x) ->
  leaves (fun x _ => clean x) (fun x _ => V x) (fun x _ => clean x) (fun x _ => clean x) any o o E E.
Proof.
  intros HV. constructor; intros; unfold any; auto using plain_printable, plain_date, sanitize_clean.
  - apply plain_printable, plain_dump_bytes.
  - apply HV, plain_printable, plain_app; [apply plain_days | reflexivity].
Qed.

(** C13.  If no literal data packet, at any level, has a control character as its format octet, then no name, value, note or
    dump contains a control character. *)
Theorem C13_no_control_characters_partial : forall (o : opts) (E : env) (src : stream), fits E src ->
  (forall f l, stream_met o E src 11 (f :: l) -> ~ control (b2n f)) ->
  Forall (all_fields clean) (fst (parse_stream o E src)).
Proof.
  intros o E src F HL.
  destruct (rel_stream _ _ _ _ _ o o E E src (clean_leaves clean o E (fun _ H => H)) eq_refl eq_refl F) as (_ & _ & H2).
  - intros f l M. apply litfmt_clean. exact (HL f l M).
  - apply RI_fieldss in H2. revert H2. apply Forall_impl. apply fields_all.
Qed.
Print Assumptions C13_no_control_characters_partial.

(** In [src2] the only literal data packet has format "b". *)
Example C13_used : forall f l, stream_met o_plain env0 src2 11 (f :: l) -> ~ control (b2n f).
Proof.
  intros f l (c & P & M). vm_compute in P. injection P as <-.
  assert (forall t b, input_packet env0 (mkChunks [two_packets] true) t b ->
    (t, b) = (11%N, [x62; x01; x61; x00; x00; x00; x01; x78; x79]) \/ (t, b) = (10%N, [x50; x47; x50])) as K.
  { intros t b H. inversion H as [c tag b0 c' N | c t0 b0 c' tag b1 N H']; subst; vm_compute in N; injection N as <- <- <-; [left; reflexivity|].
    inversion H' as [c tag b0 c' N | c t0 b0 c' tag b1 N H'']; subst; vm_compute in N; injection N as <- <- <-; [right; reflexivity|].
    inversion H'' as [c tag b0 c' N | c t0 b0 c' tag b1 N H3]; subst; vm_compute in N; discriminate N. }
  destruct M as [t0 b0 Hi Hn | body d t0 b0 Hi _ _ _]; apply K in Hi; destruct Hi as [Hi|Hi]; inversion Hi; subst; inversion Hn; subst.
  unfold control. cbn. lia.
Qed.

(** C13.  For every input: names, notes and dumps have no control character, and a value that has one is one character, shown
    for a format octet. *)
Theorem C13_only_the_format_octet : forall (o : opts) (E : env) (src : stream), fits E src ->
  Forall (fields clean (fun v => clean v \/ exists f : byte, control (b2n f) /\ v = utf8 (b2n f)) clean clean) (fst (parse_stream o E src)).
Proof.
  intros o E src F.
  destruct (rel_stream _ _ _ _ _ o o E E src
    (clean_leaves (fun v => clean v \/ exists f : byte, control (b2n f) /\ v = utf8 (b2n f)) o E (fun _ H => or_introl H)) eq_refl eq_refl F) as (_ & _ & H2).
  - intros f l M. destruct (controlb (b2n f)) eqn:C.
    + right. exists f. split; [apply controlb_spec; exact C | apply litfmt_utf8].
    + left. apply litfmt_clean. intro K. apply controlb_spec in K. congruence.
  - apply RI_fieldss in H2. exact H2.
Qed.
Print Assumptions C13_only_the_format_octet.

(** C13 in full is false: a literal data packet with format octet 0x0a puts a line feed into a value. *)
Theorem C13_no_control_characters_refuted : exists (o : opts) (E : env) (src : stream),
  fits E src /\ ~ Forall (all_fields clean) (fst (parse_stream o E src)).
Proof.
  exists o_plain, env0, (mkStream [xcb; x06; x0a; x00; x00; x00; x00; x00] true).
  split; [split; [vm_compute; reflexivity | discriminate]|].
  intro H. set (r := fst (parse_stream _ _ _)) in H. vm_compute in r. subst r.
  inversion H as [|x l H1 _]; subst. inversion H1; subst. 
  match goal with F : Forall _ (_ :: _) |- _ => inversion F as [|y l' H2 _]; subst; clear F end. inversion H2; subst.
  match goal with K : clean [x0a] |- _ => destruct K as (cs & K1 & K2) end.
  destruct cs as [|c cs]; [discriminate K2|]. inversion K1 as [|c' l' [S1 S2] _]; subst. apply S2. left.
  unfold utf8s in K2. cbn [flat_map] in K2. unfold utf8 in K2.
  assert (forall n : N, n2b n = x0a -> (n < 256)%N -> n = 10%N) as NB.
  { intros n Hn L. pose proof (b2n_n2b_small n L) as Q. rewrite Hn in Q. cbn in Q. lia. }
  destruct (c <? 0x80)%N eqn:C1; [injection K2 as K2 _; symmetry in K2; apply NB in K2; lia|].
  destruct (c <? 0x800)%N eqn:C2; [injection K2 as K2 K3; discriminate K3|].
  destruct (c <? 0x10000)%N eqn:C3; injection K2 as K2 K3; discriminate K3.
Qed.
Print Assumptions C13_no_control_characters_refuted.

(** C14.  Every name, value, note and dump of every result is UTF-8. *)
Theorem C14_all_utf8 : forall (o : opts) (E : env) (src : stream), fits E src ->
  Forall (all_fields is_utf8) (fst (parse_stream o E src)).
Proof.
  intros o E src F.
  assert (forall x, plain x -> is_utf8 x) as P by (intros; apply clean_is_utf8, plain_printable; assumption).
  assert (leaves (fun x _ => is_utf8 x) (fun x _ => is_utf8 x) (fun x _ => is_utf8 x) (fun x _ => is_utf8 x) any o o E E) as LV.
  { constructor; intros; unfold any; auto using plain_date.
    - apply P, plain_dump_bytes.
    - apply clean_is_utf8, sanitize_clean; assumption.
    - apply P, plain_app; [apply plain_days | reflexivity]. }
  destruct (rel_stream _ _ _ _ _ o o E E src LV eq_refl eq_refl F) as (_ & _ & H2).
  - intros f l M. apply litfmt_is_utf8.
  - apply RI_fieldss in H2. revert H2. apply Forall_impl. apply fields_all.
Qed.
Print Assumptions C14_all_utf8.
