(** * ParseL: two runs of the whole parser, compared. *)
From Coq Require Import Strings.String Strings.Byte List NArith ZArith Bool Lia ZifyBool ZifyN ZifyNat.
From Verif Require Import Base Utf8 Item Reader Context Env Time Values Opaque Monad Subs Tags Parse Float.
From Verif Require Import SpecBase BaseL ReaderL FrameL SpecNest CompL RelL.
Import ListNotations.
Local Open Scope Z_scope.

(** What the comparison needs to know about the texts. *)
Record leaves (RN RV RD RT : bytes -> bytes -> Prop) (RU : bool -> bool -> Prop) (o1 o2 : opts) (E1 E2 : env) : Prop := {
  lv_N : forall x, plain x -> lead x -> RN x x;
  lv_V : forall x, plain x -> RV x x;
  lv_T : forall x, plain x -> RT x x;
  lv_D : forall l f1 f2, FL o1 o2 f1 f2 -> RD (dump_bytes l f1) (dump_bytes l f2);
  lv_text : forall body, body <> [] -> utf8_valid body = true -> RV (sanitize body) (sanitize body);
  lv_U : RU (oUTC o1) (oUTC o2);
  lv_Vdate : forall t u1 u2, (t < 2 ^ 32)%N -> RU u1 u2 -> RV (unixtime2rfc3339 (e_tz E1) t u1) (unixtime2rfc3339 (e_tz E2) t u2);
  lv_Tdate : forall t u1 u2, (t < 2 ^ 32)%N -> RU u1 u2 -> RT (unixtime2rfc3339 (e_tz E1) t u1) (unixtime2rfc3339 (e_tz E2) t u2);
  lv_days : forall n, RV (days_text n ++ str " days after") (days_text n ++ str " days after");
  lv_grow : e_grow E1 = e_grow E2;
  lv_infl : forall n z, e_inflate E1 n z = e_inflate E2 n z
}.

(** The same for runs that start with different histories. *)
Record hleaves (RN RV RD RT : bytes -> bytes -> Prop) (RU : bool -> bool -> Prop) (RM : mode -> mode -> Prop)
  (RO : option datetime -> option datetime -> Prop) (o1 o2 : opts) (E1 E2 : env) : Prop := {
  hl_N : forall x, plain x -> lead x -> RN x x;
  hl_V : forall x, plain x -> RV x x;
  hl_T : forall x, plain x -> RT x x;
  hl_D : forall l f1 f2, FL o1 o2 f1 f2 -> RD (dump_bytes l f1) (dump_bytes l f2);
  hl_text : forall body, body <> [] -> utf8_valid body = true -> RV (sanitize body) (sanitize body);
  hl_U : RU (oUTC o1) (oUTC o2);
  hl_Vdate : forall t u1 u2, (t < 2 ^ 32)%N -> RU u1 u2 -> RV (unixtime2rfc3339 (e_tz E1) t u1) (unixtime2rfc3339 (e_tz E2) t u2);
  hl_none : RO None None;
  hl_some : forall d1 d2, RDT RU d1 d2 -> RO (Some d1) (Some d2);
  hl_exp : forall s1 s2 n, RO s1 s2 -> RT (expire_text E1 s1 n) (expire_text E2 s2 n);
  hl_mode : forall m, RM m m;
  hl_Vmode : forall m1 m2, RM m1 m2 -> RV (mode_value m1) (mode_value m2);
  hl_Tmode : forall m1 m2 z, RM m1 m2 -> RT (mode_note m1 (n_bytes z)) (mode_note m2 (n_bytes z));
  hl_days : forall n, RV (days_text n ++ str " days after") (days_text n ++ str " days after");
  hl_grow : e_grow E1 = e_grow E2;
  hl_infl : forall n z, e_inflate E1 n z = e_inflate E2 n z
}.
Lemma leaves_h RN RV RD RT RU o1 o2 E1 E2 : leaves RN RV RD RT RU o1 o2 E1 E2 -> hleaves RN RV RD RT RU eq (ropt (RDT RU)) o1 o2 E1 E2.
Proof.
  intros []. split; try assumption.
  - exact I.
  - intros d1 d2 H. exact H.
  - intros [d1|] [d2|] n H; cbn in H; try contradiction; [|apply lv_T0; reflexivity].
    destruct H as (H1 & H2 & H3). unfold expire_text, dt_unix. rewrite H1.
    destruct (0 <? be (dt_tm d2))%N; [apply lv_Tdate0; [apply N.mod_lt; discriminate | exact H2] | apply lv_T0; reflexivity].
  - reflexivity.
  - intros m ? <-. apply lv_V0. destruct m; reflexivity.
  - intros m ? z <-. apply lv_T0. destruct m; [|reflexivity..]. cbn [mode_note]. plain_tac.
Qed.

Lemma rres_impl {A B} (P P' : Prop) (R R' : A -> B -> Prop) a b :
  (P -> P') -> (forall x y, R x y -> R' x y) -> rres P R a b -> rres P' R' a b.
Proof. intros H K. destruct a, b; cbn; auto. Qed.

Lemma rdr_left_bound r : weak_inv r -> (rdr_left r <= length (r_buf r))%nat.
Proof. intros [W1 W2]. unfold rdr_left, lenZ in *. lia. Qed.

(** Nested packets are shorter. *)
Lemma sig_sub_shorter body ty b : sig_sub body ty b -> (length b < length body)%nat.
Proof.
  intros (area & l & c & Ha & Hs & Hin & _). pose proof (subpackets_shorter area (c, b)) as L. rewrite Hs in L. specialize (L Hin). cbn [snd] in L.
  destruct Ha as [v t p h m rest _ _ _ -> | v t p h m hashed m' rest _ _ _ _ _ ->]; rewrite !app_length; lia.
Qed.
Lemma cursor_packet_shorter E r t b : cursor_packet E r t b -> weak_inv r -> (length b < rdr_left r)%nat.
Proof.
  assert (forall r tag b r', weak_inv r -> next_packet rdr_read (e_grow E) (S (S (length (r_buf r)))) r = (Some (inl (tag, b)), r') ->
    weak_inv r' /\ (length b + rdr_left r' < rdr_left r)%nat) as ST.
  { clear. intros r tag b r' [W1 W2] H.
    pose proof (next_packet_rdr (e_grow E) (S (S (length (r_buf r)))) (r_buf r) r) as K. rewrite H in K.
    destruct K as ((B & O & L) & _ & K); [repeat split; try assumption; lia | pose proof (rdr_left_bound r (conj W1 W2)); lia|].
    split; [split; rewrite B; assumption | exact K]. }
  induction 1 as [r tag b r' H | r t0 b0 r' tag b H _ IH]; intro W; destruct (ST _ _ _ _ W H) as [W' K]; [lia|].
  specialize (IH W'). lia.
Qed.
Lemma key_block_shorter E b t b' : key_block_packet E b t b' -> lenZ b < 2 ^ 62 -> (length b' < length b)%nat.
Proof.
  intros (rest & -> & H) L. apply cursor_packet_shorter in H.
  - pose proof (rdr_left_bound (mkReader (x00 :: rest) 1)) as K. cbn [r_buf] in K.
    specialize (K ltac:(split; cbn [r_buf r_off]; rewrite lenZ_cons in *; pose proof (lenZ_nonneg rest); lia)). lia.
  - split; cbn [r_buf r_off]; rewrite lenZ_cons in *; pose proof (lenZ_nonneg rest); lia.
Qed.

Section Parse.
  Variables (RN RV RD RT : bytes -> bytes -> Prop) (RU : bool -> bool -> Prop) (RM : mode -> mode -> Prop).
  Variables (RO : option datetime -> option datetime -> Prop) (o1 o2 : opts) (E1 E2 : env).
  Hypothesis LV : hleaves RN RV RD RT RU RM RO o1 o2 E1 E2.
  (** The secret-key packets on which a panic is allowed. *)
  Variable Crash : N -> bytes -> Prop.
  Hypothesis Hcrash : forall rec tag body c, tag = 5%N \/ tag = 7%N -> lenZ body < 2 ^ 62 -> fst (tag_body rec o1 E1 tag body c) = RPanic -> Crash tag body.
  Definition Bad (tag : N) (body : bytes) : Prop := exists t b, nested E1 tag body t b /\ Crash t b.
  (** The format octets of literal data packets can be shown. *)
  Definition Good (tag : N) (body : bytes) : Prop := forall f l, nested E1 tag body 11 (f :: l) -> RV (litfmt_string f) (litfmt_string f).

  Notation RI := (RI RN RV RD RT).
  Notation RC := (RC RM RO).
  Notation RP := (RP RN RV RD RT).

  Lemma rel_parse_fuel n : forall m tag body c1 c2,
    (length body < n)%nat -> (length body < m)%nat -> lenZ body < 2 ^ 62 -> Good tag body -> RC c1 c2 ->
    rres (Bad tag body) RP (fst (parse_tag_fuel n o1 E1 tag body c1)) (fst (parse_tag_fuel m o2 E2 tag body c2)) /\
    (fst (parse_tag_fuel n o1 E1 tag body c1) <> RPanic ->
     RC (snd (parse_tag_fuel n o1 E1 tag body c1)) (snd (parse_tag_fuel m o2 E2 tag body c2))).
  Proof.
    induction n as [|n IH]; intros m tag body c1 c2 Ln Lm Hl HG HC; [lia|]. destruct m as [|m]; [lia|]. cbn [parse_tag_fuel].
    set (Qrec := fun (t : N) (b : bytes) => (length b < length body)%nat /\ (Bad t b -> Bad tag body) /\ Good t b).
    assert (forall PP : Prop, (Bad tag body -> PP) -> (PP \/ (tag <> 5 /\ tag <> 7)%N) ->
      rres PP RP (fst (tag_body (parse_tag_fuel n o1 E1) o1 E1 tag body c1)) (fst (tag_body (parse_tag_fuel m o2 E2) o2 E2 tag body c2)) /\
      (fst (tag_body (parse_tag_fuel n o1 E1) o1 E1 tag body c1) <> RPanic ->
       RC (snd (tag_body (parse_tag_fuel n o1 E1) o1 E1 tag body c1)) (snd (tag_body (parse_tag_fuel m o2 E2) o2 E2 tag body c2)))) as GO.
    { intros PP HB HP. destruct LV.
      apply (rel_tag_body RN RV RD RT RU RM RO o1 o2 E1 E2 PP) with (Qrec := Qrec); try assumption.
      - intros t b d1 d2 (L & B & G) Hd.
        destruct (IH m t b d1 d2 ltac:(lia) ltac:(lia) ltac:(unfold lenZ in *; lia) G Hd) as [H1 H2]. split; [|exact H2].
        revert H1. apply rres_impl; auto.
      - intros b -> Hs. split; [exact (sig_sub_shorter _ _ _ Hs)|]. split.
        + intros (t & b' & Hn & Hc). exists t, b'. split; [|exact Hc]. eapply nested_embedded; eassumption.
        + intros f l Hn. apply (HG f l). eapply nested_embedded; eassumption.
      - intros b t b' -> Hs Hk. pose proof (sig_sub_shorter _ _ _ Hs). pose proof (key_block_shorter _ _ _ _ Hk ltac:(unfold lenZ in *; lia)).
        split; [lia|]. split.
        + intros (t' & b2 & Hn & Hc). exists t', b2. split; [|exact Hc]. eapply nested_key; eassumption.
        + intros f l Hn. apply (HG f l). eapply nested_key; eassumption.
      - intros f l -> ->. apply (HG f l). constructor. }
    destruct (N.eq_dec tag 5) as [T5|T5]; [|destruct (N.eq_dec tag 7) as [T7|T7]].
    - destruct (GO True ltac:(auto) ltac:(auto)) as [H1 H2]. split; [|exact H2].
      destruct (fst (tag_body (parse_tag_fuel n o1 E1) o1 E1 tag body c1)) eqn:K; destruct (fst (tag_body (parse_tag_fuel m o2 E2) o2 E2 tag body c2)); cbn in *; auto.
      exists tag, body. split; [constructor | exact (Hcrash _ _ _ _ (or_introl T5) Hl K)].
    - destruct (GO True ltac:(auto) ltac:(auto)) as [H1 H2]. split; [|exact H2].
      destruct (fst (tag_body (parse_tag_fuel n o1 E1) o1 E1 tag body c1)) eqn:K; destruct (fst (tag_body (parse_tag_fuel m o2 E2) o2 E2 tag body c2)); cbn in *; auto.
      exists tag, body. split; [constructor | exact (Hcrash _ _ _ _ (or_intror T7) Hl K)].
    - apply GO; auto.
  Qed.

  Lemma rel_parse_tag tag body c1 c2 : lenZ body < 2 ^ 62 -> Good tag body -> RC c1 c2 ->
    rres (Bad tag body) RP (fst (parse_tag o1 E1 tag body c1)) (fst (parse_tag o2 E2 tag body c2)) /\
    (fst (parse_tag o1 E1 tag body c1) <> RPanic -> RC (snd (parse_tag o1 E1 tag body c1)) (snd (parse_tag o2 E2 tag body c2))).
  Proof. intros. unfold parse_tag. apply rel_parse_fuel; try assumption; lia. Qed.

  (** ** The loops over packets *)
  Definition chunks_ok (c : chunks) : Prop := pieces_ok c /\ Z.of_nat (chunks_left c) < 2 ^ 62.

  Lemma next_chunks_rel c : chunks_ok c ->
    next_chunks E1 c = next_chunks E2 c /\
    let '(r, c') := next_chunks E1 c in
    r <> RPanic /\ r <> RFuel /\ chunks_ok c' /\ (chunks_left c' <= chunks_left c)%nat /\
    (forall tag b, r = ROk (Some (tag, b)) -> (length b + chunks_left c' < chunks_left c)%nat).
  Proof.
    intros [P L]. unfold next_chunks. rewrite <- (hl_grow _ _ _ _ _ _ _ _ _ _ _ LV). split; [reflexivity|].
    pose proof (next_packet_chunks (e_grow E1) (S (S (chunks_len c))) c P ltac:(unfold chunks_len, chunks_left; lia)) as H.
    destruct (next_packet chunk_read (e_grow E1) (S (S (chunks_len c))) c) as [[[[tag b]|e]|] c'].
    - destruct H as (P' & L' & B'). repeat split; try discriminate; try assumption; try lia. intros ? ? [=<- <-]. exact B'.
    - destruct H as (P' & L' & _). repeat split; try assumption; try lia; destruct (rerr_err e); discriminate.
    - destruct H as (_ & _ & []).
  Qed.

  Lemma rel_expand fuel : forall c i1 i2 c1 c2, chunks_ok c -> (chunks_left c < fuel)%nat ->
    (forall t b, input_packet E1 c t b -> Good t b) -> RI i1 i2 -> RC c1 c2 ->
    rres (exists t b, input_packet E1 c t b /\ Bad t b) RI (fst (expand_loop o1 E1 fuel c i1 c1)) (fst (expand_loop o2 E2 fuel c i2 c2)) /\
    (fst (expand_loop o1 E1 fuel c i1 c1) <> RPanic -> RC (snd (expand_loop o1 E1 fuel c i1 c1)) (snd (expand_loop o2 E2 fuel c i2 c2))).
  Proof.
    induction fuel as [|fuel IH]; intros c i1 i2 c1 c2 OK L HG Hi HC; [lia|]. cbn [expand_loop].
    destruct (next_chunks_rel c OK) as [EQ H]. rewrite <- EQ. destruct (next_chunks E1 c) as [r c'] eqn:N.
    destruct H as (N1 & N2 & OK' & LE & B). destruct r as [[[tag b]|]|e| |]; try congruence; [|cbn; auto|cbn; auto].
    specialize (B tag b eq_refl).
    destruct (rel_parse_tag tag b c1 c2 ltac:(unfold lenZ; destruct OK; lia) (HG _ _ (ip_next _ _ _ _ _ N)) HC) as [H1 H2].
    destruct (parse_tag o1 E1 tag b c1) as [r1 d1], (parse_tag o2 E2 tag b c2) as [r2 d2]. cbn [fst snd] in *.
    destruct r1 as [[j1 x1]|e1| |], r2 as [[j2 x2]|e2| |]; cbn in H1; try contradiction; cbn [fst snd rres].
    - destruct H1 as [H1 _]. cbn [fst] in H1.
      destruct (IH c' (add_child j1 i1) (add_child j2 i2) d1 d2 OK' ltac:(lia) (fun t b0 K => HG t b0 (ip_later _ _ _ _ _ _ _ N K)) (RI_add _ _ _ _ _ _ _ _ H1 Hi) (H2 ltac:(discriminate))) as [K1 K2].
      split; [|exact K2]. revert K1. apply rres_impl; auto. intros (t & b0 & P & Q). exists t, b0. split; [|exact Q]. eapply ip_later; eauto.
    - split; [exact H1|]. intros _. apply H2. discriminate.
    - split; [|congruence]. exists tag, b. split; [eapply ip_next; eauto | exact H1].
  Qed.

  Lemma chunks_of_ok d ok : lenZ d < 2 ^ 62 -> chunks_ok (chunks_of d ok) /\ chunks_left (chunks_of d ok) = length d.
  Proof.
    intro L. unfold chunks_ok, chunks_of, pieces_ok, chunks_left. destruct d as [|b d]; cbn [k_pieces concat].
    - repeat split; [constructor].
    - rewrite app_nil_r. repeat split; [constructor; [discriminate | constructor] | exact L].
  Qed.

  Lemma no_packets E t b : ~ input_packet E (chunks_of [] true) t b.
  Proof. intro H. inversion H; discriminate. Qed.

  (** The packets met at one packet of the input. *)
  Definition metp (tag : N) (body : bytes) (t : N) (b : bytes) : Prop :=
    nested E1 tag body t b \/
    tag = 8%N /\ exists d t0 b0, contents E1 body d /\ input_packet E1 (chunks_of d true) t0 b0 /\ nested E1 t0 b0 t b.
  Definition BadP (tag : N) (body : bytes) : Prop := exists t b, metp tag body t b /\ Crash t b.
  Definition GoodP (tag : N) (body : bytes) : Prop := forall f l, metp tag body 11 (f :: l) -> RV (litfmt_string f) (litfmt_string f).

  Lemma rel_packets tag body c1 c2 : lenZ body < 2 ^ 62 -> GoodP tag body -> RC c1 c2 ->
    rres (BadP tag body) RI (fst (packets_parse o1 E1 tag body c1)) (fst (packets_parse o2 E2 tag body c2)) /\
    (fst (packets_parse o1 E1 tag body c1) <> RPanic -> RC (snd (packets_parse o1 E1 tag body c1)) (snd (packets_parse o2 E2 tag body c2))).
  Proof.
    intros L HG HC. unfold packets_parse. destruct (rel_parse_tag tag body c1 c2 L (fun f l K => HG f l (or_introl K)) HC) as [H1 H2].
    destruct (parse_tag o1 E1 tag body c1) as [r1 d1] eqn:P1, (parse_tag o2 E2 tag body c2) as [r2 d2]. cbn [fst snd] in *.
    destruct r1 as [[j1 x1]|e1| |], r2 as [[j2 x2]|e2| |]; cbn in H1; try contradiction; cbn [fst snd rres].
    - destruct H1 as (H1 & Hd & Hx). cbn [fst snd] in *. subst x2. specialize (H2 ltac:(discriminate)).
      destruct x1 as [d|]; [|cbn; auto]. destruct (expanded_contents _ _ _ _ _ _ _ _ L P1) as [T8 Hd]. destruct (chunks_of_ok d true Hx) as [OK LE].
      destruct (rel_expand (S (length d)) (chunks_of d true) j1 j2 d1 d2 OK ltac:(lia)) as [K1 K2]; [|exact H1|exact H2|].
      { intros t b Hi f l Hn. destruct Hd as [Hd|Hd]; [|rewrite Hd in Hi; destruct (no_packets _ _ _ Hi)].
        apply (HG f l). right. split; [exact T8|]. exists d, t, b. auto. }
      split; [|exact K2]. revert K1. apply rres_impl; auto. intros (t & b & P & t' & b' & Q1 & Q2). destruct Hd as [Hd|Hd]; [|rewrite Hd in P; destruct (no_packets _ _ _ P)].
      exists t', b'. split; [|exact Q2]. right. split; [exact T8|]. exists d, t, b. auto.
    - split; [exact H1|]. intros _. apply H2. discriminate.
    - split; [|congruence]. destruct H1 as (t & b & Q1 & Q2). exists t, b. split; [left; exact Q1 | exact Q2].
  Qed.

  Lemma rel_parse_loop fuel : forall c c1 c2 a1 a2, chunks_ok c -> (chunks_left c < fuel)%nat ->
    (forall t b, input_packet E1 c t b -> GoodP t b) -> RC c1 c2 -> Forall2 RI a1 a2 ->
    rres (exists t b, input_packet E1 c t b /\ BadP t b) eq (snd (parse_loop o1 E1 fuel c c1 a1)) (snd (parse_loop o2 E2 fuel c c2 a2)) /\
    Forall2 RI (fst (parse_loop o1 E1 fuel c c1 a1)) (fst (parse_loop o2 E2 fuel c c2 a2)).
  Proof.
    induction fuel as [|fuel IH]; intros c c1 c2 a1 a2 OK L HG HC Ha; [lia|]. cbn [parse_loop].
    destruct (next_chunks_rel c OK) as [EQ H]. rewrite <- EQ. destruct (next_chunks E1 c) as [r c'] eqn:N.
    destruct H as (N1 & N2 & OK' & LE & B). destruct r as [[[tag b]|]|e| |]; try congruence; [|cbn; auto|cbn; auto].
    specialize (B tag b eq_refl).
    destruct (rel_packets tag b c1 c2 ltac:(unfold lenZ; destruct OK; lia) (HG _ _ (ip_next _ _ _ _ _ N)) HC) as [H1 H2].
    destruct (packets_parse o1 E1 tag b c1) as [r1 d1], (packets_parse o2 E2 tag b c2) as [r2 d2]. cbn [fst snd] in *.
    destruct r1 as [j1|e1| |], r2 as [j2|e2| |]; cbn in H1; try contradiction; cbn [fst snd rres].
    - destruct (IH c' d1 d2 (a1 ++ [j1]) (a2 ++ [j2]) OK' ltac:(lia) (fun t b0 K => HG t b0 (ip_later _ _ _ _ _ _ _ N K)) (H2 ltac:(discriminate))) as [K1 K2].
      { apply Forall2_app; [exact Ha | constructor; [exact H1 | constructor]]. }
      split; [|exact K2]. revert K1. apply rres_impl; auto. intros (t & b0 & P & Q). exists t, b0. split; [|exact Q]. eapply ip_later; eauto.
    - auto.
    - split; [|exact Ha]. exists tag, b. split; [eapply ip_next; eauto | exact H1].
  Qed.

  Lemma metp_met c t0 b0 t b : input_packet E1 c t0 b0 -> metp t0 b0 t b -> packet_met E1 c t b.
  Proof.
    intros Hi [Hn | (-> & d & t1 & b1 & Hc & Hi' & Hn)]; [eapply met_top; eassumption | eapply met_compressed; eassumption].
  Qed.
  Theorem rel_parse_chunks c : chunks_ok c ->
    (forall f l, packet_met E1 c 11 (f :: l) -> RV (litfmt_string f) (litfmt_string f)) ->
    rres (exists t b, packet_met E1 c t b /\ Crash t b) eq (snd (parse_chunks o1 E1 c)) (snd (parse_chunks o2 E2 c)) /\
    Forall2 RI (fst (parse_chunks o1 E1 c)) (fst (parse_chunks o2 E2 c)).
  Proof.
    intros OK HG. unfold parse_chunks.
    destruct (rel_parse_loop (S (chunks_len c)) c cst_init cst_init [] [] OK) as [H1 H2].
    - unfold chunks_len, chunks_left. lia.
    - intros t b Hi f l Hm. apply (HG f l). exact (metp_met _ _ _ _ _ Hi Hm).
    - destruct LV. unfold RelL.RC, cst_init; cbn. repeat split; auto.
    - constructor.
    - split; [|exact H2]. revert H1. apply rres_impl; [|auto].
      intros (t & b & Hi & t' & b' & Hm & Hc). exists t', b'. split; [|exact Hc]. exact (metp_met _ _ _ _ _ Hi Hm).
  Qed.
End Parse.
