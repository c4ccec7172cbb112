(** * DamageL: an armored text with one character changed (C53). *)
From Coq Require Import Strings.String Strings.Byte List NArith ZArith Bool Arith Lia ZifyBool ZifyN ZifyNat.
From Verif Require Import Base BaseL SpecBase Utf8 Env Parse Radix64 SpecArmor SpecRadix64 ArmorL Radix64L ChecksumL ArmorTextL.
Import ListNotations.
Local Open Scope N_scope.

(** ** Lines that may contain carriage returns *)
Definition loose_line (l : bytes) : Prop :=
  lenN l <= 96 /\ ~ In x0a l /\ (forall v, l <> x2d :: x2d :: v) /\ (forall v, l = x3d :: v -> (length v < 4)%nat).
Lemma strip_filter l : filter not_newline (strip_cr l) = filter not_newline l.
Proof.
  destruct (strip_cr_cases l) as [->|(t & -> & ->)]; [reflexivity|]. rewrite filter_app. cbn. rewrite app_nil_r. reflexivity.
Qed.
Lemma strip_loose l : loose_line l -> loose_line (strip_cr l).
Proof.
  destruct (strip_cr_cases l) as [->|(t & -> & ->)]; [auto|]. intros (L & NI & D & C).
  split; [rewrite lenN_app in L; lia|]. split; [intro I; apply NI, in_app_iff; left; exact I|].
  split; [intros v ->; apply (D (v ++ [x0d])); reflexivity|].
  intros v ->. specialize (C (v ++ [x0d]) eq_refl). rewrite app_length in C. cbn [length] in C. lia.
Qed.
Lemma armor_lines_loose f l rest : loose_line l ->
  armor_lines (S f) (l ++ x0a :: rest) = let '(c, e) := armor_lines f rest in (strip_cr l ++ c, e).
Proof.
  intro H. pose proof (strip_loose l H) as (L' & _ & D & C). destruct H as (L & NI & _ & _).
  cbn [armor_lines]. rewrite read_line_short; [|exact NI | unfold lenN in L; lia].
  assert (has_prefix armor_end (strip_cr l) = false) as ->.
  { destruct (strip_cr l) as [|c [|c' t]]; [reflexivity | | ]; unfold armor_end; change (str "-----END ") with (x2d :: x2d :: str "---END "); cbn [has_prefix].
    - destruct (Byte.eqb x2d c); reflexivity.
    - destruct (Byte.eqb x2d c) eqn:E; [|reflexivity]. destruct (Byte.eqb x2d c') eqn:E'; [|reflexivity].
      apply byte_eqb_spec in E, E'. subst. exfalso. exact (D t eq_refl). }
  rewrite read_crc_none by (intros v E; specialize (C v E); lia). replace (96 <? lenN (strip_cr l)) with false by lia. reflexivity.
Qed.
Lemma armor_lines_looses ls : forall f rest, Forall loose_line ls -> (length (unlines ls) <= f)%nat ->
  exists f' cs, (f <= f' + length (unlines ls))%nat /\ filter not_newline cs = filter not_newline (concat ls) /\
  armor_lines f (unlines ls ++ rest) = let '(c, e) := armor_lines f' rest in (cs ++ c, e).
Proof.
  induction ls as [|l ls IH]; intros f rest H L.
  - exists f, []. split; [lia|]. split; [reflexivity|]. cbn [unlines flat_map app]. destruct (armor_lines f rest); reflexivity.
  - inversion H; subst. cbn [unlines flat_map] in *. fold (unlines ls) in *. rewrite !app_length in L. cbn [length] in L.
    destruct f as [|f]; [lia|]. rewrite <- !app_assoc. cbn [app]. rewrite armor_lines_loose by assumption.
    destruct (IH f rest) as (f' & cs & L' & EF & ->); [assumption | lia |]. exists f', (strip_cr l ++ cs).
    split; [rewrite !app_length; cbn [length]; lia|]. split; [cbn [concat]; rewrite !filter_app, strip_filter, EF; reflexivity|].
    destruct (armor_lines f' rest). rewrite <- app_assoc. reflexivity.
Qed.

(** A block whose data lines are any such lines, with a checksum. *)
Lemma decode_loose cuts n b hs bl ls e : n < 2 ^ 24 -> begin_armor b -> Forall header hs -> blank bl -> Forall loose_line ls -> end_armor e ->
  let chars := filter not_newline (concat ls) in
  armor_decode cuts (unlines (b :: hs ++ bl :: ls ++ [sum_line n; e])) =
  let '(d, ok) := b64_body (S (length chars)) cuts chars true in Some (d, ok && (n =? checksum d)).
Proof.
  intros HN B H BL LS EA chars. unfold armor_decode. rewrite block_head by assumption.
  rewrite unlines_app. set (fin := unlines [sum_line n; e]).
  destruct (armor_lines_looses ls (S (length (unlines ls ++ fin))) fin) as (f' & cs & L' & EF & ->); [exact LS | rewrite app_length; lia|].
  assert (armor_lines f' fin = ([], LEof (Some n))) as ->.
  { destruct f' as [|f']; [rewrite app_length in L'; unfold fin in L'; cbn [unlines flat_map] in L'; rewrite !app_length in L'; cbn [length] in L'; lia|].
    unfold fin. cbn [unlines flat_map]. rewrite app_nil_r, <- app_assoc. cbn [app armor_lines].
    assert (~ In x0a (sum_line n) /\ ~ In x0d (sum_line n)) as [NA ND].
    { pose proof (base64_chars (be_enc 3 n)) as C. rewrite Forall_forall in C. unfold sum_line. split; (intros [I|I]; [discriminate|]); apply C in I; destruct I as [I _]; discriminate I. }
    rewrite read_line_short; [|exact NA|].
    - rewrite strip_cr_without by exact ND.
      change (has_prefix armor_end (sum_line n)) with false. rewrite read_crc_sum by exact HN.
      destruct (end_armor_read 0 e EA) as (_ & e2 & -> & ->). reflexivity.
    - unfold sum_line. pose proof (be_enc_length 3 n) as L. destruct (be_enc 3 n) as [|x [|y [|z [|? ?]]]]; try discriminate L. cbn. lia. }
  rewrite app_nil_r, EF. fold chars. destruct (b64_body _ cuts chars true) as [d ok]. rewrite crc24_checksum. reflexivity.
Qed.

(** ** Characters *)
Lemma four_ind (P : bytes -> Prop) :
  (forall l, (length l < 4)%nat -> P l) -> (forall a b c d t, P t -> P (a :: b :: c :: d :: t)) -> forall l, P l.
Proof.
  intros P0 P4 l. enough (forall n l, (length l <= n)%nat -> P l) as H by (apply (H (length l)); lia). clear l.
  induction n as [|n IH]; intros l L; [apply P0; lia|].
  destruct l as [|a [|b [|c [|d t]]]]; try (apply P0; cbn [length]; lia). apply P4, IH. cbn [length] in L. lia.
Qed.
Definition in_alphabet (c : byte) : Prop := b64_value c <> None.
Lemma quantum_in c0 c1 c2 c3 r : quantum c0 c1 c2 c3 = Some r -> Forall (fun c => in_alphabet c \/ c = x3d) [c0; c1; c2; c3].
Proof.
  unfold quantum, in_alphabet. destruct (b64_value c0) eqn:E0; [|discriminate]. destruct (b64_value c1) eqn:E1; [|discriminate].
  intro H. constructor; [left; congruence|]. constructor; [left; congruence|].
  destruct (b64_value c2) eqn:E2.
  - constructor; [left; congruence|]. constructor; [|constructor]. destruct (b64_value c3) eqn:E3; [left; congruence|].
    destruct (Byte.eqb c3 x3d) eqn:Q; [right; apply byte_eqb_spec, Q | discriminate].
  - destruct (Byte.eqb c2 x3d && Byte.eqb c3 x3d) eqn:Q; [|discriminate]. apply andb_true_iff in Q. destruct Q as [Q2 Q3]. apply byte_eqb_spec in Q2, Q3. subst. auto.
Qed.
Lemma decode_in l : forall d, decode_buf l = (d, true) -> Forall (fun c => in_alphabet c \/ c = x3d) l /\ exists k, length l = (4 * k)%nat.
Proof.
  induction l as [l L | c0 c1 c2 c3 t IH] using four_ind; intros d H.
  - destruct l as [|a [|b [|c [|? ?]]]]; try discriminate H; [split; [constructor | exists 0%nat; reflexivity] | cbn [length] in L; lia].
  - cbn [decode_buf] in H. destruct (quantum c0 c1 c2 c3) as [[q [|]]|] eqn:Q; [| |discriminate]; apply quantum_in in Q.
    + destruct t; [|discriminate]. split; [exact Q | exists 1%nat; reflexivity].
    + destruct (decode_buf t) as [r ok]. injection H as _ ->. destruct (IH r eq_refl) as [F [k L]].
      split; [|exists (S k); cbn [length]; lia]. change (c0 :: c1 :: c2 :: c3 :: t) with ([c0; c1; c2; c3] ++ t). apply Forall_app. auto.
Qed.
Lemma body_in f : forall cuts l d eof, b64_body f cuts l eof = (d, true) -> Forall (fun c => in_alphabet c \/ c = x3d) l /\ exists k, length l = (4 * k)%nat.
Proof.
  induction f as [|f IH]; intros cuts l d eof H; [discriminate|]. cbn [b64_body] in H.
  destruct (length l <? 4)%nat eqn:S.
  - injection H as _ H. apply andb_true_iff in H. destruct l; [|destruct H; discriminate]. split; [constructor | exists 0%nat; reflexivity].
  - set (k := Nat.min _ _) in H. destruct (decode_buf (firstn (4 * k) l)) as [d1 ok] eqn:D. destruct ok; [|discriminate].
    destruct (b64_body f (tl cuts) (skipn (4 * k) l) eof) as [r e] eqn:R. injection H as _ ->.
    apply decode_in in D. apply IH in R. destruct D as [F1 [k1 L1]], R as [F2 [k2 L2]].
    rewrite <- (firstn_skipn (4 * k) l). split; [apply Forall_app; auto|]. rewrite app_length, L1, L2. exists (k1 + k2)%nat. lia.
Qed.
Lemma decode_split l : forall k d, decode_buf l = (d, true) -> (4 * k <= length l)%nat ->
  exists d1 d2, decode_buf (firstn (4 * k) l) = (d1, true) /\ decode_buf (skipn (4 * k) l) = (d2, true) /\ d = d1 ++ d2.
Proof.
  induction l as [l L | c0 c1 c2 c3 t IH] using four_ind; intros k d H LK.
  - replace k with 0%nat by lia. exists [], d. auto.
  - destruct k as [|k]; [exists [], d; auto|]. replace (4 * S k)%nat with (S (S (S (S (4 * k))))) in * by lia. cbn [length] in LK. cbn [firstn skipn decode_buf] in *.
    destruct (quantum c0 c1 c2 c3) as [[q [|]]|] eqn:Q; [| |discriminate].
    + destruct t; [|discriminate]. injection H as <-. rewrite firstn_nil, skipn_nil. exists q, []. rewrite app_nil_r. auto.
    + destruct (decode_buf t) as [r ok] eqn:D. injection H as <- ->. destruct (IH k r eq_refl ltac:(lia)) as (d1 & d2 & -> & -> & ->).
      exists (q ++ d1), d2. rewrite app_assoc. auto.
Qed.
Lemma body_decode f : forall cuts l d eof, decode_buf l = (d, true) -> (length l < f)%nat -> b64_body f cuts l eof = (d, eof).
Proof.
  induction f as [|f IH]; intros cuts l d eof H L; [lia|]. cbn [b64_body].
  destruct (decode_in l d H) as [_ [k4 L4]].
  destruct (length l <? 4)%nat eqn:S.
  - destruct l; [|cbn [length] in *; lia]. injection H as <-. rewrite andb_true_r. reflexivity.
  - set (k := Nat.min (Nat.max 1 (hd 1%nat cuts)) (length l / 4)).
    assert (1 <= k /\ 4 * k <= length l)%nat as [K1 K2].
    { unfold k. rewrite L4. replace (4 * k4 / 4)%nat with k4 by (rewrite Nat.mul_comm, Nat.div_mul by lia; reflexivity). lia. }
    destruct (decode_split l k d H K2) as (d1 & d2 & -> & D2 & ->). rewrite (IH (tl cuts) _ d2 eof D2); [reflexivity|]. rewrite skipn_length. lia.
Qed.

(** One character of the alphabet in place of another: as many octets, and a difference in three octets at most. *)
Lemma quantum_swap u x y v c0 c1 c2 c3 c0' c1' c2' c3' d p : in_alphabet x -> in_alphabet y ->
  [c0; c1; c2; c3] = u ++ x :: v -> [c0'; c1'; c2'; c3'] = u ++ y :: v -> quantum c0 c1 c2 c3 = Some (d, p) ->
  exists d', quantum c0' c1' c2' c3' = Some (d', p) /\ length d = length d' /\ (length d <= 3)%nat.
Proof.
  unfold in_alphabet. intros X Y E E' Q.
  assert (forall c c', (c = c' \/ c = x /\ c' = y) -> (b64_value c = None <-> b64_value c' = None) /\ Byte.eqb c x3d = Byte.eqb c' x3d) as K.
  { intros c c' [->|[-> ->]]; [tauto|]. split; [tauto|]. assert (forall z, b64_value z <> None -> Byte.eqb z x3d = false) as Z.
    { intros z Hz. destruct (Byte.eqb z x3d) eqn:T; [|reflexivity]. apply byte_eqb_spec in T. subst z. exfalso. apply Hz. reflexivity. }
    rewrite (Z x X), (Z y Y). reflexivity. }
  assert ((c0 = c0' \/ c0 = x /\ c0' = y) /\ (c1 = c1' \/ c1 = x /\ c1' = y) /\ (c2 = c2' \/ c2 = x /\ c2' = y) /\ (c3 = c3' \/ c3 = x /\ c3' = y)) as (H0 & H1 & H2 & H3).
  { destruct u as [|? [|? [|? [|? u]]]]; cbn [app] in E, E'.
    5: { apply (f_equal (@length byte)) in E. cbn in E. rewrite app_length in E. cbn in E. lia. }
    all: inversion E; subst; inversion E'; subst; repeat split; auto. }
  apply K in H0, H1, H2, H3. destruct H0 as [V0 _], H1 as [V1 _], H2 as [V2 Q2], H3 as [V3 Q3]. clear - V0 V1 V2 V3 Q2 Q3 Q.
  unfold quantum in *. rewrite <- Q2, <- Q3.
  destruct (b64_value c0) as [v0|], (b64_value c0') as [w0|]; try discriminate Q; try (exfalso; destruct V0 as [A B]; (discriminate (B eq_refl) || discriminate (A eq_refl))).
  destruct (b64_value c1) as [v1|], (b64_value c1') as [w1|]; try discriminate Q; try (exfalso; destruct V1 as [A B]; (discriminate (B eq_refl) || discriminate (A eq_refl))).
  destruct (b64_value c2) as [v2|], (b64_value c2') as [w2|]; try (exfalso; destruct V2 as [A B]; (discriminate (B eq_refl) || discriminate (A eq_refl))).
  - destruct (b64_value c3) as [v3|], (b64_value c3') as [w3|]; try (exfalso; destruct V3 as [A B]; (discriminate (B eq_refl) || discriminate (A eq_refl))).
    + injection Q as <- <-. eexists. split; [reflexivity|]. cbn. auto.
    + destruct (Byte.eqb c3 x3d); [|discriminate]. injection Q as <- <-. eexists. split; [reflexivity|]. cbn. auto.
  - destruct (Byte.eqb c2 x3d && Byte.eqb c3 x3d); [|discriminate]. injection Q as <- <-. eexists. split; [reflexivity|]. cbn. auto.
Qed.
Lemma decode_swap (l : bytes) : forall u x y v d, l = u ++ x :: v -> in_alphabet x -> in_alphabet y -> decode_buf l = (d, true) ->
  exists d', decode_buf (u ++ y :: v) = (d', true) /\ (d' = d \/ damaged d d').
Proof.
  induction l as [l L | c0 c1 c2 c3 t IH] using four_ind; intros u x y v d E X Y H.
  - destruct (decode_in l d H) as [_ [k L4]]. assert (length l = 0%nat) as Z by lia. rewrite E, app_length in Z. cbn [length] in Z. lia.
  - cbn [decode_buf] in H. destruct (quantum c0 c1 c2 c3) as [[q p]|] eqn:Q; [|discriminate].
    destruct (le_lt_dec 4 (length u)) as [G|G].
    + destruct u as [|u0 [|u1 [|u2 [|u3 u]]]]; cbn [length] in G; try lia. cbn [app] in E. injection E as -> -> -> -> E.
      destruct p; [destruct t; [destruct u; discriminate E | discriminate]|].
      destruct (decode_buf t) as [r ok] eqn:D. injection H as <- ->. destruct (IH u x y v r E X Y eq_refl) as (r' & D' & K).
      exists (q ++ r'). split; [cbn [app decode_buf]; rewrite Q, D'; reflexivity|]. destruct K as [->|(a & m & m' & b & -> & -> & K)]; [left; reflexivity|].
      right. exists (q ++ a), m, m', b. rewrite <- !app_assoc. auto.
    + assert (exists v', v = v' ++ t /\ [c0; c1; c2; c3] = u ++ x :: v') as (v' & -> & E4).
      { destruct u as [|u0 [|u1 [|u2 [|u3 u]]]]; cbn [length] in G; try lia; cbn [app] in E; injection E as; subst.
        - exists [c1; c2; c3]; auto.
        - exists [c2; c3]; auto.
        - exists [c3]; auto.
        - exists []; auto. }
      assert (exists c0' c1' c2' c3', [c0'; c1'; c2'; c3'] = u ++ y :: v') as (c0' & c1' & c2' & c3' & E4').
      { apply (f_equal (@length byte)) in E4. rewrite app_length in E4. cbn [length] in E4.
        assert (length (u ++ y :: v') = 4%nat) as L4 by (rewrite app_length; cbn [length]; lia).
        destruct (u ++ y :: v') as [|a0 [|a1 [|a2 [|a3 [|? ?]]]]]; try discriminate L4. eauto. }
      destruct (quantum_swap u x y v' _ _ _ _ _ _ _ _ q p X Y E4 E4' Q) as (q' & Q' & LQ & L3).
      replace (u ++ y :: v' ++ t) with ((u ++ y :: v') ++ t) by (rewrite <- app_assoc; reflexivity). rewrite <- E4'. cbn [app decode_buf]. rewrite Q'.
      assert (forall r, q' ++ r = q ++ r \/ damaged (q ++ r) (q' ++ r)) as W.
      { intro r. destruct (list_eq_dec (fun a b : byte => Byte.byte_eq_dec a b) q q') as [->|NE]; [auto|]. right. exists [], q, q', r. auto. }
      destruct p.
      * destruct t; [|discriminate]. injection H as <-. exists q'. split; [reflexivity|]. specialize (W []). rewrite !app_nil_r in W. exact W.
      * destruct (decode_buf t) as [r ok]. injection H as <- ->. exists (q' ++ r). auto.
Qed.

(** ** The changed text *)
Lemma changed_loose data ls1 u x v ls2 c : data_lines data (ls1 ++ (u ++ x :: v) :: ls2) -> c <> x3d -> c <> x0a ->
  Forall loose_line (ls1 ++ (u ++ c :: v) :: ls2).
Proof.
  intros D NC NL.
  assert (forall l a z, ls1 ++ (u ++ x :: v) :: ls2 = a ++ l :: z ->
    lenN l <= 96 /\ ~ In x0a l /\ ~ In x2d l /\ (forall w, l = x3d :: w -> (length w <= 1)%nat)) as K.
  { intros l a z E. pose proof (data_lines_ok _ _ D) as OK. destruct D as [CC _]. rewrite E in OK, CC. rewrite concat_app in CC. cbn [concat] in CC.
    apply Forall_app in OK. destruct OK as [_ OK]. inversion OK as [|? ? (A1 & A2 & _) _]; subst.
    split; [exact A1|]. split; [apply (not_newline_in l x0a A2 eq_refl)|]. split.
    - intro I. pose proof (base64_chars data) as CH. rewrite Forall_forall in CH. destruct (CH x2d) as [_ X]; [rewrite <- CC; rewrite !in_app_iff; auto | apply X; reflexivity].
    - intros w ->. pose proof (base64_pad data (concat a) (w ++ concat z)) as P. rewrite <- CC in P. specialize (P eq_refl). rewrite app_length in P. lia. }
  apply Forall_app. split; [|constructor].
  - apply Forall_forall. intros l I. apply in_split in I. destruct I as (a & z & ->). destruct (K l a (z ++ (u ++ x :: v) :: ls2)) as (K1 & K2 & K3 & K4).
    { rewrite <- app_assoc. reflexivity. }
    split; [exact K1|]. split; [exact K2|]. split; [intros w ->; apply K3; left; reflexivity | intros w E; apply K4 in E; lia].
  - destruct (K (u ++ x :: v) ls1 ls2 eq_refl) as (K1 & K2 & K3 & K4).
    split; [rewrite lenN_app, lenN_cons in *; lia|].
    split; [rewrite in_app_iff in *; cbn [In] in *; intros [I|[I|I]]; [tauto | congruence | tauto]|].
    rewrite in_app_iff in K3. cbn [In] in K3. split.
    + intros w E. destruct u as [|u0 u]; cbn [app] in E; injection E as E1 E2; [apply K3; right; right; rewrite E2; left; reflexivity | apply K3; left; left; exact E1].
    + intros w E. destruct u as [|u0 u]; cbn [app] in E; injection E as E1 E2; [contradiction|]. subst u0. specialize (K4 _ eq_refl).
      rewrite <- E2, app_length in *. cbn [length] in *. lia.
  - apply Forall_forall. intros l I. apply in_split in I. destruct I as (a & z & ->). destruct (K l (ls1 ++ (u ++ x :: v) :: a) z) as (K1 & K2 & K3 & K4).
    { rewrite <- app_assoc. reflexivity. }
    split; [exact K1|]. split; [exact K2|]. split; [intros w ->; apply K3; left; reflexivity | intros w E; apply K4 in E; lia].
Qed.

Lemma decode_changed cuts data b hs bl ls1 u x v ls2 c e :
  begin_armor b -> Forall header hs -> blank bl -> data_lines data (ls1 ++ (u ++ x :: v) :: ls2) -> end_armor e ->
  x <> x3d -> c <> x3d -> c <> x0a ->
  exists d ok, armor_decode cuts (unlines (b :: hs ++ bl :: (ls1 ++ (u ++ c :: v) :: ls2) ++ [sum_line (checksum data); e])) = Some (d, ok)
    /\ (ok = true -> d = data).
Proof.
  intros HB HH HL HD HE NX NC NL. pose proof (changed_loose _ _ _ _ _ _ _ HD NC NL) as LO.
  rewrite (decode_loose cuts (checksum data)) by (assumption || apply checksum_small).
  destruct HD as [CC _]. rewrite concat_app in CC |- *. cbn [concat] in CC |- *. rewrite <- app_assoc in CC |- *. cbn [app] in CC |- *.
  rewrite app_assoc in CC |- *. set (U := concat ls1 ++ u) in *. set (V := v ++ concat ls2) in *.
  assert (Forall (fun z => not_newline z = true) (U ++ x :: V)) as NN by (rewrite CC; eapply Forall_impl; [|apply base64_chars]; intros z [Z _]; exact Z).
  apply Forall_app in NN. destruct NN as [NU NV]. inversion NV as [|? ? NX' NV']; subst.
  rewrite filter_app, (filter_all not_newline U NU). cbn [filter]. rewrite (filter_all not_newline V NV').
  set (chars := U ++ (if not_newline c then c :: V else V)).
  destruct (b64_body (S (length chars)) cuts chars true) as [d ok] eqn:BB. exists d, (ok && (checksum data =? checksum d)). split; [reflexivity|].
  intro T. apply andb_true_iff in T. destruct T as [-> T]. apply N.eqb_eq in T.
  destruct (body_in _ _ _ _ _ BB) as [AL [k LK]].
  assert (not_newline c = true) as NNC.
  { destruct (not_newline c) eqn:N; [reflexivity|]. exfalso. destruct (base64_len4 data) as [k' L']. rewrite <- CC in L'. unfold chars in LK.
    rewrite app_length in *. cbn [length] in L'. lia. }
  unfold chars in *. rewrite NNC in *.
  assert (in_alphabet c) as IC by (apply Forall_app in AL; destruct AL as [_ AL]; inversion AL as [|? ? [I|I] _]; [exact I | contradiction]).
  assert (in_alphabet x) as IX.
  { destruct (decode_in _ _ (decode_base64 data)) as [AL' _]. rewrite <- CC in AL'. apply Forall_app in AL'. destruct AL' as [_ AL']. inversion AL' as [|? ? [I|I] _]; [exact I | contradiction]. }
  destruct (decode_swap (U ++ x :: V) U x c V data eq_refl IX IC) as (d' & D' & W); [rewrite CC; apply decode_base64|].
  rewrite (body_decode _ cuts _ d' true D') in BB by lia. injection BB as <-.
  destruct W as [->|W]; [reflexivity|]. apply damage_changes in W. contradiction.
Qed.

(** A line of more than 96 characters. *)
Lemma body_eof f : forall cuts l, snd (b64_body f cuts l false) = false.
Proof.
  induction f as [|f IH]; intros cuts l; [reflexivity|]. cbn [b64_body]. destruct (length l <? 4)%nat; [reflexivity|].
  set (k := Nat.min _ _). destruct (decode_buf (firstn (4 * k) l)) as [d [|]]; [|reflexivity].
  specialize (IH (tl cuts) (skipn (4 * k) l)). destruct (b64_body f (tl cuts) (skipn (4 * k) l) false). exact IH.
Qed.
Lemma decode_long cuts b hs bl ls l rest : begin_armor b -> Forall header hs -> blank bl -> Forall data_line ls -> 96 < lenN l -> ~ In x0a l -> ~ In x0d l ->
  (forall t, l <> armor_end ++ t) -> exists d, armor_decode cuts (unlines (b :: hs ++ bl :: ls ++ l :: rest)) = Some (d, false).
Proof.
  intros B H BL D L NA ND NE. unfold armor_decode. rewrite block_head by assumption.
  rewrite unlines_app. set (fin := unlines (l :: rest)).
  destruct (armor_lines_datas ls (S (length (unlines ls ++ fin))) fin) as (f' & L' & ->); [exact D | rewrite app_length; lia|].
  assert (armor_lines f' fin = ([], LBad)) as ->.
  { destruct f' as [|f']; [rewrite app_length in L'; lia|].
    unfold fin. cbn [unlines flat_map]. fold (unlines rest). rewrite <- app_assoc. cbn [app armor_lines].
    destruct (Nat.lt_ge_cases (length l) 100) as [S|S].
    - rewrite read_line_short, strip_cr_without by assumption.
      destruct (has_prefix armor_end l) eqn:P; [apply has_prefix_starts in P; destruct P as [t ->]; exfalso; exact (NE t eq_refl)|].
      rewrite read_crc_none by (intros v ->; unfold lenN in L; cbn [length] in L; lia). replace (96 <? lenN l) with true by lia. reflexivity.
    - destruct (read_line_long l (unlines rest) NA S) as (k & _ & ->). reflexivity. }
  rewrite app_nil_r. set (chars := filter not_newline (concat ls)). pose proof (body_eof (S (length chars)) cuts chars) as E.
  destruct (b64_body _ cuts chars false) as [d ok]. cbn [snd] in E. subst ok. exists d. reflexivity.
Qed.
