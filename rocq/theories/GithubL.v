(** * GithubL: lemmas on the key lookup. *)
From Coq Require Import Strings.String Strings.Byte List NArith ZArith Bool Lia ZifyBool ZifyN ZifyNat.
From Verif Require Import Base Utf8 Hkp Url Github SpecBase SpecHkp SpecUrl SpecGithub BaseL HkpL UrlL.
Import ListNotations.
Local Open Scope N_scope.

Lemma scan_ascii : forall b t, b2n b < 128 -> scan (b :: t) = Some (b2n b) :: scan t.
Proof. intros b t H. cbn [scan]. replace (b2n b <? 0x80) with true by lia. reflexivity. Qed.

Definition rune_of (o : option N) : N := match o with Some r => r | None => 0xFFFD end.

Lemma decode2_big : forall a b r, decode2 a b = Some r -> 128 <= r.
Proof.
  unfold decode2, inr. intros a b r. destruct (_ && _) eqn:E; [|discriminate].
  intros [= <-]. lia.
Qed.
Lemma decode3_big : forall a b c r, decode3 a b c = Some r -> 128 <= r.
Proof.
  unfold decode3, inr. intros a b c r. cbv zeta.
  destruct (a =? 0xE0) eqn:E0; destruct (a =? 0xED) eqn:E1; destruct (_ && _) eqn:E; try discriminate;
    intros [= <-]; lia.
Qed.
Lemma decode4_big : forall a b c d r, decode4 a b c d = Some r -> 128 <= r.
Proof.
  unfold decode4, inr. intros a b c d r. cbv zeta.
  destruct (a =? 0xF0) eqn:E0; destruct (a =? 0xF4) eqn:E1; destruct (_ && _) eqn:E; try discriminate;
    intros [= <-]; lia.
Qed.

Lemma scan_big : forall b t, 128 <= b2n b -> exists o u, scan (b :: t) = o :: u /\ 128 <= rune_of o.
Proof.
  intros b t H. cbn [scan]. replace (b2n b <? 0x80) with false by lia.
  assert (B : 128 <= rune_of None) by (cbn; lia).
  destruct t as [|b1 t1]; [do 2 eexists; split; [reflexivity|exact B]|].
  destruct (decode2 _ _) eqn:D2.
  { do 2 eexists; split; [reflexivity|]. cbn [rune_of]. eapply decode2_big; eauto. }
  destruct t1 as [|b2 t2]; [do 2 eexists; split; [reflexivity|exact B]|].
  destruct (decode3 _ _ _) eqn:D3.
  { do 2 eexists; split; [reflexivity|]. cbn [rune_of]. eapply decode3_big; eauto. }
  destruct t2 as [|b3 t3]; [do 2 eexists; split; [reflexivity|exact B]|].
  destruct (decode4 _ _ _ _) eqn:D4.
  { do 2 eexists; split; [reflexivity|]. cbn [rune_of]. eapply decode4_big; eauto. }
  do 2 eexists; split; [reflexivity|exact B].
Qed.

Definition low (b : byte) : byte := if inr 65 90 (b2n b) then n2b (b2n b + 32) else b.

Lemma gh_lower_ascii : forall G s, Forall (fun b => b2n b < 128) s -> gh_lower G s = map low s.
Proof.
  intros G s H. induction H as [|b s Hb Hs IH]; [reflexivity|].
  unfold gh_lower in *. rewrite scan_ascii by exact Hb. cbn [flat_map map].
  change byte with Byte.byte in IH. rewrite IH.
  replace (b2n b <? 0x80) with true by lia. unfold low.
  change (?a ++ ?l) with (a ++ l).
  destruct (inr 65 90 (b2n b)) eqn:E.
  - unfold enc_rune. unfold inr in E. replace (b2n b + 32 <? 0x80) with true by lia. reflexivity.
  - unfold enc_rune. replace (b2n b <? 0x80) with true by lia.
    cbn [app]. f_equal. destruct b; reflexivity.
Qed.

Lemma runes_ascii : forall b t, b2n b < 128 -> runes (b :: t) = b2n b :: runes t.
Proof. intros b t H. unfold runes. now rewrite scan_ascii. Qed.

Lemma low_ascii : forall b, b2n b < 128 -> b2n (low b) < 128.
Proof. intros b H. destruct b; vm_compute; try reflexivity; vm_compute in H; discriminate. Qed.

Lemma any_hex_ascii : forall b, any_hex b <> None -> b2n b < 128.
Proof. intros b H. destruct b; try reflexivity; exfalso; apply H; reflexivity. Qed.

(** One octet against one lower-cased hexadecimal digit. *)
Lemma rune_fold_hex : forall G x d, b2n x < 128 -> any_hex d <> None ->
  rune_fold G (b2n x) (b2n (low d)) = (up x =? up d).
Proof.
  intros G x d Hx Hd.
  destruct d; try (exfalso; apply Hd; reflexivity);
    (destruct x; try reflexivity; vm_compute in Hx; discriminate).
Qed.

Lemma rune_fold_hex_big : forall G r d, 128 <= r -> any_hex d <> None ->
  rune_fold G r (b2n (low d)) = false.
Proof.
  intros G r d Hr Hd. unfold rune_fold.
  assert (K : b2n (low d) < 128 /\ b2n (low d) <> 75 /\ b2n (low d) <> 107 /\ b2n (low d) <> 83 /\ b2n (low d) <> 115).
  { destruct d; try (exfalso; apply Hd; reflexivity); vm_compute; repeat split; discriminate. }
  destruct K as (K1 & K2 & K3 & K4 & K5).
  remember (b2n (low d)) as y.
  replace (r =? y) with false by lia.
  replace (N.max r y) with r by lia. replace (N.min r y) with y by lia.
  replace (r <? 128) with false by lia. replace (y <? 128) with true by lia.
  replace (y =? 75) with false by lia. replace (y =? 107) with false by lia.
  replace (y =? 83) with false by lia. replace (y =? 115) with false by lia. reflexivity.
Qed.

Lemma up_ascii : forall x d, any_hex d <> None -> up x = up d -> b2n x < 128.
Proof.
  intros x d Hd H. unfold up in H. pose proof (any_hex_ascii d Hd).
  destruct ((97 <=? b2n x) && (b2n x <=? 122)) eqn:E; [lia|].
  destruct ((97 <=? b2n d) && (b2n d <=? 122)); lia.
Qed.

Lemma equal_fold_hex : forall G digits id, hex_text digits ->
  equal_fold G id (map low digits) = true <-> same_letters id digits.
Proof.
  intros G digits. unfold equal_fold, same_letters.
  induction digits as [|d digits IH]; intros id H.
  - destruct id as [|b t]; [split; reflexivity|]. split; [|discriminate].
    cbn [map]. change (runes []) with (@nil N).
    destruct (N.lt_ge_cases (b2n b) 128) as [L|L].
    + rewrite runes_ascii by exact L. discriminate.
    + destruct (scan_big b t L) as (o & u & E & _). unfold runes. rewrite E. discriminate.
  - inversion H as [|? ? Hd Hds]; subst. cbn [map].
    rewrite (runes_ascii (low d)) by (apply low_ascii, any_hex_ascii, Hd).
    destruct id as [|b t]; [split; discriminate|].
    destruct (N.lt_ge_cases (b2n b) 128) as [L|L].
    + rewrite runes_ascii by exact L. cbn [equal_fold_runes].
      rewrite rune_fold_hex by assumption. rewrite andb_true_iff, N.eqb_eq, (IH t Hds).
      cbn [map]. split; [intros [-> ->]; reflexivity|]. intros [= E1 E2]. now split.
    + destruct (scan_big b t L) as (o & u & E & B). unfold runes at 1. rewrite E. cbn [map equal_fold_runes].
      change (match o with Some r => r | None => 0xFFFD end) with (rune_of o).
      rewrite rune_fold_hex_big by assumption. split; [discriminate|].
      cbn [map]. intros [= E1 E2]. apply up_ascii in E1; [lia|exact Hd].
Qed.

Lemma hex_ascii : forall l, hex_text l -> Forall (fun b => b2n b < 128) l.
Proof. intros l H. eapply Forall_impl; [|exact H]. intros b Hb. now apply any_hex_ascii. Qed.

Lemma trim_hex : forall digits, hex_text digits ->
  trim_prefix (str "0x") (map low digits) = map low digits.
Proof.
  intros digits H. unfold trim_prefix.
  destruct digits as [|a [|b t]]; [reflexivity| |].
  - cbn [map]. change (str "0x") with [x30; x78]. cbn [has_prefix]. rewrite andb_false_r. reflexivity.
  - inversion H as [|? ? Ha Hr]; subst. inversion Hr as [|? ? Hb Ht]; subst.
    cbn [map]. change (str "0x") with [x30; x78]. cbn [has_prefix].
    replace (Byte.eqb x78 (low b)) with false; [now rewrite andb_false_r|].
    destruct b; try reflexivity; exfalso; apply Hb; reflexivity.
Qed.

Lemma trim_0x : forall t, trim_prefix (str "0x") (x30 :: x78 :: t) = t.
Proof. intro t. unfold trim_prefix. reflexivity. Qed.

Lemma id_matches_hex : forall G text digits id, written_id text digits ->
  id_matches G text id = true <-> same_letters id digits.
Proof.
  intros G text digits id (Hn & Hh & [->|[->| ->]]); unfold id_matches.
  - rewrite gh_lower_ascii by now apply hex_ascii. rewrite trim_hex by exact Hh. now apply equal_fold_hex.
  - change (str "0x" ++ digits) with (x30 :: x78 :: digits).
    rewrite gh_lower_ascii by (constructor; [reflexivity|constructor; [reflexivity|now apply hex_ascii]]).
    cbn [map]. change (low x30) with x30. change (low x78) with x78. rewrite trim_0x. now apply equal_fold_hex.
  - change (str "0X" ++ digits) with (x30 :: x58 :: digits).
    rewrite gh_lower_ascii by (constructor; [reflexivity|constructor; [reflexivity|now apply hex_ascii]]).
    cbn [map]. change (low x30) with x30. change (low x58) with x78. rewrite trim_0x. now apply equal_fold_hex.
Qed.

Lemma id_matches_false : forall G text digits id, written_id text digits ->
  ~ same_letters id digits -> id_matches G text id = false.
Proof.
  intros G text digits id W H. destruct (id_matches G text id) eqn:E; [|reflexivity].
  exfalso. apply H. now apply (id_matches_hex G text digits id W).
Qed.

Lemma find_others : forall G text digits l t, written_id text digits -> Forall (other digits) l ->
  find_key G text (l ++ t) = find_key G text t.
Proof.
  intros G text digits l t W H. induction H as [|e l (k & -> & Hk) Hl IH]; [reflexivity|].
  cbn [app find_key]. rewrite (id_matches_false G text digits) by assumption. exact IH.
Qed.

(** The entries of a page: all others, or a null after others, or a match after others. *)
Lemma page_cases : forall digits l,
  Forall (other digits) l \/
  (exists a b, l = a ++ None :: b /\ Forall (other digits) a) \/
  (exists a k b, l = a ++ Some k :: b /\ Forall (other digits) a /\ same_letters (k_id k) digits).
Proof.
  intros digits l. induction l as [|e l IH]; [left; constructor|].
  destruct e as [k|].
  2:{ right; left. exists [], l. split; [reflexivity|constructor]. }
  destruct (list_eq_dec N.eq_dec (map up (k_id k)) (map up digits)) as [E|E].
  { right; right. exists [], k, l. repeat split; [constructor|exact E]. }
  assert (O : other digits (Some k)) by (exists k; split; [reflexivity|exact E]).
  destruct IH as [H|[(a & b & -> & H)|(a & k' & b & -> & H & M)]].
  - left. now constructor.
  - right; left. exists (Some k :: a), b. split; [reflexivity|now constructor].
  - right; right. exists (Some k :: a), k', b. repeat split; [now constructor|exact M].
Qed.

Definition request (user : bytes) (n : N) : list bytes := match page_url user n with Some u => [u] | None => [] end.
Lemma flat_map_map : forall {A B C} (f : B -> list C) (g : A -> B) l, flat_map f (map g l) = flat_map (fun x => f (g x)) l.
Proof. intros. induction l as [|x l IH]; [reflexivity|]. cbn [map flat_map]. now rewrite IH. Qed.

Lemma loop_passed : forall G user text digits, written_id text digits ->
  forall n i fuel,
  (forall j, i <= j < i + N.of_nat n -> passed digits (page G user j)) ->
  pages_loop G user text (n + fuel) i =
  (fst (pages_loop G user text fuel (i + N.of_nat n)),
   flat_map (fun k => request user (i + N.of_nat k)) (seq 0 n) ++ snd (pages_loop G user text fuel (i + N.of_nat n))).
Proof.
  intros G user text digits W. induction n as [|n IH]; intros i fuel H.
  - cbn [plus seq flat_map app]. rewrite N.add_0_r. now destruct (pages_loop G user text fuel i).
  - cbn [plus]. cbn [pages_loop].
    destruct (H i ltac:(lia)) as (l & Hl & Hlen & Ho).
    unfold page in Hl. destruct (page_url user i) as [u|] eqn:U; [|discriminate]. rewrite Hl.
    rewrite <- (app_nil_r l) at 1. rewrite (find_others G text digits) by assumption.
    cbn [find_key]. unfold maxKeys. replace (lenN l <? 100) with false by lia.
    rewrite IH by (intros j Hj; apply H; lia).
    replace (i + 1 + N.of_nat n) with (i + N.of_nat (S n)) by lia.
    cbn [fst snd seq flat_map]. f_equal. rewrite <- seq_shift, flat_map_map.
    replace (i + N.of_nat 0) with i by lia. unfold request at 2. rewrite U. cbn [app]. f_equal. f_equal.
    apply flat_map_ext. intro k. f_equal. lia.
Qed.

Lemma loop_until : forall G user text digits n fuel, written_id text digits ->
  1 <= n -> passed_before G user digits n ->
  get_key G user text (N.to_nat n - 1 + S fuel) =
  (fst (pages_loop G user text (S fuel) n),
   flat_map (fun k => request user (N.of_nat k)) (seq 1 (N.to_nat n - 1)) ++ snd (pages_loop G user text (S fuel) n)).
Proof.
  intros G user text digits n fuel W Hn H. unfold get_key.
  assert (Ht : is_nil text = false).
  { destruct W as (Hd & _ & [->|[->| ->]]); [|reflexivity|reflexivity].
    destruct digits; [congruence|reflexivity]. }
  rewrite Ht. rewrite (loop_passed G user text digits W).
  2:{ intros j Hj. apply H. lia. }
  replace (1 + N.of_nat (N.to_nat n - 1)) with n by lia. f_equal. f_equal.
  rewrite <- seq_shift, flat_map_map. apply flat_map_ext. intro k. f_equal. lia.
Qed.

Lemma first_pages_last : forall user n, 1 <= n ->
  first_pages user n = flat_map (fun k => request user (N.of_nat k)) (seq 1 (N.to_nat n - 1)) ++ request user n.
Proof.
  intros user n H. unfold first_pages.
  replace (N.to_nat n) with (N.to_nat n - 1 + 1)%nat at 1 by lia.
  rewrite seq_app, flat_map_app. f_equal. cbn [seq flat_map]. rewrite app_nil_r.
  replace (N.of_nat (1 + (N.to_nat n - 1))) with n by lia. reflexivity.
Qed.

(** The query of a request. *)
Definition page_query (n : N) (given : list (bytes * bytes)) : list (bytes * bytes) :=
  sort_pairs (values_set (str "per_page") (dec maxKeys) (values_set (str "page") (dec n) given)).

Lemma page_query_avoids : forall n l, avoids x23 (values_encode (page_query n l)).
Proof. intros. apply encode_avoids; [reflexivity|discriminate|discriminate]. Qed.

Lemma page_query_values : forall n l,
  parameters (values_encode (page_query n l)) = Some (page_query n l) /\
  values_of (str "page") (page_query n l) = [dec n] /\ values_of (str "per_page") (page_query n l) = [str "100"].
Proof.
  intros n l. unfold page_query. split; [apply parameters_encode, sort_set_some|].
  split; rewrite values_of_sort, values_of_set; [|reflexivity].
  change (beqs (str "page") (str "per_page")) with false. cbv iota. rewrite values_of_set, beqs_refl. reflexivity.
Qed.

Lemma encode_some : forall l, l <> [] -> is_nil (values_encode l) = false.
Proof.
  intros l H. destruct l as [|p l]; [congruence|].
  assert (K : In x3d (values_encode (p :: l))).
  { assert (K : In x3d (pair_text p)) by (unfold pair_text; apply in_or_app; right; now left).
    unfold values_encode. cbn [map]. change (query_escape (fst p) ++ str "=" ++ query_escape (snd p)) with (pair_text p).
    cbn [join]. destruct (map _ l); [exact K|]. apply in_or_app. now left. }
  destruct (values_encode (p :: l)); [destruct K|reflexivity].
Qed.

Lemma is_ctl_spec : forall l, existsb is_ctl l = false <-> (forall b, In b l -> ~ control b).
Proof.
  intro l. split.
  - intros H b Hb K. enough (E : existsb is_ctl l = true) by congruence. apply existsb_exists. exists b. split; [exact Hb|].
    unfold is_ctl, control in *. lia.
  - intro H. destruct (existsb is_ctl l) eqn:E; [|reflexivity]. apply existsb_exists in E as (b & Hb & K).
    exfalso. apply (H b Hb). unfold is_ctl, control in *. lia.
Qed.

Lemma set_part_none : forall plain t, set_part plain t = None <-> percent_decode t = None.
Proof. intros plain t. unfold set_part. rewrite url_unescape_decode. destruct (percent_decode t); split; congruence. Qed.

(** What a parsed URL has. *)
Lemma url_parse_some : forall rest u, url_parse rest = Some u ->
  readable rest /\ set_part path_plain (before x3f (before x23 rest)) = Some (pu_path u) /\
  pu_query u = after x3f (before x23 rest) /\ (avoids x23 rest -> pu_fragment u = ([], [])) /\
  (avoids x3f rest -> pu_force u = false).
Proof.
  intros rest u. unfold url_parse, readable, before, after. rewrite url_split_cut.
  assert (AV : forall c, avoids c rest -> cut c rest = None) by (intro c; apply cut_none).
  destruct (cut x23 rest) as [[a f]|] eqn:C1.
  - destruct (existsb is_ctl a) eqn:E; [discriminate|]. rewrite url_split_cut.
    assert (AQ : avoids x3f rest -> cut x3f a = None).
    { intro H. apply cut_none. intro K. apply H. clear -C1 K.
      revert a f C1 K. induction rest as [|b r IH]; intros a f C K; [discriminate|]. cbn [cut] in C.
      destruct (Byte.eqb b x23); [injection C as <- <-; destruct K|].
      destruct (cut x23 r) as [[x y]|] eqn:D; [|discriminate]. injection C as <- <-.
      destruct K as [->|K]; [now left|]. right. now apply (IH x y). }
    destruct (match cut x3f a with Some (a0, r) => (a0, Some r) | None => (a, None) end) as [p q] eqn:Q.
    destruct (set_part path_plain p) as [path|] eqn:P; [|discriminate].
    assert (EP : match cut x3f a with Some (a0, _) => a0 | None => a end = p) by (destruct (cut x3f a) as [[? ?]|]; now injection Q).
    assert (EQ : match cut x3f a with Some (_, b) => b | None => [] end = match q with Some q => q | None => [] end)
      by (destruct (cut x3f a) as [[? ?]|]; injection Q as <- <-; reflexivity).
    assert (EF : avoids x3f rest -> q = None) by (intro H; rewrite (AQ H) in Q; now injection Q).
    intro H.
    assert (X : percent_decode f <> None /\ pu_path u = path /\ pu_query u = match q with Some q => q | None => [] end /\
                pu_force u = match q with Some [] => true | _ => false end).
    { destruct f as [|b f]; [injection H as <-; repeat split; discriminate|].
      destruct (set_part fragment_plain (b :: f)) eqn:F; [|discriminate]. injection H as <-. repeat split.
      intro K. apply (set_part_none fragment_plain) in K. congruence. }
    destruct X as (X1 & X2 & X3 & X4). rewrite EP, EQ. split; [split; [now apply is_ctl_spec|split; [|exact X1]]|].
    + intro K. apply (set_part_none path_plain) in K. congruence.
    + split; [congruence|]. split; [exact X3|]. split; [intro A; rewrite (AV _ A) in C1; discriminate|].
      intro A. rewrite X4, (EF A). reflexivity.
  - destruct (existsb is_ctl rest) eqn:E; [discriminate|]. rewrite url_split_cut.
    destruct (match cut x3f rest with Some (a0, r) => (a0, Some r) | None => (rest, None) end) as [p q] eqn:Q.
    destruct (set_part path_plain p) as [path|] eqn:P; [|discriminate].
    assert (EP : match cut x3f rest with Some (a0, _) => a0 | None => rest end = p) by (destruct (cut x3f rest) as [[? ?]|]; now injection Q).
    assert (EQ : match cut x3f rest with Some (_, b) => b | None => [] end = match q with Some q => q | None => [] end)
      by (destruct (cut x3f rest) as [[? ?]|]; injection Q as <- <-; reflexivity).
    assert (EF : avoids x3f rest -> q = None) by (intro H; rewrite (AV _ H) in Q; now injection Q).
    intros [= <-]. rewrite EP, EQ. cbn [pu_path pu_query pu_fragment pu_force].
    split; [split; [now apply is_ctl_spec|split; [|discriminate]]|].
    + intro K. apply (set_part_none path_plain) in K. congruence.
    + split; [exact P|]. split; [reflexivity|]. split; [reflexivity|]. intro A. now rewrite (EF A).
Qed.

Lemma url_parse_readable : forall rest, readable rest -> url_parse rest <> None.
Proof.
  intros rest (H1 & H2 & H3). unfold url_parse, before, after in *. rewrite url_split_cut.
  destruct (cut x23 rest) as [[a f]|] eqn:C1.
  - rewrite (proj2 (is_ctl_spec a) H1). rewrite url_split_cut.
    destruct (match cut x3f a with Some (a0, r) => (a0, Some r) | None => (a, None) end) as [p q] eqn:Q.
    assert (EP : match cut x3f a with Some (a0, _) => a0 | None => a end = p) by (destruct (cut x3f a) as [[? ?]|]; now injection Q).
    rewrite EP in H2. destruct (set_part path_plain p) eqn:P; [|apply set_part_none in P; congruence].
    destruct f as [|b f]; [discriminate|].
    destruct (set_part fragment_plain (b :: f)) eqn:F; [discriminate|apply set_part_none in F; congruence].
  - rewrite (proj2 (is_ctl_spec rest) H1). rewrite url_split_cut.
    destruct (match cut x3f rest with Some (a0, r) => (a0, Some r) | None => (rest, None) end) as [p q] eqn:Q.
    assert (EP : match cut x3f rest with Some (a0, _) => a0 | None => rest end = p) by (destruct (cut x3f rest) as [[? ?]|]; now injection Q).
    rewrite EP in H2. destruct (set_part path_plain p) eqn:P; [discriminate|apply set_part_none in P; congruence].
Qed.

Lemma before_app : forall c pre t, avoids c pre -> before c (pre ++ t) = pre ++ before c t.
Proof.
  intros c pre t H. unfold before. induction pre as [|b pre IH]; [reflexivity|]. cbn [app cut].
  destruct (Byte.eqb b c) eqn:E; [apply Byte.byte_dec_bl in E; subst; exfalso; apply H; now left|].
  specialize (IH ltac:(intro K; apply H; now right)).
  destruct (cut c (pre ++ t)) as [[x y]|]; cbn [app]; now rewrite IH.
Qed.
Lemma before_avoids : forall c t, avoids c (before c t).
Proof.
  intros c t. unfold before. induction t as [|b t IH]; [intros []|]. cbn [cut].
  destruct (Byte.eqb b c) eqn:E; [intros []|].
  assert (N : b <> c) by (intros ->; rewrite Byte.byte_dec_lb in E by reflexivity; discriminate).
  destruct (cut c t) as [[x y]|]; intros [K|K]; auto.
Qed.
Lemma in_before : forall c b t, In b (before c t) -> In b t.
Proof.
  intros c b t. unfold before. induction t as [|x t IH]; [intros []|]. cbn [cut]. destruct (Byte.eqb x c); [intros []|].
  destruct (cut c t) as [[p q]|]; intros [K|K]; [left|right|left|right]; auto.
Qed.
Lemma in_after : forall c b t, In b (after c t) -> In b t.
Proof.
  intros c b t. unfold after. induction t as [|x t IH]; [intros []|]. cbn [cut]. destruct (Byte.eqb x c); [intro K; now right|].
  destruct (cut c t) as [[p q]|]; [|intros []]. intro K. right. now apply IH.
Qed.

(** The parts of the text of a parsed URL with another query. *)
Lemma purl_parts : forall host pre rest u q,
  (forall c, In c [x23; x3f; x2f] -> avoids c host) -> forallb path_plain (x2f :: pre) = true ->
  url_parse (x2f :: pre ++ rest) = Some u -> avoids x23 q ->
  exists p path, url_parts (purl_string host (mkPurl (pu_path u) (pu_force u) q (pu_fragment u))) = Some p /\
    p_scheme p = str "https" /\ p_authority p = host /\ p_path p = x2f :: pre ++ path /\
    percent_decode (p_path p) = percent_decode (before x3f (before x23 (x2f :: pre ++ rest))) /\
    p_path p = escaped_part path_plain (pu_path u) /\
    p_query p = (if pu_force u || negb (is_nil q) then Some q else None) /\
    (avoids x23 (x2f :: pre ++ rest) -> p_fragment p = None).
Proof.
  intros host pre rest u q HH HP HU HQ.
  destruct (url_parse_some _ _ HU) as (_ & SP & _ & FR & _).
  destruct (path_escaped _ _ SP) as (D & O & _).
  assert (PRE : before x3f (before x23 (x2f :: pre ++ rest)) = (x2f :: pre) ++ before x3f (before x23 rest)).
  { change (x2f :: pre ++ rest) with ((x2f :: pre) ++ rest).
    rewrite !before_app by (eapply forallb_avoids; [exact HP|reflexivity]). reflexivity. }
  pose proof SP as SP'. rewrite PRE in SP'. destruct (path_escaped_prefix _ _ _ HP SP') as (path & EE).
  pose (f := if is_nil (fst (pu_fragment u)) then None else Some (escaped_part fragment_plain (pu_fragment u))).
  exists (mkParts (str "https") host (escaped_part path_plain (pu_path u)) (if pu_force u || negb (is_nil q) then Some q else None) f).
  exists path. cbn [p_scheme p_authority p_path p_query p_fragment].
  split; [|repeat split; try assumption; unfold f; intro A; rewrite (FR A); reflexivity].
  rewrite <- (https_parts host _ (if pu_force u || negb (is_nil q) then Some q else None) f HH).
  - unfold purl_string. cbn [pu_path pu_force pu_query pu_fragment]. f_equal. f_equal. f_equal. f_equal. f_equal.
    + now destruct (pu_force u || negb (is_nil q)).
    + unfold f. now destruct (is_nil (fst (pu_fragment u))).
  - intros c Hc. eapply forallb_avoids; [exact O|]. cbn in Hc. destruct Hc as [<-|[<-|[]]]; reflexivity.
  - rewrite EE. now eexists.
  - destruct (pu_force u || negb (is_nil q)); [exact HQ|exact I].
Qed.

Lemma api_host : forall c, In c [x23; x3f; x2f] -> avoids c (str "api.github.com").
Proof. intros c Hc K. cbn in Hc, K. intuition subst; discriminate. Qed.
Lemma www_host : forall c, In c [x23; x3f; x2f] -> avoids c (str "github.com").
Proof. intros c Hc K. cbn in Hc, K. intuition subst; discriminate. Qed.
