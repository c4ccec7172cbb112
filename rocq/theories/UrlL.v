(** * UrlL: lemmas on parsed URLs. *)
From Coq Require Import Strings.String Strings.Byte List NArith ZArith Bool Lia ZifyBool ZifyN ZifyNat.
From Verif Require Import Base Utf8 Hkp Url SpecBase SpecHkp SpecUrl BaseL HkpL.
Import ListNotations.
Local Open Scope N_scope.

Lemma url_split_cut : forall c t, url_split c t = match cut c t with Some (a, r) => (a, Some r) | None => (t, None) end.
Proof.
  intros c t. induction t as [|b t IH]; [reflexivity|]. cbn [url_split cut].
  destruct (Byte.eqb b c); [reflexivity|]. rewrite IH. destruct (cut c t) as [[a r]|]; reflexivity.
Qed.

Lemma hex_value_any : forall b, hex_value b = any_hex b.
Proof. destruct b; reflexivity. Qed.

Lemma url_unescape_decode : forall t, url_unescape t = percent_decode t.
Proof.
  intro t. remember (length t) as n. revert t Heqn.
  induction n as [n IH] using (well_founded_induction Wf_nat.lt_wf). intros t ->.
  destruct t as [|b t]; [reflexivity|]. cbn [url_unescape percent_decode].
  destruct (Byte.eqb b x25).
  - destruct t as [|h [|k r]]; [reflexivity|reflexivity|].
    rewrite !hex_value_any, (IH (length r)) by (cbn; lia || reflexivity). reflexivity.
  - rewrite (IH (length t)) by (cbn; lia || reflexivity). now destruct (percent_decode t).
Qed.

Lemma query_unescape_decode : forall t, query_unescape t = form_decode t.
Proof.
  intro t. remember (length t) as n. revert t Heqn.
  induction n as [n IH] using (well_founded_induction Wf_nat.lt_wf). intros t ->.
  destruct t as [|b t]; [reflexivity|]. cbn [query_unescape form_decode].
  destruct (Byte.eqb b x25).
  - destruct t as [|h [|k r]]; [reflexivity|reflexivity|].
    rewrite !hex_value_any, (IH (length r)) by (cbn; lia || reflexivity). reflexivity.
  - rewrite (IH (length t)) by (cbn; lia || reflexivity). now destruct (form_decode t).
Qed.

Definition plain_esc (plain : byte -> bool) (b : byte) : bytes := if plain b then [b] else percent b.
Lemma url_escape_cons : forall plain b t, url_escape plain (b :: t) = plain_esc plain b ++ url_escape plain t.
Proof. reflexivity. Qed.
Lemma url_escape_app : forall plain a b, url_escape plain (a ++ b) = url_escape plain a ++ url_escape plain b.
Proof. intros. unfold url_escape. apply flat_map_app. Qed.

Lemma percent_decode_esc : forall plain b t, plain x25 = false ->
  percent_decode (plain_esc plain b ++ t) = match percent_decode t with Some r => Some (b :: r) | None => None end.
Proof.
  intros plain b t H. unfold plain_esc. destruct (plain b) eqn:E.
  - cbn [app percent_decode]. destruct (Byte.eqb b x25) eqn:K; [|reflexivity].
    apply Byte.byte_dec_bl in K. subst. congruence.
  - destruct b; cbn; destruct (percent_decode t); reflexivity.
Qed.
Lemma percent_decode_escape : forall plain s, plain x25 = false -> percent_decode (url_escape plain s) = Some s.
Proof.
  intros plain s H. induction s as [|b s IH]; [reflexivity|].
  rewrite url_escape_cons, percent_decode_esc, IH by exact H. reflexivity.
Qed.
Lemma percent_decode_app : forall a t, avoids x25 a ->
  percent_decode (a ++ t) = match percent_decode t with Some r => Some (a ++ r) | None => None end.
Proof.
  induction a as [|b a IH]; intros t H; [cbn [app]; now destruct (percent_decode t)|].
  cbn [app percent_decode]. destruct (Byte.eqb b x25) eqn:K.
  - apply Byte.byte_dec_bl in K. subst. exfalso. apply H. now left.
  - rewrite IH by (intro Q; apply H; now right). now destruct (percent_decode t).
Qed.
Lemma percent_decode_plain : forall a, avoids x25 a -> percent_decode a = Some a.
Proof. intros a H. rewrite <- (app_nil_r a), percent_decode_app by exact H. reflexivity. Qed.

(** The octets an escaped part can contain. *)
Definition part_octet (plain : byte -> bool) (b : byte) : bool := in_chars (str "!$&'()*+,;=:@[]%") b || plain b.

Lemma path_esc_octets : forall t, forallb (part_octet path_plain) (url_escape path_plain t) = true.
Proof.
  induction t as [|b t IH]; [reflexivity|]. rewrite url_escape_cons, forallb_app, IH, andb_true_r.
  destruct b; reflexivity.
Qed.

Lemma path_escaped : forall t p, set_part path_plain t = Some p ->
  percent_decode (escaped_part path_plain p) = percent_decode t /\
  forallb (part_octet path_plain) (escaped_part path_plain p) = true /\
  (escaped_part path_plain p = t \/ exists d, percent_decode t = Some d /\ escaped_part path_plain p = url_escape path_plain d).
Proof.
  intros t p H. unfold set_part in H. rewrite url_unescape_decode in H.
  destruct (percent_decode t) as [d|] eqn:D; [|discriminate]. injection H as <-.
  unfold escaped_part.
  destruct (beqs t (url_escape path_plain d)) eqn:E.
  - cbn [is_nil negb andb]. split; [now apply percent_decode_escape|]. split; [apply path_esc_octets|].
    right. exists d. split; reflexivity.
  - destruct (negb (is_nil t) && valid_encoded path_plain t && _) eqn:V.
    + apply andb_true_iff in V as [V _]. apply andb_true_iff in V as [_ V].
      split; [exact D|]. split; [exact V|]. now left.
    + split; [now apply percent_decode_escape|]. split; [apply path_esc_octets|]. right. exists d. split; reflexivity.
Qed.

Lemma url_escape_plain : forall plain s, forallb plain s = true -> url_escape plain s = s.
Proof.
  intros plain s. induction s as [|b s IH]; [reflexivity|]. cbn [forallb]. intro H.
  apply andb_true_iff in H as [H1 H2]. rewrite url_escape_cons, IH by exact H2. unfold plain_esc. now rewrite H1.
Qed.

(** Plain octets at the start stay where they are. *)
Lemma path_escaped_prefix : forall pre t p, forallb path_plain pre = true -> set_part path_plain (pre ++ t) = Some p ->
  exists t', escaped_part path_plain p = pre ++ t'.
Proof.
  intros pre t p Hp H. destruct (path_escaped _ _ H) as (_ & _ & [E|(d & D & E)]); rewrite E; [now exists t|].
  rewrite percent_decode_app in D by (eapply forallb_avoids; [exact Hp|reflexivity]).
  destruct (percent_decode t) as [r|]; [|discriminate]. injection D as <-.
  rewrite url_escape_app, (url_escape_plain path_plain pre) by exact Hp. now eexists.
Qed.

(** Text without percent signs. *)
Lemma path_escaped_plain : forall t, avoids x25 t -> exists p, set_part path_plain t = Some p /\
  fst p = t /\ (escaped_part path_plain p = t \/ escaped_part path_plain p = url_escape path_plain t).
Proof.
  intros t H. unfold set_part. rewrite url_unescape_decode, percent_decode_plain by exact H. eexists. split; [reflexivity|].
  split; [reflexivity|]. unfold escaped_part. destruct (beqs t _); [now right|].
  destruct (_ && _); [now left|now right].
Qed.

(** Reading back the text of a URL. *)
Lemma https_parts : forall host E q f,
  (forall c, In c [x23; x3f; x2f] -> avoids c host) -> (forall c, In c [x23; x3f] -> avoids c E) ->
  (exists E', E = x2f :: E') -> match q with Some q => avoids x23 q | None => True end ->
  url_parts (str "https://" ++ host ++ E ++ match q with Some q => str "?" ++ q | None => [] end ++
             match f with Some f => str "#" ++ f | None => [] end) =
  Some (mkParts (str "https") host E q f).
Proof.
  intros host E q f HH HE (E' & EE) HQ.
  assert (HF : forall c, In c [x23; x3f] -> avoids c (str "https://" ++ host ++ E)).
  { intros c Hc. apply avoids_app; [intro K; cbn in Hc, K; intuition subst; discriminate|].
    apply avoids_app; [apply HH; cbn in *; tauto|now apply HE]. }
  assert (C : cut x3a (str "https://" ++ host ++ E) = Some (str "https", x2f :: x2f :: host ++ E)) by reflexivity.
  assert (CE : cut x2f (host ++ E) = Some (host, E')).
  { subst E. apply cut_avoids, HH. cbn; tauto. }
  unfold url_parts.
  assert (HR : match q with Some q => avoids x23 (str "?" ++ q) | None => True end).
  { destruct q as [q|]; [|exact I]. apply avoids_app; [intro K; cbn in K; intuition discriminate|exact HQ]. }
  assert (CQ : forall t, t = str "https://" ++ host ++ E ++ match q with Some q => str "?" ++ q | None => [] end ->
     match cut x3f t with Some (a, q) => (a, Some q) | None => (t, None) end = (str "https://" ++ host ++ E, q)).
  { intros t ->. destruct q as [q|].
    - replace (str "https://" ++ host ++ E ++ str "?" ++ q) with ((str "https://" ++ host ++ E) ++ x3f :: q)
        by (rewrite <- !app_assoc; reflexivity).
      rewrite cut_avoids by (apply HF; cbn; tauto). reflexivity.
    - rewrite !app_nil_r, cut_none by (apply HF; cbn; tauto). reflexivity. }
  assert (A : avoids x23 (str "https://" ++ host ++ E ++ match q with Some q => str "?" ++ q | None => [] end)).
  { rewrite (app_assoc host), app_assoc. apply avoids_app; [apply HF; cbn; tauto|].
    destruct q; [exact HR|intros []]. }
  destruct f as [f|].
  - match goal with |- context [cut x23 ?t] => replace t with
      ((str "https://" ++ host ++ E ++ match q with Some q => str "?" ++ q | None => [] end) ++ x23 :: f)
      by (rewrite <- !app_assoc; reflexivity) end.
    rewrite cut_avoids by exact A. rewrite CQ by reflexivity. rewrite C, CE. now rewrite EE.
  - rewrite app_nil_r. rewrite cut_none by exact A. rewrite CQ by reflexivity. rewrite C, CE. now rewrite EE.
Qed.

(** Queries. *)
Definition pair_text (p : bytes * bytes) : bytes := query_escape (fst p) ++ str "=" ++ query_escape (snd p).
Lemma pair_text_avoids : forall p c, component_octet c = false -> c <> x3d -> avoids c (pair_text p).
Proof.
  intros p c H N. unfold pair_text. apply avoids_app; [eapply forallb_avoids; [apply escape_octets|exact H]|].
  apply avoids_app; [|eapply forallb_avoids; [apply escape_octets|exact H]].
  intros [K|[]]. change (x3d = c) in K. congruence.
Qed.
Lemma parameter_text : forall p, parameter (pair_text p) = Some p.
Proof.
  intros [k v]. unfold parameter, pair_text. cbn [fst snd]. change (str "=" ++ query_escape v) with (x3d :: query_escape v).
  rewrite cut_avoids by (eapply forallb_avoids; [apply escape_octets|reflexivity]).
  now rewrite !form_decode_escape.
Qed.
Lemma parameters_encode : forall l, l <> [] -> parameters (values_encode l) = Some l.
Proof.
  intros l. unfold parameters, values_encode.
  change (fun p : bytes * bytes => query_escape (fst p) ++ str "=" ++ query_escape (snd p)) with pair_text.
  induction l as [|p l IH]; [congruence|]. intros _. destruct l as [|p' l].
  - cbn [map join]. rewrite split_avoids by (apply pair_text_avoids; [reflexivity|discriminate]).
    cbn [map all_some]. now rewrite parameter_text.
  - change (join (str "&") (map pair_text (p :: p' :: l)))
      with (pair_text p ++ x26 :: join (str "&") (map pair_text (p' :: l))).
    rewrite split_app by (apply pair_text_avoids; [reflexivity|discriminate]).
    specialize (IH ltac:(discriminate)).
    change (map parameter (?a :: ?r)) with (parameter a :: map parameter r). cbn [all_some]. rewrite parameter_text.
    match goal with |- match ?X with _ => _ end = _ => replace X with (Some (p' :: l)) by (symmetry; exact IH) end.
    reflexivity.
Qed.
Lemma encode_avoids : forall l c, component_octet c = false -> c <> x3d -> c <> x26 -> avoids c (values_encode l).
Proof.
  intros l c H N M. unfold values_encode.
  change (fun p : bytes * bytes => query_escape (fst p) ++ str "=" ++ query_escape (snd p)) with pair_text.
  induction l as [|p l IH]; [intros []|]. destruct l as [|p' l]; [now apply pair_text_avoids|].
  change (join (str "&") (map pair_text (p :: p' :: l)))
    with (pair_text p ++ str "&" ++ join (str "&") (map pair_text (p' :: l))).
  apply avoids_app; [now apply pair_text_avoids|]. apply avoids_app; [|exact IH].
  intros [K|[]]. change (x26 = c) in K. congruence.
Qed.

Lemma bytes_leb_refl : forall a, bytes_leb a a = true.
Proof. induction a as [|x a IH]; [reflexivity|]. cbn [bytes_leb]. rewrite N.ltb_irrefl, N.eqb_refl. exact IH. Qed.

Lemma values_of_insert : forall k p l, values_of k (insert_pair p l) = values_of k (p :: l).
Proof.
  intros k p l. unfold values_of. f_equal. induction l as [|q l IH]; [reflexivity|]. cbn [insert_pair].
  destruct (bytes_leb (fst p) (fst q)) eqn:E; [reflexivity|].
  change (filter ?f (q :: ?t)) with (if f q then q :: filter f t else filter f t). cbv beta. rewrite IH.
  cbn [filter]. destruct (beqs k (fst p)) eqn:A; destruct (beqs k (fst q)) eqn:B; try reflexivity.
  apply beqs_spec in A. apply beqs_spec in B. rewrite <- A, <- B, bytes_leb_refl in E. discriminate.
Qed.
Lemma values_of_cons : forall k p l, values_of k (p :: l) = (if beqs k (fst p) then [snd p] else []) ++ values_of k l.
Proof. intros k p l. unfold values_of. cbn [filter]. now destruct (beqs k (fst p)). Qed.
Lemma values_of_app : forall k a b, values_of k (a ++ b) = values_of k a ++ values_of k b.
Proof. intros k a b. unfold values_of. now rewrite filter_app, map_app. Qed.
Lemma values_of_sort : forall k l, values_of k (sort_pairs l) = values_of k l.
Proof.
  intros k l. induction l as [|p l IH]; [reflexivity|]. unfold sort_pairs in *. cbn [fold_right].
  rewrite values_of_insert, !values_of_cons, IH. reflexivity.
Qed.
Lemma values_of_filter : forall k k' l, values_of k (filter (fun p => negb (beqs k' (fst p))) l) =
  if beqs k k' then [] else values_of k l.
Proof.
  intros k k' l. induction l as [|p l IH]; [now destruct (beqs k k')|].
  cbn [filter]. destruct (beqs k' (fst p)) eqn:E; cbn [negb].
  - rewrite IH, values_of_cons. apply beqs_spec in E. rewrite <- E. now destruct (beqs k k').
  - rewrite !values_of_cons, IH. destruct (beqs k k') eqn:K; [|reflexivity].
    apply beqs_spec in K. subst k'. now rewrite E.
Qed.
Lemma values_of_set : forall k k' v l, values_of k (values_set k' v l) = if beqs k k' then [v] else values_of k l.
Proof.
  intros k k' v l. unfold values_set. rewrite values_of_app, values_of_filter, values_of_cons. cbn [fst snd].
  destruct (beqs k k'); [reflexivity|]. unfold values_of at 2. cbn. now rewrite app_nil_r.
Qed.
Lemma sort_set_some : forall k v l, sort_pairs (values_set k v l) <> [].
Proof.
  intros k v l H. assert (K : values_of k (sort_pairs (values_set k v l)) = [v]).
  { rewrite values_of_sort, values_of_set, beqs_refl. reflexivity. }
  rewrite H in K. discriminate.
Qed.
