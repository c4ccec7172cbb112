(** * HkpL: lemmas on URLs. *)
From Coq Require Import Strings.String Strings.Byte List NArith ZArith Bool Lia.
From Verif Require Import Base Utf8 Hkp SpecBase BaseL SpecHkp.
Import ListNotations.
Local Open Scope N_scope.

Definition avoids (c : byte) (l : bytes) : Prop := ~ In c l.

Lemma avoids_app : forall c a b, avoids c a -> avoids c b -> avoids c (a ++ b).
Proof. unfold avoids; intros c a b Ha Hb H; apply in_app_or in H as [H|H]; auto. Qed.

Lemma cut_avoids : forall c a b, avoids c a -> cut c (a ++ c :: b) = Some (a, b).
Proof.
  induction a as [|x a IH]; intros b H; cbn.
  - now rewrite Byte.byte_dec_lb by reflexivity.
  - destruct (Byte.eqb x c) eqn:E.
    + apply Byte.byte_dec_bl in E. subst. exfalso. apply H. now left.
    + rewrite IH; [reflexivity|]. intro K. apply H. now right.
Qed.

Lemma cut_none : forall c a, avoids c a -> cut c a = None.
Proof.
  induction a as [|x a IH]; intros H; cbn; [reflexivity|].
  destruct (Byte.eqb x c) eqn:E.
  - apply Byte.byte_dec_bl in E. subst. exfalso. apply H. now left.
  - rewrite IH; [reflexivity|]. intro K. apply H. now right.
Qed.

Lemma split_avoids : forall c a, avoids c a -> split c a = [a].
Proof.
  induction a as [|x a IH]; intros H; cbn; [reflexivity|].
  destruct (Byte.eqb x c) eqn:E.
  - apply Byte.byte_dec_bl in E. subst. exfalso. apply H. now left.
  - rewrite IH; [reflexivity|]. intro K. apply H. now right.
Qed.

Lemma split_app : forall c a b, avoids c a -> split c (a ++ c :: b) = a :: split c b.
Proof.
  induction a as [|x a IH]; intros b H; cbn.
  - now rewrite Byte.byte_dec_lb by reflexivity.
  - destruct (Byte.eqb x c) eqn:E.
    + apply Byte.byte_dec_bl in E. subst. exfalso. apply H. now left.
    + rewrite IH; [reflexivity|]. intro K. apply H. now right.
Qed.

Definition esc1 (b : byte) : bytes :=
  if Byte.eqb b x20 then str "+" else if query_plain b then [b] else percent b.

Lemma query_escape_cons : forall b s, query_escape (b :: s) = esc1 b ++ query_escape s.
Proof. reflexivity. Qed.

Lemma form_decode_esc1 : forall b t,
  form_decode (esc1 b ++ t) = match form_decode t with Some r => Some (b :: r) | None => None end.
Proof. intros b t; destruct b; cbn; destruct (form_decode t); reflexivity. Qed.

Lemma form_decode_escape : forall s, form_decode (query_escape s) = Some s.
Proof.
  induction s as [|b s IH]; [reflexivity|].
  rewrite query_escape_cons, form_decode_esc1, IH. reflexivity.
Qed.

(** The octets a query component can contain. *)
Definition component_octet (b : byte) : bool :=
  query_plain b || Byte.eqb b x25 || Byte.eqb b x2b.

Lemma esc1_octets : forall b, forallb component_octet (esc1 b) = true.
Proof. destruct b; reflexivity. Qed.

Lemma escape_octets : forall s, forallb component_octet (query_escape s) = true.
Proof.
  induction s as [|b s IH]; [reflexivity|].
  rewrite query_escape_cons, forallb_app, esc1_octets, IH. reflexivity.
Qed.

Lemma forallb_avoids : forall (p : byte -> bool) c l,
  forallb p l = true -> p c = false -> avoids c l.
Proof.
  intros p c l H Hc K. rewrite forallb_forall in H. apply H in K. congruence.
Qed.

Lemma host_octets : forall s, forallb (fun b => host_plain b || Byte.eqb b x25) (host_escape s) = true.
Proof.
  induction s as [|b s IH]; [reflexivity|].
  unfold host_escape in *; cbn [flat_map]. rewrite forallb_app, IH.
  destruct b; reflexivity.
Qed.

Lemma host_escape_app : forall a b, host_escape (a ++ b) = host_escape a ++ host_escape b.
Proof. intros; unfold host_escape; apply flat_map_app. Qed.

Lemma dec_range : forall n, forallb (fun b => inr 48 57 (b2n b)) (dec n) = true.
Proof.
  intro n. pose proof (BaseL.dec_digits n) as D. rewrite forallb_forall in *. intros x Hx.
  specialize (D x Hx). destruct x; try reflexivity; discriminate.
Qed.

Lemma decZ_octets : forall z, forallb (fun b => inr 48 57 (b2n b) || Byte.eqb b x2d) (decZ z) = true.
Proof.
  assert (H : forall n, forallb (fun b => inr 48 57 (b2n b) || Byte.eqb b x2d) (dec n) = true).
  { intro n. pose proof (dec_range n) as D. rewrite forallb_forall in *. intros x Hx.
    rewrite (D x Hx). reflexivity. }
  destruct z; cbn [decZ]; try apply H.
Qed.

Lemma host_escape_plain : forall s, forallb host_plain s = true -> host_escape s = s.
Proof.
  induction s as [|b s IH]; [reflexivity|]. cbn [forallb]. intro H.
  apply andb_true_iff in H as [H1 H2].
  unfold host_escape in *; cbn [flat_map]. rewrite H1, IH by exact H2. reflexivity.
Qed.

Lemma decZ_host : forall z, host_escape (decZ z) = decZ z.
Proof.
  intro z. apply host_escape_plain. pose proof (decZ_octets z) as D.
  rewrite forallb_forall in *. intros x Hx. specialize (D x Hx).
  destruct x; try reflexivity; discriminate.
Qed.

Lemma protocol_avoids : forall p c, In c [x23; x3f; x3a] -> avoids c (protocol_string p).
Proof.
  intros p c H. unfold protocol_string.
  destruct (p =? HKP)%Z; [|destruct (p =? HKPS)%Z];
    (eapply (forallb_avoids (fun b => inr 97 122 (b2n b))); [reflexivity|]);
    cbn in H; intuition subst; reflexivity.
Qed.

Lemma raw_query : forall uid,
  u_query (fetch_url (mkServer 0 [] 0) uid) = str "op=get&search=" ++ query_escape uid.
Proof. reflexivity. Qed.

(** The text of the request URL. *)
Lemma fetch_text : forall s uid,
  url_string (fetch_url s uid) =
  protocol_string (sv_prt s) ++ x3a :: x2f :: x2f ::
  (host_escape (sv_host s) ++ str ":" ++ decZ (sv_port s)) ++ str "/pks/lookup" ++ x3f ::
  (str "op=get&search=" ++ query_escape uid).
Proof.
  intros s uid. unfold url_string, fetch_url, server_url.
  cbn [u_scheme u_host u_path u_query].
  rewrite !host_escape_app, decZ_host. reflexivity.
Qed.

Lemma authority_avoids : forall s c, In c [x23; x3f; x2f] ->
  avoids c (host_escape (sv_host s) ++ str ":" ++ decZ (sv_port s)).
Proof.
  intros s c H. repeat apply avoids_app.
  - eapply forallb_avoids; [apply host_octets|]. cbn in H; intuition subst; reflexivity.
  - intro K. cbn in H, K. intuition subst; discriminate.
  - eapply forallb_avoids; [apply decZ_octets|]. cbn in H; intuition subst; reflexivity.
Qed.

Lemma query_avoids : forall uid c, In c [x23; x3f] -> avoids c (str "op=get&search=" ++ query_escape uid).
Proof.
  intros uid c H. apply avoids_app.
  - intro K. cbn in H, K. intuition subst; discriminate.
  - eapply forallb_avoids; [apply escape_octets|]. cbn in H; intuition subst; reflexivity.
Qed.

Lemma fetch_parts : forall s uid,
  url_parts (url_string (fetch_url s uid)) =
  Some (mkParts (protocol_string (sv_prt s))
                (host_escape (sv_host s) ++ str ":" ++ decZ (sv_port s))
                (str "/pks/lookup")
                (Some (str "op=get&search=" ++ query_escape uid)) None).
Proof.
  intros s uid. rewrite fetch_text.
  remember (host_escape (sv_host s) ++ str ":" ++ decZ (sv_port s)) as auth eqn:Ea.
  remember (str "op=get&search=" ++ query_escape uid) as q eqn:Eq.
  remember (protocol_string (sv_prt s)) as sch eqn:Es.
  assert (HA : forall c, In c [x23; x3f; x2f] -> avoids c auth)
    by (subst; intros; now apply authority_avoids).
  assert (HQ : forall c, In c [x23; x3f] -> avoids c q)
    by (subst; intros; now apply query_avoids).
  assert (HS : forall c, In c [x23; x3f; x3a] -> avoids c sch)
    by (subst; intros; now apply protocol_avoids).
  assert (HF : forall c, In c [x23; x3f] -> avoids c (sch ++ x3a :: x2f :: x2f :: auth ++ str "/pks/lookup")).
  { intros c Hc. apply avoids_app; [apply HS; cbn in *; tauto|].
    change (x3a :: x2f :: x2f :: auth ++ str "/pks/lookup")
      with ([x3a; x2f; x2f] ++ auth ++ str "/pks/lookup").
    apply avoids_app; [intro K; cbn in Hc, K; intuition subst; discriminate|].
    apply avoids_app; [apply HA; cbn in *; tauto|].
    intro K; cbn in Hc, K; intuition subst; discriminate. }
  clear Ea Eq Es.
  unfold url_parts.
  replace (sch ++ x3a :: x2f :: x2f :: auth ++ str "/pks/lookup" ++ x3f :: q)
    with ((sch ++ x3a :: x2f :: x2f :: auth ++ str "/pks/lookup") ++ x3f :: q)
    by (rewrite <- !app_assoc; cbn [app]; rewrite <- !app_assoc; reflexivity).
  rewrite cut_none.
  2:{ apply avoids_app; [apply HF; cbn; tauto|]. intro K. destruct K as [K|K]; [discriminate|].
      revert K. apply HQ. cbn; tauto. }
  rewrite cut_avoids by (apply HF; cbn; tauto).
  rewrite cut_avoids by (apply HS; cbn; tauto).
  change (auth ++ str "/pks/lookup") with (auth ++ x2f :: str "pks/lookup").
  rewrite cut_avoids by (apply HA; cbn; tauto). reflexivity.
Qed.

Lemma fetch_parameters : forall uid,
  parameters (str "op=get&search=" ++ query_escape uid) =
  Some [(str "op", str "get"); (str "search", uid)].
Proof.
  intro uid. unfold parameters.
  change (str "op=get&search=" ++ query_escape uid)
    with (str "op=get" ++ x26 :: (str "search=" ++ query_escape uid)).
  rewrite split_app by (intro K; cbn in K; intuition discriminate).
  rewrite split_avoids.
  2:{ apply avoids_app; [intro K; cbn in K; intuition discriminate|].
      eapply forallb_avoids; [apply escape_octets|reflexivity]. }
  cbn [map].
  change (str "search=" ++ query_escape uid) with (str "search" ++ x3d :: query_escape uid).
  unfold parameter at 2. rewrite cut_avoids by (intro K; cbn in K; intuition discriminate).
  rewrite form_decode_escape. reflexivity.
Qed.

Lemma rev_avoids : forall c l, avoids c l -> avoids c (rev l).
Proof. unfold avoids; intros c l H K; apply H; now apply in_rev. Qed.

Lemma host_port_text : forall h z, host_port (h ++ str ":" ++ decZ z) = Some (h, decZ z).
Proof.
  intros h z. unfold host_port. rewrite !rev_app_distr. cbn [rev app].
  change (rev (str ":")) with [x3a]. rewrite <- app_assoc. cbn [app].
  rewrite cut_avoids.
  - now rewrite !rev_involutive.
  - apply rev_avoids. eapply forallb_avoids; [apply decZ_octets|reflexivity].
Qed.

Lemma host_char_plain : forall b, host_char b -> host_plain b = true.
Proof. intros b H. destruct b; try reflexivity; unfold host_char in H; cbn in H; lia. Qed.
