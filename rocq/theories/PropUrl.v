(** * PropUrl: C58, what is requested from GitHub for any user name. *)
From Coq Require Import Strings.String Strings.Byte List NArith ZArith Bool Lia ZifyBool ZifyN ZifyNat.
From Verif Require Import Base Utf8 Hkp Url Github SpecBase SpecHkp SpecUrl SpecGithub BaseL HkpL UrlL GithubL.
Import ListNotations.
Local Open Scope N_scope.

(** The text after the host that the program makes of a user name, for the keys and for the profile. *)
Definition keys_rest (user : bytes) : bytes := str "/users/" ++ user ++ str "/gpg_keys".
Definition profile_rest (user : bytes) : bytes := str "/" ++ user ++ str ".gpg".

(** Whatever the user name: a request for a page of keys goes to api.github.com over https, below /users/; it asks for this
    page and for 100 keys to a page, and for each of them once, even if the name brings parameters of its own; and the path
    is what the name makes it, up to the first hash sign or question mark. *)
Theorem C58_page : forall user n u, page_url user n = Some u ->
  exists p q ps path, url_parts u = Some p /\
    p_scheme p = str "https" /\ p_authority p = str "api.github.com" /\ p_path p = str "/users/" ++ path /\
    percent_decode (p_path p) = percent_decode (before x3f (before x23 (keys_rest user))) /\
    p_query p = Some q /\ parameters q = Some ps /\
    values_of (str "page") ps = [dec n] /\ values_of (str "per_page") ps = [str "100"].
Proof.
  intros user n u H. unfold page_url in H. destruct (url_parse _) as [v|] eqn:U; [|discriminate]. injection H as <-.
  change (str "/users/" ++ user ++ str "/gpg_keys") with (x2f :: str "users/" ++ (user ++ str "/gpg_keys")) in U.
  destruct (purl_parts (str "api.github.com") (str "users/") _ v (values_encode (page_query n (parse_query (pu_query v)))) api_host
              eq_refl U (page_query_avoids n _)) as (p & path & E1 & E2 & E3 & E4 & E5 & _ & E6 & _).
  destruct (page_query_values n (parse_query (pu_query v))) as (Q1 & Q2 & Q3).
  exists p, (values_encode (page_query n (parse_query (pu_query v)))), (page_query n (parse_query (pu_query v))), path.
  split; [exact E1|]. split; [exact E2|]. split; [exact E3|]. split; [exact E4|]. split; [exact E5|]. split.
  { rewrite E6. rewrite encode_some by (intro K; rewrite K in Q2; discriminate). cbn [negb]. now rewrite orb_true_r. }
  split; [exact Q1|]. split; assumption.
Qed.
Print Assumptions C58_page.

(** A request for a profile goes to github.com over https; the path is what the name makes it, up to the first hash sign or
    question mark. *)
Theorem C58_profile : forall user u, profile_url user = Some u ->
  exists p path, url_parts u = Some p /\
    p_scheme p = str "https" /\ p_authority p = str "github.com" /\ p_path p = str "/" ++ path /\
    percent_decode (p_path p) = percent_decode (before x3f (before x23 (profile_rest user))).
Proof.
  intros user u H. unfold profile_url in H. destruct (url_parse _) as [v|] eqn:U; [|discriminate]. injection H as <-.
  destruct (url_parse_some _ _ U) as (_ & _ & Q & _).
  change (str "/" ++ user ++ str ".gpg") with (x2f :: [] ++ (user ++ str ".gpg")) in U.
  assert (QA : avoids x23 (pu_query v)).
  { rewrite Q. intro K. apply in_after in K. revert K. apply before_avoids. }
  destruct (purl_parts (str "github.com") [] _ v (pu_query v) www_host eq_refl U QA) as (p & path & E1 & E2 & E3 & E4 & E5 & _).
  exists p, path. split; [|now repeat split]. destruct v. exact E1.
Qed.
Print Assumptions C58_profile.

(** So every request the lookup makes goes to GitHub over https, whatever the user name, the key ID and the answers. *)
Theorem C58_requests : forall G user text m u, In u (snd (get_key G user text m)) ->
  exists p, url_parts u = Some p /\ p_scheme p = str "https" /\
    p_authority p = (if is_nil text then str "github.com" else str "api.github.com").
Proof.
  intros G user text m u. unfold get_key. destruct (is_nil text).
  - destruct (profile_url user) as [v|] eqn:P; [|intros []]. intros [<-|[]].
    destruct (C58_profile user v P) as (p & path & H1 & H2 & H3 & _). exists p. auto.
  - generalize 1. induction m as [|m IH]; intro i; [intros []|]. cbn [pages_loop].
    destruct (page_url user i) as [v|] eqn:P; [|intros []].
    assert (K : In u [v] -> exists p, url_parts u = Some p /\ p_scheme p = str "https" /\ p_authority p = str "api.github.com").
    { intros [<-|[]]. destruct (C58_page user i v P) as (p & q & ps & path & H1 & H2 & H3 & _). exists p. auto. }
    destruct (g_page G v) as [|l]; [exact K|]. destruct (find_key G text l); [exact K|].
    destruct (lenN l <? maxKeys); [exact K|]. specialize (IH (i + 1)).
    destruct (pages_loop G user text m (i + 1)) as [r us]. cbn [snd] in *. intros [<-|Hu]; [apply K; now left|now apply IH].
Qed.
Print Assumptions C58_requests.

(** A URL can be made of a name exactly when there is no control character before a hash sign in it, and the percent signs
    outside the query are followed by two hexadecimal digits; then no page number matters. *)
Theorem C58_exactly : forall user n,
  (page_url user n <> None <-> readable (keys_rest user)) /\ (profile_url user <> None <-> readable (profile_rest user)).
Proof.
  intros user n. unfold page_url, profile_url. change (str "/users/" ++ user ++ str "/gpg_keys") with (keys_rest user).
  change (str "/" ++ user ++ str ".gpg") with (profile_rest user). split.
  - destruct (url_parse (keys_rest user)) as [v|] eqn:U.
    + split; [intros _; exact (proj1 (url_parse_some _ _ U))|discriminate].
    + split; [congruence|]. intros R _. exact (url_parse_readable _ R U).
  - destruct (url_parse (profile_rest user)) as [v|] eqn:U; cbn [option_map].
    + split; [intros _; exact (proj1 (url_parse_some _ _ U))|discriminate].
    + split; [congruence|]. intros R _. exact (url_parse_readable _ R U).
Qed.
Print Assumptions C58_exactly.

(** Otherwise nothing is requested, and the lookup fails. *)
Theorem C58_no_request : forall G user text m,
  ~ readable (if is_nil text then profile_rest user else keys_rest user) ->
  get_key G user text (S m) = (RErr EHTTP, []).
Proof.
  intros G user text m H. unfold get_key. destruct (C58_exactly user 1) as [E1 E2]. destruct (is_nil text).
  - destruct (profile_url user); [|reflexivity]. exfalso. apply H, E2. discriminate.
  - cbn [pages_loop]. destruct (page_url user 1); [|reflexivity]. exfalso. apply H, E1. discriminate.
Qed.
Print Assumptions C58_no_request.

(** Names without control characters and the characters / ? # %. *)
Lemma name_avoids : forall user c, Forall name_char user -> In c [x2f; x3f; x23; x25] -> avoids c user.
Proof. intros user c H Hc K. rewrite Forall_forall in H. apply H in K as [_ K]. contradiction. Qed.

Lemma around_avoids : forall a user b c, Forall name_char user -> In c [x3f; x23; x25] ->
  avoids c a -> avoids c b -> avoids c (a ++ user ++ b).
Proof.
  intros a user b c H Hc HA HB. apply avoids_app; [exact HA|]. apply avoids_app; [|exact HB].
  apply name_avoids; [exact H|]. cbn in *; tauto.
Qed.
Lemma lit_avoids : forall l c, existsb (Byte.eqb c) l = false -> avoids c l.
Proof.
  intros l c H K. enough (existsb (Byte.eqb c) l = true) by congruence. apply existsb_exists. exists c. split; [exact K|].
  now apply Byte.byte_dec_lb.
Qed.

Lemma around_whole : forall a user b, Forall name_char user ->
  (forall c, In c [x3f; x23; x25] -> avoids c a) -> (forall c, In c [x3f; x23; x25] -> avoids c b) ->
  before x3f (before x23 (a ++ user ++ b)) = a ++ user ++ b /\ before x23 (a ++ user ++ b) = a ++ user ++ b /\
  after x3f (a ++ user ++ b) = [].
Proof.
  intros a user b H HA HB.
  assert (K : forall c, In c [x3f; x23; x25] -> avoids c (a ++ user ++ b)) by (intros; apply around_avoids; auto).
  unfold before, after. rewrite (cut_none x23) by (apply K; cbn; tauto). rewrite (cut_none x3f) by (apply K; cbn; tauto). auto.
Qed.

Lemma around_readable : forall a user b, Forall name_char user ->
  (forall c, In c [x3f; x23; x25] -> avoids c a) -> (forall c, In c [x3f; x23; x25] -> avoids c b) ->
  (forall c, In c (a ++ b) -> ~ control c) -> readable (a ++ user ++ b).
Proof.
  intros a user b H HA HB HC. destruct (around_whole a user b H HA HB) as (W & W' & _). unfold readable. rewrite W, W'.
  assert (K : forall c, In c [x3f; x23; x25] -> avoids c (a ++ user ++ b)) by (intros; apply around_avoids; auto).
  repeat split.
  - intros c Hc. apply in_app_or in Hc as [Hc|Hc]; [apply HC, in_or_app; now left|].
    apply in_app_or in Hc as [Hc|Hc]; [|apply HC, in_or_app; now right].
    rewrite Forall_forall in H. now apply H in Hc as [Hc _].
  - rewrite percent_decode_plain by (apply K; cbn; tauto). discriminate.
  - unfold after. rewrite (cut_none x23) by (apply K; cbn; tauto). discriminate.
Qed.

(** The escaped form of a name in its segment. *)
Lemma escape_avoids_slash : forall t, avoids x2f t -> avoids x2f (url_escape path_plain t).
Proof.
  induction t as [|b t IH]; intro H; [intros []|]. rewrite url_escape_cons. apply avoids_app.
  - unfold plain_esc. destruct (path_plain b) eqn:E; [intros [K|[]]; apply H; now left|].
    clear. destruct b; intro K; cbn in K; intuition discriminate.
  - apply IH. intro K. apply H. now right.
Qed.

Lemma around_path : forall a user b p, Forall name_char user -> forallb path_plain a = true -> forallb path_plain b = true ->
  set_part path_plain (a ++ user ++ b) = Some p ->
  exists e, escaped_part path_plain p = a ++ e ++ b /\ avoids x2f e /\ percent_decode e = Some user.
Proof.
  intros a user b p H HA HB SP.
  assert (K : avoids x25 (a ++ user ++ b)).
  { apply around_avoids; [exact H|cbn; tauto| |]; (eapply forallb_avoids; [eassumption|reflexivity]). }
  destruct (path_escaped_plain _ K) as (p' & SP' & _ & C). rewrite SP in SP'. injection SP' as <-.
  destruct C as [C|C]; rewrite C.
  - exists user. split; [reflexivity|]. split; [apply name_avoids; [exact H|cbn; tauto]|].
    apply percent_decode_plain, name_avoids; [exact H|cbn; tauto].
  - exists (url_escape path_plain user). split; [|split].
    + now rewrite !url_escape_app, (url_escape_plain path_plain a), (url_escape_plain path_plain b) by assumption.
    + apply escape_avoids_slash, name_avoids; [exact H|cbn; tauto].
    + now apply percent_decode_escape.
Qed.

(** For a name without control characters and without / ? # %, the request is for page n of the keys of the user of exactly
    this name: the segments of the path are users, the name and gpg_keys; there is nothing else in the URL. *)
Theorem C58_user : forall user n, Forall name_char user ->
  exists u p q, page_url user n = Some u /\ url_parts u = Some p /\
    p_scheme p = str "https" /\ p_authority p = str "api.github.com" /\
    segments (p_path p) = Some [[]; str "users"; user; str "gpg_keys"] /\
    p_query p = Some q /\ parameters q = Some [(str "page", dec n); (str "per_page", str "100")] /\ p_fragment p = None.
Proof.
  intros user n H.
  assert (HA : forall c, In c [x3f; x23; x25] -> avoids c (str "/users/")).
  { intros c Hc. apply lit_avoids. cbn in Hc. destruct Hc as [<-|[<-|[<-|[]]]]; reflexivity. }
  assert (HB : forall c, In c [x3f; x23; x25] -> avoids c (str "/gpg_keys")).
  { intros c Hc. apply lit_avoids. cbn in Hc. destruct Hc as [<-|[<-|[<-|[]]]]; reflexivity. }
  assert (HC : forall c, In c (str "/users/" ++ str "/gpg_keys") -> ~ control c).
  { apply is_ctl_spec. reflexivity. }
  destruct (around_whole _ user _ H HA HB) as (W & W' & W'').
  pose proof (around_readable _ user _ H HA HB HC) as R.
  unfold page_url. destruct (url_parse (str "/users/" ++ user ++ str "/gpg_keys")) as [u|] eqn:U; [|now apply url_parse_readable in R].
  destruct (url_parse_some _ _ U) as (_ & SP & EQ & _). rewrite W in SP. rewrite W', W'' in EQ.
  destruct (around_path (str "/users/") user (str "/gpg_keys") _ H eq_refl eq_refl SP) as (e & Ee & Es & Ed).
  assert (U' : url_parse (x2f :: str "users/" ++ (user ++ str "/gpg_keys")) = Some u) by exact U.
  destruct (purl_parts (str "api.github.com") (str "users/") _ u (values_encode (page_query n [])) api_host eq_refl U' (page_query_avoids n []))
    as (p & path & E1 & E2 & E3 & _ & _ & E4 & E5 & E6).
  exists (purl_string (str "api.github.com") (mkPurl (pu_path u) (pu_force u) (values_encode (page_query n [])) (pu_fragment u))).
  exists p, (values_encode (page_query n [])).
  split; [now rewrite EQ|]. split; [exact E1|]. split; [exact E2|]. split; [exact E3|]. split.
  { rewrite E4, Ee. unfold segments.
    change (str "/users/" ++ e ++ str "/gpg_keys") with ([] ++ x2f :: (str "users" ++ x2f :: (e ++ x2f :: str "gpg_keys"))).
    rewrite split_app by (intros []). rewrite split_app by (apply lit_avoids; reflexivity). rewrite split_app by exact Es.
    rewrite (split_avoids x2f (str "gpg_keys")) by (apply lit_avoids; reflexivity). cbn [map all_some]. rewrite Ed. reflexivity. }
  split.
  { rewrite E5. rewrite encode_some by (intro K; destruct (page_query_values n []) as (_ & Q & _); rewrite K in Q; discriminate).
    cbn [negb]. now rewrite orb_true_r. }
  split; [exact (proj1 (page_query_values n []))|].
  apply E6. change (x2f :: str "users/" ++ user ++ str "/gpg_keys") with (str "/users/" ++ user ++ str "/gpg_keys").
  apply around_avoids; [exact H|cbn; tauto|apply HA; cbn; tauto|apply HB; cbn; tauto].
Qed.
Print Assumptions C58_user.

(** The same for the profile: the path is the name and .gpg. *)
Theorem C58_profile_user : forall user, Forall name_char user ->
  exists u p, profile_url user = Some u /\ url_parts u = Some p /\
    p_scheme p = str "https" /\ p_authority p = str "github.com" /\
    segments (p_path p) = Some [[]; user ++ str ".gpg"] /\ p_query p = None /\ p_fragment p = None.
Proof.
  intros user H.
  assert (HA : forall c, In c [x3f; x23; x25] -> avoids c (str "/")).
  { intros c Hc. apply lit_avoids. cbn in Hc. destruct Hc as [<-|[<-|[<-|[]]]]; reflexivity. }
  assert (HB : forall c, In c [x3f; x23; x25] -> avoids c (str ".gpg")).
  { intros c Hc. apply lit_avoids. cbn in Hc. destruct Hc as [<-|[<-|[<-|[]]]]; reflexivity. }
  assert (HC : forall c, In c (str "/" ++ str ".gpg") -> ~ control c).
  { apply is_ctl_spec. reflexivity. }
  destruct (around_whole _ user _ H HA HB) as (W & W' & W'').
  pose proof (around_readable _ user _ H HA HB HC) as R.
  unfold profile_url. destruct (url_parse (str "/" ++ user ++ str ".gpg")) as [u|] eqn:U; [|now apply url_parse_readable in R].
  destruct (url_parse_some _ _ U) as (_ & SP & EQ & _ & FQ). rewrite W in SP. rewrite W', W'' in EQ.
  destruct (around_path (str "/") user (str ".gpg") _ H eq_refl eq_refl SP) as (e & Ee & Es & Ed).
  assert (U' : url_parse (x2f :: [] ++ (user ++ str ".gpg")) = Some u) by exact U.
  destruct (purl_parts (str "github.com") [] _ u [] www_host eq_refl U' (fun x => x)) as (p & path & E1 & E2 & E3 & _ & _ & E4 & E5 & E6).
  assert (F : pu_force u = false).
  { apply FQ. apply around_avoids; [exact H|cbn; tauto|apply HA; cbn; tauto|apply HB; cbn; tauto]. }
  exists (purl_string (str "github.com") u), p. split; [reflexivity|]. split.
  { destruct u as [? ? uq ?]. cbn in EQ. subst uq. exact E1. }
  split; [exact E2|]. split; [exact E3|]. split.
  { rewrite E4, Ee. unfold segments.
    change (str "/" ++ e ++ str ".gpg") with ([] ++ x2f :: (e ++ str ".gpg")).
    rewrite split_app by (intros []). rewrite split_avoids by (apply avoids_app; [exact Es|apply lit_avoids; reflexivity]).
    cbn [map all_some].
    assert (D : forall e user, percent_decode e = Some user -> percent_decode (e ++ str ".gpg") = Some (user ++ str ".gpg")).
    { clear. intro e. remember (length e) as k. revert e Heqk. induction k as [k IH] using (well_founded_induction Wf_nat.lt_wf).
      intros e -> user D. destruct e as [|b e]; [injection D as <-; reflexivity|].
      change ((b :: e) ++ str ".gpg") with (b :: (e ++ str ".gpg")). cbn [percent_decode] in *.
      destruct (Byte.eqb b x25).
      - destruct e as [|h [|l r]]; [discriminate|discriminate|]. change ((h :: l :: r) ++ str ".gpg") with (h :: l :: (r ++ str ".gpg")).
        cbv iota. destruct (any_hex h), (any_hex l); try discriminate.
        destruct (percent_decode r) as [d|] eqn:Dr; [|discriminate]. injection D as <-.
        rewrite (IH (length r) ltac:(cbn; lia) r eq_refl d Dr). reflexivity.
      - destruct (percent_decode e) as [d|] eqn:De; [|discriminate]. injection D as <-.
        rewrite (IH (length e) ltac:(cbn; lia) e eq_refl d De). reflexivity. }
    rewrite (D e user Ed). reflexivity. }
  split; [rewrite E5, F; reflexivity|]. apply E6.
  change (x2f :: [] ++ user ++ str ".gpg") with (str "/" ++ user ++ str ".gpg").
  apply around_avoids; [exact H|cbn; tauto|apply HA; cbn; tauto|apply HB; cbn; tauto].
Qed.
Print Assumptions C58_profile_user.

(** So two different such names are never looked up with the same request. *)
Theorem C58_distinct : forall a b n, Forall name_char a -> Forall name_char b ->
  (page_url a n = page_url b n -> a = b) /\ (profile_url a = profile_url b -> a = b).
Proof.
  intros a b n Ha Hb. split; intro E.
  - destruct (C58_user a n Ha) as (u & p & q & U & P & _ & _ & S1 & _).
    destruct (C58_user b n Hb) as (u' & p' & q' & U' & P' & _ & _ & S2 & _).
    assert (u = u') by congruence. subst. assert (p = p') by congruence. subst. congruence.
  - destruct (C58_profile_user a Ha) as (u & p & U & P & _ & _ & S1 & _).
    destruct (C58_profile_user b Hb) as (u' & p' & U' & P' & _ & _ & S2 & _).
    assert (u = u') by congruence. subst. assert (p = p') by congruence. subst.
    assert (K : a ++ str ".gpg" = b ++ str ".gpg") by congruence. now apply app_inv_tail in K.
Qed.
Print Assumptions C58_distinct.

(** Not so for other names.  After a question mark or a hash sign the name does not count for the path any more, and neither
    does the /gpg_keys that follows it: what is requested is the user's page of the API and not the list of their keys. *)
Theorem C58_cut_refuted : forall name c more n u, Forall name_char name -> c = x3f \/ c = x23 ->
  page_url (name ++ c :: more) n = Some u ->
  exists p, url_parts u = Some p /\ percent_decode (p_path p) = Some (str "/users/" ++ name).
Proof.
  intros name c more n u H Hc U. destruct (C58_page _ _ _ U) as (p & q & ps & path & E1 & _ & _ & _ & E5 & _).
  exists p. split; [exact E1|]. rewrite E5.
  assert (B : before x3f (before x23 (keys_rest (name ++ c :: more))) = str "/users/" ++ name).
  { unfold keys_rest. rewrite <- app_assoc. rewrite app_assoc.
    assert (A : forall c, In c [x3f; x23] -> avoids c (str "/users/" ++ name)).
    { intros k Hk. rewrite <- (app_nil_r name). apply around_avoids; [exact H|cbn in *; tauto| |intros []].
      apply lit_avoids. cbn in Hk. destruct Hk as [<-|[<-|[]]]; reflexivity. }
    destruct Hc as [-> | ->].
    - rewrite before_app by (apply A; cbn; tauto). rewrite before_app by (apply A; cbn; tauto).
      cbn [app]. unfold before at 2. cbn [cut]. change (Byte.eqb x3f x23) with false. cbv iota.
      destruct (cut x23 (more ++ str "/gpg_keys")) as [[x y]|]; unfold before; cbn [cut]; rewrite Byte.byte_dec_lb by reflexivity;
        apply app_nil_r.
    - rewrite before_app by (apply A; cbn; tauto). cbn [app]. unfold before at 2. cbn [cut]. rewrite Byte.byte_dec_lb by reflexivity.
      rewrite app_nil_r. unfold before. rewrite cut_none by (apply A; cbn; tauto). reflexivity. }
  rewrite B. apply percent_decode_plain. rewrite <- (app_nil_r name). apply around_avoids; [exact H|cbn; tauto| |intros []].
  apply lit_avoids. reflexivity.
Qed.
Print Assumptions C58_cut_refuted.

(** A name with percent signs is taken for the name it decodes to. *)
Theorem C58_percent_refuted : exists a b n u v p q, a <> b /\ page_url a n = Some u /\ page_url b n = Some v /\
  url_parts u = Some p /\ url_parts v = Some q /\ segments (p_path p) = segments (p_path q) /\ p_query p = p_query q.
Proof.
  exists (str "alice"), (str "al%69ce"), 1. do 4 eexists.
  split; [discriminate|]. split; [vm_compute; reflexivity|]. split; [vm_compute; reflexivity|].
  split; [vm_compute; reflexivity|]. split; [vm_compute; reflexivity|]. split; vm_compute; reflexivity.
Qed.
Print Assumptions C58_percent_refuted.

(** The hypotheses are met, by ordinary names and by odd ones. *)
Example C58_example :
  page_url (str "alice") 3 = Some (str "https://api.github.com/users/alice/gpg_keys?page=3&per_page=100") /\
  page_url (str "al ice[1]") 1 = Some (str "https://api.github.com/users/al%20ice%5B1%5D/gpg_keys?page=1&per_page=100") /\
  page_url (str "a(b)") 1 = Some (str "https://api.github.com/users/a(b)/gpg_keys?page=1&per_page=100") /\
  page_url (str "evil.example/x@y:z") 1 = Some (str "https://api.github.com/users/evil.example/x@y:z/gpg_keys?page=1&per_page=100") /\
  page_url (str "alice?per_page=5&a=b;page=7") 2 = Some (str "https://api.github.com/users/alice?a=b&page=2&per_page=100") /\
  page_url (str "alice#") 1 = Some (str "https://api.github.com/users/alice?page=1&per_page=100#/gpg_keys") /\
  page_url (str "100%") 1 = None /\ page_url [x61; x0a] 1 = None /\
  profile_url (str "a b?c#d e") = Some (str "https://github.com/a%20b?c#d%20e.gpg").
Proof. vm_compute. repeat split. Qed.

Example C58_example_hypotheses :
  Forall name_char (str "al ice[1]") /\ Forall name_char (str "alice") /\ ~ readable (keys_rest (str "100%")) /\
  ~ readable (keys_rest [x61; x0a]) /\ readable (keys_rest (str "a/b?c#d")).
Proof.
  split; [|split; [|split; [|split]]].
  1,2: (repeat constructor; unfold control; cbn; intuition (discriminate || lia)).
  - intros (_ & K & _). apply K. reflexivity.
  - intros (K & _). apply (K x0a); [vm_compute; tauto|]. unfold control. cbn. lia.
  - split; [|split; vm_compute; discriminate]. apply is_ctl_spec. reflexivity.
Qed.
