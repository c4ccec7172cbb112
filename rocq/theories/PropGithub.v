(** * PropGithub: C46, looking up a key by its ID on GitHub. *)
From Coq Require Import Strings.String Strings.Byte List NArith ZArith Bool Lia ZifyBool ZifyN ZifyNat.
From Verif Require Import Base Utf8 Hkp Github SpecBase SpecHkp SpecUrl SpecGithub Url BaseL HkpL UrlL GithubL.
Import ListNotations.
Local Open Scope N_scope.

(** If the first entry with the ID is on page n, the result is its raw key, and exactly
    the pages 1 to n are requested.  (An entry with the ID but without raw key gives
    "no key".)  The pages may be any; [more] is the number of further pages the program
    would be prepared to read. *)
Theorem C46_found : forall G user text digits n before k after more,
  written_id text digits -> 1 <= n -> passed_before G user digits n ->
  page G user n = GKeys (before ++ Some k :: after) ->
  Forall (other digits) before -> same_letters (k_id k) digits ->
  get_key G user text (N.to_nat n + more) =
  (match k_raw k with Some raw => ROk raw | None => RErr ENoKey end, first_pages user n).
Proof.
  intros G user text digits n before k after more W Hn Hp Hpage Hb Hk.
  replace (N.to_nat n + more)%nat with (N.to_nat n - 1 + S more)%nat by lia.
  rewrite (loop_until G user text digits n more W Hn Hp), first_pages_last by exact Hn.
  cbn [pages_loop]. unfold page in Hpage. unfold request. destruct (page_url user n) as [u|]; [|discriminate]. rewrite Hpage.
  rewrite (find_others G text digits) by assumption. cbn [find_key].
  rewrite (proj2 (id_matches_hex G text digits (k_id k) W) Hk). reflexivity.
Qed.
Print Assumptions C46_found.

(** If the pages before page n are full, page n is not, and none of them has the ID, the
    result is "no key"; page n is the last page requested. *)
Theorem C46_no_key : forall G user text digits n l more,
  written_id text digits -> 1 <= n -> passed_before G user digits n ->
  page G user n = GKeys l -> Forall (other digits) l -> lenN l < 100 ->
  get_key G user text (N.to_nat n + more) = (RErr ENoKey, first_pages user n).
Proof.
  intros G user text digits n l more W Hn Hp Hpage Ho Hl.
  replace (N.to_nat n + more)%nat with (N.to_nat n - 1 + S more)%nat by lia.
  rewrite (loop_until G user text digits n more W Hn Hp), first_pages_last by exact Hn.
  cbn [pages_loop]. unfold page in Hpage. unfold request. destruct (page_url user n) as [u|]; [|discriminate]. rewrite Hpage.
  replace (find_key G text l) with (find_key G text (l ++ [])) by now rewrite app_nil_r.
  rewrite (find_others G text digits) by assumption. cbn [find_key].
  unfold maxKeys. replace (lenN l <? 100) with true by lia. reflexivity.
Qed.
Print Assumptions C46_no_key.

(** If page n cannot be had, the result is an error, and no further page is requested. *)
Theorem C46_failed : forall G user text digits n more,
  written_id text digits -> 1 <= n -> passed_before G user digits n ->
  page G user n = GErr ->
  get_key G user text (N.to_nat n + more) = (RErr EHTTP, first_pages user n).
Proof.
  intros G user text digits n more W Hn Hp Hpage.
  replace (N.to_nat n + more)%nat with (N.to_nat n - 1 + S more)%nat by lia.
  rewrite (loop_until G user text digits n more W Hn Hp), first_pages_last by exact Hn.
  cbn [pages_loop]. unfold page in Hpage. unfold request. destruct (page_url user n) as [u|]; [rewrite Hpage|]; reflexivity.
Qed.
Print Assumptions C46_failed.

(** A null entry before the first entry with the ID makes the program panic. *)
Theorem C46_null_panics : forall G user text digits n before after more,
  written_id text digits -> 1 <= n -> passed_before G user digits n ->
  page G user n = GKeys (before ++ None :: after) -> Forall (other digits) before ->
  get_key G user text (N.to_nat n + more) = (RPanic, first_pages user n).
Proof.
  intros G user text digits n before after more W Hn Hp Hpage Hb.
  replace (N.to_nat n + more)%nat with (N.to_nat n - 1 + S more)%nat by lia.
  rewrite (loop_until G user text digits n more W Hn Hp), first_pages_last by exact Hn.
  cbn [pages_loop]. unfold page in Hpage. unfold request. destruct (page_url user n) as [u|]; [|discriminate]. rewrite Hpage.
  rewrite (find_others G text digits) by assumption. reflexivity.
Qed.
Print Assumptions C46_null_panics.

(** These are all the cases: the program is still reading after [m] pages exactly when
    all of them are full pages without the ID; otherwise there is a page n, at most m,
    on which one of the four cases above applies. *)
Theorem C46_exhaustive : forall G user text digits m, written_id text digits ->
  (passed_before G user digits (N.of_nat m + 1) /\ fst (get_key G user text m) = RFuel) \/
  exists n, 1 <= n <= N.of_nat m /\ passed_before G user digits n /\
    ((exists before k after, page G user n = GKeys (before ++ Some k :: after) /\
        Forall (other digits) before /\ same_letters (k_id k) digits) \/
     (exists l, page G user n = GKeys l /\ Forall (other digits) l /\ lenN l < 100) \/
     page G user n = GErr \/
     (exists before after, page G user n = GKeys (before ++ None :: after) /\ Forall (other digits) before)).
Proof.
  intros G user text digits m W. induction m as [|m IH].
  - left. split; [intros i Hi; lia|]. unfold get_key.
    destruct W as (Hd & _ & [->|[->| ->]]); [|reflexivity|reflexivity].
    destruct digits; [congruence|reflexivity].
  - destruct IH as [[Hp _]|(n & Hn & Hp & C)].
    2:{ right. exists n. split; [lia|]. split; assumption. }
    pose (n := N.of_nat m + 1).
    assert (Hn : 1 <= n <= N.of_nat (S m)) by (unfold n; lia).
    change (N.of_nat m + 1) with n in Hp.
    destruct (page G user n) as [|l] eqn:E.
    { right. exists n. rewrite E. auto 6. }
    destruct (page_cases digits l) as [H|[(a & b & -> & H)|(a & k & b & -> & H & K)]].
    2:{ right. exists n. split; [exact Hn|]. split; [exact Hp|]. rewrite E.
        right; right; right. exists a, b. split; [reflexivity|exact H]. }
    2:{ right. exists n. split; [exact Hn|]. split; [exact Hp|]. rewrite E.
        left. exists a, k, b. split; [reflexivity|]. split; assumption. }
    destruct (N.lt_ge_cases (lenN l) 100) as [L|L].
    { right. exists n. split; [exact Hn|]. split; [exact Hp|]. rewrite E.
      right; left. exists l. split; [reflexivity|]. split; assumption. }
    left. assert (P : passed_before G user digits (N.of_nat (S m) + 1)).
    { intros i Hi. destruct (N.eq_dec i n) as [->|Hne]; [|apply Hp; unfold n in *; lia].
      exists l. split; [exact E|]. split; [lia|exact H]. }
    split; [exact P|].
    assert (Ht : is_nil text = false).
    { destruct W as (Hd & _ & [->|[->| ->]]); [|reflexivity|reflexivity].
      destruct digits; [congruence|reflexivity]. }
    unfold get_key. rewrite Ht. rewrite <- (Nat.add_0_r (S m)).
    rewrite (loop_passed G user text digits W); [reflexivity|]. intros j Hj. apply P. lia.
Qed.
Print Assumptions C46_exhaustive.

(** "No key" is reported exactly when the pages before some page are full and without the
    ID, and that page has no entry with the ID and is not full, or has the first entry with
    the ID and this entry has no raw key. *)
Theorem C46_no_key_exactly : forall G user text digits m, written_id text digits ->
  fst (get_key G user text m) = RErr ENoKey <->
  exists n, 1 <= n <= N.of_nat m /\ passed_before G user digits n /\
    ((exists l, page G user n = GKeys l /\ Forall (other digits) l /\ lenN l < 100) \/
     (exists before k after, page G user n = GKeys (before ++ Some k :: after) /\
        Forall (other digits) before /\ same_letters (k_id k) digits /\ k_raw k = None)).
Proof.
  intros G user text digits m W. split.
  - intro H. destruct (C46_exhaustive G user text digits m W) as [[_ E]|(n & Hn & Hp & C)]; [congruence|].
    exists n. split; [exact Hn|]. split; [exact Hp|].
    pose (more := (m - N.to_nat n)%nat). assert (Em : m = (N.to_nat n + more)%nat) by (unfold more; lia).
    rewrite Em in H.
    destruct C as [(b & k & a & E & Hb & Hk)|[C|[E|(b & a & E & Hb)]]].
    + right. exists b, k, a. repeat split; try assumption.
      rewrite (C46_found G user text digits n b k a more W) in H by (assumption || lia).
      cbn [fst] in H. destruct (k_raw k); [discriminate|reflexivity].
    + left. exact C.
    + rewrite (C46_failed G user text digits n more W) in H by (assumption || lia). discriminate.
    + rewrite (C46_null_panics G user text digits n b a more W) in H by (assumption || lia). discriminate.
  - intros (n & Hn & Hp & C).
    replace m with (N.to_nat n + (m - N.to_nat n))%nat by lia.
    destruct C as [(l & E & Ho & Hl)|(b & k & a & E & Hb & Hk & Hr)].
    + rewrite (C46_no_key G user text digits n l _ W) by (assumption || lia). reflexivity.
    + rewrite (C46_found G user text digits n b k a _ W) by (assumption || lia).
      cbn [fst]. rewrite Hr. reflexivity.
Qed.
Print Assumptions C46_no_key_exactly.

(** If every page is full and has no entry with the ID, the program never stops asking. *)
Theorem C46_never_ends : forall G user text digits, written_id text digits ->
  (forall i, 1 <= i -> passed digits (page G user i)) ->
  forall m, get_key G user text m = (RFuel, first_pages user (N.of_nat m)).
Proof.
  intros G user text digits W H m.
  assert (Ht : is_nil text = false).
  { destruct W as (Hd & _ & [->|[->| ->]]); [|reflexivity|reflexivity].
    destruct digits; [congruence|reflexivity]. }
  unfold get_key. rewrite Ht. rewrite <- (Nat.add_0_r m) at 1.
  rewrite (loop_passed G user text digits W); [|intros j Hj; apply H; lia].
  cbn [pages_loop fst snd]. rewrite app_nil_r. f_equal. unfold first_pages.
  rewrite Nat2N.id, <- seq_shift, flat_map_map. apply flat_map_ext. intro k.
  replace (1 + N.of_nat k) with (N.of_nat (S k)) by lia. reflexivity.
Qed.
Print Assumptions C46_never_ends.

(** The request for page n: the user's keys, page n, 100 to a page.  (C58 says what is requested for any user name.) *)
Theorem C46_page_request : forall user n, Forall user_char user ->
  exists u p q, page_url user n = Some u /\ url_parts u = Some p /\
    p_scheme p = str "https" /\ p_authority p = str "api.github.com" /\
    p_path p = str "/users/" ++ user ++ str "/gpg_keys" /\ p_fragment p = None /\
    p_query p = Some q /\ parameters q = Some [(str "page", dec n); (str "per_page", str "100")].
Proof.
  intros user n H.
  assert (A : forall c, In c [x23; x3f; x25] -> avoids c (str "/users/" ++ user ++ str "/gpg_keys")).
  { intros c Hc. apply avoids_app; [|apply avoids_app].
    1,3: intro K; cbn in Hc; destruct Hc as [<-|[<-|[<-|[]]]]; cbn in K; intuition discriminate.
    intro K. rewrite Forall_forall in H. apply H in K. unfold user_char in K.
    cbn in Hc. destruct Hc as [<-|[<-|[<-|[]]]]; cbn in K; lia. }
  assert (P : forallb path_plain (str "/users/" ++ user ++ str "/gpg_keys") = true).
  { rewrite !forallb_app. cbn [andb]. rewrite (andb_true_r (forallb path_plain user)) || idtac.
    replace (forallb path_plain user) with true; [reflexivity|]. symmetry. apply forallb_forall. intros b Hb.
    rewrite Forall_forall in H. apply H in Hb. clear -Hb. unfold user_char in Hb. destruct b; try reflexivity; cbn in Hb; lia. }
  assert (B : before x3f (before x23 (str "/users/" ++ user ++ str "/gpg_keys")) = str "/users/" ++ user ++ str "/gpg_keys").
  { unfold before. rewrite (cut_none x23) by (apply A; cbn; tauto). rewrite (cut_none x3f) by (apply A; cbn; tauto). reflexivity. }
  unfold page_url. destruct (url_parse _) as [u|] eqn:U.
  2:{ exfalso. revert U. apply url_parse_readable. unfold readable. rewrite B. unfold before, after.
      rewrite (cut_none x23) by (apply A; cbn; tauto). repeat split; try discriminate.
      - intros b Hb. rewrite forallb_forall in P. apply P in Hb. clear -Hb. unfold control.
        destruct b; try discriminate; cbn; lia.
      - rewrite percent_decode_plain by (apply A; cbn; tauto). discriminate. }
  destruct (url_parse_some _ _ U) as (_ & SP & EQ & _ & FQ). rewrite B in SP.
  pose proof U as U'. change (str "/users/" ++ user ++ str "/gpg_keys") with (x2f :: str "users/" ++ (user ++ str "/gpg_keys")) in U'.
  destruct (purl_parts (str "api.github.com") (str "users/") _ u (values_encode (page_query n [])) api_host eq_refl U' (page_query_avoids n []))
    as (p & path & E1 & E2 & E3 & _ & _ & E4 & E5 & E6).
  exists (purl_string (str "api.github.com") (mkPurl (pu_path u) (pu_force u) (values_encode (page_query n [])) (pu_fragment u))).
  exists p, (values_encode (page_query n [])).
  split.
  { rewrite EQ. unfold before, after. rewrite (cut_none x23) by (apply A; cbn; tauto). rewrite (cut_none x3f) by (apply A; cbn; tauto).
    reflexivity. }
  split; [exact E1|]. split; [exact E2|]. split; [exact E3|]. split.
  { rewrite E4. destruct (path_escaped_plain _ (A x25 ltac:(cbn; tauto))) as (p' & SP' & _ & C). rewrite SP in SP'. injection SP' as ->.
    destruct C as [->| ->]; [reflexivity|]. now apply url_escape_plain. }
  split; [apply E6, A; cbn; tauto|]. split.
  { rewrite E5. rewrite encode_some by (intro K; destruct (page_query_values n []) as (_ & Q & _); rewrite K in Q; discriminate).
    cbn [negb]. now rewrite orb_true_r. }
  exact (proj1 (page_query_values n [])).
Qed.
Print Assumptions C46_page_request.

(** Without a key ID the user's profile is fetched, in one request. *)
Theorem C46_without_id : forall G user m, Forall user_char user ->
  get_key G user [] m =
  (match g_profile G (str "https://github.com/" ++ user ++ str ".gpg") with Some b => ROk b | None => RErr EHTTP end,
   [str "https://github.com/" ++ user ++ str ".gpg"]).
Proof.
  intros G user m H. unfold get_key. cbn [is_nil]. enough (E : profile_url user = Some (str "https://github.com/" ++ user ++ str ".gpg")) by now rewrite E.
  assert (P : forallb (fun b => query_plain b) (user ++ str ".gpg") = true).
  { rewrite forallb_app. replace (forallb (fun b => query_plain b) user) with true; [reflexivity|]. symmetry. apply forallb_forall. intros b Hb.
    rewrite Forall_forall in H. apply H in Hb. clear -Hb. unfold user_char in Hb. destruct b; try reflexivity; cbn in Hb; lia. }
  unfold profile_url, url_parse.
  assert (A : forall c, In c [x23; x3f; x25] -> avoids c (str "/" ++ user ++ str ".gpg")).
  { intros c Hc. apply avoids_app; [|eapply forallb_avoids; [exact P|]].
    - intro K; cbn in Hc; destruct Hc as [<-|[<-|[<-|[]]]]; cbn in K; intuition discriminate.
    - cbn in Hc; destruct Hc as [<-|[<-|[<-|[]]]]; reflexivity. }
  rewrite url_split_cut, (cut_none x23) by (apply A; cbn; tauto).
  rewrite (proj2 (is_ctl_spec _)).
  2:{ intros b Hb. apply in_app_or in Hb as [[<-|[]]|Hb]; [unfold control; cbn; lia|].
      rewrite forallb_forall in P. apply P in Hb. clear -Hb. unfold control. destruct b; try discriminate; cbn; lia. }
  rewrite url_split_cut, (cut_none x3f) by (apply A; cbn; tauto).
  assert (Q : url_escape path_plain (str "/" ++ user ++ str ".gpg") = str "/" ++ user ++ str ".gpg").
  { apply url_escape_plain. rewrite forallb_app. apply andb_true_iff. split; [reflexivity|].
    apply forallb_forall. intros b Hb. rewrite forallb_forall in P. apply P in Hb. unfold path_plain. now rewrite Hb. }
  unfold set_part. rewrite url_unescape_decode, percent_decode_plain by (apply A; cbn; tauto).
  rewrite Q, beqs_refl. unfold option_map, purl_string, escaped_part. cbn [pu_path pu_force pu_query pu_fragment is_nil negb andb orb fst].
  rewrite Q, !app_nil_r. reflexivity.
Qed.
Print Assumptions C46_without_id.

(** The hypotheses are met: 100 keys on the first page, the wanted one on the second,
    written with other letter case and with 0x. *)
Definition gh_sample : gh_env :=
  mkGh (fun u => if beqs u (str "https://api.github.com/users/alice/gpg_keys?page=1&per_page=100") then GKeys (repeat (Some (mkKey (str "00") (Some (str "x")))) 100)
                 else if beqs u (str "https://api.github.com/users/alice/gpg_keys?page=2&per_page=100") then
                   GKeys [Some (mkKey (str "01") None); Some (mkKey (str "3B460BA9A59048C9") (Some (str "raw")))]
                 else GErr)
       (fun _ => None) (fun r => r) (fun _ _ => false).

Example C46_example : get_key gh_sample (str "alice") (str "0x3b460ba9a59048c9") 2 =
  (ROk (str "raw"), first_pages (str "alice") 2).
Proof. vm_compute. reflexivity. Qed.

Example C46_example_hypotheses :
  written_id (str "0x3b460ba9a59048c9") (str "3b460ba9a59048c9") /\
  passed_before gh_sample (str "alice") (str "3b460ba9a59048c9") 2 /\
  page gh_sample (str "alice") 2 =
    GKeys ([Some (mkKey (str "01") None)] ++ Some (mkKey (str "3B460BA9A59048C9") (Some (str "raw"))) :: []) /\
  Forall (other (str "3b460ba9a59048c9")) [Some (mkKey (str "01") None)] /\
  same_letters (str "3B460BA9A59048C9") (str "3b460ba9a59048c9") /\
  Forall user_char (str "alice").
Proof.
  split; [split; [discriminate|split]|].
  - repeat constructor; discriminate.
  - right; left; reflexivity.
  - split; [|split; [vm_compute; reflexivity|split; [|split]]].
    + intros i Hi. replace i with 1 by lia. eexists. split; [vm_compute; reflexivity|]. split; [vm_compute; discriminate|].
      repeat constructor; eexists; (split; [reflexivity|]); discriminate.
    + repeat constructor. eexists. split; [reflexivity|]. discriminate.
    + reflexivity.
    + repeat constructor; unfold user_char; cbn; lia.
Qed.
