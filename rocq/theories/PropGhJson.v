(** * PropGhJson: C69, the keys GitHub lists are read from the JSON document of the answer. *)
From Coq Require Import Strings.String Strings.Byte List NArith ZArith Bool Arith Lia ZifyBool ZifyN ZifyNat.
From Verif Require Import Base BaseL SpecBase SpecText Utf8 Hkp Json SpecJson JsonL Github SpecHkp SpecGithub PropGithub GhJson SpecGhJson GhJsonL GhKeyL.
Import ListNotations.
Local Open Scope N_scope.

(** The body of an answer is taken for exactly the keys its JSON document lists, and what is not
    such a document is refused.  The theorem is for every body and every verdict [T] on times. *)
Theorem C69_page : forall T body whole keys,
  decode_page T body whole = GKeys keys <-> page_says (fun x => T x = true) whole body keys.
Proof. exact decode_says. Qed.
Print Assumptions C69_page.

Theorem C69_refused : forall T body whole,
  decode_page T body whole = GErr <-> (forall keys, ~ page_says (fun x => T x = true) whole body keys).
Proof.
  intros T body whole. destruct (decode_page T body whole) as [|l] eqn:D.
  - split; [|reflexivity]. intros _ keys P. apply C69_page in P. congruence.
  - split; [discriminate|]. intro H. exfalso. apply (H l). apply C69_page. exact D.
Qed.
Print Assumptions C69_refused.

(** A body lists at most one sequence of keys, so that "the keys it lists" is well-defined. *)
Theorem C69_one_reading : forall T body whole a b,
  page_says (fun x => T x = true) whole body a -> page_says (fun x => T x = true) whole body b -> a = b.
Proof. intros T body whole a b A B. apply C69_page in A, B. congruence. Qed.
Print Assumptions C69_one_reading.

(** Strings as of RFC 8259 are read as RFC 8259 says, and only as that. *)
Theorem C69_strings : forall l s, chars l s -> forall l', string_chars l' s <-> l' = l.
Proof.
  intros l s H. assert (string_chars l s) as A by (induction H; [constructor|constructor; assumption]).
  intro l'. split; [|intros ->; exact A]. intro B. apply points_chars in A, B. congruence.
Qed.
Print Assumptions C69_strings.

(** Two arrays at the start of the same octets are the same. *)
Lemma array_unique l b rest v b' t : doc_text (VArr l) b -> doc_text v b' -> b ++ rest = b' ++ t -> v = VArr l /\ t = rest.
Proof.
  intros D D' E. set (m := N.max (nesting (VArr l)) (nesting v)). set (f := (2 * length (b ++ rest))%nat).
  pose proof (proj1 (doc_complete m) _ _ D f 0 rest ltac:(unfold f; rewrite app_length; lia) ltac:(unfold m; lia) ltac:(discriminate)) as A.
  assert (forall n, v <> VNum n) as N.
  { intros n ->. inversion D' as [| | |? X| | | | |]; subst. destruct (number_head _ X) as (c & r & -> & K).
    assert (hd_error (b ++ rest) = Some x5b) as Hb by (inversion D; subst; reflexivity). rewrite E in Hb. cbn in Hb. injection Hb as ->.
    destruct K as [K|K]; [unfold digit in K; cbn in K; lia|discriminate]. }
  pose proof (proj1 (doc_complete m) _ _ D' f 0 t ltac:(unfold f; rewrite E, app_length; lia) ltac:(unfold m; lia) ltac:(intros n Q; destruct (N n Q))) as B.
  rewrite E in A. rewrite A in B. injection B as <- <-. auto.
Qed.

(** One value of the wrong sort, in any of the keys listed and at any depth, and no key of the page can be had. *)
Theorem C69_misfit : forall T whole w b rest l v,
  ws w -> doc_text (VArr l) b -> In v l -> ~ of_sort (fun x => T x = true) Key v ->
  decode_page T (w ++ b ++ rest) whole = GErr.
Proof.
  intros T whole w b rest l v W D I N. apply C69_refused. intros keys P. apply C69_page in P. unfold decode_page in P.
  rewrite (jskip_doc w _ _ rest W D) in P.
  destruct (jvalue _ _ 0 (b ++ rest)) as [[v' t]|] eqn:J; [|discriminate].
  apply (proj1 (doc_sound _ _)) in J as (b' & E & D' & _); [|unfold max_nesting; lia].
  destruct (array_unique l b rest v' b' t D D' E) as (-> & ->).
  pose proof (proj1 doc_bodies _ _ D) as B. destruct (store_ok T (VArr l) (KList KKey)) eqn:K; [|discriminate].
  apply (store_sort T _ B (SpecGhJson.List Key)) in K. inversion K as [| | | | |? ? F| |]; subst.
  rewrite Forall_forall in F. exact (N (F v I)).
Qed.
Print Assumptions C69_misfit.

(** Arrays and objects may stand in each other 10000 deep and no deeper. *)
Theorem C69_too_deep : forall T whole w b rest l,
  ws w -> doc_text (VArr l) b -> 10000 < nesting (VArr l) -> decode_page T (w ++ b ++ rest) whole = GErr.
Proof.
  intros T whole w b rest l W D N. unfold decode_page. rewrite (jskip_doc w _ _ rest W D).
  destruct (jvalue _ _ 0 (b ++ rest)) as [[v' t]|] eqn:J; [|reflexivity]. exfalso.
  apply (proj1 (doc_sound _ _)) in J as (b' & E & D' & L); [|unfold max_nesting; lia].
  destruct (array_unique l b rest v' b' t D D' E) as (-> & ->). unfold max_nesting in L. lia.
Qed.
Print Assumptions C69_too_deep.

(** An answer that breaks off inside the list is refused, wherever it breaks off. *)
Theorem C69_cut : forall T whole w b p q l,
  ws w -> doc_text (VArr l) b -> b = p ++ q -> q <> [] -> decode_page T (w ++ p) whole = GErr.
Proof.
  intros T whole w b p q l W D E Q. destruct p as [|c p].
  { apply C69_refused. intros keys P. apply C69_page in P. unfold decode_page in P. rewrite jskip_ws in P by exact W. discriminate. }
  assert (hd_error b = Some x5b) as Hb by (inversion D; reflexivity). rewrite E in Hb. injection Hb as ->.
  apply C69_refused. intros keys P. apply C69_page in P. unfold decode_page in P.
  rewrite jskip_ws, jskip_stop in P by (exact W || reflexivity).
  destruct (jvalue _ _ 0 (x5b :: p)) as [[v t]|] eqn:J; [|discriminate].
  apply (proj1 (doc_sound _ _)) in J as (b' & E' & D' & _); [|unfold max_nesting; lia].
  destruct (array_unique l b [] v b' (t ++ q) D D') as (_ & K).
  - rewrite app_nil_r, E, E', <- app_assoc. reflexivity.
  - apply app_eq_nil in K as (_ & K). contradiction.
Qed.
Print Assumptions C69_cut.

(** Anything that starts neither with an array nor with null is refused: an object with an error message, a page of
    HTML, an empty body. *)
Theorem C69_no_list : forall T whole w s,
  ws w -> (forall r, s <> x5b :: r) -> (forall r, s <> str "null" ++ r) -> (forall b r, s = b :: r -> ~ is_ws b) ->
  decode_page T (w ++ s) whole = GErr.
Proof.
  intros T whole w s W A B C. apply C69_refused. intros keys P. apply C69_page in P. unfold decode_page in P.
  rewrite jskip_ws in P by exact W. destruct s as [|c s]; [discriminate|].
  rewrite jskip_stop in P by (destruct (jspace c) eqn:J; [apply jspace_ws in J; destruct (C c s eq_refl J)|reflexivity]).
  destruct (jvalue _ _ 0 (c :: s)) as [[v t]|] eqn:J; [|discriminate].
  apply (proj1 (doc_sound _ _)) in J as (b & E & D & _); [|unfold max_nesting; lia].
  destruct (store_ok T v (KList KKey)) eqn:K; [|discriminate].
  apply (store_sort T v (proj1 doc_bodies v b D) (SpecGhJson.List Key)) in K.
  inversion K; subst; inversion D; subst; cbn [app] in E.
  - exact (B _ E).
  - injection E as -> _. exact (A _ eq_refl).
  - injection E as -> _. exact (A _ eq_refl).
Qed.
Print Assumptions C69_no_list.

(** ** Together with the search through the pages (C46) *)

(** The answer to the request for the n-th page of the user's keys lists these keys. *)
Definition answer_lists (T : bytes -> bool) (answer : bytes -> option (bytes * bool)) (user : bytes) (n : N) (keys : list (option gh_key)) : Prop :=
  exists url body whole, page_url user n = Some url /\ answer url = Some (body, whole) /\ page_says (fun x => T x = true) whole body keys.

(** The pages before page n are full and have no key with the ID. *)
Definition answers_before (T : bytes -> bool) (answer : bytes -> option (bytes * bool)) (user digits : bytes) (n : N) : Prop :=
  forall i, 1 <= i < n -> exists keys, answer_lists T answer user i keys /\ 100 <= lenN keys /\ Forall (other digits) keys.

Lemma answer_page T answer G user n keys : answer_lists T answer user n keys -> page (gh_bodies T answer G) user n = GKeys keys.
Proof. intros (url & body & whole & U & A & P). unfold page. rewrite U. cbn [gh_bodies g_page]. rewrite A. apply C69_page. exact P. Qed.
Lemma answers_pages T answer G user digits n : answers_before T answer user digits n -> passed_before (gh_bodies T answer G) user digits n.
Proof.
  intros H i L. destruct (H i L) as (keys & A & B & C). exists keys. split; [apply answer_page; exact A|auto].
Qed.

(** The raw key of the first key listed with the ID is what the user gets, octet for octet as the
    document says it. *)
Theorem C69_found : forall T answer G user text digits n before id raw after more,
  written_id text digits -> 1 <= n -> answers_before T answer user digits n ->
  answer_lists T answer user n (before ++ Some (mkKey id raw) :: after) ->
  Forall (other digits) before -> same_letters id digits ->
  get_key (gh_bodies T answer G) user text (N.to_nat n + more) =
  (match raw with Some key => ROk key | None => RErr ENoKey end, first_pages user n).
Proof.
  intros T answer G user text digits n before id raw after more W L B P F S.
  rewrite (C46_found _ user text digits n before (mkKey id raw) after more W L (answers_pages _ _ G _ _ _ B) (answer_page _ _ G _ _ _ P) F S). reflexivity.
Qed.
Print Assumptions C69_found.

(** If a last page that is not full comes without the ID, there is no such key. *)
Theorem C69_no_key : forall T answer G user text digits n keys more,
  written_id text digits -> 1 <= n -> answers_before T answer user digits n ->
  answer_lists T answer user n keys -> Forall (other digits) keys -> lenN keys < 100 ->
  get_key (gh_bodies T answer G) user text (N.to_nat n + more) = (RErr ENoKey, first_pages user n).
Proof.
  intros T answer G user text digits n keys more W L B P F S.
  exact (C46_no_key _ user text digits n keys more W L (answers_pages _ _ G _ _ _ B) (answer_page _ _ G _ _ _ P) F S).
Qed.
Print Assumptions C69_no_key.

(** If the answer lists no keys at all, not even none, the request has failed. *)
Theorem C69_failed : forall T answer G user text digits n more,
  written_id text digits -> 1 <= n -> answers_before T answer user digits n ->
  (forall keys, ~ answer_lists T answer user n keys) ->
  get_key (gh_bodies T answer G) user text (N.to_nat n + more) = (RErr EHTTP, first_pages user n).
Proof.
  intros T answer G user text digits n more W L B N.
  apply (C46_failed _ user text digits n more W L (answers_pages _ _ G _ _ _ B)).
  unfold page. destruct (page_url user n) as [u|] eqn:U; [|reflexivity]. cbn [gh_bodies g_page].
  destruct (answer u) as [[body whole]|] eqn:A; [|reflexivity]. apply C69_refused. intros keys P. apply (N keys). exists u, body, whole. auto.
Qed.
Print Assumptions C69_failed.

(** ** The theorems apply *)

(** A list of two keys in a slightly unusual writing: a name in capitals, an escaped letter, a pair of surrogates, a
    repeated member, an unknown one, and a null for the second raw key. *)
Definition sample_body : bytes :=
  str " [{""id"": 1, ""KEY_ID"": ""AB\u0043D"", ""raw_key"": ""old"", ""x"": [1.5e3, {}], ""raw_key"": ""k\n\uD83D\uDE00""}, {""key_id"": ""12EF"", ""raw_key"": null}] rest".
Definition sample_keys : list (option gh_key) :=
  [Some (mkKey (str "ABCD") (Some [x6b; x0a; xf0; x9f; x98; x80])); Some (mkKey (str "12EF") None)].

Example C69_page_used : page_says (fun x => (fun _ => false) x = true) false sample_body sample_keys.
Proof. apply C69_page. vm_compute. reflexivity. Qed.

Definition sample_answer : bytes -> option (bytes * bool) := fun _ => Some (sample_body, true).
Example C69_found_used :
  get_key (gh_bodies (fun _ => false) sample_answer gh_sample) (str "alice") (str "0xabcd") 1
  = (ROk [x6b; x0a; xf0; x9f; x98; x80], first_pages (str "alice") 1).
Proof.
  apply (C69_found (fun _ => false) sample_answer gh_sample (str "alice") (str "0xabcd") (str "abcd") 1 []
    (str "ABCD") (Some [x6b; x0a; xf0; x9f; x98; x80]) [Some (mkKey (str "12EF") None)] 0).
  - split; [discriminate|]. split; [repeat constructor; discriminate|]. right. left. reflexivity.
  - lia.
  - intros i L. lia.
  - eexists _, _, _. split; [reflexivity|]. split; [reflexivity|]. apply C69_page. vm_compute. reflexivity.
  - constructor.
  - reflexivity.
Qed.

(** A number where a string belongs, in a subkey of another key, and a list of which the last bracket is missing. *)
Example C69_misfit_used :
  decode_page (fun _ => true) (str "[{""key_id"": ""AB""}, {""subkeys"": [{""key_id"": 1}]}]") true = GErr /\
  decode_page (fun _ => true) (str "[{""key_id"": ""AB""}, {""subkeys"": [{""key_id"": ""1""}]}") true = GErr /\
  decode_page (fun _ => true) (str "{""message"": ""Not Found""}") true = GErr.
Proof. vm_compute. auto. Qed.

(** A list nested too deeply exists. *)
Lemma deep_list n : exists l b, doc_text (VArr l) b /\ nesting (VArr l) = N.of_nat n + 1.
Proof.
  induction n as [|n (l & b & H & E)].
  - exists [], ([x5b] ++ [] ++ [x5d]). split; [apply doc_array_empty; constructor|reflexivity].
  - exists [VArr l]. eexists. split; [apply doc_array; apply (doc_element _ [] b []); [constructor|exact H|constructor]|].
    change (nesting (VArr [VArr l])) with (1 + N.max (nesting (VArr l)) 0). rewrite E. lia.
Qed.
Example C69_too_deep_used : exists l b, doc_text (VArr l) b /\ 10000 < nesting (VArr l).
Proof. destruct (deep_list (N.to_nat 10000)) as (l & b & H & E). exists l, b. split; [exact H|]. rewrite E. lia. Qed.
