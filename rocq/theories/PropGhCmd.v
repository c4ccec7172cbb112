(** * C69 for the command: github shows the key the JSON answers list, or nothing. *)
From Coq Require Import Strings.String Strings.Byte List NArith ZArith Bool Lia ZifyBool ZifyN ZifyNat.
From Verif Require Import Base BaseL Item Reader Opaque Context Env Parse Json Hkp Github Facade Cli SpecBase SpecText SpecFrame SpecParse SpecArmor SpecRadix64 SpecJson SpecFacade SpecCli SpecValues SpecPacket
  SpecAccept SpecShown SpecCommand SpecOutcome SpecPrinted Witness PropFrame PropText PropJson PropFacade PropCli PropAcceptCmd ArmorSizeL PropShown PropRadix64 PropCommand PropCommandAll PropOutcome PropOutcomeCmd.
From Verif Require Import SpecGithub PropGithub.
From Verif Require GhJson PropAccept PropGhJson.
Import ListNotations.
Local Open Scope N_scope.

(** GitHub's answers list the key with the ID that is asked for: full pages without it, and then a page of which the first key with the ID has [raw]. *)
Definition lists_key (T : bytes -> bool) (get : bytes -> option (bytes * bool)) (user text : bytes) (raw : option bytes) (n : N) : Prop :=
  exists digits before id after, written_id text digits /\ 1 <= n /\ PropGhJson.answers_before T get user digits n /\
    PropGhJson.answer_lists T get user n (before ++ Some (mkKey id raw) :: after) /\ Forall (other digits) before /\ same_letters id digits.

(** The answers end without it: full pages without the key, and then a page that is not full, without it as well, or one that lists nothing
    (no answer, no JSON, a JSON document of another form). *)
Definition lists_no_key (T : bytes -> bool) (get : bytes -> option (bytes * bool)) (user text : bytes) (n : N) : Prop :=
  exists digits, written_id text digits /\ 1 <= n /\ PropGhJson.answers_before T get user digits n /\
    ((exists keys, PropGhJson.answer_lists T get user n keys /\ Forall (other digits) keys /\ lenN keys < 100) \/
     (forall keys, ~ PropGhJson.answer_lists T get user n keys)).

(** What the command is given when its requests are answered by [get], and it may go on to page n. *)
Definition asks_github (w : world) (T : bytes -> bool) (get : bytes -> option (bytes * bool)) (n : N) : Prop :=
  (exists G, w_gh w = GhJson.gh_bodies T get G) /\ n <= N.of_nat (w_gh_pages w).

Lemma found_key w T get user text raw n : asks_github w T get n -> lists_key T get user text raw n ->
  fst (get_key (w_gh w) user text (w_gh_pages w)) = match raw with Some key => ROk key | None => RErr ENoKey end.
Proof.
  intros [[G ->] L] (digits & before & id & after & W & L1 & B & A & F & S).
  replace (w_gh_pages w) with (N.to_nat n + (w_gh_pages w - N.to_nat n))%nat by lia.
  rewrite (PropGhJson.C69_found T get G user text digits n before id raw after _ W L1 B A F S). reflexivity.
Qed.

Lemma no_key w T get user text n : asks_github w T get n -> lists_no_key T get user text n ->
  exists e, fst (get_key (w_gh w) user text (w_gh_pages w)) = RErr e.
Proof.
  intros [[G ->] L] (digits & W & L1 & B & H).
  replace (w_gh_pages w) with (N.to_nat n + (w_gh_pages w - N.to_nat n))%nat by lia.
  destruct H as [(keys & A & F & S)|N].
  - rewrite (PropGhJson.C69_no_key T get G user text digits n keys _ W L1 B A F S). eexists. reflexivity.
  - rewrite (PropGhJson.C69_failed T get G user text digits n _ W L1 B N). eexists. reflexivity.
Qed.

(** The octets the command works on are those of the raw key the document names, and no others. *)
Theorem C69_input : forall (w : world) (T : bytes -> bool) (get : bytes -> option (bytes * bool)) (user text key : bytes) (n : N) (raw : bool) (src : stream),
  asks_github w T get n -> lists_key T get user text (Some key) n ->
  (input w (CGithub [user] text raw) src <-> src = mkStream key true).
Proof.
  intros w T get user text key n raw src A K. pose proof (in_github w user text raw key (found_key w T get user text (Some key) n A K)) as I.
  split; [intro I'; exact (input_unique w _ _ _ I' I) | intros ->; exact I].
Qed.
Print Assumptions C69_input.

(** gpgpdump github user --keyid text, with further options, written in any of the ways they may be: the lines for the packets of the key that is listed. *)
Theorem C69_shown : forall (w : world) (args : list bytes) (l : list (string * value)) (T : bytes -> bool) (get : bytes -> option (bytes * bool)) (user text key out : bytes) (n : N),
  asks args l (CGithub [user] text false) -> on l "json" = false -> on l "debug" = false ->
  int_sizes (e_grow (w_env w)) -> decodes_armor (w_env w) -> short_lines key -> lenN key < 2 ^ 32 - 1 ->
  asks_github w T get n -> lists_key T get user text (Some key) n ->
  (main w args = Some (Some 0%Z, out) <->
   exists block pieces pk items, first_block (lines_of key) block /\ e_armor (w_env w) (unlines block) = Some (pieces, true) /\
     input_of pk (concat pieces) /\ all_read (options_asked l (CGithub [user] text false)) (w_env w) pk cst_init items /\
     out = lines_shown (indent_asked l) items /\ takes w out).
Proof.
  intros w args l T get user text key out n A J D G DA SL L AG K.
  rewrite (C67_command_all w args l (CGithub [user] text false) key out A eq_refl J D G DA SL L (proj2 (C69_input w T get user text key n false _ AG K) eq_refl)).
  split.
  - intros (data & pk & items & ST & IN & AR & E & TK). destruct ST as [x OA _|x block pieces F1 F2].
    + exfalso. revert OA. unfold oArmor, options_asked. cbn [armored_source]. destruct (on l "armor"); discriminate.
    + exists block, pieces, pk, items. tauto.
  - intros (block & pieces & pk & items & F1 & F2 & IN & AR & E & TK). exists (concat pieces), pk, items. split; [econstructor; eassumption | auto].
Qed.
Print Assumptions C69_shown.

(** With --raw: the raw key itself, octet for octet. *)
Theorem C69_raw : forall (w : world) (args : list bytes) (l : list (string * value)) (T : bytes -> bool) (get : bytes -> option (bytes * bool)) (user text key : bytes) (n : N),
  asks args l (CGithub [user] text true) -> asks_github w T get n -> lists_key T get user text (Some key) n -> takes w key ->
  main w args = Some (Some 0%Z, key).
Proof.
  intros w args l T get user text key n A AG K TK. destruct (asks_cli _ _ _ A) as (fl & CL & FA).
  unfold main. rewrite CL. cbn [option_map fst snd]. unfold execute, run, run_github. rewrite (found_key w T get user text (Some key) n AG K). unfold answer, write_from. cbn [st_data st_ok].
  rewrite put_takes by exact TK. reflexivity.
Qed.
Print Assumptions C69_raw.

(** No key in the answers, a key without its raw text, no answer, or one that is not such a list: nothing is written and the status is 1; with --debug
    a line with the error is written and the status is 0. *)
Theorem C69_nothing : forall (w : world) (args : list bytes) (l : list (string * value)) (T : bytes -> bool) (get : bytes -> option (bytes * bool)) (user text : bytes) (n : N) (raw : bool),
  asks args l (CGithub [user] text raw) -> asks_github w T get n -> lists_no_key T get user text n \/ lists_key T get user text None n ->
  if on l "debug" then exists e, main w args = Some (Some 0%Z, taken w (w_error w e ++ [x0a])) else main w args = Some (Some 1%Z, []).
Proof.
  intros w args l T get user text n raw A AG K. destruct (asks_cli _ _ _ A) as (fl & CL & FA).
  assert (exists e, fst (get_key (w_gh w) user text (w_gh_pages w)) = RErr e) as [e E].
  { destruct K as [K|K]; [exact (no_key _ _ _ _ _ _ AG K)|]. exists ENoKey. exact (found_key _ _ _ _ _ _ _ AG K). }
  assert (f_on fl DEBUG = on l "debug") as FD by (destruct FA as (_ & _ & _ & _ & X & _); exact X).
  unfold main. rewrite CL. cbn [option_map fst snd]. unfold execute, run, run_github. rewrite debug_flag, FD, E. destruct (on l "debug"); [|reflexivity].
  exists e. cbn [debug_print]. unfold put, taken. destruct (w_room w); reflexivity.
Qed.
Print Assumptions C69_nothing.

(** ** The theorems apply *)

(** Two pages: the first has 100 keys and the second, which is not full, one with an armored marker packet as its raw key, and one without. *)
Definition json_text (t : bytes) : bytes := flat_map (fun b => if Byte.eqb b x0a then str "\n" else if Byte.eqb b x0d then str "\r" else [b]) t.
Definition armored_key : bytes := flat_map (fun l => str l ++ [x0d; x0a]) ["-----BEGIN PGP MESSAGE-----"; "Version: 1"; ""; "ygNQR1A="; "=GG5/"; "-----END PGP MESSAGE-----"]%string.
Definition full_body : bytes := str "[{}" ++ flat_map (fun b => b) (repeat (str ",{}") 99) ++ str "]".
Definition last_body : bytes := str "[{""key_id"":""AB12"",""raw_key"":""" ++ json_text armored_key ++ str """},{""key_id"":""CD"",""raw_key"":null}]".
Definition two_pages : bytes -> option (bytes * bool) := fun u =>
  if match page_url (str "alice") 1 with Some v => if list_eq_dec Byte.byte_eq_dec u v then true else false | None => false end then Some (full_body, true) else Some (last_body, true).
Definition gh_world : world := let w := armor_world [] in
  mkWorld env_armor (w_stdin w) (w_open w) (w_clip w) (w_get w) (GhJson.gh_bodies (fun _ => true) two_pages gh_sample) 3 (w_error w) (w_script w) (w_room w) (w_stderr w).

Lemma two_pages_before digits : digits <> [] -> PropGhJson.answers_before (fun _ => true) two_pages (str "alice") digits 2.
Proof.
  intros D i L. assert (i = 1) as -> by lia. exists (repeat (Some (mkKey [] None)) 100). split; [|split].
  - eexists _, _, _. split; [reflexivity|]. split; [reflexivity|]. apply PropGhJson.C69_page. vm_compute. reflexivity.
  - vm_compute. discriminate.
  - apply Forall_forall. intros k I. apply repeat_spec in I. subst k. exists (mkKey [] None). split; [reflexivity|]. destruct digits; [congruence|]. discriminate.
Qed.
Lemma gh_world_asks : asks_github gh_world (fun _ => true) two_pages 2.
Proof. split; [exists gh_sample; reflexivity | cbn; lia]. Qed.
Lemma gh_world_lists : lists_key (fun _ => true) two_pages (str "alice") (str "0xab12") (Some armored_key) 2.
Proof.
  exists (str "ab12"), [], (str "AB12"), [Some (mkKey (str "CD") None)].
  split; [split; [discriminate|]; split; [repeat constructor; discriminate | right; left; reflexivity]|]. split; [lia|]. split; [apply two_pages_before; discriminate|].
  split; [|split; [constructor | reflexivity]].
  eexists _, _, _. split; [reflexivity|]. split; [reflexivity|]. apply PropGhJson.C69_page. vm_compute. reflexivity.
Qed.
Lemma gh_asks id (raw : bool) : asks ([str "-u"] ++ str "gh" :: [str "alice"; str "--keyid"; id] ++ if raw then [str "--raw"] else [])
  ([("utc"%string, VBool true); ("keyid"%string, VString id)] ++ if raw then [("raw"%string, VBool true)] else []) (CGithub [str "alice"] id raw).
Proof.
  assert (CGithub [str "alice"] id raw = command_asked MGithub ([("utc"%string, VBool true)] ++ [("keyid"%string, VString id)] ++ if raw then [("raw"%string, VBool true)] else []) [str "alice"]) as -> by (destruct raw; reflexivity).
  change ([("utc"%string, VBool true); ("keyid"%string, VString id)] ++ (if raw then [("raw"%string, VBool true)] else []))
    with ([("utc"%string, VBool true)] ++ ([("keyid"%string, VString id)] ++ if raw then [("raw"%string, VBool true)] else [])).
  apply (asks_sub MGithub "gh").
  - apply n_github. cbn [In]. tauto.
  - apply (wa_more _ [("utc", VBool true)]%string [str "-" ++ ["u"%byte]] [] []); [|constructor]. apply w_letters; [apply letters_more; [member|constructor]|discriminate].
  - change ([str "alice"; str "--keyid"; id] ++ (if raw then [str "--raw"] else [])) with (str "alice" :: ([str "--" ++ str "keyid"; id] ++ if raw then [str "--" ++ str "raw"] else [])).
    apply line_argument; [left; discriminate|]. apply line_options; [eapply w_long_next with (k := KString); [member|discriminate|constructor]|].
    destruct raw; [|constructor]. apply (line_options _ [("raw", VBool true)]%string [str "--" ++ str "raw"] [] [] []); [eapply w_long; member|constructor].
Qed.

(** gpgpdump -u gh alice --keyid 0xab12 *)
Example C69_shown_used : let args := [str "-u"; str "gh"; str "alice"; str "--keyid"; str "0xab12"] in let l := [("utc"%string, VBool true); ("keyid"%string, VString (str "0xab12"))] in
  asks args l (CGithub [str "alice"] (str "0xab12") false) /\ on l "json" = false /\ on l "debug" = false /\
  int_sizes (e_grow (w_env gh_world)) /\ decodes_armor (w_env gh_world) /\ short_lines armored_key /\ lenN armored_key < 2 ^ 32 - 1 /\
  asks_github gh_world (fun _ => true) two_pages 2 /\ lists_key (fun _ => true) two_pages (str "alice") (str "0xab12") (Some armored_key) 2 /\
  main gh_world args = Some (Some 0%Z, str "Marker Packet (Obsolete Literal Packet) (tag 10) (3 bytes)" ++ [x0a; x09] ++ str "Literal data (3 bytes)" ++ [x0a]).
Proof.
  cbv zeta. split; [exact (gh_asks (str "0xab12") false)|]. split; [reflexivity|]. split; [reflexivity|]. split; [apply PropAccept.C63_packet_used|].
  split; [exact decodes_armor_used|]. split; [apply short_lines_by; vm_compute; reflexivity|]. split; [reflexivity|]. split; [exact gh_world_asks|]. split; [exact gh_world_lists|].
  vm_compute. reflexivity.
Qed.
(** ... --raw: the armored text, line ends included. *)
Example C69_raw_used : main gh_world [str "-u"; str "gh"; str "alice"; str "--keyid"; str "0xab12"; str "--raw"] = Some (Some 0%Z, armored_key).
Proof. apply (C69_raw gh_world _ _ (fun _ => true) two_pages (str "alice") (str "0xab12") _ 2 (gh_asks (str "0xab12") true) gh_world_asks gh_world_lists). discriminate. Qed.
(** A key whose raw text is null, and one that is not listed. *)
Example C69_nothing_used : forall id, id = str "cd" \/ id = str "ef" ->
  main gh_world [str "-u"; str "gh"; str "alice"; str "--keyid"; id] = Some (Some 1%Z, []).
Proof.
  intros id I. apply (C69_nothing gh_world _ _ (fun _ => true) two_pages (str "alice") id 2 false (gh_asks id false) gh_world_asks).
  assert (PropGhJson.answer_lists (fun _ => true) two_pages (str "alice") 2 [Some (mkKey (str "AB12") (Some armored_key)); Some (mkKey (str "CD") None)]) as A
    by (eexists _, _, _; split; [reflexivity|]; split; [reflexivity|]; apply PropGhJson.C69_page; vm_compute; reflexivity).
  destruct I as [-> | ->].
  - right. exists (str "cd"), [Some (mkKey (str "AB12") (Some armored_key))], (str "CD"), [].
    split; [split; [discriminate|]; split; [repeat constructor; discriminate | left; reflexivity]|]. split; [lia|]. split; [apply two_pages_before; discriminate|].
    split; [exact A|]. split; [|reflexivity]. constructor; [|constructor]. eexists. split; [reflexivity | discriminate].
  - left. exists (str "ef"). split; [split; [discriminate|]; split; [repeat constructor; discriminate | left; reflexivity]|]. split; [lia|]. split; [apply two_pages_before; discriminate|].
    left. eexists. split; [exact A|]. split; [|reflexivity]. repeat (constructor; [eexists; split; [reflexivity | discriminate]|]). constructor.
Qed.
