(** * SpecReach: what a command line may reach for (C72). *)
From Coq Require Import Strings.String Strings.Byte List NArith ZArith Bool.
From Verif Require Import Base Github Facade Reach SpecHkp SpecUrl.
Import ListNotations.
Local Open Scope Z_scope.

(** [s] is an argument, or the end of one, as in -fNAME and --file=NAME. *)
Definition stands_in (args : list bytes) (s : bytes) : Prop := exists p, In (p ++ s) args.
(** The long option [n], with or without a value, is an argument. *)
Definition option_in (args : list bytes) (n : string) : Prop := exists t, In (str "--" ++ str n ++ t) args.
Definition one_of (args : list bytes) (names : list string) : Prop := exists n, In n names /\ In (str n) args.

(** A request to a key server for one user: the path and the parameters of the HKP protocol and nothing else; from the server that was named, on the port that was named. *)
Definition key_request (args : list bytes) (user host : bytes) (port : Z) (u : bytes) : Prop :=
  exists p q, url_parts u = Some p /\ (p_scheme p = str "http" \/ p_scheme p = str "https" /\ option_in args "secure") /\
    (Forall host_char host -> host_port (p_authority p) = Some (host, decZ port)) /\ p_path p = str "/pks/lookup" /\ p_fragment p = None /\
    p_query p = Some q /\ parameters q = Some [(str "op", str "get"); (str "search", user)].
(** Requests to GitHub: for the profile of a user, and for one page of their keys. *)
Definition profile_request (user u : bytes) : Prop :=
  exists p, url_parts u = Some p /\ p_scheme p = str "https" /\ p_authority p = str "github.com" /\
    percent_decode (p_path p) = percent_decode (before x3f (before x23 (str "/" ++ user ++ str ".gpg"))).
Definition page_request (user : bytes) (i : nat) (u : bytes) : Prop :=
  exists p q ps, url_parts u = Some p /\ p_scheme p = str "https" /\ p_authority p = str "api.github.com" /\
    percent_decode (p_path p) = percent_decode (before x3f (before x23 (str "/users/" ++ user ++ str "/gpg_keys"))) /\
    p_query p = Some q /\ parameters q = Some ps /\ values_of (str "page") ps = [dec (N.of_nat i)] /\ values_of (str "per_page") ps = [str "100"].

(** Nothing; or one thing that the arguments name; or the pages of one GitHub user that the arguments name, from the first on. *)
Inductive may_reach (args : list bytes) : list effect -> Prop :=
| reach_nothing : may_reach args []
| reach_stdin : may_reach args [Reads_stdin]
| reach_file file : file <> [] -> stands_in args file -> may_reach args [Opens file]
| reach_clipboard : option_in args "clipboard" -> may_reach args [Reads_clipboard]
| reach_key_server user host port u : one_of args ["hkp"; "h"]%string -> In user args ->
    host = str "keys.gnupg.net" \/ stands_in args host -> port = 11371 \/ option_in args "port" -> key_request args user host port u ->
    may_reach args [Requests u]
| reach_profile user u : one_of args ["github"; "gh"; "g"]%string -> In user args -> profile_request user u -> may_reach args [Requests u]
| reach_pages user n urls : one_of args ["github"; "gh"; "g"]%string -> In user args ->
    Forall2 (page_request user) (seq 1 n) urls -> may_reach args (map Requests urls)
| reach_web u : one_of args ["fetch"; "fch"; "f"]%string -> In u args -> may_reach args [Requests u].

(** Two worlds that show the same to one who reaches for something. *)
Definition same_there (w w' : world) (e : effect) : Prop :=
  match e with
  | Reads_stdin => w_stdin w = w_stdin w'
  | Opens file => w_open w file = w_open w' file
  | Reads_clipboard => w_clip w = w_clip w'
  | Requests u => w_get w u = w_get w' u /\ g_page (w_gh w) u = g_page (w_gh w') u /\ g_profile (w_gh w) u = g_profile (w_gh w') u
  end.
(** Two worlds that differ at most in files, standard input, the clipboard and the network. *)
Definition same_inside (w w' : world) : Prop :=
  w_env w = w_env w' /\ w_gh_pages w = w_gh_pages w' /\ w_error w = w_error w' /\ w_script w = w_script w' /\ w_room w = w_room w' /\ w_stderr w = w_stderr w' /\
  g_lower (w_gh w) = g_lower (w_gh w') /\ g_fold (w_gh w) = g_fold (w_gh w').
