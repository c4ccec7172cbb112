(** * Reach: what the command reaches for outside of itself: files, standard input, the clipboard and the network (facade/*.go).

    [run] of Facade looks these up in the world; here is the list of what it looks up, in order.  What the operating system and the HTTP client do then
    (redirections, proxies, looking up names) is not modelled.  fetch.URL refuses some arguments of the fetch command before a request is made;
    here they count as requested. *)
From Coq Require Import Strings.String Strings.Byte List NArith ZArith Bool.
From Verif Require Import Base Item Context Env Parse Hkp Github Facade Cli.
Import ListNotations.
Local Open Scope Z_scope.

Inductive effect := Reads_stdin | Opens (file : bytes) | Reads_clipboard | Requests (url : bytes).

(** The RunE functions: facade.go 42-71, hkp.go 25-71, github.go 25-53, fetch.go 22-46; version.go 26-28 and completion.go 59-75 reach for nothing. *)
Definition reaches (w : world) (c : command) : list effect :=
  match c with
  | CRoot false clipboard file =>
    if clipboard && negb (is_nil file) then []
    else if clipboard then [Reads_clipboard]
    else if negb (is_nil file) then [Opens file]
    else [Reads_stdin]
  | CHkp [user] ks port secure _ =>
    if is_nil ks then []
    else [Requests (url_string (fetch_url (server_new ks [WithProtocol (if secure then HKPS else HKP); WithPort port]) user))]
  | CGithub [user] keyid _ => map Requests (snd (get_key (w_gh w) user keyid (w_gh_pages w)))
  | CFetch [u] _ => [Requests u]
  | _ => []
  end.

(** main.go 10-19, from the arguments. *)
Definition main_reaches (w : world) (args : list bytes) : option (list effect) :=
  option_map (fun p => reaches w (snd p)) (cli args).
