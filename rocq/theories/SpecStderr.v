(** * SpecStderr: what a user expects on standard error (C71). *)
From Coq Require Import Strings.String Strings.Byte List NArith ZArith Bool.
From Verif Require Import Base Item Context Env Parse Hkp Github Facade SpecFacade Stderr.
Import ListNotations.
Local Open Scope Z_scope.

(** One line, with the text of the error. *)
Definition complains (msg out : bytes) : Prop := out = str "Error: " ++ msg ++ [x0a].
(** A first line that says it is a crash. *)
Definition crash_shown (out : bytes) : Prop := exists rest, out = str "Panic: " ++ rest.

(** Why there is nothing to dump, and the error that says so. *)
Inductive misses (w : world) : command -> err -> Prop :=
| misses_two : forall file, file <> [] -> misses w (CRoot false true file) EClipboard
| misses_clipboard : w_clip w = None -> misses w (CRoot false true []) EIO
| misses_file : forall file, file <> [] -> w_open w file = None -> misses w (CRoot false false file) EFile
| misses_argument_hkp : forall args ks port secure raw, List.length args <> 1%nat -> misses w (CHkp args ks port secure raw) EFile
| misses_server : forall user port secure raw, misses w (CHkp [user] [] port secure raw) EUserID
| misses_key : forall user ks port secure raw, ks <> [] ->
    w_get w (url_string (fetch_url (mkServer (if secure : bool then HKPS else HKP) ks port) user)) = None ->
    misses w (CHkp [user] ks port secure raw) EHTTP
| misses_argument_github : forall args keyid raw, List.length args <> 1%nat -> misses w (CGithub args keyid raw) EFile
| misses_github : forall user keyid raw e, fst (get_key (w_gh w) user keyid (w_gh_pages w)) = RErr e -> misses w (CGithub [user] keyid raw) e
| misses_argument_fetch : forall args raw, List.length args <> 1%nat -> misses w (CFetch args raw) EFile
| misses_web : forall u raw, w_get w u = None -> misses w (CFetch [u] raw) EHTTP.
