(** * Facade: facade/*.go, the command.

    The command line is taken as already parsed (see Cli for that): cobra's help texts and
    suggestions are not modelled ([CUsage] stands for whatever cobra refuses, [CHelp] for
    what it answers itself on standard error). *)
From Coq Require Import Strings.String Strings.Byte List NArith ZArith Bool.
From Verif Require Import Base Utf8 Item Context Env Parse Json Hkp Github.
Import ListNotations.
Local Open Scope Z_scope.

(** The persistent flags, facade.go 28-33 and 93-103: --json, --indent, and the option
    flags by code. *)
Record flags := mkFlags { f_json : bool; f_indent : Z; f_on : Z -> bool }.

(** The commands with their own flags and arguments: facade.go 37-119, version.go,
    hkp.go, github.go, fetch.go, completion.go. *)
Inductive command :=
| CRoot (version clipboard : bool) (file : bytes)
| CVersion
| CHkp (args : list bytes) (keyserver : bytes) (port : Z) (secure raw : bool)
| CGithub (args : list bytes) (keyid : bytes) (raw : bool)
| CFetch (args : list bytes) (raw : bool)
| CCompletion (args : list bytes)
| CUsage
| CHelp.

(** What is outside the program. *)
Record world := mkWorld {
  w_env : env;
  w_stdin : stream;
  w_open : bytes -> option stream;         (* os.Open and what reading the file gives *)
  w_clip : option bytes;                   (* clipboard.NewReader, clipboard.go 12-18 *)
  w_get : bytes -> option stream;          (* an HTTP request by URL, and the body *)
  w_gh : gh_env;                           (* GitHub's answers *)
  w_gh_pages : nat;                        (* how many pages are read before we stop watching *)
  w_error : err -> bytes;                  (* the text of an error with %+v *)
  w_script : bytes -> bytes;               (* cobra's completion script for a shell *)
  w_room : option nat;                     (* octets standard output takes before it fails *)
  w_stderr : bool                          (* standard error can be written *)
}.

(** What standard output holds after writing [s] to it when it holds [out], and whether
    the write succeeded. *)
Definition put (w : world) (out s : bytes) : bytes * bool :=
  match w_room w with
  | None => (out ++ s, true)
  | Some k => (firstn k (out ++ s), (List.length (out ++ s) <=? k)%nat)
  end.

(** A step of the command: the error it returns, and standard output after it. *)
Definition step := (res unit * bytes)%type.

(** rwi.WriteFrom, io.Copy: everything the reader delivers, then its error if it has one. *)
Definition write_from (w : world) (src : stream) (out : bytes) : step :=
  let '(out', ok) := put w out (st_data src) in
  (if ok && st_ok src then ROk tt else RErr EIO, out').

(** debugPrint, debug.go 9-15.  Fprintf's own error is ignored. *)
Definition debug_print (w : world) (debug : bool) (s : step) : step :=
  match s with
  | (RErr e, out) =>
    if debug then (ROk tt, fst (put w out (w_error w e ++ [x0a]))) else s
  | _ => s
  end.

(** marshalPacketInfo, facade.go 121-129. *)
Definition marshal (fl : flags) (l : info) : res bytes :=
  if f_json fl then info_JSON (f_indent fl) l
  else if f_indent fl >? 0 then ROk (info_text (repeat x20 (Z.to_nat (f_indent fl))) l)
  else ROk (info_text [x09] l).

(** parseContext, facade.go 140-154. *)
Definition parse_context (fl : flags) : opts :=
  o_new [(ARMOR, f_on fl ARMOR); (CERT, f_on fl CERT); (DEBUG, f_on fl DEBUG);
         (INTEGER, f_on fl INTEGER); (LITERAL, f_on fl LITERAL); (MARKER, f_on fl MARKER);
         (PRIVATE, f_on fl PRIVATE); (UTC, f_on fl UTC)].

(** parse.New, Parse, marshalPacketInfo, WriteFrom: facade.go 72-86 and the same lines of
    the sub-commands. *)
Definition dump (fl : flags) (w : world) (o : opts) (src : stream) : step :=
  match parse_stream o (w_env w) src with
  | (l, ROk _) =>
    match marshal fl l with
    | ROk text => write_from w (mkStream text true) []
    | RErr e => (RErr e, [])
    | RPanic => (RPanic, [])
    | RFuel => (RFuel, [])
    end
  | (_, RErr e) => (RErr e, [])
  | (_, RPanic) => (RPanic, [])
  | (_, RFuel) => (RFuel, [])
  end.

(** A response: raw, or dumped. *)
Definition answer (fl : flags) (w : world) (o : opts) (raw : bool) (body : stream) : step :=
  if raw then write_from w body [] else dump fl w o body.

(** The RunE function of the root command, facade.go 42-87, without debugPrint. *)
Definition run_root (fl : flags) (w : world) (clipboard : bool) (file : bytes) : step :=
  let o := parse_context fl in
  if clipboard && negb (is_nil file) then (RErr EClipboard, [])
  else if clipboard then
    match w_clip w with
    | None => (RErr EIO, [])
    | Some s => dump fl w (o_set ARMOR true o) (mkStream s true)
    end
  else if negb (is_nil file) then
    match w_open w file with
    | None => (RErr EFile, [])
    | Some src => dump fl w o src
    end
  else dump fl w o (w_stdin w).

(** hkp.go, RunE. *)
Definition run_hkp (fl : flags) (w : world) (args : list bytes) (ks : bytes) (port : Z) (secure raw : bool) : step :=
  let o := o_set ARMOR true (parse_context fl) in
  match args with
  | [userID] =>
    if is_nil ks then (RErr EUserID, [])            (* ecode.ErrEmptyKeyServer *)
    else match w_get w (url_string (fetch_url (server_new ks [WithProtocol (if secure then HKPS else HKP); WithPort port]) userID)) with
         | None => (RErr EHTTP, [])
         | Some body => answer fl w o raw body
         end
  | _ => (RErr EFile, [])                            (* os.ErrInvalid *)
  end.

(** github.go, RunE. *)
Definition run_github (fl : flags) (w : world) (args : list bytes) (keyid : bytes) (raw : bool) : step :=
  let o := o_set ARMOR true (parse_context fl) in
  match args with
  | [user] =>
    match fst (get_key (w_gh w) user keyid (w_gh_pages w)) with
    | ROk b => answer fl w o raw (mkStream b true)
    | RErr e => (RErr e, [])
    | RPanic => (RPanic, [])
    | RFuel => (RFuel, [])
    end
  | _ => (RErr EFile, [])                            (* os.ErrInvalid *)
  end.

(** fetch.go, RunE. *)
Definition run_fetch (fl : flags) (w : world) (args : list bytes) (raw : bool) : step :=
  match args with
  | [u] => match w_get w u with
           | None => (RErr EHTTP, [])
           | Some body => answer fl w (parse_context fl) raw body
           end
  | _ => (RErr EFile, [])                            (* os.ErrInvalid *)
  end.

(** completion.go 59-75. *)
Definition run_completion (w : world) (args : list bytes) : step :=
  let shell s := write_from w (mkStream (w_script w s) true) [] in
  match args with
  | [] => shell (str "bash")
  | [a] =>
    if equal_fold (w_gh w) a (str "bash") then shell (str "bash")
    else if equal_fold (w_gh w) a (str "zsh") then shell (str "zsh")
    else if equal_fold (w_gh w) a (str "fish") then shell (str "fish")
    else if equal_fold (w_gh w) a (str "powershell") then shell (str "powershell")
    else (RErr EFile, [])
  | _ => (RErr EFile, [])
  end.

(** The command cobra runs.  [debugFlag] is set by parseContext, so it is still false in
    the commands that do not call it. *)
Definition run (fl : flags) (w : world) (c : command) : step :=
  let dbg := oDebug (parse_context fl) in
  match c with
  | CRoot true _ _ | CVersion => (if w_stderr w then ROk tt else RErr EIO, [])
  | CRoot false cb file => debug_print w dbg (run_root fl w cb file)
  | CHkp args ks port secure raw => debug_print w dbg (run_hkp fl w args ks port secure raw)
  | CGithub args keyid raw => debug_print w dbg (run_github fl w args keyid raw)
  | CFetch args raw => debug_print w dbg (run_fetch fl w args raw)
  | CCompletion args => run_completion w args
  | CUsage => (RErr EFile, [])
  | CHelp => (ROk tt, [])
  end.

(** exitcode.Normal and exitcode.Abnormal. *)
Definition Normal := 0.
Definition Abnormal := 1.

(** Execute, facade.go 157-179, as called by main, main.go 10-19: the exit code and standard output.  Panics are recovered
    from; [None] is a command that has not ended. *)
Definition execute (fl : flags) (w : world) (c : command) : option Z * bytes :=
  let '(r, out) := run fl w c in
  (match r with
   | ROk _ => Some Normal
   | RErr _ => Some Abnormal
   | RPanic => Some Abnormal
   | RFuel => None
   end, out).
