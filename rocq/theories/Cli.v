(** * Cli: the command line, from its arguments to the command and flags of Facade.

    The flags and commands are those of facade/*.go.  How they are looked for is cobra 1.1.3 (command.go: Find, stripFlags,
    argsMinusFirstX, legacyArgs, execute) and pflag 1.0.5 (flag.go: parseArgs, parseLongArg, parseShortArg), whose source is
    not in /repo; they are modelled from knowledge of these libraries. *)
From Coq Require Import Strings.String Strings.Byte List NArith ZArith Bool.
From Verif Require Import Base Context Facade.
Import ListNotations.
Local Open Scope Z_scope.

(** ** Flags *)
Inductive kind := KBool | KInt | KString.
Inductive value := VBool (b : bool) | VInt (z : Z) | VString (s : bytes).
Record flag := mkFlag { fl_name : bytes; fl_short : option byte; fl_kind : kind }.

(** The persistent flags, facade.go 93-103 *)
Definition common_flags : list flag :=
  [mkFlag (str "json") (Some "j"%byte) KBool; mkFlag (str "indent") None KInt;
   mkFlag (optcode_string optcode_map ARMOR) (Some "a"%byte) KBool; mkFlag (optcode_string optcode_map CERT) (Some "c"%byte) KBool;
   mkFlag (optcode_string optcode_map DEBUG) None KBool; mkFlag (optcode_string optcode_map INTEGER) (Some "i"%byte) KBool;
   mkFlag (optcode_string optcode_map LITERAL) (Some "l"%byte) KBool; mkFlag (optcode_string optcode_map MARKER) (Some "m"%byte) KBool;
   mkFlag (optcode_string optcode_map PRIVATE) (Some "p"%byte) KBool; mkFlag (optcode_string optcode_map UTC) (Some "u"%byte) KBool].

Inductive cmd := MRoot | MVersion | MHkp | MGithub | MFetch | MCompletion | MHelp.
(** The flags of one command: facade.go 89-92, hkp.go 93-96, github.go 74-75, fetch.go 68 *)
Definition own_flags (c : cmd) : list flag :=
  match c with
  | MRoot => [mkFlag (str "version") (Some "v"%byte) KBool; mkFlag (str "file") (Some "f"%byte) KString; mkFlag (str "clipboard") None KBool]
  | MHkp => [mkFlag (str "keyserver") None KString; mkFlag (str "port") None KInt; mkFlag (str "secure") None KBool; mkFlag (str "raw") None KBool]
  | MGithub => [mkFlag (str "keyid") None KString; mkFlag (str "raw") None KBool]
  | MFetch => [mkFlag (str "raw") None KBool]
  | MVersion | MCompletion | MHelp => []
  end.
(** InitDefaultHelpFlag, called by execute, after Find *)
Definition help_flag : flag := mkFlag (str "help") (Some "h"%byte) KBool.
Definition find_flags (c : cmd) : list flag := common_flags ++ own_flags c.
Definition parse_flags (c : cmd) : list flag := find_flags c ++ [help_flag].

(** The sub-commands and their aliases: version.go 22-23, hkp.go 21-22, github.go 21-22, fetch.go 18-19, completion.go 55-56;
    help is cobra's. *)
Definition sub_commands : list (list bytes * cmd) :=
  [([str "version"; str "ver"; str "v"], MVersion); ([str "hkp"; str "h"], MHkp); ([str "github"; str "gh"; str "g"], MGithub);
   ([str "fetch"; str "fch"; str "f"], MFetch); ([str "completion"; str "compl"; str "cmp"], MCompletion); ([str "help"], MHelp)].
(** Command.findNext *)
Definition find_next (x : bytes) : option cmd := option_map snd (find (fun p => existsb (beqs x) (fst p)) sub_commands).
(** The hidden command of completion scripts, which is cobra's and not modelled. *)
Definition is_complete (x : bytes) : bool := beqs x (str "__complete") || beqs x (str "__completeNoDesc").

(** ** Values *)
(** strconv.ParseBool *)
Definition parse_bool (t : bytes) : option bool :=
  if existsb (beqs t) [str "1"; str "t"; str "T"; str "TRUE"; str "true"; str "True"] then Some true
  else if existsb (beqs t) [str "0"; str "f"; str "F"; str "FALSE"; str "false"; str "False"] then Some false
  else None.
(** A digit or a letter as a digit, strconv.ParseUint. *)
Definition digit_of (b : byte) : option N :=
  let n := b2n b in
  (if (48 <=? n) && (n <=? 57) then Some (n - 48)
   else if (65 <=? n) && (n <=? 90) then Some (n - 55)
   else if (97 <=? n) && (n <=? 122) then Some (n - 87) else None)%N.
Fixpoint digits_in (base acc : N) (t : bytes) : option N :=
  match t with
  | [] => Some acc
  | b :: t' =>
    if Byte.eqb b "_"%byte then digits_in base acc t'
    else match digit_of b with Some d => if (d <? base)%N then digits_in base (acc * base + d)%N t' else None | None => None end
  end.
(** strconv.underscoreOK behind sign and prefix.  [last]: the last character was a digit (or the prefix). *)
Fixpoint underscore_ok (hex last : bool) (t : bytes) : bool :=
  match t with
  | [] => true
  | b :: t' =>
    if Byte.eqb b "_"%byte then last && match t' with [] => false | c :: _ => negb (Byte.eqb c "_"%byte) && underscore_ok hex false t' end
    else underscore_ok hex true t'
  end.
(** strconv.ParseUint with base 0.  In underscoreOK a letter is no digit unless the number is hexadecimal, but then
    [digits_in] has refused it already. *)
Definition parse_uint (t : bytes) : option N :=
  match t with
  | [] => None
  | "0"%byte :: p :: _ :: _ =>
    let lower := (if (65 <=? b2n p) && (b2n p <=? 90) then b2n p + 32 else b2n p)%N in
    let r := skipn 2 t in
    if (lower =? 98)%N then (if underscore_ok false true r then digits_in 2 0 r else None)
    else if (lower =? 111)%N then (if underscore_ok false true r then digits_in 8 0 r else None)
    else if (lower =? 120)%N then (if underscore_ok true true r then digits_in 16 0 r else None)
    else if underscore_ok false false t then digits_in 8 0 (skipn 1 t) else None
  | "0"%byte :: _ => if underscore_ok false false t then digits_in 8 0 (skipn 1 t) else None
  | _ => if underscore_ok false false t then digits_in 10 0 t else None
  end.
(** strconv.ParseInt with base 0 and 64 bits, pflag int.go *)
Definition parse_int (t : bytes) : option Z :=
  match t with
  | "-"%byte :: r => match parse_uint r with Some n => if (n <=? 2 ^ 63)%N then Some (- Z.of_N n) else None | None => None end
  | "+"%byte :: r => match parse_uint r with Some n => if (n <? 2 ^ 63)%N then Some (Z.of_N n) else None | None => None end
  | _ => match parse_uint t with Some n => if (n <? 2 ^ 63)%N then Some (Z.of_N n) else None | None => None end
  end.
(** flag.Value.Set *)
Definition parse_value (k : kind) (t : bytes) : option value :=
  match k with
  | KBool => option_map VBool (parse_bool t)
  | KInt => option_map VInt (parse_int t)
  | KString => Some (VString t)
  end.

(** ** pflag *)
Definition lookup (fs : list flag) (n : bytes) : option flag := find (fun f => beqs n (fl_name f)) fs.
Definition lookup_short (fs : list flag) (c : byte) : option flag :=
  find (fun f => match fl_short f with Some s => Byte.eqb c s | None => false end) fs.
(** NoOptDefVal is not empty: boolean flags may stand without a value. *)
Definition no_value (f : flag) : bool := match fl_kind f with KBool => true | _ => false end.

(** What one argument that is an option does: set flags, set flags and take the next argument for another one, or fail. *)
Inductive act := Sets (l : list (bytes * value)) | Wants (l : list (bytes * value)) (f : flag) | Bad.
Definition set_flag (f : flag) (t : bytes) : act :=
  match parse_value (fl_kind f) t with Some v => Sets [(fl_name f, v)] | None => Bad end.
Definition before (l : list (bytes * value)) (a : act) : act :=
  match a with Sets m => Sets (l ++ m) | Wants m f => Wants (l ++ m) f | Bad => Bad end.

(** strings.SplitN(name, "=", 2) *)
Fixpoint split_eq (t : bytes) : bytes * option bytes :=
  match t with
  | [] => ([], None)
  | b :: t' => if Byte.eqb b "="%byte then ([], Some t') else let '(a, r) := split_eq t' in (b :: a, r)
  end.
(** parseLongArg, on what follows the two hyphens *)
Definition long_arg (fs : list flag) (t : bytes) : act :=
  match t with
  | [] | "-"%byte :: _ | "="%byte :: _ => Bad
  | _ =>
    let '(n, v) := split_eq t in
    match lookup fs n with
    | None => Bad
    | Some f => match v with
                | Some v => set_flag f v
                | None => if no_value f then set_flag f (str "true") else Wants [] f
                end
    end
  end.
(** parseShortArg and parseSingleShortArg, on what follows the hyphen.  An unknown letter at which the rest of the argument
    is test.something is passed over with the rest. *)
Fixpoint short_arg (fs : list flag) (t : bytes) : act :=
  match t with
  | [] => Sets []
  | c :: t' =>
    if beqs (firstn 5 t) (str "test.") then Sets []
    else match lookup_short fs c with
    | None => Bad
    | Some f =>
      match t' with
      | "="%byte :: _ :: _ => set_flag f (skipn 1 t')
      | _ =>
        if no_value f then match set_flag f (str "true") with Sets l => before l (short_arg fs t') | a => a end
        else match t' with
             | [] => Wants [] f
             | _ => set_flag f t'
             end
      end
    end
  end.
(** FlagSet.parseArgs: the flags in the order in which they are set, and the other arguments. *)
Fixpoint parse_args (fs : list flag) (args : list bytes) : option (list (bytes * value) * list bytes) :=
  let more l rest := match rest with Some (m, a) => Some (l ++ m, a) | None => None end in
  match args with
  | [] => Some ([], [])
  | s :: rest =>
    match s with
    | "-"%byte :: c :: t =>
      if beqs s (str "--") then Some ([], rest)
      else match (if Byte.eqb c "-"%byte then long_arg fs t else short_arg fs (c :: t)) with
           | Bad => None
           | Sets l => more l (parse_args fs rest)
           | Wants l f =>
             match rest with
             | [] => None
             | v :: rest' => match parse_value (fl_kind f) v with
                             | Some v => more (l ++ [(fl_name f, v)]) (parse_args fs rest')
                             | None => None
                             end
             end
           end
    | _ => match parse_args fs rest with Some (l, a) => Some (l, s :: a) | None => None end
    end
  end.

(** ** cobra *)
Definition has_eq (s : bytes) : bool := existsb (Byte.eqb "="%byte) s.
(** The options for which stripFlags passes over the next argument: those it takes for options with a value; a long one that
    is not known is one of them, one in a group of letters is not. *)
Definition takes_next (fs : list flag) (s : bytes) : bool :=
  match s with
  | "-"%byte :: "-"%byte :: n => negb (has_eq s) && negb (match lookup fs n with Some f => no_value f | None => false end)
  | ["-"%byte; c] => negb (has_eq s) && negb (match lookup_short fs c with Some f => no_value f | None => false end)
  | _ => false
  end.
(** stripFlags *)
Fixpoint strip_flags (fs : list flag) (args : list bytes) : list bytes :=
  match args with
  | [] => []
  | s :: rest =>
    if beqs s (str "--") then []
    else if takes_next fs s then match rest with _ :: ((_ :: _) as r) => strip_flags fs r | _ => [] end
    else match s with
         | [] | "-"%byte :: _ => strip_flags fs rest
         | _ => s :: strip_flags fs rest
         end
  end.
(** argsMinusFirstX *)
Fixpoint minus_first (x : bytes) (args : list bytes) : list bytes :=
  match args with
  | [] => []
  | a :: rest => if beqs x a then rest else a :: minus_first x rest
  end.

(** The value of a flag: the one set last, or the default. *)
Definition setting (l : list (bytes * value)) (n : bytes) : option value :=
  option_map snd (find (fun p => beqs n (fst p)) (rev l)).
Definition get_bool (l : list (bytes * value)) (n : bytes) : bool := match setting l n with Some (VBool b) => b | _ => false end.
Definition get_int (l : list (bytes * value)) (n : bytes) (default : Z) : Z := match setting l n with Some (VInt z) => z | _ => default end.
Definition get_string (l : list (bytes * value)) (n : bytes) (default : bytes) : bytes := match setting l n with Some (VString s) => s | _ => default end.

(** The variables the flags are bound to, facade.go 28-33 and getBool 131-137; defaults 89-103. *)
Definition flags_of (l : list (bytes * value)) : flags :=
  mkFlags (get_bool l (str "json")) (get_int l (str "indent") 0) (fun code => get_bool l (optcode_string optcode_map code)).
(** The command with its own flags and arguments; defaults hkp.go 93-96, github.go 74-75, fetch.go 68.  The root command does
    not look at its arguments, facade.go 42. *)
Definition command_of (c : cmd) (l : list (bytes * value)) (args : list bytes) : command :=
  if get_bool l (str "help") then CHelp
  else match c with
  | MRoot => CRoot (get_bool l (str "version")) (get_bool l (str "clipboard")) (get_string l (str "file") [])
  | MVersion => CVersion
  | MHkp => CHkp args (get_string l (str "keyserver") (str "keys.gnupg.net")) (get_int l (str "port") 11371) (get_bool l (str "secure")) (get_bool l (str "raw"))
  | MGithub => CGithub args (get_string l (str "keyid") []) (get_bool l (str "raw"))
  | MFetch => CFetch args (get_bool l (str "raw"))
  | MCompletion => CCompletion args
  | MHelp => CHelp
  end.
Definition no_flags : flags := flags_of [].
(** Command.execute, up to the call of RunE *)
Definition run_cmd (c : cmd) (args : list bytes) : flags * command :=
  match parse_args (parse_flags c) args with
  | Some (l, a) => (flags_of l, command_of c l a)
  | None => (no_flags, CUsage)
  end.
(** ExecuteC and Find, with legacyArgs for the root command; [None]: cobra's completion. *)
Definition cli (args : list bytes) : option (flags * command) :=
  match strip_flags (find_flags MRoot) args with
  | [] => Some (run_cmd MRoot args)
  | x :: _ =>
    if is_complete x then None
    else match find_next x with
    | Some c => Some (run_cmd c (minus_first x args))
    | None => Some (no_flags, CUsage)
    end
  end.
(** main.go, facade.go 157-179, from the arguments *)
Definition main (w : world) (args : list bytes) : option (option Z * bytes) :=
  option_map (fun p => execute (fst p) w (snd p)) (cli args).
