(** * SpecCli: the options of the command and how they may be written (C57). *)
From Coq Require Import Strings.String Strings.Byte List NArith ZArith Bool.
From Verif Require Import Base Context Facade Cli.
Import ListNotations.
Local Open Scope Z_scope.

(** The options: long name, letter, kind. *)
Definition table := list (string * option byte * kind).
(** Those of every command... *)
Definition common : table :=
  [("json", Some "j"%byte, KBool); ("indent", None, KInt); ("armor", Some "a"%byte, KBool); ("cert", Some "c"%byte, KBool);
   ("debug", None, KBool); ("int", Some "i"%byte, KBool); ("literal", Some "l"%byte, KBool); ("marker", Some "m"%byte, KBool);
   ("private", Some "p"%byte, KBool); ("utc", Some "u"%byte, KBool)]%string.
(** ... and the others of a command. *)
Definition own (c : cmd) : table :=
  (match c with
  | MRoot => [("version", Some "v"%byte, KBool); ("file", Some "f"%byte, KString); ("clipboard", None, KBool)]
  | MHkp => [("keyserver", None, KString); ("port", None, KInt); ("secure", None, KBool); ("raw", None, KBool)]
  | MGithub => [("keyid", None, KString); ("raw", None, KBool)]
  | MFetch => [("raw", None, KBool)]
  | MVersion | MCompletion | MHelp => []
  end)%string.
Definition options (c : cmd) : table := common ++ own c.

(** Whole numbers are written as in Go: digits, of which those beyond 9 are letters in either case... *)
Definition digit_char (b : byte) (d : N) : Prop :=
  (let n := b2n b in 48 <= n <= 57 /\ n = d + 48 \/ 97 <= n <= 122 /\ n = d + 87 \/ 65 <= n <= 90 /\ n = d + 55)%N.
(** ... with single underscores between them if one likes ([between]: there is a digit in front, or the prefix of the base)... *)
Inductive digit_run (base : N) : bool -> bytes -> list N -> Prop :=
| run_end : digit_run base true [] []
| run_digit between b d t ds : digit_char b d -> (d < base)%N -> digit_run base true t ds -> digit_run base between (b :: t) (d :: ds)
| run_gap t ds : digit_run base false t ds -> digit_run base true ("_"%byte :: t) ds.
Definition run_value (base : N) (ds : list N) : N := fold_left (fun a d => a * base + d)%N ds 0%N.
(** ... in base 10, or in base 8 behind a 0, or in the base that a prefix names... *)
Inductive nat_text : bytes -> N -> Prop :=
| n_decimal t ds : hd_error t <> Some "0"%byte -> digit_run 10 false t ds -> nat_text t (run_value 10 ds)
| n_octal t ds : digit_run 8 true t ds -> nat_text ("0"%byte :: t) (run_value 8 ds)
| n_prefix p base t ds : In (p, base) [("b", 2); ("B", 2); ("o", 8); ("O", 8); ("x", 16); ("X", 16)]%byte%N -> t <> [] -> digit_run base true t ds ->
    nat_text ("0"%byte :: p :: t) (run_value base ds).
(** ... with or without a sign, if they fit in 64 bits. *)
Inductive int_text : bytes -> Z -> Prop :=
| i_plain t n : nat_text t n -> (n < 2 ^ 63)%N -> int_text t (Z.of_N n)
| i_plus t n : nat_text t n -> (n < 2 ^ 63)%N -> int_text ("+"%byte :: t) (Z.of_N n)
| i_minus t n : nat_text t n -> (n <= 2 ^ 63)%N -> int_text ("-"%byte :: t) (- Z.of_N n).

(** The texts of values. *)
Inductive means : kind -> bytes -> value -> Prop :=
| m_true t : In t [str "1"; str "t"; str "T"; str "TRUE"; str "true"; str "True"] -> means KBool t (VBool true)
| m_false t : In t [str "0"; str "f"; str "F"; str "FALSE"; str "false"; str "False"] -> means KBool t (VBool false)
| m_int t z : int_text t z -> means KInt t (VInt z)
| m_string s : means KString s (VString s).

(** A group of letters of options without a value. *)
Inductive letters (T : table) : list (string * value) -> bytes -> Prop :=
| letters_none : letters T [] []
| letters_more n s l u : In (n, Some s, KBool) T -> letters T l u -> letters T ((n, VBool true) :: l) (s :: u).

(** The ways to write options: one or two arguments, and the options they set. *)
Inductive written (T : table) : list (string * value) -> list bytes -> Prop :=
| w_long n s : In (n, s, KBool) T -> written T [(n, VBool true)] [str "--" ++ str n]
| w_long_is n s k t v : In (n, s, k) T -> means k t v -> written T [(n, v)] [str "--" ++ str n ++ str "=" ++ t]
| w_long_next n s k t v : In (n, s, k) T -> k <> KBool -> means k t v -> written T [(n, v)] [str "--" ++ str n; t]
| w_letters l u : letters T l u -> u <> [] -> written T l [str "-" ++ u]
| w_letters_value l u n s k t v : letters T l u -> In (n, Some s, k) T -> k <> KBool -> means k t v ->
    t <> [] -> hd_error t <> Some "="%byte -> written T (l ++ [(n, v)]) [str "-" ++ u ++ s :: t]
| w_letters_is l u n s k t v : letters T l u -> In (n, Some s, k) T -> means k t v -> t <> [] ->
    written T (l ++ [(n, v)]) [str "-" ++ u ++ s :: str "=" ++ t]
| w_letter_next n s k t v : In (n, Some s, k) T -> k <> KBool -> means k t v -> written T [(n, v)] [str "-" ++ [s]; t].

(** A sequence of options... *)
Inductive written_all (T : table) : list (string * value) -> list bytes -> Prop :=
| wa_none : written_all T [] []
| wa_more l a m b : written T l a -> written_all T m b -> written_all T (l ++ m) (a ++ b).
(** ... with other arguments among them: those that do not begin with a hyphen, and everything behind a double hyphen. *)
Inductive line (T : table) : list (string * value) -> list bytes -> list bytes -> Prop :=
| line_none : line T [] [] []
| line_options l a m x b : written T l a -> line T m x b -> line T (l ++ m) x (a ++ b)
| line_argument y m x b : hd_error y <> Some "-"%byte \/ y = str "-" -> line T m x b -> line T m (y :: x) (y :: b)
| line_dash x : line T [] x (str "--" :: x).

(** What is asked for: the last word on each option counts. *)
Definition said (l : list (string * value)) (n : string) : option value :=
  option_map snd (find (fun p => String.eqb n (fst p)) (rev l)).
Definition on (l : list (string * value)) (n : string) : bool := match said l n with Some (VBool b) => b | _ => false end.
Definition number (l : list (string * value)) (n : string) (d : Z) : Z := match said l n with Some (VInt z) => z | _ => d end.
Definition text (l : list (string * value)) (n : string) (d : bytes) : bytes := match said l n with Some (VString s) => s | _ => d end.
Definition flags_asked (l : list (string * value)) (fl : flags) : Prop :=
  f_json fl = on l "json" /\ f_indent fl = number l "indent" 0 /\
  f_on fl ARMOR = on l "armor" /\ f_on fl CERT = on l "cert" /\ f_on fl DEBUG = on l "debug" /\ f_on fl INTEGER = on l "int" /\
  f_on fl LITERAL = on l "literal" /\ f_on fl MARKER = on l "marker" /\ f_on fl PRIVATE = on l "private" /\ f_on fl UTC = on l "utc".
Definition command_asked (c : cmd) (l : list (string * value)) (x : list bytes) : command :=
  match c with
  | MRoot => CRoot (on l "version") (on l "clipboard") (text l "file" [])
  | MVersion => CVersion
  | MHkp => CHkp x (text l "keyserver" (str "keys.gnupg.net")) (number l "port" 11371) (on l "secure") (on l "raw")
  | MGithub => CGithub x (text l "keyid" []) (on l "raw")
  | MFetch => CFetch x (on l "raw")
  | MCompletion => CCompletion x
  | MHelp => CHelp
  end.
(** The names of the commands. *)
Inductive command_name : cmd -> string -> Prop :=
| n_version n : In n ["version"; "ver"; "v"]%string -> command_name MVersion n
| n_hkp n : In n ["hkp"; "h"]%string -> command_name MHkp n
| n_github n : In n ["github"; "gh"; "g"]%string -> command_name MGithub n
| n_fetch n : In n ["fetch"; "fch"; "f"]%string -> command_name MFetch n
| n_completion n : In n ["completion"; "compl"; "cmp"]%string -> command_name MCompletion n
| n_help : command_name MHelp "help".
(** A word that is no command. *)
Definition no_command (x : bytes) : Prop :=
  x <> [] /\ hd_error x <> Some "-"%byte /\ (forall c n, command_name c n -> x <> str n) /\ x <> str "__complete" /\ x <> str "__completeNoDesc".

(** An argument that is no option of a command: an unknown name or letter, or a value of the wrong kind: a switch with something that is neither true nor false,
    or a number that is none. *)
Inductive refused (c : cmd) : bytes -> Prop :=
| r_long n t : n <> ""%string -> hd_error (str n) <> Some "-"%byte -> ~ In "="%byte (str n) -> n <> "help"%string ->
    (forall s k, ~ In (n, s, k) (options c)) -> t = [] \/ hd_error t = Some "="%byte -> refused c (str "--" ++ str n ++ t)
| r_letter l u b t : letters (options c) l u -> b <> "-"%byte -> b <> "="%byte -> b <> "h"%byte -> (forall n k, ~ In (n, Some b, k) (options c)) ->
    firstn 5 (b :: t) <> str "test." -> refused c (str "-" ++ u ++ b :: t)
| r_value n s k t : In (n, s, k) (options c) -> (forall v, ~ means k t v) -> refused c (str "--" ++ str n ++ str "=" ++ t).
