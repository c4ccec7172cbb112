(** * Context: parse/context/*.go.

    Go's Context is split into the options (set before parsing, never written
    while parsing) and the mutable part [cst]. *)
From Coq Require Import Strings.String Strings.Byte List NArith ZArith Bool.
From Verif Require Import Base Utf8.
Import ListNotations.
Local Open Scope Z_scope.

(** OptCode, options.go 8-21. *)
Definition UNKNOWN := 0.
Definition ARMOR := 1.
Definition CERT := 2.
Definition DEBUG := 3.
Definition GDUMP := 4.
Definition INTEGER := 5.
Definition LITERAL := 6.
Definition MARKER := 7.
Definition PRIVATE := 8.
Definition UTC := 9.

(** optcodeMap, options.go 23-33.  A Go map: iteration order is unspecified, so
    [get_optcode] takes the order as an argument. *)
Definition optcode_map : list (Z * bytes) :=
  [(ARMOR, str "armor"); (CERT, str "cert"); (DEBUG, str "debug"); (GDUMP, str "gdump");
   (INTEGER, str "int"); (LITERAL, str "literal"); (MARKER, str "marker");
   (PRIVATE, str "private"); (UTC, str "utc")].

(** GetOptCode, options.go 36-43, iterating the map in the given order. *)
Fixpoint get_optcode (order : list (Z * bytes)) (s : bytes) : Z :=
  match order with
  | [] => UNKNOWN
  | (k, v) :: t => if beqs (to_lower s) v then k else get_optcode t s
  end.

(** OptCode.String, options.go 45-50 (map index). *)
Fixpoint optcode_string (m : list (Z * bytes)) (c : Z) : bytes :=
  match m with
  | [] => str "unknown"
  | (k, v) :: t => if k =? c then v else optcode_string t c
  end.

(** Context.options, context.go 12: map[OptCode]bool; a missing key reads false
    (context.go 55-58), so the map is a total function. *)
Definition opts := Z -> bool.

Definition opts_empty : opts := fun _ => false.

(** Context.Set, context.go 41-48: codes <= 0 are ignored. *)
Definition o_set (code : Z) (f : bool) (o : opts) : opts :=
  if code >? 0 then (fun c => if c =? code then f else o c) else o.

(** Context.Get, context.go 51-59. *)
Definition o_get (code : Z) (o : opts) : bool := o code.

(** New with Set options, context.go 22-33. *)
Definition o_new (l : list (Z * bool)) : opts :=
  fold_left (fun o p => o_set (fst p) (snd p) o) l opts_empty.

(** New with SetByString options, context.go 36-38. *)
Definition o_set_by_string (order : list (Z * bytes)) (name : bytes) (f : bool) (o : opts) : opts :=
  o_set (get_optcode order name) f o.

(** context.go 62-86. *)
Definition oArmor (o : opts) := o_get ARMOR o.
Definition oCert (o : opts) := o_get CERT o || o_get DEBUG o.
Definition oDebug (o : opts) := o_get DEBUG o.
Definition oGDump (o : opts) := o_get GDUMP o || o_get DEBUG o.
Definition oInteger (o : opts) := o_get INTEGER o || o_get DEBUG o.
Definition oLiteral (o : opts) := o_get LITERAL o || o_get DEBUG o.
Definition oMarker (o : opts) := o_get MARKER o || o_get DEBUG o.
Definition oPrivate (o : opts) := o_get PRIVATE o || o_get DEBUG o.
Definition oUTC (o : opts) := o_get UTC o.

(** Context.String, context.go 89-116. *)
Definition o_flag (cd : Z) (o : opts) : bool :=
  if cd =? ARMOR then oArmor o else if cd =? CERT then oCert o
  else if cd =? DEBUG then oDebug o else if cd =? GDUMP then oGDump o
  else if cd =? INTEGER then oInteger o else if cd =? LITERAL then oLiteral o
  else if cd =? MARKER then oMarker o else if cd =? PRIVATE then oPrivate o
  else if cd =? UTC then oUTC o else false.
Definition bool_text (b : bool) : bytes := if b then str "true" else str "false".
Definition o_string (o : opts) : bytes :=
  join (str ",") (map (fun cd => optcode_string optcode_map cd ++ str ":" ++ bool_text (o_flag cd o))
                      [1; 2; 3; 4; 5; 6; 7; 8; 9]).

(** SymAlgMode, symalgmode.go 4-13.  Its tests and setters, symalgmode.go 28-56, are comparisons with and assignments of these
    constructors; SymAlgMode.String, symalgmode.go 15-26, is called nowhere. *)
Inductive mode := ModeNotSpecified | ModeSymEnc | ModePubEnc.

(** values.DateTime, datetime.go 13-16. *)
Record datetime := mkDT { dt_tm : bytes; dt_utc : bool }.

(** The mutable fields of Context, context.go 13-15. *)
Record cst := mkCst { c_mode : mode; c_sig : option datetime; c_key : option datetime }.

(** context.New, context.go 23. *)
Definition cst_init : cst := mkCst ModeNotSpecified None None.
