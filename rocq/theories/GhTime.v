(** * GhTime: which strings encoding/json takes for a time (github/structs.go 17-18, *time.Time).
    time.Time.UnmarshalJSON of Go 1.16 is time.Parse with the layout 2006-01-02T15:04:05Z07:00 within quotation marks
    (time/format.go, parse, for this layout).  The argument is the string as it stands in the document, without its quotation marks. *)
From Coq Require Import Strings.String Strings.Byte List NArith ZArith Bool.
From Verif Require Import Base Time.
Import ListNotations.
Local Open Scope Z_scope.

(** isDigit *)
Definition tdigit (b : byte) : option Z := let n := Z.of_N (b2n b) in if (48 <=? n) && (n <=? 57) then Some (n - 48) else None.

(** getnum(s, fixed): two digits, or one if it need not be fixed. *)
Definition getnum (fixed : bool) (s : bytes) : option (Z * bytes) :=
  match s with
  | a :: t =>
    match tdigit a with
    | None => None
    | Some x =>
      match t with
      | b :: u => match tdigit b with Some y => Some (x * 10 + y, u) | None => if fixed then None else Some (x, t) end
      | [] => if fixed then None else Some (x, t)
      end
    end
  | [] => None
  end.

(** skip(value, prefix) for a prefix of one character that is no blank *)
Definition tskip (c : byte) (s : bytes) : option bytes :=
  match s with b :: t => if Byte.eqb b c then Some t else None | [] => None end.

(** leadingInt and its overflow: the number of all the digits.  (Past 2^63 it is an error; the callers that take long texts refuse these numbers anyway.) *)
Fixpoint tnumber (acc : Z) (s : bytes) : option Z :=
  match s with
  | [] => Some acc
  | b :: t => match tdigit b with Some x => tnumber (acc * 10 + x) t | None => None end
  end.
(** atoi: a sign is allowed. *)
Definition tatoi (s : bytes) : option Z :=
  match s with
  | b :: t => if Byte.eqb b "-" || Byte.eqb b "+" then tnumber 0 t else tnumber 0 s
  | [] => tnumber 0 s
  end.

(** The digits at the head. *)
Fixpoint tdigits (s : bytes) : bytes * bytes :=
  match s with
  | b :: t => match tdigit b with Some _ => let '(d, r) := tdigits t in (b :: d, r) | None => ([], s) end
  | [] => ([], [])
  end.

(** case stdZeroSecond: a fraction that the layout does not have; parseNanoseconds refuses numbers from 10^9 on, whatever the number of digits. *)
Definition tfraction (s : bytes) : option bytes :=
  match s with
  | p :: t =>
    if Byte.eqb p "." then
      match tdigits t with
      | ([], _) => Some s
      | (d, r) => match tnumber 0 d with Some n => if n <? 10 ^ 9 then Some r else None | None => None end
      end
    else Some s
  | [] => Some s
  end.

(** case stdISO8601ColonTZ *)
Definition tzone (s : bytes) : option bytes :=
  match s with
  | z :: t =>
    if Byte.eqb z "Z" then Some t
    else match t with
         | h1 :: h2 :: c :: m1 :: m2 :: u =>
           if Byte.eqb c ":" && (Byte.eqb z "+" || Byte.eqb z "-") then
             match tatoi [h1; h2], tatoi [m1; m2] with Some _, Some _ => Some u | _, _ => None end
           else None
         | _ => None
         end
  | [] => None
  end.

(** daysIn *)
Definition days_in (month year : Z) : Z :=
  if (month =? 2) && is_leap year then 29
  else if month =? 2 then 28
  else if (month =? 4) || (month =? 6) || (month =? 9) || (month =? 11) then 30 else 31.

Definition obind {A B} (x : option A) (f : A -> option B) : option B := match x with Some a => f a | None => None end.
Notation "'let?' p ':=' x 'in' e" := (obind x (fun y => match y with p => e end)) (at level 200, p pattern, e at level 200).

(** parse: the pieces of the layout in turn. *)
Definition time_ok (s : bytes) : bool :=
  match
    (let? year := match s with a :: b :: c :: d :: _ => tnumber 0 [a; b; c; d] | _ => None end in
     let? s := tskip "-" (skipn 4 s) in
     let? (month, s) := getnum true s in
     let? s := tskip "-" s in
     let? (day, s) := getnum true s in
     let? s := tskip "T" s in
     let? (hour, s) := getnum false s in
     let? s := tskip ":" s in
     let? (min, s) := getnum true s in
     let? s := tskip ":" s in
     let? (sec, s) := getnum true s in
     let? s := tfraction s in
     let? s := tzone s in
     Some ((1 <=? month) && (month <=? 12) && (hour <? 24) && (min <? 60) && (sec <? 60) &&
           (1 <=? day) && (day <=? days_in month year) && (match s with [] => true | _ => false end)))
  with Some true => true | _ => false end.
