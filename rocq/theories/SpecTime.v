(** * SpecTime: the Gregorian calendar by counting, and a reader of RFC 3339 date-times (C08, C09). *)
From Coq Require Import Strings.String Strings.Byte List NArith ZArith Bool.
From Verif Require Import Base SpecBase.
Import ListNotations.
Local Open Scope Z_scope.

Definition leap_year (y : Z) : bool :=
  (y mod 400 =? 0) || ((y mod 4 =? 0) && negb (y mod 100 =? 0)).
Definition year_days (y : Z) : Z := if leap_year y then 366 else 365.

(** Days in the years 1, 2, ..., n. *)
Fixpoint days_of_years (n : nat) : Z :=
  match n with
  | O => 0
  | S k => days_of_years k + year_days (Z.of_nat n)
  end.

Definition month_days (leap : bool) (m : Z) : Z :=
  match m with
  | 1 => 31 | 2 => if leap then 29 else 28 | 3 => 31 | 4 => 30 | 5 => 31 | 6 => 30
  | 7 => 31 | 8 => 31 | 9 => 30 | 10 => 31 | 11 => 30 | 12 => 31 | _ => 0
  end.

(** Days in the months 1, ..., n of a year. *)
Fixpoint days_of_months (leap : bool) (n : nat) : Z :=
  match n with
  | O => 0
  | S k => days_of_months leap k + month_days leap (Z.of_nat n)
  end.

(** Number of days before y-m-d, counted from 0001-01-01. *)
Definition day_number (y m d : Z) : Z :=
  days_of_years (Z.to_nat (y - 1)) + days_of_months (leap_year y) (Z.to_nat (m - 1)) + (d - 1).

Definition valid_date (y m d : Z) : bool :=
  (1 <=? y) && (1 <=? m) && (m <=? 12) && (1 <=? d) && (d <=? month_days (leap_year y) m).

(** Seconds since 1970-01-01T00:00:00Z of a local date-time at offset [off] seconds east. *)
Definition unix_seconds (y m d h mi s off : Z) : Z :=
  (day_number y m d - day_number 1970 1 1) * 86400 + h * 3600 + mi * 60 + s - off.

Definition num (l : bytes) : Z := match read_dec l with Some n => Z.of_N n | None => -1 end.

(** The zone: "Z", or "+hh:mm" / "-hh:mm"; in seconds. *)
Definition read_zone (l : bytes) : option Z :=
  match l with
  | [x5a] => Some 0
  | [sg; a; b; x3a; c; d] =>
    let h := num [a; b] in let m := num [c; d] in
    if (0 <=? h) && (h <? 24) && (0 <=? m) && (m <? 60) then
      match sg with
      | x2b => Some (h * 3600 + m * 60)
      | x2d => Some (- (h * 3600 + m * 60))
      | _ => None
      end
    else None
  | _ => None
  end.

(** "YYYY-MM-DDThh:mm:ss" and a zone, as an instant; [None] unless it is a real date and time. *)
Definition read_rfc3339 (l : bytes) : option Z :=
  match l with
  | y1 :: y2 :: y3 :: y4 :: x2d :: m1 :: m2 :: x2d :: d1 :: d2 :: x54 ::
    h1 :: h2 :: x3a :: i1 :: i2 :: x3a :: s1 :: s2 :: z =>
    let y := num [y1; y2; y3; y4] in let m := num [m1; m2] in let d := num [d1; d2] in
    let h := num [h1; h2] in let i := num [i1; i2] in let s := num [s1; s2] in
    if valid_date y m d && (0 <=? h) && (h <? 24) && (0 <=? i) && (i <? 60) && (0 <=? s) && (s <? 60) then
      match read_zone z with
      | Some off => Some (unix_seconds y m d h i s off)
      | None => None
      end
    else None
  | _ => None
  end.

(** A UTC offset as operating systems know them: less than 24 hours either way. *)
Definition real_offset (off : Z) : Prop := - 86400 < off < 86400.
