(** * Time: time.Unix(ut, 0)[.In(time.UTC)].Format(time.RFC3339), as used by
    parse/values/datetime.go 62-68.

    Follows Go's time.absDate.  Go counts days from 1 January of an "absolute zero
    year" that is 1 modulo 400; the model counts from 1 January of year 1, which
    differs from it by a whole number of 400-year cycles. *)
From Coq Require Import Strings.String Strings.Byte List NArith ZArith Bool.
From Verif Require Import Base.
Import ListNotations.
Local Open Scope Z_scope.

(** time.isLeap *)
Definition is_leap (y : Z) : bool :=
  (y mod 4 =? 0) && (negb (y mod 100 =? 0) || (y mod 400 =? 0)).

(** time.daysBefore *)
Definition days_before (m : Z) : Z :=
  nth (Z.to_nat m) [0; 31; 59; 90; 120; 151; 181; 212; 243; 273; 304; 334; 365] 0.

(** time.absDate: (year, month, day) from days since 0001-01-01. *)
Definition abs_date (d0 : Z) : Z * Z * Z :=
  let n := d0 / 146097 in
  let y := 400 * n in
  let d := d0 - 146097 * n in
  let n := d / 36524 in
  let n := n - n / 4 in
  let y := y + 100 * n in
  let d := d - 36524 * n in
  let n := d / 1461 in
  let y := y + 4 * n in
  let d := d - 1461 * n in
  let n := d / 365 in
  let n := n - n / 4 in
  let y := y + n in
  let d := d - 365 * n in
  let year := y + 1 in
  if is_leap year && (d =? 59) then (year, 2, 29) else
  let day := if is_leap year && (d >? 59) then d - 1 else d in
  let m := day / 31 in
  let e := days_before (m + 1) in
  if day >=? e then (year, m + 2, day - e + 1)
  else (year, m + 1, day - days_before m + 1).

(** Days from 0001-01-01 to 1970-01-01. *)
Definition epoch_days : Z := 719162.

(** appendInt with a width; the numbers formatted here never have more digits. *)
Definition zw (w : nat) (n : Z) : bytes := decw w (Z.to_N n).

(** Format(time.RFC3339), layout "2006-01-02T15:04:05Z07:00", for the instant
    [ut] in a zone [off] seconds east of UTC. *)
Definition rfc3339 (ut : Z) (off : Z) : bytes :=
  let t := ut + off in
  let sod := t mod 86400 in
  let '(y, m, d) := abs_date (t / 86400 + epoch_days) in
  let zone := Z.quot off 60 in
  zw 4 y ++ str "-" ++ zw 2 m ++ str "-" ++ zw 2 d ++ str "T" ++
  zw 2 (sod / 3600) ++ str ":" ++ zw 2 (sod / 60 mod 60) ++ str ":" ++ zw 2 (sod mod 60) ++
  (if off =? 0 then str "Z" else
   (if zone <? 0 then str "-" else str "+") ++
   zw 2 (Z.abs zone / 60) ++ str ":" ++ zw 2 (Z.abs zone mod 60)).

(** unixtime2RFC3339, datetime.go 62-68; [tz] is the local zone rule. *)
Definition unixtime2rfc3339 (tz : N -> Z) (ut : N) (utc : bool) : bytes :=
  rfc3339 (Z.of_N ut) (if utc then 0 else tz ut).
