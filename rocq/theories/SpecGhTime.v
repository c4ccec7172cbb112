(** * SpecGhTime: the texts of times in the pages of GitHub (C69). *)
From Coq Require Import Strings.String Strings.Byte List NArith ZArith Bool.
From Verif Require Import Base SpecBase SpecTime.
Import ListNotations.
Local Open Scope Z_scope.

(** n decimal digits, and the number they stand for. *)
Definition decimal_digit (b : byte) : Prop := 48 <= Z.of_N (b2n b) <= 57.
Definition decimals (n : nat) (s : bytes) : Prop := List.length s = n /\ Forall decimal_digit s.
Definition worth (s : bytes) : Z := fold_left (fun a b => 10 * a + (Z.of_N (b2n b) - 48)) s 0.

(** RFC 3339, date-time: a date of the calendar, T in capitals, the time of day without a leap second, nothing or a fraction, and Z or a difference from it. *)
Definition date_time_of (hour fraction zone : bytes -> Prop) (s : bytes) : Prop :=
  exists year month day hh mm ss f z,
    s = year ++ str "-" ++ month ++ str "-" ++ day ++ str "T" ++ hh ++ str ":" ++ mm ++ str ":" ++ ss ++ f ++ z /\
    decimals 4 year /\ decimals 2 month /\ decimals 2 day /\ hour hh /\ decimals 2 mm /\ decimals 2 ss /\ fraction f /\ zone z /\
    1 <= worth month <= 12 /\ 1 <= worth day <= month_days (leap_year (worth year)) (worth month) /\ worth hh < 24 /\ worth mm < 60 /\ worth ss < 60.

(** What RFC 3339 itself has, with up to nine digits of the fraction. *)
Definition rfc_zone (z : bytes) : Prop :=
  z = str "Z" \/ exists sign h m, z = [sign] ++ h ++ str ":" ++ m /\ (sign = "+"%byte \/ sign = "-"%byte) /\ decimals 2 h /\ decimals 2 m.
Definition rfc_fraction (f : bytes) : Prop := f = [] \/ exists n d, f = str "." ++ d /\ decimals n d /\ (1 <= n <= 9)%nat.
Definition rfc_time : bytes -> Prop := date_time_of (decimals 2) rfc_fraction rfc_zone.

(** What is read in fact: the hour may have one digit, any number of leading zeros may come before the nine digits of the fraction, and the two characters of
    hours and minutes of the difference may be a sign and a digit. *)
Definition loose_two (x : bytes) : Prop :=
  decimals 2 x \/ exists sign d, x = [sign] ++ d /\ (sign = "+"%byte \/ sign = "-"%byte) /\ decimals 1 d.
Definition loose_zone (z : bytes) : Prop :=
  z = str "Z" \/ exists sign h m, z = [sign] ++ h ++ str ":" ++ m /\ (sign = "+"%byte \/ sign = "-"%byte) /\ loose_two h /\ loose_two m.
Definition loose_fraction (f : bytes) : Prop := f = [] \/ exists n d, f = str "." ++ d /\ decimals n d /\ (1 <= n)%nat /\ worth d < 10 ^ 9.
Definition loose_hour (h : bytes) : Prop := decimals 1 h \/ decimals 2 h.
Definition loose_time : bytes -> Prop := date_time_of loose_hour loose_fraction loose_zone.
