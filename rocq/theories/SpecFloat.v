(** * SpecFloat: what a decimal number means (C56). *)
From Coq Require Import Strings.String Strings.Byte List NArith ZArith QArith Qabs.
From Verif Require Import Base SpecBase.
Import ListNotations.

(** Decimal texts and their values: digits, with or without a point among them... *)
Inductive fixed : bytes -> Q -> Prop :=
| fixed_int ip n : read_dec ip = Some n -> fixed ip (inject_Z (Z.of_N n))
| fixed_point ip fp n : ip <> [] -> fp <> [] -> read_dec (ip ++ fp) = Some n ->
    fixed (ip ++ str "." ++ fp) (inject_Z (Z.of_N n) / inject_Z (10 ^ Z.of_nat (length fp))).
(** ... and one of these alone or with a negative exponent of ten. *)
Inductive decimal : bytes -> Q -> Prop :=
| decimal_fixed t q : fixed t q -> decimal t q
| decimal_exp t q x e : fixed t q -> read_dec x = Some e -> decimal (t ++ str "e-" ++ x) (q / inject_Z (10 ^ Z.of_N e)).
