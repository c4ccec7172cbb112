(** * Float: float64(exp)/86400.0 and its text, parse/values/expire.go 28-44.

    The division and fmt's %v are those of the Go language and library (IEEE 754 binary64, strconv.FormatFloat with 'g'
    and precision -1); they are defined here by their specification: the quotient is rounded to the nearest number with 53
    binary digits, the text is the shortest decimal that is read back as this number. *)
From Coq Require Import Strings.String Strings.Byte List NArith ZArith Bool.
From Verif Require Import Base.
Import ListNotations.
Local Open Scope N_scope.

(** n/d rounded to the nearest integer, a half to the even one. *)
Definition half_even (n d : N) : N :=
  let q := n / d in
  let r := n mod d in
  if 2 * r <? d then q else if d <? 2 * r then q + 1 else if N.even q then q else q + 1.

(** The least k from [k] on with 2^52 <= p/86400 * 2^k. *)
Fixpoint scale_from (fuel : nat) (k p : N) : N :=
  match fuel with
  | O => k
  | S fuel' => if 86400 * 2 ^ 52 <=? p * 2 ^ k then k else scale_from fuel' (k + 1) p
  end.
(** float64(p)/86400.0 for 0 < p < 2^32 is m/2^k with 2^52 <= m < 2^53 (FloatL.float_days_range: the rounding never gives 2^53). *)
Definition float_days (p : N) : N * N :=
  let k := scale_from 70 0 p in (half_even (p * 2 ^ k) 86400, k).

(** 10^z or 1, for both signs of z. *)
Definition up10 (z : Z) : N := 10 ^ Z.to_N z.

(** The least dp from [dp] on with m/2^k < 10^dp: the number of digits before the decimal point. *)
Fixpoint point_from (fuel : nat) (dp : Z) (m k : N) : Z :=
  match fuel with
  | O => dp
  | S fuel' => if m * up10 (- dp) <? 2 ^ k * up10 dp then dp else point_from fuel' (dp + 1)%Z m k
  end.

(** The decimal d * 10^-s is read back as m/2^k: it is not beyond the middle to the next number, which is half as far below a
    power of two; the middle itself is read as the even one of its neighbours. *)
Definition reads_back (m k d : N) (s : Z) : bool :=
  let x := d * up10 (- s) * 2 ^ (k + 2) in
  let y := 4 * m * up10 s in
  let dist := if x <? y then y - x else x - y in
  let lim := if (x <? y) && (m =? 2 ^ 52) then up10 s else 2 * up10 s in
  if N.even m then dist <=? lim else dist <? lim.

(** The decimal with the fewest digits, from n on, that is read back, and the nearest of these: (d, s) for d * 10^-s.  17 digits always do. *)
Fixpoint shortest_from (fuel : nat) (n dp : Z) (m k : N) : N * Z :=
  let s := (n - dp)%Z in
  let d := half_even (m * up10 s) (2 ^ k * up10 (- s)) in
  match fuel with
  | O => (d, s)
  | S fuel' => if reads_back m k d s then (d, s) else shortest_from fuel' (n + 1)%Z dp m k
  end.

Definition zeros (z : Z) : bytes := repeat x30 (Z.to_nat z).

(** The text of d * 10^-s by the rules of %g: %e if the exponent is less than -4, else %f (it is never 6 or more here). *)
Definition decimal_text (d : N) (s : Z) : bytes :=
  let ds := dec d in
  let nd := lenZ ds in
  let dp := (nd - s)%Z in
  if (dp - 1 <? -4)%Z then
    firstn 1 ds ++ (if (1 <? nd)%Z then str "." ++ skipn 1 ds else []) ++ str "e-" ++ decw 2 (Z.to_N (1 - dp))
  else if (dp <=? 0)%Z then str "0." ++ zeros (- dp) ++ ds
  else if (nd <=? dp)%Z then ds ++ zeros (dp - nd)
  else firstn (Z.to_nat dp) ds ++ str "." ++ skipn (Z.to_nat dp) ds.

(** fmt.Sprintf("%v", float64(exp)/86400.0), expire.go 40 *)
Definition days_text (p : N) : bytes :=
  if p =? 0 then str "0" else
  let '(m, k) := float_days p in
  let '(d, s) := shortest_from 16 1 (point_from 9 (-4) m k) m k in
  decimal_text d s.
