(** * SpecGithub: what looking up a key by its ID means. *)
From Coq Require Import Strings.String Strings.Byte List NArith ZArith Bool.
From Verif Require Import Base SpecBase SpecHkp Github.
Import ListNotations.
Local Open Scope N_scope.

(** Hexadecimal digits, in either case. *)
Definition hex_text (l : bytes) : Prop := Forall (fun b => any_hex b <> None) l.

(** A key ID as users write it: hexadecimal digits, with or without 0x or 0X before them. *)
Definition written_id (text digits : bytes) : Prop :=
  digits <> [] /\ hex_text digits /\
  (text = digits \/ text = str "0x" ++ digits \/ text = str "0X" ++ digits).

(** Two texts that are equal up to the case of the letters A-Z. *)
Definition up (b : byte) : N := let n := b2n b in if (97 <=? n) && (n <=? 122) then n - 32 else n.
Definition same_letters (a b : bytes) : Prop := map up a = map up b.

(** The n-th page of a user's keys, 100 to a page; an error if no URL can be made of the name. *)
Definition page (G : gh_env) (user : bytes) (n : N) : gh_page :=
  match page_url user n with Some u => g_page G u | None => GErr end.

(** A page on which the search goes on: it is full and none of its entries has the ID. *)
Definition other (digits : bytes) (e : option gh_key) : Prop :=
  exists k, e = Some k /\ ~ same_letters (k_id k) digits.
Definition passed (digits : bytes) (p : gh_page) : Prop :=
  exists l, p = GKeys l /\ 100 <= lenN l /\ Forall (other digits) l.
Definition passed_before (G : gh_env) (user digits : bytes) (n : N) : Prop :=
  forall i, 1 <= i < n -> passed digits (page G user i).

(** The requests for the first n pages. *)
Definition first_pages (user : bytes) (n : N) : list bytes :=
  flat_map (fun i => match page_url user (N.of_nat i) with Some u => [u] | None => [] end) (seq 1 (N.to_nat n)).

(** A user name: letters, digits and hyphens. *)
Definition user_char (b : byte) : Prop :=
  let n := b2n b in 97 <= n <= 122 \/ 65 <= n <= 90 \/ 48 <= n <= 57 \/ n = 45.
