(** * SpecText: Unicode text, and the line structure of the text output (C12, C13, C14, C36). *)
From Coq Require Import Strings.String Strings.Byte List NArith ZArith Bool.
From Verif Require Import Base SpecBase SpecValues Item.
Import ListNotations.
Local Open Scope N_scope.

(** Unicode scalar values. *)
Definition scalar (c : N) : Prop := c < 0xD800 \/ 0xE000 <= c < 0x110000.

(** RFC 3629: the UTF-8 encoding of a scalar value. *)
Definition utf8 (c : N) : bytes :=
  if c <? 0x80 then [n2b c]
  else if c <? 0x800 then [n2b (192 + c / 64); n2b (128 + c mod 64)]
  else if c <? 0x10000 then [n2b (224 + c / 4096); n2b (128 + c / 64 mod 64); n2b (128 + c mod 64)]
  else [n2b (240 + c / 262144); n2b (128 + c / 4096 mod 64); n2b (128 + c / 64 mod 64); n2b (128 + c mod 64)].

Definition utf8s (l : list N) : bytes := flat_map utf8 l.

(** A byte string is UTF-8 text. *)
Definition is_utf8 (s : bytes) : Prop := exists l, Forall scalar l /\ s = utf8s l.

(** Control characters: C0, DEL and C1. *)
Definition control (c : N) : Prop := c <= 0x1f \/ 0x7f <= c <= 0x9f.
Definition controlb (c : N) : bool := (c <=? 0x1f) || ((0x7f <=? c) && (c <=? 0x9f)).

(** UTF-8 text without control characters. *)
Definition clean (s : bytes) : Prop := exists l, Forall (fun c => scalar c /\ ~ control c) l /\ s = utf8s l.

(** An upper-case hexadecimal digit, and the notation U+hhhh of a code point below 65536. *)
Definition upper_digit (n : N) : byte := n2b (if n <? 10 then 48 + n else 55 + n).
Definition u_plus (c : N) : bytes :=
  str "U+" ++ [upper_digit (c / 4096); upper_digit (c / 256 mod 16); upper_digit (c / 16 mod 16); upper_digit (c mod 16)].

(** How one character of a text field is shown. *)
Definition shown_char (c : N) : bytes := if controlb c then str "(" ++ u_plus c ++ str ")" else utf8 c.

(** Every string of a tree satisfies P. *)
Inductive all_fields (P : bytes -> Prop) : item -> Prop :=
  all_fields_item n v d t l :
    P n -> P v -> P d -> P t -> Forall (all_fields P) l -> all_fields P (Item n v d t l).

(** ** The text output *)

(** Splitting at line feeds; the last piece is what follows the last line feed. *)
Fixpoint split_lines (l : bytes) : list bytes :=
  match l with
  | [] => [[]]
  | b :: t =>
    if Byte.eqb b x0a then [] :: split_lines t
    else match split_lines t with
         | [] => [[b]]
         | h :: r => (b :: h) :: r
         end
  end.

(** The line of an item: "name", "name: value", "name (note)" or "name: value (note)". *)
Definition item_line (n v t : bytes) : bytes :=
  match v, t with
  | [], [] => n
  | _, [] => n ++ str ": " ++ v
  | [], _ => n ++ str " (" ++ t ++ str ")"
  | _, _ => n ++ str ": " ++ v ++ str " (" ++ t ++ str ")"
  end.

(** The lines of a tree, depth first, each with its depth: the item, its dump if there is one
    (one level deeper), its sub-items. *)
Fixpoint outline (depth : nat) (i : item) : list (nat * bytes) :=
  match i with
  | Item n v d t l =>
    (depth, item_line n v t)
    :: (match d with [] => [] | _ => [(S depth, d)] end)
    ++ (fix go (l : list item) : list (nat * bytes) :=
          match l with [] => [] | c :: r => outline (S depth) c ++ go r end) l
  end.

(** Number of items of a tree, and of items with a dump. *)
Fixpoint count_items (i : item) : nat :=
  match i with
  | Item _ _ _ _ l => S ((fix go (l : list item) : nat := match l with [] => O | c :: r => (count_items c + go r)%nat end) l)
  end.
Fixpoint count_dumps (i : item) : nat :=
  match i with
  | Item _ _ d _ l =>
    ((match d with [] => 0 | _ => 1 end) +
     (fix go (l : list item) : nat := match l with [] => O | c :: r => (count_dumps c + go r)%nat end) l)%nat
  end.

Fixpoint repeat_str (s : bytes) (n : nat) : bytes := match n with O => [] | S k => s ++ repeat_str s k end.

Definition no_newline (s : bytes) : Prop := ~ In x0a s.
