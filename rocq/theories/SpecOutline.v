(** * SpecOutline: reading the tree back from the text output (C70). *)
From Coq Require Import Strings.String Strings.Byte List NArith ZArith Bool.
From Verif Require Import Base SpecBase Item SpecText.
Import ListNotations.

(** What the text output shows: lines, each with the lines nested below it. *)
Inductive tree := Node (line : bytes) (below : list tree).

(** What is to be shown of an item: its line; below it its dump, if there is one, and its items. *)
Fixpoint shown_tree (i : item) : tree :=
  match i with
  | Item n v d t l => Node (item_line n v t) ((match d with [] => [] | _ => [Node d []] end) ++ map shown_tree l)
  end.

(** [l] without [p] in front. *)
Fixpoint after (p l : bytes) : option bytes :=
  match p, l with
  | [], _ => Some l
  | a :: p', b :: l' => if Byte.eqb a b then after p' l' else None
  | _, [] => None
  end.

(** How often a line is indented, and what is left of it ([n]: no more than so many times). *)
Fixpoint unindent (ind : bytes) (n : nat) (line : bytes) : nat * bytes :=
  match n with
  | O => (O, line)
  | S n' => match after ind line with
            | Some rest => let '(k, s) := unindent ind n' rest in (S k, s)
            | None => (O, line)
            end
  end.
Definition level (ind line : bytes) : nat * bytes := unindent ind (length line) line.

(** A line that only goes on the line before: empty, or a blank and a parenthesis in front. *)
Definition goes_on (line : bytes) : bool :=
  match line with [] => true | [_] => false | a :: b :: _ => Byte.eqb a x20 && Byte.eqb b x28 end.
Fixpoint joined (lines : list bytes) : list bytes :=
  match lines with
  | [] => []
  | x :: rest =>
    match rest with
    | y :: rest' => if goes_on y then (x ++ [x0a] ++ y) :: joined rest' else x :: joined rest
    | [] => [x]
    end
  end.

(** The lines of a text with their levels; nothing stands behind the last line feed. *)
Definition read_levels (ind text : bytes) : list (nat * bytes) := map (level ind) (joined (removelast (split_lines text))).

(** The trees of a list of lines with levels: a line and what is deeper behind it. *)
Inductive nested : nat -> list (nat * bytes) -> list tree -> Prop :=
| nested_nil k : nested k [] []
| nested_cons k s ls f ls' f' :
    nested (S k) ls f -> nested k ls' f' -> nested k ((k, s) :: ls ++ ls') (Node s f :: f').
