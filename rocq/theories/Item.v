(** * Item: the result tree (parse/result/result.go). *)
From Coq Require Import Strings.String Strings.Byte List NArith.
From Verif Require Import Base.
Import ListNotations.

(** result.Item, result.go 67-73.  Nil *Item pointers never enter a tree
    (Item.Add and Info.Add drop them), so children are plain items. *)
Inductive item : Type :=
  Item (name value dump note : bytes) (items : list item).

Definition i_name (i : item) := let '(Item n _ _ _ _) := i in n.
Definition i_value (i : item) := let '(Item _ v _ _ _) := i in v.
Definition i_dump (i : item) := let '(Item _ _ d _ _) := i in d.
Definition i_note (i : item) := let '(Item _ _ _ t _) := i in t.
Definition i_items (i : item) := let '(Item _ _ _ _ l) := i in l.

(** Field assignments i.Name = ..., i.Value = ..., i.Dump = ..., i.Note = ... . *)
Definition w_name (x : bytes) (i : item) := let '(Item n v d t l) := i in Item x v d t l.
Definition w_value (x : bytes) (i : item) := let '(Item n v d t l) := i in Item n x d t l.
Definition w_dump (x : bytes) (i : item) := let '(Item n v d t l) := i in Item n v x t l.
Definition w_note (x : bytes) (i : item) := let '(Item n v d t l) := i in Item n v d x l.

(** Item.Add, result.go 94-98 (non-nil argument and receiver). *)
Definition add_child (c : item) (i : item) : item :=
  let '(Item n v d t l) := i in Item n v d t (l ++ [c]).

(** Item.Add with a possibly nil argument. *)
Definition add_opt (c : option item) (i : item) : item :=
  match c with Some x => add_child x i | None => i end.

(** result.Info, result.go 14-16: the list of top-level items. *)
Definition info := list item.

(** Item.toString, result.go 128-149.  [ind] is the indent string, [lvl] the level. *)
Fixpoint item_text (ind : bytes) (lvl : nat) (i : item) : bytes :=
  match i with
  | Item n v d t l =>
    repeat_bytes ind lvl ++ n
    ++ (if is_nil v then [] else str ": " ++ v)
    ++ (if is_nil t then [] else str " (" ++ t ++ str ")")
    ++ [x0a]
    ++ (if is_nil d then [] else repeat_bytes ind (S lvl) ++ d ++ [x0a])
    ++ (fix go (l : list item) : bytes :=
          match l with [] => [] | c :: t => item_text ind (S lvl) c ++ go t end) l
  end.

(** Info.ToString, result.go 47-59. *)
Definition info_text (ind : bytes) (l : info) : bytes :=
  flat_map (item_text ind 0) l.

(** Info.String, result.go 62-64. *)
Definition info_string (l : info) : bytes := info_text [x09] l.
