(** * SpecSame: the lines that a JSON document of the command tells (C73).

    Nothing here refers to result trees: a JSON document goes in, lines come out. *)
From Coq Require Import Strings.String Strings.Byte List NArith Bool.
From Verif Require Import Base SpecBase SpecText SpecJson.
Import ListNotations.
Local Open Scope N_scope.

(** A member has the name k. *)
Definition named (k : string) (name : list N) : bool := if list_eq_dec N.eq_dec name (key k) then true else false.

(** The text of the string members with the name k: none if there is no such member. *)
Definition told_text (k : string) (ms : list (list N * json)) : bytes :=
  flat_map (fun m => match snd m with JString s => if named k (fst m) then utf8s s else [] | _ => [] end) ms.

(** The elements of the array members with the name k. *)
Definition told_below (k : string) (ms : list (list N * json)) : list json :=
  flat_map (fun m => match snd m with JArray js => if named k (fst m) then js else [] | _ => [] end) ms.

(** [told d v ls]: at depth d the value v tells the lines ls, each with its depth. An object tells its name with its value and its
    note, its dump one level deeper if it has one, and what the elements of its member Item tell, one level deeper. *)
Inductive told : nat -> json -> list (nat * bytes) -> Prop :=
| told_object d ms below :
    told_all (S d) (told_below "Item" ms) below ->
    told d (JObject ms)
      ((d, item_line (told_text "name" ms) (told_text "value" ms) (told_text "note" ms))
       :: (match told_text "dump" ms with [] => [] | t => [(S d, t)] end) ++ below)
with told_all : nat -> list json -> list (nat * bytes) -> Prop :=
| told_none d : told_all d [] []
| told_more d v r ls below : told d v ls -> told_all d r below -> told_all d (v :: r) (ls ++ below).

(** A document tells the lines of the elements of its member Packet. *)
Definition tells (v : json) (ls : list (nat * bytes)) : Prop :=
  exists ms, v = JObject ms /\ told_all 0 (told_below "Packet" ms) ls.

(** Lines as they are written: the indentation once for each level, the line, a line feed. *)
Definition written_lines (ind : bytes) (ls : list (nat * bytes)) : bytes :=
  flat_map (fun p => repeat_str ind (fst p) ++ snd p ++ [x0a]) ls.

(** The options that say what is shown, not how it is written. *)
Definition contents_options : list string :=
  ["armor"; "cert"; "debug"; "int"; "literal"; "marker"; "private"; "utc"]%string.
