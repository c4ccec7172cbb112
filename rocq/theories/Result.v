(** * Result: the exported types Info and Item of parse/result/result.go as objects that a program shares and changes.

    The parser never shares or changes an item after it was added to another one, so [Item] describes its results as plain trees.
    Here a program may do so.  The k-th item (info) that was made is called k; a nil pointer is [None].  Left out: options that are not
    made by this package, nil pointers written directly into the fields Items and Packets, and two items with the same slice. *)
From Coq Require Import Strings.String Strings.Byte List NArith ZArith Bool Arith.
From Verif Require Import Base Item Json.
Import ListNotations.

(** The fields of result.Item that hold text, result.go 68-71. *)
Inductive fld := FName | FValue | FDump | FNote.

(** result.Item, result.go 67-73, with pointers to the sub-items. *)
Record node := mkNode { n_name : bytes; n_value : bytes; n_dump : bytes; n_note : bytes; n_items : list nat }.
(** All items, and the field Packets of all infos (result.go 14-16). *)
Record mem := mkMem { m_items : list node; m_infos : list (list nat) }.
Definition mem0 : mem := mkMem [] [].

(** i.Name = s and so on; Name, Value, DumpStr and Note (result.go 101-126) return closures that do the same. *)
Definition set_field (f : fld) (s : bytes) (n : node) : node :=
  match f with
  | FName => mkNode s (n_value n) (n_dump n) (n_note n) (n_items n)
  | FValue => mkNode (n_name n) s (n_dump n) (n_note n) (n_items n)
  | FDump => mkNode (n_name n) (n_value n) s (n_note n) (n_items n)
  | FNote => mkNode (n_name n) (n_value n) (n_dump n) s (n_items n)
  end.
(** i.Items = l. *)
Definition set_items (l : list nat) (n : node) : node := mkNode (n_name n) (n_value n) (n_dump n) (n_note n) l.
(** NewItem and optins, result.go 79-91. *)
Definition new_item (opts : list (fld * bytes)) : node := fold_left (fun n o => set_field (fst o) (snd o) n) opts (mkNode [] [] [] [] []).

Fixpoint change {A} (f : A -> A) (k : nat) (l : list A) : list A :=
  match l, k with
  | [], _ => []
  | x :: r, O => f x :: r
  | x :: r, S k' => x :: change f k' r
  end.

(** The calls and assignments of a program. *)
Inductive call :=
| NewItem (opts : list (fld * bytes))
| SetField (i : nat) (f : fld) (s : bytes)
| SetItems (i : nat) (l : list nat)
| ItemAdd (i a : option nat)
| NewInfo
| SetPackets (j : nat) (l : list nat)
| InfoAdd (j : option nat) (a : option nat).

(** New (result.go 19-21), Info.Add (24-31), NewItem (79-91), Item.Add (94-98). *)
Definition exec (c : call) (m : mem) : mem :=
  match c with
  | NewItem opts => mkMem (m_items m ++ [new_item opts]) (m_infos m)
  | SetField i f s => mkMem (change (set_field f s) i (m_items m)) (m_infos m)
  | SetItems i l => mkMem (change (set_items l) i (m_items m)) (m_infos m)
  | ItemAdd (Some i) (Some a) => mkMem (change (fun n => set_items (n_items n ++ [a]) n) i (m_items m)) (m_infos m)
  | ItemAdd _ _ => m
  | NewInfo => mkMem (m_items m) (m_infos m ++ [[]])
  | SetPackets j l => mkMem (m_items m) (change (fun _ => l) j (m_infos m))
  | InfoAdd (Some j) (Some a) => mkMem (m_items m) (change (fun p => p ++ [a]) j (m_infos m))
  | InfoAdd _ _ => m
  end.
(** The state after calls that are listed with the latest first. *)
Definition state (past : list call) : mem := fold_right exec mem0 past.

Fixpoint all_some {A} (l : list (option A)) : option (list A) :=
  match l with
  | [] => Some []
  | None :: _ => None
  | Some x :: r => match all_some r with Some t => Some (x :: t) | None => None end
  end.

(** Item.toString, result.go 128-149, with at most [fuel] calls nested; [None]: more are needed. *)
Fixpoint to_string (ns : list node) (fuel : nat) (ind : bytes) (lvl : nat) (i : option nat) : option bytes :=
  match i with
  | None => Some []
  | Some k =>
    match fuel with
    | O => None
    | S fuel' =>
      match nth_error ns k with
      | None => Some []                      (* no such object *)
      | Some n =>
        match all_some (map (fun a => to_string ns fuel' ind (S lvl) (Some a)) (n_items n)) with
        | None => None
        | Some ts =>
          Some (repeat_bytes ind lvl ++ n_name n
                ++ (if is_nil (n_value n) then [] else str ": " ++ n_value n)
                ++ (if is_nil (n_note n) then [] else str " (" ++ n_note n ++ str ")")
                ++ [x0a]
                ++ (if is_nil (n_dump n) then [] else repeat_bytes ind (S lvl) ++ n_dump n ++ [x0a])
                ++ concat ts)
        end
      end
    end
  end.
(** Item.String, result.go 151-153. *)
Definition item_String (m : mem) (fuel : nat) (i : option nat) : option bytes := to_string (m_items m) fuel [x09] 0 i.
(** Info.ToString, result.go 47-59. *)
Definition info_ToString (m : mem) (fuel : nat) (ind : bytes) (j : option nat) : option bytes :=
  match j with
  | None => Some []
  | Some k =>
    match nth_error (m_infos m) k with
    | None => Some []                        (* no such object *)
    | Some l => option_map (@concat byte) (all_some (map (fun a => to_string (m_items m) fuel ind 0 (Some a)) l))
    end
  end.

(** What the encoder of encoding/json gives: text, the error for a cycle, or more than [fuel] nested calls. *)
Inductive jres := JText (b : bytes) | JCycle | JFuel.
Fixpoint all_text (l : list jres) : jres + list bytes :=
  match l with
  | [] => inr []
  | JText b :: r => match all_text r with inr t => inr (b :: t) | inl e => inl e end
  | e :: _ => inl e
  end.
(** ptrSeen holds pointers to items and slices; the slice is known by its item. *)
Inductive key := KItem (k : nat) | KSlice (k : nat).
Definition key_eqb (a b : key) : bool :=
  match a, b with KItem x, KItem y => x =? y | KSlice x, KSlice y => x =? y | _, _ => false end.
(** startDetectCyclesAfter. *)
Definition detect_after : N := 1000.
(** The check that ptrEncoder.encode and sliceEncoder.encode make at level [lvl]: [None] is the error. *)
Definition enter (lvl : N) (x : key) (seen : list key) : option (list key) :=
  if (detect_after <? lvl)%N then (if existsb (key_eqb x) seen then None else Some (x :: seen)) else Some seen.
(** ptrEncoder, structEncoder and sliceEncoder of Go 1.16's encoding/json on a pointer to an item; [lvl] is ptrLevel. *)
Fixpoint encode (ns : list node) (fuel : nat) (lvl : N) (seen : list key) (k : nat) : jres :=
  match fuel with
  | O => JFuel
  | S fuel' =>
    match enter (lvl + 1) (KItem k) seen with
    | None => JCycle
    | Some seen1 =>
      match nth_error ns k with
      | None => JText []                     (* no such object *)
      | Some n =>
        let fields := [json_member "name" (json_string (n_name n))] ++ json_opt "value" (n_value n) ++ json_opt "dump" (n_dump n) ++ json_opt "note" (n_note n) in
        if is_nil (n_items n) then JText (json_object fields)
        else match enter (lvl + 2) (KSlice k) seen1 with
             | None => JCycle
             | Some seen2 =>
               match all_text (map (encode ns fuel' (lvl + 2) seen2) (n_items n)) with
               | inl e => e
               | inr ts => JText (json_object (fields ++ [json_member "Item" (json_array ts)]))
               end
             end
      end
    end
  end.
(** json.Marshal of an info: the pointer to it is level 1 and its slice level 2. *)
Definition encode_info (ns : list node) (fuel : nat) (l : list nat) : jres :=
  if is_nil l then JText (json_object [])
  else match all_text (map (encode ns fuel 2 []) l) with
       | inl e => e
       | inr ts => JText (json_object [json_member "Packet" (json_array ts)])
       end.
(** Info.JSON, result.go 34-45. *)
Definition info_Json (m : mem) (fuel : nat) (indent : Z) (j : option nat) : res bytes :=
  match j with
  | None => ROk []
  | Some k =>
    match nth_error (m_infos m) k with
    | None => ROk []                         (* no such object *)
    | Some l =>
      match encode_info (m_items m) fuel l with
      | JFuel => RFuel
      | JCycle => RErr EJSON
      | JText b =>
        if (0 <? indent)%Z then
          match indent_loop (repeat_bytes [x20] (Z.to_nat indent)) b JOut false 0 0 with
          | Some r => ROk r
          | None => RErr EJSON
          end
        else ROk b
      end
    end
  end.
