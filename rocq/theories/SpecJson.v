(** * SpecJson: JSON texts as of RFC 8259, and the document that stands for a result tree (C37).

    Nothing here refers to how the program writes JSON. *)
From Coq Require Import Strings.String Strings.Byte List NArith Bool.
From Verif Require Import Base SpecBase SpecText Item.
Import ListNotations.
Local Open Scope N_scope.

(** ** JSON values (strings, arrays and objects; numbers and the three literal names are not needed) *)

(** A string is its sequence of code points; an object is its sequence of members. *)
Inductive json : Type :=
| JString (l : list N)
| JArray (l : list json)
| JObject (l : list (list N * json)).

(** ** The grammar *)

(** RFC 8259 section 2: white space. *)
Definition is_ws (b : byte) : Prop := b = x20 \/ b = x09 \/ b = x0a \/ b = x0d.
Definition ws (w : bytes) : Prop := Forall is_ws w.

(** The value of a hexadecimal digit, in either case. *)
Definition hex_value (b : byte) : option N :=
  let n := b2n b in
  if (48 <=? n) && (n <=? 57) then Some (n - 48)
  else if (65 <=? n) && (n <=? 70) then Some (n - 55)
  else if (97 <=? n) && (n <=? 102) then Some (n - 87)
  else None.

Definition hex4 (a b c d : byte) (n : N) : Prop :=
  exists w x y z, hex_value a = Some w /\ hex_value b = Some x /\ hex_value c = Some y /\ hex_value d = Some z
                  /\ n = w * 4096 + x * 256 + y * 16 + z.

(** Section 7: the two-character escapes. *)
Definition short_escape (b : byte) : option N :=
  match b with
  | x22 => Some 0x22 | x5c => Some 0x5c | x2f => Some 0x2f | x62 => Some 8 | x66 => Some 12
  | x6e => Some 10 | x72 => Some 13 | x74 => Some 9
  | _ => None
  end.

(** [char c b]: the octets b stand for the code point c inside a string. *)
Inductive char : N -> bytes -> Prop :=
| char_plain c : scalar c -> 0x20 <= c -> c <> 0x22 -> c <> 0x5c -> char c (utf8 c)
| char_short b c : short_escape b = Some c -> char c [x5c; b]
| char_hex a b c d n : hex4 a b c d n -> scalar n -> char n [x5c; x75; a; b; c; d]
| char_pair a b c d a' b' c' d' h l :
    hex4 a b c d h -> hex4 a' b' c' d' l -> 0xD800 <= h < 0xDC00 -> 0xDC00 <= l < 0xE000 ->
    char (0x10000 + (h - 0xD800) * 1024 + (l - 0xDC00))
         [x5c; x75; a; b; c; d; x5c; x75; a'; b'; c'; d'].

Inductive chars : list N -> bytes -> Prop :=
| chars_nil : chars [] []
| chars_cons c l b r : char c b -> chars l r -> chars (c :: l) (b ++ r).

Definition string_text (l : list N) (b : bytes) : Prop := exists s, chars l s /\ b = [x22] ++ s ++ [x22].

(** Sections 3 to 5: values, the elements of an array, the members of an object. *)
Inductive value_text : json -> bytes -> Prop :=
| text_string l b : string_text l b -> value_text (JString l) b
| text_array_empty w : ws w -> value_text (JArray []) ([x5b] ++ w ++ [x5d])
| text_array l b : elements_text l b -> value_text (JArray l) ([x5b] ++ b ++ [x5d])
| text_object_empty w : ws w -> value_text (JObject []) ([x7b] ++ w ++ [x7d])
| text_object l b : members_text l b -> value_text (JObject l) ([x7b] ++ b ++ [x7d])
with elements_text : list json -> bytes -> Prop :=
| elements_one v w b w' : ws w -> value_text v b -> ws w' -> elements_text [v] (w ++ b ++ w')
| elements_more v l w b w' r :
    ws w -> value_text v b -> ws w' -> elements_text l r ->
    elements_text (v :: l) (w ++ b ++ w' ++ [x2c] ++ r)
with members_text : list (list N * json) -> bytes -> Prop :=
| members_one k v w bk w1 w2 b w' :
    ws w -> string_text k bk -> ws w1 -> ws w2 -> value_text v b -> ws w' ->
    members_text [(k, v)] (w ++ bk ++ w1 ++ [x3a] ++ w2 ++ b ++ w')
| members_more k v l w bk w1 w2 b w' r :
    ws w -> string_text k bk -> ws w1 -> ws w2 -> value_text v b -> ws w' -> members_text l r ->
    members_text ((k, v) :: l) (w ++ bk ++ w1 ++ [x3a] ++ w2 ++ b ++ w' ++ [x2c] ++ r).

(** A JSON text. *)
Definition json_text (v : json) (b : bytes) : Prop :=
  exists w c w', ws w /\ value_text v c /\ ws w' /\ b = w ++ c ++ w'.

(** ** The document of a result tree *)

(** The code points of an ASCII literal. *)
Definition key (s : string) : list N := map b2n (str s).

(** The code points of a field: those it encodes, with U+FFFD for each octet that is not part of
    an encoding. *)
Inductive code_points : bytes -> list N -> Prop :=
| points_nil : code_points [] []
| points_char c s l : scalar c -> code_points s l -> code_points (utf8 c ++ s) (c :: l)
| points_bad b s l :
    (forall c s', scalar c -> b :: s <> utf8 c ++ s') -> code_points s l ->
    code_points (b :: s) (0xFFFD :: l).

(** A field that is left out when it is empty. *)
Inductive optional_member : string -> bytes -> list (list N * json) -> Prop :=
| member_absent k : optional_member k [] []
| member_present k s l : s <> [] -> code_points s l -> optional_member k s [(key k, JString l)].

Inductive item_document : item -> json -> Prop :=
  document_of_item n v d t l ln mv md mt ms :
    code_points n ln ->
    optional_member "value" v mv -> optional_member "dump" d md -> optional_member "note" t mt ->
    children_document "Item" l ms ->
    item_document (Item n v d t l) (JObject ([(key "name", JString ln)] ++ mv ++ md ++ mt ++ ms))
with children_document : string -> list item -> list (list N * json) -> Prop :=
| no_children k : children_document k [] []
| some_children k c l js : items_document (c :: l) js -> children_document k (c :: l) [(key k, JArray js)]
with items_document : list item -> list json -> Prop :=
| items_document_nil : items_document [] []
| items_document_cons i l j js : item_document i j -> items_document l js -> items_document (i :: l) (j :: js).

(** The document of a whole result. *)
Definition document (l : list item) (v : json) : Prop :=
  exists ms, children_document "Packet" l ms /\ v = JObject ms.

(** Number of levels of a tree. *)
Fixpoint levels (i : item) : N :=
  match i with
  | Item _ _ _ _ l => 1 + (fix go (l : list item) : N := match l with [] => 0 | c :: r => N.max (levels c) (go r) end) l
  end.
Definition all_levels (l : list item) : N := fold_right (fun i m => N.max (levels i) m) 0 l.
