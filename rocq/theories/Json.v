(** * Json: the JSON output (parse/result/result.go, JSON) with the parts of Go's
    encoding/json it goes through. *)
From Coq Require Import Strings.String Strings.Byte List NArith ZArith Bool.
From Verif Require Import Base Utf8 Item.
Import ListNotations.
Local Open Scope N_scope.

(** One ASCII byte inside a JSON string: encodeState.string of Go 1.16's encoding/json with
    escapeHTML set, as json.Marshal does (called from result.go 40 and 43). *)
Definition json_ascii (n : N) : bytes :=
  if (n =? 34) || (n =? 92) then [x5c; n2b n]
  else if n =? 10 then [x5c; x6e]
  else if n =? 13 then [x5c; x72]
  else if n =? 9 then [x5c; x74]
  else if (n <? 32) || (n =? 60) || (n =? 62) || (n =? 38)
       then [x5c; x75; x30; x30; hexdig (n / 16); hexdig (n mod 16)]
  else [n2b n].

(** One rune of the string, or one invalid byte: invalid bytes become the six characters \ufffd,
    U+2028 and U+2029 are escaped, everything else beyond ASCII is copied (the copied bytes are
    the encoding of the rune, because the decoder only accepts shortest forms). *)
Definition json_rune (o : option N) : bytes :=
  match o with
  | None => [x5c; x75; x66; x66; x66; x64]
  | Some r =>
    if r <? 128 then json_ascii r
    else if (r =? 0x2028) || (r =? 0x2029) then [x5c; x75; x32; x30; x32; hexdig (r mod 16)]
    else enc_rune r
  end.

(** encodeState.string: a quoted JSON string. *)
Definition json_string (s : bytes) : bytes := x22 :: flat_map json_rune (scan s) ++ [x22].

(** structEncoder: the members separated by commas between braces; without any, "{}". *)
Definition json_object (members : list bytes) : bytes := x7b :: join [x2c] members ++ [x7d].

(** arrayEncoder. *)
Definition json_array (elems : list bytes) : bytes := x5b :: join [x2c] elems ++ [x5d].

(** A struct field: the quoted name from the tag, a colon and the value. *)
Definition json_member (name : string) (v : bytes) : bytes := x22 :: str name ++ [x22; x3a] ++ v.

(** A string field with omitempty. *)
Definition json_opt (name : string) (s : bytes) : list bytes :=
  if is_nil s then [] else [json_member name (json_string s)].

(** The encoding of result.Item with its struct tags, result.go 67-73. *)
Fixpoint item_json (i : item) : bytes :=
  match i with
  | Item n v d t l =>
    json_object
      ([json_member "name" (json_string n)]
       ++ json_opt "value" v ++ json_opt "dump" d ++ json_opt "note" t
       ++ (if is_nil l then []
           else [json_member "Item"
                   (json_array ((fix go (l : list item) : list bytes :=
                                   match l with [] => [] | c :: r => item_json c :: go r end) l))]))
  end.

(** The encoding of result.Info, result.go 14-16: json.Marshal(i). *)
Definition info_json (l : info) : bytes :=
  json_object (if is_nil l then [] else [json_member "Packet" (json_array (map item_json l))]).

(** maxNestingDepth of encoding/json's scanner (since Go 1.15). *)
Definition max_nesting : N := 10000.

(** The part of the scanner's state json.Indent depends on: between tokens, inside a string, or
    after a backslash inside a string.  The scanner's other states only serve to reject malformed
    text; the text scanned here is Marshal's own output, made of strings, arrays and objects. *)
Inductive jmode := JOut | JIn | JEsc.

(** newline(dst, "", indent, depth). *)
Definition json_newline (ind : bytes) (depth : nat) : bytes := x0a :: repeat_bytes ind depth.

Definition put (a : bytes) (r : option bytes) : option bytes :=
  match r with Some b => Some (a ++ b) | None => None end.

(** json.Indent, byte by byte.  [need] is needIndent, [depth] is depth and [nest] is
    len(scan.parseState); [None] is the error "exceeded max depth". *)
Fixpoint indent_loop (ind src : bytes) (m : jmode) (need : bool) (depth : nat) (nest : N) : option bytes :=
  match src with
  | [] => Some []
  | c :: t =>
    match m with
    | JIn => put [c] (indent_loop ind t (if Byte.eqb c x5c then JEsc else if Byte.eqb c x22 then JOut else JIn)
                                  need depth nest)
    | JEsc => put [c] (indent_loop ind t JIn need depth nest)
    | JOut =>
      let opening := Byte.eqb c x7b || Byte.eqb c x5b in
      let closing := Byte.eqb c x7d || Byte.eqb c x5d in
      if opening && (max_nesting <=? nest) then None
      else
        let grow := need && negb closing in
        let d := if grow then S depth else depth in
        put (if grow then json_newline ind d else [])
          (if opening then put [c] (indent_loop ind t JOut true d (nest + 1))
           else if Byte.eqb c x2c then put (c :: json_newline ind d) (indent_loop ind t JOut false d nest)
           else if Byte.eqb c x3a then put [c; x20] (indent_loop ind t JOut false d nest)
           else if closing then
             if need then put [c] (indent_loop ind t JOut false d (nest - 1))
             else put (json_newline ind (pred d) ++ [c]) (indent_loop ind t JOut false (pred d) (nest - 1))
           else put [c] (indent_loop ind t (if Byte.eqb c x22 then JIn else JOut) false d nest))
    end
  end.

(** Info.JSON, result.go 34-45 (receiver not nil).  json.Marshal itself cannot fail here: the
    structs hold only strings and finite slices. *)
Definition info_JSON (indent : Z) (l : info) : res bytes :=
  let b := info_json l in
  if (0 <? indent)%Z then
    match indent_loop (repeat_bytes [x20] (Z.to_nat indent)) b JOut false 0 0 with
    | Some r => ROk r
    | None => RErr EJSON
    end
  else ROk b.
