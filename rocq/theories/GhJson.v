(** * GhJson: how github.go 78-81 makes keys of the body of an answer, with github/structs.go.

    The body goes through encoding/json: NewDecoder(body).Decode(&keys).  Modelled are the syntax
    the decoder accepts, the types of the fields of structs.go, and what ends up in the two
    fields that GetKey uses.  Simplification: Go scans with a state machine and a stack, and reads
    the values in a second pass; here one recursive descent does both.  The other fields are checked
    and not kept. *)
From Coq Require Import Strings.String Strings.Byte List NArith ZArith Bool.
From Verif Require Import Base Utf8 Json Github.
Import ListNotations.
Local Open Scope N_scope.

(** A value of the document: numbers as they are written, strings and names of members as they are
    written between their quotes. *)
Inductive jv :=
| VNull
| VBool (b : bool)
| VNum (raw : bytes)
| VStr (raw : bytes)
| VArr (l : list jv)
| VObj (l : list (bytes * jv)).

(** ** The scanner of encoding/json (github.go 79) *)

(** isSpace *)
Definition jspace (b : byte) : bool := Byte.eqb b x20 || Byte.eqb b x09 || Byte.eqb b x0a || Byte.eqb b x0d.
Fixpoint jskip (s : bytes) : bytes :=
  match s with b :: r => if jspace b then jskip r else s | [] => [] end.

(** A hexadecimal digit (stateInStringEscU, getu4). *)
Definition jhex (n : N) : option N :=
  if inr 48 57 n then Some (n - 48) else if inr 97 102 n then Some (n - 87) else if inr 65 70 n then Some (n - 55) else None.
Definition is_jhex (b : byte) : bool := match jhex (b2n b) with Some _ => true | None => false end.

(** The characters after a backslash (stateInStringEsc, unquoteBytes), but for u. *)
Definition jescape (n : N) : option N :=
  if (n =? 0x22) || (n =? 0x5c) || (n =? 0x2f) then Some n
  else if n =? 0x62 then Some 8 else if n =? 0x66 then Some 12 else if n =? 0x6e then Some 10
  else if n =? 0x72 then Some 13 else if n =? 0x74 then Some 9 else None.
Definition is_jescape (b : byte) : bool := match jescape (b2n b) with Some _ => true | None => false end.

Definition pre (p : bytes) (o : option (bytes * bytes)) : option (bytes * bytes) :=
  match o with Some (x, t) => Some (p ++ x, t) | None => None end.

(** A string from behind its opening quote (stateInString and on): what stands before the closing
    quote, and what follows it. *)
Fixpoint jstring (s : bytes) : option (bytes * bytes) :=
  match s with
  | [] => None
  | b :: r =>
    if Byte.eqb b x22 then Some ([], r)
    else if Byte.eqb b x5c then
      match r with
      | e :: r1 =>
        if is_jescape e then pre [b; e] (jstring r1)
        else if Byte.eqb e x75 then
          match r1 with
          | h1 :: h2 :: h3 :: h4 :: r2 =>
            if is_jhex h1 && is_jhex h2 && is_jhex h3 && is_jhex h4 then pre [b; e; h1; h2; h3; h4] (jstring r2) else None
          | _ => None
          end
        else None
      | [] => None
      end
    else if b2n b <? 0x20 then None
    else pre [b] (jstring r)
  end.

(** Numbers (stateNeg, state0, state1, stateDot, stateDot0, stateE, stateESign, stateE0). *)
Definition jdigit (b : byte) : bool := inr 48 57 (b2n b).
Fixpoint span (s : bytes) : bytes * bytes :=
  match s with
  | b :: r => if jdigit b then let '(d, t) := span r in (b :: d, t) else ([], s)
  | [] => ([], [])
  end.
Definition digits1 (s : bytes) : option (bytes * bytes) :=
  match span s with ([], _) => None | p => Some p end.
Definition int_part (s : bytes) : option (bytes * bytes) :=
  match s with
  | b :: r => if Byte.eqb b x30 then Some ([b], r) else digits1 s
  | [] => None
  end.
Definition frac_part (s : bytes) : option (bytes * bytes) :=
  match s with
  | b :: r => if Byte.eqb b x2e then pre [b] (digits1 r) else Some ([], s)
  | [] => Some ([], s)
  end.
Definition exp_part (s : bytes) : option (bytes * bytes) :=
  match s with
  | b :: r =>
    if Byte.eqb b x65 || Byte.eqb b x45 then
      match r with
      | c :: r1 => if Byte.eqb c x2b || Byte.eqb c x2d then pre [b; c] (digits1 r1) else pre [b] (digits1 r)
      | [] => None
      end
    else Some ([], s)
  | [] => Some ([], s)
  end.
Definition then_part (o : option (bytes * bytes)) (f : bytes -> option (bytes * bytes)) : option (bytes * bytes) :=
  match o with Some (a, t) => pre a (f t) | None => None end.
Definition unsigned (s : bytes) : option (bytes * bytes) :=
  then_part (int_part s) (fun t => then_part (frac_part t) exp_part).
Definition jnumber (s : bytes) : option (bytes * bytes) :=
  match s with
  | b :: r => if Byte.eqb b x2d then pre [b] (unsigned r) else unsigned s
  | [] => None
  end.

(** A value without white space before it, and what follows it.  [d] is the number of arrays and
    objects around it; more than [m] (maxNestingDepth, 10000) of them are an error (pushParseState).  [f]
    bounds the recursion. *)
Fixpoint jvalue (m : N) (f : nat) (d : N) (s : bytes) : option (jv * bytes) :=
  match f, s with
  | S f', b :: r =>
    if Byte.eqb b x22 then match jstring r with Some (x, t) => Some (VStr x, t) | None => None end
    else if Byte.eqb b x5b then
      if m <=? d then None else
      match jskip r with
      | c :: t =>
        if Byte.eqb c x5d then Some (VArr [], t)
        else match jelems m f' (d + 1) r with Some (l, t') => Some (VArr l, t') | None => None end
      | [] => None
      end
    else if Byte.eqb b x7b then
      if m <=? d then None else
      match jskip r with
      | c :: t =>
        if Byte.eqb c x7d then Some (VObj [], t)
        else match jmembers m f' (d + 1) r with Some (l, t') => Some (VObj l, t') | None => None end
      | [] => None
      end
    else if has_prefix (str "null") s then Some (VNull, skipn 4 s)
    else if has_prefix (str "true") s then Some (VBool true, skipn 4 s)
    else if has_prefix (str "false") s then Some (VBool false, skipn 5 s)
    else match jnumber s with Some (x, t) => Some (VNum x, t) | None => None end
  | _, _ => None
  end
(** The elements of an array up to its closing bracket. *)
with jelems (m : N) (f : nat) (d : N) (s : bytes) : option (list jv * bytes) :=
  match f with
  | S f' =>
    match jvalue m f' d (jskip s) with
    | Some (v, r) =>
      match jskip r with
      | c :: t =>
        if Byte.eqb c x2c then match jelems m f' d t with Some (l, t') => Some (v :: l, t') | None => None end
        else if Byte.eqb c x5d then Some ([v], t)
        else None
      | [] => None
      end
    | None => None
    end
  | O => None
  end
(** The members of an object up to its closing brace. *)
with jmembers (m : N) (f : nat) (d : N) (s : bytes) : option (list (bytes * jv) * bytes) :=
  match f with
  | S f' =>
    match jskip s with
    | q :: r =>
      if Byte.eqb q x22 then
        match jstring r with
        | Some (k, r1) =>
          match jskip r1 with
          | c :: r2 =>
            if Byte.eqb c x3a then
              match jvalue m f' d (jskip r2) with
              | Some (v, r3) =>
                match jskip r3 with
                | e :: t =>
                  if Byte.eqb e x2c then match jmembers m f' d t with Some (l, t') => Some ((k, v) :: l, t') | None => None end
                  else if Byte.eqb e x7d then Some ([(k, v)], t)
                  else None
                | [] => None
                end
              | None => None
              end
            else None
          | [] => None
          end
        | None => None
        end
      else None
    | [] => None
    end
  | O => None
  end.

(** ** The strings (unquoteBytes): code points, with U+FFFD for octets that are no UTF-8 and for
    escapes of surrogates that are no pair *)

Definition jhex4 (a b c d : N) : option N :=
  match jhex a, jhex b, jhex c, jhex d with
  | Some w, Some x, Some y, Some z => Some (w * 4096 + x * 256 + y * 16 + z)
  | _, _, _, _ => None
  end.

(** getu4 *)
Definition getu4 (l : list N) : option (N * list N) :=
  match l with
  | s :: u :: a :: b :: c :: d :: r =>
    if (s =? 0x5c) && (u =? 0x75) then match jhex4 a b c d with Some n => Some (n, r) | None => None end else None
  | _ => None
  end.

(** Every \u escape takes six runes, so the length bounds the steps; [f] is that bound. *)
Fixpoint unescape (f : nat) (l : list N) : list N :=
  match f, l with
  | S f', c :: r =>
    if c =? 0x5c then
      match getu4 l with
      | Some (h, t) =>
        if inr 0xD800 0xDFFF h then
          match getu4 t with
          | Some (lo, t') =>
            if inr 0xD800 0xDBFF h && inr 0xDC00 0xDFFF lo
            then (0x10000 + (h - 0xD800) * 1024 + (lo - 0xDC00)) :: unescape f' t'
            else 0xFFFD :: unescape f' t
          | None => 0xFFFD :: unescape f' t
          end
        else h :: unescape f' t
      | None =>
        match r with
        | e :: t => match jescape e with Some n => n :: unescape f' t | None => [] end
        | [] => []
        end
      end
    else c :: unescape f' r
  | _, _ => []
  end.

Definition points (raw : bytes) : list N := unescape (length (runes raw)) (runes raw).
Definition junquote (raw : bytes) : bytes := flat_map enc_rune (points raw).

(** ** The fields, github/structs.go 5-24 *)

(** The Go types of the fields.  A pointer takes what its target takes, and null; null is also accepted,
    and changes nothing, where there is no pointer. *)
Inductive kind := KInt | KStr | KBool | KTime | KEmail | KKey | KList (k : kind).

(** OpenPGPKey, structs.go 5-19. *)
Definition key_fields : list (string * kind) :=
  [("id", KInt); ("primary_key_id", KInt); ("key_id", KStr); ("raw_key", KStr); ("public_key", KStr);
   ("emails", KList KEmail); ("subkeys", KList KKey); ("can_sign", KBool); ("can_encrypt_comms", KBool);
   ("can_encrypt_storage", KBool); ("can_certify", KBool); ("created_at", KTime); ("expires_at", KTime)]%string.

(** EMailInfo, structs.go 21-24. *)
Definition email_fields : list (string * kind) := [("email", KStr); ("verified", KBool)]%string.

(** The comparison of a character of a field's name with a character of a member's name
    (asciiEqualFold, simpleLetterEqualFold, equalFoldRight). *)
Definition name_fold (x y : N) : bool :=
  if y <? 0x80 then (x =? y) || ((inr 65 90 x || inr 97 122 x) && (N.land x 0xDF =? N.land y 0xDF))
  else (((x =? 0x73) || (x =? 0x53)) && (y =? 0x17F)) || (((x =? 0x6B) || (x =? 0x4B)) && (y =? 0x212A)).
Fixpoint fold_runes (a b : list N) : bool :=
  match a, b with
  | [], [] => true
  | x :: a', y :: b' => name_fold x y && fold_runes a' b'
  | _, _ => false
  end.
Definition fold_name (name : string) (k : bytes) : bool := fold_runes (map b2n (str name)) (points k).

(** The field a member goes to. *)
Fixpoint field_kind (fields : list (string * kind)) (k : bytes) : option kind :=
  match fields with
  | [] => None
  | (name, t) :: r => if fold_name name k then Some t else field_kind r k
  end.

(** strconv.ParseInt(raw, 10, 64) succeeds *)
Definition dec_value (l : bytes) : N := fold_left (fun a b => a * 10 + (b2n b - 48)) l 0.
Definition int64_ok (raw : bytes) : bool :=
  match raw with
  | b :: r => if Byte.eqb b x2d then negb (is_nil r) && forallb jdigit r && (dec_value r <=? 2 ^ 63) else forallb jdigit raw && (dec_value raw <? 2 ^ 63)
  | [] => false
  end.

(** Whether a value goes into a field without error; a field that does not fit makes Decode return
    an UnmarshalTypeError in the end.  [T] says whether time.Time's UnmarshalJSON accepts a string; it
    is outside the model. *)
Fixpoint store_ok (T : bytes -> bool) (v : jv) (k : kind) : bool :=
  match v with
  | VNull => true
  | VBool _ => match k with KBool => true | _ => false end
  | VNum x => match k with KInt => int64_ok x | _ => false end
  | VStr x => match k with KStr => true | KTime => T x | _ => false end
  | VArr l => match k with KList e => forallb (fun x => store_ok T x e) l | _ => false end
  | VObj l =>
    let go fields :=
      forallb (fun m => match m with
                        | (n, x) => match field_kind fields n with Some e => store_ok T x e | None => true end
                        end) l in
    match k with KEmail => go email_fields | KKey => go key_fields | _ => false end
  end.

(** The two fields GetKey uses: a later member goes over an earlier one, null empties the pointer RawKey and
    leaves the string KeyID. *)
Definition set_member (acc : gh_key) (m : bytes * jv) : gh_key :=
  let '(n, v) := m in
  if fold_name "key_id" n then match v with VStr x => mkKey (junquote x) (k_raw acc) | _ => acc end
  else if fold_name "raw_key" n then
    match v with VStr x => mkKey (k_id acc) (Some (junquote x)) | VNull => mkKey (k_id acc) None | _ => acc end
  else acc.
Definition entry_of (v : jv) : option gh_key :=
  match v with VObj l => Some (fold_left set_member l (mkKey [] None)) | _ => None end.

(** ** Decode(&keys), github.go 78-82 *)

(** The decoder reads no further than to the end of the first value; at the top null stands for no
    keys.  [whole] says that the body ends without error of reading.  The error of reading matters
    only if the value is not complete before it, and null is complete with the octet after it or with
    the regular end of the body. *)
Definition decode_page (T : bytes -> bool) (body : bytes) (whole : bool) : gh_page :=
  let s := jskip body in
  match jvalue max_nesting (S (S (2 * length s))) 0 s with
  | Some (v, t) =>
    if store_ok T v (KList KKey) then
      match v with
      | VArr l => GKeys (map entry_of l)
      | _ => if is_nil t && negb whole then GErr else GKeys []
      end
    else GErr
  | None => GErr
  end.

(** The answers as bodies: what the rest of the model takes for a page is made of what a request brings. *)
Definition gh_bodies (T : bytes -> bool) (answer : bytes -> option (bytes * bool)) (G : gh_env) : gh_env :=
  mkGh (fun u => match answer u with Some (body, whole) => decode_page T body whole | None => GErr end)
       (g_profile G) (g_lower G) (g_fold G).
