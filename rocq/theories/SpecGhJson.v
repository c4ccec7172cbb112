(** * SpecGhJson: JSON documents of keys (C69).

    Nothing here refers to how the program reads JSON; [jv] is only the type of document trees, in which
    strings and names stand as they are written between their quotes. *)
From Coq Require Import Strings.String Strings.Byte List NArith ZArith Bool.
From Verif Require Import Base SpecBase SpecText SpecJson GhJson Github.
Import ListNotations.
Local Open Scope N_scope.

(** ** Strings *)

(** [string_chars l s]: the octets s between the quotes stand for the code points l.  To RFC 8259 (section 7,
    [char]) this adds what a lenient reader makes of strings that are no Unicode text: U+FFFD for an
    octet that is not part of an encoding, and for an escaped surrogate that is not part of a pair. *)
Inductive string_chars : list N -> bytes -> Prop :=
| chars_end : string_chars [] []
| chars_one c b l s : char c b -> string_chars l s -> string_chars (c :: l) (b ++ s)
| chars_octet b l s :
    0x80 <= b2n b -> (forall c s', scalar c -> b :: s <> utf8 c ++ s') -> string_chars l s ->
    string_chars (0xFFFD :: l) (b :: s)
| chars_surrogate a b c d n l s :
    hex4 a b c d n -> 0xD800 <= n < 0xE000 ->
    (n < 0xDC00 -> forall a' b' c' d' m s', hex4 a' b' c' d' m -> 0xDC00 <= m < 0xE000 -> s <> [x5c; x75; a'; b'; c'; d'] ++ s') ->
    string_chars l s ->
    string_chars (0xFFFD :: l) ([x5c; x75; a; b; c; d] ++ s).

(** Something that may stand between two quotes. *)
Definition string_body (s : bytes) : Prop := exists l, string_chars l s.

(** The text of a string, in UTF-8. *)
Definition string_says (s text : bytes) : Prop := exists l, string_chars l s /\ text = utf8s l.

(** ** Numbers (RFC 8259, section 6) *)

Definition digit (b : byte) : Prop := 48 <= b2n b <= 57.
Definition digits_text (l : bytes) : Prop := l <> [] /\ Forall digit l.

Inductive number_text : bytes -> Prop :=
  number_parts sign int frac exp :
    sign = [] \/ sign = [x2d] ->
    int = [x30] \/ (digits_text int /\ hd_error int <> Some x30) ->
    frac = [] \/ (exists f, digits_text f /\ frac = x2e :: f) ->
    exp = [] \/ (exists e s x, (e = x65 \/ e = x45) /\ (s = [] \/ s = [x2b] \/ s = [x2d]) /\ digits_text x /\ exp = e :: s ++ x) ->
    number_text (sign ++ int ++ frac ++ exp).

(** ** Values (RFC 8259, sections 3 to 5) *)

Inductive doc_text : jv -> bytes -> Prop :=
| doc_null : doc_text VNull (str "null")
| doc_true : doc_text (VBool true) (str "true")
| doc_false : doc_text (VBool false) (str "false")
| doc_number n : number_text n -> doc_text (VNum n) n
| doc_string s : string_body s -> doc_text (VStr s) ([x22] ++ s ++ [x22])
| doc_array_empty w : ws w -> doc_text (VArr []) ([x5b] ++ w ++ [x5d])
| doc_array l b : doc_elements l b -> doc_text (VArr l) ([x5b] ++ b ++ [x5d])
| doc_object_empty w : ws w -> doc_text (VObj []) ([x7b] ++ w ++ [x7d])
| doc_object l b : doc_members l b -> doc_text (VObj l) ([x7b] ++ b ++ [x7d])
with doc_elements : list jv -> bytes -> Prop :=
| doc_element v w b w' : ws w -> doc_text v b -> ws w' -> doc_elements [v] (w ++ b ++ w')
| doc_elements_more v l w b w' r :
    ws w -> doc_text v b -> ws w' -> doc_elements l r -> doc_elements (v :: l) (w ++ b ++ w' ++ [x2c] ++ r)
with doc_members : list (bytes * jv) -> bytes -> Prop :=
| doc_member k v w w1 w2 b w' :
    ws w -> string_body k -> ws w1 -> ws w2 -> doc_text v b -> ws w' ->
    doc_members [(k, v)] (w ++ [x22] ++ k ++ [x22] ++ w1 ++ [x3a] ++ w2 ++ b ++ w')
| doc_members_more k v l w w1 w2 b w' r :
    ws w -> string_body k -> ws w1 -> ws w2 -> doc_text v b -> ws w' -> doc_members l r ->
    doc_members ((k, v) :: l) (w ++ [x22] ++ k ++ [x22] ++ w1 ++ [x3a] ++ w2 ++ b ++ w' ++ [x2c] ++ r).

(** How many arrays and objects stand in each other. *)
Fixpoint nesting (v : jv) : N :=
  match v with
  | VArr l => 1 + fold_right (fun x m => N.max (nesting x) m) 0 l
  | VObj l => 1 + fold_right (fun x m => match x with (_, y) => N.max (nesting y) m end) 0 l
  | _ => 0
  end.

(** ** Keys *)

(** A member has the name: letters count in either case, the Kelvin sign as a k and the long s as an s. *)
Definition small (c : N) : N :=
  if (65 <=? c) && (c <=? 90) then c + 32 else if c =? 0x212A then 0x6B else if c =? 0x17F then 0x73 else c.
Definition named (name : string) (k : bytes) : Prop :=
  exists l, string_chars l k /\ map small l = SpecJson.key name.

(** A number that is written as an integer and has 64 bits with its sign. *)
Definition decimal (l : bytes) : Z := fold_left (fun a b => a * 10 + (Z.of_N (b2n b) - 48))%Z l 0%Z.
Inductive int64_text : bytes -> Prop :=
| int64_plus l : digits_text l -> (decimal l < 2 ^ 63)%Z -> int64_text l
| int64_minus l : digits_text l -> (- decimal l >= - 2 ^ 63)%Z -> int64_text (x2d :: l).

(** What GitHub documents for the members of a key and of a mail address. *)
Inductive sort := Integer | String | Boolean | Time | Address | Key | List (s : sort).
Definition address_members : list (string * sort) := [("email", String); ("verified", Boolean)]%string.
Definition key_members : list (string * sort) :=
  [("id", Integer); ("primary_key_id", Integer); ("key_id", String); ("raw_key", String); ("public_key", String);
   ("emails", List Address); ("subkeys", List Key); ("can_sign", Boolean); ("can_encrypt_comms", Boolean);
   ("can_encrypt_storage", Boolean); ("can_certify", Boolean); ("created_at", Time); ("expires_at", Time)]%string.

(** A value is of the sort: null always is; the members of an object that have one of the names must be
    of the sort that goes with it, and there may be any others.  [T] tells which strings are times. *)
Inductive of_sort (T : bytes -> Prop) : sort -> jv -> Prop :=
| sort_null s : of_sort T s VNull
| sort_integer n : int64_text n -> of_sort T Integer (VNum n)
| sort_string x : of_sort T String (VStr x)
| sort_boolean b : of_sort T Boolean (VBool b)
| sort_time x : T x -> of_sort T Time (VStr x)
| sort_list s l : Forall (of_sort T s) l -> of_sort T (List s) (VArr l)
| sort_address l :
    (forall k v name s, In (k, v) l -> In (name, s) address_members -> named name k -> of_sort T s v) ->
    of_sort T Address (VObj l)
| sort_key l :
    (forall k v name s, In (k, v) l -> In (name, s) key_members -> named name k -> of_sort T s v) ->
    of_sort T Key (VObj l).

(** The key ID and the raw key of an object: those of the last member of that name.  For the ID
    a null is as good as no member; for the raw key it says that there is none. *)
Inductive id_of : list (bytes * jv) -> bytes -> Prop :=
| id_absent l : (forall k v, In (k, v) l -> named "key_id" k -> v = VNull) -> id_of l []
| id_given l k s r id :
    named "key_id" k -> string_says s id -> (forall k v, In (k, v) r -> named "key_id" k -> v = VNull) ->
    id_of (l ++ (k, VStr s) :: r) id.
Inductive raw_of : list (bytes * jv) -> option bytes -> Prop :=
| raw_absent l : (forall k v, In (k, v) l -> ~ named "raw_key" k) -> raw_of l None
| raw_null l k r : named "raw_key" k -> (forall k v, In (k, v) r -> ~ named "raw_key" k) -> raw_of (l ++ (k, VNull) :: r) None
| raw_given l k s r raw :
    named "raw_key" k -> string_says s raw -> (forall k v, In (k, v) r -> ~ named "raw_key" k) ->
    raw_of (l ++ (k, VStr s) :: r) (Some raw).

(** What an element of the list says. *)
Inductive entry : jv -> option gh_key -> Prop :=
| entry_null : entry VNull None
| entry_key l id raw : id_of l id -> raw_of l raw -> entry (VObj l) (Some (mkKey id raw)).

(** The body of a page starts with a list of keys, or with null; what follows is of no account.  [whole]
    says that the body came to its end without error; it matters only for a null with nothing after it. *)
Inductive page_says (T : bytes -> Prop) (whole : bool) : bytes -> list (option gh_key) -> Prop :=
| page_list w b rest l keys :
    ws w -> doc_text (VArr l) b -> nesting (VArr l) <= 10000 -> of_sort T (List Key) (VArr l) ->
    Forall2 entry l keys -> page_says T whole (w ++ b ++ rest) keys
| page_null w rest : ws w -> rest <> [] \/ whole = true -> page_says T whole (w ++ str "null" ++ rest) [].
