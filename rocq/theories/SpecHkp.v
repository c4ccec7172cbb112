(** * SpecHkp: how a web server reads a URL and the query in it.

    The readers below follow RFC 3986 and the application/x-www-form-urlencoded
    rules; they know nothing of how the program writes URLs. *)
From Coq Require Import Strings.String Strings.Byte List NArith ZArith Bool.
From Verif Require Import Base SpecBase.
Import ListNotations.
Local Open Scope N_scope.

(** [cut c l]: what comes before the first octet [c], and what comes after it. *)
Fixpoint cut (c : byte) (l : bytes) : option (bytes * bytes) :=
  match l with
  | [] => None
  | b :: t =>
    if Byte.eqb b c then Some ([], t)
    else match cut c t with Some (x, y) => Some (b :: x, y) | None => None end
  end.

(** All the parts of [l] between occurrences of [c] (at least one part). *)
Fixpoint split (c : byte) (l : bytes) : list bytes :=
  match l with
  | [] => [[]]
  | b :: t =>
    if Byte.eqb b c then [] :: split c t
    else match split c t with p :: r => (b :: p) :: r | [] => [[b]] end
  end.

(** A hexadecimal digit in either case. *)
Definition any_hex (b : byte) : option N :=
  let n := b2n b in
  if (48 <=? n) && (n <=? 57) then Some (n - 48)
  else if (97 <=? n) && (n <=? 102) then Some (n - 87)
  else if (65 <=? n) && (n <=? 70) then Some (n - 55)
  else None.

(** Form decoding: a plus sign is a blank, %XX is an octet, the rest is itself. *)
Fixpoint form_decode (l : bytes) : option bytes :=
  match l with
  | [] => Some []
  | b :: t =>
    if Byte.eqb b x25 then
      match t with
      | h :: k :: t' =>
        match any_hex h, any_hex k, form_decode t' with
        | Some x, Some y, Some r => Some (n2b (x * 16 + y) :: r)
        | _, _, _ => None
        end
      | _ => None
      end
    else match form_decode t with
         | Some r => Some ((if Byte.eqb b x2b then x20 else b) :: r)
         | None => None
         end
  end.

(** One parameter "name=value"; without an equals sign the value is empty. *)
Definition parameter (l : bytes) : option (bytes * bytes) :=
  let '(k, v) := match cut x3d l with Some p => p | None => (l, []) end in
  match form_decode k, form_decode v with
  | Some k', Some v' => Some (k', v')
  | _, _ => None
  end.

Fixpoint all_some {A} (l : list (option A)) : option (list A) :=
  match l with
  | [] => Some []
  | Some x :: t => match all_some t with Some r => Some (x :: r) | None => None end
  | None :: _ => None
  end.

(** The parameters of a query, in order. *)
Definition parameters (q : bytes) : option (list (bytes * bytes)) :=
  all_some (map parameter (split x26 q)).

(** The parts of a URL text (RFC 3986, appendix B): the fragment is what follows the
    first hash sign, the query what follows the first question mark before it, the
    scheme what precedes "://", the authority what comes then up to the first slash. *)
Record parts := mkParts {
  p_scheme : bytes; p_authority : bytes; p_path : bytes;
  p_query : option bytes; p_fragment : option bytes }.

Definition url_parts (text : bytes) : option parts :=
  let '(t1, frag) := match cut x23 text with Some (a, f) => (a, Some f) | None => (text, None) end in
  let '(t2, query) := match cut x3f t1 with Some (a, q) => (a, Some q) | None => (t1, None) end in
  match cut x3a t2 with
  | Some (scheme, x2f :: x2f :: rest) =>
    let '(auth, path) := match cut x2f rest with Some (a, p) => (a, x2f :: p) | None => (rest, []) end in
    Some (mkParts scheme auth path query frag)
  | _ => None
  end.

(** The host and the port of an authority: the port follows the last colon.  *)
Definition host_port (auth : bytes) : option (bytes * bytes) :=
  match cut x3a (rev auth) with
  | Some (p, h) => Some (rev h, rev p)
  | None => None
  end.

(** A host name: letters, digits, dots and hyphens. *)
Definition host_char (b : byte) : Prop :=
  let n := b2n b in
  97 <= n <= 122 \/ 65 <= n <= 90 \/ 48 <= n <= 57 \/ n = 45 \/ n = 46.
