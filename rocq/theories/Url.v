(** * Url: the parts of Go's net/url that github.go uses, for URLs on a fixed host.

    github.go 34 and 89 call url.Parse (through fetch.URL) on "https://host/" followed by something with the user's words in
    it.  net/url is not in /repo; it is modelled from knowledge of Go 1.16 (go.mod 3). *)
From Coq Require Import Strings.String Strings.Byte List NArith ZArith Bool.
From Verif Require Import Base Utf8 Hkp.
Import ListNotations.
Local Open Scope N_scope.

(** net/url split: at the first occurrence of [c], which is dropped. *)
Fixpoint url_split (c : byte) (t : bytes) : bytes * option bytes :=
  match t with
  | [] => ([], None)
  | b :: t' => if Byte.eqb b c then ([], Some t') else let '(a, r) := url_split c t' in (b :: a, r)
  end.
(** stringContainsCTLByte *)
Definition is_ctl (b : byte) : bool := (b2n b <? 32) || (b2n b =? 127).
(** shouldEscape for encodePath and encodeFragment: what stays. *)
Definition path_plain (b : byte) : bool := query_plain b || in_chars (str "$&+,/:;=@") b.
Definition fragment_plain (b : byte) : bool := query_plain b || in_chars (str "$&+,/:;=?@!()*") b.
(** escape *)
Definition url_escape (plain : byte -> bool) (t : bytes) : bytes := flat_map (fun b => if plain b then [b] else percent b) t.
(** ishex, unhex *)
Definition hex_value (b : byte) : option N :=
  let n := b2n b in
  if inr 48 57 n then Some (n - 48) else if inr 97 102 n then Some (n - 87) else if inr 65 70 n then Some (n - 55) else None.
(** unescape for encodePath and encodeFragment; a plus sign stays. *)
Fixpoint url_unescape (t : bytes) : option bytes :=
  match t with
  | [] => Some []
  | b :: t' =>
    if Byte.eqb b "%"%byte then
      match t' with
      | h :: k :: r => match hex_value h, hex_value k, url_unescape r with Some x, Some y, Some d => Some (n2b (x * 16 + y) :: d) | _, _, _ => None end
      | _ => None
      end
    else option_map (cons b) (url_unescape t')
  end.
(** unescape for encodeQueryComponent: a plus sign is a blank. *)
Fixpoint query_unescape (t : bytes) : option bytes :=
  match t with
  | [] => Some []
  | b :: t' =>
    if Byte.eqb b "%"%byte then
      match t' with
      | h :: k :: r => match hex_value h, hex_value k, query_unescape r with Some x, Some y, Some d => Some (n2b (x * 16 + y) :: d) | _, _, _ => None end
      | _ => None
      end
    else option_map (cons (if Byte.eqb b "+"%byte then " "%byte else b)) (query_unescape t')
  end.
(** validEncoded *)
Definition valid_encoded (plain : byte -> bool) (t : bytes) : bool :=
  forallb (fun b => in_chars (str "!$&'()*+,;=:@[]%") b || plain b) t.

(** setPath and setFragment: the decoded text, and the text as given unless that is the default encoding. *)
Definition set_part (plain : byte -> bool) (t : bytes) : option (bytes * bytes) :=
  match url_unescape t with
  | Some d => Some (d, if beqs t (url_escape plain d) then [] else t)
  | None => None
  end.
(** EscapedPath and EscapedFragment.  ([Path] is never * here.) *)
Definition escaped_part (plain : byte -> bool) (p : bytes * bytes) : bytes :=
  let '(d, raw) := p in
  if negb (is_nil raw) && valid_encoded plain raw && match url_unescape raw with Some d' => beqs d' d | None => false end then raw
  else url_escape plain d.

(** url.URL with scheme https and a host *)
Record purl := mkPurl { pu_path : bytes * bytes; pu_force : bool; pu_query : bytes; pu_fragment : bytes * bytes }.
(** Parse of https://host[t], where [t] begins with a slash and [host] is a plain host name.  ForceQuery: a single question
    mark, at the end. *)
Definition url_parse (t : bytes) : option purl :=
  let '(u, frag) := url_split "#"%byte t in
  if existsb is_ctl u then None
  else
    let '(p, q) := url_split "?"%byte u in
    match set_part path_plain p with
    | None => None
    | Some path =>
      let force := match q with Some [] => true | _ => false end in
      let query := match q with Some q => q | None => [] end in
      match frag with
      | None | Some [] => Some (mkPurl path force query ([], []))
      | Some f => match set_part fragment_plain f with Some fr => Some (mkPurl path force query fr) | None => None end
      end
    end.
(** URL.String *)
Definition purl_string (host : bytes) (u : purl) : bytes :=
  str "https://" ++ host ++ escaped_part path_plain (pu_path u) ++
  (if pu_force u || negb (is_nil (pu_query u)) then str "?" ++ pu_query u else []) ++
  (if is_nil (fst (pu_fragment u)) then [] else str "#" ++ escaped_part fragment_plain (pu_fragment u)).

(** ParseQuery: pairs separated by & or ; (from Go 1.17 on a pair with ; is dropped); what cannot be decoded is left out. *)
Fixpoint query_pieces (t : bytes) : list bytes :=
  match t with
  | [] => [[]]
  | b :: t' =>
    if Byte.eqb b "&"%byte || Byte.eqb b ";"%byte then [] :: query_pieces t'
    else match query_pieces t' with p :: r => (b :: p) :: r | [] => [[b]] end
  end.
Definition query_pair (p : bytes) : list (bytes * bytes) :=
  if is_nil p then []
  else
    let '(k, v) := url_split "="%byte p in
    match query_unescape k, query_unescape (match v with Some v => v | None => [] end) with
    | Some k, Some v => [(k, v)]
    | _, _ => []
    end.
Definition parse_query (t : bytes) : list (bytes * bytes) := flat_map query_pair (query_pieces t).
(** Values.Set *)
Definition values_set (k v : bytes) (l : list (bytes * bytes)) : list (bytes * bytes) :=
  filter (fun p => negb (beqs k (fst p))) l ++ [(k, v)].
(** sort.Strings, and the values of a key in the order in which they were added: a stable sort by key. *)
Fixpoint bytes_leb (a b : bytes) : bool :=
  match a, b with
  | [], _ => true
  | _ :: _, [] => false
  | x :: a', y :: b' => if b2n x <? b2n y then true else if b2n x =? b2n y then bytes_leb a' b' else false
  end.
Fixpoint insert_pair (p : bytes * bytes) (l : list (bytes * bytes)) : list (bytes * bytes) :=
  match l with
  | [] => [p]
  | q :: l' => if bytes_leb (fst p) (fst q) then p :: l else q :: insert_pair p l'
  end.
Definition sort_pairs (l : list (bytes * bytes)) : list (bytes * bytes) := fold_right insert_pair [] l.
