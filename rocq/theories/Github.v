(** * Github: github/github.go. *)
From Coq Require Import Strings.String Strings.Byte List NArith ZArith Bool.
From Verif Require Import Base Utf8 Hkp Url.
Import ListNotations.
Local Open Scope N_scope.

(** OpenPGPKey, github/structs.go: the two fields GetKey uses.  A missing or null raw_key
    leaves the pointer nil. *)
Record gh_key := mkKey { k_id : bytes; k_raw : option bytes }.

(** What requesting one page and decoding it as []*OpenPGPKey gives, github.go 63-83:
    an error (of the request or of the JSON decoder), or the entries, where a JSON null
    is a nil pointer. *)
Inductive gh_page := GErr | GKeys (l : list (option gh_key)).

(** What is outside the modelled code: the answer to a request for a page and for a
    profile (by URL), and Go's Unicode tables beyond ASCII: unicode.ToLower, and whether
    two different runes beyond ASCII fold together (unicode.SimpleFold). *)
Record gh_env := mkGh {
  g_page : bytes -> gh_page;
  g_profile : bytes -> option bytes;
  g_lower : N -> N;
  g_fold : N -> N -> bool
}.

(** The runes of a string, as utf8.DecodeRuneInString delivers them. *)
Definition runes (s : bytes) : list N :=
  map (fun o => match o with Some r => r | None => 0xFFFD end) (scan s).

(** One step of strings.EqualFold.  Among the ASCII characters only k and s fold with
    runes beyond ASCII (KELVIN SIGN, LONG S). *)
Definition rune_fold (G : gh_env) (x y : N) : bool :=
  if x =? y then true else
  let sr := N.min x y in
  let tr := N.max x y in
  if tr <? 0x80 then inr 65 90 sr && (tr =? sr + 32)
  else if sr <? 0x80 then
    (((sr =? 75) || (sr =? 107)) && (tr =? 0x212A)) || (((sr =? 83) || (sr =? 115)) && (tr =? 0x17F))
  else g_fold G sr tr.

(** strings.EqualFold *)
Fixpoint equal_fold_runes (G : gh_env) (a b : list N) : bool :=
  match a, b with
  | [], [] => true
  | x :: a', y :: b' => rune_fold G x y && equal_fold_runes G a' b'
  | _, _ => false
  end.
Definition equal_fold (G : gh_env) (s t : bytes) : bool := equal_fold_runes G (runes s) (runes t).

(** strings.ToLower *)
Definition gh_lower (G : gh_env) (s : bytes) : bytes :=
  flat_map (fun o => match o with
                     | Some r => enc_rune (if r <? 0x80 then (if inr 65 90 r then r + 32 else r) else g_lower G r)
                     | None => enc_rune 0xFFFD
                     end) (scan s).

(** strings.TrimPrefix *)
Definition trim_prefix (p s : bytes) : bytes :=
  if has_prefix p s then skipn (length p) s else s.

(** maxKeys, github.go 16. *)
Definition maxKeys : N := 100.

(** makeURL, github.go 33-36.  The error of fetch.URL is dropped there and the client is called without a URL; no request is
    made then, and this model takes it for an error of the client. *)
Definition profile_url (user : bytes) : option bytes :=
  option_map (purl_string (str "github.com")) (url_parse (str "/" ++ user ++ str ".gpg")).

(** makeURLAPI, github.go 85-98, for a page number from 1 on. *)
Definition page_url (user : bytes) (page : N) : option bytes :=
  match url_parse (str "/users/" ++ user ++ str "/gpg_keys") with
  | None => None
  | Some u =>
    let q := values_set (str "per_page") (dec maxKeys) (values_set (str "page") (dec page) (parse_query (pu_query u))) in
    Some (purl_string (str "api.github.com") (mkPurl (pu_path u) (pu_force u) (values_encode (sort_pairs q)) (pu_fragment u)))
  end.

(** The test in GetKey's inner loop, github.go 49. *)
Definition id_matches (G : gh_env) (keyID : bytes) (id : bytes) : bool :=
  equal_fold G id (trim_prefix (str "0x") (gh_lower G keyID)).

(** GetKey's inner loop, github.go 48-55: [None] if no entry matches. *)
Fixpoint find_key (G : gh_env) (keyID : bytes) (l : list (option gh_key)) : option (res bytes) :=
  match l with
  | [] => None
  | None :: _ => Some RPanic                        (* k.KeyID with k nil *)
  | Some k :: t =>
    if id_matches G keyID (k_id k) then
      Some (match k_raw k with Some r => ROk r | None => RErr ENoKey end)
    else find_key G keyID t
  end.

(** GetKey's outer loop, github.go 43-60, with the URLs it requests.  The Go loop has no
    bound; [RFuel] says that it is still running after [fuel] pages. *)
Fixpoint pages_loop (G : gh_env) (user keyID : bytes) (fuel : nat) (i : N) : res bytes * list bytes :=
  match fuel with
  | O => (RFuel, [])
  | S f =>
    match page_url user i with
    | None => (RErr EHTTP, [])                      (* ecode.ErrInvalidRequest *)
    | Some u =>
    match g_page G u with
    | GErr => (RErr EHTTP, [u])                     (* ecode.ErrInvalidRequest *)
    | GKeys l =>
      match find_key G keyID l with
      | Some r => (r, [u])
      | None =>
        if lenN l <? maxKeys then (RErr ENoKey, [u])
        else let '(r, us) := pages_loop G user keyID f (i + 1) in (r, u :: us)
      end
    end
    end
  end.

(** GetKey, github.go 38-61, and Get, 20-31. *)
Definition get_key (G : gh_env) (user keyID : bytes) (fuel : nat) : res bytes * list bytes :=
  if is_nil keyID then
    match profile_url user with
    | Some u => (match g_profile G u with Some b => ROk b | None => RErr EHTTP end, [u])
    | None => (RErr EHTTP, [])
    end
  else pages_loop G user keyID fuel 1.
