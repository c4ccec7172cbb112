(** * Hkp: hkp/hkp.go, and the parts of Go's net/url it uses. *)
From Coq Require Import Strings.String Strings.Byte List NArith ZArith Bool.
From Verif Require Import Base Utf8.
Import ListNotations.
Local Open Scope N_scope.

(** net/url shouldEscape for encodeQueryComponent, used through url.Values.Encode,
    hkp.go 90: letters, digits and - _ . ~ stay, everything else is escaped. *)
Definition alnum (n : N) : bool := inr 97 122 n || inr 65 90 n || inr 48 57 n.
Definition in_chars (s : bytes) (b : byte) : bool := existsb (Byte.eqb b) s.
Definition query_plain (b : byte) : bool := alnum (b2n b) || in_chars (str "-_.~") b.

(** net/url escape, one octet: %XX with upper-case digits. *)
Definition percent (b : byte) : bytes :=
  str "%" ++ [HEXdig (b2n b / 16); HEXdig (b2n b mod 16)].

(** net/url QueryEscape: a blank becomes a plus sign. *)
Definition query_escape (s : bytes) : bytes :=
  flat_map (fun b => if Byte.eqb b x20 then str "+"
                     else if query_plain b then [b] else percent b) s.

(** net/url escape for encodeHost, used by URL.String: RFC 3986 sub-delims, the
    colon, brackets, angle brackets and the double quote stay as well. *)
Definition host_plain (b : byte) : bool :=
  query_plain b || in_chars (str "!$&'()*+,;=:[]<>" ++ [x22]) b.
Definition host_escape (s : bytes) : bytes :=
  flat_map (fun b => if host_plain b then [b] else percent b) s.

(** net/url Values.Encode: key=value pairs, sorted by key, joined with an ampersand.
    The argument is the map as a list already sorted by key, one value per key. *)
Definition values_encode (l : list (bytes * bytes)) : bytes :=
  join (str "&") (map (fun p => query_escape (fst p) ++ str "=" ++ query_escape (snd p)) l).

(** url.URL, the fields hkp.go and github.go set. *)
Record url := mkUrl { u_scheme : bytes; u_host : bytes; u_path : bytes; u_query : bytes }.

(** URL.String for an absolute path of plain octets: no user info, no fragment, and
    the paths used here need no escaping. *)
Definition url_string (u : url) : bytes :=
  u_scheme u ++ str "://" ++ host_escape (u_host u) ++ u_path u ++
  (if is_nil (u_query u) then [] else str "?" ++ u_query u).

(** Protocol, hkp.go 15-20, and its String method, hkp.go 22-32. *)
Definition HKP : Z := 1.
Definition HKPS : Z := 2.
Definition protocol_string (p : Z) : bytes :=
  if (p =? HKP)%Z then str "http"
  else if (p =? HKPS)%Z then str "https"
  else str "http".

(** Server, hkp.go 34-39. *)
Record server := mkServer { sv_prt : Z; sv_host : bytes; sv_port : Z }.

(** New, hkp.go 45-51, and its options, hkp.go 53-65. *)
Inductive server_opt := WithProtocol (p : Z) | WithPort (port : Z).
Definition server_set (s : server) (o : server_opt) : server :=
  match o with
  | WithProtocol p => mkServer p (sv_host s) (sv_port s)
  | WithPort port => mkServer (sv_prt s) (sv_host s) port
  end.
Definition server_new (host : bytes) (l : list server_opt) : server :=
  fold_left server_set l (mkServer HKP host 11371).

(** Server.URL, hkp.go 75-81, on a non-nil server. *)
Definition server_url (s : server) : url :=
  mkUrl (protocol_string (sv_prt s)) (sv_host s ++ str ":" ++ decZ (sv_port s)) [] [].

(** Server.String, hkp.go 67-73. *)
Definition server_string (s : server) : bytes := url_string (server_url s).

(** The URL that Server.Fetch requests, hkp.go 84-90. *)
Definition fetch_url (s : server) (userID : bytes) : url :=
  let u := server_url s in
  mkUrl (u_scheme u) (u_host u) (str "/pks/lookup")
        (values_encode [(str "op", str "get"); (str "search", userID)]).
