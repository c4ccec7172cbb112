(** * SpecFacade: what a user expects of the command. *)
From Coq Require Import Strings.String Strings.Byte List NArith ZArith Bool.
From Verif Require Import Base Item Context Env Parse Json Hkp Github Facade SpecNest.
Import ListNotations.
Local Open Scope Z_scope.

(** Where the octets to be dumped come from, if they can be had. *)
Inductive input (w : world) : command -> stream -> Prop :=
| in_stdin : input w (CRoot false false []) (w_stdin w)
| in_file : forall file src, file <> [] -> w_open w file = Some src -> input w (CRoot false false file) src
| in_clipboard : forall text, w_clip w = Some text -> input w (CRoot false true []) (mkStream text true)
| in_key_server : forall user ks port secure raw src, ks <> [] ->
    w_get w (url_string (fetch_url (mkServer (if secure : bool then HKPS else HKP) ks port) user)) = Some src ->
    input w (CHkp [user] ks port secure raw) src
| in_github : forall user keyid raw key,
    fst (get_key (w_gh w) user keyid (w_gh_pages w)) = ROk key ->
    input w (CGithub [user] keyid raw) (mkStream key true)
| in_web : forall u raw src, w_get w u = Some src -> input w (CFetch [u] raw) src.

(** Sources that are read as armored text whatever the options. *)
Definition armored_source (c : command) : bool :=
  match c with
  | CRoot _ clipboard _ => clipboard
  | CHkp _ _ _ _ _ | CGithub _ _ _ => true
  | _ => false
  end.

(** The options in force: those of the flags; armor for armored sources. *)
Definition in_force (fl : flags) (c : command) (o : opts) : Prop :=
  forall code, o code =
    if code =? ARMOR then f_on fl ARMOR || armored_source c
    else existsb (Z.eqb code) [CERT; DEBUG; INTEGER; LITERAL; MARKER; PRIVATE; UTC] && f_on fl code.

(** The text asked for: JSON with --json, otherwise indented text; --indent gives the
    number of blanks per level, and without it levels are indented by tabs. *)
Definition rendering (fl : flags) (items : info) (text : bytes) : Prop :=
  (f_json fl = true /\ info_JSON (f_indent fl) items = ROk text) \/
  (f_json fl = false /\ f_indent fl > 0 /\ text = info_text (repeat x20 (Z.to_nat (f_indent fl))) items) \/
  (f_json fl = false /\ f_indent fl <= 0 /\ text = info_text [x09] items).

(** Standard output takes the whole text. *)
Definition takes (w : world) (text : bytes) : Prop :=
  forall k, w_room w = Some k -> (List.length text <= k)%nat.

(** Commands that ask for the raw response, and commands that dump. *)
Definition raw_command (c : command) : bool :=
  match c with
  | CHkp _ _ _ _ raw | CGithub _ _ raw | CFetch _ raw => raw
  | _ => false
  end.
Definition dump_command (c : command) : bool :=
  match c with
  | CRoot version _ _ => negb version
  | CHkp _ _ _ _ raw | CGithub _ _ raw | CFetch _ raw => negb raw
  | _ => false
  end.

(** Everything went well: the input could be had, all of it is packets, the result can be
    rendered and written; [text] is what is written. *)
Definition all_well (fl : flags) (w : world) (c : command) (text : bytes) : Prop :=
  exists src o items,
    input w c src /\ in_force fl c o /\
    parse_stream o (w_env w) src = (items, ROk tt) /\
    rendering fl items text /\ takes w text.
