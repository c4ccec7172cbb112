(** * Parse: parse/tags/packets.go, parse/parse.go, parse/parser.go, armtext/armtext.go. *)
From Coq Require Import Strings.String Strings.Byte List NArith ZArith Bool.
From Verif Require Import Base Item Reader Context Env Values Opaque Monad Subs Tags.
Import ListNotations.
Local Open Scope N_scope.

(** Bytes that a reader still has. *)
Definition chunks_len (c : chunks) : nat := length (concat (k_pieces c)).

(** Packets.Next, packets.go 28-38: [None] is an error for which errs.Is(err, io.EOF) holds. *)
Definition next_chunks (E : env) (c : chunks) : res (option (N * bytes)) * chunks :=
  match next_packet chunk_read (e_grow E) (S (S (chunks_len c))) c with
  | (Some (inl p), c') => (ROk (Some p), c')
  | (Some (inr e), c') => (match rerr_err e with EEof => ROk None | x => RErr x end, c')
  | (None, c') => (RFuel, c')
  end.

(** The inner loop of Packets.Parse for a compressed packet, packets.go 63-75. *)
Fixpoint expand_loop (o : opts) (E : env) (fuel : nat) (c : chunks) (it : item) (cs : cst)
  : res item * cst :=
  match fuel with
  | O => (RFuel, cs)
  | S fuel' =>
    match next_chunks E c with
    | (ROk None, _) => (ROk it, cs)
    | (ROk (Some (tag, body)), c') =>
      match parse_tag o E tag body cs with
      | (ROk (i, _), cs') => expand_loop o E fuel' c' (add_child i it) cs'
      | (RErr e, cs') => (RErr e, cs')
      | (RPanic, cs') => (RPanic, cs')
      | (RFuel, cs') => (RFuel, cs')
      end
    | (RErr e, _) => (RErr e, cs)
    | (RPanic, _) => (RPanic, cs)
    | (RFuel, _) => (RFuel, cs)
    end
  end.

(** Packets.Parse, packets.go 40-80, for the packet that Next has just read. *)
Definition packets_parse (o : opts) (E : env) (tag : N) (body : bytes) (cs : cst) : res item * cst :=
  match parse_tag o E tag body cs with
  | (ROk (it, data), cs') =>
    match data with
    | Some d => expand_loop o E (S (length d)) (chunks_of d true) it cs'
    | None => (ROk it, cs')
    end
  | (RErr e, cs') => (RErr e, cs')
  | (RPanic, cs') => (RPanic, cs')
  | (RFuel, cs') => (RFuel, cs')
  end.

(** Parser.Parse, parse.go 11-28: the packets recorded so far (p.info) and the outcome. *)
Fixpoint parse_loop (o : opts) (E : env) (fuel : nat) (c : chunks) (cs : cst) (acc : info)
  : info * res unit :=
  match fuel with
  | O => (acc, RFuel)
  | S fuel' =>
    match next_chunks E c with
    | (ROk None, _) => (acc, ROk tt)
    | (ROk (Some (tag, body)), c') =>
      match packets_parse o E tag body cs with
      | (ROk i, cs') => parse_loop o E fuel' c' cs' (acc ++ [i])
      | (RErr e, _) => (acc, RErr e)
      | (RPanic, _) => (acc, RPanic)
      | (RFuel, _) => (acc, RFuel)
      end
    | (RErr e, _) => (acc, RErr e)
    | (RPanic, _) => (acc, RPanic)
    | (RFuel, _) => (acc, RFuel)
    end
  end.

(** Parse on a reader that delivers these pieces. *)
Definition parse_chunks (o : opts) (E : env) (c : chunks) : info * res unit :=
  parse_loop o E (S (chunks_len c)) c cst_init [].

(** bufio.ScanLines' dropCR *)
Definition drop_cr (rl : bytes) : bytes :=   (* on the reversed line *)
  match rl with
  | x0d :: t => rev t
  | _ => rev rl
  end.

(** bufio.Scanner with ScanLines over [l]: the tokens, and [Some n] if scanning stopped with
    ErrTooLong after reading n bytes.  The buffer holds at most 64 KiB: the error
    comes when 65536 bytes from the start of a line contain no newline. *)
Definition max_token : N := 65536.
Fixpoint scan_lines (l : bytes) (cur : bytes) (n pos : N) : list bytes * option N :=
  match l with
  | [] => (if is_nil cur then [] else [drop_cr cur], None)
  | b :: t =>
    if Byte.eqb b x0a then
      let '(ls, e) := scan_lines t [] 0 (pos + 1) in (drop_cr cur :: ls, e)
    else if n + 1 =? max_token then ([], Some (pos + 1))
    else scan_lines t (b :: cur) (n + 1) (pos + 1)
  end.

(** armtext.go 14-18 *)
Definition armorBoundery := str "-----BEGIN PGP".
Definition armorBounderyExcept := str "-----BEGIN PGP SIGNED".
Definition armorBounderyTerminate := str "-----END PGP".

(** The loop of armtext.Get, armtext.go 25-38: (armorFlag, armorEndFlag, buf). *)
Fixpoint arm_loop (lines : list bytes) (flag endf : bool) (buf : bytes) : bool * bool * bytes :=
  match lines with
  | [] => (flag, endf, buf)
  | s :: t =>
    let flag := flag || (has_prefix armorBoundery s && negb (has_prefix armorBounderyExcept s)) in
    if flag && negb endf
    then arm_loop t flag (has_prefix armorBounderyTerminate s) (buf ++ s ++ [x0a])
    else arm_loop t flag endf buf
  end.

(** armtext.Get, armtext.go 20-46, on a reader delivering [st_data] and then io.EOF or an error. *)
Definition armtext_get (src : stream) : res bytes :=
  match scan_lines (st_data src) [] 0 0 with
  | (_, Some _) => RErr ETooLong
  | (lines, None) =>
    if negb (st_ok src) then RErr EIO else
    let '(flag, endf, buf) := arm_loop lines false false [] in
    if negb flag || negb endf then RErr EArmorText else ROk buf
  end.

(** What armtext.Get reads from its source (all, unless ErrTooLong). *)
Definition scanned (data : bytes) : bytes :=
  match scan_lines data [] 0 0 with
  | (_, Some n) => firstn (N.to_nat n) data
  | (_, None) => data
  end.

(** newReaderArmor, parser.go 59-69.  Read never returns 0 bytes without an error, so empty pieces are dropped. *)
Definition new_reader_armor (E : env) (src : stream) : res chunks :=
  match armtext_get src with
  | ROk txt =>
    match e_armor E txt with
    | Some (pieces, ok) => ROk (mkChunks (filter (fun p => negb (is_nil p)) pieces) ok)
    | None => RErr EArmorDecode
    end
  | RErr e => RErr e
  | RPanic => RPanic
  | RFuel => RFuel
  end.

(** parse.New, parser.go 24-44, newParser, parser.go 51-57, and NewPackets, packets.go 21-26 (reader non-nil): the reader the packets come from.
    Without ARMOR, the bytes that armtext.Get has read are kept by TeeReader. *)
Definition parse_new (o : opts) (E : env) (src : stream) : res chunks :=
  if oArmor o then new_reader_armor E src
  else match new_reader_armor E src with
       | ROk c => ROk c
       | RErr _ => ROk (chunks_of (scanned (st_data src)) true)
       | RPanic => RPanic
       | RFuel => RFuel
       end.

(** parse.New(cxt, r) followed by Parse(); a New error gives no packets. *)
Definition parse_stream (o : opts) (E : env) (src : stream) : info * res unit :=
  match parse_new o E src with
  | ROk c => parse_chunks o E c
  | RErr e => ([], RErr e)
  | RPanic => ([], RPanic)
  | RFuel => ([], RFuel)
  end.

(** parse.NewBytes, parser.go 47-49, followed by Parse(). *)
Definition parse_bytes (o : opts) (E : env) (data : bytes) : info * res unit :=
  parse_stream o E (mkStream data true).
