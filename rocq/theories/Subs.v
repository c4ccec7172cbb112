(** * Subs: parse/tags/sub*.go — sub-packet parsers and their dispatch.

    A sub-packet parser fills (or replaces) the current item, which starts as
    subInfo.ToItem() (subs.go 19-21). *)
From Coq Require Import Strings.String Strings.Byte List NArith ZArith Bool.
From Verif Require Import Base Item Reader Context Env Values Opaque Monad.
Import ListNotations.
Local Open Scope N_scope.

(** Parsing one packet body: NewTag(op, cxt).Parse() — the item, and for a
    compressed data packet the data for expansion (Tag08.Reader()). *)
Definition tagrec := N -> bytes -> cst -> res (item * option bytes) * cst.

Definition call_rec (rec : tagrec) (tag : N) (body : bytes) : M (item * option bytes) := fun s =>
  let '(r, cs) := rec tag body (s_cs s) in (r, mkSt (s_rd s) cs (s_cur s)).

(** s.reader.GetBody() *)
Definition getBody : M bytes := fun s => (ROk (r_body (s_rd s)), s).

(** values.NewText(s.reader.GetBody(), s.ToItem().Name).ToItem(debug):
    sub06.go 21-23, sub24.go 21-23, sub26.go 21-23, sub28.go 21-23. *)
Definition sub_text (o : opts) : M unit :=
  let* b := getBody in
  let* n := curName in
  putCur (text_item n b (oDebug o)).

(** A list of algorithm identifiers: sub11.go 21-27, sub21.go 21-27, sub22.go 21-27, sub34.go 21-27. *)
Definition sub_algs (mk : byte -> bool -> item) (o : opts) : M unit :=
  let* b := getBody in
  mapM_ (fun a => add (mk a (oDebug o))) b.

(** "for i, flag := range flags { ... flag%d i+2 ... }", sub23.go 34-36, sub27.go 54-56, sub30.go 36-38. *)
Fixpoint flag_loop (k : N) (l : bytes) : M unit :=
  match l with
  | [] => ret tt
  | b :: t => addo (flag_item (b2n b) (unknown_flag k (b2n b))) ;; flag_loop (k + 1) t
  end.
Definition more_flags : M unit :=
  let* rst := rdRest in
  if (0 <? rst)%Z then (let* l := rd2EOF in flag_loop 2 l) else ret tt.

(** One-octet booleans. *)
Definition sub_bool (no yes : bytes) : M unit :=
  let* b := rdByte in
  setValue (if b2n b =? 0 then no else yes).

(** sub01.Parse, sub01.go 26-72 *)
Definition sub01 : M unit :=
  let* l := rdBytes 2 in
  let length := be l in
  let* ver := rdByte in
  let v := b2n ver in
  (if v =? 1 then add (it_nv (str "Version") (dec v))
   else if in_private v then
     add (Item (str "Version") (dec v) [] (str "private or experimental use") []) ;;
     let* enc := rdByte in
     add (Item (str "Encoding") (if b2n enc =? 1 then str "JPEG" else sUnknown) []
               (str "(enc " ++ dec (b2n enc) ++ str ")") [])
   else add (Item (str "Version") (dec v) [] sUnknown [])) ;;
  let* size := rdLen in
  add (Item (str "Image data") [] [] (n_bytes (size - Z.of_N length)) []).

(** sub02.Parse, sub02.go 22-32 *)
Definition sub02 (o : opts) (E : env) : M unit :=
  let* n := curName in
  let* tm := newDateTime (oUTC o) in
  setSig (Some tm) ;;
  putCur (w_name n (sigtime_item E tm (oDebug o))).

(** sub03.Parse, sub03.go 22-30; NewExpire, expire.go 19-25 *)
Definition sub03 (o : opts) (E : env) : M unit :=
  let* n := curName in
  let* c := getCs in
  let* day := rdBytes 4 in
  setSig None ;;
  putCur (expire_item E n (c_sig c) day (oDebug o)).

(** sub04.Parse, sub04.go 22-35 *)
Definition sub04 : M unit :=
  sub_bool (str "Not exportable") (str "Exportable") ;;
  let* d := dumpRest true in
  setDump d.

(** sub05.Parse, sub05.go 24-43 *)
Definition sub05 : M unit :=
  let* b := rdByte in
  add (it_nv (str "Level") (dec (b2n b))) ;;
  let* b := rdByte in
  add (it_nv (str "Trust amount") (dec (b2n b))).

(** sub07.Parse, sub07.go 22-34 *)
Definition sub07 : M unit := sub_bool (str "Not revocable") (str "Revocablee").

(** sub09.Parse, sub09.go 22-30 *)
Definition sub09 (o : opts) (E : env) : M unit :=
  let* n := curName in
  let* c := getCs in
  let* day := rdBytes 4 in
  setKey None ;;
  putCur (expire_item E n (c_key c) day (oDebug o)).

(** sub12.Parse, sub12.go 24-53 *)
Definition sub12 (o : opts) : M unit :=
  let* class := rdByte in
  let v := if negb (bland class 0x80 =? 0)
           then (if negb (bland class 0x40 =? 0) then str "Sensitive" else str "Normal")
           else str "Unknown" in
  add (Item (str "Class") v (hex2 class) [] []) ;;
  let* pubid := rdByte in
  add (pub_item pubid (oDebug o)) ;;
  let* i := rawData (str "Fingerprint") true in
  add i.

(** sub16.Parse, sub16.go 22-31 *)
Definition sub16 : M unit :=
  let* n := curName in
  let* keyid := rdBytes 8 in
  putCur (w_name n (keyid_item keyid)).

(** sub20.Parse, sub20.go 25-66 *)
Definition sub20 (o : opts) : M unit :=
  let* flags := rdBytes 4 in
  let f0 := nth 0 flags x00 in
  let human := bland f0 0x80 in
  addo (flag_item human (str "Human-readable")) ;;
  addo (flag_item (bland f0 0x7f) (unknown_flag 1 (bland f0 0x7f))) ;;
  addo (flag_item (b2n (nth 1 flags x00)) (unknown_flag 2 (b2n (nth 1 flags x00)))) ;;
  addo (flag_item (b2n (nth 2 flags x00)) (unknown_flag 3 (b2n (nth 2 flags x00)))) ;;
  addo (flag_item (b2n (nth 3 flags x00)) (unknown_flag 4 (b2n (nth 3 flags x00)))) ;;
  let* nl := rdBytes 2 in
  let* vl := rdBytes 2 in
  let* name := rdBytes (Z.of_N (be nl)) in
  add (text_item (str "Name") name (oDebug o)) ;;
  let* value := rdBytes (Z.of_N (be vl)) in
  add (if negb (human =? 0) then text_item (str "Value") value (oDebug o)
       else it_nd (str "Value") (dump_bytes value true)).

(** sub23.Parse, sub23.go 24-39 *)
Definition sub23 : M unit :=
  let* flag := rdByte in
  addo (flag_item (bland flag 0x80) (str "No-modify")) ;;
  addo (flag_item (bland flag 0x7f) (unknown_flag 1 (bland flag 0x7f))) ;;
  more_flags.

(** sub25.Parse, sub25.go 22-34 *)
Definition sub25 : M unit := sub_bool (str "Not primary") (str "Primary").

(** sub27.Parse, sub27.go 24-59 *)
Definition sub27 : M unit :=
  let* flag := rdByte in
  addo (flag_item (bland flag 0x01) (str "This key may be used to certify other keys.")) ;;
  addo (flag_item (bland flag 0x02) (str "This key may be used to sign data.")) ;;
  addo (flag_item (bland flag 0x04) (str "This key may be used to encrypt communications.")) ;;
  addo (flag_item (bland flag 0x08) (str "This key may be used to encrypt storage.")) ;;
  addo (flag_item (bland flag 0x10) (str "The private component of this key may have been split by a secret-sharing mechanism.")) ;;
  addo (flag_item (bland flag 0x20) (str "This key may be used for authentication.")) ;;
  addo (flag_item (bland flag 0x40) (unknown_flag 1 (bland flag 0x40))) ;;
  addo (flag_item (bland flag 0x80) (str "The private component of this key may be in the possession of more than one person.")) ;;
  let* rst := rdRest in
  (if (0 <? rst)%Z then
     let* flag := rdByte in
     addo (flag_item (bland flag 0x04) (str "This key may be used as an additional decryption subkey (ADSK).")) ;;
     addo (flag_item (bland flag 0x08) (str "This key may be used for timestamping.")) ;;
     addo (flag_item (bland flag 0xf3) (unknown_flag 2 (bland flag 0xf3)))
   else ret tt) ;;
  more_flags.

(** sub29.Parse, sub29.go 32-51 *)
Definition sub29 (o : opts) : M unit :=
  let* code := rdByte in
  let name := if in_private (b2n code) then str "(Private Use)"
              else msgs_get reason_names (b2n code) (str "Unknown reason") in
  setValue (name ++ str " (" ++ dec (b2n code) ++ str ")") ;;
  let* rst := rdRest in
  if (0 <? rst)%Z then
    let* b := rd2EOF in
    add (text_item (str "Additional resultrmation") b (oDebug o))
  else ret tt.

(** sub30.Parse, sub30.go 24-41 *)
Definition sub30 : M unit :=
  let* flag := rdByte in
  addo (flag_item (bland flag 0x01) (str "Modification Detection (packets 18 and 19)")) ;;
  addo (flag_item (bland flag 0x02) (str "AEAD Encrypted Data Packet (packet 20) and version 5 Symmetric-Key Encrypted Session Key Packets (packet 3)")) ;;
  addo (flag_item (bland flag 0x04) (str "Version 5 Public-Key Packet format and corresponding new fingerprint format")) ;;
  addo (flag_item (bland flag 0xf8) (unknown_flag 1 (bland flag 0xf8))) ;;
  more_flags.

(** sub31.Parse, sub31.go 22-36 *)
Definition sub31 (o : opts) : M unit :=
  let* pubid := rdByte in
  add (pub_item pubid (oDebug o)) ;;
  let* hashid := rdByte in
  add (hash_item hashid (oDebug o)) ;;
  let* i := rawData (str "Hash") true in
  add i.

(** sub32.Parse, sub32.go 22-30: an embedded signature packet. *)
Definition sub32 (rec : tagrec) : M unit :=
  let* b := getBody in
  let* p := call_rec rec 2 b in
  add (fst p).

(** sub33.Parse, sub33.go 24-45, and sub35.Parse, sub35.go 24-45 *)
Definition sub_fpr : M unit :=
  let* ver := rdByte in
  let v := b2n ver in
  add (Item (str "Version") (dec v) []
            (if v =? 4 then str "need 20 octets length"
             else if v =? 5 then str "need 32 octets length" else sUnknown) []) ;;
  let* i := rawData (str "Fingerprint") true in
  add i.

(** sub37.Parse, sub37.go 21-25 *)
Definition sub37 (o : opts) : M unit :=
  let* i := rawData (str "certification digests") (oCert o) in
  add i.

(** sp.Next() on the sub-packet's own reader, packets.go 28-38: [None] is an error
    for which errs.Is(err, io.EOF) holds. *)
Definition next_rd (E : env) : M (option (N * bytes)) := fun s =>
  let r := s_rd s in
  match next_packet rdr_read (e_grow E) (S (S (length (r_buf r)))) r with
  | (Some (inl p), r') => (ROk (Some p), mkSt r' (s_cs s) (s_cur s))
  | (Some (inr e), r') =>
    (match rerr_err e with EEof => ROk None | x => RErr x end, mkSt r' (s_cs s) (s_cur s))
  | (None, r') => (RFuel, mkSt r' (s_cs s) (s_cur s))
  end.

(** sub38.parseKeyData, sub38.go 49-68 *)
Fixpoint key_loop (rec : tagrec) (E : env) (fuel : nat) : M unit :=
  match fuel with
  | O => of_res RFuel
  | S fuel' =>
    let* n := next_rd E in
    match n with
    | None => ret tt
    | Some (tag, body) =>
      let* p := call_rec rec tag body in
      add (fst p) ;;
      key_loop rec E fuel'
    end
  end.

(** sub38.Parse, sub38.go 25-47 *)
Definition sub38 (rec : tagrec) (o : opts) (E : env) : M unit :=
  let* v := rdByte in
  add (it_nv (str "Type") (dec (b2n v))) ;;
  let* i := rawData (str "Key data") (oDebug o) in
  if b2n v =? 0 then
    let* size := rdLen in
    let* i' := sub_it i (key_loop rec E (S (Z.to_nat size))) in
    add i'
  else add i.

(** NewSubs(cxt, osp, tagID).Parse(), subs.go 42-96; [ty] is the sub-packet type
    octet, of which the low 7 bits select the parser.  [None] of the Go map (SubFuncMap.Get, subs.go 35-40) is
    subReserved, subReserved.go 21-24; sub10.Parse, sub10.go 21-24, adds nothing either.  The constructors newSub01 ... newSub38 and
    newSubReserved (sub01.go 21-23 and the like) only wrap the body in a fresh reader, as [sub_one] does. *)
Definition sub_m (rec : tagrec) (o : opts) (E : env) (tagid : N) (ty : byte) : M unit :=
  let st := bland ty 0x7f in
  if tagid =? 2 then
    match st with
    | 2 => sub02 o E | 3 => sub03 o E | 4 => sub04 | 5 => sub05 | 6 => sub_text o
    | 7 => sub07 | 9 => sub09 o E | 10 => ret tt | 11 => sub_algs sym_item o | 12 => sub12 o
    | 16 => sub16 | 20 => sub20 o | 21 => sub_algs hash_item o | 22 => sub_algs comp_item o
    | 23 => sub23 | 24 => sub_text o | 25 => sub25 | 26 => sub_text o | 27 => sub27
    | 28 => sub_text o | 29 => sub29 o | 30 => sub30 | 31 => sub31 o | 32 => sub32 rec
    | 33 => sub_fpr | 34 => sub_algs aead_item o | 35 => sub_fpr | 37 => sub37 o
    | 38 => sub38 rec o E | _ => ret tt
    end
  else
    match st with
    | 1 => sub01
    | _ => ret tt
    end.

(** One turn of the loop of subParser.Parse, subParser.go 36-43. *)
Definition sub_one (rec : tagrec) (o : opts) (E : env) (tagid : N) (sp : subpkt) : M unit :=
  let* p := run_in (r_new (snd sp)) (sub_item (fst sp) (snd sp) (oDebug o))
                   (sub_m rec o E tagid (fst sp)) in
  add (snd p).

(** newSubparser and subParser.Parse, subParser.go 23-45 *)
Definition sub_area (rec : tagrec) (o : opts) (E : env) (tagid : N) (name body : bytes) : M item :=
  let '(sps, ok) := subpackets body in
  if ok then
    sub_it (Item name [] (dump_bytes body (oDebug o)) (n_bytes (lenZ body)) [])
           (mapM_ (sub_one rec o E tagid) sps)
  else fail EStruct.
