(** * Tags: parse/tags/tag*.go, pubkey.go, seckey.go — packet parsers and dispatch.

    A packet parser fills the current item, which starts as tagInfo.ToItem()
    (tags.go 19-21). *)
From Coq Require Import Strings.String Strings.Byte List NArith ZArith Bool.
From Verif Require Import Base Item Reader Context Env Values Opaque Monad Pubkey S2k Subs.
Import ListNotations.
Local Open Scope N_scope.

Definition sUnknownData := str "Unknown data".

(** tag01.Parse, tag01.go 24-54 *)
Definition tag01 (o : opts) : M unit :=
  setMode ModePubEnc ;;
  let* ver := rdByte in
  add (v_item (PubSessKeyVer ver) (oDebug o)) ;;
  let* keyid := rdBytes 8 in
  add (keyid_item keyid) ;;
  let* pubid := rdByte in
  add (pub_item pubid (oDebug o)) ;;
  parseSes o pubid ;;
  addRest sUnknownData (oDebug o).

(** tag02.hashLeft2, tag02.go 208-213 *)
Definition hashleft_item (hv : bytes) : item := it_nd (str "Hash left 2 bytes") (dump_bytes hv true).

(** tag02.parseV3, tag02.go 62-125 *)
Definition sigV3 (o : opts) (E : env) : M unit :=
  let* sz := rdByte in
  child (Item (str "Hashed material") [] [] (n_bytes (Z.of_N (b2n sz))) [])
    (if negb (b2n sz =? 5) then
       setValue sUnknown ;;
       let* b := rdBytes (Z.of_N (b2n sz)) in
       setDump (dump_bytes b (oDebug o))
     else
       let* sig := rdByte in
       add (sig_item sig (oDebug o)) ;;
       let* tm := newDateTime (oUTC o) in
       add (sigtime_item E tm (oDebug o))) ;;
  let* keyid := rdBytes 8 in
  add (keyid_item keyid) ;;
  let* pubid := rdByte in
  add (pub_item pubid (oDebug o)) ;;
  let* hashid := rdByte in
  add (hash_item hashid (oDebug o)) ;;
  let* hv := rdBytes 2 in
  add (hashleft_item hv) ;;
  parseSig o pubid.

(** One sub-packet area of tag02.parseV4, tag02.go 147-168 and 169-190 *)
Definition sig_area (rec : tagrec) (o : opts) (E : env) (name : bytes) : M unit :=
  let* s := rdBytes 2 in
  let size := be s in
  if 0 <? size then
    let* sp := rdBytes (Z.of_N size) in
    let* itm := sub_area rec o E 2 name sp in
    add itm
  else ret tt.

(** tag02.parseV4, tag02.go 127-202, and parseV5, tag02.go 204-206 *)
Definition sigV4 (rec : tagrec) (o : opts) (E : env) : M unit :=
  let* sig := rdByte in
  add (sig_item sig (oDebug o)) ;;
  let* pubid := rdByte in
  add (pub_item pubid (oDebug o)) ;;
  let* hashid := rdByte in
  add (hash_item hashid (oDebug o)) ;;
  sig_area rec o E (str "Hashed Subpacket") ;;
  sig_area rec o E (str "Unhashed Subpacket") ;;
  let* hv := rdBytes 2 in
  add (hashleft_item hv) ;;
  parseSig o pubid.

(** tag02.Parse, tag02.go 26-60.  An error of parseV3 is lost: line 51 wraps the
    nil variable err instead of err2. *)
Definition tag02 (rec : tagrec) (o : opts) (E : env) : M unit :=
  let* v := rdByte in
  let ver := SigVer v in
  add (v_item ver (oDebug o)) ;;
  if v_isdraft ver then sigV4 rec o E ;; addRest sUnknownData (oDebug o)
  else if v_iscur ver then sigV4 rec o E ;; addRest sUnknownData (oDebug o)
  else if v_isold ver && (v_num ver =? 3) then
    let* r := catchM (sigV3 o E) in
    match r with
    | Some _ => addRest sUnknownData (oDebug o)
    | None => ret tt
    end
  else addRest sUnknownData (oDebug o).

(** tag03.Parse, tag03.go 23-77; parseV5 reads nothing. *)
Definition tag03 (o : opts) : M unit :=
  setMode ModeSymEnc ;;
  let* v := rdByte in
  let ver := SymSessKeyVer v in
  add (v_item ver (oDebug o)) ;;
  (if v_iscur ver then
     let* symid := rdByte in
     add (sym_item symid (oDebug o)) ;;
     let* _ := s2k_parse (oDebug o) in ret tt
   else ret tt) ;;
  addRest sUnknownData (oDebug o).

(** tag04.Parse, tag04.go 24-76 *)
Definition tag04 (o : opts) : M unit :=
  let* v := rdByte in
  add (v_item (OneSigVer v) (oDebug o)) ;;
  let* sig := rdByte in
  add (sig_item sig (oDebug o)) ;;
  let* hashid := rdByte in
  add (hash_item hashid (oDebug o)) ;;
  let* pubid := rdByte in
  add (pub_item pubid (oDebug o)) ;;
  let* keyid := rdBytes 8 in
  add (keyid_item keyid) ;;
  let* flag := rdByte in
  add (Item (str "Encrypted session key")
            (if b2n flag =? 0 then str "another one pass signature" else str "other than one pass signature")
            [] (str "flag " ++ hex0x2 flag) []) ;;
  addRest sUnknownData (oDebug o).

(** The creation time field, pubkey.go 50-56 (= 81-87, 102-108) *)
Definition keyTime (o : opts) (E : env) : M unit :=
  let* tm := newDateTime (oUTC o) in
  setKey (Some tm) ;;
  add (pubkeytime_item E tm (oDebug o)).

(** The algorithm field, pubkey.go 67-73 (= 88-94, 109-115) *)
Definition keyAlg (o : opts) : M byte :=
  let* pubid := rdByte in
  add (pub_item pubid (oDebug o)) ;;
  ret pubid.

(** pubkeyInfo.parseV3, pubkey.go 48-76 *)
Definition pubV3 (o : opts) (E : env) : M byte :=
  keyTime o E ;;
  let* days := rdBytes 2 in
  add (Item (str "Valid days") (dec (be days)) [] (str "0 is forever") []) ;;
  let* pubid := keyAlg o in
  parsePub o pubid ;;
  ret pubid.

(** pubkeyInfo.parseV4, pubkey.go 79-97 *)
Definition pubV4 (o : opts) (E : env) : M byte :=
  keyTime o E ;;
  let* pubid := keyAlg o in
  parsePub o pubid ;;
  ret pubid.

(** pubkeyInfo.parseV5, pubkey.go 100-128 *)
Definition pubV5 (o : opts) (E : env) : M byte :=
  keyTime o E ;;
  let* pubid := keyAlg o in
  let* sz := rdBytes 4 in
  let* b := rdBytes (Z.of_N (be sz)) in
  let* _ := with_rd (r_new b) (parsePub o pubid) in
  ret pubid.

(** newPubkey, pubkeyInfo.Parse and PubID, pubkey.go 25-27, 30-45, 131-133: PubID is 0 if it was not read. *)
Definition pub_parse (o : opts) (E : env) (ver : version) : M byte :=
  if v_isdraft ver then pubV5 o E
  else if v_iscur ver then pubV4 o E
  else if v_isold ver && (v_num ver =? 3) then pubV3 o E
  else ret x00.

(** The readers of the secret-key parser.  For version 5 the optional fields and the key
    material have readers of their own; otherwise they are read from p.reader ([None]). *)
Definition opt_run {A} (ro : option reader) (m : M A) : M (A * option reader) :=
  match ro with
  | None => let* a := m in ret (a, None)
  | Some r => let* p := with_rd r m in ret (fst p, Some (snd p))
  end.

(** seckeyInfo.getField1, seckey.go 156-172: outer [None] is a nil reader. *)
Definition getField1 (ver : version) : M (option (option reader)) :=
  if v_num ver =? 5 then
    let* l := rdByte in
    if b2n l =? 0 then ret None else
    let* b := rdBytes (Z.of_N (b2n l)) in
    ret (Some (Some (r_new b)))
  else ret (Some None).

(** binary.BigEndian.Uint32(l) panics on the nil slice that comes with an error, seckey.go 177-178. *)
Definition readLen4 : M bytes := fun s =>
  match rdBytes 4 s with
  | (RErr _, s') => (RPanic, s')
  | r => r
  end.

(** seckeyInfo.getField2, seckey.go 175-192 *)
Definition getField2 (ver : version) : M (option (option reader)) :=
  if v_num ver =? 5 then
    let* l := readLen4 in
    if be l =? 0 then ret None else
    let* b := rdBytes (Z.of_N (be l)) in
    ret (Some (Some (r_new b)))
  else ret (Some None).

(** seckeyInfo.iv, seckey.go 195-212: always read from p.reader. *)
Definition sec_iv (symid : byte) (aead : bool) : M item :=
  let* iv := rdBytes (sym_ivlen symid) in
  ret (it_nd (if aead then str "nonce for the AEAD" else str "IV") (dump_bytes iv true)).

Definition usage_s2k (u : N) : bool := (u =? 253) || (u =? 254) || (u =? 255).

(** The optional fields, seckey.go 39-95 *)
Definition sec_opts (o : opts) (ver : version) (usage : N) (ro : option reader) : M unit :=
  let* p1 := (if negb (usage =? 0)
              then opt_run ro (let* alg := rdByte in add (sym_item alg (oDebug o)) ;; ret alg)
              else ret (x00, ro)) in
  let '(symid, ro) := p1 in
  let* p2 := (if usage =? 253
              then opt_run ro (let* alg := rdByte in add (aead_item alg (oDebug o)))
              else ret (tt, ro)) in
  let '(_, ro) := p2 in
  let* p3 := (if usage =? 0 then ret (false, ro)
              else if usage_s2k usage then opt_run ro (s2k_parse (oDebug o))
              else ret (true, ro)) in
  let '(hasIV, ro) := p3 in
  (if negb (usage =? 0) && hasIV then (let* iv := sec_iv symid (usage =? 253) in add iv) else ret tt) ;;
  if v_num ver =? 5
  then (let* _ := opt_run ro (addRest sUnknownData (oDebug o)) in ret tt)
  else ret tt.

(** The notes of seckey.go 103, 118, 127, 136 *)
Definition usage_note (usage : N) : bytes :=
  if usage =? 0 then str "s2k usage 0; plain secret-key material"
  else if usage =? 253 then str "s2k usage 253; encrypted secret-key material and AEAD authentication tag"
  else if usage =? 254 then str "s2k usage 254; encrypted secret-key material and 20-octet SHA-1 hash"
  else str "s2k usage " ++ dec usage ++ str "; encrypted secret-key material and 2-octet checksum".

(** The key material, seckey.go 101-150 *)
Definition sec_material (o : opts) (ver : version) (pub : byte) (usage : N) (ro : option reader) : M unit :=
  setNote (usage_note usage) ;;
  let* p := (if usage =? 0 then
               let* p := opt_run ro (parseSecPlain o pub) in
               let* chk := rdBytes 2 in
               add (it_nd (str "2-octet checksum") (dump_bytes chk true)) ;;
               ret p
             else opt_run ro (parseSecEnc o pub)) in
  if v_num ver =? 5
  then (let* _ := opt_run (snd p) (addRest sUnknownData (oDebug o)) in ret tt)
  else ret tt.

(** newSeckey and seckeyInfo.Parse, seckey.go 25-153 *)
Definition sec_parse (o : opts) (ver : version) (pub : byte) : M unit :=
  let* u := rdByte in
  let usage := b2n u in
  let* f1 := getField1 ver in
  (match f1 with Some ro => sec_opts o ver usage ro | None => ret tt end) ;;
  let* f2 := getField2 ver in
  match f2 with Some ro => sec_material o ver pub usage ro | None => ret tt end.

(** tag05.Parse, tag05.go 22-49, and tag07.Parse, tag07.go 22-25 *)
Definition tag05 (o : opts) (E : env) : M unit :=
  let* v := rdByte in
  let ver := PubVer v in
  add (v_item ver (oDebug o)) ;;
  let* pub := child (Item (str "Public-Key") [] [] [] []) (pub_parse o E ver) in
  child (Item (str "Secret-Key") [] [] [] []) (sec_parse o ver pub) ;;
  addRest sUnknownData (oDebug o).

(** tag06.Parse, tag06.go 22-40, and tag14.Parse, tag14.go 22-25 *)
Definition tag06 (o : opts) (E : env) : M unit :=
  let* v := rdByte in
  let ver := PubVer v in
  add (v_item ver (oDebug o)) ;;
  let* _ := pub_parse o E ver in
  addRest sUnknownData (oDebug o).

(** maxDecompressionDataSize, Tag08.go 75 *)
Definition max_decompressed : N := 2 ^ 30.

(** copyFrom, Tag08.go 108-117, after extractZip/ZLib/Bzip2, Tag08.go 77-106:
    [inr true] is ErrTooLarge, [inr false] another error. *)
Definition copy_from (d : dres) : bytes + bool :=
  match d with
  | DHeaderErr => inr false
  | DStream out ok =>
    if max_decompressed <=? lenN out then inr true
    else if ok then inl out else inr false
  end.

(** Tag08.Parse, Tag08.go 31-68; the result is Tag08.Reader(), Tag08.go 71-73, as bytes, [None] for nil. *)
Definition tag08 (o : opts) (E : env) : M (option bytes) :=
  let* c := rdByte in
  add (comp_item c (oDebug o)) ;;
  let* rst := rdRest in
  if (0 <? rst)%Z then
    let* item := rawData (str "Compressed data") (oDebug o) in
    let n := b2n c in
    if n =? 0 then
      let* zd := rd2EOF in
      add item ;; ret (Some zd)
    else if n <=? 3 then
      let* zd := rd2EOF in
      match copy_from (e_inflate E n zd) with
      | inl out => add item ;; ret (Some out)
      | inr true => add (w_value (str "<too laege decompressed data>") item) ;; ret None
      | inr false => add item ;; fail EDecomp
      end
    else add item ;; ret (Some [])
  else ret (Some []).

(** tag09.Parse, tag09.go 21-36 *)
Definition tag09 (o : opts) : M unit :=
  let* itm := rawData (str "Encrypted data") (oDebug o) in
  let* c := getCs in
  add (w_value (match c_mode c with
                | ModeSymEnc => str "sym alg is specified in sym-key encrypted session key"
                | ModePubEnc => str "sym alg is specified in pub-key encrypted session key"
                | ModeNotSpecified => str "sym alg is IDEA, simple string-to-key"
                end) itm) ;;
  setMode ModeNotSpecified.

(** RawData of the whole body: tag10.Parse, tag10.go 21-25; tag12.Parse, tag12.go 21-25 *)
Definition tag_raw (name : bytes) (f : bool) : M unit :=
  let* i := rawData name f in add i.

(** tag11.Parse, tag11.go 24-47 *)
Definition tag11 (o : opts) (E : env) : M unit :=
  let* f := rdByte in
  add (litfmt_item f) ;;
  let* flen := rdByte in
  let* fname := newLiteralFname (Z.of_N (b2n flen)) in
  add (text_item (str "File name") fname (oLiteral o)) ;;
  let* ftime := newDateTime (oUTC o) in
  add (filetime_item E ftime (oDebug o)) ;;
  tag_raw (str "Literal data") (oLiteral o).

(** tag13.Parse, tag13.go 21-25 *)
Definition tag13 (o : opts) : M unit :=
  let* b := getBody in
  add (text_item (str "User ID") b (oDebug o)).

(** tag17.Parse, tag17.go 22-34 *)
Definition tag17 (rec : tagrec) (o : opts) (E : env) : M unit :=
  let* b := getBody in
  let* itm := sub_area rec o E 17 (str "Subpacket") b in
  add itm.

(** tag18.Parse, tag18.go 21-35 *)
Definition tag18 (o : opts) : M unit :=
  let* itm := rawData (str "Encrypted data") (oDebug o) in
  let* c := getCs in
  add (match c_mode c with
       | ModeSymEnc => w_note (str "plain text + MDC SHA1(20 bytes); sym alg is specified in sym-key encrypted session key") itm
       | ModePubEnc => w_note (str "plain text + MDC SHA1(20 bytes); sym alg is specified in pub-key encrypted session key") itm
       | ModeNotSpecified => itm
       end) ;;
  setMode ModeNotSpecified.

(** tag19.Parse, tag19.go 21-27 *)
Definition tag19 (o : opts) : M unit :=
  let* itm := rawData (str "MDC") (oDebug o) in
  add (w_note (str "SHA-1 (20 bytes)") itm).

(** uint64(1) << (c + 6), tag20.go 53: c + 6 is a byte, a shift by 64 or more gives 0. *)
Definition chunk_size (c : byte) : N :=
  let sh := (b2n c + 6) mod 256 in
  if sh <? 64 then 2 ^ sh else 0.

(** tag20.Parse, tag20.go 25-82.  An error reading the IV is dropped (line 62). *)
Definition tag20 (o : opts) : M unit :=
  let* v := rdByte in
  add (v_item (AEADVer v) (oDebug o)) ;;
  let* alg := rdByte in
  add (sym_item alg (oDebug o)) ;;
  let* aead := rdByte in
  add (aead_item aead (oDebug o)) ;;
  let* c := rdByte in
  add (Item (str "Chunk size") (dec (chunk_size c)) (dump_byte c true) [] []) ;;
  let* iv := catchM (rdBytes (aead_ivlen aead)) in
  match iv with
  | None => ret tt
  | Some iv =>
    add (it_nd (str "IV") (dump_bytes iv true)) ;;
    addRest (str "Encrypted data and authentication tag") (oDebug o)
  end.

Definition no_data (m : M unit) : M (option bytes) := m ;; ret None.

(** newFunctions and NewTag, tags.go 35-74; the constructors newTag01 ... newTag20, newTagPrivate and newTagUnknown (tag02.go 21-23
    and the like) only wrap the body in a fresh reader, as [tag_body] does; tags without an entry: tagUnknown.Parse,
    tagUnknown.go 21-24, and 60-63: tagPrivate.Parse, tagPrivate.go 26-29, add nothing to ToItem(). *)
Definition tag_m (rec : tagrec) (o : opts) (E : env) (tag : N) : M (option bytes) :=
  match tag with
  | 1 => no_data (tag01 o) | 2 => no_data (tag02 rec o E) | 3 => no_data (tag03 o)
  | 4 => no_data (tag04 o) | 5 => no_data (tag05 o E) | 6 => no_data (tag06 o E)
  | 7 => no_data (tag05 o E) | 8 => tag08 o E | 9 => no_data (tag09 o)
  | 10 => no_data (tag_raw (str "Literal data") (oMarker o)) | 11 => no_data (tag11 o E)
  | 12 => no_data (tag_raw (str "Trust") true) | 13 => no_data (tag13 o)
  | 14 => no_data (tag06 o E) | 17 => no_data (tag17 rec o E) | 18 => no_data (tag18 o)
  | 19 => no_data (tag19 o) | 20 => no_data (tag20 o)
  | _ => no_data (ret tt)
  end.

(** The flag that t.ToItem() passes: tags.go 20; tagPrivate.go 22 for tags 60-63. *)
Definition tag_dumpflag (o : opts) (tag : N) : bool :=
  if (60 <=? tag) && (tag <=? 63) then oPrivate o else oDebug o.

(** NewTag(op, cxt).Parse() with the recursive calls left open. *)
Definition tag_body (rec : tagrec) (o : opts) (E : env) : tagrec := fun tag body cs =>
  let '(r, s) := tag_m rec o E tag (mkSt (r_new body) cs (tag_item tag body (tag_dumpflag o tag))) in
  (match r with
   | ROk d => ROk (s_cur s, d)
   | RErr e => RErr e
   | RPanic => RPanic
   | RFuel => RFuel
   end, s_cs s).

(** Embedded signatures (sub32.go) and key blocks (sub38.go) recurse; a nested
    body is strictly shorter, so the length of the body bounds the depth. *)
Fixpoint parse_tag_fuel (fuel : nat) (o : opts) (E : env) : tagrec :=
  match fuel with
  | O => fun _ _ cs => (RFuel, cs)
  | S n => tag_body (parse_tag_fuel n o E) o E
  end.

(** NewTag(op, cxt).Parse(), tags.go 68-74 *)
Definition parse_tag (o : opts) (E : env) : tagrec := fun tag body cs =>
  parse_tag_fuel (S (length body)) o E tag body cs.
