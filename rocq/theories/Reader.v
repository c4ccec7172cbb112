(** * Reader: parse/reader/reader.go, the byte cursor. *)
From Coq Require Import Strings.String Strings.Byte List NArith ZArith Bool.
From Verif Require Import Base.
Import ListNotations.
Local Open Scope Z_scope.

(** reader.Reader, reader.go 13-16.  [r_off] is an int64. *)
Record reader := mkReader { r_buf : bytes; r_off : Z }.

(** New, reader.go 19-21. *)
Definition r_new (data : bytes) : reader := mkReader data 0.

(** Size/Len, reader.go 92-99. *)
Definition r_size (r : reader) : Z := lenZ (r_buf r).

(** Rest, reader.go 102-104 (int64 subtraction). *)
Definition r_rest (r : reader) : Z := wrap64 (r_size r - r_off r).

(** buffer[i:j] for 0 <= i <= j <= len. *)
Definition slice (l : bytes) (i j : Z) : bytes :=
  firstn (Z.to_nat (j - i)) (skipn (Z.to_nat i) l).

(** ReadBytes, reader.go 107-121.  The int64 sum r.offset+size wraps; the slice
    expression panics unless 0 <= r.offset <= r.offset+size (<= len, already checked). *)
Definition r_readbytes (size : Z) (r : reader) : res bytes * reader :=
  if size =? 0 then (ROk [], r) else
  let rl := r_size r in
  if r_off r >=? rl then (RErr EEof, r) else
  let j := wrap64 (r_off r + size) in
  if j >? rl then (RErr EUnexp, r) else
  if (r_off r <? 0) || (j <? r_off r) then (RPanic, r) else
  (ROk (slice (r_buf r) (r_off r) j), mkReader (r_buf r) j).

(** ReadByte, reader.go 44-50. *)
Definition r_readbyte (r : reader) : res byte * reader :=
  match r_readbytes 1 r with
  | (ROk (b :: _), r') => (ROk b, r')
  | (ROk [], r') => (ROk x00, r')
  | (RErr e, r') => (RErr e, r')
  | (RPanic, r') => (RPanic, r')
  | (RFuel, r') => (RFuel, r')
  end.

(** Read, reader.go 24-32: fills p completely or fails with n = 0. *)
Definition r_read (plen : Z) (r : reader) : res bytes * reader := r_readbytes plen r.

(** Seek, reader.go 62-89; whence 0/1/2 are io.SeekStart/SeekCurrent/SeekEnd. On
    error the returned position is the unchanged offset. *)
Definition r_seek (off : Z) (whence : Z) (r : reader) : res Z * reader :=
  let rl := r_size r in
  let go origin :=
    let origin := wrap64 (origin + off) in
    if (origin <? 0) || (origin >? rl) then (RErr EOffset, r)
    else (ROk origin, mkReader (r_buf r) origin) in
  if whence =? 0 then go 0
  else if whence =? 1 then go (r_off r)
  else if whence =? 2 then go rl
  else (RErr EWhence, r).

(** ReadAt, reader.go 35-41: seeks, then reads. *)
Definition r_readat (plen off : Z) (r : reader) : res bytes * reader :=
  match r_seek off 0 r with
  | (ROk _, r') => r_read plen r'
  | (RErr e, r') => (RErr e, r')
  | (RPanic, r') => (RPanic, r')
  | (RFuel, r') => (RFuel, r')
  end.

(** WriteTo, reader.go 53-59, to a writer that accepts everything ([wok]) or fails. The whole
    buffer is written, whatever the offset. *)
Definition r_writeto (wok : bool) (r : reader) : res bytes * reader :=
  if wok then (ROk (r_buf r), mkReader (r_buf r) (r_size r)) else (RErr EIO, r).

(** Read2EOF, reader.go 124-132: note the offset is advanced by the whole size. *)
Definition r_read2eof (r : reader) : res bytes * reader :=
  let rl := r_size r in
  if r_off r >=? rl then (RErr EEof, r) else
  if r_off r <? 0 then (RPanic, r) else
  (ROk (skipn (Z.to_nat (r_off r)) (r_buf r)), mkReader (r_buf r) (wrap64 (r_off r + rl))).

(** GetBody, reader.go 135-137. *)
Definition r_body (r : reader) : bytes := r_buf r.

(** The loop of DumpString, reader.go 145-152. *)
Fixpoint hexdump_from (sep : bytes) (l : bytes) : bytes :=
  match l with
  | [] => []
  | b :: t => sep ++ hex2 b ++ hexdump_from (str " ") t
  end.
Definition hexdump (l : bytes) : bytes := hexdump_from [] l.

(** DumpString, reader.go 140-153. *)
Definition r_dumpstring (off : Z) (r : reader) : res bytes :=
  if off >=? r_size r then ROk [] else
  if off <? 0 then RPanic else
  ROk (hexdump (skipn (Z.to_nat off) (r_buf r))).
