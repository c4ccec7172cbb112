(** * Opaque: golang.org/x/crypto/openpgp/packet framing, at the level of io.Reader.

    /repo depends on x/crypto v0.0.0-20210220033148-5ea612d1eb83 (go.mod); its source is
    not in /repo.  The functions below follow openpgp/packet/packet.go (readFull,
    readLength, readHeader, spanReader, partialLengthReader) and
    openpgp/packet/opaque.go (OpaqueReader.Next, OpaqueSubpackets, nextSubpacket), and
    io.ReadFull / io.ReadAll of the Go standard library (Go >= 1.16, as io.NopCloser
    in Tag08.go 27 requires). *)
From Coq Require Import Strings.Byte List NArith ZArith Bool.
From Verif Require Import Base Reader Env.
Import ListNotations.
Local Open Scope N_scope.

(** Errors returned by a Read call.  The library compares with [err == io.EOF], which is
    true only of the bare value; the program's own reader returns a wrapped one, for
    which only errs.Is(err, io.EOF) holds. *)
Inductive rerr := RBareEof | RWrapEof | RUnexp | RIo | RStruct.

Definition rerr_err (e : rerr) : err :=
  match e with
  | RBareEof | RWrapEof => EEof
  | RUnexp => EUnexp
  | RIo => EIO
  | RStruct => EStruct
  end.

(** An io.Reader over states S: Read(p) with len(p) = n delivers at most n bytes and an optional error. *)
Definition ioread (S : Type) := N -> S -> (bytes * option rerr) * S.

(** Outcome of the reading functions; [None] is "fuel exhausted" (the reader
    kept returning 0 bytes without an error; not possible for the instances used). *)
Definition rout (A : Type) := option (A + rerr)%type.

Section Generic.
  Context {S : Type} (read : ioread S).

  (** io.ReadFull(r, buf) with len(buf) = n: loop until n bytes or an error. *)
  Fixpoint read_full (fuel : nat) (n : N) (acc : bytes) (s : S) : rout bytes * S :=
    if n <=? lenN acc then (Some (inl acc), s) else
    match fuel with
    | O => (None, s)
    | Datatypes.S fuel' =>
      let '((b, e), s') := read (n - lenN acc) s in
      let acc' := acc ++ b in
      match e with
      | None => read_full fuel' n acc' s'
      | Some x =>
        if n <=? lenN acc' then (Some (inl acc'), s')
        else match x, acc' with
             | RBareEof, _ :: _ => (Some (inr RUnexp), s')
             | _, _ => (Some (inr x), s')
             end
      end
    end.

  (** packet.readFull: io.EOF becomes io.ErrUnexpectedEOF. *)
  Definition readFull (n : N) (s : S) : rout bytes * S :=
    match read_full (N.to_nat n) n [] s with
    | (Some (inr RBareEof), s') => (Some (inr RUnexp), s')
    | r => r
    end.

  (** packet.readLength: (length, isPartial). *)
  Definition readLength (s : S) : rout (N * bool) * S :=
    match readFull 1 s with
    | (Some (inl [b]), s1) =>
      let n := b2n b in
      if n <? 192 then (Some (inl (n, false)), s1)
      else if n <? 224 then
        match readFull 1 s1 with
        | (Some (inl [c]), s2) => (Some (inl ((n - 192) * 256 + (b2n c + 192), false)), s2)
        | (Some (inr e), s2) => (Some (inr e), s2)
        | (_, s2) => (None, s2)
        end
      else if n <? 255 then (Some (inl (2 ^ (N.land n 31), true)), s1)
      else
        match readFull 4 s1 with
        | (Some (inl l), s2) => (Some (inl (be l, false)), s2)
        | (Some (inr e), s2) => (Some (inr e), s2)
        | (None, s2) => (None, s2)
        end
    | (Some (inr e), s1) => (Some (inr e), s1)
    | (_, s1) => (None, s1)
    end.

  (** The contents reader returned by readHeader: the raw reader (old-format
      indeterminate length), a spanReader with its remaining count, or a
      partialLengthReader with (remaining, isPartial). *)
  Inductive cont := CRaw | CSpan (n : N) | CPart (remaining : N) (isPartial : bool).

  (** packet.readHeader: tag and contents. *)
  Definition readHeader (s : S) : rout (N * cont) * S :=
    match read_full 1 1 [] s with
    | (Some (inl [b]), s1) =>
      let n := b2n b in
      if N.land n 0x80 =? 0 then (Some (inr RStruct), s1)
      else if N.land n 0x40 =? 0 then
        let tag := N.shiftr (N.land n 0x3f) 2 in
        let lt := N.land n 3 in
        if lt =? 3 then (Some (inl (tag, CRaw)), s1)
        else match readFull (2 ^ lt) s1 with
             | (Some (inl l), s2) => (Some (inl (tag, CSpan (be l))), s2)
             | (Some (inr e), s2) => (Some (inr e), s2)
             | (None, s2) => (None, s2)
             end
      else
        let tag := N.land n 0x3f in
        match readLength s1 with
        | (Some (inl (len, true)), s2) => (Some (inl (tag, CPart len true)), s2)
        | (Some (inl (len, false)), s2) => (Some (inl (tag, CSpan len)), s2)
        | (Some (inr e), s2) => (Some (inr e), s2)
        | (None, s2) => (None, s2)
        end
    | (Some (inr e), s1) => (Some (inr e), s1)
    | (_, s1) => (None, s1)
    end.

  (** Read on the contents reader.  spanReader.Read and partialLengthReader.Read.
      In the latter the loop "for r.remaining == 0" runs at most twice: a partial
      length is never 0, so after one readLength either remaining > 0, or the length
      is a final 0 and the next test returns io.EOF. *)
  Definition cread (n : N) (cs : cont * S) : (bytes * rout (option rerr)) * (cont * S) :=
    let '(c, s) := cs in
    match c with
    | CRaw =>
      let '((b, e), s') := read n s in ((b, Some (inl e)), (CRaw, s'))
    | CSpan k =>
      if k =? 0 then (([], Some (inl (Some RBareEof))), (CSpan k, s)) else
      let '((b, e), s') := read (N.min n k) s in
      let k' := k - lenN b in
      let e' := match e with
                | Some RBareEof => if 0 <? k' then Some RUnexp else e
                | _ => e
                end in
      ((b, Some (inl e')), (CSpan k', s'))
    | CPart rem part =>
      let go rem part s :=
        let want := N.min n rem in
        let '((b, e), s') := read want s in
        let e' := match e with
                  | Some RBareEof => if lenN b <? want then Some RUnexp else e
                  | _ => e
                  end in
        ((b, Some (inl e')), (CPart (rem - lenN b) part, s')) in
      if rem =? 0 then
        if part then
          match readLength s with
          | (Some (inl (len, part')), s1) =>
            if len =? 0 then (([], Some (inl (Some RBareEof))), (CPart 0 part', s1))
            else go len part' s1
          | (Some (inr e), s1) => (([], Some (inl (Some e))), (CPart rem part, s1))
          | (None, s1) => (([], None), (CPart rem part, s1))
          end
        else (([], Some (inl (Some RBareEof))), (CPart rem part, s))
      else go rem part s
    end.

  (** io.ReadAll on the contents reader: starts with capacity 512; a full slice
      grows (by at least one; the new capacity is [grow cap]); [err == io.EOF] ends normally. *)
  Fixpoint read_all (grow : N -> N) (fuel : nat) (cap : N) (acc : bytes) (cs : cont * S)
    : rout bytes * (cont * S) :=
    match fuel with
    | O => (None, cs)
    | Datatypes.S fuel' =>
      let cap' := if lenN acc <? cap then cap else N.max (cap + 1) (grow cap) in
      match cread (cap' - lenN acc) cs with
      | ((b, Some (inl None)), cs') => read_all grow fuel' cap' (acc ++ b) cs'
      | ((b, Some (inl (Some RBareEof))), cs') => (Some (inl (acc ++ b)), cs')
      | ((b, Some (inl (Some e))), cs') => (Some (inr e), cs')
      | ((b, _), cs') => (None, cs')
      end
    end.

  (** OpaqueReader.Next: header, then ReadAll of the contents.  (After a body
      error the library also drains the contents; the callers stop there, so the
      model does not.) *)
  Definition next_packet (grow : N -> N) (fuel : nat) (s : S) : rout (N * bytes) * S :=
    match readHeader s with
    | (Some (inl (tag, c)), s1) =>
      match read_all grow fuel 512 [] (c, s1) with
      | (Some (inl body), (_, s2)) => (Some (inl (tag, body)), s2)
      | (Some (inr e), (_, s2)) => (Some (inr e), s2)
      | (None, (_, s2)) => (None, s2)
      end
    | (Some (inr e), s1) => (Some (inr e), s1)
    | (None, s1) => (None, s1)
    end.
End Generic.

(** Instance 1: a reader that delivers its data in arbitrary non-empty pieces
    and then io.EOF or another error (bytes.Reader, bytes.Buffer: one piece; the
    armor body: one piece per line). *)
Record chunks := mkChunks { k_pieces : list bytes; k_ok : bool }.

Definition chunk_end (c : chunks) : option rerr := Some (if k_ok c then RBareEof else RIo).

Definition chunk_read (n : N) (c : chunks) : (bytes * option rerr) * chunks :=
  match k_pieces c with
  | [] => (([], if n =? 0 then None else chunk_end c), c)
  | p :: t =>
    let got := firstn (N.to_nat n) p in
    let rest := skipn (N.to_nat n) p in
    ((got, None), mkChunks (match rest with [] => t | _ => rest :: t end) (k_ok c))
  end.

Definition chunks_of (l : bytes) (ok : bool) : chunks :=
  mkChunks (match l with [] => [] | _ => [l] end) ok.

(** Instance 2: the program's own reader.Reader (reader.go 24-32): all or nothing, wrapped io.EOF.
    A panic in Read cannot happen on a reader reachable here (0 <= offset), the model maps it to RIo;
    len(p) is a Go int, so a request of 2^63 octets or more cannot be made, and is mapped to RIo too. *)
Definition rdr_read (n : N) (r : reader) : (bytes * option rerr) * reader :=
  if 2 ^ 63 <=? n then (([], Some RIo), r) else
  match r_read (Z.of_N n) r with
  | (ROk b, r') => ((b, None), r')
  | (RErr EEof, r') => (([], Some RWrapEof), r')
  | (RErr EUnexp, r') => (([], Some RUnexp), r')
  | (_, r') => (([], Some RIo), r')
  end.

(** packet.OpaqueSubpacket: SubType and Contents. *)
Definition subpkt := (byte * bytes)%type.

(** nextSubpacket.  [None] is StructuralError("subpacket truncated"); otherwise
    the sub-packet and the rest of the area.  uint32(len(contents)) wraps at 4 GiB. *)
Definition next_subpacket (l : bytes) : option (subpkt * bytes) :=
  let fin (sublen : N) (l : bytes) :=
    if (wrap32 (lenN l) <? sublen) || (sublen =? 0) then None else
    match l with
    | [] => None
    | ty :: t => Some ((ty, firstn (N.to_nat (sublen - 1)) t), skipn (N.to_nat (sublen - 1)) t)
    end in
  match l with
  | [] => None
  | b0 :: t0 =>
    let n0 := b2n b0 in
    if n0 <? 192 then
      match t0 with [] => None | _ => fin n0 t0 end
    else if n0 <? 255 then
      match t0 with
      | b1 :: ((_ :: _) as t1) => fin ((n0 - 192) * 256 + b2n b1 + 192) t1
      | _ => None
      end
    else
      match t0 with
      | a :: b :: c :: d :: ((_ :: _) as t4) => fin (be [a; b; c; d]) t4
      | _ => None
      end
  end.

(** OpaqueSubpackets: sub-packets up to the first error (true = no error).  The
    recursion is on the length of the area: each sub-packet takes at least two octets. *)
Fixpoint opaque_subpackets (fuel : nat) (l : bytes) : list subpkt * bool :=
  match l with
  | [] => ([], true)
  | _ =>
    match fuel with
    | O => ([], false)
    | S fuel' =>
      match next_subpacket l with
      | None => ([], false)
      | Some (sp, rest) =>
        let '(r, ok) := opaque_subpackets fuel' rest in (sp :: r, ok)
      end
    end
  end.

Definition subpackets (l : bytes) : list subpkt * bool := opaque_subpackets (length l) l.
