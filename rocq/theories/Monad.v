(** * Monad: parsing code as a state-and-error monad.

    The state holds the reader, the mutable part of the context and the item that
    the Go function is filling (rootInfo / parent / item).  It survives errors, because Go
    mutates these objects in place before it returns an error. *)
From Coq Require Import Strings.String Strings.Byte List NArith ZArith Bool.
From Verif Require Import Base Item Reader Context Env Values.
Import ListNotations.

Record st := mkSt { s_rd : reader; s_cs : cst; s_cur : item }.

Definition M (A : Type) := st -> res A * st.

Definition ret {A} (a : A) : M A := fun s => (ROk a, s).
Definition bind {A B} (m : M A) (f : A -> M B) : M B := fun s =>
  match m s with
  | (ROk a, s') => f a s'
  | (RErr e, s') => (RErr e, s')
  | (RPanic, s') => (RPanic, s')
  | (RFuel, s') => (RFuel, s')
  end.
Definition fail {A} (e : err) : M A := fun s => (RErr e, s).
Definition panic {A} : M A := fun s => (RPanic, s).
Definition of_res {A} (r : res A) : M A := fun s => (r, s).

Declare Scope mon_scope.
Delimit Scope mon_scope with mon.
Notation "'let*' x ':=' m 'in' k" := (bind m (fun x => k))
  (at level 200, x pattern, m at level 100, k at level 200, right associativity) : mon_scope.
Notation "m ';;' k" := (bind m (fun _ => k))
  (at level 199, right associativity) : mon_scope.
Open Scope mon_scope.

(** Reader operations on the current reader. *)
Definition on_rd {A} (f : reader -> res A * reader) : M A := fun s =>
  let '(r, rd) := f (s_rd s) in (r, mkSt rd (s_cs s) (s_cur s)).
Definition rdByte : M byte := on_rd r_readbyte.
Definition rdBytes (n : Z) : M bytes := on_rd (r_readbytes n).
Definition rd2EOF : M bytes := on_rd r_read2eof.
Definition rdSeek (off whence : Z) : M Z := on_rd (r_seek off whence).
Definition rdRest : M Z := fun s => (ROk (r_rest (s_rd s)), s).
Definition rdLen : M Z := fun s => (ROk (r_size (s_rd s)), s).

(** Item operations on the current item. *)
Definition upd (f : item -> item) : M unit := fun s => (ROk tt, mkSt (s_rd s) (s_cs s) (f (s_cur s))).
Definition add (c : item) : M unit := upd (add_child c).
Definition addo (c : option item) : M unit := upd (add_opt c).
Definition setNote (x : bytes) : M unit := upd (w_note x).
Definition setValue (x : bytes) : M unit := upd (w_value x).
Definition setDump (x : bytes) : M unit := upd (w_dump x).
(** The function returns another item than the one it started with. *)
Definition putCur (i : item) : M unit := upd (fun _ => i).
Definition curName : M bytes := fun s => (ROk (i_name (s_cur s)), s).

(** Context operations. *)
Definition getCs : M cst := fun s => (ROk (s_cs s), s).
Definition setMode (x : mode) : M unit := fun s =>
  (ROk tt, mkSt (s_rd s) (mkCst x (c_sig (s_cs s)) (c_key (s_cs s))) (s_cur s)).
Definition setSig (x : option datetime) : M unit := fun s =>
  (ROk tt, mkSt (s_rd s) (mkCst (c_mode (s_cs s)) x (c_key (s_cs s))) (s_cur s)).
Definition setKey (x : option datetime) : M unit := fun s =>
  (ROk tt, mkSt (s_rd s) (mkCst (c_mode (s_cs s)) (c_sig (s_cs s)) x) (s_cur s)).

(** Go: it := NewItem(...); parent.Add(it); fill it — the child belongs to the
    parent even when filling it fails. *)
Definition child {A} (it : item) (m : M A) : M A := fun s =>
  let '(r, s') := m (mkSt (s_rd s) (s_cs s) it) in
  (r, mkSt (s_rd s') (s_cs s') (add_child (s_cur s') (s_cur s))).

(** Go: it := NewItem(...); fill it — returned to the caller, which may add it. *)
Definition sub_it {A} (it : item) (m : M A) : M item := fun s =>
  let '(r, s') := m (mkSt (s_rd s) (s_cs s) it) in
  (match r with ROk _ => ROk (s_cur s') | RErr e => RErr e | RPanic => RPanic | RFuel => RFuel end,
   mkSt (s_rd s') (s_cs s') (s_cur s)).

(** Fill a fresh item from a fresh reader and return it; the caller's reader and
    item are untouched, the context is shared. *)
Definition run_in {A} (r : reader) (it : item) (m : M A) : M (A * item) := fun s =>
  let '(x, s') := m (mkSt r (s_cs s) it) in
  (match x with ROk a => ROk (a, s_cur s') | RErr e => RErr e | RPanic => RPanic | RFuel => RFuel end,
   mkSt (s_rd s) (s_cs s') (s_cur s)).

(** Go: the error of the call is dropped, what it did so far is kept. *)
Definition catchM {A} (m : M A) : M (option A) := fun s =>
  match m s with
  | (ROk a, s') => (ROk (Some a), s')
  | (RErr _, s') => (ROk None, s')
  | (RPanic, s') => (RPanic, s')
  | (RFuel, s') => (RFuel, s')
  end.

(** Run with another reader; its final state is returned, the own reader is unchanged. *)
Definition with_rd {A} (r : reader) (m : M A) : M (A * reader) := fun s =>
  let '(x, s') := m (mkSt r (s_cs s) (s_cur s)) in
  (match x with ROk a => ROk (a, s_rd s') | RErr e => RErr e | RPanic => RPanic | RFuel => RFuel end,
   mkSt (s_rd s) (s_cs s') (s_cur s')).

(** Dump(r, f).String(), dump.go 15-25: from offset Size() - Rest(). *)
Definition dumpRest (f : bool) : M bytes := fun s =>
  if f then (r_dumpstring (wrap64 (r_size (s_rd s) - r_rest (s_rd s)))%Z (s_rd s), s)
  else (ROk [], s).

(** RawData, literal.go 100-107. *)
Definition rawData (name : bytes) (f : bool) : M item :=
  let* rst := rdRest in
  let* d := dumpRest f in
  ret (Item name [] d (n_bytes rst) []).

(** "if reader.Rest() > 0 { rootInfo.Add(RawData(reader, name, f)) }" *)
Definition addRest (name : bytes) (f : bool) : M unit :=
  let* rst := rdRest in
  if (0 <? rst)%Z then (let* i := rawData name f in add i) else ret tt.

Fixpoint mapM_ {A} (f : A -> M unit) (l : list A) : M unit :=
  match l with
  | [] => ret tt
  | x :: t => f x ;; mapM_ f t
  end.

(** values.NewMPI, mpi.go 19-31. *)
Definition newMPI : M mpi :=
  let* l := rdBytes 2 in
  let bits := be l in
  let* d := rdBytes ((Z.of_N bits + 7) / 8) in
  ret (mkMPI bits d).

(** values.NewOID, ecc.go 28-41. *)
Definition newOID : M bytes :=
  let* l := rdByte in
  if (b2n l =? 0)%N then ret [] else rdBytes (Z.of_N (b2n l)).

(** values.NewECParm, ecc.go 66-79: an error reading the length is not an error.
    A panic cannot occur in ReadByte there; the model keeps it as a panic. *)
Definition newECParm : M bytes := fun s =>
  match rdByte s with
  | (RErr _, s') => (ROk [], s')
  | (ROk l, s') => if (b2n l =? 0)%N then (ROk [], s') else rdBytes (Z.of_N (b2n l)) s'
  | (RPanic, s') => (RPanic, s')
  | (RFuel, s') => (RFuel, s')
  end.

(** values.NewDateTime, datetime.go 19-25. *)
Definition newDateTime (utc : bool) : M datetime :=
  let* tm := rdBytes 4 in ret (mkDT tm utc).

(** values.NewLiteralFname, literal.go 49-62: the body of the file name. *)
Definition newLiteralFname (l : Z) : M bytes :=
  if (l <? 1)%Z then ret [] else rdBytes l.
