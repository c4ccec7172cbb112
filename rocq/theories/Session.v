(** * Session: the parse package and its contexts as objects that a program creates and calls in any order.

    Objects are named by numbers instead of pointers; creating an object under a name already used does nothing.  One call is
    executed at a time.  Nil contexts and nil parsers are not modelled. *)
From Coq Require Import Strings.Byte List NArith ZArith Bool Arith.
From Verif Require Import Base Item Context Env Opaque Tags Parse.
Import ListNotations.

(** Parser.Parse, parse.go 11-28, from any state of the parser: what it returns, the reader and the context it leaves.  (After
    an error in a body the library drains the contents; on these readers nothing is left to drain then, see SessionL.) *)
Fixpoint parse_run (o : opts) (E : env) (fuel : nat) (c : chunks) (cs : cst) (acc : info) : (info * res unit) * (chunks * cst) :=
  match fuel with
  | O => ((acc, RFuel), (c, cs))
  | S fuel' =>
    match next_chunks E c with
    | (ROk None, c') => ((acc, ROk tt), (c', cs))
    | (ROk (Some (tag, body)), c') =>
      match packets_parse o E tag body cs with
      | (ROk i, cs') => parse_run o E fuel' c' cs' (acc ++ [i])
      | (RErr e, cs') => ((acc, RErr e), (c', cs'))
      | (RPanic, cs') => ((acc, RPanic), (c', cs'))
      | (RFuel, cs') => ((acc, RFuel), (c', cs'))
      end
    | (RErr e, c') => ((acc, RErr e), (c', cs))
    | (RPanic, c') => ((acc, RPanic), (c', cs))
    | (RFuel, c') => ((acc, RFuel), (c', cs))
    end
  end.

(** context.Context, context.go 11-16: the options and the part that parsing changes. *)
Record context_obj := mkCtx { x_opts : opts; x_cst : cst }.
(** parse.Parser, parser.go 18-21, with the fields of tags.Packets, packets.go 15-19: the context it was made with, the reader,
    and the packets recorded so far. *)
Record parser_obj := mkParser { p_ctx : nat; p_src : chunks; p_info : info }.
Record heap := mkHeap { h_ctx : nat -> option context_obj; h_par : nat -> option parser_obj }.
Definition heap0 : heap := mkHeap (fun _ => None) (fun _ => None).

Definition put {A} (k : nat) (v : A) (m : nat -> option A) : nat -> option A := fun n => if n =? k then Some v else m n.

(** The calls: context.New with Set options (context.go 22-33), Context.Set (41-48), parse.New (parser.go 24-44), Parser.Parse. *)
Inductive call :=
| NewContext (x : nat) (l : list (Z * bool))
| SetOption (x : nat) (code : Z) (f : bool)
| NewParser (p x : nat) (src : stream)
| CallParse (p : nat).

(** What a call returns: nothing, an error of parse.New, or the packets and the outcome of Parse.  [Misuse] is a call on a name
    that is not there, or a creation under a name that is. *)
Inductive answer := Done | Failed (e : err) | Parsed (l : info) (r : res unit) | Misuse.

Definition do_call (E : env) (c : call) (h : heap) : answer * heap :=
  match c with
  | NewContext x l =>
    match h_ctx h x with
    | Some _ => (Misuse, h)
    | None => (Done, mkHeap (put x (mkCtx (o_new l) cst_init) (h_ctx h)) (h_par h))
    end
  | SetOption x code f =>
    match h_ctx h x with
    | Some c => (Done, mkHeap (put x (mkCtx (o_set code f (x_opts c)) (x_cst c)) (h_ctx h)) (h_par h))
    | None => (Misuse, h)
    end
  | NewParser p x src =>
    match h_par h p, h_ctx h x with
    | None, Some c =>
      match parse_new (x_opts c) E src with
      | ROk k => (Done, mkHeap (h_ctx h) (put p (mkParser x k []) (h_par h)))
      | RErr e => (Failed e, h)
      | RPanic | RFuel => (Misuse, h)
      end
    | _, _ => (Misuse, h)
    end
  | CallParse p =>
    match h_par h p with
    | None => (Misuse, h)
    | Some q =>
      match h_ctx h (p_ctx q) with
      | None => (Misuse, h)
      | Some c =>
        let '((l, r), (k, cs)) := parse_run (x_opts c) E (S (chunks_len (p_src q))) (p_src q) (x_cst c) (p_info q) in
        (Parsed l r, mkHeap (put (p_ctx q) (mkCtx (x_opts c) cs) (h_ctx h)) (put p (mkParser (p_ctx q) k l) (h_par h)))
      end
    end
  end.

(** The objects after a series of calls. *)
Fixpoint do_calls (E : env) (l : list call) (h : heap) : heap :=
  match l with [] => h | c :: t => do_calls E t (snd (do_call E c h)) end.

(** What the call [c] answers after the calls [l]. *)
Definition answers (E : env) (l : list call) (c : call) : answer := fst (do_call E c (do_calls E l heap0)).
