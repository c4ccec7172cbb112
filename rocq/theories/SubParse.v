(** * SubParse: parsing one sub-packet. *)
From Coq Require Import Strings.String Strings.Byte List NArith ZArith Bool.
From Verif Require Import Base Item Reader Context Env Values Monad Subs Tags.
Import ListNotations.
Local Open Scope N_scope.

(** NewSubs(cxt, osp, tagID).Parse(), subs.go 42-96, as called in subParser.go 38: the parser for the sub-packet
    type [ty] on a fresh reader over [body], with subInfo.ToItem() (subs.go 19-21) to start from.  [tagid] is the
    tag of the packet that holds the sub-packet (2 or 17). *)
Definition parse_sub (o : opts) (E : env) (tagid : N) (ty : byte) (body : bytes) (cs : cst) : res item * cst :=
  let '(r, s) := sub_m (parse_tag o E) o E tagid ty (mkSt (r_new body) cs (sub_item ty body (oDebug o))) in
  (match r with
   | ROk _ => ROk (s_cur s)
   | RErr e => RErr e
   | RPanic => RPanic
   | RFuel => RFuel
   end, s_cs s).
