(** * SpecComp: what a compressed data packet shows (C35). *)
From Coq Require Import Strings.String Strings.Byte List NArith ZArith Bool.
From Verif Require Import Base Item Context Env Subs Tags SpecBase SpecPacket.
Import ListNotations.
Local Open Scope N_scope.

(** The packets of a list, parsed one after the other as single packets (contents of compressed ones are not opened):
    the items, or the first failure. *)
Fixpoint flat_list (o : opts) (E : env) (l : list (N * bytes)) (cs : cst) : res (list item) * cst :=
  match l with
  | [] => (ROk [], cs)
  | (tag, body) :: t =>
    match parse_tag o E tag body cs with
    | (ROk (i, _), cs1) =>
      match flat_list o E t cs1 with
      | (ROk r, cs2) => (ROk (i :: r), cs2)
      | (RErr e, cs2) => (RErr e, cs2)
      | (RPanic, cs2) => (RPanic, cs2)
      | (RFuel, cs2) => (RFuel, cs2)
      end
    | (RErr e, cs1) => (RErr e, cs1)
    | (RPanic, cs1) => (RPanic, cs1)
    | (RFuel, cs1) => (RFuel, cs1)
    end
  end.

(** The item of a compressed packet: algorithm, compressed data (if any), then the packets found inside. *)
Definition compressed_shown (o : opts) (a : byte) (z : bytes) (label : bytes) (inner : list item) : item :=
  packet_shown o 8 (a :: z)
    (comp_shown (oDebug o) a
     :: match z with [] => [] | _ => [Item (str "Compressed data") label (dump_if (oDebug o) z) (bytes_note (lenN z)) []] end
     ++ inner).

Definition map_res {A B} (f : A -> B) (r : res A) : res B :=
  match r with ROk a => ROk (f a) | RErr e => RErr e | RPanic => RPanic | RFuel => RFuel end.
