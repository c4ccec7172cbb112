(** * SpecOutcome: what any octets show, damaged or not, and how the parse ends (C68). *)
From Coq Require Import Strings.String Strings.Byte List NArith Bool.
From Verif Require Import Base Item Context Env Parse SpecBase SpecFrame SpecArmor SpecAccept SpecShown.
Import ListNotations.
Local Open Scope N_scope.

(** [outcome o E whole cs w items v]: in the state [cs], octets [w] from a reader that ends behind them ([whole]) or fails there show [items],
    and the parse ends as [v] says.  What a packet shows is SpecShown.v's [top_reads]; a packet that shows nothing is judged by SpecAccept.v's [top]. *)
Definition judged (E : env) (tag : N) (body : bytes) : verdict := top (lost (e_grow E)) (damaged E) (opened E) tag body.

Inductive outcome (o : opts) (E : env) (whole : bool) : cst -> bytes -> list item -> verdict -> Prop :=
(** Nothing is left. *)
| out_end cs : outcome o E whole cs [] [] (if whole then Accepted else Rejected Source_fails)
(** A complete packet that is described: its item comes first, then what the rest shows. *)
| out_packet tag body w rest it items v cs cs' : framed tag body w -> top_reads o E tag body cs it cs' -> outcome o E whole cs' rest items v ->
    outcome o E whole cs (w ++ rest) (it :: items) v
(** A complete packet that is not accepted: the parse ends here, and nothing of this packet is shown. *)
| out_stopped tag body w rest v cs : framed tag body w -> judged E tag body = v -> v <> Accepted -> outcome o E whole cs (w ++ rest) [] v
(** A packet of the old format without a length takes all octets that are left. *)
| out_last tag body it cs cs' : tag < 16 -> whole = true -> top_reads o E tag body cs it cs' -> outcome o E whole cs (n2b (131 + 4 * tag) :: body) [it] Accepted
| out_last_stopped tag body v cs : tag < 16 -> whole = true -> judged E tag body = v -> v <> Accepted -> outcome o E whole cs (n2b (131 + 4 * tag) :: body) [] v
| out_last_failed tag body cs : tag < 16 -> whole = false -> outcome o E whole cs (n2b (131 + 4 * tag) :: body) [] (Rejected Source_fails)
(** An octet that no packet begins with. *)
| out_no_packet b t cs : b2n b < 128 -> outcome o E whole cs (b :: t) [] (Rejected Malformed)
(** The beginning of a packet whose end is missing. *)
| out_cut tag body q x cs : q <> [] -> x <> [] -> framed tag body (q ++ x) -> outcome o E whole cs q [] (Rejected (if whole then Ends_early else Source_fails)).

(** Where the octets of the packets come from, given what a source delivers before it ends or fails: from the first block of armored text, if there is
    one and the decoder opens it; otherwise, unless armored text is asked for, they are those of the source.
    - A line of 64 KiB or more, or a source that fails, ends the search for armored text without result.
    - Octets behind the first 64 KiB of such a line are then lost, and so is the failure of the source (C43). *)
Inductive line_too_long : bytes -> bytes -> Prop :=
| too_long first run rest : short_lines first -> first = [] \/ (exists f, first = f ++ [x0a]) -> ~ In x0a run -> lenN run = 65536 ->
    line_too_long (first ++ run ++ rest) (first ++ run).

(** Why there is no armored text. *)
Inductive no_armor (E : env) (src : stream) : reason -> Prop :=
| long_line : ~ short_lines (st_data src) -> no_armor E src Long_line
| source_fails : short_lines (st_data src) -> st_ok src = false -> no_armor E src Source_fails
| no_block : short_lines (st_data src) -> st_ok src = true -> (forall block, ~ first_block (lines_of (st_data src)) block) -> no_armor E src No_block
| not_opened block : short_lines (st_data src) -> st_ok src = true -> first_block (lines_of (st_data src)) block -> e_armor E (unlines block) = None -> no_armor E src Not_armor.

Inductive gives (o : opts) (E : env) : stream -> (bytes * bool) + reason -> Prop :=
| gives_block data block pieces whole : short_lines data -> first_block (lines_of data) block -> e_armor E (unlines block) = Some (pieces, whole) ->
    gives o E (mkStream data true) (inl (concat pieces, whole))
| gives_itself src k : oArmor o = false -> no_armor E src k -> short_lines (st_data src) -> gives o E src (inl (st_data src, true))
| gives_beginning src kept : oArmor o = false -> line_too_long (st_data src) kept -> gives o E src (inl (kept, true))
| gives_nothing src k : oArmor o = true -> no_armor E src k -> gives o E src (inr k).

(** The outcome for a source, with what it delivers. *)
Inductive source_outcome (o : opts) (E : env) (src : stream) : list item -> verdict -> Prop :=
| source_gives w whole items v : gives o E src (inl (w, whole)) -> outcome o E whole cst_init w items v -> source_outcome o E src items v
| source_gives_nothing k : gives o E src (inr k) -> source_outcome o E src [] (Rejected k).
