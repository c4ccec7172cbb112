(** * SpecPrinted: what the command writes for a list of items (C68). *)
From Coq Require Import Strings.String Strings.Byte List NArith ZArith Bool.
From Verif Require Import Base Item Facade Cli SpecBase SpecText SpecJson SpecFacade SpecCli SpecShown SpecCommand.
Import ListNotations.
Local Open Scope Z_scope.

(** The lines of text; with --json a JSON text of the document for the items.  JSON that is to be indented can be written for items of at most 4999 levels. *)
Inductive printed (l : list (string * value)) (items : list item) : option bytes -> Prop :=
| printed_lines : on l "json" = false -> printed l items (Some (lines_shown (indent_asked l) items))
| printed_json v b : on l "json" = true -> number l "indent" 0 <= 0 \/ (all_levels items <= 4999)%N -> document items v -> json_text v b -> printed l items (Some b)
| printed_too_deep : on l "json" = true -> 0 < number l "indent" 0 -> (4999 < all_levels items)%N -> printed l items None.

(** Standard output takes the text, and the command ends with status 0; or it takes only a beginning, and the command ends with status 1. *)
Inductive written (w : world) (text : bytes) : option (option Z * bytes) -> Prop :=
| written_all_of_it : takes w text -> written w text (Some (Some 0, text))
| written_part k : w_room w = Some k -> (k < List.length text)%nat -> written w text (Some (Some 1, firstn k text)).
