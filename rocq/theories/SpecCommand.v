(** * SpecCommand: the command from its arguments to its output (C67). *)
From Coq Require Import Strings.String Strings.Byte List NArith ZArith Bool.
From Verif Require Import Base Item Context Env Parse Facade Cli SpecBase SpecText SpecFrame SpecArmor SpecRadix64 SpecFacade SpecCli.
Import ListNotations.
Local Open Scope Z_scope.

(** The arguments [args] ask for the command [c] with the options [l]. *)
Inductive asks : list bytes -> list (string * value) -> command -> Prop :=
| asks_root l args : written_all (options MRoot) l args -> asks args l (command_asked MRoot l [])
| asks_sub c n l pre m x post : command_name c n -> written_all common l pre -> line (options c) m x post ->
    asks (pre ++ str n :: post) (l ++ m) (command_asked c (l ++ m) x).

(** The options in force for the parser; the clipboard and keys from a server are armored anyway. *)
Definition options_asked (l : list (string * value)) (c : command) : opts := fun code =>
  if code =? ARMOR then on l "armor" || armored_source c
  else if code =? CERT then on l "cert"
  else if code =? DEBUG then on l "debug"
  else if code =? INTEGER then on l "int"
  else if code =? LITERAL then on l "literal"
  else if code =? MARKER then on l "marker"
  else if code =? PRIVATE then on l "private"
  else if code =? UTC then on l "utc"
  else false.

(** Octets that hold packets: the packets themselves (and no armored text that could be decoded), or a text whose first armored block holds them. *)
Inductive holds (o : opts) (E : env) (l : list (N * bytes)) : bytes -> Prop :=
| holds_binary w : input_of l w -> oArmor o = false -> short_lines w ->
    (forall block, first_block (lines_of w) block -> e_armor E (unlines block) = None) -> holds o E l w
| holds_armored text block data : short_lines text -> first_block (lines_of text) block -> armored data block -> input_of l data ->
    holds o E l text.

(** What octets stand for: themselves, or what a decoder of armored text makes of the first block.  (Only text without damage is meant: [true].) *)
Inductive stands_for (o : opts) (E : env) : bytes -> bytes -> Prop :=
| stands_itself w : oArmor o = false -> (forall block, first_block (lines_of w) block -> e_armor E (unlines block) = None) -> stands_for o E w w
| stands_armored text block pieces : first_block (lines_of text) block -> e_armor E (unlines block) = Some (pieces, true) ->
    stands_for o E text (concat pieces).

(** What one level of the text output is indented by. *)
Definition indent_asked (l : list (string * value)) : bytes :=
  if 0 <? number l "indent" 0 then repeat x20 (Z.to_nat (number l "indent" 0)) else [x09].
