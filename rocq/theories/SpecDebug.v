(** * SpecDebug: reading the packets back from what --debug shows (C59).

    Nothing here refers to how the program works: these are readers of its output. *)
From Coq Require Import Strings.String Strings.Byte List NArith ZArith Bool.
From Verif Require Import Base SpecBase SpecText Item.
Import ListNotations.
Local Open Scope N_scope.

(** A packet from its item: the tag from the end of the name, the body from the dump. *)
Definition read_packet (i : item) : option (N * bytes) :=
  match read_id (str "tag") (i_name i), read_dump (i_dump i) with
  | Some tag, Some body => Some (tag, body)
  | _, _ => None
  end.
Fixpoint read_packets (l : list item) : option (list (N * bytes)) :=
  match l with
  | [] => Some []
  | i :: t => match read_packet i, read_packets t with Some p, Some r => Some (p :: r) | _, _ => None end
  end.

(** The text without this beginning. *)
Definition without (p s : bytes) : option bytes := if has_prefix p s then Some (skipn (length p) s) else None.

(** The line of a packet: "name (tag N) (n bytes)". *)
Definition read_header (line : bytes) : option (N * N) :=
  match without (rev (str " bytes)")) (rev line) with
  | None => None
  | Some r =>
    let '(d, r) := span_digits r in
    match without (rev (str " (")) r, read_dec (rev d) with
    | Some r, Some n => match read_id (str "tag") (rev r) with Some tag => Some (tag, n) | None => None end
    | _, _ => None
    end
  end.

(** Lines that begin with a blank or a tab, and empty ones, are about the inside of packets. *)
Definition inside (line : bytes) : bool :=
  match line with [] => true | b :: _ => Byte.eqb b x20 || Byte.eqb b x09 end.

(** The packets from the lines of the text output: a line of a packet, then its dump unless it has no octets; the lines behind
    are passed over. *)
Fixpoint read_lines (ind : bytes) (lines : list bytes) : option (list (N * bytes)) :=
  match lines with
  | [] => Some []
  | line :: rest =>
    if inside line then read_lines ind rest
    else match read_header line with
         | None => None
         | Some (tag, n) =>
           if n =? 0 then option_map (cons (tag, [])) (read_lines ind rest)
           else match rest with
                | [] => None
                | dump :: rest' =>
                  match without ind dump with
                  | None => None
                  | Some d => match read_dump d with
                              | Some body => if lenN body =? n then option_map (cons (tag, body)) (read_lines ind rest') else None
                              | None => None
                              end
                  end
                end
         end
  end.
Definition read_text (ind text : bytes) : option (list (N * bytes)) := read_lines ind (split_lines text).

(** How the levels of the text output are indented: by a tab, or by blanks. *)
Definition indentation (ind : bytes) : Prop := ind = [x09] \/ exists n, (0 < n)%nat /\ ind = repeat x20 n.
