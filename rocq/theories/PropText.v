(** * PropText: C12 and C36. *)
From Coq Require Import Strings.String Strings.Byte List NArith ZArith Bool.
From Verif Require Import Base SpecBase SpecValues Item Context Env Values Reader Tags SpecText Utf8L TextL ValuesL.
Import ListNotations.

(** C12.  A text field with characters [l]: every control character as (U+hhhh), every other one as itself. *)
Theorem C12_text_shown : forall (name : bytes) (f : bool) (l : list N), Forall scalar l -> l <> [] ->
  let it := text_item name (utf8s l) f in
  i_name it = name /\ i_value it = flat_map shown_char l /\ i_note it = [] /\ i_items it = [].
Proof. intros name f l F NE. cbv zeta. rewrite text_item_valid by assumption. repeat split. Qed.
Print Assumptions C12_text_shown.

(** C12.  So nothing in the shown value is a control character, whatever the octets. *)
Theorem C12_value_clean : forall (name : bytes) (f : bool) (body : bytes), clean (i_value (text_item name body f)).
Proof.
  intros name f body. unfold text_item. destruct body; [apply clean_nil|]. cbn [is_nil].
  destruct (Utf8.utf8_valid (b :: body)) eqn:V; [apply sanitize_clean, V | apply clean_nil].
Qed.
Print Assumptions C12_value_clean.

(** C12.  Octets that are not UTF-8 are shown as a hex dump (whether or not dumps are asked for), from which
    they can be read back. *)
Theorem C12_invalid_text : forall (name : bytes) (f : bool) (body : bytes), ~ is_utf8 body ->
  let it := text_item name body f in
  i_value it = [] /\ read_dump (i_dump it) = Some body /\ i_note it = str "invalid text string" /\ i_items it = [].
Proof.
  intros name f body NV. cbv zeta. rewrite text_item_invalid by assumption. cbn [i_value i_dump i_note i_items].
  repeat split. apply hexdump_read.
Qed.
Print Assumptions C12_invalid_text.

(** C12.  A User ID packet shows its whole body as such a text. *)
Theorem C12_user_id : forall (o : opts) (E : env) (body : bytes) (cs : cst),
  exists it, parse_tag o E 13%N body cs = (ROk (it, None), cs)
             /\ i_items it = [text_item (str "User ID") body (oDebug o)].
Proof. intros. eexists. split; reflexivity. Qed.
Print Assumptions C12_user_id.

Example C12_witness :
  i_value (text_item (str "User ID") (str "Al" ++ [x0a; x1b] ++ utf8s [0x3b1; 0x85; 0x1f600]%N) false)
  = str "Al(U+000A)(U+001B)" ++ utf8s [0x3b1]%N ++ str "(U+0085)" ++ utf8s [0x1f600]%N
  /\ i_dump (text_item (str "User ID") [xff; x41] false) = str "ff 41".
Proof. vm_compute. auto. Qed.

(** C36.  The text is the lines of the outline, in order, each after its depth times the indent string. *)
Theorem C36_text : forall (ind : bytes) (l : info),
  info_text ind l = flat_map (fun p => repeat_str ind (fst p) ++ snd p ++ [x0a]) (flat_map (outline 0) l).
Proof. exact info_text_outline. Qed.
Print Assumptions C36_text.

(** C36.  If no field has a line break, cutting the text at line breaks gives exactly the lines of the outline. *)
Theorem C36_lines : forall (ind : bytes) (l : info),
  no_newline ind -> Forall (all_fields no_newline) l ->
  split_lines (info_text ind l)
  = map (fun p => repeat_str ind (fst p) ++ snd p) (flat_map (outline 0) l) ++ [[]].
Proof.
  intros ind l Hi F. rewrite info_text_outline. apply split_lines_outline; [assumption|].
  induction F as [|i l Hc F IH]; [constructor|]. cbn [flat_map]. apply Forall_app. split; [apply outline_nn|]; assumption.
Qed.
Print Assumptions C36_lines.

(** C36.  The number of lines is the number of items plus the number of dumps. *)
Theorem C36_line_count : forall (ind : bytes) (l : info),
  no_newline ind -> Forall (all_fields no_newline) l ->
  length (split_lines (info_text ind l))
  = S (list_sum (map count_items l) + list_sum (map count_dumps l)).
Proof.
  intros ind l Hi F. rewrite C36_lines by assumption. rewrite app_length, map_length, flat_outline_length.
  cbn [length]. rewrite Nat.add_1_r. reflexivity.
Qed.
Print Assumptions C36_line_count.

Example C36_witness :
  let t := [Item (str "A") (str "1") (str "00 ff") (str "n") [Item (str "B") [] [] (str "m") []]; Item (str "C") [] [] [] []] in
  info_text (str "  ") t = str "A: 1 (n)" ++ [x0a] ++ str "  00 ff" ++ [x0a] ++ str "  B (m)" ++ [x0a] ++ str "C" ++ [x0a]
  /\ Forall (all_fields no_newline) t /\ no_newline (str "  ").
Proof.
  cbv zeta. split; [vm_compute; reflexivity|]. split; [|apply no_newline_lit; reflexivity].
  repeat constructor; apply no_newline_lit; reflexivity.
Qed.
