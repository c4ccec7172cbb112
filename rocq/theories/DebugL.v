(** * DebugL: lemmas for C59. *)
From Coq Require Import Strings.String Strings.Byte List NArith ZArith Bool Arith Lia ZifyBool ZifyN ZifyNat.
From Verif Require Import Base BaseL Item Context Env Values ValuesL Opaque Parse SpecBase SpecValues SpecPacket SpecText SpecParse TextL SpecDebug PacketL.
Import ListNotations.
Local Open Scope N_scope.

Lemma without_app p s : without p (p ++ s) = Some s.
Proof.
  unfold without. assert (has_prefix p (p ++ s) = true) as -> by (apply has_prefix_spec; exists s; reflexivity).
  rewrite skipn_app, skipn_all, Nat.sub_diag. reflexivity.
Qed.

Lemma read_header_line name tag n : read_header (id_text name (str "tag") tag ++ str " (" ++ bytes_note n ++ str ")") = Some (tag, n).
Proof.
  unfold read_header, bytes_note. rewrite <- app_assoc. change (str " bytes" ++ str ")") with (str " bytes)").
  rewrite !rev_app_distr, <- !app_assoc, without_app.
  change (rev (str " (") ++ rev (id_text name (str "tag") tag)) with ("("%byte :: " "%byte :: rev (id_text name (str "tag") tag)).
  rewrite span_digits_app; [|rewrite forallb_rev; apply dec_digits|reflexivity].
  change ("("%byte :: " "%byte :: rev (id_text name (str "tag") tag)) with (rev (str " (") ++ rev (id_text name (str "tag") tag)).
  rewrite without_app, !rev_involutive, read_dec_dec, id_text_read. reflexivity.
Qed.

Lemma read_dump_text l : read_dump (hex_text l) = Some l.
Proof. rewrite <- hexdump_hex_text. apply hexdump_read. Qed.

Lemma read_packet_shown o tag body k : (if (60 <=? tag) && (tag <=? 63) then oPrivate o else oDebug o) = true ->
  read_packet (packet_shown o tag body k) = Some (tag, body).
Proof.
  intro D. unfold read_packet, packet_shown. cbn [i_name i_dump]. rewrite D, id_text_read. unfold dump_if. rewrite read_dump_text. reflexivity.
Qed.

Lemma debug_flag_on o tag : oDebug o = true -> (if (60 <=? tag) && (tag <=? 63) then oPrivate o else oDebug o) = true.
Proof. intro D. destruct (_ && _); [|exact D]. revert D. unfold oPrivate, oDebug. intros ->. apply orb_true_r. Qed.

Lemma read_packets_shown o l items : oDebug o = true ->
  Forall2 (fun p i => exists k, i = packet_shown o (fst p) (snd p) k) l items -> read_packets items = Some l.
Proof.
  intros D F. induction F as [|[t b] i l items [k ->] F IH]; [reflexivity|].
  cbn [read_packets fst snd]. rewrite IH, read_packet_shown by (apply debug_flag_on, D). reflexivity.
Qed.

(** ** The text *)

(** Lines without a line feed, or with one such that what follows does not look like a packet. *)
Definition calm (s : bytes) : Prop := no_newline s \/ exists a b, s = a ++ [x0a] ++ b /\ no_newline a /\ no_newline b /\ inside b = true.

Lemma calm_lines ind ls rest : no_newline ind -> ind <> [] -> inside ind = true ->
  Forall (fun p => (0 < fst p)%nat /\ calm (snd p)) ls ->
  exists L, Forall (fun x => inside x = true) L /\ split_lines (flat_map (line_text ind) ls ++ rest) = L ++ split_lines rest.
Proof.
  intros Hi Hne Hin F. induction F as [|[k s] ls [K C] F (L & FL & IH)]; [exists []; split; [constructor|reflexivity]|].
  cbn [fst snd] in *. cbn [flat_map]. unfold line_text at 1. cbn [fst snd]. rewrite <- !app_assoc.
  assert (forall x, inside (repeat_str ind k ++ x) = true) as IN.
  { intro x. destruct k as [|k]; [lia|]. cbn [repeat_str]. destruct ind as [|b ind]; [congruence|]. exact Hin. }
  destruct C as [C|(a & b & -> & Ca & Cb & Ib)].
  - exists ((repeat_str ind k ++ s) :: L). split; [constructor; [apply IN | exact FL]|].
    rewrite app_assoc, split_lines_app by (apply no_newline_app; [apply no_newline_repeat|]; assumption). rewrite IH. reflexivity.
  - exists ((repeat_str ind k ++ a) :: b :: L). split; [constructor; [apply IN | constructor; [exact Ib | exact FL]]|].
    rewrite <- !app_assoc. rewrite app_assoc, split_lines_app by (apply no_newline_app; [apply no_newline_repeat|]; assumption).
    rewrite split_lines_app by assumption. rewrite IH. reflexivity.
Qed.

Lemma read_lines_inside ind L rest : Forall (fun x => inside x = true) L -> read_lines ind (L ++ rest) = read_lines ind rest.
Proof. induction 1 as [|x L H _ IH]; [reflexivity|]. cbn [app read_lines]. rewrite H. exact IH. Qed.

(** The lines of the fields of an item. *)
Lemma utf8_octet (f : byte) : utf8 (b2n f) = [f] \/ no_newline (utf8 (b2n f)).
Proof. destruct f; (left; reflexivity) || (right; apply no_newline_lit; reflexivity). Qed.

Definition plain_value (v : bytes) : Prop := no_newline v \/ v = [x0a].
Lemma item_line_calm n v t : no_newline n -> plain_value v -> no_newline t -> calm (item_line n v t).
Proof.
  intros Hn [Hv| ->] Ht; [left; apply item_line_nn; assumption|].
  right. exists (n ++ str ": "). unfold item_line. destruct t as [|b t].
  - exists []. repeat split; [rewrite <- app_assoc; reflexivity | | intros [] ].
    apply no_newline_app; [assumption | apply no_newline_lit; reflexivity].
  - exists (str " (" ++ (b :: t) ++ str ")"). repeat split.
    + rewrite <- app_assoc. reflexivity.
    + apply no_newline_app; [assumption | apply no_newline_lit; reflexivity].
    + repeat apply no_newline_app; [apply no_newline_lit; reflexivity | exact Ht | apply no_newline_lit; reflexivity].
Qed.

Definition calm_item := fields no_newline plain_value no_newline no_newline.
Lemma outline_calm : forall i depth, calm_item i -> Forall (fun p => (depth <= fst p)%nat /\ calm (snd p)) (outline depth i).
Proof.
  fix IH 1. intros [n v d t l] depth H. inversion H as [n' v' d' t' l' Hn Hv Hd Ht Hl]; subst. cbn [outline].
  constructor; [split; [cbn; lia | apply item_line_calm; assumption]|]. apply Forall_app. split.
  - destruct d; [constructor|]. constructor; [|constructor]. split; [cbn; lia | left; exact Hd].
  - clear H Hn Hv Hd Ht. induction l as [|c l IHl]; [constructor|]. inversion Hl; subst. apply Forall_app. split; [|apply IHl; assumption].
    eapply Forall_impl; [|apply IH; assumption]. intros [k s] [A B]. split; [cbn in *; lia | exact B].
Qed.
Lemma outlines_calm l depth : Forall calm_item l -> Forall (fun p => (depth <= fst p)%nat /\ calm (snd p)) (flat_map (outline depth) l).
Proof. induction 1 as [|c l H _ IH]; [constructor|]. cbn [flat_map]. apply Forall_app. split; [apply outline_calm; exact H | exact IH]. Qed.

Lemma outline_unfold depth n v d t l : outline depth (Item n v d t l) =
  (depth, item_line n v t) :: (match d with [] => [] | _ => [(S depth, d)] end) ++ flat_map (outline (S depth)) l.
Proof. reflexivity. Qed.

Lemma reg_name_letter tag : inside (reg_name tag_registry no_private "" tag ++ str " (tag ") = false.
Proof.
  unfold reg_name, no_private, reg_find, tag_registry. cbn [find fst].
  repeat match goal with |- context [?a =? tag] => destruct (a =? tag); [reflexivity|] end. reflexivity.
Qed.

Lemma inside_app a b : a <> [] -> inside (a ++ b) = inside a.
Proof. destruct a; [congruence|reflexivity]. Qed.

Lemma hex_text_nil b : hex_text b = [] -> b = [].
Proof. intro H. pose proof (read_dump_text b) as R. rewrite H in R. cbn in R. congruence. Qed.

(** The lines of one packet. *)
Lemma read_lines_packet o ind tag body k rest : no_newline ind -> ind <> [] -> inside ind = true -> oDebug o = true ->
  calm_item (packet_shown o tag body k) ->
  read_lines ind (split_lines (flat_map (line_text ind) (outline 0 (packet_shown o tag body k)) ++ rest)) =
  option_map (cons (tag, body)) (read_lines ind (split_lines rest)).
Proof.
  intros Hi Hne Hin D C. unfold packet_shown in *. rewrite (debug_flag_on o tag D) in *. cbn [dump_if] in *.
  set (name := reg_name tag_registry no_private "" tag) in *.
  inversion C as [n' v' d' t' l' Hn _ Hd Ht Hl]; subst.
  rewrite outline_unfold. cbn [flat_map]. unfold line_text at 1. cbn [fst snd repeat_str app]. rewrite <- !app_assoc.
  assert (exists x y, bytes_note (lenN body) = x :: y) as (x & y & EN).
  { unfold bytes_note. destruct (dec (lenN body)) as [|x y]; [exists " "%byte, (str "bytes"); reflexivity | exists x, (y ++ str " bytes"); reflexivity]. }
  assert (item_line (id_text name (str "tag") tag) [] (bytes_note (lenN body)) = id_text name (str "tag") tag ++ str " (" ++ bytes_note (lenN body) ++ str ")") as EL.
  { unfold item_line. rewrite EN. reflexivity. }
  rewrite split_lines_app by (apply item_line_nn; [exact Hn | intros [] | exact Ht]).
  cbn [read_lines]. rewrite EL.
  assert (inside (id_text name (str "tag") tag ++ str " (" ++ bytes_note (lenN body) ++ str ")") = false) as ->.
  { unfold id_text. rewrite <- !app_assoc. pose proof (reg_name_letter tag) as R. fold name in R.
    destruct name as [|b nm]; [discriminate R|]. exact R. }
  rewrite read_header_line.
  rewrite flat_map_app, <- app_assoc.
  destruct (calm_lines ind (flat_map (outline 1) k) rest Hi Hne Hin) as (L & FL & EQ).
  { eapply Forall_impl; [|apply (outlines_calm k 1 Hl)]. intros [a b] [A B]. split; [exact A | exact B]. }
  destruct body as [|b body].
  - cbn [lenN]. change (lenN [] =? 0) with true. cbn [hex_text flat_map app]. rewrite EQ, read_lines_inside by exact FL. reflexivity.
  - replace (lenN (b :: body) =? 0) with false by (symmetry; apply N.eqb_neq; unfold lenN; cbn [length]; lia).
    destruct (hex_text (b :: body)) as [|h t] eqn:EH; [apply hex_text_nil in EH; discriminate|].
    cbn [flat_map app]. unfold line_text at 1. cbn [fst snd repeat_str]. rewrite !app_nil_r, <- !app_assoc.
    rewrite app_assoc, split_lines_app by (apply no_newline_app; assumption).
    rewrite EQ. rewrite without_app, <- EH, read_dump_text, N.eqb_refl, read_lines_inside by exact FL. reflexivity.
Qed.

Lemma read_text_items o ind l items : no_newline ind -> ind <> [] -> inside ind = true -> oDebug o = true ->
  Forall calm_item items -> Forall2 (fun p i => exists k, i = packet_shown o (fst p) (snd p) k) l items ->
  read_text ind (info_text ind items) = Some l.
Proof.
  intros Hi Hne Hin D C F. unfold read_text. rewrite info_text_outline. revert C.
  induction F as [|[t b] i l items [k ->] F IH]; intro C; [reflexivity|]. inversion C; subst.
  cbn [flat_map fst snd]. rewrite flat_map_app, (read_lines_packet o ind t b k) by assumption. rewrite IH by assumption. reflexivity.
Qed.
