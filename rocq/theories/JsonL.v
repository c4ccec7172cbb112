(** * JsonL: what the JSON writer writes is a JSON text of the document of the tree. *)
From Coq Require Import Strings.String Strings.Byte List NArith ZArith Bool Lia ZifyBool ZifyN ZifyNat.
From Verif Require Import Base BaseL SpecBase SpecValues Utf8 Item SpecText Utf8L TextL Json SpecJson.
Import ListNotations.
Local Open Scope N_scope.

(** ** Strings *)

Definition point (o : option N) : N := match o with Some r => r | None => 0xFFFD end.

Lemma scan_none b s : hd_error (scan (b :: s)) = Some None -> scan (b :: s) = None :: scan s.
Proof.
  cbn [scan]. destruct (b2n b <? 128); [discriminate|].
  destruct s as [|b1 t1]; [reflexivity|].
  destruct (decode2 _ _); [discriminate|]. destruct t1 as [|b2 t2]; [reflexivity|].
  destruct (decode3 _ _ _); [discriminate|]. destruct t2 as [|b3 t3]; [reflexivity|].
  destruct (decode4 _ _ _ _); [discriminate|]. reflexivity.
Qed.

Lemma utf8_length r : (1 <= length (utf8 r))%nat.
Proof. unfold utf8; repeat (match goal with |- context [if ?c then _ else _] => destruct c end); cbn; lia. Qed.

(** Induction along the scan. *)
Lemma scan_ind (P : bytes -> Prop) :
  P [] ->
  (forall r t, scalar r -> P t -> P (utf8 r ++ t)) ->
  (forall b s, (forall c s', scalar c -> b :: s <> utf8 c ++ s') -> scan (b :: s) = None :: scan s -> P s -> P (b :: s)) ->
  forall s, P s.
Proof.
  intros H0 H1 H2 s.
  assert (forall n s, (length s <= n)%nat -> P s) as A.
  { induction n as [|n IH]; intros u L.
    { destruct u; [exact H0 | cbn in L; lia]. }
    destruct u as [|b u]; [exact H0|].
    destruct (scan_step (b :: u) ltac:(discriminate)) as [(r & t & Sr & E & Es)|(t & _ & Es)].
    - rewrite E. apply H1; [assumption|]. apply IH.
      apply (f_equal (@length _)) in E. rewrite app_length in E. pose proof (utf8_length r). cbn [length] in *. lia.
    - assert (scan (b :: u) = None :: scan u) as E by (apply scan_none; rewrite Es; reflexivity).
      apply H2; [|exact E|apply IH; cbn in L; lia].
      intros c s' Sc Q. rewrite Q, scan_utf8 in Es by assumption. discriminate. }
  apply (A (length s)). lia.
Qed.

Lemma code_points_scan s : code_points s (map point (scan s)).
Proof.
  pattern s. apply scan_ind; clear s.
  - constructor.
  - intros r t S H. rewrite scan_utf8 by assumption. cbn [map point]. constructor; assumption.
  - intros b s N E H. rewrite E. cbn [map point]. constructor; assumption.
Qed.

Lemma small_ind (P : N -> bool) (k : nat) :
  forallb (fun i => P (N.of_nat i)) (seq 0 k) = true -> forall n, n < N.of_nat k -> P n = true.
Proof.
  intros H n L. rewrite forallb_forall in H. specialize (H (N.to_nat n)). rewrite N2Nat.id in H.
  apply H. apply in_seq. lia.
Qed.

Lemma hex_value_dig n : n < 16 -> hex_value (hexdig n) = Some n.
Proof.
  intro H.
  assert ((match hex_value (hexdig n) with Some k => k =? n | None => false end) = true) as E.
  { apply (small_ind (fun n => match hex_value (hexdig n) with Some k => k =? n | None => false end) 16); [|exact H].
    vm_compute. reflexivity. }
  destruct (hex_value (hexdig n)); [|discriminate]. f_equal. lia.
Qed.

Lemma char_ascii n : n < 128 -> char n (json_ascii n).
Proof.
  intro L. unfold json_ascii.
  destruct (N.eqb_spec n 34) as [->|A]; [apply char_short; reflexivity|].
  destruct (N.eqb_spec n 92) as [->|B]; [apply char_short; reflexivity|]. cbn [orb].
  destruct (N.eqb_spec n 10) as [->|C]; [apply char_short; reflexivity|].
  destruct (N.eqb_spec n 13) as [->|D]; [apply char_short; reflexivity|].
  destruct (N.eqb_spec n 9) as [->|E]; [apply char_short; reflexivity|].
  destruct ((n <? 32) || (n =? 60) || (n =? 62) || (n =? 38)) eqn:F.
  - apply char_hex; [|left; lia].
    assert (n / 16 < 16 /\ n mod 16 < 16 /\ n = n / 16 * 16 + n mod 16) as (G & H & I) by divmod.
    exists 0, 0, (n / 16), (n mod 16). rewrite !hex_value_dig by assumption. repeat split; lia.
  - replace [n2b n] with (utf8 n) by (unfold utf8; replace (n <? 0x80) with true by lia; reflexivity).
    apply char_plain; [left; lia|lia|assumption|assumption].
Qed.

Lemma char_rune r : scalar r -> char r (json_rune (Some r)).
Proof.
  intro S. unfold json_rune. destruct (N.ltb_spec r 128) as [L|L]; [apply char_ascii; assumption|].
  destruct ((r =? 0x2028) || (r =? 0x2029)) eqn:E.
  - apply char_hex; [|assumption].
    assert (r = 0x2028 \/ r = 0x2029) as F by lia.
    destruct F as [-> | ->]; unfold hex4; [exists 2, 0, 2, 8 | exists 2, 0, 2, 9]; repeat split; reflexivity.
  - rewrite enc_rune_utf8. apply char_plain; [assumption|lia|lia|lia].
Qed.

Lemma char_bad : char 0xFFFD (json_rune None).
Proof.
  apply char_hex; [|right; lia]. exists 15, 15, 15, 13. repeat split; reflexivity.
Qed.

Lemma chars_scan s : chars (map point (scan s)) (flat_map json_rune (scan s)).
Proof.
  pattern s. apply scan_ind; clear s.
  - constructor.
  - intros r t S H. rewrite scan_utf8 by assumption. cbn [map point flat_map]. constructor; [apply char_rune; assumption | exact H].
  - intros b s N E H. rewrite E. cbn [map point flat_map]. constructor; [apply char_bad | exact H].
Qed.

Lemma string_text_json s : string_text (map point (scan s)) (json_string s).
Proof. exists (flat_map json_rune (scan s)). split; [apply chars_scan | reflexivity]. Qed.

(** Literal member names. *)
Definition plain_key (s : string) : bool :=
  forallb (fun b => (32 <=? b2n b) && (b2n b <? 128) && negb (b2n b =? 34) && negb (b2n b =? 92)) (str s).

Lemma string_text_key s : plain_key s = true -> string_text (key s) ([x22] ++ str s ++ [x22]).
Proof.
  intro H. exists (str s). split; [|reflexivity]. unfold key, plain_key in *. induction (str s) as [|b l IH]; [constructor|].
  cbn [forallb map] in *. apply andb_prop in H as [H T].
  change (b :: l) with ([b] ++ l). constructor; [|apply IH; exact T].
  replace [b] with (utf8 (b2n b)) by (unfold utf8; replace (b2n b <? 0x80) with true by lia; rewrite n2b_b2n; reflexivity).
  apply char_plain; [left; lia|lia|lia|lia].
Qed.

(** ** A tree of strings, arrays and objects with their octets *)

Inductive raw : Type :=
| RString (s : bytes)
| RArray (l : list raw)
| RObject (l : list (string * raw)).

Lemma raw_ind' (P : raw -> Prop) :
  (forall s, P (RString s)) -> (forall l, Forall P l -> P (RArray l)) ->
  (forall l, Forall (fun m => P (snd m)) l -> P (RObject l)) -> forall r, P r.
Proof.
  intros HS HA HO. fix IH 1. intros [s|l|l].
  - apply HS.
  - apply HA. induction l as [|c l IHl]; constructor; [apply IH | exact IHl].
  - apply HO. induction l as [|c l IHl]; constructor; [apply IH | exact IHl].
Qed.

(** The value it stands for. *)
Fixpoint raw_value (r : raw) : json :=
  match r with
  | RString s => JString (map point (scan s))
  | RArray l => JArray (map raw_value l)
  | RObject l => JObject (map (fun m => (key (fst m), raw_value (snd m))) l)
  end.

(** Without white space. *)
Fixpoint raw_compact (r : raw) : bytes :=
  match r with
  | RString s => json_string s
  | RArray l => json_array (map raw_compact l)
  | RObject l => json_object (map (fun m => json_member (fst m) (raw_compact (snd m))) l)
  end.

(** With line breaks. *)
Definition open_close (o c : byte) (ind : bytes) (d : nat) (l : list bytes) : bytes :=
  match l with
  | [] => [o; c]
  | _ => o :: json_newline ind (S d) ++ join (x2c :: json_newline ind (S d)) l ++ json_newline ind d ++ [c]
  end.

Definition pretty_member (name : string) (v : bytes) : bytes := x22 :: str name ++ [x22; x3a; x20] ++ v.

Fixpoint raw_pretty (ind : bytes) (d : nat) (r : raw) : bytes :=
  match r with
  | RString s => json_string s
  | RArray l => open_close x5b x5d ind d (map (raw_pretty ind (S d)) l)
  | RObject l => open_close x7b x7d ind d (map (fun m => pretty_member (fst m) (raw_pretty ind (S d) (snd m))) l)
  end.

(** Brackets around the innermost string. *)
Fixpoint raw_depth (r : raw) : N :=
  match r with
  | RString _ => 0
  | RArray l => 1 + fold_right (fun c m => N.max (raw_depth c) m) 0 l
  | RObject l => 1 + fold_right (fun c m => N.max (raw_depth (snd c)) m) 0 l
  end.

(** All member names are plain. *)
Fixpoint raw_plain (r : raw) : bool :=
  match r with
  | RString _ => true
  | RArray l => forallb raw_plain l
  | RObject l => forallb (fun m => plain_key (fst m) && raw_plain (snd m)) l
  end.

(** ** Both forms are JSON texts *)

Definition ws_ind (ind : bytes) : Prop := ws ind.

Lemma ws_newline ind d : ws ind -> ws (json_newline ind d).
Proof.
  intro H. constructor; [right; right; left; reflexivity|].
  induction d as [|d IH]; [constructor|]. cbn [repeat_bytes]. apply Forall_app. split; assumption.
Qed.

Lemma ws_nil : ws [].
Proof. constructor. Qed.

(** Elements with white space after each separator, before the first and after the last. *)
Lemma elements_join w sep w' l bs :
  ws w -> ws sep -> ws w' -> l <> [] -> Forall2 value_text l bs ->
  elements_text l (w ++ join (x2c :: sep) bs ++ w').
Proof.
  intros W S W' NE F. revert w W NE. induction F as [|v b l bs V F IH]; intros w W NE; [congruence|].
  destruct F as [|v2 b2 l2 bs2 V2 F2].
  - cbn [join]. constructor; assumption.
  - remember (join (x2c :: sep) (b2 :: bs2)) as J.
    replace (w ++ join (x2c :: sep) (b :: b2 :: bs2) ++ w') with (w ++ b ++ [] ++ [x2c] ++ (sep ++ J ++ w')).
    + apply elements_more; [assumption|assumption|apply ws_nil|]. subst J. apply IH; [assumption|discriminate].
    + change (join (x2c :: sep) (b :: b2 :: bs2)) with (b ++ (x2c :: sep) ++ join (x2c :: sep) (b2 :: bs2)).
      rewrite <- HeqJ. rewrite <- !app_assoc. reflexivity.
Qed.

Inductive member_text (gap : bytes) : (list N * json) -> bytes -> Prop :=
  member_text_of k v bk b : string_text k bk -> value_text v b -> member_text gap (k, v) (bk ++ [x3a] ++ gap ++ b).

Lemma members_join gap w sep w' l bs :
  ws gap -> ws w -> ws sep -> ws w' -> l <> [] -> Forall2 (member_text gap) l bs ->
  members_text l (w ++ join (x2c :: sep) bs ++ w').
Proof.
  intros G W S W' NE F. revert w W NE. induction F as [|m b l bs V F IH]; intros w W NE; [congruence|].
  destruct V as [k v bk b K V].
  destruct F as [|v2 b2 l2 bs2 V2 F2].
  - cbn [join].
    replace (w ++ (bk ++ [x3a] ++ gap ++ b) ++ w') with (w ++ bk ++ [] ++ [x3a] ++ gap ++ b ++ w') by (rewrite <- !app_assoc; reflexivity).
    apply members_one; auto using ws_nil.
  - remember (join (x2c :: sep) (b2 :: bs2)) as J.
    match goal with |- members_text _ ?x => replace x
      with (w ++ bk ++ [] ++ [x3a] ++ gap ++ b ++ [] ++ [x2c] ++ (sep ++ J ++ w')) end.
    + apply (members_more k v (v2 :: l2) w bk [] gap b [] (sep ++ J ++ w')); try assumption; try apply ws_nil.
      apply IH; [assumption|discriminate].
    + change (join (x2c :: sep) ((bk ++ [x3a] ++ gap ++ b) :: b2 :: bs2)) with ((bk ++ [x3a] ++ gap ++ b) ++ (x2c :: sep) ++ join (x2c :: sep) (b2 :: bs2)).
      rewrite <- HeqJ. rewrite <- !app_assoc. reflexivity.
Qed.

Lemma compact_text r : raw_plain r = true -> value_text (raw_value r) (raw_compact r).
Proof.
  induction r as [s|l IH|l IH] using raw_ind'; intro P; cbn [raw_value raw_compact].
  - constructor. apply string_text_json.
  - destruct l as [|c l]; [apply (text_array_empty []); apply ws_nil|].
    unfold json_array. change (value_text (JArray (map raw_value (c :: l))) ([x5b] ++ join [x2c] (map raw_compact (c :: l)) ++ [x5d])).
    apply text_array.
    rewrite <- (app_nil_r (join _ _)). change [x2c] with (x2c :: (@nil byte)).
    apply (elements_join [] [] []); auto using ws_nil; [discriminate|].
    cbn [raw_plain] in P. rewrite forallb_forall in P. clear - IH P. remember (c :: l) as k. clear Heqk.
    induction IH; [constructor|]. cbn [map]. constructor; [apply H; apply P; left; reflexivity|].
    apply IHIH. intros y Hy. apply P. right. assumption.
  - destruct l as [|c l]; [apply (text_object_empty []); apply ws_nil|].
    unfold json_object. remember (c :: l) as k.
    change (value_text (JObject (map (fun m => (key (fst m), raw_value (snd m))) k)) ([x7b] ++ join [x2c] (map (fun m => json_member (fst m) (raw_compact (snd m))) k) ++ [x7d])).
    apply text_object.
    rewrite <- (app_nil_r (join _ _)). change [x2c] with (x2c :: (@nil byte)).
    apply (members_join [] [] [] []); auto using ws_nil; [subst k; discriminate|].
    cbn [raw_plain] in P. rewrite forallb_forall in P. clear - IH P.
    induction IH as [|m k H IH1 IH2]; [constructor|]. cbn [map].
    assert (plain_key (fst m) && raw_plain (snd m) = true) as Q by (apply P; left; reflexivity).
    apply andb_prop in Q as [Q1 Q2].
    constructor; [|apply IH2; intros x Hx; apply P; right; assumption].
    replace (json_member (fst m) (raw_compact (snd m))) with (([x22] ++ str (fst m) ++ [x22]) ++ [x3a] ++ [] ++ raw_compact (snd m))
      by (unfold json_member; cbn [app]; rewrite <- app_assoc; reflexivity).
    constructor; [apply string_text_key; assumption | auto].
Qed.

Lemma pretty_text ind : ws ind -> forall r d, raw_plain r = true -> value_text (raw_value r) (raw_pretty ind d r).
Proof.
  intro W. intro r. induction r as [s|l IH|l IH] using raw_ind'; intros d P; cbn [raw_value raw_pretty].
  - constructor. apply string_text_json.
  - destruct l as [|c l]; [apply (text_array_empty []); apply ws_nil|].
    remember (c :: l) as k.
    replace (open_close x5b x5d ind d (map (raw_pretty ind (S d)) k))
      with ([x5b] ++ (json_newline ind (S d) ++ join (x2c :: json_newline ind (S d)) (map (raw_pretty ind (S d)) k) ++ json_newline ind d) ++ [x5d]).
    2:{ subst k. unfold open_close. cbn [map]. rewrite <- !app_assoc. reflexivity. }
    apply text_array. apply elements_join; auto using ws_newline; [subst k; discriminate|].
    cbn [raw_plain] in P. rewrite forallb_forall in P. clear - IH P.
    induction IH as [|m k H IH1 IH2]; [constructor|]. cbn [map]. constructor; [apply H; apply P; left; reflexivity|].
    apply IH2. intros x Hx. apply P. right. assumption.
  - destruct l as [|c l]; [apply (text_object_empty []); apply ws_nil|].
    remember (c :: l) as k.
    replace (open_close x7b x7d ind d (map (fun m => pretty_member (fst m) (raw_pretty ind (S d) (snd m))) k))
      with ([x7b] ++ (json_newline ind (S d) ++ join (x2c :: json_newline ind (S d)) (map (fun m => pretty_member (fst m) (raw_pretty ind (S d) (snd m))) k) ++ json_newline ind d) ++ [x7d]).
    2:{ subst k. unfold open_close. cbn [map]. rewrite <- !app_assoc. reflexivity. }
    apply text_object. apply (members_join [x20]); auto using ws_newline; [repeat constructor|subst k; discriminate|].
    cbn [raw_plain] in P. rewrite forallb_forall in P. clear - IH P.
    induction IH as [|m k H IH1 IH2]; [constructor|]. cbn [map].
    assert (plain_key (fst m) && raw_plain (snd m) = true) as Q by (apply P; left; reflexivity).
    apply andb_prop in Q as [Q1 Q2].
    constructor; [|apply IH2; intros x Hx; apply P; right; assumption].
    replace (pretty_member (fst m) (raw_pretty ind (S d) (snd m))) with (([x22] ++ str (fst m) ++ [x22]) ++ [x3a] ++ [x20] ++ raw_pretty ind (S d) (snd m))
      by (unfold pretty_member; cbn [app]; rewrite <- app_assoc; reflexivity).
    constructor; [apply string_text_key; assumption | auto].
Qed.

(** ** Indenting the compact form gives the form with line breaks *)

Lemma put_put a b r : put a (put b r) = put (a ++ b) r.
Proof. destruct r; [cbn; rewrite app_assoc|]; reflexivity. Qed.
Lemma put_nil r : put [] r = r.
Proof. destruct r; reflexivity. Qed.

(** Octets that keep the scanner inside a string. *)
Lemma loop_inside ind s rest need d n : forallb (fun b => negb (Byte.eqb b x5c) && negb (Byte.eqb b x22)) s = true ->
  indent_loop ind (s ++ rest) JIn need d n = put s (indent_loop ind rest JIn need d n).
Proof.
  induction s as [|b s IH]; intro H; [rewrite put_nil; reflexivity|].
  cbn [forallb] in H. apply andb_prop in H as [H T]. apply andb_prop in H as [A B].
  cbn [app indent_loop]. destruct (Byte.eqb b x5c); [discriminate|]. destruct (Byte.eqb b x22); [discriminate|].
  rewrite IH by assumption. rewrite put_put. reflexivity.
Qed.

Lemma loop_escape ind b s rest need d n :
  forallb (fun b => negb (Byte.eqb b x5c) && negb (Byte.eqb b x22)) s = true ->
  indent_loop ind ((x5c :: b :: s) ++ rest) JIn need d n = put (x5c :: b :: s) (indent_loop ind rest JIn need d n).
Proof.
  intro H. change ((x5c :: b :: s) ++ rest) with (x5c :: b :: (s ++ rest)). cbn [indent_loop].
  change (Byte.eqb x5c x5c) with true. cbv iota. rewrite loop_inside by assumption. rewrite !put_put. reflexivity.
Qed.

Lemma byte_neq b c : b2n b <> b2n c -> Byte.eqb b c = false.
Proof. intro H. destruct (Byte.eqb b c) eqn:E; [|reflexivity]. apply Byte.byte_dec_bl in E. congruence. Qed.

Lemma dig_plain n : n < 16 -> negb (Byte.eqb (hexdig n) x5c) && negb (Byte.eqb (hexdig n) x22) = true.
Proof. intro H. apply (small_ind (fun n => negb (Byte.eqb (hexdig n) x5c) && negb (Byte.eqb (hexdig n) x22)) 16); [vm_compute; reflexivity | exact H]. Qed.

Lemma n2b_plain n : n < 256 -> n <> 92 -> n <> 34 -> negb (Byte.eqb (n2b n) x5c) && negb (Byte.eqb (n2b n) x22) = true.
Proof.
  intros L A B. rewrite !byte_neq; [reflexivity| |]; rewrite b2n_n2b_small by assumption; cbn; assumption.
Qed.

Lemma utf8_plain r : scalar r -> 128 <= r -> forallb (fun b => negb (Byte.eqb b x5c) && negb (Byte.eqb b x22)) (utf8 r) = true.
Proof.
  intros S L. unfold utf8, scalar in *. replace (r <? 0x80) with false by lia.
  destruct (N.ltb_spec r 0x800); [|destruct (N.ltb_spec r 0x10000)]; cbn [forallb];
    rewrite ?n2b_plain; try reflexivity; divmod.
Qed.

Lemma loop_rune ind o rest need d n : (forall r, o = Some r -> scalar r) ->
  indent_loop ind (json_rune o ++ rest) JIn need d n = put (json_rune o) (indent_loop ind rest JIn need d n).
Proof.
  intro H. destruct o as [r|]; [|apply loop_escape; reflexivity].
  specialize (H r eq_refl). unfold json_rune.
  destruct (N.ltb_spec r 128) as [L|L].
  - unfold json_ascii.
    destruct ((r =? 34) || (r =? 92)) eqn:E1; [apply loop_escape; reflexivity|].
    destruct (r =? 10); [apply loop_escape; reflexivity|].
    destruct (r =? 13); [apply loop_escape; reflexivity|].
    destruct (r =? 9); [apply loop_escape; reflexivity|].
    destruct (_ || _ || _ || _).
    + apply loop_escape. cbn [forallb]. rewrite !dig_plain by divmod. reflexivity.
    + apply loop_inside. cbn [forallb]. rewrite n2b_plain by lia. reflexivity.
  - destruct ((r =? 0x2028) || (r =? 0x2029)).
    + apply loop_escape. cbn [forallb]. rewrite !dig_plain by divmod. reflexivity.
    + apply loop_inside. rewrite enc_rune_utf8. apply utf8_plain; assumption.
Qed.

Lemma loop_runes ind s rest need d n :
  indent_loop ind (flat_map json_rune (scan s) ++ rest) JIn need d n
  = put (flat_map json_rune (scan s)) (indent_loop ind rest JIn need d n).
Proof.
  pattern s. apply scan_ind; clear s.
  - rewrite put_nil. reflexivity.
  - intros r t S H. rewrite scan_utf8 by assumption. cbn [flat_map]. rewrite <- app_assoc.
    rewrite loop_rune by (intros ? [= <-]; assumption). rewrite H, put_put. reflexivity.
  - intros b s N E H. rewrite E. cbn [flat_map]. rewrite <- app_assoc.
    rewrite loop_rune by discriminate. rewrite H, put_put. reflexivity.
Qed.

(** What is written before a token, and the depth after it. *)
Definition lead (ind : bytes) (need : bool) (d : nat) : bytes := if need then json_newline ind (S d) else [].
Definition deeper (need : bool) (d : nat) : nat := if need then S d else d.

Lemma loop_quote ind rest need d n :
  indent_loop ind (x22 :: rest) JOut need d n = put (lead ind need d ++ [x22]) (indent_loop ind rest JIn false (deeper need d) n).
Proof.
  cbn [indent_loop].
  change (Byte.eqb x22 x7b) with false. change (Byte.eqb x22 x5b) with false. change (Byte.eqb x22 x7d) with false.
  change (Byte.eqb x22 x5d) with false. change (Byte.eqb x22 x2c) with false. change (Byte.eqb x22 x3a) with false.
  change (Byte.eqb x22 x22) with true. cbn [orb andb negb]. rewrite andb_true_r.
  unfold lead, deeper. destruct need; rewrite put_put; reflexivity.
Qed.

Lemma loop_string ind s rest need d n :
  indent_loop ind (json_string s ++ rest) JOut need d n
  = put (lead ind need d ++ json_string s) (indent_loop ind rest JOut false (deeper need d) n).
Proof.
  unfold json_string. cbn [app]. rewrite <- !app_assoc. rewrite loop_quote, loop_runes. cbn [app].
  cbn [indent_loop]. change (Byte.eqb x22 x5c) with false. change (Byte.eqb x22 x22) with true. cbv iota.
  rewrite !put_put. rewrite <- !app_assoc. reflexivity.
Qed.

Lemma loop_key ind k v rest need d n : plain_key k = true ->
  indent_loop ind (json_member k v ++ rest) JOut need d n
  = put (lead ind need d ++ x22 :: str k ++ [x22; x3a; x20]) (indent_loop ind (v ++ rest) JOut false (deeper need d) n).
Proof.
  intro P. unfold json_member. cbn [app]. rewrite <- !app_assoc. rewrite loop_quote.
  rewrite loop_inside.
  2:{ unfold plain_key in P. revert P. clear. induction (str k) as [|b l IH]; [reflexivity|]. cbn [forallb]. intro H.
      apply andb_prop in H as [H T]. rewrite IH by assumption.
      rewrite !byte_neq; [reflexivity| |]; change (b2n x5c) with 92; change (b2n x22) with 34; lia. }
  cbn [app]. cbn [indent_loop]. change (Byte.eqb x22 x5c) with false. change (Byte.eqb x22 x22) with true. cbv iota.
  change (Byte.eqb x3a x7b) with false. change (Byte.eqb x3a x5b) with false. change (Byte.eqb x3a x7d) with false.
  change (Byte.eqb x3a x5d) with false. change (Byte.eqb x3a x2c) with false. change (Byte.eqb x3a x3a) with true.
  cbn [orb andb negb]. rewrite put_nil.
  rewrite !put_put. rewrite <- !app_assoc. reflexivity.
Qed.

Lemma loop_open ind c rest need d n : c = x5b \/ c = x7b ->
  indent_loop ind (c :: rest) JOut need d n
  = if max_nesting <=? n then None
    else put (lead ind need d ++ [c]) (indent_loop ind rest JOut true (deeper need d) (n + 1)).
Proof.
  intros [-> | ->]; cbn [indent_loop];
  [change (Byte.eqb x5b x7b) with false; change (Byte.eqb x5b x5b) with true; change (Byte.eqb x5b x7d) with false; change (Byte.eqb x5b x5d) with false
  |change (Byte.eqb x7b x7b) with true; change (Byte.eqb x7b x7d) with false; change (Byte.eqb x7b x5d) with false];
  cbn [orb andb negb]; destruct (max_nesting <=? n); try reflexivity;
  rewrite andb_true_r; unfold lead, deeper; destruct need; rewrite put_put; reflexivity.
Qed.

Lemma loop_close ind c rest d n : c = x5d \/ c = x7d ->
  indent_loop ind (c :: rest) JOut false (S d) (n + 1)
  = put (json_newline ind d ++ [c]) (indent_loop ind rest JOut false d n).
Proof.
  intros [-> | ->]; cbn [indent_loop];
  [change (Byte.eqb x5d x7b) with false; change (Byte.eqb x5d x5b) with false; change (Byte.eqb x5d x7d) with false; change (Byte.eqb x5d x5d) with true; change (Byte.eqb x5d x2c) with false; change (Byte.eqb x5d x3a) with false
  |change (Byte.eqb x7d x7b) with false; change (Byte.eqb x7d x5b) with false; change (Byte.eqb x7d x7d) with true; change (Byte.eqb x7d x2c) with false; change (Byte.eqb x7d x3a) with false];
  cbn [orb andb negb pred]; rewrite put_nil; replace (n + 1 - 1) with n by lia; reflexivity.
Qed.

Lemma loop_close_empty ind c rest d n : c = x5d \/ c = x7d ->
  indent_loop ind (c :: rest) JOut true d (n + 1)
  = put [c] (indent_loop ind rest JOut false d n).
Proof.
  intros [-> | ->]; cbn [indent_loop];
  [change (Byte.eqb x5d x7b) with false; change (Byte.eqb x5d x5b) with false; change (Byte.eqb x5d x7d) with false; change (Byte.eqb x5d x5d) with true; change (Byte.eqb x5d x2c) with false; change (Byte.eqb x5d x3a) with false
  |change (Byte.eqb x7d x7b) with false; change (Byte.eqb x7d x5b) with false; change (Byte.eqb x7d x7d) with true; change (Byte.eqb x7d x2c) with false; change (Byte.eqb x7d x3a) with false];
  cbn [orb andb negb pred]; rewrite put_nil; replace (n + 1 - 1) with n by lia; reflexivity.
Qed.

Lemma loop_comma ind rest d n :
  indent_loop ind (x2c :: rest) JOut false d n = put (x2c :: json_newline ind d) (indent_loop ind rest JOut false d n).
Proof.
  cbn [indent_loop].
  change (Byte.eqb x2c x7b) with false. change (Byte.eqb x2c x5b) with false. change (Byte.eqb x2c x7d) with false.
  change (Byte.eqb x2c x5d) with false. change (Byte.eqb x2c x2c) with true. cbn [orb andb negb]. rewrite put_nil. reflexivity.
Qed.

(** One value: either it fits and is rewritten, or the depth is exceeded. *)
Definition value_step (ind : bytes) (cmp : bytes) (dep : N) (pr : nat -> bytes) : Prop :=
  forall rest need d n, n <= max_nesting ->
  indent_loop ind (cmp ++ rest) JOut need d n
  = if n + dep <=? max_nesting
    then put (lead ind need d ++ pr (deeper need d)) (indent_loop ind rest JOut false (deeper need d) n)
    else None.

(** A non-empty sequence of values separated by commas, up to the closing bracket. *)
Lemma loop_seq ind c rest d n (Hc : c = x5d \/ c = x7d) :
  forall l : list (bytes * N * (nat -> bytes)),
  Forall (fun p => value_step ind (fst (fst p)) (snd (fst p)) (snd p)) l -> l <> [] ->
  n < max_nesting -> forall need d0, deeper need d0 = S d ->
  indent_loop ind (join [x2c] (map (fun p => fst (fst p)) l) ++ c :: rest) JOut need d0 (n + 1)
  = if n + 1 + fold_right (fun p m => N.max (snd (fst p)) m) 0 l <=? max_nesting
    then put (lead ind need d0 ++ join (x2c :: json_newline ind (S d)) (map (fun p => snd p (S d)) l) ++ json_newline ind d ++ [c])
             (indent_loop ind rest JOut false d n)
    else None.
Proof.
  induction 1 as [|p l H F IH]; intros NE L need d0 D; [congruence|].
  destruct l as [|q l].
  - clear IH. cbn [map join fold_right]. rewrite H by lia. rewrite D. rewrite N.max_0_r. rewrite loop_close by assumption.
    destruct (_ <=? _); [|reflexivity]. rewrite put_put. rewrite <- !app_assoc. reflexivity.
  - remember (q :: l) as r.
    assert (forall A (f : A -> bytes) sep x (xs : list A), xs <> [] -> join sep (map f (x :: xs)) = f x ++ sep ++ join sep (map f xs)) as J.
    { intros A f sep x [|y xs] N; [congruence|]. reflexivity. }
    assert (r <> []) as R by (subst r; discriminate).
    rewrite !J by assumption.
    rewrite <- !app_assoc. rewrite H by lia. rewrite D. cbn [app].
    rewrite loop_comma. rewrite (IH R L false (S d) eq_refl).
    cbn [fold_right]. set (M := fold_right _ 0 r). unfold lead at 2.
    destruct (N.leb_spec (n + 1 + snd (fst p)) max_nesting), (N.leb_spec (n + 1 + M) max_nesting), (N.leb_spec (n + 1 + N.max (snd (fst p)) M) max_nesting);
      try lia; try reflexivity.
    rewrite !put_put. cbn [app]. rewrite <- !app_assoc. reflexivity.
Qed.

Lemma loop_block ind o c (Ho : o = x5b \/ o = x7b) (Hc : c = x5d \/ c = x7d) (l : list (bytes * N * (nat -> bytes))) :
  Forall (fun p => value_step ind (fst (fst p)) (snd (fst p)) (snd p)) l ->
  value_step ind (o :: join [x2c] (map (fun p => fst (fst p)) l) ++ [c])
    (1 + fold_right (fun p m => N.max (snd (fst p)) m) 0 l)
    (fun d => open_close o c ind d (map (fun p => snd p (S d)) l)).
Proof.
  intros F rest need d n L. cbn [app]. rewrite <- app_assoc. rewrite loop_open by assumption.
  set (M := fold_right _ 0 l).
  destruct (N.leb_spec max_nesting n) as [G|G].
  { destruct (N.leb_spec (n + (1 + M)) max_nesting); [lia | reflexivity]. }
  destruct l as [|p l].
  - cbn [map join app]. subst M. cbn [fold_right]. rewrite loop_close_empty by assumption.
    replace (n + (1 + 0) <=? max_nesting) with true by lia.
    rewrite put_put. rewrite <- app_assoc. reflexivity.
  - cbn [app]. rewrite (loop_seq ind c rest (deeper need d) n Hc (p :: l) F ltac:(discriminate) G true (deeper need d) eq_refl).
    replace (n + 1 + fold_right (fun p m => N.max (snd (fst p)) m) 0 (p :: l)) with (n + (1 + M)) by (subst M; lia).
    destruct (_ <=? _); [|reflexivity]. rewrite put_put. unfold lead at 2. unfold open_close.
    f_equal. change (map (fun p0 => snd p0 (S (deeper need d))) (p :: l)) with (snd p (S (deeper need d)) :: map (fun p0 => snd p0 (S (deeper need d))) l).
    rewrite <- !app_assoc. reflexivity.
Qed.

Lemma indent_raw ind r : raw_plain r = true -> value_step ind (raw_compact r) (raw_depth r) (fun d => raw_pretty ind d r).
Proof.
  induction r as [s|l IH|l IH] using raw_ind'; intro P.
  - intros rest need d n L. cbn [raw_compact raw_depth raw_pretty]. rewrite loop_string. replace (n + 0 <=? max_nesting) with true by lia. reflexivity.
  - cbn [raw_plain] in P. rewrite forallb_forall in P. rewrite Forall_forall in IH.
    pose proof (loop_block ind x5b x5d (or_introl eq_refl) (or_introl eq_refl) (map (fun r => (raw_compact r, raw_depth r, fun d => raw_pretty ind d r)) l)) as B.
    rewrite map_map in B. cbn [fst snd] in B.
    intros rest need d n L. cbn [raw_compact raw_depth raw_pretty]. unfold json_array. rewrite B; [|apply Forall_map, Forall_forall; intros x Hx; cbn [fst snd]; auto|assumption].
    rewrite map_map. cbn [fst snd].
    replace (fold_right (fun p m => N.max (snd (fst p)) m) 0 (map (fun r => (raw_compact r, raw_depth r, fun d => raw_pretty ind d r)) l))
      with (fold_right (fun c m => N.max (raw_depth c) m) 0 l) by (clear; induction l; [reflexivity | cbn; congruence]).
    reflexivity.
  - cbn [raw_plain] in P. rewrite forallb_forall in P. rewrite Forall_forall in IH.
    pose proof (loop_block ind x7b x7d (or_intror eq_refl) (or_intror eq_refl)
      (map (fun m : string * raw => (json_member (fst m) (raw_compact (snd m)), raw_depth (snd m), fun d => pretty_member (fst m) (raw_pretty ind d (snd m)))) l)) as B.
    rewrite map_map in B. cbn [fst snd] in B.
    intros rest need d n L. cbn [raw_compact raw_depth raw_pretty]. unfold json_object. rewrite B; [| |assumption].
    + rewrite map_map. cbn [fst snd].
      replace (fold_right (fun p m => N.max (snd (fst p)) m) 0 (map (fun m : string * raw => (json_member (fst m) (raw_compact (snd m)), raw_depth (snd m), fun d => pretty_member (fst m) (raw_pretty ind d (snd m)))) l))
        with (fold_right (fun c m => N.max (raw_depth (snd c)) m) 0 l) by (clear; induction l; [reflexivity | cbn; congruence]).
      reflexivity.
    + apply Forall_map, Forall_forall. intros m Hm. cbn [fst snd].
      specialize (P m Hm). apply andb_prop in P as [P1 P2]. specialize (IH m Hm P2).
      intros rest' need' d' n' L'. rewrite loop_key by assumption. rewrite IH by assumption. cbn [lead deeper app].
      destruct (_ <=? _); [|reflexivity]. rewrite put_put. f_equal. unfold pretty_member. rewrite <- !app_assoc. cbn [app].
      rewrite <- !app_assoc. reflexivity.
Qed.
