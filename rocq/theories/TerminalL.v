(** * TerminalL: the control characters of the text output and of the JSON output. *)
From Coq Require Import Strings.String Strings.Byte List NArith ZArith Bool Lia ZifyBool ZifyN ZifyNat.
From Verif Require Import Base BaseL Utf8 Item Json SpecBase SpecText SpecParse SpecJson SpecTerminal Utf8L TextL JsonDocL SameL PropText PropJson PropSame.
Import ListNotations.
Local Open Scope N_scope.

Lemma ca_nil (P : N -> Prop) : controls_are P [].
Proof. exists []. split; [constructor | reflexivity]. Qed.
Lemma ca_app (P : N -> Prop) a b : controls_are P a -> controls_are P b -> controls_are P (a ++ b).
Proof.
  intros (x & X & ->) (y & Y & ->). exists (x ++ y). split; [apply Forall_app; auto|]. unfold utf8s. rewrite flat_map_app. reflexivity.
Qed.
Lemma ca_flat {A} P (f : A -> bytes) l : (forall x, In x l -> controls_are P (f x)) -> controls_are P (flat_map f l).
Proof.
  induction l as [|x l IH]; intro H; [apply ca_nil|]. cbn [flat_map]. apply ca_app; [apply H; left; reflexivity|].
  apply IH. intros y Y. apply H. right. exact Y.
Qed.
Lemma ca_impl (P Q : N -> Prop) t : (forall c, control c -> P c -> Q c) -> controls_are P t -> controls_are Q t.
Proof.
  intros H (l & F & ->). exists l. split; [|reflexivity]. revert F. apply Forall_impl. intros c [S K]. split; [exact S|]. intro C. apply H; [exact C | apply K, C].
Qed.
Lemma ca_clean (P : N -> Prop) t : clean t -> controls_are P t.
Proof. intros (l & F & ->). exists l. split; [|reflexivity]. revert F. apply Forall_impl. intros c [S K]. split; [exact S | intro C; contradiction]. Qed.
Lemma ca_utf8 (P : N -> Prop) t : controls_are P t -> is_utf8 t.
Proof. intros (l & F & ->). exists l. split; [|reflexivity]. revert F. apply Forall_impl. intros c [S _]. exact S. Qed.
Lemma ca_char (P : N -> Prop) c : scalar c -> (control c -> P c) -> controls_are P (utf8 c).
Proof. intros S K. exists [c]. split; [constructor; [split; assumption | constructor]|]. unfold utf8s. cbn [flat_map]. rewrite app_nil_r. reflexivity. Qed.

(** One ASCII octet. *)
Lemma ca_byte (P : N -> Prop) b : b2n b < 0x80 -> (control (b2n b) -> P (b2n b)) -> controls_are P [b].
Proof.
  intros L K. replace [b] with (utf8 (b2n b)); [apply ca_char; [left; lia | exact K]|].
  unfold utf8. destruct (N.ltb_spec (b2n b) 0x80); [|lia]. rewrite n2b_b2n. reflexivity.
Qed.
Definition ascii_plain (b : byte) : bool := (0x20 <=? b2n b) && (b2n b <? 0x7f).
Lemma ca_plain (P : N -> Prop) t : forallb ascii_plain t = true -> controls_are P t.
Proof.
  induction t as [|b t IH]; intro H; [apply ca_nil|]. cbn [forallb] in H. apply andb_prop in H as [H1 H2].
  change (b :: t) with ([b] ++ t). unfold ascii_plain in H1. apply ca_app; [apply ca_byte; [lia | intros [C|C]; lia] | apply IH, H2].
Qed.

(** ** The text output *)
Lemma ca_line (P : N -> Prop) n v t : controls_are P n -> controls_are P v -> controls_are P t -> controls_are P (item_line n v t).
Proof.
  intros N V T. unfold item_line. destruct v as [|a v], t as [|b t]; [exact N|..]; repeat apply ca_app; auto; apply ca_plain; reflexivity.
Qed.
Lemma ca_outline (P : N -> Prop) : forall i d, all_fields (controls_are P) i -> Forall (fun p => controls_are P (snd p)) (outline d i).
Proof.
  induction i as [n v dm t l IH] using item_rect'. intros d F. inversion F as [? ? ? ? ? FN FV FD FT FL]. subst. rewrite outline_eq.
  constructor; [cbn [snd]; apply ca_line; assumption|]. apply Forall_app. split; [destruct dm; repeat constructor; assumption|].
  clear F. induction IH as [|i l H IH IHl]; [constructor|]. inversion FL. subst. cbn [flat_map]. apply Forall_app. split; [apply H; assumption | apply IHl; assumption].
Qed.
Lemma ca_text (P : N -> Prop) ind l : controls_are P ind -> P 10 -> Forall (all_fields (controls_are P)) l -> controls_are P (info_text ind l).
Proof.
  intros I LF F. rewrite C36_text. apply ca_flat. intros p IP. apply ca_app; [|apply ca_app].
  - generalize (fst p). intro k. induction k; [apply ca_nil|]. cbn [repeat_str]. apply ca_app; assumption.
  - apply in_flat_map in IP as (i & Ii & IP). rewrite Forall_forall in F. pose proof (ca_outline P i 0%nat (F i Ii)) as O. rewrite Forall_forall in O. exact (O p IP).
  - apply ca_byte; [cbn; lia | intros _; exact LF].
Qed.

(** ** The JSON output *)
Inductive points_are (A : N -> Prop) : json -> Prop :=
| pa_string l : Forall A l -> points_are A (JString l)
| pa_array l : Forall (points_are A) l -> points_are A (JArray l)
| pa_object l : Forall (fun m => Forall A (fst m) /\ points_are A (snd m)) l -> points_are A (JObject l).

Definition in_json (P : N -> Prop) (c : N) : Prop := (P c /\ 0x20 <= c) \/ c = 9 \/ c = 10 \/ c = 13.

Lemma hex_plain b n : hex_value b = Some n -> ascii_plain b = true.
Proof. unfold hex_value, ascii_plain. repeat match goal with |- context [if ?c then _ else _] => destruct c eqn:?; [intros _; lia|] end. discriminate. Qed.
Lemma hex4_plain a b c d n : hex4 a b c d n -> forallb ascii_plain [a; b; c; d] = true.
Proof.
  intros (w & x & y & z & A & B & C & D & _). cbn [forallb]. rewrite (hex_plain _ _ A), (hex_plain _ _ B), (hex_plain _ _ C), (hex_plain _ _ D). reflexivity.
Qed.
Lemma ca_json_char (P : N -> Prop) c b : (control c -> P c) -> char c b -> controls_are (in_json P) b.
Proof.
  intros K H. destruct H as [c S L _ _|b c E|a b c d n H S|a b c d a' b' c' d' h l H H' _ _].
  - apply ca_char; [exact S|]. intro C. left. auto.
  - apply ca_plain. cbn [forallb]. destruct b; try discriminate E; reflexivity.
  - apply ca_plain. apply hex4_plain in H. cbn [forallb] in *. exact H.
  - apply ca_plain. apply hex4_plain in H. apply hex4_plain in H'. cbn [forallb] in *.
    repeat match goal with X : _ && _ = true |- _ => apply andb_prop in X as [? ?] end.
    repeat match goal with X : ascii_plain _ = true |- _ => rewrite X; clear X end. reflexivity.
Qed.
Lemma ca_json_string (P : N -> Prop) l b : Forall (fun c => control c -> P c) l -> string_text l b -> controls_are (in_json P) b.
Proof.
  intros F (s & C & ->). apply ca_app; [apply ca_plain; reflexivity|]. apply ca_app; [|apply ca_plain; reflexivity].
  induction C as [|c l b r H C IH]; [apply ca_nil|]. inversion F. subst. apply ca_app; [eapply ca_json_char; eassumption | apply IH; assumption].
Qed.
Lemma ca_ws (P : N -> Prop) w : ws w -> controls_are (in_json P) w.
Proof.
  induction 1 as [|b w H _ IH]; [apply ca_nil|]. change (b :: w) with ([b] ++ w). apply ca_app; [|exact IH].
  apply ca_byte; destruct H as [-> | [-> | [-> | ->]]]; cbn; try lia; intro C; unfold in_json, control in *; lia.
Qed.
Lemma ca_value (P : N -> Prop) : let A := fun c => control c -> P c in
  (forall v b, value_text v b -> points_are A v -> controls_are (in_json P) b) /\
  (forall l b, elements_text l b -> Forall (points_are A) l -> controls_are (in_json P) b) /\
  (forall l b, members_text l b -> Forall (fun m => Forall A (fst m) /\ points_are A (snd m)) l -> controls_are (in_json P) b).
Proof.
  cbv zeta. apply text_mut.
  all: intros;
    repeat match goal with
    | H : points_are _ (JString _) |- _ => inversion H; subst; clear H
    | H : points_are _ (JArray _) |- _ => inversion H; subst; clear H
    | H : points_are _ (JObject _) |- _ => inversion H; subst; clear H
    | H : Forall _ (_ :: _) |- _ => inversion H; subst; clear H
    | H : _ /\ _ |- _ => destruct H end;
    repeat apply ca_app; try (apply ca_plain; reflexivity); try (apply ca_ws; assumption); cbn [fst snd] in *; eauto using ca_json_string.
Qed.
Lemma ca_json_text (P : N -> Prop) v b : points_are (fun c => control c -> P c) v -> json_text v b -> controls_are (in_json P) b.
Proof. intros H (w & c & w' & W & V & W' & ->). repeat apply ca_app; try (apply ca_ws; assumption). exact (proj1 (ca_value P) _ _ V H). Qed.

Lemma ca_points (P : N -> Prop) s l : controls_are P s -> code_points s l -> Forall (fun c => control c -> P c) l.
Proof.
  intros (x & F & ->) C. assert (Forall scalar x) as S by (revert F; apply Forall_impl; intros c [H _]; exact H).
  rewrite (code_points_utf8 x l S C). revert F. apply Forall_impl. intros c [_ H]. exact H.
Qed.
Lemma key_points (P : N -> Prop) k : forallb (fun c => negb (controlb c)) (key k) = true -> Forall (fun c => control c -> P c) (key k).
Proof.
  intro H. apply Forall_forall. intros c I. rewrite forallb_forall in H. apply H in I. intro C. exfalso.
  unfold controlb, control in *. lia.
Qed.
Lemma pa_optional (P : N -> Prop) k s m : forallb (fun c => negb (controlb c)) (key k) = true -> controls_are P s -> optional_member k s m ->
  Forall (fun m => Forall (fun c => control c -> P c) (fst m) /\ points_are (fun c => control c -> P c) (snd m)) m.
Proof.
  intros K C O. revert K C. destruct O as [k'|k' s' l N H]; intros K C; [constructor|]. constructor; [|constructor]. cbn [fst snd].
  split; [apply key_points, K | apply pa_string; eapply ca_points; eassumption].
Qed.
Lemma pa_document (P : N -> Prop) : let A := fun c => control c -> P c in
  (forall i j, item_document i j -> all_fields (controls_are P) i -> points_are A j) /\
  (forall k l m, children_document k l m -> forallb (fun c => negb (controlb c)) (key k) = true -> Forall (all_fields (controls_are P)) l ->
     Forall (fun m => Forall A (fst m) /\ points_are A (snd m)) m) /\
  (forall l js, items_document l js -> Forall (all_fields (controls_are P)) l -> Forall (points_are A) js).
Proof.
  cbv zeta. apply document_mut.
  - intros n v d t l ln mv md mt ms N V D T C IH U. inversion U as [? ? ? ? ? UN UV UD UT UL]. subst. apply pa_object. repeat (apply Forall_app; split).
    + constructor; [|constructor]. cbn [fst snd]. split; [apply key_points; reflexivity | apply pa_string; exact (ca_points P n ln UN N)].
    + eapply pa_optional; [|exact UV | exact V]; reflexivity.
    + eapply pa_optional; [|exact UD | exact D]; reflexivity.
    + eapply pa_optional; [|exact UT | exact T]; reflexivity.
    + apply IH; [reflexivity | exact UL].
  - intros. constructor.
  - intros k c l js H IH K U. constructor; [|constructor]. cbn [fst snd]. split; [apply key_points, K | apply pa_array, IH, U].
  - constructor.
  - intros i l j js I IH L IHL U. inversion U. subst. constructor; auto.
Qed.

(** *** No octet of the JSON output is below 32, but for the line feeds of the indentation. *)
Definition hi (x : byte) : Prop := 32 <= b2n x.
Lemma hi_list l : forallb (fun x => 32 <=? b2n x) l = true -> Forall hi l.
Proof. intro H. apply Forall_forall. intros x I. rewrite forallb_forall in H. apply H in I. unfold hi. lia. Qed.
Lemma hi_n2b n : 32 <= n < 256 -> hi (n2b n).
Proof. intro H. unfold hi. rewrite b2n_n2b_small; lia. Qed.
Lemma hi_hexdig n : n < 16 -> hi (hexdig n).
Proof.
  intro H. assert (forallb (fun n => 32 <=? b2n (hexdig n)) (map N.of_nat (seq 0 16)) = true) as K by reflexivity.
  rewrite forallb_forall in K. unfold hi. specialize (K n). apply N.leb_le, K. apply in_map_iff. exists (N.to_nat n). split; [lia | apply in_seq; lia].
Qed.
Lemma hi_enc r : scalar r -> 128 <= r -> Forall hi (enc_rune r).
Proof.
  intros S H. unfold enc_rune. destruct (N.ltb_spec r 0x80); [lia|].
  assert (forall n, n mod 64 < 64) as M by (intro; apply N.mod_lt; lia). unfold scalar in S.
  destruct (N.ltb_spec r 0x800); [|destruct (N.ltb_spec r 0x10000)]; repeat (constructor; [apply hi_n2b|]); try constructor;
    try (pose proof (M r); pose proof (M (r / 64)); pose proof (M (r / 4096)); lia).
Qed.
Lemma hi_ascii n : n < 128 -> Forall hi (json_ascii n).
Proof.
  intro H. assert (forallb (fun n => forallb (fun x => 32 <=? b2n x) (json_ascii n)) (map N.of_nat (seq 0 128)) = true) as K by (vm_compute; reflexivity).
  rewrite forallb_forall in K. apply hi_list, K. apply in_map_iff. exists (N.to_nat n). split; [lia | apply in_seq; lia].
Qed.
Lemma hi_rune r : scalar r -> Forall hi (json_rune (Some r)).
Proof.
  intro S. cbn [json_rune]. destruct (N.ltb_spec r 128); [apply hi_ascii; assumption|].
  destruct ((r =? 0x2028) || (r =? 0x2029)) eqn:E; [|apply hi_enc; assumption].
  do 5 (constructor; [unfold hi; cbn; lia|]). constructor; [apply hi_hexdig, N.mod_lt; lia | constructor].
Qed.
Lemma hi_string s : is_utf8 s -> Forall hi (json_string s).
Proof.
  intros (l & F & ->). unfold json_string. rewrite scan_utf8s by exact F. constructor; [unfold hi; cbn; lia|]. apply Forall_app. split; [|apply hi_list; reflexivity].
  induction F as [|c l S F IH]; [constructor|]. cbn [map flat_map]. apply Forall_app. split; [apply hi_rune, S | exact IH].
Qed.
Lemma hi_join l : Forall (Forall hi) l -> Forall hi (join [x2c] l).
Proof.
  induction 1 as [|x l H F IH]; [constructor|]. cbn [join]. destruct l; [exact H|]. apply Forall_app. split; [exact H|]. apply Forall_app. split; [apply hi_list; reflexivity | exact IH].
Qed.
Lemma hi_object l : Forall (Forall hi) l -> Forall hi (json_object l).
Proof. intro H. unfold json_object. constructor; [unfold hi; cbn; lia|]. apply Forall_app. split; [apply hi_join, H | apply hi_list; reflexivity]. Qed.
Lemma hi_array l : Forall (Forall hi) l -> Forall hi (json_array l).
Proof. intro H. unfold json_array. constructor; [unfold hi; cbn; lia|]. apply Forall_app. split; [apply hi_join, H | apply hi_list; reflexivity]. Qed.
Lemma hi_member k v : forallb (fun x => 32 <=? b2n x) (str k) = true -> Forall hi v -> Forall hi (json_member k v).
Proof.
  intros K H. unfold json_member. constructor; [unfold hi; cbn; lia|]. apply Forall_app. split; [apply hi_list, K|]. apply Forall_app. split; [apply hi_list; reflexivity | exact H].
Qed.
Lemma hi_opt k s : forallb (fun x => 32 <=? b2n x) (str k) = true -> is_utf8 s -> Forall (Forall hi) (json_opt k s).
Proof. intros K U. unfold json_opt. destruct (is_nil s); [constructor|]. constructor; [|constructor]. apply hi_member; [exact K | apply hi_string, U]. Qed.
Lemma hi_item : forall i, all_fields is_utf8 i -> Forall hi (item_json i).
Proof.
  induction i as [n v d t l IH] using item_rect'. intro U. inversion U as [? ? ? ? ? UN UV UD UT UL]. subst. cbn [item_json]. rewrite go_map.
  apply hi_object. constructor; [apply hi_member; [reflexivity | apply hi_string, UN]|].
  apply Forall_app. split; [apply hi_opt; [reflexivity | exact UV]|]. apply Forall_app. split; [apply hi_opt; [reflexivity | exact UD]|].
  apply Forall_app. split; [apply hi_opt; [reflexivity | exact UT]|].
  destruct (is_nil l); [constructor|]. constructor; [|constructor]. apply hi_member; [reflexivity|]. apply hi_array.
  clear U. induction IH as [|i l H IH IHl]; [constructor|]. inversion UL. subst. cbn [map]. constructor; auto.
Qed.
Lemma hi_info l : Forall (all_fields is_utf8) l -> Forall hi (info_json l).
Proof.
  intro U. unfold info_json. apply hi_object. destruct (is_nil l); [constructor|]. constructor; [|constructor]. apply hi_member; [reflexivity|]. apply hi_array.
  induction U as [|i l H U IH]; [constructor|]. cbn [map]. constructor; [apply hi_item, H | exact IH].
Qed.
Definition hi_lf (x : byte) : Prop := hi x \/ x = x0a.
Lemma hl_put a r b : Forall hi_lf a -> (forall b', r = Some b' -> Forall hi_lf b') -> put a r = Some b -> Forall hi_lf b.
Proof. unfold put. destruct r; intros A R E; [|discriminate]. injection E as <-. apply Forall_app. auto. Qed.
Lemma hl_newline ind d : Forall hi_lf ind -> Forall hi_lf (json_newline ind d).
Proof. intro H. unfold json_newline. constructor; [right; reflexivity|]. induction d; [constructor|]. cbn [repeat_bytes]. apply Forall_app. auto. Qed.
Lemma hl_indent ind : Forall hi_lf ind -> forall src m need d n b, Forall hi_lf src -> indent_loop ind src m need d n = Some b -> Forall hi_lf b.
Proof.
  intros HI src. induction src as [|c t IH]; intros m need d n b F E; [injection E as <-; constructor|]. inversion F as [|? ? FC FT]. subst.
  assert (Forall hi_lf [c]) as C1 by (constructor; [exact FC | constructor]).
  cbn [indent_loop] in E. destruct m.
  - repeat match type of E with (if ?x then None else _) = _ => destruct x; [discriminate|] end.
    eapply hl_put; [|clear E; intros b' E|exact E]; [destruct (need && _); [apply hl_newline, HI | constructor]|].
    repeat match type of E with (if ?x then _ else _) = _ => destruct x end;
      (eapply hl_put; [|clear E; intros b'' E; eapply IH; eassumption|exact E]);
      repeat first [exact C1 | apply Forall_app; split | apply hl_newline; exact HI | constructor; [exact FC|] | constructor; [left; unfold hi; cbn; lia|] | constructor].
  - eapply hl_put; [exact C1 | intros b' E'; eapply IH; eassumption | exact E].
  - eapply hl_put; [exact C1 | intros b' E'; eapply IH; eassumption | exact E].
Qed.
Lemma json_octets n l b : Forall (all_fields is_utf8) l -> info_JSON n l = ROk b -> Forall (fun x => hi x \/ (x = x0a /\ (0 < n)%Z)) b.
Proof.
  intros U E. unfold info_JSON in E. destruct (Z.ltb_spec 0 n) as [L|L].
  - destruct (indent_loop _ _ _ _ _ _) as [r|] eqn:I; [|discriminate]. injection E as <-. apply hl_indent in I.
    + revert I. apply Forall_impl. intros x [H|H]; auto.
    + generalize (Z.to_nat n). intro k. induction k; [constructor|]. cbn [repeat_bytes app]. constructor; [left; unfold hi; cbn; lia | exact IHk].
    + generalize (hi_info l U). apply Forall_impl. intros x H. left. exact H.
  - injection E as <-. generalize (hi_info l U). apply Forall_impl. auto.
Qed.

Lemma ca_JSON (P : N -> Prop) n l b : Forall (all_fields (controls_are P)) l -> info_JSON n l = ROk b ->
  controls_are (fun c => (P c /\ 0x20 <= c) \/ (c = 10 /\ (0 < n)%Z)) b.
Proof.
  intros F E. destruct (json_stands _ _ _ E) as (v & (ms & D & ->) & T).
  assert (Forall (all_fields is_utf8) l) as U.
  { revert F. apply Forall_impl. induction a as [nm vl dm t ch IH] using item_rect'. intro H. inversion H as [? ? ? ? ? A1 A2 A3 A4 A5]. subst.
    constructor; try (eapply ca_utf8; eassumption). clear H. induction IH as [|i ch H IH IHl]; [constructor|]. inversion A5. subst. constructor; auto. }
  apply (ca_json_text P) in T; [|apply pa_object; exact (proj1 (proj2 (pa_document P)) _ _ _ D eq_refl F)].
  pose proof (json_octets _ _ _ U E) as O. destruct T as (cs & C & ->). exists cs. split; [|reflexivity].
  rewrite Forall_forall in *. intros c I. destruct (C c I) as [S K]. split; [exact S|]. intro CC. destruct (K CC) as [K1 | K1]; [left; exact K1|].
  assert (In (n2b c) (utf8s cs)) as IN.
  { unfold utf8s. apply in_flat_map. exists c. split; [exact I|]. unfold utf8. destruct (N.ltb_spec c 0x80); [left; reflexivity | lia]. }
  destruct (O _ IN) as [H|[H1 H2]].
  - unfold hi in H. rewrite b2n_n2b_small in H by lia. lia.
  - right. split; [|exact H2]. apply (f_equal b2n) in H1. rewrite b2n_n2b_small in H1 by lia. cbn in H1. exact H1.
Qed.
