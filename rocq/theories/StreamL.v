(** * StreamL: from readers to inputs; the kinds of texts. *)
From Coq Require Import Strings.String Strings.Byte List NArith ZArith Bool Lia ZifyBool ZifyN ZifyNat.
From Verif Require Import Base Utf8 Item Reader Context Env Time Values Opaque Monad Subs Tags Parse Float.
From Verif Require Import SpecBase BaseL ReaderL SpecValues ValuesL SpecTime TimeL SpecText Utf8L TextL FrameL SpecNest CompL RelL ParseL SpecParse.
Import ListNotations.
Local Open Scope Z_scope.

Lemma scanned_le d : (length (scanned d) <= length d)%nat.
Proof. unfold scanned. destruct (scan_lines d [] 0 0) as [? [n|]]; [rewrite firstn_length; lia | lia]. Qed.

Lemma filter_pieces l : Forall (fun p : bytes => p <> []) (filter (fun p => negb (is_nil p)) l) /\
  concat (filter (fun p => negb (is_nil p)) l) = concat l.
Proof.
  induction l as [|p l [IH1 IH2]]; [split; [constructor | reflexivity]|]. cbn [filter]. destruct p as [|b p]; cbn [is_nil negb].
  - split; assumption.
  - split; [constructor; [discriminate | exact IH1] | cbn [concat]; rewrite IH2; reflexivity].
Qed.

(** The text handed to the armor decoder is not much longer than the input. *)
Lemma drop_cr_le l : (length (drop_cr l) <= length l)%nat.
Proof. destruct l as [|b t]; [cbn; lia|]. destruct b; cbn [drop_cr]; rewrite rev_length; cbn [length]; lia. Qed.
Definition lines_len (ls : list bytes) : nat := length (flat_map (fun s => s ++ [x0a]) ls).
Lemma lines_len_cons s ls : lines_len (s :: ls) = (length s + 1 + lines_len ls)%nat.
Proof. unfold lines_len. cbn [flat_map]. rewrite !app_length. cbn [length]. lia. Qed.
Lemma scan_lines_len : forall l cur n pos ls e, scan_lines l cur n pos = (ls, e) -> (lines_len ls <= length cur + length l + 1)%nat.
Proof.
  induction l as [|b t IH]; intros cur n pos ls e H; cbn [scan_lines] in H.
  - inversion H; subst. destruct (is_nil cur); [cbn; lia|]. rewrite lines_len_cons. pose proof (drop_cr_le cur). cbn [lines_len flat_map length]. unfold lines_len. cbn. lia.
  - destruct (Byte.eqb b x0a).
    + destruct (scan_lines t [] 0 (pos + 1)) as [ls' e'] eqn:R. inversion H; subst. apply IH in R. rewrite lines_len_cons. pose proof (drop_cr_le cur). cbn [length] in *. lia.
    + destruct (n + 1 =? max_token)%N; [inversion H; subst; cbn; lia|]. apply IH in H. cbn [length] in *. lia.
Qed.
Lemma arm_loop_len : forall ls flag endf buf f e b, arm_loop ls flag endf buf = (f, e, b) -> (length b <= length buf + lines_len ls)%nat.
Proof.
  induction ls as [|s t IH]; intros flag endf buf f e b H; cbn [arm_loop] in H; [inversion H; subst; lia|]. rewrite lines_len_cons.
  destruct (_ && negb endf)%bool; apply IH in H; [rewrite !app_length in H; cbn [length] in H; lia | lia].
Qed.
Lemma armtext_len src txt : armtext_get src = ROk txt -> (length txt <= S (length (st_data src)))%nat.
Proof.
  unfold armtext_get. destruct (scan_lines (st_data src) [] 0 0) as [ls [n|]] eqn:SL; [discriminate|]. apply scan_lines_len in SL. cbn [length] in SL.
  destruct (negb (st_ok src)); [discriminate|]. destruct (arm_loop ls false false []) as [[f e] b] eqn:AL. apply arm_loop_len in AL. cbn [length] in AL.
  destruct (negb f || negb e)%bool; [discriminate|]. intro H. inversion H; subst. lia.
Qed.

Lemma new_reader_ok E src c : fits E src -> new_reader_armor E src = ROk c -> chunks_ok c.
Proof.
  intros [_ F] H. unfold new_reader_armor in H. destruct (armtext_get src) as [txt| | |] eqn:AG; try discriminate H.
  destruct (e_armor E txt) as [[ps ok]|] eqn:A; [|discriminate H]. inversion H; subst.
  destruct (filter_pieces ps) as [P1 P2]. split; [exact P1|]. unfold chunks_left. cbn [k_pieces]. rewrite P2.
  exact (F _ _ _ (armtext_len _ _ AG) A).
Qed.
Lemma armtext_get_res src : armtext_get src <> RPanic /\ armtext_get src <> RFuel.
Proof.
  unfold armtext_get. destruct (scan_lines _ _ _ _) as [ls [n|]]; [split; discriminate|].
  destruct (st_ok src); cbn [negb]; [|split; discriminate]. destruct (arm_loop _ _ _ _) as [[f e] b].
  destruct (negb f || negb e); split; discriminate.
Qed.
Lemma new_reader_res E src : new_reader_armor E src <> RPanic /\ new_reader_armor E src <> RFuel.
Proof.
  unfold new_reader_armor. destruct (armtext_get_res src). destruct (armtext_get src); try congruence; [|split; discriminate].
  destruct (e_armor E _) as [[]|]; split; discriminate.
Qed.
Lemma parse_new_ok o E src c : fits E src -> parse_new o E src = ROk c -> chunks_ok c.
Proof.
  intros F H. unfold parse_new in H. destruct (oArmor o); [exact (new_reader_ok _ _ _ F H)|].
  destruct (new_reader_armor E src) eqn:R; try discriminate H; inversion H; subst; [exact (new_reader_ok _ _ _ F R)|].
  apply chunks_of_ok. destruct F as [F _]. unfold sized, lenZ in *. pose proof (scanned_le (st_data src)). lia.
Qed.
Lemma parse_new_res o E src : parse_new o E src <> RPanic /\ parse_new o E src <> RFuel.
Proof.
  unfold parse_new. destruct (new_reader_res E src). destruct (oArmor o); [split; assumption|].
  destruct (new_reader_armor E src); try congruence; split; discriminate.
Qed.
Lemma parse_new_same o1 o2 E1 E2 src : oArmor o1 = oArmor o2 -> e_armor E1 = e_armor E2 -> parse_new o1 E1 src = parse_new o2 E2 src.
Proof. intros H K. unfold parse_new, new_reader_armor. rewrite H, K. reflexivity. Qed.

(** The comparison of two runs on an input. *)
Theorem rel_parse_stream RN RV RD RT RU o1 o2 E1 E2 (Crash : N -> bytes -> Prop) src :
  leaves RN RV RD RT RU o1 o2 E1 E2 ->
  (forall rec tag body c, tag = 5%N \/ tag = 7%N -> lenZ body < 2 ^ 62 -> fst (tag_body rec o1 E1 tag body c) = RPanic -> Crash tag body) ->
  oArmor o1 = oArmor o2 -> e_armor E1 = e_armor E2 -> fits E1 src ->
  (forall f l, stream_met o1 E1 src 11 (f :: l) -> RV (litfmt_string f) (litfmt_string f)) ->
  rres (exists t b, stream_met o1 E1 src t b /\ Crash t b) eq (snd (parse_stream o1 E1 src)) (snd (parse_stream o2 E2 src)) /\
  Forall2 (RI RN RV RD RT) (fst (parse_stream o1 E1 src)) (fst (parse_stream o2 E2 src)).
Proof.
  intros LV HC HA HB F HG. unfold parse_stream. rewrite <- (parse_new_same _ _ _ _ src HA HB).
  destruct (parse_new_res o1 E1 src) as [P1 P2]. destruct (parse_new o1 E1 src) as [c|e| |] eqn:P; try congruence.
  - destruct (rel_parse_chunks RN RV RD RT RU eq (ropt (RDT RU)) o1 o2 E1 E2 (leaves_h _ _ _ _ _ _ _ _ _ LV) Crash HC c (parse_new_ok _ _ _ _ F P)) as [H1 H2].
    + intros f l M. apply (HG f l). exists c. split; assumption.
    + split; [|exact H2]. revert H1. apply rres_impl; [|auto]. intros (t & b & M & C). exists t, b. split; [|exact C]. exists c. split; assumption.
  - cbn. auto.
Qed.
(** Without asking which packets panic. *)
Theorem rel_stream RN RV RD RT RU o1 o2 E1 E2 src :
  leaves RN RV RD RT RU o1 o2 E1 E2 -> oArmor o1 = oArmor o2 -> e_armor E1 = e_armor E2 -> fits E1 src ->
  (forall f l, stream_met o1 E1 src 11 (f :: l) -> RV (litfmt_string f) (litfmt_string f)) ->
  snd (parse_stream o1 E1 src) = snd (parse_stream o2 E2 src) /\ snd (parse_stream o1 E1 src) <> RFuel /\
  Forall2 (RI RN RV RD RT) (fst (parse_stream o1 E1 src)) (fst (parse_stream o2 E2 src)).
Proof.
  intros LV HA HB F HG.
  destruct (rel_parse_stream RN RV RD RT RU o1 o2 E1 E2 (fun _ _ => True) src LV (fun _ _ _ _ _ _ _ => Logic.I) HA HB F HG) as [H1 H2].
  destruct (snd (parse_stream o1 E1 src)), (snd (parse_stream o2 E2 src)); cbn in H1; try contradiction; subst;
    (split; [|split; [discriminate | exact H2]]); try reflexivity. 
Qed.

(** ** Trees *)
Lemma forall2_via {A B} (R R' : A -> B -> Prop) l : Forall (fun x => forall y, R x y -> R' x y) l ->
  forall l', Forall2 R l l' -> Forall2 R' l l'.
Proof. induction 1 as [|x l Hx _ IH]; intros l' H; inversion H; subst; constructor; auto. Qed.
Lemma RI_alike (V D T : bytes -> bytes -> Prop) : forall i j, RI eq V D T i j -> alike V D T i j.
Proof.
  refine (item_rect' _ _). intros n v d t l IH j H. inversion H; subst. constructor; try assumption.
  eapply forall2_via; eassumption.
Qed.
Lemma RI_alikes (V D T : bytes -> bytes -> Prop) l l' : Forall2 (RI eq V D T) l l' -> Forall2 (alike V D T) l l'.
Proof. induction 1; constructor; auto using RI_alike. Qed.
Lemma forall2_eq {A} (l l' : list A) : Forall2 eq l l' -> l = l'.
Proof. induction 1; congruence. Qed.
Lemma RI_eq : forall i j, RI eq eq eq eq i j -> i = j.
Proof.
  refine (item_rect' _ _). intros n v d t l IH j H. inversion H; subst. f_equal.
  apply forall2_eq. eapply forall2_via; eassumption.
Qed.
Lemma RI_eqs l l' : Forall2 (RI eq eq eq eq) l l' -> l = l'.
Proof. intro H. apply forall2_eq. induction H; constructor; auto using RI_eq. Qed.
Lemma forall_via {A B} (R : A -> B -> Prop) (P : A -> Prop) l : Forall (fun x => forall y, R x y -> P x) l ->
  forall l', Forall2 R l l' -> Forall P l.
Proof. induction 1 as [|x l Hx _ IH]; intros l' H; inversion H; subst; constructor; eauto. Qed.
Lemma RI_fields (N V D T : bytes -> Prop) : forall i j,
  RI (fun x _ => N x) (fun x _ => V x) (fun x _ => D x) (fun x _ => T x) i j -> fields N V D T i.
Proof.
  refine (item_rect' _ _). intros n v d t l IH j H. inversion H; subst. constructor; try assumption.
  eapply forall_via; eassumption.
Qed.
Lemma RI_fieldss (N V D T : bytes -> Prop) l l' :
  Forall2 (RI (fun x _ => N x) (fun x _ => V x) (fun x _ => D x) (fun x _ => T x)) l l' -> Forall (fields N V D T) l.
Proof. induction 1; constructor; eauto using RI_fields. Qed.
Lemma fields_all P : forall i, fields P P P P i -> all_fields P i.
Proof.
  refine (item_rect' _ _). intros n v d t l IH H. inversion H; subst. constructor; try assumption.
  revert IH. match goal with F : Forall (fields P P P P) l |- _ => rename F into F0 end. clear H.
  induction F0; intro IH; constructor; inversion IH; auto.
Qed.

(** ** The kinds of texts *)
Lemma plain_printable x : plain x -> clean x.
Proof. intro H. apply clean_ascii. exact H. Qed.
Lemma plain_decw w : forall n, plain (decw w n).
Proof.
  induction w as [|w IH]; intro n; [reflexivity|]. cbn [decw]. apply plain_app; [apply IH|]. apply plain_cons; [|reflexivity].
  assert (n mod 10 < 10)%N as H by (apply N.mod_lt; discriminate). revert H. generalize (n mod 10)%N. intros k H.
  assert (forallb (fun k => plain_byte (n2b (48 + N.of_nat k))) (seq 0 10) = true) as A by reflexivity.
  rewrite forallb_forall in A. specialize (A (N.to_nat k)). rewrite N2Nat.id in A. apply A. apply in_seq. lia.
Qed.
Lemma plain_date tz t u : plain (unixtime2rfc3339 tz t u).
Proof.
  unfold unixtime2rfc3339, rfc3339, zw. destruct (abs_date _) as [[y m] d]. cbv zeta.
  repeat lazymatch goal with
  | |- plain (_ ++ _) => apply plain_app
  | |- plain (decw _ _) => apply plain_decw
  | |- plain (str _) => reflexivity
  | |- plain (if ?c then _ else _) => destruct c
  end.
Qed.
Lemma plain_days t : plain (days_text t).
Proof.
  assert (forall n x, plain x -> plain (firstn n x) /\ plain (skipn n x)) as C.
  { intros n x H. unfold plain in *. rewrite <- (firstn_skipn n x), forallb_app in H. apply andb_prop in H. exact H. }
  assert (forall z, plain (zeros z)) as Z by (intro z; unfold zeros; induction (Z.to_nat z) as [|n IH]; [reflexivity | apply plain_cons; [reflexivity | exact IH]]).
  unfold days_text. destruct (t =? 0)%N; [reflexivity|]. destruct (float_days t) as [m k]. destruct (shortest_from _ _ _ _ _) as [d s].
  unfold decimal_text. cbv zeta. pose proof (plain_dec d) as D.
  repeat lazymatch goal with
  | |- plain (_ ++ _) => apply plain_app
  | |- plain [] => reflexivity
  | |- plain (decw _ _) => apply plain_decw
  | |- plain (zeros _) => apply Z
  | |- plain (dec _) => exact D
  | |- plain (firstn _ _) => apply C; exact D
  | |- plain (skipn _ _) => apply C; exact D
  | |- plain (str _) => reflexivity
  | |- plain (if ?c then _ else _) => destruct c
  end.
Qed.
Lemma litfmt_utf8 f : litfmt_string f = utf8 (b2n f).
Proof. unfold litfmt_string. apply enc_rune_utf8. Qed.
Lemma litfmt_clean f : ~ control (b2n f) -> clean (litfmt_string f).
Proof.
  intro H. rewrite litfmt_utf8. exists [b2n f]. split; [|unfold utf8s; cbn [flat_map]; rewrite app_nil_r; reflexivity].
  constructor; [|constructor]. split; [|exact H]. left. pose proof (b2n_lt f). lia.
Qed.
Lemma litfmt_is_utf8 f : is_utf8 (litfmt_string f).
Proof.
  rewrite litfmt_utf8. exists [b2n f]. split; [|unfold utf8s; cbn [flat_map]; rewrite app_nil_r; reflexivity].
  constructor; [|constructor]. left. pose proof (b2n_lt f). lia.
Qed.
