(** * SubsL: the sub-packet parsers on well-formed bodies. *)
From Coq Require Import Strings.String Strings.Byte List NArith ZArith Bool Lia ZifyBool ZifyN ZifyNat.
From Verif Require Import Base BaseL SpecBase Item Reader ReaderL Context Env Time Values Opaque Monad MonadL Pubkey Subs Tags SubParse.
From Verif Require Import SpecValues ValuesL SpecText Utf8L TextL SpecPacket ReadsL PacketL TagL SpecSub SpecSubs.
Import ListNotations.
Local Open Scope N_scope.

Lemma bland_type ty : bland ty 0x7f = sub_type ty.
Proof. unfold bland, sub_type. change 127 with (N.ones 7). apply N.land_ones. Qed.
Lemma sub_item_shown o ty body : sub_item ty body (oDebug o) = sub_shown o ty body [].
Proof. unfold sub_item, sub_shown. rewrite dump_bytes_if, n_bytes_note, sub_string_spec. reflexivity. Qed.

Lemma sub_ends o E tagid ty d extra cs ec ei (m : M unit) :
  sub_m (parse_tag o E) o E tagid ty = m -> ends m d extra tt ec ei -> (lenZ (d ++ extra) < 2 ^ 62)%Z ->
  parse_sub o E tagid ty (d ++ extra) cs = (ROk (ei (sub_shown o ty (d ++ extra) [])), ec cs).
Proof.
  intros T F L. unfold parse_sub. rewrite T, sub_item_shown, at_new.
  change (mkSt (at_ (d ++ extra) (d ++ extra)) cs (sub_shown o ty (d ++ extra) [])) with (sat (d ++ extra) (d ++ extra) cs (sub_shown o ty (d ++ extra) [])).
  destruct (F (d ++ extra) cs (sub_shown o ty (d ++ extra) []) (suf_refl _ L)) as (s & R & C & I).
  rewrite R, C, I. reflexivity.
Qed.
Lemma sub_cuts o E tagid ty d q cs (m : M unit) :
  sub_m (parse_tag o E) o E tagid ty = m -> cuts m d -> strict_prefix q d -> (lenZ q < 2 ^ 62)%Z ->
  exists e, fst (parse_sub o E tagid ty q cs) = RErr e /\ (e = EEof \/ e = EUnexp).
Proof.
  intros T F S L. unfold parse_sub. rewrite T, sub_item_shown, at_new.
  change (mkSt (at_ q q) cs (sub_shown o ty q [])) with (sat q q cs (sub_shown o ty q [])).
  destruct (F q q cs (sub_shown o ty q []) (suf_refl _ L) S) as (e & s & R & X). rewrite R. exists e. auto.
Qed.
Lemma sub_case o E ty k : sub_type ty = k -> sub_m (parse_tag o E) o E 2 ty =
  match k with
  | 2 => sub02 o E | 3 => sub03 o E | 4 => sub04 | 5 => sub05 | 6 => sub_text o
  | 7 => sub07 | 9 => sub09 o E | 10 => ret tt | 11 => sub_algs sym_item o | 12 => sub12 o
  | 16 => sub16 | 20 => sub20 o | 21 => sub_algs hash_item o | 22 => sub_algs comp_item o
  | 23 => sub23 | 24 => sub_text o | 25 => sub25 | 26 => sub_text o | 27 => sub27
  | 28 => sub_text o | 29 => sub29 o | 30 => sub30 | 31 => sub31 o | 32 => sub32 (parse_tag o E)
  | 33 => sub_fpr | 34 => sub_algs aead_item o | 35 => sub_fpr | 37 => sub37 o
  | 38 => sub38 (parse_tag o E) o E | _ => ret tt
  end.
Proof. intros <-. unfold sub_m. rewrite bland_type. reflexivity. Qed.

(** ** Texts *)
Lemma utf8_dec body : {is_utf8 body} + {~ is_utf8 body}.
Proof.
  destruct (Utf8.utf8_valid body) eqn:V; [left; apply utf8_valid_spec; exact V | right; intro H; apply utf8_valid_spec in H; congruence].
Qed.
Lemma text_item_shown name f body : text_shown name f body (text_item name body f).
Proof.
  destruct (utf8_dec body) as [(l & F & ->)|N].
  - destruct l as [|c l]; [apply text_none|]. rewrite text_item_valid by (assumption || discriminate). rewrite dump_bytes_if. apply text_valid; [assumption | discriminate].
  - rewrite text_item_invalid, hexdump_hex_text by assumption. apply text_invalid, N.
Qed.

(** ** Flags *)
Lemma flag_item_line bits t k : opt_list (flag_item bits (flag_text k bits t)) = if bits =? 0 then [] else [flag_shown (flag_text k bits t)].
Proof. unfold flag_item. destruct (bits =? 0); reflexivity. Qed.
Lemma unknown_text k bits : unknown_flag k bits = flag_text k bits None.
Proof. unfold unknown_flag, flag_text, hex0x2. rewrite <- app_assoc, hex2_two_hex. reflexivity. Qed.
Lemma full_mask b : N.land (b2n b) 0xff = b2n b.
Proof. change 0xff with (N.ones 8). rewrite N.land_ones. apply N.mod_small. apply b2n_lt. Qed.
Lemma ends_flag_loop l : forall k s, exists s', flag_loop k l s = (ROk tt, s') /\ s_cs s' = s_cs s /\ s_cur s' = adds (more_lines k l) (s_cur s).
Proof.
  induction l as [|b l IH]; intros k s; cbn [flag_loop more_lines].
  - eexists. split; [reflexivity|]. rewrite adds_nil. auto.
  - unfold bind, addo, upd. cbn [fst]. destruct (IH (k + 1) (mkSt (s_rd s) (s_cs s) (add_opt (flag_item (b2n b) (unknown_flag k (b2n b))) (s_cur s)))) as (s' & R & C & I).
    exists s'. split; [exact R|]. split; [exact C|]. rewrite I. cbn [s_cur]. rewrite add_opt_adds, adds_adds, unknown_text, flag_item_line.
    unfold flag_lines. cbn [flat_map fst snd app]. rewrite app_nil_r, full_mask. reflexivity.
Qed.
Lemma ends_more_flags l : ends more_flags [] l tt same (adds (more_lines 2 l)).
Proof.
  intros B cs it SF. cbn [app] in *. unfold more_flags. erewrite bind_ok by (apply rdRest_at; exact SF).
  destruct l as [|b l].
  - exists (sat B [] cs it). split; [reflexivity|]. cbn [sat s_cs s_cur more_lines]. rewrite adds_nil. auto.
  - replace (0 <? lenZ (b :: l))%Z with true by (unfold lenZ; cbn [length]; lia).
    destruct (rd2EOF_at B (b :: l) cs it SF ltac:(discriminate)) as (s' & R & C & I & _).
    erewrite bind_ok by exact R. destruct (ends_flag_loop (b :: l) 2 s') as (s2 & R2 & C2 & I2).
    exists s2. rewrite R2, C2, I2, C, I. auto.
Qed.

(** ** Fields of fixed size *)
Lemma ends_bool no yes b extra : ends (sub_bool no yes) [b] extra tt same (w_value (if b2n b =? 0 then no else yes)).
Proof. unfold sub_bool, setValue. step. step. Qed.
Lemma cuts_bool no yes b : cuts (sub_bool no yes) [b].
Proof. unfold sub_bool. repeat step. Qed.
Lemma ends_05 l a extra : ends sub05 [l; a] extra tt same (adds [number_shown "Level" (b2n l); number_shown "Trust amount" (b2n a)]).
Proof. unfold sub05. eapply ends_ext0; [do 2 step; step; step | reflexivity | intro i; fin_items]. Qed.
Lemma cuts_05 l a : cuts sub05 [l; a].
Proof. unfold sub05. repeat step. Qed.
Lemma ends_04 b extra : ends sub04 [b] extra tt same
  (fun i => w_dump (hex_text extra) (w_value (if b2n b =? 0 then str "Not exportable" else str "Exportable") i)).
Proof.
  unfold sub04, sub_bool, setValue, setDump. eapply ends_ext0; [step; step; step; step; step | reflexivity|].
  intro i. cbv beta. unfold same. rewrite dump_bytes_if. reflexivity.
Qed.
Lemma cuts_04 b : cuts sub04 [b].
Proof. unfold sub04, sub_bool. repeat step. Qed.
Lemma class_text c : (if negb (bland c 0x80 =? 0) then (if negb (bland c 0x40 =? 0) then str "Sensitive" else str "Normal") else str "Unknown") = revocation_class c.
Proof.
  apply beqs_spec. revert c. match goal with |- forall c, @?P c = true => apply (byte_all P) end. vm_compute. reflexivity.
Qed.
Lemma raw_shown_eq n d : Item (str n) [] (dump_bytes d true) (n_bytes (lenZ d)) [] = raw_shown n d.
Proof. unfold raw_shown. rewrite dump_bytes_if, n_bytes_note. reflexivity. Qed.
Lemma ends_12 o c a fpr : ends (sub12 o) [c; a] fpr tt same
  (adds [Item (str "Class") (revocation_class c) (two_hex c) [] []; pub_shown (oDebug o) a; raw_shown "Fingerprint" fpr]).
Proof.
  unfold sub12. cbv zeta. eapply ends_ext0; [do 6 step | reflexivity|].
  intro i. rewrite class_text, raw_shown_eq, hex2_two_hex. fin_items.
Qed.
Lemma cuts_12 o c a : cuts (sub12 o) [c; a].
Proof. unfold sub12. cbv zeta. repeat step. Qed.
Lemma ends_31 o a h d : ends (sub31 o) [a; h] d tt same (adds [pub_shown (oDebug o) a; hash_shown (oDebug o) h; raw_shown "Hash" d]).
Proof. unfold sub31. eapply ends_ext0; [do 6 step | reflexivity|]. intro i. rewrite raw_shown_eq. fin_items. Qed.
Lemma cuts_31 o a h : cuts (sub31 o) [a; h].
Proof. unfold sub31. repeat step. Qed.
Lemma ends_fpr v d : ends sub_fpr [v] d tt same
  (adds [Item (str "Version") (dec (b2n v)) [] (fpr_note (b2n v)) []; raw_shown "Fingerprint" d]).
Proof. unfold sub_fpr. cbv zeta. eapply ends_ext0; [do 4 step | reflexivity|]. intro i. rewrite raw_shown_eq. fin_items. Qed.
Lemma cuts_fpr v : cuts sub_fpr [v].
Proof. unfold sub_fpr. cbv zeta. repeat step. Qed.
Lemma ends_37 o d : ends (sub37 o) [] d tt same
  (adds [Item (str "certification digests") [] (dump_if (oCert o) d) (bytes_note (lenN d)) []]).
Proof. unfold sub37. eapply ends_ext0; [do 2 step | reflexivity|]. intro i. rewrite dump_bytes_if, n_bytes_note. fin_items. Qed.
Lemma ends_29 o c d : exists it, text_shown (str "Additional resultrmation") (oDebug o) d it /\
  ends (sub29 o) [c] d tt same (fun i => adds (match d with [] => [] | _ => [it] end) (w_value (reason_text c) i)).
Proof.
  exists (text_item (str "Additional resultrmation") d (oDebug o)). split; [apply text_item_shown|].
  assert ((if in_private (b2n c) then str "(Private Use)" else msgs_get reason_names (b2n c) (str "Unknown reason")) ++ str " (" ++ dec (b2n c) ++ str ")" = reason_text c) as X.
  { apply beqs_spec. revert c. match goal with |- forall c, @?P c = true => apply (byte_all P) end. vm_compute. reflexivity. }
  unfold sub29, setValue. cbv zeta. eapply ends_ext0.
  - step. cbv beta. match goal with |- context [w_value ?x] => change x with ((if in_private (b2n c) then str "(Private Use)" else msgs_get reason_names (b2n c) (str "Unknown reason")) ++ str " (" ++ dec (b2n c) ++ str ")") end. rewrite X. step. step.
    instantiate (1 := adds (match d with [] => [] | _ => [text_item (str "Additional resultrmation") d (oDebug o)] end)).
    instantiate (1 := same).
    destruct d as [|x d].
    + intros B cs it SF. exists (sat B [] cs it). split; [reflexivity|]. cbn [sat s_cur s_cs]. rewrite adds_nil. auto.
    + replace (0 <? lenZ (x :: d))%Z with true by (unfold lenZ; cbn [length]; lia).
      intros B cs it SF. cbn [app] in *. destruct (rd2EOF_at B (x :: d) cs it SF ltac:(discriminate)) as (s' & R & C & I & _).
      erewrite bind_ok by exact R. eexists. split; [reflexivity|]. cbn [s_cs s_cur]. rewrite C, I, add_child_adds. auto.
  - reflexivity.
  - reflexivity.
Qed.
Lemma cuts_29 o c : cuts (sub29 o) [c].
Proof. unfold sub29. cbv zeta. unfold setValue. repeat step. Qed.
Lemma ends_30 b l : ends sub30 [b] l tt same (adds (flag_lines features1 1 b ++ more_lines 2 l)).
Proof.
  unfold sub30. eapply ends_ext0; [do 5 step; apply ends_more_flags | reflexivity|].
  intro i. rewrite unknown_text. cbv beta. unfold same. rewrite !adds_adds. unfold flag_lines, features1. cbn [flat_map fst snd].
  repeat match goal with |- context [flag_item ?x (str ?t)] => change (flag_item x (str t)) with (flag_item x (flag_text 1 x (Some t))) end.
  rewrite !flag_item_line, <- ?app_assoc. reflexivity.
Qed.
Lemma cuts_30 b : cuts sub30 [b].
Proof. unfold sub30. repeat step. Qed.
Lemma ends_23 b l : ends sub23 [b] l tt same (adds (flag_lines keyserver1 1 b ++ more_lines 2 l)).
Proof.
  unfold sub23. eapply ends_ext0; [do 3 step; apply ends_more_flags | reflexivity|].
  intro i. rewrite unknown_text. cbv beta. unfold same. rewrite !adds_adds. unfold flag_lines, keyserver1. cbn [flat_map fst snd].
  repeat match goal with |- context [flag_item ?x (str ?t)] => change (flag_item x (str t)) with (flag_item x (flag_text 1 x (Some t))) end.
  rewrite !flag_item_line, <- ?app_assoc. reflexivity.
Qed.
Lemma cuts_23 b : cuts sub23 [b].
Proof. unfold sub23. repeat step. Qed.
Lemma ends_27_one b : ends sub27 [b] [] tt same (adds (flag_lines key_flags1 1 b)).
Proof.
  unfold sub27. eapply ends_ext0; [do 10 step; cbn; step; apply ends_more_flags | reflexivity|].
  intro i. rewrite unknown_text. cbv beta. unfold same. rewrite !adds_adds. unfold flag_lines, key_flags1. cbn [flat_map fst snd more_lines].
  repeat match goal with |- context [flag_item ?x (str ?t)] => change (flag_item x (str t)) with (flag_item x (flag_text 1 x (Some t))) end.
  rewrite !flag_item_line, <- ?app_assoc. reflexivity.
Qed.
Lemma ends_27_more b c l : ends sub27 [b] (c :: l) tt same (adds (flag_lines key_flags1 1 b ++ flag_lines key_flags2 2 c ++ more_lines 2 l)).
Proof.
  intros B cs it SF. change ([b] ++ c :: l) with ([b; c] ++ l) in *. revert B cs it SF.
  match goal with |- forall B cs it, suf B _ -> exists s, ?m _ = _ /\ _ /\ s_cur s = ?f it => change (ends m [b; c] l tt same f) end.
  unfold sub27. eapply ends_ext0.
  - do 9 step. apply ends_rest. replace (0 <? lenZ ([c] ++ l))%Z with true by (unfold lenZ; cbn [app length]; lia). repeat step. apply ends_more_flags.
  - reflexivity.
  - intro i. rewrite !unknown_text. cbv beta. unfold same. rewrite !adds_adds. unfold flag_lines, key_flags1, key_flags2. cbn [flat_map fst snd more_lines].
    repeat match goal with |- context [flag_item ?x (str ?t)] => change (flag_item x (str t)) with (flag_item x (flag_text 1 x (Some t))) end.
    rewrite !flag_item_line, <- ?app_assoc. reflexivity.
Qed.
Lemma cuts_27 b : cuts sub27 [b].
Proof. unfold sub27. repeat step. Qed.

(** ** Values in place of the item *)
Definition sub_out (x : res unit * st) : res item * cst :=
  (match fst x with ROk _ => ROk (s_cur (snd x)) | RErr e => RErr e | RPanic => RPanic | RFuel => RFuel end, s_cs (snd x)).
Lemma parse_sub_start o E tagid ty body cs (m : M unit) : sub_m (parse_tag o E) o E tagid ty = m ->
  parse_sub o E tagid ty body cs = sub_out (m (sat body body cs (sub_shown o ty body []))).
Proof. intros T. unfold parse_sub. rewrite T, sub_item_shown, at_new. unfold sat. destruct (m _) as [[]]; reflexivity. Qed.

Lemma lenZ4 t : 4%Z = lenZ (be_enc 4 t). Proof. unfold lenZ. rewrite be_enc_length. reflexivity. Qed.
Lemma be4 t : t < 2 ^ 32 -> be (be_enc 4 t) = t.
Proof. intro H. rewrite be_be_enc. apply N.mod_small. exact H. Qed.
Lemma parse_02 o E ty t extra cs : sub_type ty = 2 -> t < 2 ^ 32 -> (lenZ (be_enc 4 t ++ extra) < 2 ^ 62)%Z ->
  parse_sub o E 2 ty (be_enc 4 t ++ extra) cs =
    (ROk (Item (sub_name ty) (unixtime2rfc3339 (e_tz E) t (oUTC o)) (dump_if (oDebug o) (be_enc 4 t)) [] []),
     with_sig (Some (mkDT (be_enc 4 t) (oUTC o))) cs).
Proof.
  intros T H L. rewrite (parse_sub_start o E 2 ty _ cs _ (sub_case o E ty 2 T)). unfold sub02. erewrite bind_ok by reflexivity.
  unfold newDateTime. rewrite bind_assoc. erewrite bind_ok by (apply rdBytes_at; [apply suf_refl, L | apply lenZ4]).
  erewrite bind_ok by reflexivity. erewrite bind_ok by reflexivity. unfold sub_out, putCur, upd, sat. cbn [fst snd s_cur s_cs s_rd].
  unfold sigtime_item, dt_item, dt_text, dt_unix. cbn [dt_tm dt_utc w_name]. rewrite be4, dump_bytes_if by exact H. reflexivity.
Qed.
Lemma expire_item_shown o E ty start t : t < 2 ^ 32 ->
  expire_item E (sub_name ty) start (be_enc 4 t) (oDebug o) = expire_shown o E ty start t.
Proof.
  intro H. unfold expire_item, expire_shown, expire_note. cbv zeta. rewrite be4, dump_bytes_if by exact H. f_equal.
  destruct start as [d|]; [|reflexivity]. unfold dt_unix. destruct (be (dt_tm d) =? 0) eqn:Z.
  - replace (0 <? be (dt_tm d)) with false by lia. reflexivity.
  - replace (0 <? be (dt_tm d)) with true by lia. reflexivity.
Qed.
Lemma parse_03 o E ty t extra cs : sub_type ty = 3 -> t < 2 ^ 32 -> (lenZ (be_enc 4 t ++ extra) < 2 ^ 62)%Z ->
  parse_sub o E 2 ty (be_enc 4 t ++ extra) cs = (ROk (expire_shown o E ty (c_sig cs) t), with_sig None cs).
Proof.
  intros T H L. rewrite (parse_sub_start o E 2 ty _ cs _ (sub_case o E ty 3 T)). unfold sub03. do 2 erewrite bind_ok by reflexivity.
  erewrite bind_ok by (apply rdBytes_at; [apply suf_refl, L | apply lenZ4]).
  erewrite bind_ok by reflexivity. unfold sub_out, putCur, upd, sat. cbn [fst snd s_cur s_cs s_rd sub_shown i_name].
  rewrite expire_item_shown by exact H. reflexivity.
Qed.
Lemma parse_09 o E ty t extra cs : sub_type ty = 9 -> t < 2 ^ 32 -> (lenZ (be_enc 4 t ++ extra) < 2 ^ 62)%Z ->
  parse_sub o E 2 ty (be_enc 4 t ++ extra) cs = (ROk (expire_shown o E ty (c_key cs) t), with_key None cs).
Proof.
  intros T H L. rewrite (parse_sub_start o E 2 ty _ cs _ (sub_case o E ty 9 T)). unfold sub09. do 2 erewrite bind_ok by reflexivity.
  erewrite bind_ok by (apply rdBytes_at; [apply suf_refl, L | apply lenZ4]).
  erewrite bind_ok by reflexivity. unfold sub_out, putCur, upd, sat. cbn [fst snd s_cur s_cs s_rd sub_shown i_name].
  rewrite expire_item_shown by exact H. reflexivity.
Qed.
Lemma parse_16 o E ty id extra cs : sub_type ty = 16 -> length id = 8%nat -> (lenZ (id ++ extra) < 2 ^ 62)%Z ->
  parse_sub o E 2 ty (id ++ extra) cs = (ROk (Item (sub_name ty) (str "0x" ++ flat_map two_hex id) [] [] []), cs).
Proof.
  intros T H L. rewrite (parse_sub_start o E 2 ty _ cs _ (sub_case o E ty 16 T)). unfold sub16. erewrite bind_ok by reflexivity.
  erewrite bind_ok by (apply rdBytes_at; [apply suf_refl, L | unfold lenZ; rewrite H; reflexivity]).
  unfold sub_out, putCur, upd, sat. cbn [fst snd s_cur s_cs s_rd sub_shown i_name].
  rewrite (show_keyid o E id H). reflexivity.
Qed.
Lemma cuts_four_cs {A B} (f : A -> B -> bytes -> M unit) (m1 : M A) (m2 : M B) n d :
  (forall s, exists a, m1 s = (ROk a, s)) -> (forall s, exists a, m2 s = (ROk a, s)) -> n = lenZ d -> (n < 2 ^ 62)%Z ->
  cuts (let* a := m1 in let* b := m2 in let* x := rdBytes n in f a b x) d.
Proof.
  intros H1 H2 L LN B0 q cs it SF SP. destruct (H1 (sat B0 q cs it)) as (a & R1). destruct (H2 (sat B0 q cs it)) as (b & R2).
  destruct (cuts_bytes n d L LN B0 q cs it SF SP) as (e & s & R & X). exists e, s. split; [|exact X].
  rewrite (bind_ok _ _ _ _ _ R1), (bind_ok _ _ _ _ _ R2). apply bind_err, R.
Qed.
Lemma cuts_02 o E t : cuts (sub02 o E) (be_enc 4 t).
Proof.
  intros B q cs it SF SP. destruct (cuts_bytes 4 (be_enc 4 t) (lenZ4 t) ltac:(reflexivity) B q cs it SF SP) as (e & s & R & X).
  exists e, s. split; [|exact X]. unfold sub02. erewrite bind_ok by reflexivity. unfold newDateTime. rewrite bind_assoc. apply bind_err, R.
Qed.
Lemma cuts_03 o E t : cuts (sub03 o E) (be_enc 4 t).
Proof. apply cuts_four_cs; [intro; eexists; reflexivity .. | apply lenZ4 | reflexivity]. Qed.
Lemma cuts_09 o E t : cuts (sub09 o E) (be_enc 4 t).
Proof. apply cuts_four_cs; [intro; eexists; reflexivity .. | apply lenZ4 | reflexivity]. Qed.
Lemma cuts_16 id : length id = 8%nat -> cuts sub16 id.
Proof.
  intros L B q cs it SF SP. destruct (cuts_bytes 8 id ltac:(unfold lenZ; rewrite L; reflexivity) ltac:(reflexivity) B q cs it SF SP) as (e & s & R & X).
  exists e, s. split; [|exact X]. unfold sub16. erewrite bind_ok by reflexivity. apply bind_err, R.
Qed.

(** ** Texts and lists of algorithms *)
Lemma parse_text o E ty body cs : sub_type ty = 6 \/ sub_type ty = 24 \/ sub_type ty = 26 \/ sub_type ty = 28 ->
  exists it, text_shown (sub_name ty) (oDebug o) body it /\ parse_sub o E 2 ty body cs = (ROk it, cs).
Proof.
  intro T. exists (text_item (sub_name ty) body (oDebug o)). split; [apply text_item_shown|].
  assert (sub_m (parse_tag o E) o E 2 ty = sub_text o) as M.
  { destruct T as [T|[T|[T|T]]]; apply (sub_case o E ty _ T). }
  rewrite (parse_sub_start o E 2 ty _ cs _ M). unfold sub_text. do 2 erewrite bind_ok by reflexivity. reflexivity.
Qed.
Lemma add_all (f : byte -> item) : forall l s, mapM_ (fun a => add (f a)) l s = (ROk tt, mkSt (s_rd s) (s_cs s) (adds (map f l) (s_cur s))).
Proof.
  induction l as [|a l IH]; intro s; cbn [mapM_ map].
  - rewrite adds_nil. destruct s. reflexivity.
  - unfold bind at 1, add at 1, upd. rewrite IH. cbn [s_rd s_cs s_cur]. rewrite add_child_adds, adds_adds. reflexivity.
Qed.
Lemma parse_algs mk o E ty body cs (sh : bool -> byte -> item) : (forall a f, mk a f = sh f a) -> sub_m (parse_tag o E) o E 2 ty = sub_algs mk o ->
  parse_sub o E 2 ty body cs = (ROk (sub_shown o ty body (map (sh (oDebug o)) body)), cs).
Proof.
  intros H M. rewrite (parse_sub_start o E 2 ty _ cs _ M). unfold sub_algs. erewrite bind_ok by reflexivity.
  rewrite add_all. unfold sub_out. cbn [fst snd s_cur s_cs sat s_rd]. f_equal. f_equal. unfold sub_shown, adds. cbn [app].
  f_equal. apply map_ext. intro a. apply H.
Qed.

(** ** Notation data *)
Lemma nth_hd4 (a b c d : byte) : nth 0 [a; b; c; d] x00 = a /\ nth 1 [a; b; c; d] x00 = b /\ nth 2 [a; b; c; d] x00 = c /\ nth 3 [a; b; c; d] x00 = d.
Proof. repeat split. Qed.
Lemma be2e n : n < 2 ^ 16 -> be (be_enc 2 n) = n.
Proof. intro H. rewrite be_be_enc. apply N.mod_small. exact H. Qed.
Lemma testbit7 b : negb (bland b 0x80 =? 0) = N.testbit (b2n b) 7.
Proof. apply Bool.eqb_prop. revert b. match goal with |- forall c, @?P c = true => apply (byte_all P) end. vm_compute. reflexivity. Qed.
Lemma ends_20 o f0 f1 f2 f3 name value extra : lenN name < 2 ^ 16 -> lenN value < 2 ^ 16 ->
  exists itn itv, text_shown (str "Name") (oDebug o) name itn /\ notation_value o f0 value itv /\
  ends (sub20 o) (notation_octets f0 f1 f2 f3 name value) extra tt same (adds (notation_flags f0 f1 f2 f3 ++ [itn; itv])).
Proof.
  intros LN LV. exists (text_item (str "Name") name (oDebug o)),
    (if negb (bland f0 0x80 =? 0) then text_item (str "Value") value (oDebug o) else it_nd (str "Value") (dump_bytes value true)).
  split; [apply text_item_shown|]. split.
  { unfold notation_value. rewrite testbit7. destruct (N.testbit (b2n f0) 7); [apply text_item_shown | rewrite dump_bytes_if; reflexivity]. }
  assert (notation_octets f0 f1 f2 f3 name value = [f0; f1; f2; f3] ++ be_enc 2 (lenN name) ++ be_enc 2 (lenN value) ++ name ++ value ++ []) as -> by (rewrite app_nil_r; reflexivity).
  unfold sub20. cbv zeta. eapply ends_ext0.
  - step; [reflexivity|]. cbn [nth]. do 5 step. step; [unfold lenZ; rewrite be_enc_length; reflexivity|].
    step; [unfold lenZ; rewrite be_enc_length; reflexivity|]. rewrite !be2e by assumption.
    step; [unfold lenZ, lenN; lia|]. step. step; [unfold lenZ, lenN; lia|]. step.
  - reflexivity.
  - intro i. cbv beta. unfold same. rewrite !adds_adds. f_equal. unfold notation_flags, flag_lines, notation1. cbn [flat_map fst snd more_lines].
    rewrite !unknown_text.
    repeat match goal with |- context [flag_item ?x (str ?t)] => change (flag_item x (str t)) with (flag_item x (flag_text 1 x (Some t))) end.
    rewrite !flag_item_line. unfold flag_lines. cbn [flat_map fst snd]. rewrite !full_mask, ?app_nil_r, <- ?app_assoc. reflexivity.
Qed.
Lemma cuts_20 o f0 f1 f2 f3 name value : lenN name < 2 ^ 16 -> lenN value < 2 ^ 16 -> cuts (sub20 o) (notation_octets f0 f1 f2 f3 name value).
Proof.
  intros LN LV. unfold sub20, notation_octets. cbv zeta. apply cuts_bytes_bind; [reflexivity | reflexivity |]. cbn [nth]. do 5 step.
  apply cuts_bytes_bind; [unfold lenZ; rewrite be_enc_length; reflexivity | reflexivity|].
  apply cuts_bytes_bind; [unfold lenZ; rewrite be_enc_length; reflexivity | reflexivity|]. rewrite !be2e by assumption.
  apply cuts_bytes_bind; [unfold lenZ, lenN; lia | lia|]. step. rewrite <- (app_nil_r value) at 2.
  apply cuts_bytes_bind; [unfold lenZ, lenN; lia | lia|]. apply cuts_nil.
Qed.

(** ** An embedded signature *)
Definition first_res {A B} (r : res (A * B)) : res A :=
  match r with ROk x => ROk (fst x) | RErr e => RErr e | RPanic => RPanic | RFuel => RFuel end.
Lemma parse_32 o E ty body cs : sub_type ty = 32 ->
  parse_sub o E 2 ty body cs =
    (match fst (parse_tag o E 2 body cs) with
     | ROk (i, _) => ROk (sub_shown o ty body [i]) | RErr e => RErr e | RPanic => RPanic | RFuel => RFuel
     end, snd (parse_tag o E 2 body cs)).
Proof.
  intro T. rewrite (parse_sub_start o E 2 ty _ cs _ (sub_case o E ty 32 T)). unfold sub32. erewrite bind_ok by reflexivity.
  unfold call_rec, bind. cbn [s_cs sat s_rd]. change (r_body (at_ body body)) with body.
  destruct (parse_tag o E 2 body cs) as [[[i x]|e| |] cs1]; reflexivity.
Qed.
