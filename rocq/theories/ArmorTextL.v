(** * ArmorTextL: reading the lines of an armored text (C52, C53). *)
From Coq Require Import Strings.String Strings.Byte List NArith ZArith Bool Arith Lia ZifyBool ZifyN ZifyNat.
From Verif Require Import Base BaseL SpecBase Utf8 Env Parse Radix64 SpecArmor SpecRadix64 ArmorL Radix64L ChecksumL.
Import ListNotations.
Local Open Scope N_scope.

(** ** Lines *)
Lemma find_lf_in n : forall v rest, ~ In x0a v ->
  find_lf n (v ++ x0a :: rest) = if (length v <? n)%nat then Some (v, rest) else None.
Proof.
  induction n as [|n IH]; intros v rest NI; [destruct v; reflexivity|]. destruct v as [|b v]; [reflexivity|].
  cbn [app find_lf]. destruct (Byte.eqb b x0a) eqn:E; [apply byte_eqb_spec in E; subst; exfalso; apply NI; left; reflexivity|].
  rewrite IH by (intro I; apply NI; right; exact I). cbn [length]. change (S (length v) <? S n)%nat with (length v <? n)%nat.
  destruct (length v <? n)%nat; reflexivity.
Qed.
Lemma read_line_short v rest : ~ In x0a v -> (length v < 100)%nat -> read_line (v ++ x0a :: rest) = Some (strip_cr v, false, rest).
Proof.
  intros NI L. unfold read_line. destruct (v ++ x0a :: rest) as [|b0 l0] eqn:E; [destruct v; discriminate|]. rewrite <- E. clear E.
  rewrite find_lf_in by exact NI. replace (length v <? 100)%nat with true by lia. rewrite drop_cr_strip, rev_involutive. reflexivity.
Qed.
Lemma read_line_long v rest : ~ In x0a v -> (100 <= length v)%nat ->
  exists k, (99 <= k <= 100)%nat /\ read_line (v ++ x0a :: rest) = Some (firstn k v, true, skipn k v ++ x0a :: rest).
Proof.
  intros NI L. unfold read_line. destruct (v ++ x0a :: rest) as [|b0 l0] eqn:E; [destruct v; discriminate|]. rewrite <- E. clear E.
  rewrite find_lf_in by exact NI. replace (length v <? 100)%nat with false by lia.
  replace (100 <=? length (v ++ x0a :: rest))%nat with true by (rewrite app_length; cbn [length]; lia).
  assert (forall k, (k <= 100)%nat -> firstn k (v ++ x0a :: rest) = firstn k v /\ skipn k (v ++ x0a :: rest) = skipn k v ++ x0a :: rest) as F.
  { intros k Hk. rewrite firstn_app, skipn_app. replace (k - length v)%nat with 0%nat by lia. cbn [firstn skipn]. rewrite app_nil_r. split; reflexivity. }
  destruct (F 99%nat ltac:(lia)) as [F1 F2]. destruct (F 100%nat ltac:(lia)) as [F3 F4]. rewrite F1, F2, F3, F4.
  destruct (nth_error (v ++ x0a :: rest) 99) as [b|]; [|exists 100%nat; split; [lia | reflexivity]].
  destruct b; solve [exists 100%nat; split; [lia | reflexivity] | exists 99%nat; split; [lia | reflexivity]].
Qed.
Lemma strip_cr_cases l : strip_cr l = l \/ exists t, l = t ++ [x0d] /\ strip_cr l = t.
Proof.
  unfold strip_cr. destruct (rev l) as [|b t] eqn:E; [left; reflexivity|].
  destruct b; try (left; reflexivity). right. exists (rev t). split; [|reflexivity].
  rewrite <- (rev_involutive l), E. reflexivity.
Qed.
Lemma strip_cr_last l b : b <> x0d -> strip_cr (l ++ [b]) = l ++ [b].
Proof.
  intro NE. destruct (strip_cr_cases (l ++ [b])) as [E|[t [E _]]]; [exact E|]. apply app_inj_tail in E. destruct E. contradiction.
Qed.
(** Text that starts with [p ++ [b]], where [b] is no carriage return, still does so without one at its end. *)
Lemma strip_cr_keeps p b s : b <> x0d -> exists s', strip_cr (p ++ b :: s) = p ++ b :: s'.
Proof.
  intro NE. destruct (strip_cr_cases (p ++ b :: s)) as [E|[t [E F]]]; [exists s; exact E|]. rewrite F.
  destruct (exists_last (l := b :: s) ltac:(discriminate)) as [i [c Hc]]. rewrite Hc, app_assoc in E. apply app_inj_tail in E. destruct E as [<- ->].
  destruct i as [|b' i]; [cbn in Hc; injection Hc as Hb _; contradiction|]. cbn in Hc. injection Hc as <- _; exists i. reflexivity.
Qed.
Lemma strip_cr_without l : ~ In x0d l -> strip_cr l = l.
Proof. intro NI. destruct (strip_cr_cases l) as [E|[t [E _]]]; [exact E|]. exfalso. apply NI. rewrite E. apply in_app_iff. right. left. reflexivity. Qed.

(** ** TrimSpace *)
Definition ascii (b : byte) : Prop := b2n b < 128.
Lemma visible_space b : visible b -> is_space (b2n b) = false /\ ascii b /\ b <> x0d /\ b <> x0a.
Proof.
  unfold visible, ascii. intro H. split; [|split; [lia | split; intros ->; vm_compute in H; destruct H; congruence]].
  unfold is_space, inr. lia.
Qed.
Lemma first_rune_ascii b s : ascii b -> first_rune (b :: s) = (1%nat, is_space (b2n b)).
Proof. unfold ascii. intro H. cbn [first_rune]. replace (b2n b <? 128) with true by lia. reflexivity. Qed.
Lemma trim_left_visible f b s : visible b -> trim_left f (b :: s) = b :: s.
Proof.
  intro V. destruct (visible_space b V) as (A & B & _). destruct f as [|f]; [reflexivity|]. cbn [trim_left]. rewrite first_rune_ascii by exact B. rewrite A. reflexivity.
Qed.
Lemma trim_right_keeps p : forall f b s, Forall ascii p -> visible b -> (length p < f)%nat ->
  exists s', trim_right f (p ++ b :: s) = p ++ b :: s'.
Proof.
  induction p as [|c p IH]; intros f b s A V L; (destruct f as [|f]; [cbn [length] in L; lia|]); cbn [app trim_right].
  - destruct (visible_space b V) as (X & Y & _). rewrite first_rune_ascii by exact Y. rewrite X. cbn [andb firstn app skipn]. eexists. reflexivity.
  - inversion A; subst. rewrite first_rune_ascii by assumption. cbn [skipn firstn app].
    destruct (IH f b s) as [s' ->]; [assumption | assumption | cbn [length] in L; lia |].
    replace (is_nil (p ++ b :: s')) with false by (destruct p; reflexivity). rewrite andb_false_r. exists s'. reflexivity.
Qed.
(** A text that begins and goes on to [b] with visible characters or blanks in between. *)
Lemma trim_space_keeps a p b s : visible a -> Forall ascii p -> visible b ->
  exists s', trim_space (a :: p ++ b :: s) = a :: p ++ b :: s'.
Proof.
  intros VA AP VB. unfold trim_space. rewrite trim_left_visible by exact VA.
  destruct (trim_right_keeps (a :: p) (length (a :: p ++ b :: s)) b s) as [s' E].
  - constructor; [apply (visible_space a VA) | exact AP].
  - exact VB.
  - cbn [length]. rewrite app_length. cbn [length]. lia.
  - exists s'. exact E.
Qed.
Lemma trim_space_blank l : Forall (fun b => b = x20 \/ b = x09) l -> trim_space l = [].
Proof.
  intro H. unfold trim_space. assert (forall f, (length l <= f)%nat -> trim_left f l = []) as E.
  { induction l as [|b l IH]; intros f L; [destruct f; reflexivity|]. destruct f as [|f]; [cbn [length] in L; lia|]. inversion H; subst.
    cbn [trim_left]. rewrite first_rune_ascii by (destruct H2 as [-> | ->]; reflexivity).
    replace (is_space (b2n b)) with true by (destruct H2 as [-> | ->]; reflexivity). cbn [skipn]. apply IH; [assumption | cbn [length] in L; lia]. }
  rewrite E by lia. reflexivity.
Qed.
Lemma has_colon_in p s : has_colon (p ++ str ": " ++ s) = true.
Proof. induction p as [|b p IH]; [reflexivity|]. cbn [app has_colon]. rewrite IH. apply orb_true_r. Qed.

(** ** The head of a block *)
Lemma forall_ascii (P : byte -> Prop) l : (forall b, P b -> ascii b) -> Forall P l -> Forall ascii l.
Proof. intros H F. eapply Forall_impl; [exact H | exact F]. Qed.
Lemma begin_armor_read b : begin_armor b -> ~ In x0a b /\ (length b < 100)%nat /\ strip_cr b = b /\
  (16 <? lenN (trim_space b)) && has_prefix (str "-----BEGIN ") (trim_space b) = true.
Proof.
  intros (ty & -> & NE & L & F & _).
  assert (str "-----BEGIN PGP " ++ ty ++ str "-----" = x2d :: (str "----BEGIN PGP " ++ ty ++ str "----") ++ [x2d]) as S
    by (rewrite <- !app_assoc; reflexivity).
  assert (forall c, In c (str "-----BEGIN PGP " ++ ty ++ str "-----") -> 32 <= b2n c <= 126) as R.
  { intros c I. rewrite !in_app_iff in I. destruct I as [I|[I|I]].
    - cbn in I. repeat (destruct I as [<-|I]; [vm_compute; split; discriminate|]). destruct I.
    - rewrite Forall_forall in F. apply F, I.
    - cbn in I. repeat (destruct I as [<-|I]; [vm_compute; split; discriminate|]). destruct I. }
  split; [intro I; apply R in I; vm_compute in I; destruct I; congruence|].
  split; [rewrite !app_length; cbn [length str list_byte_of_string]; unfold lenN in L; change (length (str "-----BEGIN PGP ")) with 15%nat; change (length (str "-----")) with 5%nat; lia|].
  split; [apply strip_cr_without; intro I; apply R in I; vm_compute in I; destruct I; congruence|].
  rewrite S. destruct (trim_space_keeps x2d (str "----BEGIN PGP " ++ ty ++ str "----") x2d []) as [s' ->].
  - vm_compute. split; discriminate.
  - apply Forall_forall. intros c I. unfold ascii. enough (32 <= b2n c <= 126) by lia. apply R. rewrite S. right. apply in_app_iff. left. exact I.
  - vm_compute. split; discriminate.
  - apply andb_true_intro. split; [|reflexivity].
    rewrite lenN_cons, !lenN_app. change (lenN (str "----BEGIN PGP ")) with 14. change (lenN (str "----")) with 4. rewrite lenN_cons. lia.
Qed.
Lemma armor_head_begin f b rest : begin_armor b ->
  armor_head (S f) (ASkip false) (b ++ x0a :: rest) = armor_head f (AHead false) rest.
Proof.
  intro B. destruct (begin_armor_read b B) as (NI & L & ST & T). cbn [armor_head]. rewrite read_line_short by assumption.
  cbn [orb]. rewrite ST, T. reflexivity.
Qed.
Lemma armor_head_blank f b rest : blank b -> armor_head (S f) (AHead false) (b ++ x0a :: rest) = Some rest.
Proof.
  intros [L F]. cbn [armor_head].
  assert (forall c, In c b -> c = x20 \/ c = x09) as R by (rewrite Forall_forall in F; exact F).
  rewrite read_line_short; [| intro I; apply R in I; destruct I; discriminate | unfold lenN in L; lia].
  rewrite strip_cr_without by (intro I; apply R in I; destruct I; discriminate).
  rewrite trim_space_blank by exact F. reflexivity.
Qed.
(** The rest of a long header line is read over. *)
Lemma armor_head_rest n : forall v rest f, (length v <= n)%nat -> ~ In x0a v -> (length v < f)%nat ->
  exists f', (f <= f' + S (length v))%nat /\ armor_head f (AHead true) (v ++ x0a :: rest) = armor_head f' (AHead false) rest.
Proof.
  induction n as [|n IH]; intros v rest f Ln NI L; (destruct f as [|f]; [lia|]); cbn [armor_head].
  - destruct v; [|cbn [length] in Ln; lia]. rewrite read_line_short; [|exact NI | cbn; lia]. exists f. split; [lia | reflexivity].
  - destruct (Nat.lt_ge_cases (length v) 100) as [S|S].
    + rewrite read_line_short by assumption. exists f. split; [lia | reflexivity].
    + destruct (read_line_long v rest NI S) as (k & K & ->).
      destruct (IH (skipn k v) rest f) as (f' & L' & ->).
      * rewrite skipn_length. lia.
      * intro I. apply NI. rewrite <- (firstn_skipn k v). apply in_app_iff. right. exact I.
      * rewrite skipn_length. lia.
      * exists f'. split; [rewrite skipn_length in L'; lia | reflexivity].
Qed.
Lemma armor_head_header f h rest : header h -> (length h < f)%nat ->
  exists f', (f <= f' + S (length h))%nat /\ armor_head f (AHead false) (h ++ x0a :: rest) = armor_head f' (AHead false) rest.
Proof.
  intros (key & b & value & -> & NE & LK & VK & VB & NV) LF. destruct f as [|f]; [lia|]. cbn [armor_head].
  set (h := key ++ str ": " ++ b :: value) in *.
  assert (~ In x0a h) as NI.
  { unfold h. rewrite !in_app_iff. intros [I|[I|[I|I]]].
    - rewrite Forall_forall in VK. apply VK in I. apply visible_space in I. destruct I as (_ & _ & _ & X). apply X. reflexivity.
    - cbn in I. destruct I as [I|[I|I]]; [discriminate .. | destruct I].
    - subst b. apply visible_space in VB. destruct VB as (_ & _ & _ & X). apply X. reflexivity.
    - apply NV, I. }
  assert (forall s', let t := trim_space (key ++ str ": " ++ b :: s') in is_nil t = false /\ has_colon t = true) as T.
  { intro s'. destruct key as [|a key]; [contradiction|]. inversion VK; subst.
    destruct (trim_space_keeps a (key ++ str ": ") b s') as [s'' E].
    - assumption.
    - apply Forall_app. split; [|repeat constructor]. eapply forall_ascii; [|eassumption]. intros c V. apply (visible_space c V).
    - exact VB.
    - cbv zeta. cbn [app] in E |- *. rewrite <- app_assoc in E. rewrite E. split; [reflexivity|].
      change (has_colon ((a :: key ++ str ": ") ++ b :: s'') = true).
      replace ((a :: key ++ str ": ") ++ b :: s'') with ((a :: key) ++ str ": " ++ b :: s'') by (cbn [app]; rewrite <- app_assoc; reflexivity).
      apply has_colon_in. }
  assert (b <> x0d) as NB by apply (visible_space b VB).
  destruct (Nat.lt_ge_cases (length h) 100) as [S|S].
  - rewrite read_line_short by assumption. unfold h. destruct (strip_cr_keeps (key ++ str ": ") b value NB) as [s' E]. rewrite <- !app_assoc in E. rewrite E.
    destruct (T s') as [-> ->]. exists f. split; [lia | reflexivity].
  - destruct (read_line_long h rest NI S) as (k & K & ->).
    assert (exists s', firstn k h = key ++ str ": " ++ b :: s') as [s' ->].
    { unfold h. rewrite app_assoc. rewrite firstn_app. rewrite firstn_all2 by (rewrite app_length; unfold lenN in LK; change (length (str ": ")) with 2%nat; lia).
      rewrite <- app_assoc. rewrite app_length. change (length (str ": ")) with 2%nat. unfold lenN in LK.
      replace (k - (length key + 2))%nat with (Datatypes.S (k - (length key + 3))) by lia. cbn [firstn]. eexists. reflexivity. }
    destruct (T s') as [-> ->].
    destruct (armor_head_rest (length (skipn k h)) (skipn k h) rest f) as (f' & L' & ->).
    + lia.
    + intro I. apply NI. rewrite <- (firstn_skipn k h). apply in_app_iff. right. exact I.
    + rewrite skipn_length. lia.
    + exists f'. split; [rewrite skipn_length in L'; lia | reflexivity].
Qed.
Lemma armor_head_headers hs : forall f bl rest, Forall header hs -> blank bl -> (length (unlines hs) < f)%nat ->
  armor_head f (AHead false) (unlines hs ++ bl ++ x0a :: rest) = Some rest.
Proof.
  induction hs as [|h hs IH]; intros f bl rest H B L.
  - destruct f as [|f]; [cbn in L; lia|]. apply armor_head_blank, B.
  - inversion H; subst. cbn [unlines flat_map] in *. fold (unlines hs) in *. rewrite !app_length in L. cbn [length] in L.
    rewrite <- !app_assoc. cbn [app]. destruct (armor_head_header f h (unlines hs ++ bl ++ x0a :: rest)) as (f' & L' & ->); [assumption | lia |].
    apply IH; [assumption .. | lia].
Qed.

(** ** The data lines *)
Lemma read_crc_none l : (forall v, l = x3d :: v -> length v <> 4%nat) -> read_crc l = CNone.
Proof.
  intro H. destruct l as [|c v]; [reflexivity|].
  destruct (Byte.eqb c x3d) eqn:E.
  - apply byte_eqb_spec in E. subst c. specialize (H v eq_refl). unfold read_crc.
    destruct v as [|v0 [|v1 [|v2 [|v3 [|v4 v]]]]]; try reflexivity. exfalso. apply H. reflexivity.
  - unfold read_crc. destruct c; try reflexivity. discriminate E.
Qed.
Lemma read_crc_sum n : n < 2 ^ 24 -> read_crc (sum_line n) = CValue n.
Proof.
  intro H. unfold sum_line. pose proof (be_enc_length 3 n) as L. pose proof (be_be_enc 3 n) as V.
  destruct (be_enc 3 n) as [|a [|b [|c [|? ?]]]]; try discriminate L. cbn [base64].
  set (m := b2n a * 65536 + b2n b * 256 + b2n c).
  unfold read_crc. cbn [filter]. rewrite !(proj1 (sextet_plain _)). unfold m. rewrite quantum_three.
  unfold be in V. cbn [fold_left] in V. change (256 ^ N.of_nat 3) with (2 ^ 24) in V. rewrite N.mod_small in V by exact H. f_equal. lia.
Qed.
Definition data_line (l : bytes) : Prop :=
  lenN l <= 96 /\ Forall (fun c => not_newline c = true) l /\ (forall v, l <> x2d :: v) /\ (forall v, l = x3d :: v -> length v <> 4%nat).
Lemma not_newline_in l c : Forall (fun c => not_newline c = true) l -> not_newline c = false -> ~ In c l.
Proof. intros F N I. rewrite Forall_forall in F. apply F in I. congruence. Qed.
Lemma armor_lines_data f l rest : data_line l ->
  armor_lines (S f) (l ++ x0a :: rest) = let '(c, e) := armor_lines f rest in (l ++ c, e).
Proof.
  intros (L & F & D & C). cbn [armor_lines]. rewrite read_line_short; [|apply (not_newline_in l x0a F eq_refl) | unfold lenN in L; lia].
  rewrite (strip_cr_without l) by apply (not_newline_in l x0d F eq_refl).
  assert (has_prefix armor_end l = false) as ->.
  { destruct l as [|c l]; [reflexivity|]. unfold armor_end. change (str "-----END ") with (x2d :: str "----END "). cbn [has_prefix].
    destruct (Byte.eqb x2d c) eqn:E; [|reflexivity]. apply byte_eqb_spec in E. subst c. exfalso. exact (D l eq_refl). }
  rewrite read_crc_none by exact C. replace (96 <? lenN l) with false by lia. reflexivity.
Qed.
Lemma armor_lines_datas ls : forall f rest, Forall data_line ls -> (length (unlines ls) <= f)%nat ->
  exists f', (f <= f' + length (unlines ls))%nat /\
  armor_lines f (unlines ls ++ rest) = let '(c, e) := armor_lines f' rest in (concat ls ++ c, e).
Proof.
  induction ls as [|l ls IH]; intros f rest H L.
  - exists f. split; [lia|]. cbn [unlines flat_map concat app]. destruct (armor_lines f rest); reflexivity.
  - inversion H; subst. cbn [unlines flat_map] in *. fold (unlines ls) in *. rewrite !app_length in L. cbn [length] in L.
    destruct f as [|f]; [lia|]. rewrite <- !app_assoc. cbn [app]. rewrite armor_lines_data by assumption.
    destruct (IH f rest) as (f' & L' & ->); [assumption | lia |]. exists f'. split; [rewrite !app_length; cbn [length]; lia|].
    destruct (armor_lines f' rest). cbn [concat]. rewrite <- app_assoc. reflexivity.
Qed.
Lemma data_lines_ok data ls : data_lines data ls -> Forall data_line ls.
Proof.
  intros [E L]. pose proof (base64_chars data) as C. pose proof (base64_pad data) as P. rewrite <- E in C, P. clear E.
  rewrite Forall_forall in L. apply Forall_forall. intros l I. apply in_split in I. destruct I as (l1 & l2 & ->).
  rewrite concat_app in C, P. cbn [concat] in C, P. rewrite !Forall_app in C. destruct C as (_ & C & _).
  split; [apply L, in_elt|]. split; [eapply Forall_impl; [|exact C]; intros c [X _]; exact X|].
  split.
  - intros v ->. inversion C; subst. destruct H1. congruence.
  - intros v -> L4. cbn [app] in P. specialize (P (concat l1) (v ++ concat l2) eq_refl). rewrite app_length in P. lia.
Qed.
Lemma end_armor_read f e : end_armor e -> armor_lines (S f) (e ++ [x0a]) = ([], LEof None)
  /\ exists e2, read_line (e ++ [x0a]) = Some (e2, false, []) /\ has_prefix armor_end e2 = true.
Proof.
  intros (t & -> & L & NT).
  assert (read_line ((str "-----END PGP" ++ t) ++ [x0a]) = Some (strip_cr (str "-----END PGP" ++ t), false, [])) as R.
  { apply read_line_short; [|unfold lenN in L; lia]. rewrite in_app_iff. intros [I|I]; [|exact (NT I)].
    cbn in I. repeat (destruct I as [I|I]; [discriminate|]). destruct I. }
  assert (has_prefix armor_end (strip_cr (str "-----END PGP" ++ t)) = true) as H.
  { destruct (strip_cr_keeps (str "-----END PG") x50 t) as [s' E]; [discriminate|].
    change (str "-----END PGP" ++ t) with (str "-----END PG" ++ x50 :: t). rewrite E. reflexivity. }
  split; [cbn [armor_lines]; rewrite R, H; reflexivity | exists (strip_cr (str "-----END PGP" ++ t)); split; assumption].
Qed.
Lemma filter_all {A} (p : A -> bool) l : Forall (fun x => p x = true) l -> filter p l = l.
Proof. induction 1 as [|x l H F IH]; [reflexivity|]. cbn [filter]. rewrite H, IH. reflexivity. Qed.

(** ** A whole block *)
Lemma unlines_app a b : unlines (a ++ b) = unlines a ++ unlines b.
Proof. apply flat_map_app. Qed.
Lemma unlines_one l : unlines [l] = l ++ [x0a].
Proof. unfold unlines. cbn [flat_map]. apply app_nil_r. Qed.
Lemma block_head b hs bl rest : begin_armor b -> Forall header hs -> blank bl ->
  armor_head (S (length (unlines (b :: hs ++ bl :: rest)))) (ASkip false) (unlines (b :: hs ++ bl :: rest)) = Some (unlines rest).
Proof.
  intros B H BL. set (n := length (unlines (b :: hs ++ bl :: rest))).
  assert (unlines (b :: hs ++ bl :: rest) = b ++ x0a :: unlines hs ++ bl ++ x0a :: unlines rest) as E.
  { cbn [unlines flat_map]. fold (unlines (hs ++ bl :: rest)). rewrite unlines_app. cbn [unlines flat_map]. fold (unlines rest). rewrite <- !app_assoc. reflexivity. }
  assert (length (unlines hs) < n)%nat as L by (unfold n; rewrite E, !app_length; cbn [length]; rewrite !app_length; lia).
  rewrite E, armor_head_begin by exact B. apply armor_head_headers; assumption.
Qed.
Lemma decode_with_sum cuts n data block : n < 2 ^ 24 -> armored_with [sum_line n] data block ->
  armor_decode cuts (unlines block) = Some (data, n =? checksum data).
Proof.
  intros HN (b & hs & bl & ls & e & -> & B & H & BL & D & EA). unfold armor_decode. rewrite block_head by assumption.
  rewrite unlines_app. cbn [app]. set (fin := unlines [sum_line n; e]).
  destruct (armor_lines_datas ls (S (length (unlines ls ++ fin))) fin) as (f' & L' & ->).
  { eapply data_lines_ok. exact D. }
  { rewrite app_length. lia. }
  assert (armor_lines f' fin = ([], LEof (Some n))) as ->.
  { destruct f' as [|f']; [rewrite app_length in L'; unfold fin in L'; cbn [unlines flat_map] in L'; rewrite !app_length in L'; cbn [length] in L'; lia|].
    unfold fin. cbn [unlines flat_map]. rewrite app_nil_r, <- app_assoc. cbn [app armor_lines].
    rewrite read_line_short.
    - rewrite strip_cr_without.
      + change (has_prefix armor_end (sum_line n)) with false. rewrite read_crc_sum by exact HN.
        destruct (end_armor_read 0 e EA) as (_ & e2 & -> & ->). reflexivity.
      + unfold sum_line. intros [I|I]; [discriminate|]. pose proof (base64_chars (be_enc 3 n)) as C. rewrite Forall_forall in C. apply C in I. destruct I as [I _]. discriminate I.
    - unfold sum_line. intros [I|I]; [discriminate|]. pose proof (base64_chars (be_enc 3 n)) as C. rewrite Forall_forall in C. apply C in I. destruct I as [I _]. discriminate I.
    - unfold sum_line. pose proof (be_enc_length 3 n) as L. destruct (be_enc 3 n) as [|x [|y [|z [|? ?]]]]; try discriminate L. cbn. lia. }
  rewrite app_nil_r. destruct D as [-> _].
  rewrite filter_all by (eapply Forall_impl; [|apply base64_chars]; intros c [X _]; exact X).
  rewrite body_base64 by lia. cbn [andb]. rewrite crc24_checksum. reflexivity.
Qed.
Lemma decode_without_sum cuts data block : armored_with [] data block -> armor_decode cuts (unlines block) = Some (data, true).
Proof.
  intros (b & hs & bl & ls & e & -> & B & H & BL & D & EA). unfold armor_decode. rewrite block_head by assumption.
  rewrite unlines_app. cbn [app]. rewrite unlines_one.
  destruct (armor_lines_datas ls (S (length (unlines ls ++ e ++ [x0a]))) (e ++ [x0a])) as (f' & L' & ->).
  { eapply data_lines_ok. exact D. }
  { rewrite app_length. lia. }
  destruct f' as [|f']; [rewrite !app_length in L'; cbn [length] in L'; lia|].
  rewrite (proj1 (end_armor_read f' e EA)). rewrite app_nil_r. destruct D as [-> _].
  rewrite filter_all by (eapply Forall_impl; [|apply base64_chars]; intros c [X _]; exact X).
  rewrite body_base64 by lia. reflexivity.
Qed.
