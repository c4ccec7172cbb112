(** * RedactL: a packet and its redaction are read in step. *)
From Coq Require Import Strings.String Strings.Byte List NArith ZArith Bool Lia ZifyBool ZifyN ZifyNat.
From Verif Require Import Base BaseL SpecBase Item Reader ReaderL SpecReader Context Env Time Values Opaque Monad MonadL Pubkey S2k Subs Tags
  SpecValues SpecPacket SpecFrame SpecSub SpecNest SpecParse SpecHidden HiddenL SubL KeyL FramingL SpecRedact.
Import ListNotations.
Local Open Scope N_scope.

(** ** Walks stay inside *)
Definition zr (a b : byte) : Prop := b = a \/ b = x00.
Definition zeroed : bytes -> bytes -> Prop := Forall2 zr.
Lemma zeroed_refl l : zeroed l l.
Proof. induction l; constructor; [left; reflexivity | assumption]. Qed.
Lemma zeroed_length l l' : zeroed l l' -> length l = length l'.
Proof. induction 1; cbn [length]; congruence. Qed.
Lemma zeroed_blank l : zeroed l (blank l).
Proof. induction l; constructor; [right; reflexivity | assumption]. Qed.
Lemma zeroed_app a b a' b' : zeroed a a' -> zeroed b b' -> zeroed (a ++ b) (a' ++ b').
Proof. apply Forall2_app. Qed.
Lemma zeroed_skipn k l l' : zeroed l l' -> zeroed (skipn k l) (skipn k l').
Proof. intro H. revert k. induction H; intros [|k]; cbn; try constructor; auto. Qed.
Lemma skipn_twice {A} i j (l : list A) : skipn i (skipn j l) = skipn (j + i) l.
Proof. revert l. induction j as [|j IH]; intros [|x l]; cbn; rewrite ?skipn_nil; auto. Qed.
Lemma firstn_plus {A} i j (l : list A) : firstn (i + j) l = firstn i l ++ firstn j (skipn i l).
Proof. revert l. induction i as [|i IH]; intros [|x l]; cbn; rewrite ?firstn_nil; [reflexivity..|]. f_equal. apply IH. Qed.

(** What stands for octets: the octets themselves, or zeros. *)
Definition inside {A} (w : walk A) : Prop := forall l, zeroed (firstn (length (fst (w l))) l) (fst (w l)).
Lemma inside_le {A} (w : walk A) l : inside w -> (length (fst (w l)) <= length l)%nat.
Proof. intro H. specialize (H l). apply zeroed_length in H. rewrite firstn_length in H. lia. Qed.
Lemma blank_length l : length (blank l) = length l.
Proof. apply map_length. Qed.
Definition take {A} (n : N) (red : bytes -> bytes) (x : bytes -> next A) : walk A := fun l =>
  if n <=? lenN l then (red (firstn (N.to_nat n) l), x (firstn (N.to_nat n) l)) else ([], Stop).
Definition stop {A} : walk A := fun _ => ([], Stop).
Lemma inside_take {A} n red (x : bytes -> next A) : (forall d, zeroed d (red d)) -> inside (take n red x).
Proof.
  intros H l. unfold take. destruct (n <=? lenN l) eqn:Q; cbn [fst length]; [|constructor]. rewrite <- (zeroed_length _ _ (H _)), firstn_length.
  unfold lenN in Q. replace (Nat.min (N.to_nat n) (length l)) with (N.to_nat n) by lia. apply H.
Qed.
Lemma inside_give {A} (a : A) : inside (give a).
Proof. intro l. constructor. Qed.
Lemma inside_stop {A} : inside (@stop A).
Proof. intro l. constructor. Qed.
Lemma inside_keep n : inside (keep n).
Proof. apply (inside_take n (fun d => d) (fun d => Go d)), zeroed_refl. Qed.
Lemma inside_hide n : inside (hide n).
Proof. apply (inside_take n blank (fun _ => Go tt)), zeroed_blank. Qed.
Lemma inside_hide_all : inside hide_all.
Proof. intro l. cbn [hide_all fst]. rewrite blank_length, firstn_all. apply zeroed_blank. Qed.
Lemma inside_after {A B} (w : walk A) (f : A -> walk B) : inside w -> (forall a, inside (f a)) -> inside (after w f).
Proof.
  intros H K l. unfold after. specialize (H l). destruct (w l) as [r [a|]]; cbn [fst] in *; [|exact H].
  specialize (K a (skipn (length r) l)). destruct (f a (skipn (length r) l)) as [r2 y]. cbn [fst] in *. rewrite app_length, firstn_plus. apply zeroed_app; assumption.
Qed.
Lemma inside_look {A} (f : bytes -> walk A) : (forall l, inside (f l)) -> inside (look f).
Proof. intros H l. apply H. Qed.
Lemma covered_zeroed {A} (w : walk A) l : inside w -> zeroed l (covered w l).
Proof.
  intro H. unfold covered. cbv zeta. rewrite <- (firstn_skipn (length (fst (w l))) l) at 1. apply zeroed_app; [apply H | apply zeroed_blank].
Qed.
Lemma covered_length {A} (w : walk A) l : inside w -> length (covered w l) = length l.
Proof. intro H. symmetry. apply zeroed_length, covered_zeroed, H. Qed.
Lemma inside_part {A} n (w : walk A) : inside w -> inside (part n w).
Proof. intro H. apply (inside_take n (covered w) (fun d => snd (w d))). intro d. apply covered_zeroed, H. Qed.
Lemma inside_if {A} (c : bool) (w v : walk A) : inside w -> inside v -> inside (if c then w else v).
Proof. destruct c; auto. Qed.
Create HintDb ins.
Global Hint Resolve inside_give inside_keep inside_hide inside_hide_all inside_after inside_look inside_part inside_if : ins.
Lemma inside_number n : inside (number n).
Proof. unfold number. auto with ins. Qed.
Global Hint Resolve inside_number : ins.

(** ** Reading in step *)
Definition same_fail {A} (x y : res A * st) : Prop :=
  fst x = fst y /\ (forall a, fst x <> ROk a) /\ s_cs (snd x) = s_cs (snd y) /\ s_cur (snd x) = s_cur (snd y).
(** From [rest] and from what stands for it: both fail alike, or both go on with the same result where the walk goes on. *)
Definition fol {A W} (m m' : M A) (w : walk W) (R : A -> W -> Prop) (rest : bytes) : Prop :=
  forall B B' rest' t' cs it, suf B rest -> suf B' rest' -> length B = length B' -> length rest = length rest' -> zeroed rest rest' -> rest' = fst (w rest) ++ t' ->
  same_fail (m (sat B rest cs it)) (m' (sat B' rest' cs it)) \/
  exists a b cs1 it1, snd (w rest) = Go b /\ R a b /\ m (sat B rest cs it) = (ROk a, sat B (skipn (length (fst (w rest))) rest) cs1 it1)
    /\ m' (sat B' rest' cs it) = (ROk a, sat B' t' cs1 it1).

Lemma same_fail_bind {A B} (m m' : M A) (f f' : A -> M B) s s' : same_fail (m s) (m' s') -> same_fail (bind m f s) (bind m' f' s').
Proof.
  unfold same_fail, bind. destruct (m s) as [x t], (m' s') as [x' t']. cbn [fst snd]. intros (H1 & H2 & H3 & H4). subst x'.
  destruct x as [a|e| |]; [exfalso; exact (H2 a eq_refl)|..]; cbn [fst snd]; repeat split; auto; discriminate.
Qed.
Lemma skipn_app_length {A} (r t : list A) : skipn (length r) (r ++ t) = t.
Proof. rewrite skipn_app, skipn_all, Nat.sub_diag. reflexivity. Qed.
Lemma suf_skipn B rest k : suf B rest -> suf B (skipn k rest).
Proof. intro H. rewrite <- (firstn_skipn k rest) in H. exact (suf_app _ _ _ H). Qed.

Lemma fol_bind {A B W V} (m m' : M A) (f f' : A -> M B) (w : walk W) (g : W -> walk V) R R2 rest :
  fol m m' w R rest -> (forall a b rest2, R a b -> fol (f a) (f' a) (g b) R2 rest2) -> fol (bind m f) (bind m' f') (after w g) R2 rest.
Proof.
  intros H K C C' rest' t' cs it S1 S2 L1 L2 Z2 E. unfold after in E |- *. specialize (H C C' rest').
  destruct (w rest) as [r x] eqn:W1. cbn [fst snd] in *.
  set (r2 := match x with Go a => fst (g a (skipn (length r) rest)) | Stop => [] end).
  assert (rest' = r ++ r2 ++ t') as E1.
  { rewrite E. unfold r2. destruct x as [b|]; [|reflexivity]. destruct (g b _) as [r3 y]. cbn [fst]. rewrite <- app_assoc. reflexivity. }
  destruct (H (r2 ++ t') cs it S1 S2 L1 L2 Z2 E1) as [F | (a & b & cs1 & it1 & X & Rab & M1 & M2)].
  { left. apply same_fail_bind, F. }
  subst x. unfold bind. rewrite M1, M2. cbn [fst snd] in r2.
  assert (suf C' (r2 ++ t')) as S3 by (rewrite E1 in S2; exact (suf_app _ _ _ S2)).
  assert (length (skipn (length r) rest) = length (r2 ++ t')) as L3 by (rewrite skipn_length, L2, E1, !app_length; lia).
  assert (zeroed (skipn (length r) rest) (r2 ++ t')) as Z3 by (apply (zeroed_skipn (length r)) in Z2; rewrite E1, skipn_app_length in Z2; exact Z2).
  destruct (K a b (skipn (length r) rest) Rab C C' (r2 ++ t') t' cs1 it1 (suf_skipn _ _ _ S1) S3 L1 L3 Z3 eq_refl) as [F | (a2 & b2 & cs2 & it2 & X & Ra & N1 & N2)].
  { left. exact F. }
  right. destruct (g b (skipn (length r) rest)) as [r3 y]. subst r2. cbn [fst snd] in *. exists a2, b2, cs2, it2. split; [exact X|]. split; [exact Ra|].
  rewrite app_length, <- skipn_twice. auto.
Qed.

(** The next [n] octets. *)
Lemma fol_take {A W V} n (f f' : bytes -> M A) red (x : bytes -> next W) (g : W -> walk V) R rest :
  n < 2 ^ 62 -> (forall d, length (red d) = length d) ->
  (forall d rest2, lenN d = n -> fol (f d) (f' (red d)) (match x d with Go b => g b | Stop => stop end) R rest2) ->
  fol (bind (rdBytes (Z.of_N n)) f) (bind (rdBytes (Z.of_N n)) f') (after (take n red x) g) R rest.
Proof.
  intros Hn HL K B B' rest' t' cs it S1 S2 L1 L2 Z2 E. unfold after, take in E |- *. destruct (n <=? lenN rest) eqn:Q.
  2:{ left. cbn [fst] in E. apply same_fail_bind. unfold lenN in Q.
      rewrite !rdBytes_short by (assumption || (unfold lenZ; lia)). unfold same_fail. cbn [fst snd sat s_cs s_cur].
      assert (is_nil rest' = is_nil rest) as -> by (destruct rest, rest'; try discriminate L2; reflexivity).
      repeat split. discriminate. }
  destruct (split_at (N.to_nat n) rest) as (d & t & -> & LB); [unfold lenN in Q; lia|].
  assert (firstn (N.to_nat n) (d ++ t) = d) as FD by (rewrite <- LB, firstn_app, Nat.sub_diag, firstn_all; cbn; apply app_nil_r).
  rewrite FD in *. specialize (K d t ltac:(unfold lenN; lia)).
  rewrite HL, skipn_app_length in *.
  set (v := match x d with Go b => g b | Stop => stop end) in *.
  assert (rest' = red d ++ fst (v t) ++ t') as E1.
  { rewrite E. unfold v. destruct (x d) as [b|]; [|reflexivity]. destruct (g b t) as [r3 y]. cbn [fst]. rewrite <- app_assoc. reflexivity. }
  unfold bind. rewrite (rdBytes_at B d t) by (assumption || (unfold lenZ; lia)).
  assert (suf B' (fst (v t) ++ t')) as S3 by (rewrite E1 in S2; exact (suf_app _ _ _ S2)).
  assert (rdBytes (Z.of_N n) (sat B' rest' cs it) = (ROk (red d), sat B' (fst (v t) ++ t') cs it)) as RB.
  { rewrite E1 in *. apply rdBytes_at; [exact S2|]. unfold lenZ. rewrite HL. lia. }
  rewrite RB.
  assert (length t = length (fst (v t) ++ t')) as L3.
  { rewrite E1, app_length in L2. rewrite (app_length (red d)), HL in L2. lia. }
  assert (zeroed t (fst (v t) ++ t')) as Z3.
  { apply (zeroed_skipn (length d)) in Z2. rewrite E1, skipn_app_length, <- (HL d), skipn_app_length in Z2. exact Z2. }
  destruct (K B B' (fst (v t) ++ t') t' cs it (suf_app _ _ _ S1) S3 L1 L3 Z3 eq_refl) as [F | (a2 & b2 & cs2 & it2 & X & Ra & N1 & N2)]; [left; exact F|].
  right. exists a2, b2, cs2, it2. unfold v in *. destruct (x d) as [b|]; [|discriminate X]. destruct (g b t) as [r3 y]. cbn [fst snd] in *.
  split; [exact X|]. split; [exact Ra|]. rewrite app_length, HL, <- skipn_twice, skipn_app_length. auto.
Qed.
(** Extensional equality. *)
Lemma fol_ext {A W} (m m' k k' : M A) (w v : walk W) R rest : (forall s, k s = m s) -> (forall s, k' s = m' s) -> v rest = w rest ->
  fol m m' w R rest -> fol k k' v R rest.
Proof. intros H1 H2 H3 K B B' rest' t' cs it S1 S2 L1 L2 Z2 E. rewrite H1, H2, H3 in *. apply K; assumption. Qed.
Lemma after_assoc {A B C} (w : walk A) (f : A -> walk B) (g : B -> walk C) l : after (after w f) g l = after w (fun a => after (f a) g) l.
Proof.
  unfold after. destruct (w l) as [r [a|]]; [|reflexivity]. destruct (f a (skipn (length r) l)) as [r2 [b|]]; [|reflexivity].
  rewrite app_length, <- skipn_twice. destruct (g b _) as [r3 y]. rewrite app_assoc. reflexivity.
Qed.
Lemma after_give {A B} (a : A) (g : A -> walk B) l : after (give a) g l = g a l.
Proof. unfold after, give. cbn [length skipn]. destruct (g a l). reflexivity. Qed.
Lemma after_end {A} (w : walk A) l : after w give l = w l.
Proof. unfold after, give. destruct (w l) as [r [a|]]; [|reflexivity]. rewrite app_nil_r. reflexivity. Qed.

(** Reading nothing. *)
Lemma fol_ret {A W} (a : A) (b : W) (R : A -> W -> Prop) rest : R a b -> fol (ret a) (ret a) (give b) R rest.
Proof.
  intros H B B' rest' t' cs it S1 S2 L1 L2 Z2 E. right. cbn [give fst app] in E. subst rest'. exists a, b, cs, it. auto.
Qed.
Lemma fol_fail {A W} (r : res A) (w : walk W) R rest : (forall a, r <> ROk a) -> fol (of_res r) (of_res r) w R rest.
Proof. intros H B B' rest' t' cs it S1 S2 L1 L2 Z2 E. left. repeat split. exact H. Qed.
(** A step that looks at the state only and does not move the reader. *)
Definition quiet {A} (m : M A) (a : cst -> item -> A) (g : cst -> item -> cst * item) : Prop :=
  forall s, m s = (ROk (a (s_cs s) (s_cur s)), mkSt (s_rd s) (fst (g (s_cs s) (s_cur s))) (snd (g (s_cs s) (s_cur s)))).
Lemma fol_quiet {A C W} (m m' : M A) a g (f f' : A -> M C) (w : walk W) R rest : quiet m a g -> quiet m' a g ->
  (forall x, fol (f x) (f' x) w R rest) -> fol (bind m f) (bind m' f') w R rest.
Proof.
  intros H H' K B B' rest' t' cs it S1 S2 L1 L2 Z2 E. rewrite (bind_ok _ f _ _ _ (H _)), (bind_ok _ f' _ _ _ (H' _)). cbn [sat s_rd s_cs s_cur].
  exact (K (a cs it) B B' rest' t' _ _ S1 S2 L1 L2 Z2 E).
Qed.
Lemma quiet_upd f : quiet (upd f) (fun _ _ => tt) (fun c i => (c, f i)).
Proof. intro s. reflexivity. Qed.
Lemma quiet_setMode x : quiet (setMode x) (fun _ _ => tt) (fun c i => (mkCst x (c_sig c) (c_key c), i)).
Proof. intro s. reflexivity. Qed.
Lemma quiet_setKey x : quiet (setKey x) (fun _ _ => tt) (fun c i => (mkCst (c_mode c) (c_sig c) x, i)).
Proof. intro s. reflexivity. Qed.
Lemma quiet_getCs : quiet getCs (fun c _ => c) (fun c i => (c, i)).
Proof. intro s. destruct s. reflexivity. Qed.
Lemma fol_upd {C W} h h' (f f' : unit -> M C) (w : walk W) R rest : h = h' -> fol (f tt) (f' tt) w R rest -> fol (bind (upd h) f) (bind (upd h') f') w R rest.
Proof. intros <- K. apply (fol_quiet _ _ _ _ _ _ _ _ _ (quiet_upd h) (quiet_upd h)). intros []. exact K. Qed.
Lemma fol_upd_end h h' W (b : W) (R : unit -> W -> Prop) rest : h = h' -> R tt b -> fol (upd h) (upd h') (give b) R rest.
Proof.
  intros <- H. eapply (fol_ext (bind (upd h) ret) (bind (upd h) ret)); [intro s; reflexivity | intro s; reflexivity | reflexivity|].
  apply fol_upd; [reflexivity|]. apply fol_ret, H.
Qed.
Lemma fol_rest {C W} (f f' : Z -> M C) (w : walk W) R rest : fol (f (lenZ rest)) (f' (lenZ rest)) w R rest ->
  fol (bind rdRest f) (bind rdRest f') w R rest.
Proof.
  intros K B B' rest' t' cs it S1 S2 L1 L2 Z2 E. unfold bind. rewrite !rdRest_at by assumption.
  assert (lenZ rest' = lenZ rest) as -> by (unfold lenZ; congruence). apply K; assumption.
Qed.
Lemma fol_child {A W} i i' (m m' : M A) (w : walk W) R rest : i = i' -> fol m m' w R rest -> fol (child i m) (child i' m') w R rest.
Proof.
  intros <- K B B' rest' t' cs it S1 S2 L1 L2 Z2 E. unfold child. cbn [sat s_rd s_cs s_cur].
  specialize (K B B' rest' t' cs i S1 S2 L1 L2 Z2 E). unfold sat in *.
  destruct K as [(F1 & F2 & F3 & F4) | (a & b & cs1 & it1 & X & Ra & M1 & M2)].
  - left. destruct (m _) as [x s1], (m' _) as [x' s1']. cbn [fst snd] in *. unfold same_fail. cbn [fst snd s_cs s_cur]. rewrite F3, F4. auto.
  - right. rewrite M1, M2. cbn [s_rd s_cs s_cur]. exists a, b, cs1, (add_child it1 it). auto.
Qed.
(** Octets read on their own. *)
Lemma fol_with {A C W V} (m m' : M A) (f f' : A * reader -> M C) (w : walk W) (v : walk V) R R2 d rest :
  (lenZ d < 2 ^ 62)%Z -> inside w -> fol m m' w R d ->
  (forall a b t t', snd (w d) = Go b -> R a b -> suf d t -> suf (covered w d) t' -> length t = length t' ->
     fol (f (a, at_ d t)) (f' (a, at_ (covered w d) t')) v R2 rest) ->
  fol (bind (with_rd (r_new d) m) f) (bind (with_rd (r_new (covered w d)) m') f') v R2 rest.
Proof.
  intros LD I K H B B' rest' t' cs it S1 S2 L1 L2 Z2 E. pose proof (covered_length w d I) as LC.
  assert (suf d d) as SD by (apply suf_refl, LD). assert (suf (covered w d) (covered w d)) as SC by (apply suf_refl; unfold lenZ in *; rewrite LC; exact LD).
  specialize (K d (covered w d) (covered w d) _ cs it SD SC (eq_sym LC) (eq_sym LC) (covered_zeroed w d I) eq_refl).
  unfold bind, with_rd. cbn [sat s_rd s_cs s_cur] in *. rewrite !at_new. unfold sat in K. destruct K as [(F1 & F2 & F3 & F4) | (a & b & cs1 & it1 & X & Ra & M1 & M2)].
  - left. destruct (m _) as [x s1], (m' _) as [x' s1']. cbn [fst snd] in *. subst x'. unfold same_fail.
    destruct x as [y|e| |]; [exfalso; exact (F2 y eq_refl)|..]; cbn [fst snd s_cs s_cur]; rewrite F3, F4; repeat split; discriminate.
  - rewrite M1, M2. cbn [s_rd s_cs s_cur]. refine (H a b _ _ X Ra _ _ _ B B' rest' t' cs1 it1 S1 S2 L1 L2 Z2 E).
    + apply suf_skipn, SD.
    + unfold covered in SC. apply suf_app in SC. exact SC.
    + rewrite blank_length. reflexivity.
Qed.

(** ** Single steps *)
Definition any {A B} : A -> B -> Prop := fun _ _ => True.
Lemma fol_last {A C W V} (m m' : M A) (f f' : A -> M C) (w : walk W) (h : W -> V) R R2 rest :
  fol m m' w R rest -> (forall a b rest2, R a b -> fol (f a) (f' a) (give (h b)) R2 rest2) -> fol (bind m f) (bind m' f') (after w (fun b => give (h b))) R2 rest.
Proof. intros H K. apply (fol_bind m m' f f' w (fun b => give (h b)) R R2 rest H K). Qed.
Lemma fol_end {A C W} (m m' : M A) (f f' : A -> M C) (w : walk W) R R2 rest :
  fol m m' w R rest -> (forall a b rest2, R a b -> fol (f a) (f' a) (give b) R2 rest2) -> fol (bind m f) (bind m' f') w R2 rest.
Proof.
  intros H K. apply (fol_ext (bind m f) (bind m' f') _ _ (after w give)); [reflexivity | reflexivity | symmetry; apply after_end|].
  apply (fol_bind m m' f f' w give R R2 rest H K).
Qed.
Lemma fol_keep {A V} z n (f f' : bytes -> M A) (g : bytes -> walk V) R rest : z = Z.of_N n -> n < 2 ^ 62 ->
  (forall d rest2, lenN d = n -> fol (f d) (f' d) (g d) R rest2) -> fol (bind (rdBytes z) f) (bind (rdBytes z) f') (after (keep n) g) R rest.
Proof. intros -> L K. apply (fol_take n f f' (fun d => d) (fun d => Go d) g R rest L); [reflexivity | exact K]. Qed.
Lemma fol_hide {A V} z n (f f' : bytes -> M A) (g : unit -> walk V) R rest : z = Z.of_N n -> n < 2 ^ 62 ->
  (forall d d' rest2, lenN d = n -> length d = length d' -> fol (f d) (f' d') (g tt) R rest2) -> fol (bind (rdBytes z) f) (bind (rdBytes z) f') (after (hide n) g) R rest.
Proof.
  intros -> L K. apply (fol_take n f f' blank (fun _ => Go tt) g R rest L); [apply blank_length|]. intros d rest2 D. apply K; [exact D|]. rewrite blank_length. reflexivity.
Qed.
Lemma fol_number {A V} z n (f f' : bytes -> M A) (g : N -> walk V) R rest : z = Z.of_N n -> n < 2 ^ 62 ->
  (forall d rest2, lenN d = n -> fol (f d) (f' d) (g (be d)) R rest2) -> fol (bind (rdBytes z) f) (bind (rdBytes z) f') (after (number n) g) R rest.
Proof.
  intros E L K. apply (fol_ext (bind (rdBytes z) f) (bind (rdBytes z) f') _ _ (after (keep n) (fun l => g (be l)))); [reflexivity | reflexivity| |].
  - unfold number. rewrite after_assoc. unfold after at 1 3. destruct (keep n rest) as [r [a|]]; [|reflexivity]. rewrite after_give. reflexivity.
  - apply fol_keep; assumption.
Qed.
Definition head_of (d : bytes) : byte := match d with b :: _ => b | [] => x00 end.
Lemma rdByte_bytes s : rdByte s = bind (rdBytes 1) (fun d => ret (head_of d)) s.
Proof.
  unfold rdByte, rdBytes, bind, on_rd, ret, r_readbyte. destruct (r_readbytes 1 (s_rd s)) as [[[|b l]|e| |] r]; reflexivity.
Qed.
Lemma rdByte_bind {A} (f : byte -> M A) s : bind rdByte f s = bind (rdBytes 1) (fun d => f (head_of d)) s.
Proof. unfold bind at 1. rewrite rdByte_bytes. unfold bind, ret. destruct (rdBytes 1 s) as [[]]; reflexivity. Qed.
Lemma one_octet (d : bytes) : lenN d = 1 -> d = [head_of d].
Proof. destruct d as [|b [|]]; intro H; [discriminate H | reflexivity | unfold lenN in H; cbn [length] in H; lia]. Qed.
Lemma fol_byte {A V} (f f' : byte -> M A) (g : N -> walk V) R rest :
  (forall b rest2, fol (f b) (f' b) (g (b2n b)) R rest2) -> fol (bind rdByte f) (bind rdByte f') (after (number 1) g) R rest.
Proof.
  intro K. eapply fol_ext; [apply rdByte_bind | apply rdByte_bind | reflexivity|]. apply fol_number; [reflexivity | reflexivity|]. intros d rest2 D.
  pose proof (one_octet d D) as E. replace (be d) with (b2n (head_of d)) by (rewrite E; cbn; lia). apply K.
Qed.
Lemma fol_octet {A V} (f f' : byte -> M A) (g : bytes -> walk V) R rest :
  (forall b rest2, fol (f b) (f' b) (g [b]) R rest2) -> fol (bind rdByte f) (bind rdByte f') (after (keep 1) g) R rest.
Proof.
  intro K. eapply fol_ext; [apply rdByte_bind | apply rdByte_bind | reflexivity|]. apply fol_keep; [reflexivity | reflexivity|]. intros d rest2 D.
  pose proof (one_octet d D) as E. rewrite E at 3. apply K.
Qed.
Lemma fol_assoc {A B C W} (m m' : M A) (f f' : A -> M B) (g g' : B -> M C) (w : walk W) R rest :
  fol (bind m (fun a => bind (f a) g)) (bind m' (fun a => bind (f' a) g')) w R rest -> fol (bind (bind m f) g) (bind (bind m' f') g') w R rest.
Proof. apply fol_ext; [apply bind_assoc | apply bind_assoc | reflexivity]. Qed.
Lemma fol_wassoc {A X Y Z} (m m' : M A) (w : walk X) (f : X -> walk Y) (g : Y -> walk Z) R rest :
  fol m m' (after w (fun a => after (f a) g)) R rest -> fol m m' (after (after w f) g) R rest.
Proof. apply fol_ext; [reflexivity | reflexivity | apply after_assoc]. Qed.
Lemma fol_ret_bind {A B W} (a a' : A) (f f' : A -> M B) (w : walk W) R rest : fol (f a) (f' a') w R rest -> fol (bind (ret a) f) (bind (ret a') f') w R rest.
Proof. intro H. exact H. Qed.
Lemma fol_wgive {A X Y} (m m' : M A) (a : X) (g : X -> walk Y) R rest : fol m m' (g a) R rest -> fol m m' (after (give a) g) R rest.
Proof. apply fol_ext; [reflexivity | reflexivity | apply after_give]. Qed.
Lemma fol_look {A X} (m m' : M A) (f : bytes -> walk X) R rest : fol m m' (f rest) R rest -> fol m m' (look f) R rest.
Proof. intro H. exact H. Qed.
Lemma fol_refine {A W} (m m' : M A) (w v : walk W) R rest : v rest = w rest \/ (w rest = ([], Stop) /\ snd (v rest) = Stop) ->
  fol m m' w R rest -> fol m m' v R rest.
Proof.
  intros [E|[E1 E2]] K; [apply (fol_ext m m' m m' w v R rest); auto|].
  intros B B' rest' t' cs it S1 S2 L1 L2 Z2 E. rewrite E2. destruct (K B B' rest' rest' cs it S1 S2 L1 L2 Z2) as [F | (a & b & cs1 & it1 & X & _)].
  - rewrite E1. reflexivity.
  - left. exact F.
  - rewrite E1 in X. discriminate X.
Qed.
Definition first_kept (k : nat) (d : bytes) : bytes := firstn k d ++ blank (skipn k d).
Lemma first_kept_length k d : length (first_kept k d) = length d.
Proof. unfold first_kept. rewrite app_length, blank_length, <- app_length, firstn_skipn. reflexivity. Qed.
(** A field of [n] octets of which the first [k] are kept. *)
Lemma fol_partly {A V} z n k (f f' : bytes -> M A) (g : unit -> walk V) R rest : z = Z.of_N n -> n < 2 ^ 62 -> k <= n ->
  (forall d d' rest2, lenN d = n -> length d = length d' -> firstn (N.to_nat k) d = firstn (N.to_nat k) d' -> fol (f d) (f' d') (g tt) R rest2) ->
  fol (bind (rdBytes z) f) (bind (rdBytes z) f') (after (keep k) (fun _ => after (hide (n - k)) g)) R rest.
Proof.
  intros -> L KN K. apply (fol_refine _ _ (after (take n (first_kept (N.to_nat k)) (fun _ => Go tt)) g)).
  - unfold after, keep, take, hide. destruct (n <=? lenN rest) eqn:Q.
    + left. replace (k <=? lenN rest) with true by lia. rewrite firstn_length. unfold lenN in *.
      replace (Nat.min (N.to_nat k) (length rest)) with (N.to_nat k) by lia. rewrite skipn_length.
      replace (n - k <=? N.of_nat (length rest - N.to_nat k)) with true by lia.
      rewrite blank_length, firstn_length, skipn_length. replace (Nat.min (N.to_nat (n - k)) (length rest - N.to_nat k)) with (N.to_nat (n - k)) by lia.
      rewrite first_kept_length, firstn_length, skipn_twice. replace (Nat.min (N.to_nat n) (length rest)) with (N.to_nat n) by lia.
      replace (N.to_nat k + N.to_nat (n - k))%nat with (N.to_nat n) by lia. destruct (g tt (skipn (N.to_nat n) rest)) as [r3 y]. f_equal.
      rewrite app_assoc. f_equal. unfold first_kept. rewrite firstn_firstn, skipn_firstn_comm. f_equal; [f_equal; lia|]. f_equal. f_equal. lia.
    + right. split; [reflexivity|]. destruct (k <=? lenN rest) eqn:Q2; [|reflexivity]. rewrite firstn_length. unfold lenN in *. rewrite skipn_length.
      replace (n - k <=? N.of_nat (length rest - Nat.min (N.to_nat k) (length rest))) with false by lia. reflexivity.
  - apply fol_take; [exact L | intro d; apply first_kept_length|]. intros d rest2 D. apply K; [exact D | rewrite first_kept_length; reflexivity|].
    unfold first_kept. rewrite firstn_app, firstn_firstn, Nat.min_id, firstn_length. unfold lenN in D.
    replace (N.to_nat k - Nat.min (N.to_nat k) (length d))%nat with 0%nat by lia. rewrite app_nil_r. reflexivity.
Qed.
Lemma bind_same {A B} (m m' : M A) (f : A -> M B) s : m s = m' s -> bind m f s = bind m' f s.
Proof. unfold bind. intros ->. reflexivity. Qed.
(** An optional field behind its one-octet length. *)
Lemma newECParm_nil B cs it : suf B [] -> newECParm (sat B [] cs it) = (ROk [], sat B [] cs it).
Proof. intro H. unfold newECParm. rewrite rdByte_eof by assumption. reflexivity. Qed.
Lemma newECParm_some b B rest cs it : suf B (b :: rest) -> newECParm (sat B (b :: rest) cs it) = bind rdByte (fun n => rdBytes (Z.of_N (b2n n))) (sat B (b :: rest) cs it).
Proof.
  intro H. unfold newECParm, bind. rewrite rdByte_at by assumption. destruct (b2n b =? 0) eqn:Q; [|reflexivity]. apply N.eqb_eq in Q. rewrite Q.
  unfold rdBytes, on_rd, r_readbytes. cbn. reflexivity.
Qed.
Lemma fol_parm {A V} (f f' : bytes -> M A) (g : N -> walk V) v R l : (forall rest2, fol (f []) (f' []) (give v) R rest2) ->
  (forall rest, fol (bind (bind rdByte (fun n => rdBytes (Z.of_N (b2n n)))) f) (bind (bind rdByte (fun n => rdBytes (Z.of_N (b2n n)))) f') (after (number 1) g) R rest) ->
  fol (bind newECParm f) (bind newECParm f') (look (fun l => match l with [] => give v | _ => after (number 1) g end)) R l.
Proof.
  intros H0 H1. destruct l as [|b rest].
  - intros B B' rest' t' cs it S1 S2 L1 L2 Z2 E. cbn [look] in E |- *. destruct rest'; [|discriminate L2]. unfold bind. rewrite !newECParm_nil by assumption.
    refine (H0 [] B B' [] t' cs it S1 S2 L1 L2 Z2 E).
  - intros B B' rest' t' cs it S1 S2 L1 L2 Z2 E. destruct rest' as [|b' rest']; [discriminate L2|].
    rewrite (bind_same _ _ f _ (newECParm_some b B rest cs it S1)), (bind_same _ _ f' _ (newECParm_some b' B' rest' cs it S2)).
    exact (H1 (b :: rest) B B' (b' :: rest') t' cs it S1 S2 L1 L2 Z2 E).
Qed.

Lemma be_below k d : lenN d = k -> be d < 256 ^ k.
Proof. intros <-. apply be_lt. Qed.

Section Off.
Variable o : opts.
Hypothesis Q : no_dump o.

(** ** Fields of algorithms *)
Lemma fol_mpi name nm rest : fol (addMPI o name) (addMPI o name) (slot_walk (SMpi nm)) any rest.
Proof.
  unfold addMPI, newMPI. rewrite (off_int o Q). cbn [slot_walk]. apply fol_assoc. apply fol_number; [reflexivity | reflexivity|]. intros d rest2 D. cbv zeta.
  apply be_below in D. apply fol_assoc.
  apply (fol_ext _ _ _ _ (after (hide ((be d + 7) / 8)) give) _ _ _ (fun s => eq_refl) (fun s => eq_refl)); [symmetry; apply after_end|].
  apply fol_hide; [lia | change (256 ^ 2) with 65536 in D; lia|].
  intros x x' r2 X XL. apply fol_ret_bind. apply fol_upd_end; [reflexivity | exact Logic.I].
Qed.
Lemma mpi_cut (d : N) : d < 65536 -> Z.of_N ((d + 7) / 8) = ((Z.of_N d + 7) / 8)%Z.
Proof. lia. Qed.
Lemma fol_point alg nm rest : fol (addPoint o alg) (addPoint o alg) (slot_walk (SPoint nm)) any rest.
Proof.
  unfold addPoint, newMPI. rewrite (off_int o Q). cbn [slot_walk]. apply fol_assoc. apply fol_number; [reflexivity | reflexivity|]. intros d rest2 D. cbv zeta.
  apply be_below in D. change (256 ^ 2) with 65536 in D. apply fol_assoc. rewrite <- (mpi_cut _ D). set (n := (be d + 7) / 8).
  assert (n < 2 ^ 62) as Ln by lia. destruct (n =? 0) eqn:Z.
  - apply N.eqb_eq in Z. rewrite Z. intros B B' rest' t' cs it S1 S2 L1 L2 Z2 E. cbn [give fst app] in E. subst rest'.
    right. exists tt, tt, cs, (add_child (mpi_item (point_name alg (mpi_flag (mkMPI (be d) []))) (mkMPI (be d) []) false) it). split; [reflexivity|]. split; [exact Logic.I|]. split; reflexivity.
  - apply (fol_ext _ _ _ _ (after (keep 1) (fun _ => after (hide (n - 1)) give)) _ _ _ (fun s => eq_refl) (fun s => eq_refl)).
    { unfold after at 1 2. destruct (keep 1 rest2) as [r [a|]]; [|reflexivity]. rewrite after_end. reflexivity. }
    apply fol_partly; [reflexivity | exact Ln | lia|]. intros x x' r2 X XL F. apply fol_ret_bind. apply fol_upd_end; [|exact Logic.I].
    destruct x as [|b x]; [unfold lenN in X; cbn in X; lia|]. destruct x' as [|b' x']; [discriminate XL|]. cbn in F. injection F as <-. reflexivity.
Qed.
Lemma fol_curve rest : fol addOID addOID (slot_walk SCurve) any rest.
Proof.
  unfold addOID. cbn [slot_walk].
  apply (fol_ext (bind rdByte (fun l => bind (rdBytes (Z.of_N (b2n l))) (fun oid => add (oid_item oid true))))
                 (bind rdByte (fun l => bind (rdBytes (Z.of_N (b2n l))) (fun oid => add (oid_item oid true)))) _ _ (after (number 1) (fun n => after (keep n) (fun _ => give tt))));
    [| | reflexivity|].
  1,2: intro s; unfold newOID; rewrite bind_assoc; unfold bind at 1 3; destruct (rdByte s) as [[b|e| |] s1]; try reflexivity;
    destruct (b2n b =? 0) eqn:Z; [|reflexivity]; apply N.eqb_eq in Z; rewrite Z; destruct s1; reflexivity.
  apply fol_byte. intros b r2. apply fol_keep; [reflexivity | pose proof (b2n_lt b); lia|]. intros d r3 D. apply fol_upd_end; [reflexivity | exact Logic.I].
Qed.
Lemma fol_kdf rest : fol (let* ep := newECParm in add (kdf_item o ep)) (let* ep := newECParm in add (kdf_item o ep)) (slot_walk SKdf) any rest.
Proof.
  cbn [slot_walk]. apply fol_parm.
  - intro r. apply fol_upd_end; [reflexivity | exact Logic.I].
  - intro r. apply fol_assoc. apply fol_byte. intros b r2. pose proof (b2n_lt b) as Hb.
    apply (fol_ext _ _ _ _ (after (keep (N.min (b2n b) 3)) (fun _ => after (hide (b2n b - N.min (b2n b) 3)) give)) _ _ _ (fun s => eq_refl) (fun s => eq_refl)).
    { replace (b2n b - N.min (b2n b) 3) with (b2n b - 3) by lia. unfold after at 1 2. destruct (keep _ r2) as [r1 [a|]]; [|reflexivity]. rewrite after_end. reflexivity. }
    apply fol_partly; [reflexivity | lia | lia|]. intros x x' r3 X XL F. apply fol_upd_end; [|exact Logic.I]. f_equal. unfold kdf_item, ecparm_item.
    rewrite (off_int o Q), (off_debug o Q). replace (lenZ x') with (lenZ x) by (unfold lenZ; congruence). unfold lenN in X.
    destruct x as [|a [|b1 [|c x]]], x' as [|a' [|b1' [|c' x']]]; try discriminate XL; cbn [length] in X;
      (replace (N.to_nat (N.min (b2n b) 3)) with (length [a; b1; c]) in F by (cbn [length]; lia)) || (replace (N.to_nat (N.min (b2n b) 3)) with (length [a; b1]) in F by (cbn [length]; lia))
        || (replace (N.to_nat (N.min (b2n b) 3)) with (length [a]) in F by (cbn [length]; lia)) || idtac; cbn in F; try (injection F; intros; subst); reflexivity.
Qed.
Lemma fol_sparm name nm rest : fol (let* ep := newECParm in add (ecparm_item name ep (oInteger o))) (let* ep := newECParm in add (ecparm_item name ep (oInteger o))) (slot_walk (SParm nm)) any rest.
Proof.
  cbn [slot_walk]. rewrite (off_int o Q). apply fol_parm.
  - intro r. apply fol_upd_end; [reflexivity | exact Logic.I].
  - intro r. apply fol_assoc. apply fol_byte. intros b r2. pose proof (b2n_lt b) as Hb.
    apply (fol_ext _ _ _ _ (after (hide (b2n b)) give) _ _ _ (fun s => eq_refl) (fun s => eq_refl)); [symmetry; apply after_end|].
    apply fol_hide; [reflexivity | lia|]. intros x x' r3 X XL. apply fol_upd_end; [|exact Logic.I].
    unfold ecparm_item. replace (lenZ x') with (lenZ x) by (unfold lenZ; congruence). reflexivity.
Qed.

Lemma fol_unit_end {A W} (m m' : M A) (w : walk W) R rest : fol m m' w R rest -> fol m m' (after w (fun _ => give tt)) any rest.
Proof.
  intros K B B' rest' t' cs it S1 S2 L1 L2 Z2 E. unfold after in E |- *. unfold give in E |- *. specialize (K B B' rest' t' cs it S1 S2 L1 L2 Z2). destruct (w rest) as [r [a|]]; cbn [fst snd] in *.
  - rewrite app_nil_r in *. destruct (K E) as [F | (x & b & cs1 & it1 & X & _ & M1 & M2)]; [left; exact F|]. right. exists x, tt, cs1, it1. repeat split; assumption.
  - destruct (K E) as [F | (x & b & cs1 & it1 & X & _)]; [left; exact F | discriminate X].
Qed.
Lemma fol_any {A W} (m m' : M A) (w : walk W) R rest : fol m m' w R rest -> fol m m' w any rest.
Proof.
  intros K B B' rest' t' cs it S1 S2 L1 L2 Z2 E. destruct (K B B' rest' t' cs it S1 S2 L1 L2 Z2 E) as [F | (x & b & cs1 & it1 & X & _ & M1 & M2)]; [left; exact F|].
  right. exists x, b, cs1, it1. repeat split; assumption.
Qed.
Lemma fol_sized size name rest : fol (addSized o size name) (addSized o size name) (give tt) any rest.
Proof.
  unfold addSized. rewrite (off_debug o Q). apply (fol_ret_bind [] []). apply fol_upd_end; [reflexivity | exact Logic.I].
Qed.
Lemma fol_addRest name rest : fol (addRest name (oDebug o)) (addRest name (oDebug o)) (give tt) any rest.
Proof.
  unfold addRest. rewrite (off_debug o Q). apply fol_rest. destruct (0 <? lenZ rest)%Z; [|apply fol_ret; exact Logic.I].
  unfold rawData. apply fol_assoc. apply fol_rest. apply fol_assoc. apply (fol_ret_bind [] []). apply fol_ret_bind. apply fol_upd_end; [reflexivity | exact Logic.I].
Qed.
Ltac slot := first [apply fol_mpi | apply fol_point | apply fol_curve | apply fol_kdf | apply fol_sparm].
Ltac slots := cbv beta iota delta [fields_walk pub_layout ses_layout sig_layout sec_layout slots_walk fold_right];
  repeat (eapply fol_bind; [slot | intros _ _ ? _]); first [eapply fol_unit_end; slot | apply fol_sized].
Lemma fol_pub pub rest : fol (parsePub o pub) (parsePub o pub) (fields_walk pub_layout (b2n pub)) any rest.
Proof.
  unfold parsePub. apply fol_rest.
  destruct (isRSA pub) eqn:H1; [replace (fields_walk pub_layout (b2n pub)) with (fields_walk pub_layout 1) by (destruct pub; try discriminate H1; reflexivity); unfold rsaPub; slots|].
  destruct (isDSA pub) eqn:H2; [replace (fields_walk pub_layout (b2n pub)) with (fields_walk pub_layout 17) by (destruct pub; try discriminate H2; reflexivity); unfold dsaPub; slots|].
  destruct (isElgamal pub) eqn:H3; [replace (fields_walk pub_layout (b2n pub)) with (fields_walk pub_layout 16) by (destruct pub; try discriminate H3; reflexivity); unfold elgPub; slots|].
  destruct (isECDH pub) eqn:H4; [replace (fields_walk pub_layout (b2n pub)) with (fields_walk pub_layout 18) by (destruct pub; try discriminate H4; reflexivity); unfold ecdhPub; slots|].
  destruct (isECDSA pub) eqn:H5; [replace (fields_walk pub_layout (b2n pub)) with (fields_walk pub_layout 19) by (destruct pub; try discriminate H5; reflexivity); unfold ecdsaPub; slots|].
  destruct (isEdDSA pub) eqn:H6; [replace (fields_walk pub_layout (b2n pub)) with (fields_walk pub_layout 22) by (destruct pub; try discriminate H6; reflexivity); unfold eddsaPub; slots|].
  replace (fields_walk pub_layout (b2n pub)) with (fields_walk pub_layout 0)
    by (destruct pub; try reflexivity; first [discriminate H1|discriminate H2|discriminate H3|discriminate H4|discriminate H5|discriminate H6]).
  slots.
Qed.
Lemma fol_ses pub rest : fol (parseSes o pub) (parseSes o pub) (fields_walk ses_layout (b2n pub)) any rest.
Proof.
  unfold parseSes. apply fol_rest.
  destruct (isRSA pub) eqn:H1; [replace (fields_walk ses_layout (b2n pub)) with (fields_walk ses_layout 1) by (destruct pub; try discriminate H1; reflexivity); slots|].
  destruct (isDSA pub) eqn:H2; [replace (fields_walk ses_layout (b2n pub)) with (fields_walk ses_layout 17) by (destruct pub; try discriminate H2; reflexivity); slots|].
  destruct (isElgamal pub) eqn:H3; [replace (fields_walk ses_layout (b2n pub)) with (fields_walk ses_layout 16) by (destruct pub; try discriminate H3; reflexivity); slots|].
  destruct (isECDH pub) eqn:H4; [replace (fields_walk ses_layout (b2n pub)) with (fields_walk ses_layout 18) by (destruct pub; try discriminate H4; reflexivity); slots|].
  destruct (isECDSA pub) eqn:H5; [replace (fields_walk ses_layout (b2n pub)) with (fields_walk ses_layout 19) by (destruct pub; try discriminate H5; reflexivity); slots|].
  destruct (isEdDSA pub) eqn:H6; [replace (fields_walk ses_layout (b2n pub)) with (fields_walk ses_layout 22) by (destruct pub; try discriminate H6; reflexivity); slots|].
  replace (fields_walk ses_layout (b2n pub)) with (fields_walk ses_layout 0)
    by (destruct pub; try reflexivity; first [discriminate H1|discriminate H2|discriminate H3|discriminate H4|discriminate H5|discriminate H6]).
  slots.
Qed.
Lemma fol_sig pub rest : fol (parseSig o pub) (parseSig o pub) (fields_walk sig_layout (b2n pub)) any rest.
Proof.
  unfold parseSig. apply fol_rest.
  destruct (isRSA pub) eqn:H1; [replace (fields_walk sig_layout (b2n pub)) with (fields_walk sig_layout 1) by (destruct pub; try discriminate H1; reflexivity); slots|].
  destruct (isDSA pub) eqn:H2; [replace (fields_walk sig_layout (b2n pub)) with (fields_walk sig_layout 17) by (destruct pub; try discriminate H2; reflexivity); slots|].
  destruct (isElgamal pub) eqn:H3; [replace (fields_walk sig_layout (b2n pub)) with (fields_walk sig_layout 16) by (destruct pub; try discriminate H3; reflexivity); slots|].
  destruct (isECDH pub) eqn:H4; [replace (fields_walk sig_layout (b2n pub)) with (fields_walk sig_layout 18) by (destruct pub; try discriminate H4; reflexivity); slots|].
  destruct (isECDSA pub) eqn:H5; [replace (fields_walk sig_layout (b2n pub)) with (fields_walk sig_layout 19) by (destruct pub; try discriminate H5; reflexivity); slots|].
  destruct (isEdDSA pub) eqn:H6; [replace (fields_walk sig_layout (b2n pub)) with (fields_walk sig_layout 22) by (destruct pub; try discriminate H6; reflexivity); slots|].
  replace (fields_walk sig_layout (b2n pub)) with (fields_walk sig_layout 0)
    by (destruct pub; try reflexivity; first [discriminate H1|discriminate H2|discriminate H3|discriminate H4|discriminate H5|discriminate H6]).
  slots.
Qed.
Lemma fol_unknownSec size pub rest : size = lenZ rest -> (lenZ rest < 2 ^ 62)%Z ->
  fol (unknownSec o size pub) (unknownSec o size pub) (numbers_walk 0) any rest.
Proof.
  intros -> L. unfold unknownSec, numbers_walk. cbn [sec_layout]. apply fol_look. cbv zeta. destruct (lenN rest <? 2) eqn:S.
  - intros B B' rest' t' cs it S1 S2 L1 L2 Z2 E. left. apply same_fail_bind. unfold rdBytes, on_rd, sat. cbn [s_rd s_cs s_cur].
    pose proof (suf_len _ _ S1) as [G1 G2]. pose proof (suf_len _ _ S2) as [G3 G4]. unfold lenN, lenZ in *.
    assert (forall C r : bytes, length C = length B -> length r = length rest -> exists e, (forall a, e <> ROk a) /\ 
      r_readbytes (Z.of_nat (length rest) - 2) (at_ C r) = (e, at_ C r) /\ e = if (length rest =? 0)%nat then RErr EEof else RPanic) as K.
    { intros C r LC LR. unfold r_readbytes, r_size, at_. cbn [r_off r_buf]. unfold lenZ. rewrite LC, LR.
      replace (Z.of_nat (length rest) - 2 =? 0)%Z with false by lia. destruct (length rest =? 0)%nat eqn:Z0.
      - replace (Z.of_nat (length B) - Z.of_nat (length rest) >=? Z.of_nat (length B))%Z with true by lia. exists (RErr EEof). repeat split. discriminate.
      - replace (Z.of_nat (length B) - Z.of_nat (length rest) >=? Z.of_nat (length B))%Z with false by lia. rewrite wrap64_small by lia.
        match goal with |- context [if (?a >? ?b)%Z then _ else _] => replace (a >? b)%Z with false by lia end.
        match goal with |- context [if ?a || ?b then _ else _] => replace (a || b) with true by lia end. exists RPanic. repeat split. discriminate. }
    destruct (K B rest eq_refl eq_refl) as (e & N1 & -> & X1). destruct (K B' rest' (eq_sym L1) (eq_sym L2)) as (e' & N2 & -> & X2).
    unfold same_fail. cbn [fst snd s_cs s_cur]. rewrite X1, X2. repeat split. rewrite <- X1. exact N1.
  - apply (fol_ext _ _ _ _ (after (hide (lenN rest - 2)) give) _ _ _ (fun s => eq_refl) (fun s => eq_refl)); [symmetry; apply after_end|].
    apply fol_hide; [unfold lenN, lenZ in *; lia | unfold lenN, lenZ in *; lia|]. intros d d' r2 _ _. rewrite (off_debug o Q). apply fol_upd_end; [reflexivity | exact Logic.I].
Qed.
Lemma fol_plain pub rest : (lenZ rest < 2 ^ 62)%Z -> fol (parseSecPlain o pub) (parseSecPlain o pub) (numbers_walk (b2n pub)) any rest.
Proof.
  intro L. unfold parseSecPlain. apply fol_rest.
  assert (forall a l, sec_layout a = Some l -> numbers_walk a = fields_walk sec_layout a) as N by (intros a l H; unfold numbers_walk, fields_walk; rewrite H; reflexivity).
  destruct (isRSA pub) eqn:H1; [replace (numbers_walk (b2n pub)) with (numbers_walk 1) by (destruct pub; try discriminate H1; reflexivity); rewrite (N 1 _ eq_refl); unfold rsaSec; slots|].
  destruct (isDSA pub) eqn:H2; [replace (numbers_walk (b2n pub)) with (numbers_walk 17) by (destruct pub; try discriminate H2; reflexivity); rewrite (N 17 _ eq_refl); slots|].
  destruct (isElgamal pub) eqn:H3; [replace (numbers_walk (b2n pub)) with (numbers_walk 16) by (destruct pub; try discriminate H3; reflexivity); rewrite (N 16 _ eq_refl); slots|].
  destruct (isECDH pub) eqn:H4; [replace (numbers_walk (b2n pub)) with (numbers_walk 18) by (destruct pub; try discriminate H4; reflexivity); rewrite (N 18 _ eq_refl); slots|].
  destruct (isECDSA pub) eqn:H5; [replace (numbers_walk (b2n pub)) with (numbers_walk 19) by (destruct pub; try discriminate H5; reflexivity); rewrite (N 19 _ eq_refl); slots|].
  destruct (isEdDSA pub) eqn:H6; [replace (numbers_walk (b2n pub)) with (numbers_walk 22) by (destruct pub; try discriminate H6; reflexivity); rewrite (N 22 _ eq_refl); slots|].
  replace (numbers_walk (b2n pub)) with (numbers_walk 0)
    by (destruct pub; try reflexivity; first [discriminate H1|discriminate H2|discriminate H3|discriminate H4|discriminate H5|discriminate H6]).
  apply fol_unknownSec; [reflexivity | exact L].
Qed.
Lemma fol_enc pub rest : fol (parseSecEnc o pub) (parseSecEnc o pub) hide_all any rest.
Proof.
  unfold parseSecEnc. apply fol_rest. intros B B' rest' t' cs it S1 S2 L1 L2 Z2 E. right. unfold addSized. rewrite (off_debug o Q).
  cbn [hide_all fst snd] in *. rewrite blank_length in *. rewrite E, app_length, blank_length in L2. destruct t'; [|cbn [length] in L2; lia]. rewrite app_nil_r in E.
  pose proof (suf_len _ _ S1) as [G1 G2]. pose proof (suf_len _ _ S2) as [G3 G4].
  assert (forall C r c i, (lenZ C < 2 ^ 62)%Z -> rdSeek 0 2 (sat C r c i) = (ROk (lenZ C), sat C [] c i)) as SK.
  { intros C r c i LC. unfold rdSeek, on_rd, sat, r_seek, r_size, at_. cbn [s_rd s_cs s_cur r_buf r_off]. pose proof (lenZ_nonneg C) as GN.
    change (2 =? 0)%Z with false. change (2 =? 1)%Z with false. change (2 =? 2)%Z with true. cbv iota beta zeta. rewrite Z.add_0_r, (wrap64_small (lenZ C)) by lia.
    replace ((lenZ C <? 0)%Z || (lenZ C >? lenZ C)%Z) with false by lia. rewrite lenZ_nil, Z.sub_0_r. reflexivity. }
  eexists tt, tt, cs, _. split; [reflexivity|]. split; [exact Logic.I|]. rewrite skipn_all.
  unfold bind, dumpRest, add, upd, sat. cbn [s_rd s_cs s_cur]. fold (sat B rest cs (add_child (Item (secenc_name pub) [] [] (n_bytes (lenZ rest)) []) it)).
  fold (sat B' rest' cs (add_child (Item (secenc_name pub) [] [] (n_bytes (lenZ rest)) []) it)). rewrite !SK by assumption. split; reflexivity.
Qed.
End Off.
