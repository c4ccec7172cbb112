(** * ResultL: lemmas for C64. *)
From Coq Require Import Strings.String Strings.Byte List NArith ZArith Bool Arith Lia.
From Verif Require Import Base Item Json Result SpecResult.
Import ListNotations.

Lemma change_length {A} (f : A -> A) k l : length (change f k l) = length l.
Proof. revert k. induction l as [|x l IH]; intros [|k]; cbn; auto. Qed.
Lemma change_nth {A} (f : A -> A) l : forall k i, nth_error (change f k l) i = if k =? i then option_map f (nth_error l i) else nth_error l i.
Proof.
  induction l as [|x l IH]; intros k i.
  - destruct k, i; cbn; try reflexivity. destruct (k =? i); reflexivity.
  - destruct k as [|k], i as [|i]; cbn [change nth_error]; try reflexivity. rewrite IH. reflexivity.
Qed.
Lemma nth_last {A} (l : list A) x i : nth_error (l ++ [x]) i = if length l =? i then Some x else nth_error l i.
Proof.
  destruct (Nat.eqb_spec (length l) i) as [<-|N].
  - rewrite nth_error_app2, Nat.sub_diag by lia. reflexivity.
  - destruct (Nat.lt_ge_cases i (length l)) as [L|G]; [apply nth_error_app1; exact L|]. rewrite nth_error_app2 by lia.
    destruct (i - length l) as [|d] eqn:D; [lia|]. cbn. destruct d; symmetry; apply nth_error_None; lia.
Qed.

(** The state holds what the history says. *)
Definition node_of (k : nat) (past : list call) : node :=
  mkNode (field_of FName k past) (field_of FValue k past) (field_of FDump k past) (field_of FNote k past) (subs_of k past).
Lemma new_item_fields opts : forall n, fold_left (fun n o => set_field (fst o) (snd o) n) opts n =
  mkNode (option_of FName opts (n_name n)) (option_of FValue opts (n_value n)) (option_of FDump opts (n_dump n)) (option_of FNote opts (n_note n)) (n_items n).
Proof.
  induction opts as [|[g s] r IH]; intro n; cbn [fold_left option_of fst snd]; [destruct n; reflexivity|]. rewrite IH. destruct g; reflexivity.
Qed.
Lemma items_length past : length (m_items (state past)) = items_made past.
Proof.
  induction past as [|c older IH]; [reflexivity|]. cbn [state fold_right]. change (fold_right exec mem0 older) with (state older).
  destruct c as [o|i f s|i l|i a| |j l|j a]; cbn [exec m_items items_made]; rewrite ?change_length; try exact IH.
  - rewrite app_length, IH. cbn. lia.
  - destruct i, a; cbn [m_items]; rewrite ?change_length; exact IH.
  - destruct j, a; exact IH.
Qed.
Lemma infos_length past : length (m_infos (state past)) = infos_made past.
Proof.
  induction past as [|c older IH]; [reflexivity|]. cbn [state fold_right]. change (fold_right exec mem0 older) with (state older).
  destruct c as [o|i f s|i l|i a| |j l|j a]; cbn [exec m_infos infos_made]; rewrite ?change_length; try exact IH.
  - destruct i, a; exact IH.
  - rewrite app_length, IH. cbn. lia.
  - destruct j, a; cbn [m_infos]; rewrite ?change_length; exact IH.
Qed.
Lemma items_state past k : nth_error (m_items (state past)) k = if k <? items_made past then Some (node_of k past) else None.
Proof.
  destruct (Nat.ltb_spec k (items_made past)) as [L|G]; [|apply nth_error_None; rewrite items_length; exact G].
  revert L. induction past as [|c older IH]; [cbn; lia|]. cbn [state fold_right]. change (fold_right exec mem0 older) with (state older).
  destruct c as [o|i f s|i l|i a| |j l|j a]; cbn [exec m_items items_made]; intro L.
  - rewrite nth_last, items_length. unfold node_of. cbn [field_of subs_of]. destruct (Nat.eqb_spec (items_made older) k) as [<-|N].
    + unfold new_item. rewrite new_item_fields. reflexivity.
    + rewrite IH by lia. reflexivity.
  - rewrite change_nth, IH by exact L. unfold node_of. cbn [field_of subs_of option_map]. destruct (i =? k); cbn [andb]; [|reflexivity]. destruct f; reflexivity.
  - rewrite change_nth, IH by exact L. unfold node_of. cbn [field_of subs_of option_map]. destruct (i =? k); reflexivity.
  - destruct i as [i|], a as [a|]; cbn [m_items]; rewrite ?change_nth, IH by exact L; unfold node_of; cbn [field_of subs_of option_map]; try reflexivity. destruct (i =? k); reflexivity.
  - apply IH; exact L.
  - apply IH; exact L.
  - destruct j, a; apply IH; exact L.
Qed.
Lemma infos_state past k : nth_error (m_infos (state past)) k = if k <? infos_made past then Some (packets_of k past) else None.
Proof.
  destruct (Nat.ltb_spec k (infos_made past)) as [L|G]; [|apply nth_error_None; rewrite infos_length; exact G].
  revert L. induction past as [|c older IH]; [cbn; lia|]. cbn [state fold_right]. change (fold_right exec mem0 older) with (state older).
  destruct c as [o|i f s|i l|i a| |j l|j a]; cbn [exec m_infos infos_made packets_of]; intro L; try (apply IH; exact L).
  - destruct i, a; apply IH; exact L.
  - rewrite nth_last, infos_length. destruct (Nat.eqb_spec (infos_made older) k); [reflexivity | apply IH; lia].
  - rewrite change_nth, IH by exact L. destruct (j =? k); reflexivity.
  - destruct j as [j|], a as [a|]; cbn [m_infos]; rewrite ?change_nth, IH by exact L; try reflexivity. cbn [option_map]. destruct (j =? k); reflexivity.
Qed.
(** Sub-items and packets are items that were made. *)
Lemma subs_known past : sound past -> forall k, Forall (fun a => a < items_made past) (subs_of k past).
Proof.
  induction past as [|c older IH]; intros S k; [constructor|]. destruct S as [S C]. specialize (IH S k).
  destruct c as [o|i f s|i l|i a| |j l|j a]; cbn [items_made subs_of].
  - destruct (_ =? _); [constructor|]. eapply Forall_impl; [|exact IH]. cbn. lia.
  - exact IH.
  - destruct (i =? k); [apply C | exact IH].
  - destruct i as [i|], a as [a|]; try exact IH. destruct (i =? k); [|exact IH]. apply Forall_app. split; [exact IH|]. constructor; [apply C | constructor].
  - exact IH.
  - exact IH.
  - destruct j, a; exact IH.
Qed.
Lemma packets_known past : sound past -> forall k, Forall (fun a => a < items_made past) (packets_of k past).
Proof.
  induction past as [|c older IH]; intros S k; [constructor|]. destruct S as [S C]. specialize (IH S k).
  destruct c as [o|i f s|i l|i a| |j l|j a]; cbn [items_made packets_of].
  - eapply Forall_impl; [|exact IH]. cbn. lia.
  - exact IH.
  - exact IH.
  - destruct i, a; exact IH.
  - destruct (_ =? _); [constructor | exact IH].
  - destruct (j =? k); [apply C | exact IH].
  - destruct j as [j|], a as [a|]; try exact IH. destruct (j =? k); [|exact IH]. apply Forall_app. split; [exact IH|]. constructor; [apply C | constructor].
Qed.

(** ** Trees *)
Lemma Forall2_same {A B} (R : A -> B -> Prop) l ts us : Forall2 R l ts -> Forall2 R l us -> (forall a t u, In a l -> R a t -> R a u -> t = u) -> ts = us.
Proof.
  intro F. revert us. induction F as [|a t l ts R1 F IH]; intros us G H; inversion G; subst; [reflexivity|]. f_equal; [eapply H; eauto; left; reflexivity|]. apply IH; [assumption|].
  intros b v w I. apply H. right. exact I.
Qed.
Fixpoint height (i : item) : nat := let '(Item _ _ _ _ l) := i in S (fold_right (fun c n => height c + n) 0 l).
Lemma height_in l t : In t l -> height t <= fold_right (fun c n => height c + n) 0 l.
Proof. induction l as [|x l IH]; cbn; [tauto|]. intros [->|I]; [lia|]. specialize (IH I). lia. Qed.
Lemma looks_ind2 past (P : nat -> item -> Prop) :
  (forall k ts, Forall2 (looks past) (subs_of k past) ts -> (forall a t, In a (subs_of k past) -> looks past a t -> In t ts -> P a t) ->
    P k (Item (field_of FName k past) (field_of FValue k past) (field_of FDump k past) (field_of FNote k past) ts)) ->
  forall k t, looks past k t -> P k t.
Proof.
  intros H k t. remember (height t) as n eqn:N. revert k t N. induction n as [n IH] using lt_wf_ind. intros k t N L. inversion L; subst. apply H; [assumption|].
  intros a t I La It. pose proof (height_in _ _ It). cbn [height] in IH. eapply IH; [|reflexivity|exact La]. lia.
Qed.
Lemma Forall2_In_l {A B} (R : A -> B -> Prop) l ts a : Forall2 R l ts -> In a l -> exists t, In t ts /\ R a t.
Proof. induction 1 as [|x y l ts H F IH]; cbn; [tauto|]. intros [->|I]; [eauto|]. destruct (IH I) as (t & J & K). eauto. Qed.
Lemma looks_unique past : forall k t, looks past k t -> forall u, looks past k u -> t = u.
Proof.
  apply (looks_ind2 past (fun k t => forall u, looks past k u -> t = u)). intros k ts F IH u U. inversion U as [k' us G]; subst. f_equal.
  clear U. revert us G. assert (forall l ts, Forall2 (looks past) l ts -> (forall a t, In a l -> looks past a t -> In t ts -> forall u, looks past a u -> t = u) -> forall us, Forall2 (looks past) l us -> ts = us) as X.
  { clear. induction 1 as [|a t l ts R F IH]; intros H us G; inversion G; subst; [reflexivity|]. f_equal; [eapply H; eauto; left; reflexivity|]. apply IH; [|assumption].
    intros b v I L J. apply H; [right; exact I | exact L | right; exact J]. }
  apply X; assumption.
Qed.
Lemma sub_height past k t a u : looks past k t -> In a (subs_of k past) -> looks past a u -> height u < height t.
Proof.
  intros L I U. inversion L as [k' ts F]; subst. destruct (Forall2_In_l _ _ _ _ F I) as (v & J & V). rewrite (looks_unique past a u U v V).
  pose proof (height_in _ _ J). cbn [height]. lia.
Qed.
Lemma sub_looks past k t a : looks past k t -> In a (subs_of k past) -> exists u, looks past a u.
Proof. intros L I. inversion L as [k' ts F]; subst. destruct (Forall2_In_l _ _ _ _ F I) as (v & J & V). eauto. Qed.
Lemma below_height past k a : below past k a -> forall t, looks past k t -> exists u, looks past a u /\ height u < height t.
Proof.
  induction 1 as [k a I|k b a I B IH]; intros t L; destruct (sub_looks _ _ _ _ L I) as (u & U); pose proof (sub_height _ _ _ _ _ L I U) as H.
  - eauto.
  - destruct (IH u U) as (v & V & W). exists v. split; [exact V | lia].
Qed.
Lemma looks_not_circular past k t : looks past k t -> ~ circular past k.
Proof.
  intros L (a & R & B). assert (exists u, looks past a u) as [u U].
  { destruct R as [->|R]; [eauto|]. destruct (below_height _ _ _ R t L) as (u & U & _). eauto. }
  destruct (below_height _ _ _ B u U) as (v & V & H). rewrite (looks_unique past a u U v V) in H. lia.
Qed.
Lemma below_trans past k b a : below past k b -> below past b a -> below past k a.
Proof. induction 1 as [k b I|k c b I B IH]; intro H; [eapply Further; eauto | eapply Further; eauto]. Qed.
(** Either an item has a tree, or a cycle is below it: the way down from the top never repeats an item otherwise. *)
Lemma all_look past l : (forall a, In a l -> exists t, looks past a t) -> exists ts, Forall2 (looks past) l ts.
Proof.
  induction l as [|a l IH]; intro H; [exists []; constructor|]. destruct (H a (or_introl eq_refl)) as [t T]. destruct IH as [ts F]; [intros b I; apply H; right; exact I|]. exists (t :: ts). constructor; assumption.
Qed.
Lemma looks_or_circular past : sound past -> forall d path k, NoDup path -> Forall (fun a => a < items_made past) path -> items_made past - length path < d -> k < items_made past ->
  (forall p, In p path -> below past p k) -> (exists t, looks past k t) \/ circular past k.
Proof.
  intros S. induction d as [|d IH]; intros path k ND FP LD LK B; [lia|].
  destruct (in_dec Nat.eq_dec k path) as [I|NI]; [right; exists k; split; [left; reflexivity | apply B; exact I]|].
  assert (forall l, (forall a, In a l -> In a (subs_of k past)) -> (forall a, In a l -> exists t, looks past a t) \/ circular past k) as X.
  { assert (length path < items_made past) as LP.
    { pose proof (NoDup_incl_length (NoDup_cons k NI ND) (l' := seq 0 (items_made past))) as Q. rewrite seq_length in Q. cbn [length] in Q. apply Q.
      intros a [<-|I]; apply in_seq; [lia|]. rewrite Forall_forall in FP. specialize (FP a I). lia. }
    induction l as [|a l IHl]; intro H; [left; intros a []|]. destruct IHl as [IHl|C]; [intros b I; apply H; right; exact I | | right; exact C].
    pose proof (H a (or_introl eq_refl)) as Ia. pose proof (subs_known past S k) as K. rewrite Forall_forall in K. specialize (K a Ia).
    destruct (IH (k :: path) a) as [T|C]; try assumption.
    - constructor; assumption.
    - constructor; assumption.
    - cbn [length]. lia.
    - intros p [<-|I]; [apply Sub; exact Ia|]. eapply below_trans; [apply B; exact I | apply Sub; exact Ia].
    - left. intros b [<-|I]; [exact T | apply IHl; exact I].
    - right. destruct C as (c & R & Q). exists c. split; [|exact Q]. right. destruct R as [->|R]; [apply Sub; exact Ia | eapply Further; eauto]. }
  destruct (X (subs_of k past) (fun a I => I)) as [T|C]; [|right; exact C]. destruct (all_look past _ T) as [ts F]. left. eexists. constructor. exact F.
Qed.
Lemma looks_dec past k : sound past -> k < items_made past -> (exists t, looks past k t) \/ circular past k.
Proof. intros S L. apply (looks_or_circular past S (Datatypes.S (items_made past)) [] k); [constructor | constructor | cbn; lia | exact L | intros p []]. Qed.

(** ** Text *)
Lemma texts_eq ind lvl l : (fix go (l : list item) : bytes := match l with [] => [] | c :: t => item_text ind lvl c ++ go t end) l = concat (map (item_text ind lvl) l).
Proof. induction l as [|c l IH]; [reflexivity|]. cbn [map concat]. rewrite IH. reflexivity. Qed.
Lemma all_some_ok {A} (l : list (option A)) r : all_some l = Some r -> Forall2 (fun o x => o = Some x) l r.
Proof.
  revert r. induction l as [|[x|] l IH]; intros r H; cbn in H; [injection H as <-; constructor | | discriminate].
  destruct (all_some l) as [t|]; [|discriminate]. injection H as <-. constructor; [reflexivity | apply IH; reflexivity].
Qed.
Lemma all_some_of {A} (l : list (option A)) r : Forall2 (fun o x => o = Some x) l r -> all_some l = Some r.
Proof. induction 1 as [|o x l r -> F IH]; [reflexivity|]. cbn. rewrite IH. reflexivity. Qed.
Lemma to_string_sound past ind : sound past -> forall fuel lvl k s, k < items_made past -> to_string (m_items (state past)) fuel ind lvl (Some k) = Some s ->
  exists t, looks past k t /\ s = item_text ind lvl t.
Proof.
  intro S. induction fuel as [|fuel IH]; intros lvl k s L H; [discriminate|]. cbn [to_string] in H. rewrite items_state in H. destruct (Nat.ltb_spec k (items_made past)); [|lia]. cbn [node_of n_items n_name n_value n_note n_dump] in H.
  destruct (all_some _) as [ss|] eqn:A in H; [|discriminate]. injection H as <-. apply all_some_ok in A. pose proof (subs_known past S k) as K.
  assert (exists ts, Forall2 (looks past) (subs_of k past) ts /\ ss = map (item_text ind (Datatypes.S lvl)) ts) as (ts & F & ->).
  { remember (subs_of k past) as l eqn:E. clear E. revert ss A K. induction l as [|a l IHl]; intros ss A K; inversion A as [|? ? ? ? A1 A2]; subst; [exists []; split; [constructor | reflexivity]|].
    inversion K as [|? ? K1 K2]; subst. destruct (IH _ _ _ K1 A1) as (t & T & ->). destruct (IHl _ A2 K2) as (ts & F & ->). exists (t :: ts). split; [constructor; assumption | reflexivity]. }
  eexists. split; [constructor; exact F|]. cbn [item_text]. rewrite texts_eq. reflexivity.
Qed.
Lemma to_string_mono past ind : forall fuel lvl k s, to_string (m_items (state past)) fuel ind lvl (Some k) = Some s -> to_string (m_items (state past)) (Datatypes.S fuel) ind lvl (Some k) = Some s.
Proof.
  induction fuel as [|fuel IH]; intros lvl k s H; [discriminate|]. remember (Datatypes.S fuel) as f eqn:F. cbn [to_string]. rewrite F in H. cbn [to_string] in H. destruct (nth_error _ k) as [n|]; [|exact H].
  destruct (all_some (map (fun a => to_string _ fuel ind _ (Some a)) _)) as [ss|] eqn:A; [|discriminate]. rewrite (all_some_of _ ss); [exact H|]. apply all_some_ok in A. clear H.
  revert ss A. induction (n_items n) as [|a l IHl]; intros ss A; inversion A; subst; constructor; [apply IH; assumption | apply IHl; assumption].
Qed.
Lemma to_string_mono_le past ind f1 f2 lvl k s : f1 <= f2 -> to_string (m_items (state past)) f1 ind lvl (Some k) = Some s -> to_string (m_items (state past)) f2 ind lvl (Some k) = Some s.
Proof. induction 1 as [|f2 L IH]; intro H; [exact H|]. apply to_string_mono. apply IH. exact H. Qed.
Lemma to_string_complete past ind : sound past -> forall k t, looks past k t -> k < items_made past -> forall lvl, to_string (m_items (state past)) (height t) ind lvl (Some k) = Some (item_text ind lvl t).
Proof.
  intros S. apply (looks_ind2 past (fun k t => k < items_made past -> forall lvl, to_string (m_items (state past)) (height t) ind lvl (Some k) = Some (item_text ind lvl t))).
  intros k ts F IH L lvl. cbn [height to_string]. rewrite items_state. destruct (Nat.ltb_spec k (items_made past)); [|lia]. cbn [node_of n_items n_name n_value n_note n_dump].
  rewrite (all_some_of _ (map (item_text ind (Datatypes.S lvl)) ts)); [cbn [item_text]; rewrite texts_eq; reflexivity|].
  pose proof (subs_known past S k) as K. rewrite Forall_forall in K.
  assert (forall l us, Forall2 (looks past) l us -> incl l (subs_of k past) -> incl us ts -> Forall2 (fun o x => o = Some x) (map (fun a => to_string (m_items (state past)) (fold_right (fun c n => height c + n) 0 ts) ind (Datatypes.S lvl) (Some a)) l) (map (item_text ind (Datatypes.S lvl)) us)) as X.
  { induction 1 as [|a u l us U G IHG]; intros I1 I2; cbn [map]; constructor.
    - apply (to_string_mono_le past ind (height u)); [apply height_in; apply I2; left; reflexivity|]. apply IH; [apply I1; left; reflexivity | exact U | apply I2; left; reflexivity | apply K; apply I1; left; reflexivity].
    - apply IHG; [intros x J; apply I1; right; exact J | intros x J; apply I2; right; exact J]. }
  apply X; [exact F | apply incl_refl | apply incl_refl].
Qed.

(** ** JSON *)
Lemma jsons_eq l : (fix go (l : list item) : list bytes := match l with [] => [] | c :: r => item_json c :: go r end) l = map item_json l.
Proof. induction l as [|c l IH]; [reflexivity|]. cbn [map]. rewrite IH. reflexivity. Qed.
Lemma all_text_ok l r : all_text l = inr r -> Forall2 (fun o x => o = JText x) l r.
Proof.
  revert r. induction l as [|[x| |] l IH]; intros r H; cbn in H; [injection H as <-; constructor | | discriminate | discriminate].
  destruct (all_text l) as [|t]; [discriminate|]. injection H as <-. constructor; [reflexivity | apply IH; reflexivity].
Qed.
Lemma all_text_of l r : Forall2 (fun o x => o = JText x) l r -> all_text l = inr r.
Proof. induction 1 as [|o x l r -> F IH]; [reflexivity|]. cbn. rewrite IH. reflexivity. Qed.
Lemma all_text_bad l e : all_text l = inl e -> In e l /\ (e = JCycle \/ e = JFuel).
Proof.
  induction l as [|[x| |] l IH]; cbn; intro H; [discriminate | | injection H as <-; auto | injection H as <-; auto].
  destruct (all_text l) as [e'|]; [|discriminate]. injection H as ->. destruct (IH eq_refl). auto.
Qed.
Lemma encode_sound past : sound past -> forall fuel lvl seen k s, k < items_made past -> encode (m_items (state past)) fuel lvl seen k = JText s ->
  exists t, looks past k t /\ s = item_json t.
Proof.
  intro S. induction fuel as [|fuel IH]; intros lvl seen k s L H; [discriminate|]. cbn [encode] in H. destruct (enter _ _ seen) as [seen1|]; [|discriminate].
  rewrite items_state in H. destruct (Nat.ltb_spec k (items_made past)); [|lia]. cbn [node_of n_items n_name n_value n_note n_dump] in H. pose proof (subs_known past S k) as K.
  destruct (subs_of k past) as [|a0 l0] eqn:E.
  - cbn [is_nil] in H. injection H as <-. exists (Item (field_of FName k past) (field_of FValue k past) (field_of FDump k past) (field_of FNote k past) []). split; [constructor; rewrite E; constructor|]. cbn [item_json is_nil]. rewrite !app_nil_r. reflexivity.
  - cbn [is_nil] in H. destruct (enter _ _ seen1) as [seen2|]; [|discriminate]. destruct (all_text _) as [e|ss] eqn:A in H; [destruct (all_text_bad _ _ A) as [_ [-> | ->]]; discriminate|].
    injection H as <-. apply all_text_ok in A. rewrite <- E in A, K.
    assert (exists ts, Forall2 (looks past) (subs_of k past) ts /\ ss = map item_json ts) as (ts & F & ->).
    { remember (subs_of k past) as l eqn:E2. clear E E2. revert ss A K. induction l as [|a l IHl]; intros ss A K; inversion A as [|? ? ? ? A1 A2]; subst; [exists []; split; [constructor | reflexivity]|].
      inversion K as [|? ? K1 K2]; subst. destruct (IH _ _ _ _ K1 A1) as (t & T & ->). destruct (IHl _ A2 K2) as (ts & F & ->). exists (t :: ts). split; [constructor; assumption | reflexivity]. }
    eexists. split; [constructor; exact F|]. cbn [item_json]. rewrite E in F. inversion F; subst. cbn [is_nil]. rewrite <- !app_assoc. reflexivity.
Qed.
(** An item with a tree is no ancestor of itself, so no cycle is reported. *)
Definition above (past : list call) (t : item) (x : key) : Prop :=
  match x with KItem s | KSlice s => forall u, looks past s u -> height t < height u end.
Lemma enter_ok past lvl x seen t k : looks past k t -> (x = KItem k \/ x = KSlice k) ->
  Forall (above past t) seen -> exists seen', enter lvl x seen = Some seen' /\ (forall y, In y seen' -> y = x \/ In y seen).
Proof.
  intros T X F. unfold enter. destruct (detect_after <? lvl)%N; [|eauto]. destruct (existsb (key_eqb x) seen) eqn:E.
  - exfalso. apply existsb_exists in E as (y & I & Q). rewrite Forall_forall in F. specialize (F y I).
    destruct X as [-> | ->]; destruct y as [s|s]; cbn in Q; try discriminate; apply Nat.eqb_eq in Q; subst s; specialize (F t T); lia.
  - exists (x :: seen). split; [reflexivity|]. intros y [<-|I]; auto.
Qed.
Lemma encode_no_cycle past : sound past -> forall fuel lvl seen k t, k < items_made past -> looks past k t -> Forall (above past t) seen ->
  encode (m_items (state past)) fuel lvl seen k <> JCycle.
Proof.
  intro S. induction fuel as [|fuel IH]; intros lvl seen k t L T F; [discriminate|]. cbn [encode].
  destruct (enter_ok past (lvl + 1) (KItem k) seen t k T (or_introl eq_refl) F) as (seen1 & -> & I1).
  rewrite items_state. destruct (Nat.ltb_spec k (items_made past)); [|lia]. cbn [node_of n_items n_name n_value n_note n_dump].
  destruct (is_nil (subs_of k past)); [discriminate|].
  assert (exists seen2, enter (lvl + 2) (KSlice k) seen1 = Some seen2 /\ (forall y, In y seen2 -> y = KSlice k \/ y = KItem k \/ In y seen)) as (seen2 & -> & I2).
  { unfold enter. destruct (detect_after <? lvl + 2)%N.
    - destruct (existsb (key_eqb (KSlice k)) seen1) eqn:E.
      + exfalso. apply existsb_exists in E as (y & I & Q). destruct y as [s|s]; cbn in Q; [discriminate|]. apply Nat.eqb_eq in Q. subst s. destruct (I1 _ I) as [Z|J]; [discriminate|].
        rewrite Forall_forall in F. specialize (F _ J t T). lia.
      + exists (KSlice k :: seen1). split; [reflexivity|]. intros y [<-|I]; auto.
    - exists seen1. split; [reflexivity|]. intros y I. auto. }
  destruct (all_text _) as [e|ss] eqn:A; [|discriminate]. destruct (all_text_bad _ _ A) as [I [-> | ->]]; [|discriminate]. exfalso.
  apply in_map_iff in I as (a & Q & I). destruct (sub_looks _ _ _ _ T I) as (u & U). pose proof (sub_height _ _ _ _ _ T I U) as H'. pose proof (subs_known past S k) as K. rewrite Forall_forall in K.
  apply (IH (lvl + 2)%N seen2 a u (K a I) U); [|exact Q]. apply Forall_forall. intros y J. rewrite Forall_forall in F. destruct (I2 y J) as [->|[->|J']].
  - intros v V. rewrite (looks_unique past k v V t T). lia.
  - intros v V. rewrite (looks_unique past k v V t T). lia.
  - specialize (F y J'). destruct y as [s|s]; intros v V; specialize (F v V); lia.
Qed.
(** The encoder ends: from level 1000 on it never meets an item twice. *)
Definition item_keys (seen : list key) : list nat := flat_map (fun x => match x with KItem k => [k] | KSlice _ => [] end) seen.
Lemma existsb_keys k seen : existsb (key_eqb (KItem k)) seen = false -> ~ In k (item_keys seen).
Proof.
  intros E I. apply in_flat_map in I as (x & J & I). destruct x as [s|s]; [|destruct I]. destruct I as [->|[]]. assert (existsb (key_eqb (KItem k)) seen = true) as Z; [|congruence].
  apply existsb_exists. exists (KItem k). split; [exact J | cbn; apply Nat.eqb_refl].
Qed.
Lemma encode_ends past : sound past -> forall fuel lvl seen k, k < items_made past -> NoDup (item_keys seen) -> Forall (fun a => a < items_made past) (item_keys seen) ->
  N.to_nat (detect_after - lvl) + (items_made past - length (item_keys seen)) < fuel ->
  encode (m_items (state past)) fuel lvl seen k <> JFuel.
Proof.
  intro S. induction fuel as [|fuel IH]; intros lvl seen k L ND FS M; [lia|]. cbn [encode]. unfold enter at 1.
  destruct (N.ltb_spec detect_after (lvl + 1)) as [D|D].
  - destruct (existsb (key_eqb (KItem k)) seen) eqn:E; [discriminate|]. apply existsb_keys in E.
    assert (length (item_keys seen) < items_made past) as LP.
    { pose proof (NoDup_incl_length (NoDup_cons k E ND) (l' := seq 0 (items_made past))) as Q. rewrite seq_length in Q. cbn [length] in Q. apply Q.
      intros a [<-|I]; apply in_seq; [lia|]. rewrite Forall_forall in FS. specialize (FS a I). lia. }
    rewrite items_state. destruct (Nat.ltb_spec k (items_made past)); [|lia]. cbn [node_of n_items n_name n_value n_note n_dump]. destruct (is_nil (subs_of k past)); [discriminate|].
    unfold enter. replace (detect_after <? lvl + 2)%N with true by (symmetry; apply N.ltb_lt; lia). destruct (existsb _ (KItem k :: seen)); [discriminate|].
    destruct (all_text _) as [e|ss] eqn:A; [|discriminate]. destruct (all_text_bad _ _ A) as [I [-> | ->]]; [discriminate|]. intros _. apply in_map_iff in I as (a & Q & I).
    pose proof (subs_known past S k) as K. rewrite Forall_forall in K. revert Q. apply IH.
    + apply K. exact I.
    + cbn [item_keys flat_map app]. constructor; assumption.
    + cbn [item_keys flat_map app]. constructor; assumption.
    + cbn [item_keys flat_map app length]. change (flat_map (fun x => match x with KItem k => [k] | KSlice _ => [] end) seen) with (item_keys seen). lia.
  - rewrite items_state. destruct (Nat.ltb_spec k (items_made past)); [|lia]. cbn [node_of n_items n_name n_value n_note n_dump]. destruct (is_nil (subs_of k past)); [discriminate|].
    assert (forall seen2, enter (lvl + 2) (KSlice k) seen = Some seen2 -> item_keys seen2 = item_keys seen) as IK.
    { unfold enter. intro seen2. destruct (detect_after <? lvl + 2)%N; [destruct (existsb _ seen); [discriminate|]|]; intros [= <-]; reflexivity. }
    destruct (enter (lvl + 2) (KSlice k) seen) as [seen2|]; [|discriminate]. specialize (IK seen2 eq_refl).
    destruct (all_text _) as [e|ss] eqn:A; [|discriminate]. destruct (all_text_bad _ _ A) as [I [-> | ->]]; [discriminate|]. intros _. apply in_map_iff in I as (a & Q & I).
    pose proof (subs_known past S k) as K. rewrite Forall_forall in K. revert Q. apply IH; rewrite ?IK; try assumption; [apply K; exact I|]. unfold detect_after in *. lia.
Qed.
