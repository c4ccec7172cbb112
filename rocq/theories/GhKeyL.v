(** * GhKeyL: the fields of the keys of a page are filled as the specification says (C69). *)
From Coq Require Import Strings.String Strings.Byte List NArith ZArith Bool Arith Lia ZifyBool ZifyN ZifyNat.
From Verif Require Import Base BaseL SpecBase SpecText Utf8 Utf8L Json SpecJson JsonL Github GhJson SpecGhJson GhJsonL.
Import ListNotations.
Local Open Scope N_scope.

(** ** Induction over documents *)

Section Ind.
Variable P : jv -> Prop.
Hypothesis H0 : P VNull.
Hypothesis H1 : forall b, P (VBool b).
Hypothesis H2 : forall x, P (VNum x).
Hypothesis H3 : forall x, P (VStr x).
Hypothesis H4 : forall l, Forall P l -> P (VArr l).
Hypothesis H5 : forall l, Forall (fun m => P (snd m)) l -> P (VObj l).
Fixpoint jv_ind' (v : jv) : P v :=
  match v with
  | VNull => H0 | VBool b => H1 b | VNum x => H2 x | VStr x => H3 x
  | VArr l => H4 l ((fix go l : Forall P l := match l with [] => Forall_nil _ | x :: r => Forall_cons x (jv_ind' x) (go r) end) l)
  | VObj l => H5 l ((fix go l : Forall (fun m => P (snd m)) l := match l with [] => Forall_nil _ | (k, x) :: r => Forall_cons (k, x) (jv_ind' x) (go r) end) l)
  end.
End Ind.

(** Every string and every name of a document can stand between quotes. *)
Inductive bodies : jv -> Prop :=
| bodies_null : bodies VNull
| bodies_bool b : bodies (VBool b)
| bodies_num x : bodies (VNum x)
| bodies_str x : string_body x -> bodies (VStr x)
| bodies_arr l : Forall bodies l -> bodies (VArr l)
| bodies_obj l : Forall (fun m => string_body (fst m) /\ bodies (snd m)) l -> bodies (VObj l).

Lemma doc_bodies :
  (forall v b, doc_text v b -> bodies v) /\
  (forall l e, doc_elements l e -> Forall bodies l) /\
  (forall l e, doc_members l e -> Forall (fun m => string_body (fst m) /\ bodies (snd m)) l).
Proof.
  apply doc_mut; intros; constructor; auto.
Qed.

(** ** Names *)

Definition low_name (name : string) : Prop := Forall (fun x => 97 <= x <= 122 \/ x = 95) (SpecJson.key name).

Lemma name_fold_small x y : 97 <= x <= 122 \/ x = 95 -> name_fold x y = true <-> small y = x.
Proof.
  intro L. destruct (N.lt_ge_cases y 128) as [Y|Y].
  - assert (forallb (fun i => forallb (fun j => let x := N.of_nat i in let y := N.of_nat j in
        negb (inr 97 122 x || (x =? 95)) || Bool.eqb (name_fold x y) (small y =? x)) (seq 0 128)) (seq 0 128) = true) as K by (vm_compute; reflexivity).
    rewrite forallb_forall in K. specialize (K (N.to_nat x)). rewrite forallb_forall in K.
    specialize (K ltac:(apply in_seq; lia) (N.to_nat y) ltac:(apply in_seq; lia)). rewrite !N2Nat.id in K. cbn zeta in K.
    replace (inr 97 122 x || (x =? 95)) with true in K by (unfold inr; lia). cbn [negb orb] in K. apply eqb_prop in K. rewrite K. apply N.eqb_eq.
  - unfold name_fold, small. replace (y <? 128) with false by lia. replace ((65 <=? y) && (y <=? 90)) with false by lia.
    destruct (N.eqb_spec y 0x212A) as [->|N1]; [cbn; lia|]. destruct (N.eqb_spec y 0x17F) as [->|N2]; lia.
Qed.
Lemma fold_runes_small a l : Forall (fun x => 97 <= x <= 122 \/ x = 95) a -> fold_runes a l = true <-> map small l = a.
Proof.
  intro L. revert l. induction L as [|x a X L IH]; intros [|y l]; cbn [fold_runes map].
  - tauto.
  - split; discriminate.
  - split; discriminate.
  - rewrite andb_true_iff, IH, (name_fold_small x y X). split; [intros (-> & ->); reflexivity|intro E; injection E as -> ->; auto].
Qed.
Lemma fold_named name k : low_name name -> string_body k -> fold_name name k = true <-> named name k.
Proof.
  intros L B. unfold fold_name. rewrite fold_runes_small by exact L. split.
  - intro E. exists (points k). split; [apply chars_points; exact B|exact E].
  - intros (l & H & E). rewrite (points_chars l k H). exact E.
Qed.
Lemma fold_not_named name k : low_name name -> string_body k -> fold_name name k = false <-> ~ named name k.
Proof. intros L B. rewrite <- (fold_named name k L B). destruct (fold_name name k); split; intros; try discriminate; try congruence; intuition congruence. Qed.
Lemma named_same a b k : named a k -> named b k -> SpecJson.key a = SpecJson.key b.
Proof. intros (l & H & E) (l' & H' & E'). apply points_chars in H, H'. congruence. Qed.

(** ** Kinds and sorts *)

Fixpoint kd (s : sort) : kind :=
  match s with
  | Integer => KInt | SpecGhJson.String => KStr | Boolean => KBool | Time => KTime | Address => KEmail | Key => KKey
  | SpecGhJson.List s => KList (kd s)
  end.

Definition table (members : list (string * sort)) : list (string * kind) := map (fun p => (fst p, kd (snd p))) members.
Lemma key_table : key_fields = table key_members. Proof. reflexivity. Qed.
Lemma email_table : email_fields = table address_members. Proof. reflexivity. Qed.

Definition good_table (members : list (string * sort)) : Prop :=
  Forall (fun p => low_name (fst p)) members /\ NoDup (map (fun p => SpecJson.key (fst p)) members).

Lemma field_named members k name s : good_table members -> string_body k -> In (name, s) members -> named name k ->
  field_kind (table members) k = Some (kd s).
Proof.
  intros (L & D) B I N. induction members as [|[n e] r IH]; [destruct I|].
  inversion L as [|? ? Ln Lr]; subst. inversion D as [|? ? Dn Dr]; subst. cbn [table map field_kind fst snd].
  destruct I as [E|I].
  - injection E as -> ->. apply (fold_named name k Ln B) in N. rewrite N. reflexivity.
  - destruct (fold_name n k) eqn:F; [|apply IH; assumption]. exfalso. apply Dn. apply (fold_named n k Ln B) in F. cbn [fst] in *.
    rewrite (named_same n name k F N). apply (in_map (fun p => SpecJson.key (fst p))) in I. exact I.
Qed.
Lemma field_found members k e : good_table members -> string_body k -> field_kind (table members) k = Some e ->
  exists name s, In (name, s) members /\ named name k /\ kd s = e.
Proof.
  intros (L & _) B. induction members as [|[n s] r IH]; [discriminate|]. inversion L as [|? ? Ln Lr]; subst. cbn [table map field_kind fst snd] in *.
  destruct (fold_name n k) eqn:F; intro H.
  - injection H as <-. exists n, s. split; [left; reflexivity|]. split; [apply (fold_named n k Ln B); exact F|reflexivity].
  - destruct (IH Lr H) as (name & s' & I & N & E). exists name, s'. split; [right; exact I|auto].
Qed.

Lemma low_check name : forallb (fun x => inr 97 122 x || (x =? 95)) (SpecJson.key name) = true -> low_name name.
Proof. intro H. apply Forall_forall. intros x I. rewrite forallb_forall in H. specialize (H x I). unfold inr in H. lia. Qed.
Lemma nodup_check (l : list (list N)) : (forall a b : list N, {a = b} + {a <> b}) -> nodup (list_eq_dec N.eq_dec) l = l -> NoDup l.
Proof. intros _ E. rewrite <- E. apply NoDup_nodup. Qed.
Lemma key_good : good_table key_members.
Proof.
  split; [repeat (constructor; [apply low_check; reflexivity|]); constructor|].
  apply nodup_check; [apply list_eq_dec, N.eq_dec|vm_compute; reflexivity].
Qed.
Lemma address_good : good_table address_members.
Proof.
  split; [repeat (constructor; [apply low_check; reflexivity|]); constructor|].
  apply nodup_check; [apply list_eq_dec, N.eq_dec|vm_compute; reflexivity].
Qed.

(** ** Integers *)

Lemma decimal_value l : Forall digit l -> forall a b, b = Z.of_N a ->
  fold_left (fun a b => a * 10 + (Z.of_N (b2n b) - 48))%Z l b = Z.of_N (fold_left (fun a b => a * 10 + (b2n b - 48)) l a).
Proof.
  induction 1 as [|c l C D IH]; intros a b E; [exact E|]. cbn [fold_left]. apply IH. unfold digit in C. subst. lia.
Qed.
Lemma dec_decimal l : Forall digit l -> decimal l = Z.of_N (dec_value l).
Proof. intro D. apply decimal_value; [exact D|reflexivity]. Qed.
Lemma digits_all l : forallb jdigit l = true <-> Forall digit l.
Proof. rewrite forallb_forall, Forall_forall. split; intros H x I; apply jdigit_digit; auto. Qed.

Lemma int64_int n : int64_ok n = true <-> int64_text n.
Proof.
  split.
  - unfold int64_ok. destruct n as [|b r]; [discriminate|]. destruct (beq_spec b x2d) as [->|N]; intro H.
    + rewrite !andb_true_iff, digits_all in H. destruct H as ((A & B) & C). constructor 2.
      * split; [intros ->; discriminate|exact B].
      * rewrite dec_decimal by exact B. lia.
    + rewrite andb_true_iff, digits_all in H. destruct H as (B & C). constructor 1.
      * split; [discriminate|exact B].
      * rewrite dec_decimal by exact B. lia.
  - intros [l (N & D) L|l (N & D) L]; rewrite dec_decimal in L by exact D.
    + destruct l as [|b r]; [contradiction|]. unfold int64_ok. destruct (beq_spec b x2d) as [->|].
      { inversion D as [|? ? X _]; subst. unfold digit in X. cbn in X. lia. }
      rewrite andb_true_iff, digits_all. split; [exact D|lia].
    + cbn [int64_ok]. rewrite byte_eqb_refl, !andb_true_iff, digits_all. split; [split; [destruct l; [contradiction|reflexivity]|exact D]|lia].
Qed.

(** ** Types *)

Lemma members_sort T members l :
  good_table members -> Forall (fun m => string_body (fst m) /\ bodies (snd m)) l ->
  Forall (fun m => forall s, store_ok T (snd m) (kd s) = true <-> of_sort (fun x => T x = true) s (snd m)) l ->
  forallb (fun m : bytes * jv => match m with (n, x) => match field_kind (table members) n with Some e => store_ok T x e | None => true end end) l = true
  <-> (forall k v name s, In (k, v) l -> In (name, s) members -> named name k -> of_sort (fun x => T x = true) s v).
Proof.
  intros G B IH. rewrite forallb_forall. rewrite Forall_forall in B, IH. split.
  - intros H k v name s I M N. specialize (H _ I). cbn in H. destruct (B _ I) as (Bk & _). cbn [fst] in Bk.
    rewrite (field_named members k name s G Bk M N) in H. apply (IH _ I). exact H.
  - intros H [k v] I. destruct (field_kind (table members) k) as [e|] eqn:F; [|reflexivity].
    destruct (B _ I) as (Bk & _). apply (field_found members k e G Bk) in F as (name & s & M & N & <-).
    apply (IH _ I). cbn [snd]. eapply H; eassumption.
Qed.

Lemma store_sort T v : bodies v -> forall s, store_ok T v (kd s) = true <-> of_sort (fun x => T x = true) s v.
Proof.
  induction v as [| | | |l IH|l IH] using jv_ind'; intros B s.
  - split; [constructor|reflexivity].
  - destruct s; cbn; split; intro H; try discriminate; try (constructor; fail); try reflexivity; inversion H.
  - destruct s; cbn; split; intro H; try discriminate; try (inversion H; fail).
    + constructor. apply int64_int. exact H.
    + inversion H; subst. apply int64_int. assumption.
  - destruct s; cbn; split; intro H; try discriminate; try (inversion H; fail); try reflexivity.
    + constructor.
    + constructor. exact H.
    + inversion H; subst. assumption.
  - assert (Forall bodies l) as Bl by (inversion B; assumption). clear B.
    destruct s; cbn; split; intro H; try discriminate; try (inversion H; fail).
    + constructor. rewrite forallb_forall in H. rewrite Forall_forall in *. intros x I. apply IH; auto.
    + inversion H as [| | | | |? ? F| |]; subst. rewrite forallb_forall. rewrite Forall_forall in *. intros x I. apply IH; auto.
  - assert (Forall (fun m => string_body (fst m) /\ bodies (snd m)) l) as Bl by (inversion B; assumption). clear B.
    assert (Forall (fun m => forall s, store_ok T (snd m) (kd s) = true <-> of_sort (fun x => T x = true) s (snd m)) l) as IH'.
    { rewrite Forall_forall in *. intros m I. apply IH; [exact I|]. apply Bl. exact I. }
    destruct s; cbn [store_ok kd]; split; intro H; try discriminate; try (inversion H; fail).
    + constructor. rewrite email_table in H. eapply members_sort; eauto using address_good.
    + rewrite email_table. apply members_sort; [exact address_good|exact Bl|exact IH'|]. inversion H; subst; assumption.
    + constructor. rewrite key_table in H. eapply members_sort; eauto using key_good.
    + rewrite key_table. apply members_sort; [exact key_good|exact Bl|exact IH'|]. inversion H; subst; assumption.
Qed.

(** ** Entries *)

Lemma low_id : low_name "key_id". Proof. apply low_check. reflexivity. Qed.
Lemma low_raw : low_name "raw_key". Proof. apply low_check. reflexivity. Qed.

Lemma not_both k : named "key_id" k -> ~ named "raw_key" k.
Proof. intros A B. pose proof (named_same _ _ _ A B) as E. vm_compute in E. discriminate. Qed.

Section Entry.
Notation good := (Forall (fun m : bytes * jv => string_body (fst m))).

Lemma keep_id r : good r -> (forall k v, In (k, v) r -> named "key_id" k -> v = VNull) ->
  forall acc, k_id (fold_left set_member r acc) = k_id acc.
Proof.
  induction 1 as [|[k v] r B G IH]; intros H acc; [reflexivity|]. cbn [fold_left]. rewrite IH by (intros; eapply H; [right; eassumption|assumption]).
  cbn [fst] in B. unfold set_member. destruct (fold_name "key_id" k) eqn:F.
  - apply (fold_named _ _ low_id B) in F. rewrite (H k v (or_introl eq_refl) F). reflexivity.
  - destruct (fold_name "raw_key" k); [|reflexivity]. destruct v; reflexivity.
Qed.
Lemma keep_raw r : good r -> (forall k v, In (k, v) r -> ~ named "raw_key" k) ->
  forall acc, k_raw (fold_left set_member r acc) = k_raw acc.
Proof.
  induction 1 as [|[k v] r B G IH]; intros H acc; [reflexivity|]. cbn [fold_left]. rewrite IH by (intros; eapply H; right; eassumption).
  cbn [fst] in B. unfold set_member. destruct (fold_name "key_id" k); [destruct v; reflexivity|].
  destruct (fold_name "raw_key" k) eqn:F; [|reflexivity]. exfalso. apply (fold_named _ _ low_raw B) in F. exact (H k v (or_introl eq_refl) F).
Qed.

Lemma good_split l m r : good (l ++ m :: r) -> string_body (fst m) /\ good r.
Proof. intro G. apply Forall_app in G as (_ & G). inversion G; subst. auto. Qed.

Lemma id_fold l id : good l -> id_of l id -> k_id (fold_left set_member l (mkKey [] None)) = id.
Proof.
  intros G I. revert G. destruct I as [l' H|l' k s r id' N S H]; intro G.
  - rewrite keep_id by assumption. reflexivity.
  - rewrite fold_left_app. cbn [fold_left]. apply good_split in G as (B & G). cbn [fst] in B. rewrite keep_id by assumption.
    unfold set_member. apply (fold_named _ _ low_id B) in N. rewrite N. cbn [k_id]. apply junquote_says. exact S.
Qed.
Lemma raw_fold l raw : good l -> raw_of l raw -> k_raw (fold_left set_member l (mkKey [] None)) = raw.
Proof.
  intros G I. revert G. destruct I as [l' H|l' k r N H|l' k s r raw' N S H]; intro G.
  - rewrite keep_raw by assumption. reflexivity.
  - rewrite fold_left_app. cbn [fold_left]. apply good_split in G as (B & G). cbn [fst] in B. rewrite keep_raw by assumption.
    unfold set_member. replace (fold_name "key_id" k) with false.
    2:{ symmetry. apply (fold_not_named _ _ low_id B). intro K. exact (not_both k K N). }
    apply (fold_named _ _ low_raw B) in N. rewrite N. reflexivity.
  - rewrite fold_left_app. cbn [fold_left]. apply good_split in G as (B & G). cbn [fst] in B. rewrite keep_raw by assumption.
    unfold set_member. replace (fold_name "key_id" k) with false.
    2:{ symmetry. apply (fold_not_named _ _ low_id B). intro K. exact (not_both k K N). }
    apply (fold_named _ _ low_raw B) in N. rewrite N. cbn [k_raw]. f_equal. apply junquote_says. exact S.
Qed.

Lemma id_snoc l id k v : id_of l id -> (named "key_id" k -> v = VNull) -> id_of (l ++ [(k, v)]) id.
Proof.
  intros [l' H|l' k' s r id' N S H] K.
  - apply id_absent. intros k0 v0 I N. apply in_app_or in I as [I|[E|[]]]; [eapply H; eassumption|]. injection E as -> ->. auto.
  - rewrite <- app_assoc. cbn [app]. apply id_given; [exact N|exact S|]. intros k0 v0 I N0. apply in_app_or in I as [I|[E|[]]]; [eapply H; eassumption|]. injection E as -> ->. auto.
Qed.
Lemma raw_snoc l raw k v : raw_of l raw -> ~ named "raw_key" k -> raw_of (l ++ [(k, v)]) raw.
Proof.
  intros [l' H|l' k' r N H|l' k' s r raw' N S H] K.
  - apply raw_absent. intros k0 v0 I N. apply in_app_or in I as [I|[E|[]]]; [eapply H; eassumption|]. injection E as -> ->. auto.
  - rewrite <- app_assoc. cbn [app]. apply raw_null; [exact N|]. intros k0 v0 I N0. apply in_app_or in I as [I|[E|[]]]; [eapply H; eassumption|]. injection E as -> ->. auto.
  - rewrite <- app_assoc. cbn [app]. apply raw_given; [exact N|exact S|]. intros k0 v0 I N0. apply in_app_or in I as [I|[E|[]]]; [eapply H; eassumption|]. injection E as -> ->. auto.
Qed.

Lemma fold_entry l : Forall (fun m => string_body (fst m) /\ bodies (snd m)) l ->
  (forall k v, In (k, v) l -> named "key_id" k -> v = VNull \/ exists x, v = VStr x) ->
  (forall k v, In (k, v) l -> named "raw_key" k -> v = VNull \/ exists x, v = VStr x) ->
  id_of l (k_id (fold_left set_member l (mkKey [] None))) /\ raw_of l (k_raw (fold_left set_member l (mkKey [] None))).
Proof.
  induction l as [|[k v] l IH] using rev_ind; intros B I R.
  { split; [apply id_absent; intros ? ? []|apply raw_absent; intros ? ? []]. }
  apply Forall_app in B as (B & Bm). inversion Bm as [|? ? (Bk & Bv) _]; subst. cbn [fst snd] in *.
  destruct IH as (A & C); [exact B|intros; eapply I; [apply in_or_app; left; eassumption|assumption]|intros; eapply R; [apply in_or_app; left; eassumption|assumption]|].
  rewrite fold_left_app. cbn [fold_left]. remember (fold_left set_member l (mkKey [] None)) as acc eqn:Ea. clear Ea.
  unfold set_member. destruct (fold_name "key_id" k) eqn:F.
  - apply (fold_named _ _ low_id Bk) in F. assert (~ named "raw_key" k) as NR by (apply not_both; exact F).
    destruct (I k v) as [->|(x & ->)]; [apply in_or_app; right; left; reflexivity|exact F| |].
    + split; [apply id_snoc; auto|apply raw_snoc; auto].
    + cbn [k_id k_raw]. split; [|apply raw_snoc; auto]. apply id_given; [exact F| |intros ? ? []].
      apply says_junquote. inversion Bv; assumption.
  - apply (fold_not_named _ _ low_id Bk) in F. destruct (fold_name "raw_key" k) eqn:F2.
    + apply (fold_named _ _ low_raw Bk) in F2.
      destruct (R k v) as [->|(x & ->)]; [apply in_or_app; right; left; reflexivity|exact F2| |]; cbn [k_id k_raw]; (split; [apply id_snoc; [exact A|tauto]|]).
      * apply raw_null; [exact F2|intros ? ? []].
      * apply raw_given; [exact F2| |intros ? ? []]. apply says_junquote. inversion Bv; assumption.
    + apply (fold_not_named _ _ low_raw Bk) in F2. split; [apply id_snoc; [exact A|tauto]|apply raw_snoc; auto].
Qed.

Lemma key_strings T l name : In (name, SpecGhJson.String) key_members -> of_sort T Key (VObj l) ->
  forall k v, In (k, v) l -> named name k -> v = VNull \/ exists x, v = VStr x.
Proof.
  intros M H k v I N. inversion H as [| | | | | | |? K]; subst. specialize (K k v name _ I M N). inversion K; subst; eauto.
Qed.

Lemma good_of l : Forall (fun m => string_body (fst m) /\ bodies (snd m)) l -> good l.
Proof. apply Forall_impl. tauto. Qed.

Lemma entry_unique T v e : bodies v -> of_sort T Key v -> entry v e -> entry_of v = e.
Proof.
  intros B S X. revert B S. destruct X as [|l id raw I R]; intros B S; [reflexivity|]. inversion B as [| | | | |? Bl]; subst. apply good_of in Bl.
  cbn [entry_of]. f_equal. pose proof (id_fold l id Bl I). pose proof (raw_fold l raw Bl R).
  destruct (fold_left set_member l (mkKey [] None)) as [a b]. cbn in *. congruence.
Qed.
Lemma entry_exists T v : bodies v -> of_sort T Key v -> entry v (entry_of v).
Proof.
  intros B S. inversion S; subst; [constructor|]. inversion B as [| | | | |? Bl]; subst. cbn [entry_of].
  destruct (fold_entry l Bl) as (I & R); try (eapply key_strings; [|exact S]; cbn; auto).
  destruct (fold_left set_member l (mkKey [] None)) as [a b]. cbn in *. constructor; assumption.
Qed.

Lemma entries_unique T l keys : Forall bodies l -> Forall (of_sort T Key) l -> Forall2 entry l keys -> map entry_of l = keys.
Proof.
  intros B S F. induction F as [|v e l keys E F IH]; [reflexivity|]. inversion B; inversion S; subst. cbn. f_equal; [eapply entry_unique; eassumption|auto].
Qed.
Lemma entries_exist T l : Forall bodies l -> Forall (of_sort T Key) l -> Forall2 entry l (map entry_of l).
Proof.
  intros B S. induction l as [|v l IH]; [constructor|]. inversion B; inversion S; subst. cbn. constructor; [eapply entry_exists; eassumption|auto].
Qed.
End Entry.

(** ** Pages *)

Lemma decode_says T body whole keys :
  decode_page T body whole = GKeys keys <-> page_says (fun x => T x = true) whole body keys.
Proof.
  split.
  - unfold decode_page. destruct (jskip_split body) as (w & W & E). remember (jskip body) as s eqn:Es. clear Es.
    destruct (jvalue max_nesting (S (S (2 * length s))) 0 s) as [[v t]|] eqn:J; [|discriminate].
    apply (proj1 (doc_sound _ _)) in J as (b & -> & D & N); [|unfold max_nesting; lia].
    pose proof (proj1 doc_bodies v b D) as B.
    destruct (store_ok T v (KList KKey)) eqn:K; [|discriminate].
    apply (store_sort T v B (SpecGhJson.List Key)) in K. rewrite E. inversion K; subst.
    + inversion D; subst. destruct (is_nil t && negb whole) eqn:X; [discriminate|]. intro H; injection H as <-.
      constructor; [exact W|]. destruct t; [right; destruct whole; [reflexivity|discriminate]|left; discriminate].
    + intro H; injection H as <-. econstructor; [exact W|exact D|unfold max_nesting in N; lia|exact K|].
      inversion B; subst. eapply entries_exist; eassumption.
  - intros [w b rest l ks W D N S F|w rest W R].
    + unfold decode_page. rewrite (jskip_doc w _ _ rest W D).
      rewrite (proj1 (doc_complete _) _ _ D); [|rewrite app_length; lia|unfold max_nesting; lia|discriminate].
      pose proof (proj1 doc_bodies _ _ D) as B. 
      change (KList KKey) with (kd (SpecGhJson.List Key)). rewrite (proj2 (store_sort T _ B (SpecGhJson.List Key)) S).
      inversion B; inversion S; subst. f_equal. eapply entries_unique; eassumption.
    + unfold decode_page. rewrite (jskip_doc w VNull (str "null") rest W doc_null).
      rewrite (proj1 (doc_complete _) _ _ doc_null); [|rewrite app_length; lia|unfold max_nesting; cbn; lia|discriminate].
      cbn [store_ok]. destruct rest; [|reflexivity]. destruct R as [R|R]; [contradiction|]. rewrite R. reflexivity.
Qed.
