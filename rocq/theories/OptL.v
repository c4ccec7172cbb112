(** * OptL: lemmas for C41. *)
From Coq Require Import Strings.String Strings.Byte List NArith ZArith Bool Lia ZifyBool ZifyN ZifyNat Permutation.
From Verif Require Import Base BaseL SpecBase Utf8 Context SpecOpt.
Import ListNotations.
Local Open Scope Z_scope.

Lemma o_new_last l : forall o c, 0 < c ->
  fold_left (fun o p => o_set (fst p) (snd p) o) l o c =
  match last_set c l with Some b => b | None => o c end.
Proof.
  induction l as [|[k v] l IH]; intros o c Hc; [reflexivity|]. cbn [fold_left last_set fst snd].
  rewrite IH by assumption. destruct (last_set c l); [reflexivity|]. unfold o_set.
  destruct (k >? 0) eqn:E; [rewrite (Z.eqb_sym c k); destruct (k =? c); reflexivity|].
  replace (k =? c) with false by lia. reflexivity.
Qed.

Lemma o_new_nonpos l : forall o c, c <= 0 ->
  fold_left (fun o p => o_set (fst p) (snd p) o) l o c = o c.
Proof.
  induction l as [|[k v] l IH]; intros o c Hc; [reflexivity|]. cbn [fold_left fst snd]. rewrite IH by assumption.
  unfold o_set. destruct (k >? 0) eqn:E; [|reflexivity]. replace (c =? k) with false by lia. reflexivity.
Qed.

(** ** Lookup by name *)

(** In a table with distinct names, the result does not depend on the order. *)
Lemma get_optcode_in order s : NoDup (map snd order) ->
  forall k v, In (k, v) order -> to_lower s = v -> get_optcode order s = k.
Proof.
  induction order as [|[k' v'] order IH]; intros ND k v I Ev; [destruct I|destruct I as [E|I]]; cbn [get_optcode].
  - injection E as -> ->. rewrite Ev, beqs_refl. reflexivity.
  - cbn [map] in ND. inversion_clear ND as [|? ? NI ND']. destruct (beqs (to_lower s) v') eqn:B.
    + apply beqs_spec in B. exfalso. apply NI. rewrite <- B, Ev. apply (in_map snd) in I. exact I.
    + apply (IH ND' k v I Ev).
Qed.
Lemma get_optcode_out order s : (forall k v, In (k, v) order -> to_lower s <> v) -> get_optcode order s = 0.
Proof.
  induction order as [|[k v] order IH]; intro H; [reflexivity|]. cbn [get_optcode].
  destruct (beqs (to_lower s) v) eqn:B; [apply beqs_spec in B; exfalso; exact (H k v (or_introl eq_refl) B)|].
  apply IH. intros k' v' I. apply (H k'). right. assumption.
Qed.
Lemma get_optcode_perm order s : Permutation order optcode_map -> get_optcode order s = get_optcode optcode_map s.
Proof.
  intro P.
  assert (NoDup (map snd optcode_map)) as ND.
  { vm_compute. repeat constructor; cbn; intuition discriminate. }
  assert (NoDup (map snd order)) as ND' by (eapply Permutation_NoDup; [apply Permutation_map, Permutation_sym, P | exact ND]).
  destruct (find (fun p => beqs (to_lower s) (snd p)) optcode_map) as [[k v]|] eqn:F.
  - apply find_some in F as [I B]. apply beqs_spec in B. cbn [snd] in B.
    rewrite (get_optcode_in optcode_map s ND k v I B).
    apply (get_optcode_in order s ND' k v); [|assumption]. eapply Permutation_in; [apply Permutation_sym, P | exact I].
  - pose proof (find_none _ _ F) as N.
    rewrite !get_optcode_out; [reflexivity| |].
    + intros k v I E. specialize (N _ I). cbn [snd] in N. rewrite E, beqs_refl in N. discriminate.
    + intros k v I E. assert (In (k, v) optcode_map) as I' by (eapply Permutation_in; [exact P | exact I]).
      specialize (N _ I'). cbn [snd] in N. rewrite E, beqs_refl in N. discriminate.
Qed.

(** ** Case *)

Definition lower_byte (b : byte) : byte := let n := b2n b in if (65 <=? n)%N && (n <=? 90)%N then n2b (n + 32) else b.

Lemma to_lower_ascii s : Forall (fun x => (b2n x < 128)%N) s -> to_lower s = map lower_byte s.
Proof.
  induction 1 as [|b s Hb F IH]; [reflexivity|]. unfold to_lower in *. cbn [scan].
  replace (b2n b <? 128)%N with true by lia. cbn [flat_map map]. rewrite IH. change (lower_byte b :: map lower_byte s) with ([lower_byte b] ++ map lower_byte s).
  f_equal. unfold lower_rune, lower_byte, inr. destruct ((65 <=? b2n b)%N && (b2n b <=? 90)%N) eqn:E.
  - unfold enc_rune. replace (b2n b + 32 <? 128)%N with true by lia. reflexivity.
  - replace (b2n b =? 304)%N with false by lia. replace (b2n b =? 8490)%N with false by lia.
    unfold enc_rune. replace (b2n b <? 128)%N with true by lia. rewrite n2b_b2n. reflexivity.
Qed.

Lemma lower_upper a b : ascii_upper a = ascii_upper b -> lower_byte a = lower_byte b.
Proof.
  assert (forall a, lower_byte a = lower_byte (ascii_upper a)) as L.
  { intro x. apply byte_eqb_spec. revert x. apply byte_all. vm_compute. reflexivity. }
  intro H. rewrite (L a), (L b), H. reflexivity.
Qed.

Lemma upper_ascii a b : (b2n a < 128)%N -> ascii_upper a = ascii_upper b -> (b2n b < 128)%N.
Proof.
  assert (forall x, (b2n x < 128)%N <-> (b2n (ascii_upper x) < 128)%N) as L.
  { intro x. pose proof (b2n_lt x). unfold ascii_upper. destruct ((97 <=? b2n x)%N && (b2n x <=? 122)%N) eqn:E; [|tauto].
    rewrite b2n_n2b_small by lia. lia. }
  intros H E. apply (proj2 (L b)). rewrite <- E. apply (proj1 (L a)). assumption.
Qed.

Lemma same_but_case_lower a b : same_but_case a b -> to_lower a = to_lower b.
Proof.
  intros [F E]. assert (Forall (fun x => (b2n x < 128)%N) b) as Fb.
  { revert b E. induction F as [|x a Hx F IH]; intros [|y b] E; try discriminate; [constructor|].
    cbn [map] in E. injection E as E1 E2. constructor; [eapply upper_ascii; eassumption | apply IH; assumption]. }
  rewrite !to_lower_ascii by assumption. clear F Fb. revert b E.
  induction a as [|x a IH]; intros [|y b] E; try discriminate; [reflexivity|].
  cbn [map] in *. injection E as E1 E2. rewrite (lower_upper x y E1), (IH b E2). reflexivity.
Qed.

Lemma same_but_case_optcode order a b : same_but_case a b -> get_optcode order a = get_optcode order b.
Proof.
  intro H. induction order as [|[k v] order IH]; [reflexivity|]. cbn [get_optcode].
  rewrite (same_but_case_lower a b H), IH. reflexivity.
Qed.
