(** * SameL: the document of a tree tells the lines of the tree. *)
From Coq Require Import Strings.String Strings.Byte List NArith ZArith Bool Lia.
From Verif Require Import Base SpecBase SpecText Item Utf8L TextL SpecJson JsonDocL SpecSame.
Import ListNotations.
Local Open Scope N_scope.

Lemma points_text s l : is_utf8 s -> code_points s l -> utf8s l = s.
Proof. intros (x & X & ->) P. rewrite (code_points_utf8 _ _ X P). reflexivity. Qed.

Lemma optional_text k s m : is_utf8 s -> optional_member k s m ->
  (s = [] /\ m = []) \/ (exists l, m = [(key k, JString l)] /\ utf8s l = s).
Proof. intros U H. revert U. destruct H as [k'|k' s' l N P]; intro U; [left; auto | right; exists l; split; [reflexivity | apply points_text; assumption]]. Qed.

Lemma children_told k l m : children_document k l m ->
  (l = [] /\ m = []) \/ (exists js, m = [(key k, JArray js)] /\ items_document l js).
Proof. destruct 1; [left; auto | right; eauto]. Qed.

Lemma document_told :
  (forall i j, item_document i j -> all_fields is_utf8 i -> forall d, told d j (outline d i)) /\
  (forall k l m, children_document k l m -> Forall (all_fields is_utf8) l -> forall d, told_all d (told_below k m) (flat_map (outline d) l)) /\
  (forall l js, items_document l js -> Forall (all_fields is_utf8) l -> forall d, told_all d js (flat_map (outline d) l)).
Proof.
  apply document_mut.
  - intros n v d t l ln mv md mt ms N V D T C IH U dep. inversion U as [? ? ? ? ? UN UV UD UT UL]. subst.
    specialize (IH UL (S dep)). apply (points_text _ _ UN) in N. apply (optional_text _ _ _ UV) in V. apply (optional_text _ _ _ UD) in D. apply (optional_text _ _ _ UT) in T.
    apply children_told in C.
    set (all := [(key "name", JString ln)] ++ mv ++ md ++ mt ++ ms).
    assert (told_text "name" all = n /\ told_text "value" all = v /\ told_text "dump" all = d /\ told_text "note" all = t /\ told_below "Item" all = told_below "Item" ms) as (QN & QV & QD & QT & QB).
    { unfold all.
      destruct V as [(-> & ->)|(lv & -> & V)], D as [(-> & ->)|(ld & -> & D)], T as [(-> & ->)|(lt & -> & T)], C as [(-> & ->)|(js & -> & _)];
        cbn [app]; unfold told_text, told_below; cbn [flat_map fst snd named]; cbv [named]; 
        repeat match goal with |- context [list_eq_dec N.eq_dec (key ?a) (key ?b)] =>
          destruct (list_eq_dec N.eq_dec (key a) (key b)) as [?E|?E]; 
          [try (exfalso; vm_compute in E; discriminate E) | try (exfalso; apply E; reflexivity)]; clear E end;
        rewrite ?app_nil_r; cbn [app]; repeat split; assumption. }
    assert (outline dep (Item n v d t l) = (dep, item_line n v t) :: (match d with [] => [] | _ => [(S dep, d)] end) ++ flat_map (outline (S dep)) l) as ->
      by (apply outline_eq).
    replace (match d with [] => [] | _ => [(S dep, d)] end) with (match told_text "dump" all with [] => [] | s => [(S dep, s)] end) by (rewrite QD; destruct d; reflexivity).
    rewrite <- QN, <- QV, <- QT. apply told_object. rewrite QB. exact IH.
  - intros k _ d. constructor.
  - intros k c l js H IH U d. unfold told_below. cbn [flat_map fst snd]. unfold named. destruct (list_eq_dec N.eq_dec (key k) (key k)); [|congruence].
    rewrite app_nil_r. apply IH, U.
  - intros _ d. constructor.
  - intros i l j js I IH L IHL U d. inversion U. subst. cbn [flat_map]. constructor; auto.
Qed.

Lemma document_tells l v : Forall (all_fields is_utf8) l -> document l v -> tells v (flat_map (outline 0) l).
Proof. intros U (ms & C & ->). exists ms. split; [reflexivity|]. exact (proj1 (proj2 document_told) _ _ _ C U 0%nat). Qed.

Scheme told_ind2 := Induction for told Sort Prop with told_all_ind2 := Induction for told_all Sort Prop.
Combined Scheme told_mut from told_ind2, told_all_ind2.

Lemma told_fun :
  (forall d v ls, told d v ls -> forall ls', told d v ls' -> ls = ls') /\
  (forall d js ls, told_all d js ls -> forall ls', told_all d js ls' -> ls = ls').
Proof.
  apply told_mut.
  - intros d ms below H IH ls' H'. inversion H'; subst. rewrite (IH _ ltac:(eassumption)). reflexivity.
  - intros d ls' H'. inversion H'. reflexivity.
  - intros d v r ls below H IH HA IHA ls' H'. inversion H'; subst. f_equal; auto.
Qed.
Lemma tells_fun v ls ls' : tells v ls -> tells v ls' -> ls = ls'.
Proof. intros (ms & -> & H) (ms' & E & H'). injection E as <-. exact (proj2 told_fun _ _ _ H _ H'). Qed.
