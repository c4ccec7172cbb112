(** * HeadL: a packet parser only appends fields to the packet's item; name, value, dump and note of the item stay. *)
From Coq Require Import Strings.String Strings.Byte List NArith ZArith Bool Lia.
From Verif Require Import Base Item Reader Context Env Values Opaque Monad Pubkey S2k Subs Tags Parse.
Import ListNotations.

(** [j] is [i] with further items at the end. *)
Definition extends (i j : item) : Prop :=
  i_name j = i_name i /\ i_value j = i_value i /\ i_dump j = i_dump i /\ i_note j = i_note i /\ exists l, i_items j = i_items i ++ l.
Lemma extends_refl i : extends i i.
Proof. unfold extends. repeat split. exists []. rewrite app_nil_r. reflexivity. Qed.
Lemma extends_trans i j k : extends i j -> extends j k -> extends i k.
Proof.
  intros (A1 & A2 & A3 & A4 & l & A5) (B1 & B2 & B3 & B4 & m & B5). repeat split; try congruence.
  exists (l ++ m). rewrite B5, A5, app_assoc. reflexivity.
Qed.
Lemma extends_add c i : extends i (add_child c i).
Proof. destruct i. unfold extends. cbn. repeat split. exists [c]. reflexivity. Qed.

Definition ext {A} (m : M A) : Prop := forall s, extends (s_cur s) (s_cur (snd (m s))).
Lemma ext_bind {A B} (m : M A) (f : A -> M B) : ext m -> (forall a, ext (f a)) -> ext (bind m f).
Proof.
  intros H K s. specialize (H s). unfold bind. destruct (m s) as [[a|e| |] s'] eqn:E; cbn [snd] in *; try exact H.
  eapply extends_trans; [exact H | apply K].
Qed.
Lemma ext_same {A} (m : M A) : (forall s, s_cur (snd (m s)) = s_cur s) -> ext m.
Proof. intros H s. rewrite H. apply extends_refl. Qed.
Lemma ext_ret {A} (a : A) : ext (ret a). Proof. apply ext_same. reflexivity. Qed.
Lemma ext_fail {A} e : ext (@fail A e). Proof. apply ext_same. reflexivity. Qed.
Lemma ext_panic {A} : ext (@panic A). Proof. apply ext_same. reflexivity. Qed.
Lemma ext_of_res {A} (r : res A) : ext (of_res r). Proof. apply ext_same. reflexivity. Qed.
Lemma ext_on_rd {A} (f : reader -> res A * reader) : ext (on_rd f).
Proof. apply ext_same. intro s. unfold on_rd. destruct (f (s_rd s)). reflexivity. Qed.
Lemma ext_add c : ext (add c). Proof. intro s. apply extends_add. Qed.
Lemma ext_addo c : ext (addo c). Proof. intro s. cbn. destruct c; [apply extends_add | apply extends_refl]. Qed.
Lemma ext_child {A} it (m : M A) : ext (child it m).
Proof. intro s. unfold child. destruct (m _) as [r s']. cbn. apply extends_add. Qed.
Lemma ext_sub_it {A} it (m : M A) : ext (sub_it it m).
Proof. apply ext_same. intro s. unfold sub_it. destruct (m _) as [r s']. reflexivity. Qed.
Lemma ext_run_in {A} r it (m : M A) : ext (run_in r it m).
Proof. apply ext_same. intro s. unfold run_in. destruct (m _) as [x s']. reflexivity. Qed.
Lemma ext_catch {A} (m : M A) : ext m -> ext (catchM m).
Proof. intros H s. specialize (H s). unfold catchM. destruct (m s) as [[a|e| |] s']; exact H. Qed.
Lemma ext_with_rd {A} r (m : M A) : ext m -> ext (with_rd r m).
Proof. intros H s. specialize (H (mkSt r (s_cs s) (s_cur s))). unfold with_rd. destruct (m _) as [x s']. exact H. Qed.
Lemma ext_mapM {A} (f : A -> M unit) l : (forall a, ext (f a)) -> ext (mapM_ f l).
Proof. intro H. induction l as [|a l IH]; [apply ext_ret | apply ext_bind; [apply H | intros _; exact IH]]. Qed.
Lemma ext_ECParm : ext newECParm.
Proof.
  apply ext_same. intro s. unfold newECParm, rdByte, on_rd. destruct (r_readbyte (s_rd s)) as [[l|e| |] r']; try reflexivity.
  destruct (b2n l =? 0)%N; [reflexivity|]. unfold rdBytes, on_rd. cbn. destruct (r_readbytes _ _). reflexivity.
Qed.
Lemma ext_dumpRest f : ext (dumpRest f).
Proof. apply ext_same. intro s. unfold dumpRest. destruct f; reflexivity. Qed.

Ltac extstep :=
  lazymatch goal with
  | |- ext (bind _ _) => apply ext_bind; [|intros ?]
  | |- ext (ret _) => apply ext_ret
  | |- ext (fail _) => apply ext_fail
  | |- ext panic => apply ext_panic
  | |- ext (of_res _) => apply ext_of_res
  | |- ext (on_rd _) => apply ext_on_rd
  | |- ext (add _) => apply ext_add
  | |- ext (addo _) => apply ext_addo
  | |- ext (child _ _) => apply ext_child
  | |- ext (sub_it _ _) => apply ext_sub_it
  | |- ext (run_in _ _ _) => apply ext_run_in
  | |- ext (catchM _) => apply ext_catch
  | |- ext (with_rd _ _) => apply ext_with_rd
  | |- ext (mapM_ _ _) => apply ext_mapM; intros ?
  | |- ext newECParm => apply ext_ECParm
  | |- ext (dumpRest _) => apply ext_dumpRest
  | |- ext rdRest => apply ext_same; reflexivity
  | |- ext rdLen => apply ext_same; reflexivity
  | |- ext getCs => apply ext_same; reflexivity
  | |- ext getBody => apply ext_same; reflexivity
  | |- ext (setMode _) => apply ext_same; reflexivity
  | |- ext (setSig _) => apply ext_same; reflexivity
  | |- ext (setKey _) => apply ext_same; reflexivity
  | |- ext (let '(_, _) := ?x in _) => destruct x
  | |- ext (if ?b then _ else _) => destruct b
  | |- ext (match ?x with _ => _ end) => destruct x
  | |- ext (let _ := _ in _) => cbv zeta
  | |- ext ?m => let h := head m in unfold h
  end
with head t := lazymatch t with ?f _ => head f | _ => t end.

Lemma ext_tag01 o : ext (tag01 o). Proof. repeat extstep. Qed.
Lemma ext_tag03 o : ext (tag03 o). Proof. repeat extstep. Qed.
Lemma ext_tag04 o : ext (tag04 o). Proof. repeat extstep. Qed.
Lemma ext_tag08 o E : ext (tag08 o E). Proof. repeat extstep. Qed.
Lemma ext_tag02 rec o E : ext (tag02 rec o E). Proof. repeat extstep. Qed.
Lemma ext_tag05 o E : ext (tag05 o E). Proof. repeat extstep. Qed.
Lemma ext_tag06 o E : ext (tag06 o E). Proof. repeat extstep. Qed.
Lemma ext_tag17 rec o E : ext (tag17 rec o E). Proof. repeat extstep. Qed.
Lemma ext_tag rec o E tag : ext (tag_m rec o E tag).
Proof.
  unfold tag_m.
  repeat lazymatch goal with
  | |- ext (match ?p with _ => _ end) => destruct p
  | |- ext (no_data (tag01 _)) => apply ext_bind; [apply ext_tag01 | intro; apply ext_ret]
  | |- ext (no_data (tag02 _ _ _)) => apply ext_bind; [apply ext_tag02 | intro; apply ext_ret]
  | |- ext (no_data (tag03 _)) => apply ext_bind; [apply ext_tag03 | intro; apply ext_ret]
  | |- ext (no_data (tag04 _)) => apply ext_bind; [apply ext_tag04 | intro; apply ext_ret]
  | |- ext (no_data (tag05 _ _)) => apply ext_bind; [apply ext_tag05 | intro; apply ext_ret]
  | |- ext (no_data (tag06 _ _)) => apply ext_bind; [apply ext_tag06 | intro; apply ext_ret]
  | |- ext (no_data (tag17 _ _ _)) => apply ext_bind; [apply ext_tag17 | intro; apply ext_ret]
  | |- ext (tag08 _ _) => apply ext_tag08
  | |- _ => extstep
  end.
Qed.

(** The item of a packet is its frame with the packet's fields added. *)
Lemma parse_tag_extends o E tag body cs i x cs' : parse_tag o E tag body cs = (ROk (i, x), cs') ->
  extends (tag_item tag body (tag_dumpflag o tag)) i.
Proof.
  intro H. unfold parse_tag in H. cbn [parse_tag_fuel] in H. unfold tag_body in H.
  pose proof (ext_tag (parse_tag_fuel (length body) o E) o E tag (mkSt (r_new body) cs (tag_item tag body (tag_dumpflag o tag)))) as K.
  destruct (tag_m _ o E tag _) as [[d|e| |] s]; try discriminate H. inversion H; subst. exact K.
Qed.
Lemma expand_extends o E fuel : forall c it cs i cs', expand_loop o E fuel c it cs = (ROk i, cs') -> extends it i.
Proof.
  induction fuel as [|fuel IH]; intros c it cs i cs' H; [discriminate H|]. cbn [expand_loop] in H.
  destruct (next_chunks E c) as [[[[t b]|]|e| |] c']; try discriminate H.
  - destruct (parse_tag o E t b cs) as [[[j x]|e| |] cs2]; try discriminate H.
    eapply extends_trans; [apply extends_add | eapply IH; exact H].
  - inversion H; subst. apply extends_refl.
Qed.
Lemma packets_parse_extends o E tag body cs i cs' : packets_parse o E tag body cs = (ROk i, cs') ->
  extends (tag_item tag body (tag_dumpflag o tag)) i.
Proof.
  intro H. unfold packets_parse in H. destruct (parse_tag o E tag body cs) as [[[j [d|]]|e| |] cs2] eqn:P; try discriminate H.
  - eapply extends_trans; [eapply parse_tag_extends; exact P | eapply expand_extends; exact H].
  - inversion H; subst. eapply parse_tag_extends; exact P.
Qed.
