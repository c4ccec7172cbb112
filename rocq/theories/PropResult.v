(** * PropResult: C64. *)
From Coq Require Import Strings.String Strings.Byte List NArith ZArith Bool Arith Lia.
From Verif Require Import Base Item Json Result SpecResult ResultL.
Import ListNotations.

(** C64.  After any calls, String of an item gives the text of the item with everything below it as the calls left it: names and values assigned last, sub-items in
    the order in which they were added, also those that were added to a sub-item later or through another parent.  (With enough stack.) *)
Theorem C64_item_string : forall (past : list call) (k : nat) (s : bytes), sound past -> k < items_made past ->
  (exists fuel, item_String (state past) fuel (Some k) = Some s) <-> (exists t, looks past k t /\ s = item_text [x09] 0 t).
Proof.
  intros past k s S L. split.
  - intros [fuel H]. apply (to_string_sound past [x09] S fuel 0 k s L H).
  - intros (t & T & ->). exists (height t). apply to_string_complete; assumption.
Qed.
Print Assumptions C64_item_string.

(** C64.  The same for infos, with any indent string. *)
Theorem C64_info_string : forall (past : list call) (j : nat) (ind s : bytes), sound past -> j < infos_made past ->
  (exists fuel, info_ToString (state past) fuel ind (Some j) = Some s) <-> (exists ts, Forall2 (looks past) (packets_of j past) ts /\ s = info_text ind ts).
Proof.
  intros past j ind s S L. pose proof (packets_known past S j) as K. unfold info_ToString. rewrite infos_state. destruct (Nat.ltb_spec j (infos_made past)); [|lia].
  assert (forall ts, info_text ind ts = concat (map (item_text ind 0) ts)) as IT by (induction ts as [|t ts IH]; [reflexivity|]; cbn; rewrite <- IH; reflexivity). split.
  - intros [fuel Q]. destruct (all_some _) as [ss|] eqn:A in Q; [|discriminate]. injection Q as <-. apply all_some_ok in A.
    assert (exists ts, Forall2 (looks past) (packets_of j past) ts /\ ss = map (item_text ind 0) ts) as (ts & F & ->).
    { revert ss A K. induction (packets_of j past) as [|a l IHl]; intros ss A K; inversion A as [|? ? ? ? A1 A2]; subst; [exists []; split; [constructor | reflexivity]|].
      inversion K as [|? ? K1 K2]; subst. destruct (to_string_sound _ _ S _ _ _ _ K1 A1) as (t & T & ->). destruct (IHl _ A2 K2) as (ts & F & ->). exists (t :: ts). split; [constructor; assumption | reflexivity]. }
    exists ts. split; [exact F | symmetry; apply IT].
  - intros (ts & F & ->). exists (fold_right (fun c n => height c + n) 0 ts). rewrite (all_some_of _ (map (item_text ind 0) ts)); [cbn; rewrite IT; reflexivity|].
    assert (forall l us, Forall2 (looks past) l us -> Forall (fun a => a < items_made past) l -> incl us ts -> Forall2 (fun o x => o = Some x) (map (fun a => to_string (m_items (state past)) (fold_right (fun c n => height c + n) 0 ts) ind 0 (Some a)) l) (map (item_text ind 0) us)) as X.
    { induction 1 as [|a u l us U G IHG]; intros I1 I2; cbn [map]; constructor; inversion I1 as [|? ? J1 J2]; subst.
      - apply (to_string_mono_le past ind (height u)); [apply height_in; apply I2; left; reflexivity|]. apply to_string_complete; assumption.
      - apply IHG; [exact J2 | intros x J; apply I2; right; exact J]. }
    apply X; [exact F | exact K | apply incl_refl].
Qed.
Print Assumptions C64_info_string.

(** C64.  Every item looks in one way only, and looks in some way unless an item is below itself; then String does not end. *)
Theorem C64_one_tree : forall (past : list call) (k : nat), sound past -> k < items_made past ->
  (forall t u, looks past k t -> looks past k u -> t = u) /\ ((exists t, looks past k t) <-> ~ circular past k) /\
  (circular past k <-> forall fuel, item_String (state past) fuel (Some k) = None).
Proof.
  intros past k S L. split; [|split].
  - intros t u T U. exact (looks_unique past k t T u U).
  - split; [intros [t T]; exact (looks_not_circular past k t T)|]. intro N. destruct (looks_dec past k S L); [assumption | contradiction].
  - split.
    + intros C fuel. destruct (item_String (state past) fuel (Some k)) as [s|] eqn:E; [|reflexivity]. exfalso. destruct (to_string_sound past [x09] S fuel 0 k s L E) as (t & T & _). exact (looks_not_circular past k t T C).
    + intro H. destruct (looks_dec past k S L) as [[t T]|C]; [|exact C]. exfalso. specialize (H (height t)). unfold item_String in H. rewrite (to_string_complete past [x09] S k t T L) in H. discriminate.
Qed.
Print Assumptions C64_one_tree.

(** C64.  JSON always ends: with the JSON text of the trees, or with an error if there is an item below itself. *)
Theorem C64_json : forall (past : list call) (j : nat) (indent : Z) (fuel : nat), sound past -> j < infos_made past -> 1000 + items_made past < fuel ->
  (forall ts, Forall2 (looks past) (packets_of j past) ts -> info_Json (state past) fuel indent (Some j) = info_JSON indent ts) /\
  (forall k, In k (packets_of j past) -> circular past k -> info_Json (state past) fuel indent (Some j) = RErr EJSON).
Proof.
  intros past j indent fuel S L LF. pose proof (packets_known past S j) as K.
  assert (forall l, Forall (fun a => a < items_made past) l -> all_text (map (encode (m_items (state past)) fuel 2 []) l) <> inl JFuel) as NF.
  { intros l Kl A. destruct (all_text_bad _ _ A) as [I _]. apply in_map_iff in I as (a & Q & I). revert Q. rewrite Forall_forall in Kl.
    apply encode_ends; [exact S | apply Kl; exact I | constructor | constructor |]. cbn [item_keys flat_map length]. unfold detect_after. lia. }
  unfold info_Json, encode_info, info_JSON. rewrite infos_state. destruct (Nat.ltb_spec j (infos_made past)); [|lia]. split.
  - intros ts F. assert (all_text (map (encode (m_items (state past)) fuel 2 []) (packets_of j past)) = inr (map item_json ts)) as E.
    { apply all_text_of. assert (forall a, In a (packets_of j past) -> encode (m_items (state past)) fuel 2 [] a <> JFuel) as NF1.
      { intros a I. rewrite Forall_forall in K. apply encode_ends; [exact S | apply K; exact I | constructor | constructor |]. cbn [item_keys flat_map length]. unfold detect_after. lia. }
      induction F as [|a t l ts T F IH]; cbn [map]; constructor; inversion K as [|? ? K1 K2]; subst.
      - pose proof (encode_no_cycle past S fuel 2 [] a t K1 T (Forall_nil _)) as NC. pose proof (NF1 a (or_introl eq_refl)) as N1. destruct (encode (m_items (state past)) fuel 2 [] a) as [s| |] eqn:Q; try congruence.
        destruct (encode_sound past S fuel 2 [] a s K1 Q) as (u & U & ->). rewrite (looks_unique past a u U t T). reflexivity.
      - apply IH; [exact K2 | intros b I; apply NF1; right; exact I]. }
    rewrite E. inversion F; reflexivity.
  - intros k I C. destruct (packets_of j past) as [|p0 l0] eqn:P; [destruct I|]. cbn [is_nil].
    destruct (all_text _) as [e|ss] eqn:A.
    + destruct (all_text_bad _ _ A) as [_ [-> | ->]]; [reflexivity|]. exfalso. exact (NF _ K A).
    + exfalso. apply all_text_ok in A. destruct (Forall2_In_l _ _ _ (encode (m_items (state past)) fuel 2 [] k) A (in_map _ _ _ I)) as (b & _ & Q).
      rewrite Forall_forall in K. destruct (encode_sound past S _ _ _ _ _ (K k I) Q) as (t & T & _). exact (looks_not_circular past k t T C).
Qed.
Print Assumptions C64_json.

(** C64.  Calls that change neither an item nor anything below it do not change how it looks. *)
Theorem C64_frame : forall (past newer : list call) (k : nat) (t : item), sound (newer ++ past) -> k < items_made past -> looks past k t ->
  (forall c a, In c newer -> (a = k \/ below past k a) -> ~ changes c a) -> looks (newer ++ past) k t.
Proof.
  intros past newer k t S L T H.
  assert (forall k, k < items_made past -> (forall c, In c newer -> ~ changes c k) -> (forall f, field_of f k (newer ++ past) = field_of f k past) /\ subs_of k (newer ++ past) = subs_of k past /\ items_made past <= items_made (newer ++ past)) as X.
  { clear. intros k L. induction newer as [|c newer IH]; intro H; [repeat split; cbn; lia|]. destruct IH as (I1 & I2 & I3); [intros d I; apply H; right; exact I|].
    specialize (H c (or_introl eq_refl)). cbn [app]. destruct c as [o|i f s|i l|i a| |j l|j a]; cbn [field_of subs_of items_made]; cbn [changes] in H.
    - destruct (Nat.eqb_spec (items_made (newer ++ past)) k); [lia|]. auto.
    - destruct (Nat.eqb_spec i k); [congruence|]. auto.
    - destruct (Nat.eqb_spec i k); [congruence|]. auto.
    - destruct i as [i|], a as [a|]; auto. destruct (Nat.eqb_spec i k); [congruence|]. auto.
    - auto.
    - auto.
    - destruct j, a; auto. }
  assert (sound past) as SP by (clear - S; induction newer as [|c newer IH]; [exact S|]; destruct S as [S _]; apply IH; exact S).
  revert L H. revert k t T. apply (looks_ind2 past (fun k t => k < items_made past -> (forall c a, In c newer -> (a = k \/ below past k a) -> ~ changes c a) -> looks (newer ++ past) k t)).
  intros k ts F IH L H. destruct (X k L) as (E1 & E2 & _); [intros c I; apply (H c k I); left; reflexivity|]. rewrite <- !E1. constructor. rewrite E2.
  pose proof (subs_known past SP k) as K. rewrite Forall_forall in K.
  assert (forall l us, Forall2 (looks past) l us -> incl l (subs_of k past) -> incl us ts -> Forall2 (looks (newer ++ past)) l us) as Y.
  { induction 1 as [|a u l us U G IHG]; intros I1 I2; constructor.
    - assert (In a (subs_of k past)) as Ia by (apply I1; left; reflexivity). apply IH; [exact Ia | exact U | apply I2; left; reflexivity | apply K; exact Ia |].
      intros c b Ic R. apply (H c b Ic). right. destruct R as [->|R]; [apply Sub; exact Ia | eapply Further; eauto].
    - apply IHG; [intros x J; apply I1; right; exact J | intros x J; apply I2; right; exact J]. }
  apply Y; [exact F | apply incl_refl | apply incl_refl].
Qed.
Print Assumptions C64_frame.

(** C64.  Nil: nothing is shown for it, and calls with it do nothing. *)
Theorem C64_nil : forall (past : list call) (fuel : nat) (ind : bytes) (indent : Z) (x : option nat),
  item_String (state past) fuel None = Some [] /\ info_ToString (state past) fuel ind None = Some [] /\ info_Json (state past) fuel indent None = ROk [] /\
  state (ItemAdd None x :: past) = state past /\ state (ItemAdd x None :: past) = state past /\
  state (InfoAdd None x :: past) = state past /\ state (InfoAdd x None :: past) = state past.
Proof. intros. unfold item_String. repeat split; destruct fuel, x; reflexivity. Qed.
Print Assumptions C64_nil.

(** A shared item that is changed after it was added twice: both parents show the change.  Then it is put below itself. *)
Definition ex_past : list call :=
  [ItemAdd (Some 1) (Some 2); NewItem [(FName, str "c"); (FNote, str "late")]; SetField 1 FValue (str "v"); InfoAdd (Some 0) (Some 1); InfoAdd (Some 0) (Some 0); InfoAdd (Some 0) None;
   ItemAdd (Some 0) (Some 1); NewInfo; NewItem [(FName, str "b"); (FValue, str "u")]; NewItem [(FName, str "x"); (FName, str "a")]].
Example C64_used : sound ex_past /\ items_made ex_past = 3 /\ infos_made ex_past = 1 /\
  info_ToString (state ex_past) 5 [x20] (Some 0) = Some (str "a" ++ [x0a] ++ str " b: v" ++ [x0a] ++ str "  c (late)" ++ [x0a] ++ str "b: v" ++ [x0a] ++ str " c (late)" ++ [x0a]) /\
  info_Json (state ex_past) 1004 0 (Some 0) = ROk (str "{""Packet"":[{""name"":""a"",""Item"":[{""name"":""b"",""value"":""v"",""Item"":[{""name"":""c"",""note"":""late""}]}]},{""name"":""b"",""value"":""v"",""Item"":[{""name"":""c"",""note"":""late""}]}]}") /\
  (let c := ItemAdd (Some 2) (Some 0) :: ex_past in sound c /\ circular c 1 /\ info_Json (state c) 1004 2 (Some 0) = RErr EJSON).
Proof.
  split; [repeat (split || constructor); cbn; lia|]. split; [reflexivity|]. split; [reflexivity|]. split; [vm_compute; reflexivity|]. split; [vm_compute; reflexivity|]. cbv zeta. split; [|split; [|vm_compute; reflexivity]].
  - repeat (split || constructor); cbn; lia.
  - exists 1. split; [left; reflexivity|]. apply (Further _ 1 2); [cbn; auto|]. apply (Further _ 2 0); [cbn; auto|]. apply Sub. cbn. auto.
Qed.
Example C64_frame_used : sound ([ItemAdd (Some 1) (Some 1); NewItem []] ++ ex_past) /\ looks ex_past 2 (Item (str "c") [] [] (str "late") []) /\
  (forall c a, In c [ItemAdd (Some 1) (Some 1); NewItem []] -> (a = 2 \/ below ex_past 2 a) -> ~ changes c a).
Proof.
  split; [repeat (split || constructor); cbn; lia|]. split; [apply Looks; constructor|].
  intros c a [<-|[<-|[]]] R; cbn; [|auto]. intros <-. destruct R as [R|R]; [discriminate|]. inversion R; subst; cbn in *; assumption.
Qed.
