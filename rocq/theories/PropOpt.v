(** * PropOpt: C41. *)
From Coq Require Import Strings.String Strings.Byte List NArith ZArith Bool Permutation.
From Verif Require Import Base BaseL SpecBase Utf8 Context SpecOpt OptL.
Import ListNotations.
Local Open Scope Z_scope.

(** C41.  After any sequence of settings a valid code reads the last value set for it, false if there is none; setting
    an invalid code (zero or negative) has no effect on any code. *)
Theorem C41_last_value : forall (l : list (Z * bool)) (c : Z),
  (0 < c -> o_get c (o_new l) = switched_on c l) /\ (c <= 0 -> o_get c (o_new l) = false).
Proof.
  intros l c. split; intro H; unfold o_get, o_new, switched_on.
  - rewrite o_new_last by assumption. destruct (last_set c l); reflexivity.
  - rewrite o_new_nonpos by assumption. reflexivity.
Qed.
Print Assumptions C41_last_value.

(** C41.  debug (code 3) switches on the six dump options, and neither armor (1) nor utc (9). *)
Theorem C41_debug_implies : forall l : list (Z * bool),
  let o := o_new l in let on c := switched_on c l in
  oArmor o = on 1 /\ oCert o = (on 2 || on 3) /\ oDebug o = on 3 /\ oGDump o = (on 4 || on 3)
  /\ oInteger o = (on 5 || on 3) /\ oLiteral o = (on 6 || on 3) /\ oMarker o = (on 7 || on 3)
  /\ oPrivate o = (on 8 || on 3) /\ oUTC o = on 9.
Proof.
  intro l. cbv zeta. unfold oArmor, oCert, oDebug, oGDump, oInteger, oLiteral, oMarker, oPrivate, oUTC.
  repeat split; rewrite ?(fun c H => proj1 (C41_last_value l c) H) by reflexivity; reflexivity.
Qed.
Print Assumptions C41_debug_implies.

(** C41.  Looking up an option by name: whatever the order in which the map is iterated, each name gives its code. *)
Theorem C41_lookup_by_name : forall (order : list (Z * bytes)) (c : Z) (name : string),
  Permutation order optcode_map -> In (c, name) option_names -> get_optcode order (str name) = c.
Proof.
  intros order c name P I. rewrite get_optcode_perm by assumption.
  repeat (destruct I as [[= <- <-]|I]; [vm_compute; reflexivity|]). destruct I.
Qed.
Print Assumptions C41_lookup_by_name.

(** C41.  ... for every argument the result is the same in every order ... *)
Theorem C41_lookup_any_order : forall (o1 o2 : list (Z * bytes)) (s : bytes),
  Permutation o1 optcode_map -> Permutation o2 optcode_map -> get_optcode o1 s = get_optcode o2 s.
Proof. intros. rewrite (get_optcode_perm o1), (get_optcode_perm o2) by assumption. reflexivity. Qed.
Print Assumptions C41_lookup_any_order.

(** C41.  ... and for ASCII names it does not depend on upper and lower case. *)
Theorem C41_lookup_ignores_case : forall (order : list (Z * bytes)) (a b : bytes),
  same_but_case a b -> get_optcode order a = get_optcode order b.
Proof. intros. apply same_but_case_optcode. assumption. Qed.
Print Assumptions C41_lookup_ignores_case.

(** C41.  An ASCII name that is none of the nine, in any case, is unknown, and setting it changes nothing. *)
Theorem C41_unknown_name : forall (order : list (Z * bytes)) (s : bytes) (f : bool) (o : opts),
  Permutation order optcode_map -> Forall (fun x => (b2n x < 128)%N) s ->
  (forall c name, In (c, name) option_names -> ~ same_but_case s (str name)) ->
  get_optcode order s = 0 /\ o_set_by_string order s f o = o.
Proof.
  intros order s f o P A H.
  assert (get_optcode order s = 0) as E; [|split; [exact E|unfold o_set_by_string; rewrite E; reflexivity]].
  rewrite get_optcode_perm by assumption. apply get_optcode_out. intros k v I E.
  assert (exists name, In (k, name) option_names /\ v = str name) as (name & In' & ->).
  { repeat (destruct I as [[= <- <-]|I]; [eexists; split; [|reflexivity]; vm_compute; tauto|]). destruct I. }
  apply (H k name In'). split; [assumption|]. rewrite to_lower_ascii in E by assumption. rewrite <- E.
  rewrite map_map. apply map_ext. intro b. apply byte_eqb_spec. revert b. apply byte_all. vm_compute. reflexivity.
Qed.
Print Assumptions C41_unknown_name.

(** C41.  The text of a context tells for each of the nine options, by name and in order, whether it is on, by itself or by debug; nothing else. *)
Theorem C41_text : forall l : list (Z * bool),
  let on c := if switched_on c l || switched_on 3 l && negb (existsb (Z.eqb c) [1; 9]) then str "true" else str "false" in
  o_string (o_new l) = str "armor:" ++ on 1 ++ str ",cert:" ++ on 2 ++ str ",debug:" ++ on 3 ++ str ",gdump:" ++ on 4 ++ str ",int:" ++ on 5 ++
    str ",literal:" ++ on 6 ++ str ",marker:" ++ on 7 ++ str ",private:" ++ on 8 ++ str ",utc:" ++ on 9.
Proof.
  intro l. cbv zeta. destruct (C41_debug_implies l) as (E1 & E2 & E3 & E4 & E5 & E6 & E7 & E8 & E9).
  unfold o_string. cbn [map].
  change (o_flag 1 (o_new l)) with (oArmor (o_new l)). change (o_flag 2 (o_new l)) with (oCert (o_new l)). change (o_flag 3 (o_new l)) with (oDebug (o_new l)).
  change (o_flag 4 (o_new l)) with (oGDump (o_new l)). change (o_flag 5 (o_new l)) with (oInteger (o_new l)). change (o_flag 6 (o_new l)) with (oLiteral (o_new l)).
  change (o_flag 7 (o_new l)) with (oMarker (o_new l)). change (o_flag 8 (o_new l)) with (oPrivate (o_new l)). change (o_flag 9 (o_new l)) with (oUTC (o_new l)).
  rewrite E1, E2, E3, E4, E5, E6, E7, E8, E9. cbn [existsb Z.eqb Pos.eqb orb negb]. rewrite ?andb_true_r, ?andb_false_r, ?orb_false_r, orb_diag.
  unfold bool_text. destruct (switched_on 1 l), (switched_on 2 l), (switched_on 3 l), (switched_on 4 l), (switched_on 5 l), (switched_on 6 l), (switched_on 7 l), (switched_on 8 l), (switched_on 9 l); reflexivity.
Qed.
Print Assumptions C41_text.

Example C41_witness :
  o_get 3 (o_new [(3, true); (5, true); (-1, true); (3, false)]) = false
  /\ oInteger (o_new [(3, true); (5, true); (-1, true); (3, false)]) = true
  /\ get_optcode (rev optcode_map) (str "LiTeRaL") = 6 /\ same_but_case (str "LiTeRaL") (str "literal")
  /\ get_optcode optcode_map (str "all") = 0.
Proof. repeat split; try (vm_compute; reflexivity). repeat constructor. Qed.
