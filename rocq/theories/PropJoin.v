(** * PropJoin: joined files and cut files with --json (C75, C79). *)
From Coq Require Import Strings.String Strings.Byte List NArith ZArith Bool Lia ZifyBool ZifyN ZifyNat.
From Verif Require Import Base BaseL Item Reader Context Env Parse Json Facade Cli SpecBase SpecText SpecJson SpecFrame FramingL SpecParse SpecArmor SpecShown SpecFacade SpecCli SpecCommand
  SpecPipe SpecCat SpecJoin PropArmor PropParse PropFrame PropJson PropFacade PropCli PropRadix64 PropAcceptCmd ArmorSizeL PropShown PropCommand PropSame PropCat PropCutFile.
From Verif Require PropTerminal JsonDocL.
Import ListNotations.
Local Open Scope N_scope.

Lemma json_of w args l c octets t : asks args l c -> dump_command c = true -> on l "json" = true -> on l "debug" = false ->
  fits (w_env w) (mkStream octets true) -> input w c (mkStream octets true) -> main w args = Some (Some 0%Z, t) ->
  exists items, parse_bytes (options_asked l c) (w_env w) octets = (items, ROk tt) /\ info_JSON (SpecCli.number l "indent" 0) items = ROk t.
Proof.
  intros A D J ND F I M. destruct (PropTerminal.written w args l c t A D ND) as (src & items & fl & I' & P & (FJ & FI & _) & R); [|exact M|].
  { intros src I'. rewrite (input_unique w c src _ I' I). exact F. }
  rewrite (input_unique w c src _ I' I) in P. exists items. split; [exact P|]. destruct R as [[_ R]|[[R _]|[R _]]]; congruence.
Qed.
Lemma of_json w args l c octets items t : asks args l c -> dump_command c = true -> on l "json" = true ->
  fits (w_env w) (mkStream octets true) -> input w c (mkStream octets true) -> w_room w = None ->
  parse_bytes (options_asked l c) (w_env w) octets = (items, ROk tt) -> info_JSON (SpecCli.number l "indent" 0) items = ROk t -> main w args = Some (Some 0%Z, t).
Proof.
  intros A D J F I RM P R. destruct (asks_cli _ _ _ A) as (fl & CL & FA). unfold main. rewrite CL. cbn [option_map fst snd]. f_equal. apply C44_success; [exact D | |].
  { intros src I'. rewrite (input_unique w c src _ I' I). exact F. }
  exists (mkStream octets true), (options_asked l c), items. split; [exact I|]. split; [apply asked_in_force, FA|]. split; [exact P|].
  split; [|intros k Q; rewrite RM in Q; discriminate]. left. destruct FA as (FJ & FI & _). rewrite J in FJ. rewrite <- FI in R. split; assumption.
Qed.

Lemma json_can n l : (exists b, info_JSON n l = ROk b) <-> (n <= 0)%Z \/ all_levels l <= 4999.
Proof.
  split.
  - intros (b & H). destruct (Z.leb_spec n 0) as [N|N]; [left; exact N|]. right. destruct (N.leb_spec (all_levels l) 4999) as [L|L]; [exact L|].
    rewrite (C37_too_deep l n N L) in H. discriminate.
  - intros H. destruct (Z.leb_spec n 0) as [N|N].
    + destruct (C37_compact l n N) as (v & b & E & _). eauto.
    + destruct H as [H|H]; [lia|]. destruct (C37_indented_partial l n N H) as (v & b & E & _). eauto.
Qed.
Lemma levels_app a b : all_levels (a ++ b) = N.max (all_levels a) (all_levels b).
Proof. induction a as [|i a IH]; [symmetry; apply N.max_0_l|]. unfold all_levels in *. cbn [app fold_right]. lia. Qed.

Lemma list_length o E l : forall cs items, parse_list o E l cs = (items, ROk tt) -> List.length items = List.length l.
Proof.
  induction l as [|[t b] l IH]; intros cs items H; cbn [parse_list] in H; [injection H as <-; reflexivity|].
  destruct (packets_parse o E t b cs) as [[i|e| |] cs']; try discriminate. destruct (parse_list o E l cs') as [r x] eqn:Q. injection H as <- ->.
  cbn [List.length]. rewrite (IH _ _ Q). reflexivity.
Qed.
Lemma docs_length a : forall j, items_document a j -> List.length j = List.length a.
Proof. induction a as [|i a IH]; intros j H; inversion H; subst; [reflexivity|]. cbn [List.length]. rewrite IH by assumption. reflexivity. Qed.
Lemma docs_app a ja b jb : items_document a ja -> items_document b jb -> items_document (a ++ b) (ja ++ jb).
Proof. intros H G. revert ja H. induction a as [|i a IH]; intros ja H; inversion H; subst; [exact G|]. cbn [app]. constructor; auto. Qed.
Lemma docs_split a b : forall j, items_document (a ++ b) j -> exists ja jb, j = ja ++ jb /\ items_document a ja /\ items_document b jb.
Proof.
  induction a as [|i a IH]; intros j H; [exists [], j; repeat split; [constructor | exact H]|]. cbn [app] in H. inversion H; subst.
  destruct (IH js) as (ja & jb & -> & A & B); [assumption|]. exists (j0 :: ja), jb. repeat split; [|exact B]. constructor; assumption.
Qed.
Lemma tells_of items n t : info_JSON n items = ROk t -> exists js, items_document items js /\ tells_packets t js.
Proof.
  intro H. destruct (json_stands n items t H) as (v & (ms & C & ->) & T). inversion C; subst.
  - exists []. split; constructor. exact T.
  - exists js. split; [assumption|]. match goal with H : items_document _ js |- _ => inversion H; subst end. constructor. exact T.
Qed.
Lemma tells_docs items n t js : info_JSON n items = ROk t -> items_document items js -> tells_packets t js.
Proof.
  intros H D. destruct (tells_of items n t H) as (js' & D' & T). assert (js' = js) as <-; [|exact T].
  exact (proj2 (proj2 JsonDocL.document_fun_mut) _ _ D' _ D).
Qed.

(** C75.  With --json, no packet of the second file looking back: if the command succeeds on both files, it succeeds on the joined file, and the array of packets of its
    JSON text is that of the first followed by that of the second. *)
Theorem C75_json : forall (wa wb wc : world) (args : list bytes) (l : list (string * value)) (c : command) (pk pk2 : list (N * bytes)) (a b t1 t2 : bytes),
  asks args l c -> dump_command c = true -> on l "json" = true -> on l "debug" = false ->
  same_machine wc wa -> same_machine wc wb -> w_room wc = None -> fits (w_env wc) (mkStream (a ++ b) true) -> sized (a ++ b) ->
  input wa c (mkStream a true) -> input wb c (mkStream b true) -> input wc c (mkStream (a ++ b) true) ->
  (let o := options_asked l c in as_they_are o (w_env wc) a /\ as_they_are o (w_env wc) b /\ as_they_are o (w_env wc) (a ++ b)) ->
  packets_in pk a -> input_of pk2 b -> Forall (fun p => ~ looks_back (fst p)) pk2 ->
  fits (w_env wa) (mkStream a true) -> fits (w_env wb) (mkStream b true) ->
  main wa args = Some (Some 0%Z, t1) -> main wb args = Some (Some 0%Z, t2) ->
  exists p1 p2 t, tells_packets t1 p1 /\ tells_packets t2 p2 /\ main wc args = Some (Some 0%Z, t) /\ tells_packets t (p1 ++ p2).
Proof.
  intros wa wb wc args l c pk pk2 a b t1 t2 A D J ND (EA & _) (EB & _) RM F SZ IA IB IC (T1 & T2 & T3) P I2 LB FA FB M1 M2.
  destruct (json_of wa args l c a t1 A D J ND FA IA M1) as (i1 & P1 & R1). destruct (json_of wb args l c b t2 A D J ND FB IB M2) as (i2 & P2 & R2).
  rewrite EA in P1. rewrite EB in P2. destruct (tells_of _ _ _ R1) as (p1 & D1 & Q1). destruct (tells_of _ _ _ R2) as (p2 & D2 & Q2).
  destruct (proj2 (json_can (SpecCli.number l "indent" 0) (i1 ++ i2))) as (t & R).
  { rewrite levels_app. destruct (proj1 (json_can _ i1) (ex_intro _ _ R1)); [left; assumption|]. destruct (proj1 (json_can _ i2) (ex_intro _ _ R2)); [left; assumption | right; lia]. }
  exists p1, p2, t. split; [exact Q1|]. split; [exact Q2|]. split; [|exact (tells_docs _ _ _ _ R (docs_app _ _ _ _ D1 D2))].
  apply (of_json wc args l c (a ++ b) (i1 ++ i2)); try assumption.
  rewrite (C75_parse _ _ pk pk2 a b i1 T1 T2 T3 ltac:(unfold sized, lenZ in *; rewrite app_length in SZ; lia) P P1 I2 LB), P2. reflexivity.
Qed.
Print Assumptions C75_json.

(** C79.  With --json: if the cut is between two packets, and the command succeeds on the whole file, then it succeeds on the first part, and the array of
    packets of its JSON text is the beginning of that of the whole. *)
Theorem C79_between_json : forall (wa wc : world) (args : list bytes) (l : list (string * value)) (c : command) (pk pk1 : list (N * bytes)) (a b t : bytes),
  asks args l c -> dump_command c = true -> on l "json" = true -> on l "debug" = false -> same_machine wc wa -> w_room wc = None ->
  packets_in pk (a ++ b) -> packets_in pk1 a ->
  input wc c (mkStream (a ++ b) true) -> input wa c (mkStream a true) ->
  fits (w_env wc) (mkStream (a ++ b) true) -> fits (w_env wa) (mkStream a true) ->
  as_they_are (options_asked l c) (w_env wc) (a ++ b) -> as_they_are (options_asked l c) (w_env wc) a ->
  main wc args = Some (Some 0%Z, t) ->
  exists t1 p1 p2, main wa args = Some (Some 0%Z, t1) /\ tells_packets t1 p1 /\ tells_packets t (p1 ++ p2) /\ List.length p1 = List.length pk1.
Proof.
  intros wa wc args l c pk pk1 a b t A D J ND (ME & _ & MR & _) RM P P1 IC IA FC FA (NA & SC & NC) (_ & SA & NB) M.
  destruct (json_of wc args l c (a ++ b) t A D J ND FC IC M) as (items & PB & R).
  destruct (cut_where pk _ P a b eq_refl) as [(l1 & l2 & -> & Q1 & Q2)|(l1 & a1 & tag & body & q & x & Q1 & -> & Q & X & F)];
    [|destruct (cut_not_complete l1 a1 Q1 tag body q x pk1 F Q X P1)].
  rewrite (C01_file _ _ (l1 ++ l2) (a ++ b) (all_definite _ _ P) NA SC NC), parse_list_app in PB.
  destruct (parse_list (options_asked l c) (w_env wc) l1 cst_init) as [i1 r1] eqn:H1. cbn [fst snd] in PB.
  assert (r1 = ROk tt) as -> by (destruct r1 as [[]| | |]; congruence). unfold FramingL.both in PB. injection PB as <- _.
  match type of R with info_JSON _ (_ ++ ?i) = _ => set (i2 := i) in * end.
  destruct (proj2 (json_can (SpecCli.number l "indent" 0) i1)) as (t1 & R1).
  { destruct (proj1 (json_can _ (i1 ++ i2)) (ex_intro _ _ R)) as [L|L]; [left; exact L|]. rewrite levels_app in L. right. lia. }
  destruct (tells_of _ _ _ R) as (js & DJ & TJ). destruct (docs_split _ _ _ DJ) as (p1 & p2 & -> & D1 & D2). exists t1, p1, p2.
  split; [|split; [exact (tells_docs _ _ _ _ R1 D1)|split; [exact TJ|]]].
  - apply (of_json wa args l c a i1); try assumption; [congruence|]. rewrite ME, (C01_file _ _ l1 a (all_definite _ _ Q1) NA SA NB). exact H1.
  - rewrite (docs_length _ _ D1). apply (list_length (options_asked l c) (w_env wc) pk1 cst_init).
    rewrite <- (C01_file _ _ pk1 a (all_definite _ _ P1) NA SA NB), (C01_file _ _ l1 a (all_definite _ _ Q1) NA SA NB). exact H1.
Qed.
Print Assumptions C79_between_json.

(** ** The key of C67 with a bare key behind it, and the key cut behind its user ID *)
Example C75_json_used : let c := CRoot false false [] in let o := options_asked demo_json c in let E := w_env (armor_world demo_octets) in
  asks [str "-ju"] demo_json c /\ dump_command c = true /\ on demo_json "json" = true /\ on demo_json "debug" = false /\
  as_they_are o E demo_octets /\ as_they_are o E demo_bare /\ as_they_are o E (demo_octets ++ demo_bare) /\ as_they_are o E demo_between /\
  (exists t1, main (armor_world demo_octets) [str "-ju"] = Some (Some 0%Z, t1) /\ 1000 < lenN t1) /\
  (exists t2, main (armor_world demo_bare) [str "-ju"] = Some (Some 0%Z, t2) /\ 300 < lenN t2) /\
  (exists t, main (armor_world (demo_octets ++ demo_bare)) [str "-ju"] = Some (Some 0%Z, t) /\ 1200 < lenN t) /\
  (exists t, main (armor_world demo_between) [str "-ju"] = Some (Some 0%Z, t) /\ 300 < lenN t).
Proof.
  cbv zeta. split; [apply C73_used|]. do 3 (split; [reflexivity|]). do 4 (split; [apply plain_lines; vm_compute; reflexivity|]).
  repeat split; eexists; (split; [vm_compute; reflexivity | vm_compute; reflexivity]).
Qed.
