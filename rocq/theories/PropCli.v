(** * PropCli: C57, options on the command line have the same meaning however they are written. *)
From Coq Require Import Strings.String Strings.Byte List NArith ZArith Bool Arith Lia ZifyBool ZifyN ZifyNat.
From Verif Require Import Base SpecBase BaseL Context Env Parse Hkp Github Facade Witness Cli SpecCli CliL.
Import ListNotations.
Local Open Scope Z_scope.

(** ** Options mean what they say *)

(** Options alone: the root command runs with the options asked for, in whatever way and order they are written. *)
Theorem C57_root : forall l args, written_all (options MRoot) l args ->
  exists fl, cli args = Some (fl, command_asked MRoot l []) /\ flags_asked l fl.
Proof.
  intros l args H. exists (flags_of (conv l)). split; [|apply flags_of_asked].
  unfold cli. pose proof (strip_all _ _ _ _ [] find_entries H) as S. rewrite app_nil_r in S. rewrite S. cbn [strip_flags].
  unfold run_cmd. pose proof (written_all_run _ _ _ _ [] (parse_entries MRoot) H) as R. rewrite app_nil_r in R. rewrite R.
  cbn [parse_args more]. rewrite app_nil_r, command_of_asked by exact (written_all_named _ _ _ H). reflexivity.
Qed.
Print Assumptions C57_root.

(** Common options, the name of a command or an alias, and behind it options and arguments in any order. *)
Theorem C57_sub : forall c n l pre m x post, command_name c n -> written_all common l pre -> line (options c) m x post ->
  exists fl, cli (pre ++ str n :: post) = Some (fl, command_asked c (l ++ m) x) /\ flags_asked (l ++ m) fl.
Proof.
  intros c n l pre m x post N H L. exists (flags_of (conv (l ++ m))). split; [|apply flags_of_asked].
  destruct (find_name c n N) as (N1 & N2 & N3 & N4 & N5).
  assert (forall c, written_all (options c) l pre) as G by (intro; eapply written_all_incl; [|exact H]; unfold options; apply incl_appl, incl_refl).
  unfold cli. rewrite (strip_all _ _ _ _ _ find_entries (G MRoot)), (strip_word _ _ _ N1 N2), N3, N4.
  rewrite minus_first_app by (assumption || exact (common_all_not_word _ _ H)).
  unfold run_cmd. rewrite (written_all_run _ _ _ _ _ (parse_entries c) (G c)), (line_run _ _ _ _ _ (parse_entries c) L). cbn [more].
  rewrite <- conv_app, command_of_asked by (apply Forall_app; split; [exact (written_all_named _ _ _ (G c))|exact (line_named _ _ _ _ L)]). reflexivity.
Qed.
Print Assumptions C57_sub.

Lemma execute_flags fl fl' w c l : flags_asked l fl -> flags_asked l fl' -> execute fl w c = execute fl' w c.
Proof.
  intros (J & I & A1 & A2 & A3 & A4 & A5 & A6 & A7 & A8) (J' & I' & B1 & B2 & B3 & B4 & B5 & B6 & B7 & B8).
  assert (parse_context fl = parse_context fl') as P by (unfold parse_context; rewrite A1, A2, A3, A4, A5, A6, A7, A8, B1, B2, B3, B4, B5, B6, B7, B8; reflexivity).
  assert (forall o s, dump fl w o s = dump fl' w o s) as D by (intros o s; unfold dump, marshal; rewrite J, I, J', I'; reflexivity).
  assert (forall o raw b, answer fl w o raw b = answer fl' w o raw b) as E by (intros o raw b; unfold answer; rewrite D; reflexivity).
  unfold execute. replace (run fl w c) with (run fl' w c); [reflexivity|].
  unfold run, run_root, run_hkp, run_github, run_fetch. rewrite P.
  destruct c as [[] cb file| |args ks port secure raw|args keyid raw|args raw|args| |]; try reflexivity; f_equal.
  - destruct (cb && negb (is_nil file)); [reflexivity|]. destruct cb; [destruct (w_clip w); [rewrite D|]; reflexivity|].
    destruct (negb (is_nil file)); [destruct (w_open w file); [rewrite D|]; reflexivity|rewrite D; reflexivity].
  - destruct args as [|u [|]]; try reflexivity. destruct (is_nil ks); [reflexivity|].
    match goal with |- match ?x with _ => _ end = _ => destruct x end; [rewrite E|]; reflexivity.
  - destruct args as [|u [|]]; try reflexivity. destruct (fst (get_key (w_gh w) u keyid (w_gh_pages w))); try rewrite E; reflexivity.
  - destruct args as [|u [|]]; try reflexivity. destruct (w_get w u); [rewrite E|]; reflexivity.
Qed.
Lemma said_ext l m : (forall n, said l n = said m n) -> (forall fl, flags_asked l fl -> flags_asked m fl) /\ (forall c x, command_asked c l x = command_asked c m x).
Proof.
  intro H. split.
  - intros fl F. unfold flags_asked, on, number in *. rewrite <- !H. exact F.
  - intros c x. destruct c; cbn [command_asked]; unfold on, number, text; rewrite <- ?H; reflexivity.
Qed.

(** Two lines that say the same about every option do the same: status and output. *)
Theorem C57_same_root : forall w l a m b, written_all (options MRoot) l a -> written_all (options MRoot) m b ->
  (forall n, said l n = said m n) -> main w a = main w b.
Proof.
  intros w l a m b A B H. destruct (said_ext _ _ H) as [F C].
  destruct (C57_root l a A) as (fl & E & K). destruct (C57_root m b B) as (fl' & E' & K').
  unfold main. rewrite E, E'. cbn [option_map fst snd]. rewrite (C MRoot []), (execute_flags fl fl' w _ m (F _ K) K'). reflexivity.
Qed.
Print Assumptions C57_same_root.
Theorem C57_same_sub : forall w c n n' l a l' a' m b m' b' x, command_name c n -> command_name c n' ->
  written_all common l a -> written_all common l' a' -> line (options c) m x b -> line (options c) m' x b' ->
  (forall n, said (l ++ m) n = said (l' ++ m') n) -> main w (a ++ str n :: b) = main w (a' ++ str n' :: b').
Proof.
  intros w c n n' l a l' a' m b m' b' x N N' A A' B B' H. destruct (said_ext _ _ H) as [F C].
  destruct (C57_sub c n l a m x b N A B) as (fl & E & K). destruct (C57_sub c n' l' a' m' x b' N' A' B') as (fl' & E' & K').
  unfold main. rewrite E, E'. cbn [option_map fst snd]. rewrite (C c x), (execute_flags fl fl' w _ _ (F _ K) K'). reflexivity.
Qed.
Print Assumptions C57_same_sub.

(** ** Anything else is refused *)

Lemma flags_table c : parse_flags c = map (fun e => mkFlag (str (fst (fst e))) (snd (fst e)) (snd e)) (options c) ++ [help_flag].
Proof. destruct c; vm_compute; reflexivity. Qed.
Lemma find_none {A} (f : A -> bool) l : (forall x, In x l -> f x = false) -> find f l = None.
Proof. induction l as [|x l IH]; intro H; [reflexivity|]. cbn [find]. rewrite (H x (or_introl eq_refl)). apply IH. intros y I. apply H. right. exact I. Qed.
Lemma lookup_none c n : n <> "help"%string -> (forall s k, ~ In (n, s, k) (options c)) -> lookup (parse_flags c) (str n) = None.
Proof.
  intros H N. rewrite flags_table. apply find_none. intros f I. apply in_app_or in I as [I|[<-|[]]].
  - apply in_map_iff in I as ([[m s] k] & <- & I). cbn [fst snd fl_name]. rewrite beqs_str. apply String.eqb_neq. intros ->. exact (N _ _ I).
  - cbn [help_flag fl_name]. rewrite beqs_str. apply String.eqb_neq. exact H.
Qed.
Lemma lookup_short_none c b : b <> "h"%byte -> (forall n k, ~ In (n, Some b, k) (options c)) -> lookup_short (parse_flags c) b = None.
Proof.
  intros H N. rewrite flags_table. apply find_none. intros f I. apply in_app_or in I as [I|[<-|[]]].
  - apply in_map_iff in I as ([[m s] k] & <- & I). cbn [fst snd fl_short]. destruct s as [s|]; [|reflexivity].
    destruct (Byte.eqb b s) eqn:E; [|reflexivity]. apply Byte.byte_dec_bl in E as ->. exfalso. exact (N _ _ I).
  - cbn [help_flag fl_short]. destruct (Byte.eqb b "h"%byte) eqn:E; [|reflexivity]. apply Byte.byte_dec_bl in E. congruence.
Qed.
Lemma no_eq t : ~ In "="%byte t -> has_eq t = false.
Proof.
  intro H. unfold has_eq. destruct (existsb _ t) eqn:E; [|reflexivity]. apply existsb_exists in E as (b & I & B). apply Byte.byte_dec_bl in B. subst b. contradiction.
Qed.
Lemma refused_parse c s rest : refused c s -> parse_args (parse_flags c) (s :: rest) = None.
Proof.
  intro R. destruct R as [n t E1 E2 E3 E4 E5 E6|l u b t L B1 B2 B3 B4 B5|n s k t I M].
  - assert (exists a r, str n = a :: r /\ a <> "-"%byte /\ a <> "="%byte) as (a & r & A & A1 & A2).
    { destruct (str n) as [|a r] eqn:E; [apply (str_inj n ""%string) in E; congruence|]. exists a, r. cbn [hd_error] in E2. repeat split; [congruence|]. intros ->. apply E3. left. reflexivity. }
    rewrite args_long by (rewrite A; discriminate).
    assert (long_arg (parse_flags c) (str n ++ t) = Bad) as ->; [|reflexivity].
    assert (exists v, split_eq (str n ++ t) = (str n, v)) as (v & S).
    { destruct E6 as [->|E6].
      - rewrite app_nil_r, split_none by (apply no_eq, E3). eauto.
      - destruct t as [|q t]; [discriminate|]. injection E6 as ->. exists (Some t). apply (split_some (str n) t). apply no_eq, E3. }
    unfold long_arg. rewrite S, (lookup_none c n E4 E5). rewrite A. cbn [app]. destruct a; reflexivity.
  - assert (short_arg (parse_flags c) (b :: t) = Bad) as Q.
    { cbn [short_arg]. destruct (beqs (firstn 5 (b :: t)) (str "test.")) eqn:E; [apply beqs_spec in E; contradiction|].
      rewrite (lookup_short_none c b B3 B4). reflexivity. }
    pose proof (letters_run _ _ _ _ (parse_entries c) L (b :: t) ltac:(cbn [hd_error]; congruence)) as R. rewrite Q in R. cbn [before] in R.
    destruct L as [|m x l' u' Im L]; cbn [app] in R |- *.
    + rewrite args_short by exact B1. rewrite R. reflexivity.
    + rewrite args_short by exact (proj1 (proj2 (proj2 (entry_letter _ _ _ _ _ (parse_entries c) Im)))). rewrite R. reflexivity.
  - rewrite args_long by (pose proof (entry_nonempty _ _ _ _ _ (parse_entries c) I); destruct (str n); [congruence|discriminate]).
    rewrite (long_known_is _ _ _ _ _ _ (parse_entries c) I). unfold set_flag. cbn [fl_kind].
    destruct (parse_value k t) as [v|] eqn:V; [exfalso; apply (M v), value_means, V | reflexivity].
Qed.
Lemma refused_not_word c s : refused c s -> not_word s = true /\ s <> str "--".
Proof.
  intro R. destruct R as [n t E1 E2 E3 E4 E5 E6|l u b t L B1 B2 B3 B4 B5|n s k t I M]; (split; [reflexivity|]).
  - destruct (str n) as [|a r] eqn:E; [apply (str_inj n ""%string) in E; congruence|]. discriminate.
  - destruct L as [|m x l' u' Im L]; [intro Q; injection Q; congruence|]. intro Q. injection Q. intros _ ->.
    exact (proj1 (proj2 (proj2 (entry_letter _ _ _ _ _ (parse_entries c) Im))) eq_refl).
  - pose proof (entry_nonempty _ _ _ _ _ (parse_entries c) I) as N. destruct (str n); [congruence|discriminate].
Qed.
Lemma strip_in fs k : forall args, (List.length args <= k)%nat -> forall x, In x (strip_flags fs args) -> In x args.
Proof.
  induction k as [|k IH]; intros [|s rest] H x I; cbn [List.length] in H; [exact I|lia|exact I|].
  cbn [strip_flags] in I. destruct (beqs s (str "--")); [contradiction|]. destruct (takes_next fs s).
  - destruct rest as [|t [|y r]]; try contradiction. right. right. apply IH; [cbn [List.length] in *; lia|exact I].
  - assert (In x (strip_flags fs rest) -> In x (s :: rest)) as G by (intro J; right; apply IH; [lia|exact J]).
    assert (In x (s :: strip_flags fs rest) -> In x (s :: rest)) as G2 by (intros [J|J]; [left; exact J|exact (G J)]).
    destruct s as [|b s]; [exact (G I)|]. destruct b; first [exact (G2 I) | exact (G I)].
Qed.
Lemma strip_words fs k : forall args, (List.length args <= k)%nat -> forall x, In x (strip_flags fs args) -> x <> [] /\ hd_error x <> Some "-"%byte.
Proof.
  induction k as [|k IH]; intros [|s rest] H x I; cbn [List.length] in H; [contradiction|lia|contradiction|].
  cbn [strip_flags] in I. destruct (beqs s (str "--")); [contradiction|]. destruct (takes_next fs s).
  - destruct rest as [|t [|y r]]; try contradiction. apply (IH (y :: r)); [cbn [List.length] in *; lia|exact I].
  - assert (In x (strip_flags fs rest) -> x <> [] /\ hd_error x <> Some "-"%byte) as G by (intro J; apply (IH rest); [lia|exact J]).
    destruct s as [|b s]; [exact (G I)|].
    destruct b; first [exact (G I) | destruct I as [<-|I]; [split; discriminate|exact (G I)]].
Qed.
Lemma minus_first_keep x a s rest : not_word x = false -> Forall (fun y => not_word y = true) a -> not_word s = true ->
  minus_first x (a ++ s :: rest) = a ++ s :: minus_first x rest.
Proof.
  intros X F S. induction F as [|y a Y _ IH]; cbn [app minus_first].
  - destruct (beqs x s) eqn:E; [apply beqs_spec in E; congruence|]. reflexivity.
  - destruct (beqs x y) eqn:E; [apply beqs_spec in E; congruence|]. rewrite IH. reflexivity.
Qed.
Lemma find_next_word x c : find_next x = Some c -> not_word x = false.
Proof.
  unfold find_next. destruct (find _ sub_commands) as [p|] eqn:F; [|discriminate]. intros _.
  apply find_some in F as [I E]. apply existsb_exists in E as (y & J & Y). apply beqs_spec in Y. subst y.
  cbn [sub_commands In] in I. repeat (destruct I as [<-|I]); cbn [fst In] in J; repeat (destruct J as [<-|J]); try reflexivity; contradiction.
Qed.

(** An option no command has, behind common options and before anything: status 1, and nothing on standard output.  (The
    exception is the hidden command with which shells complete words.) *)
Theorem C57_unknown : forall w l pre s rest, written_all common l pre -> (forall c, refused c s) ->
  main w (pre ++ s :: rest) = Some (Some 1, []) \/ In (str "__complete") rest \/ In (str "__completeNoDesc") rest.
Proof.
  intros w l pre s rest H R. destruct (refused_not_word MRoot s (R MRoot)) as [S1 S2].
  assert (forall c, written_all (options c) l pre) as G by (intro; eapply written_all_incl; [|exact H]; unfold options; apply incl_appl, incl_refl).
  assert (forall c r, run_cmd c (pre ++ s :: r) = (no_flags, CUsage)) as U.
  { intros c r. unfold run_cmd. rewrite (written_all_run _ _ _ _ _ (parse_entries c) (G c)), (refused_parse c s r (R c)). reflexivity. }
  unfold main, cli. destruct (strip_flags (find_flags MRoot) (pre ++ s :: rest)) as [|x r] eqn:E.
  - left. rewrite U. reflexivity.
  - destruct (is_complete x) eqn:C.
    + right. rewrite (strip_all _ _ _ _ _ find_entries (G MRoot)) in E.
      assert (In x (s :: rest)) as I by (apply (strip_in (find_flags MRoot) _ _ (le_n _)); rewrite E; left; reflexivity).
      assert (In x rest) as J.
      { destruct I as [<-|I]; [|exact I]. exfalso. unfold is_complete in C. apply orb_true_iff in C as [C|C]; apply beqs_spec in C; subst s; discriminate S1. }
      unfold is_complete in C. apply orb_true_iff in C as [C|C]; apply beqs_spec in C; subst x; [left|right]; exact J.
    + left. destruct (find_next x) as [c|] eqn:F; [|reflexivity].
      rewrite (minus_first_keep x pre s rest (find_next_word _ _ F) (common_all_not_word _ _ H) S1), U. reflexivity.
Qed.
Print Assumptions C57_unknown.

(** Behind the name of a command: an option this command does not have, be it one of another. *)
Theorem C57_unknown_sub : forall w c n l pre m x post s rest, command_name c n -> written_all common l pre -> line (options c) m x post ->
  ~ In (str "--") post -> refused c s -> main w (pre ++ str n :: post ++ s :: rest) = Some (Some 1, []).
Proof.
  intros w c n l pre m x post s rest N H L D R.
  destruct (find_name c n N) as (N1 & N2 & N3 & N4 & N5).
  assert (forall c, written_all (options c) l pre) as G by (intro; eapply written_all_incl; [|exact H]; unfold options; apply incl_appl, incl_refl).
  unfold main, cli. rewrite (strip_all _ _ _ _ _ find_entries (G MRoot)), (strip_word _ _ _ N1 N2), N3, N4.
  rewrite minus_first_app by (assumption || exact (common_all_not_word _ _ H)).
  unfold run_cmd. rewrite (written_all_run _ _ _ _ _ (parse_entries c) (G c)).
  assert (parse_args (parse_flags c) (post ++ s :: rest) = None) as ->; [|reflexivity].
  clear - L D R. induction L as [|l a m x b A _ IH|y m x b Y _ IH|x].
  - apply (refused_parse c s rest R).
  - rewrite <- app_assoc, (written_run _ _ _ _ _ (parse_entries c) A), IH; [reflexivity|]. intro J. apply D. apply in_or_app. right. exact J.
  - cbn [app]. rewrite args_other, IH; [reflexivity| |exact Y]. intro J. apply D. right. exact J.
  - exfalso. apply D. left. reflexivity.
Qed.
Print Assumptions C57_unknown_sub.

(** A number means the same in every notation: what is given to --indent is a number, and then only one, and may as well be written in decimal; or it is none,
    and the command line is refused. *)
Lemma int_range t z : int_text t z -> - 2 ^ 63 <= z < 2 ^ 63.
Proof. destruct 1; lia. Qed.
Theorem C57_number : forall w l pre t, written_all common l pre ->
  (exists z, int_text t z /\ (forall z', int_text t z' -> z' = z) /\
     main w (pre ++ [str "--indent=" ++ t]) = main w (pre ++ [str "--indent=" ++ decZ z])) \/
  (forall z, ~ int_text t z) /\ main w (pre ++ [str "--indent=" ++ t]) = Some (Some 1, []).
Proof.
  intros w l pre t H. assert (forall c, In ("indent"%string, None, KInt) (options c)) as I by (intro c; unfold options, common; cbn [app In]; tauto).
  destruct (parse_int t) as [z|] eqn:E.
  - left. exists z. apply parse_int_spec in E. split; [exact E|]. split; [intros z' E'; apply parse_int_spec in E, E'; congruence|].
    assert (written_all (options MRoot) l pre) as G by (eapply written_all_incl; [|exact H]; unfold options; apply incl_appl, incl_refl).
    assert (forall u, int_text u z -> written_all (options MRoot) (l ++ [("indent"%string, VInt z)]) (pre ++ [str "--indent=" ++ u])) as K.
    { intros u U. clear H. induction G as [|l1 a1 m1 b1 W _ IH].
      - apply (wa_more _ [("indent"%string, VInt z)] [str "--" ++ str "indent" ++ str "=" ++ u] [] []); [|constructor].
        eapply w_long_is with (k := KInt); [exact (I MRoot) | apply m_int; exact U].
      - rewrite <- !app_assoc. apply wa_more; [exact W | exact IH]. }
    apply (C57_same_root w _ _ _ _ (K t E) (K (decZ z) (int_dec z (int_range _ _ E)))). reflexivity.
  - right. assert (forall z, ~ int_text t z) as N by (intros z Z; apply parse_int_spec in Z; congruence). split; [exact N|].
    destruct (C57_unknown w l pre (str "--indent=" ++ t) [] H) as [R|[[]|[]]]; [|exact R].
    intro c. apply (r_value c "indent"%string None KInt t (I c)). intros v M. inversion M as [ | |u z Z| ]; subst. exact (N z Z).
Qed.
Print Assumptions C57_number.

(** So does a number in the next argument, whatever it is. *)
Theorem C57_number_next : forall w l pre t, written_all common l pre ->
  main w (pre ++ [str "--indent"; t]) = main w (pre ++ [str "--indent=" ++ t]).
Proof.
  intros w l pre t H. assert (forall c, written_all (options c) l pre) as G by (intro; eapply written_all_incl; [|exact H]; unfold options; apply incl_appl, incl_refl).
  assert (forall r, strip_flags (find_flags MRoot) r = [] -> cli (pre ++ r) = Some (run_cmd MRoot (pre ++ r))) as K.
  { intros r S. unfold cli. rewrite (strip_all _ _ _ _ _ find_entries (G MRoot)), S. reflexivity. }
  unfold main. rewrite !K by reflexivity. cbn [option_map]. f_equal. unfold run_cmd. rewrite !(written_all_run _ _ _ _ _ (parse_entries MRoot) (G MRoot)).
  assert (parse_args (parse_flags MRoot) [str "--indent"; t] = parse_args (parse_flags MRoot) [str "--indent=" ++ t]) as ->; [|reflexivity].
  change (str "--indent") with (str "--" ++ str "indent") at 1. change (str "--indent=" ++ t) with (str "--" ++ str "indent=" ++ t). rewrite !args_long by discriminate.
  change (long_arg (parse_flags MRoot) (str "indent=" ++ t)) with (set_flag (mkFlag (str "indent") None KInt) t).
  change (long_arg (parse_flags MRoot) (str "indent")) with (Wants [] (mkFlag (str "indent") None KInt)).
  unfold set_flag. cbn [act_args fl_kind fl_name]. destruct (parse_value KInt t); reflexivity.
Qed.
Print Assumptions C57_number_next.

Lemma no_command_none x : no_command x -> is_complete x = false /\ find_next x = None.
Proof.
  intros (X1 & X2 & X3 & X4 & X5). split.
  { unfold is_complete. apply orb_false_iff. split; [destruct (beqs x (str "__complete")) eqn:E|destruct (beqs x (str "__completeNoDesc")) eqn:E]; try reflexivity; apply beqs_spec in E; congruence. }
  destruct (find_next x) as [c|] eqn:F; [|reflexivity]. exfalso.
  unfold find_next in F. destruct (find _ sub_commands) as [p|] eqn:Q; [|discriminate].
  apply find_some in Q as [I E]. apply existsb_exists in E as (y & J & Y). apply beqs_spec in Y. subst y.
  cbn [sub_commands In] in I.
  repeat (destruct I as [<-|I]); cbn [fst In] in J; try contradiction; repeat (destruct J as [J|J]); try contradiction; symmetry in J;
    match type of J with _ = str ?n => refine (X3 _ n _ J) end;
    first [apply n_help | apply n_version; cbn [In]; tauto | apply n_hkp; cbn [In]; tauto | apply n_github; cbn [In]; tauto | apply n_fetch; cbn [In]; tauto | apply n_completion; cbn [In]; tauto].
Qed.
(** A word that is no command: status 1, and nothing on standard output; a file name, say. *)
Theorem C57_no_positional : forall w l pre x rest, written_all (options MRoot) l pre -> no_command x -> main w (pre ++ x :: rest) = Some (Some 1, []).
Proof.
  intros w l pre x rest H N. destruct (no_command_none x N) as [N1 N2]. destruct N as (X1 & X2 & _).
  unfold main, cli. rewrite (strip_all _ _ _ _ _ find_entries H), (strip_word _ _ _ X1 X2), N1, N2. reflexivity.
Qed.
Print Assumptions C57_no_positional.

(** ** What does not hold *)

(** Behind a double hyphen everything is passed over without a word: gpgpdump -- key.asc reads standard input. *)
Theorem C57_double_dash_refuted : forall w l pre rest, written_all (options MRoot) l pre -> main w (pre ++ str "--" :: rest) = main w pre.
Proof.
  intros w l pre rest H. unfold main, cli.
  pose proof (strip_all _ _ _ _ [] find_entries H) as S. rewrite app_nil_r in S. rewrite S.
  rewrite (strip_all _ _ _ _ _ find_entries H). cbn [strip_flags]. replace (beqs (str "--") (str "--")) with true by reflexivity.
  unfold run_cmd. pose proof (written_all_run _ _ _ _ [] (parse_entries MRoot) H) as R. rewrite app_nil_r in R.
  rewrite R, (written_all_run _ _ _ _ _ (parse_entries MRoot) H). cbn [parse_args]. replace (beqs (str "--") (str "--")) with true by reflexivity.
  reflexivity.
Qed.
Print Assumptions C57_double_dash_refuted.

(** An unknown option that begins with -test. is passed over as well. *)
Theorem C57_test_refuted : forall w l pre t, written_all (options MRoot) l pre -> main w (pre ++ [str "-test." ++ t]) = main w pre.
Proof.
  intros w l pre t H. unfold main, cli.
  pose proof (strip_all _ _ _ _ [] find_entries H) as S. rewrite app_nil_r in S. rewrite S.
  rewrite (strip_all _ _ _ _ _ find_entries H).
  replace (strip_flags (find_flags MRoot) [str "-test." ++ t]) with (strip_flags (find_flags MRoot) []) by reflexivity.
  unfold run_cmd. pose proof (written_all_run _ _ _ _ [] (parse_entries MRoot) H) as R. rewrite app_nil_r in R.
  rewrite R, (written_all_run _ _ _ _ _ (parse_entries MRoot) H). reflexivity.
Qed.
Print Assumptions C57_test_refuted.

Lemma said_snoc l n v m : said (l ++ [(n, v)]) m = if String.eqb m n then Some v else said l m.
Proof. unfold said. rewrite rev_app_distr. cbn [rev app find fst]. destruct (String.eqb m n); reflexivity. Qed.
(** A group of letters the last of which wants a value is refused if the value is the next argument, although the same in two
    arguments is not: looking for a command, cobra takes the file name for one. *)
Theorem C57_grouped_value_refuted : forall w l u file, letters (options MRoot) l u -> u <> [] -> no_command file ->
  main w [str "-" ++ u ++ str "f"; file] = Some (Some 1, []) /\
  exists fl, cli [str "-" ++ u; str "-f"; file] = Some (fl, CRoot (on l "version") (on l "clipboard") file).
Proof.
  intros w l u file L U N. split.
  - destruct L as [|m x l' u' Im L]; [congruence|]. destruct (no_command_none file N) as [N1 N2]. destruct N as (X1 & X2 & _).
    destruct (entry_letter _ _ _ _ _ find_entries Im) as (_ & _ & E2 & _).
    unfold main, cli. rewrite strip_option.
    + rewrite strip_word, N1, N2 by assumption. reflexivity.
    + exists x, (u' ++ str "f"); split; [reflexivity|intro Q; injection Q; congruence].
    + destruct u' as [|y u']; [apply (takes_group _ x "f"%byte [] E2)|apply (takes_group _ x y (u' ++ str "f") E2)].
  - assert (written_all (options MRoot) (l ++ [("file"%string, VString file)]) ([str "-" ++ u] ++ [str "-" ++ ["f"%byte]; file] ++ [])) as W.
    { apply wa_more; [apply w_letters; assumption|]. rewrite <- (app_nil_r [("file"%string, VString file)]). apply wa_more; [|constructor].
      eapply w_letter_next with (k := KString); [|discriminate|constructor]. unfold options, common, own. cbn [app In]. tauto. }
    destruct (C57_root _ _ W) as (fl & E & _). exists fl. etransitivity; [exact E|]. cbn [command_asked]. unfold on, text. rewrite !said_snoc. reflexivity.
Qed.
Print Assumptions C57_grouped_value_refuted.

(** ** Cases *)
Definition key : bytes := str "key.asc".
Lemma file_no_command : no_command key.
Proof.
  split; [discriminate|]. split; [discriminate|]. split; [|split; discriminate].
  intros c n [m H|m H|m H|m H|m H|]; try discriminate; cbn [In] in H; repeat (destruct H as [<-|H]); try discriminate; contradiction.
Qed.
(** gpgpdump -ju --indent 2 -fkey.asc and gpgpdump --file=key.asc --indent=-1 --utc --json=T --indent 2 *)
Definition line1 : list bytes := [str "-ju"; str "--indent"; str "2"; str "-fkey.asc"].
Definition line2 : list bytes := [str "--file=key.asc"; str "--indent=-1"; str "--utc"; str "--json=T"; str "--indent"; str "2"].
Definition asked1 : list (string * value) := [("json", VBool true); ("utc", VBool true); ("indent", VInt 2); ("file", VString key)]%string.
Definition asked2 : list (string * value) := [("file", VString key); ("indent", VInt (-1)); ("utc", VBool true); ("json", VBool true); ("indent", VInt 2)]%string.
Ltac member := unfold options, common, own; cbn [app In]; tauto.
Ltac meaning := first [apply (m_true (str "T")); cbn [In]; tauto | apply m_int, (int_dec 2); lia | apply m_int, (int_dec (-1)); lia | apply m_string].
Example C57_line1 : written_all (options MRoot) asked1 line1.
Proof.
  change asked1 with ([("json"%string, VBool true); ("utc"%string, VBool true)] ++ [("indent"%string, VInt 2)] ++ ([] ++ [("file"%string, VString key)]) ++ []).
  change line1 with ([str "-" ++ ["j"; "u"]%byte] ++ [str "--" ++ str "indent"; str "2"] ++ [str "-" ++ [] ++ "f"%byte :: str "key.asc"] ++ []).
  apply wa_more; [apply w_letters; [apply letters_more; [member|apply letters_more; [member|constructor]]|discriminate]|].
  apply wa_more; [eapply w_long_next with (k := KInt); [member|discriminate|meaning]|].
  apply wa_more; [|constructor]. apply w_letters_value with (k := KString); [constructor|member|discriminate|meaning|discriminate|discriminate].
Qed.
Example C57_line2 : written_all (options MRoot) asked2 line2.
Proof.
  change asked2 with ([("file"%string, VString key)] ++ [("indent"%string, VInt (-1))] ++ [("utc"%string, VBool true)] ++ [("json"%string, VBool true)] ++ [("indent"%string, VInt 2)] ++ []).
  change line2 with ([str "--" ++ str "file" ++ str "=" ++ str "key.asc"] ++ [str "--" ++ str "indent" ++ str "=" ++ str "-1"] ++ [str "--" ++ str "utc"] ++
    [str "--" ++ str "json" ++ str "=" ++ str "T"] ++ [str "--" ++ str "indent"; str "2"] ++ []).
  apply wa_more; [eapply w_long_is with (k := KString); [member|meaning]|].
  apply wa_more; [eapply w_long_is with (k := KInt); [member|meaning]|].
  apply wa_more; [eapply w_long; member|].
  apply wa_more; [eapply w_long_is with (k := KBool); [member|meaning]|].
  apply wa_more; [eapply w_long_next with (k := KInt); [member|discriminate|meaning]|]. constructor.
Qed.
Example C57_same_example : (forall n, said asked1 n = said asked2 n) /\ (forall w, main w line1 = main w line2) /\
  exists fl, cli line1 = Some (fl, CRoot false false key) /\ f_json fl = true /\ f_indent fl = 2 /\ f_on fl UTC = true /\ f_on fl DEBUG = false.
Proof.
  assert (forall n, said asked1 n = said asked2 n) as H.
  { intro n. unfold said, asked1, asked2. cbn [rev app find fst].
    destruct (String.eqb_spec n "file") as [->|]; [reflexivity|]. destruct (String.eqb_spec n "indent") as [->|]; [reflexivity|].
    destruct (String.eqb_spec n "utc") as [->|]; [reflexivity|]. destruct (String.eqb_spec n "json") as [->|]; reflexivity. }
  split; [exact H|]. split; [intro w; exact (C57_same_root w _ _ _ _ C57_line1 C57_line2 H)|].
  eexists. split; [vm_compute; reflexivity|]. repeat split; vm_compute; reflexivity.
Qed.
(** gpgpdump -u hkp Alice --secure and gpgpdump h --secure=1 --utc -- Alice *)
Example C57_sub_example : forall w, main w [str "-u"; str "hkp"; str "Alice"; str "--secure"] = main w [str "h"; str "--secure=1"; str "--utc"; str "--"; str "Alice"].
Proof.
  intro w. apply (C57_same_sub w MHkp "hkp" "h" [("utc", VBool true)] [str "-u"] [] [] [("secure", VBool true)] [str "Alice"; str "--secure"]
    [("secure", VBool true); ("utc", VBool true)] [str "--secure=1"; str "--utc"; str "--"; str "Alice"] [str "Alice"])%string.
  - apply n_hkp. cbn [In]. tauto.
  - apply n_hkp. cbn [In]. tauto.
  - apply (wa_more _ [("utc", VBool true)]%string [str "-" ++ ["u"%byte]] [] []); [|constructor]. apply w_letters; [apply letters_more; [member|constructor]|discriminate].
  - constructor.
  - apply line_argument; [left; discriminate|]. apply (line_options _ [("secure", VBool true)]%string [str "--" ++ str "secure"] [] [] []); [eapply w_long; member|constructor].
  - apply (line_options _ [("secure", VBool true)]%string [str "--" ++ str "secure" ++ str "=" ++ str "1"] [("utc", VBool true)]%string); [eapply w_long_is with (k := KBool); [member|apply m_true; cbn [In]; tauto]|].
    apply (line_options _ [("utc", VBool true)]%string [str "--" ++ str "utc"] []); [eapply w_long; member|]. apply line_dash.
  - intro n. unfold said. cbn [rev app find fst].
    destruct (String.eqb_spec n "secure") as [->|]; [reflexivity|]. destruct (String.eqb_spec n "utc") as [->|]; reflexivity.
Qed.
Example C57_unknown_example : (forall c, refused c (str "--armour")) /\ (forall c, refused c (str "-ux")) /\ (forall c, refused c (str "--utc=yes")) /\ refused MHkp (str "--keyid=x") /\
  forall w, main w [str "-j"; str "--armour"; str "hkp"] = Some (Some 1, []).
Proof.
  assert (forall c, refused c (str "--armour")) as A.
  { intro c. change (str "--armour") with (str "--" ++ str "armour" ++ []). apply r_long; try discriminate; [|intros s k H; destruct c; cbn [options common own app In] in H; repeat (destruct H as [H|H]); try discriminate H; exact H|left; reflexivity].
    cbn. intro H. repeat (destruct H as [H|H]); try discriminate H; exact H. }
  split; [exact A|]. split; [|split; [|split]].
  - intro c. change (str "-ux") with (str "-" ++ ["u"%byte] ++ "x"%byte :: []). eapply r_letter; try discriminate; [apply letters_more; [member|constructor]|].
    intros n k H; destruct c; cbn [options common own app In] in H; repeat (destruct H as [H|H]); try discriminate H; exact H.
  - intro c. change (str "--utc=yes") with (str "--" ++ str "utc" ++ str "=" ++ str "yes"). eapply r_value; [member|].
    intros v M. inversion M as [t H|t H| |]; subst; cbn [In] in H; repeat (destruct H as [H|H]); try discriminate H; exact H.
  - change (str "--keyid=x") with (str "--" ++ str "keyid" ++ str "=x"). apply r_long; try discriminate; [|intros s k H; cbn [options common own app In] in H; repeat (destruct H as [H|H]); try discriminate H; exact H|right; reflexivity].
    cbn. intro H. repeat (destruct H as [H|H]); try discriminate H; exact H.
  - intro w. destruct (C57_unknown w [("json", VBool true)]%string [str "-j"] (str "--armour") [str "hkp"]) as [H|[[H|[]]|[H|[]]]]; [|exact A|exact H|discriminate H|discriminate H].
    apply (wa_more _ [("json", VBool true)]%string [str "-" ++ ["j"%byte]] [] []); [|constructor]. apply w_letters; [apply letters_more; [member|constructor]|discriminate].
Qed.
Example C57_positional_example : forall w, main w [str "-j"; key] = Some (Some 1, []).
Proof.
  intro w. apply (C57_no_positional w [("json", VBool true)]%string [str "-j"] key []); [|exact file_no_command].
  apply (wa_more _ [("json", VBool true)]%string [str "-" ++ ["j"%byte]] [] []); [|constructor]. apply w_letters; [apply letters_more; [member|constructor]|discriminate].
Qed.
Example C57_grouped_example : forall w, main w [str "-uf"; key] = Some (Some 1, []).
Proof.
  intro w. apply (C57_grouped_value_refuted w [("utc", VBool true)]%string ["u"%byte] key); [apply letters_more; [member|constructor]|discriminate|exact file_no_command].
Qed.
Example C57_number_example : int_text (str "0x_1F") 31 /\ int_text (str "-0b11") (-3) /\ int_text (str "017") 15 /\ int_text (str "+1_000") 1000 /\ int_text (str "-9223372036854775808") (-9223372036854775808) /\
  (forall t, In t ["08"; "1__0"; "_1"; "1_"; "0x"; "9223372036854775808"; "1e3"; "--1"; "/"; ""]%string -> forall z, ~ int_text (str t) z).
Proof.
  repeat split; try (apply parse_int_spec; reflexivity). intros t I z Z. apply parse_int_spec in Z. cbn [In] in I.
  repeat (destruct I as [<-|I]; [vm_compute in Z; discriminate Z|]). exact I.
Qed.
