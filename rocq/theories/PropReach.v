(** * C72: the command reaches for nothing but what its arguments name. *)
From Coq Require Import Strings.String Strings.Byte List NArith ZArith Bool Lia ZifyBool ZifyN ZifyNat.
From Verif Require Import Base BaseL Item Context Env Parse Hkp Github Facade Cli Reach SpecFacade SpecCli SpecGithub SpecUrl SpecHkp SpecReach CliL HkpL PropFacade PropHkp PropUrl.
Import ListNotations.
Local Open Scope Z_scope.

(** ** Where settings come from *)
Definition named (fs : list flag) (args : list bytes) (p : bytes * value) : Prop :=
  match snd p with
  | VString s => stands_in args s
  | VBool false => True
  | _ => (exists t, In (str "--" ++ fst p ++ t) args) \/ (exists f b, In f fs /\ fl_name f = fst p /\ fl_short f = Some b)
  end.
Lemma named_incl fs a b p : incl a b -> named fs a p -> named fs b p.
Proof.
  intros I. unfold named, stands_in. destruct (snd p) as [[]|z|s]; auto.
  - intros [[t H]|H]; [left; exists t; auto | right; exact H].
  - intros [[t H]|H]; [left; exists t; auto | right; exact H].
  - intros [q H]. exists q. auto.
Qed.
Lemma split_eq_app t : forall n v, split_eq t = (n, v) -> t = n ++ match v with Some v => "="%byte :: v | None => [] end.
Proof.
  induction t as [|b t IH]; cbn [split_eq]; intros n v H; [injection H as <- <-; reflexivity|]. destruct (Byte.eqb b "="%byte) eqn:E.
  - injection H as <- <-. apply Byte.byte_dec_bl in E. subst b. reflexivity.
  - destruct (split_eq t) as [a r]. injection H as <- <-. cbn [app]. f_equal. apply IH. reflexivity.
Qed.
Lemma lookup_in fs n f : lookup fs n = Some f -> In f fs /\ fl_name f = n.
Proof. intro H. apply find_some in H as [I E]. apply beqs_spec in E. auto. Qed.
Lemma lookup_short_in fs c f : lookup_short fs c = Some f -> In f fs /\ exists b, fl_short f = Some b.
Proof. intro H. apply find_some in H as [I E]. split; [exact I|]. destruct (fl_short f); [eauto | discriminate]. Qed.

(** A flag is written in an argument, or has a letter. *)
Definition flag_named (fs : list flag) (s : bytes) (f : flag) : Prop := (exists u, s = str "--" ++ fl_name f ++ u) \/ In f fs /\ exists b, fl_short f = Some b.
(** What one argument sets is named in it. *)
Definition act_named (fs : list flag) (s : bytes) (a : act) : Prop :=
  match a with
  | Sets l => Forall (named fs [s]) l
  | Wants l f => Forall (named fs [s]) l /\ fl_kind f <> KBool /\ flag_named fs s f
  | Bad => True
  end.
Lemma set_flag_named fs s f t : flag_named fs s f -> (fl_kind f = KString -> exists p, s = p ++ t) -> act_named fs s (set_flag f t).
Proof.
  intros B S. unfold set_flag, parse_value. destruct (fl_kind f) eqn:K.
  - destruct (parse_bool t) as [b|]; [|exact I]. cbn. constructor; [|constructor]. unfold named. cbn. destruct b; [|exact I].
    destruct B as [[u ->]|[I [b E]]]; [left; exists u; left; reflexivity | right; exists f, b; auto].
  - destruct (parse_int t); [|exact I]. cbn. constructor; [|constructor].
    destruct B as [[u ->]|[I [b E]]]; [left; exists u; left; reflexivity | right; exists f, b; auto].
  - cbn. constructor; [|constructor]. destruct (S eq_refl) as [p ->]. exists p. left. reflexivity.
Qed.
Lemma long_named fs t : act_named fs (str "--" ++ t) (long_arg fs t).
Proof.
  unfold long_arg. destruct (split_eq t) as [n v] eqn:E. apply split_eq_app in E. set (s := str "--" ++ t).
  assert (act_named fs s (match lookup fs n with None => Bad | Some f => match v with Some v => set_flag f v | None => if no_value f then set_flag f (str "true") else Wants [] f end end)) as H.
  { destruct (lookup fs n) as [f|] eqn:L; [|exact I]. destruct (lookup_in fs n f L) as [IF NF]. destruct v as [v|].
    - apply set_flag_named.
      + left. exists ("="%byte :: v). unfold s. rewrite E, NF. reflexivity.
      + intros _. exists (str "--" ++ n ++ ["="%byte]). unfold s. rewrite E. rewrite <- !app_assoc. reflexivity.
    - destruct (no_value f) eqn:NV.
      + apply set_flag_named.
        * left. exists []. unfold s. rewrite E, NF. reflexivity.
        * intro K. unfold no_value in NV. rewrite K in NV. discriminate.
      + cbn. split; [constructor|]. split; [intro K; unfold no_value in NV; rewrite K in NV; discriminate|]. left. exists []. unfold s. rewrite E, NF. reflexivity. }
  destruct t as [|b t]; [exact I|]. destruct b; try exact I; exact H.
Qed.
Lemma act_before fs s l a : Forall (named fs [s]) l -> act_named fs s a -> act_named fs s (Cli.before l a).
Proof. intros L. destruct a as [m|m f|]; cbn; [intro M | intros [M K] | auto]; [|split; [|exact K]]; apply Forall_app; auto. Qed.
Lemma short_named fs t : forall p, act_named fs (p ++ t) (short_arg fs t).
Proof.
  induction t as [|c t IH]; intro p; [constructor|]. cbn [short_arg]. destruct (beqs _ _); [constructor|].
  destruct (lookup_short fs c) as [f|] eqn:L; [|exact I]. destruct (lookup_short_in fs c f L) as [IF SF].
  assert (act_named fs (p ++ c :: t) (if no_value f then match set_flag f (str "true") with Sets l => Cli.before l (short_arg fs t) | a => a end
    else match t with [] => Wants [] f | _ => set_flag f t end)) as H.
  { destruct (no_value f) eqn:NV.
    - assert (act_named fs (p ++ c :: t) (set_flag f (str "true"))) as S.
      { apply set_flag_named; [right; auto|]. intro K. unfold no_value in NV. rewrite K in NV. discriminate. }
      destruct (set_flag f (str "true")) as [l|l g|]; [|exact S|exact S]. apply act_before; [exact S|].
      specialize (IH (p ++ [c])). rewrite <- app_assoc in IH. exact IH.
    - destruct t as [|d t]; [cbn; split; [constructor|]; split; [intro K; unfold no_value in NV; rewrite K in NV; discriminate | right; auto]|].
      apply set_flag_named; [right; auto|]. intros _. exists (p ++ [c]). rewrite <- app_assoc. reflexivity. }
  destruct t as [|d t']; [exact H|]. destruct d; try exact H. destruct t' as [|e t']; [exact H|]. cbn [skipn].
  apply set_flag_named; [right; auto|]. intros _. exists (p ++ [c; "="%byte]). rewrite <- app_assoc. reflexivity.
Qed.

Lemma parse_named fs : forall k args l a, (length args <= k)%nat -> parse_args fs args = Some (l, a) -> Forall (named fs args) l /\ incl a args.
Proof.
  assert (W : forall x y l, incl x y -> Forall (named fs x) l -> Forall (named fs y) l) by (intros x y l H; apply Forall_impl; intro; now apply named_incl).
  induction k as [|k IH]; intros [|s rest] l a L H; try (cbn in L; lia); try (cbn in H; injection H as <- <-; split; [constructor | intros x []]).
  assert (O : forall l0 a0, parse_args fs rest = Some (l0, a0) -> Forall (named fs (s :: rest)) l0 /\ incl a0 rest).
  { intros l0 a0 P. destruct (IH rest l0 a0 ltac:(cbn in L; lia) P) as [F I]. split; [eapply W; [|exact F]; intros x X; right; exact X | exact I]. }
  assert (ACT : forall x, act_named fs s x -> act_args x fs rest = Some (l, a) -> Forall (named fs (s :: rest)) l /\ incl a (s :: rest)).
  { intros x N E. assert (S1 : incl [s] (s :: rest)) by (intros y [<-|[]]; left; reflexivity). destruct x as [m|m f|]; cbn [act_args] in E; [| |discriminate].
    - unfold more in E. destruct (parse_args fs rest) as [[m' a']|] eqn:P; [|discriminate]. injection E as <- <-. destruct (O m' a' eq_refl) as [F I].
      split; [apply Forall_app; split; [eapply W; [exact S1 | exact N] | exact F] | intros y Y; right; apply I, Y].
    - destruct N as (N & K & FN). destruct rest as [|v rest']; [discriminate|]. destruct (parse_value (fl_kind f) v) as [u|] eqn:V; [|discriminate].
      unfold more in E. destruct (parse_args fs rest') as [[m' a']|] eqn:P; [|discriminate]. injection E as <- <-.
      destruct (IH rest' m' a' ltac:(cbn in L; lia) P) as [F I]. split.
      + rewrite <- app_assoc. apply Forall_app. split; [eapply W; [exact S1 | exact N]|]. apply Forall_cons; [|eapply W; [|exact F]; intros y Y; right; right; exact Y].
        unfold named. cbn [snd fst]. unfold parse_value in V. destruct (fl_kind f); [congruence | destruct (parse_int v); [injection V as <- | discriminate]; destruct FN as [[u ->]|[If [b Eb]]]; [left; exists u; left; reflexivity | right; exists f, b; auto] |].
        injection V as <-. exists []. right. left. reflexivity.
      + intros y Y. right. right. apply I, Y. }
  assert (D : (exists t, s = str "--" ++ t /\ t <> []) \/ s = str "--" \/ (exists c t, s = str "-" ++ c :: t /\ c <> "-"%byte) \/ (hd_error s <> Some "-"%byte \/ s = str "-")).
  { destruct s as [|b [|c t]].
    - right. right. right. left. discriminate.
    - destruct (Byte.byte_eq_dec b "-"%byte) as [->|N]; [right; right; right; right; reflexivity | right; right; right; left; cbn; congruence].
    - destruct (Byte.byte_eq_dec b "-"%byte) as [->|N]; [|right; right; right; left; cbn; congruence].
      destruct (Byte.byte_eq_dec c "-"%byte) as [->|N]; [|right; right; left; exists c, t; auto].
      destruct t as [|d t]; [right; left; reflexivity | left; exists (d :: t); split; [reflexivity | discriminate]]. }
  destruct D as [(t & -> & T)|[->|[(c & t & -> & C)|D]]].
  - rewrite args_long in H by exact T. exact (ACT _ (long_named fs t) H).
  - cbn in H. injection H as <- <-. split; [constructor | intros y Y; right; exact Y].
  - rewrite args_short in H by exact C. exact (ACT _ (short_named fs (c :: t) (str "-")) H).
  - apply (eq_trans (eq_sym (args_other fs s rest D))) in H. destruct (parse_args fs rest) as [[m a']|] eqn:P; [|discriminate]. injection H as <- <-. destruct (O m a' eq_refl) as [F I].
    split; [exact F|]. intros y [<-|Y]; [left; reflexivity | right; apply I, Y].
Qed.

(** ** Commands *)
Lemma setting_in l n v : setting l n = Some v -> In (n, v) l.
Proof.
  unfold setting. destruct (find _ (rev l)) as [[m u]|] eqn:F; [|discriminate]. intro H. injection H as <-. apply find_some in F as [I E].
  apply beqs_spec in E. cbn in E. subst m. apply in_rev, I.
Qed.
Lemma string_stands fs args l n d s : Forall (named fs args) l -> get_string l n d = s -> s = d \/ stands_in args s.
Proof.
  intros F H. unfold get_string in H. destruct (setting l n) as [[|z|t]|] eqn:E; try (left; congruence). subst t. right.
  apply setting_in in E. rewrite Forall_forall in F. exact (F _ E).
Qed.
Lemma bool_stands fs args l (n : string) : Forall (named fs args) l -> forallb (fun f => negb (beqs (fl_name f) (str n)) || is_nil (match fl_short f with Some b => [b] | None => [] end)) fs = true ->
  get_bool l (str n) = true -> option_in args n.
Proof.
  intros F S H. unfold get_bool in H. destruct (setting l (str n)) as [[b|z|t]|] eqn:E; try discriminate. subst b.
  apply setting_in in E. rewrite Forall_forall in F. destruct (F _ E) as [O|(f & b & I & N & SH)]; [exact O|].
  rewrite forallb_forall in S. specialize (S f I). cbn [fst] in N. rewrite N, beqs_refl, SH in S. discriminate.
Qed.
Lemma int_stands fs args l (n : string) d z : Forall (named fs args) l -> forallb (fun f => negb (beqs (fl_name f) (str n)) || is_nil (match fl_short f with Some b => [b] | None => [] end)) fs = true ->
  get_int l (str n) d = z -> z = d \/ option_in args n.
Proof.
  intros F S H. unfold get_int in H. destruct (setting l (str n)) as [[b|z'|t]|] eqn:E; try (left; congruence). subst z'. right.
  apply setting_in in E. rewrite Forall_forall in F. destruct (F _ E) as [O|(f & b & I & N & SH)]; [exact O|].
  rewrite forallb_forall in S. specialize (S f I). cbn [fst] in N. rewrite N, beqs_refl, SH in S. discriminate.
Qed.
Lemma minus_in x args : incl (minus_first x args) args.
Proof.
  induction args as [|a args IH]; [intros y []|]. cbn [minus_first]. destruct (beqs x a); intros y Y; [right; exact Y|].
  destruct Y as [<-|Y]; [left; reflexivity | right; apply IH, Y].
Qed.
Lemma strip_in fs : forall k args, (length args <= k)%nat -> incl (strip_flags fs args) args.
Proof.
  induction k as [|k IH]; intros [|s rest] L; try (cbn in L; lia); try (intros y []).
  intros y. cbn [strip_flags]. destruct (beqs s (str "--")); [intros []|]. destruct (takes_next fs s).
  - destruct rest as [|v [|u rest]]; try (intros []). intro Y. right. right. apply (IH (u :: rest)); [cbn in *; lia | exact Y].
  - assert (In y (strip_flags fs rest) -> In y (s :: rest)) as K by (intro Y; right; apply (IH rest); [cbn in L; lia | exact Y]).
    assert (In y (s :: strip_flags fs rest) -> In y (s :: rest)) as K' by (intros [<-|Y]; [left; reflexivity | exact (K Y)]).
    destruct s as [|b s]; [exact K|]. destruct b; first [exact K' | exact K].
Qed.
Lemma next_names x c : find_next x = Some c -> exists p, In p sub_commands /\ snd p = c /\ In x (fst p).
Proof.
  unfold find_next. destruct (find _ sub_commands) as [p|] eqn:F; [|discriminate]. intro H. injection H as <-. apply find_some in F as [I E].
  apply existsb_exists in E as (y & Iy & E). apply beqs_spec in E. subst y. exists p. auto.
Qed.

Lemma url_page user i u : page_url user (N.of_nat i) = Some u -> page_request user i u.
Proof. intro H. destruct (C58_page user _ u H) as (p & q & ps & path & E1 & E2 & E3 & _ & E4 & E5). exists p, q, ps. auto. Qed.
Lemma url_profile user u : profile_url user = Some u -> profile_request user u.
Proof. intro H. destruct (C58_profile user u H) as (p & path & E1 & E2 & E3 & _ & E4). exists p. auto. Qed.
Lemma loop_pages G user text m : forall i, exists n, Forall2 (page_request user) (seq i n) (snd (pages_loop G user text m (N.of_nat i))).
Proof.
  induction m as [|m IH]; intro i; [exists O; constructor|]. cbn [pages_loop].
  destruct (page_url user (N.of_nat i)) as [u|] eqn:P; [|exists O; constructor]. apply url_page in P.
  assert (exists n, Forall2 (page_request user) (seq i n) [u]) as K by (exists 1%nat; constructor; [exact P | constructor]).
  destruct (g_page G u) as [|l]; [exact K|]. destruct (find_key G text l); [exact K|]. destruct (_ <? _)%N; [exact K|].
  destruct (IH (S i)) as [n E]. exists (S n). replace (N.of_nat i + 1)%N with (N.of_nat (S i)) by lia.
  destruct (pages_loop G user text m (N.of_nat (S i))) as [r us]. cbn [snd seq] in *. constructor; assumption.
Qed.
Lemma hkp_request args user host port (secure : bool) : (secure = true -> option_in args "secure") ->
  key_request args user host port (url_string (fetch_url (mkServer (if secure then HKPS else HKP) host port) user)).
Proof.
  intro S. set (sv := mkServer (if secure then HKPS else HKP) host port). destruct (C45_query sv user) as (p & q & E1 & E2 & E3).
  destruct (C45_only_the_query sv user user) as (p1 & p2 & F1 & _ & _ & _ & F2 & _ & F3 & _). rewrite E1 in F1. injection F1 as <-.
  exists p, q. split; [exact E1|]. split.
  - rewrite fetch_parts in E1. injection E1 as <-. cbn [p_scheme]. unfold sv. destruct secure; [right; split; [reflexivity | auto] | left; reflexivity].
  - split; [|auto]. intro H. destruct (C45_server (if secure then HKPS else HKP) host port user H) as (p3 & G1 & _ & G2). unfold sv in E1. rewrite E1 in G1. injection G1 as <-. exact G2.
Qed.

Definition names_of (c : cmd) : list string :=
  match c with MHkp => ["hkp"; "h"] | MGithub => ["github"; "gh"; "g"] | MFetch => ["fetch"; "fch"; "f"] | _ => [] end%string.
Lemma cmd_reach w args args' c : incl args' args -> (names_of c <> [] -> one_of args (names_of c)) -> may_reach args (reaches w (snd (run_cmd c args'))).
Proof.
  intros SUB NM. unfold run_cmd. destruct (parse_args (parse_flags c) args') as [[l a]|] eqn:P; [|constructor]. cbn [snd].
  destruct (parse_named _ (length args') args' l a (le_n _) P) as [F I].
  assert (Forall (named (parse_flags c) args) l) as F'. { revert F. apply Forall_impl. intro. apply named_incl, SUB. } clear F.
  assert (forall x, In x a -> In x args) as I' by auto. unfold command_of. destruct (get_bool l (str "help")); [constructor|]. destruct c; try constructor.
  - cbn [reaches]. destruct (get_bool l (str "version")); [constructor|].
    destruct (get_bool l (str "clipboard")) eqn:CB; destruct (get_string l (str "file") []) as [|b f] eqn:FL; cbn [andb negb is_nil]; try constructor.
    + exact (bool_stands _ _ _ "clipboard" F' eq_refl CB).
    + discriminate.
    + destruct (string_stands _ _ _ _ _ _ F' FL) as [E|E]; [discriminate | exact E].
  - cbn [reaches]. destruct a as [|user [|]]; try constructor. destruct (is_nil _) eqn:KS; [constructor|]. unfold server_new. cbn [fold_left server_set sv_host sv_port sv_prt ].
    eapply reach_key_server; [apply NM; discriminate | apply I'; left; reflexivity | | |].
    + destruct (string_stands _ _ _ (str "keyserver") (str "keys.gnupg.net") _ F' eq_refl) as [E|E]; [left; exact E | right; exact E].
    + exact (int_stands _ _ _ "port" _ _ F' eq_refl eq_refl).
    + apply hkp_request. exact (bool_stands _ _ _ "secure" F' eq_refl).
  - cbn [reaches]. destruct a as [|user [|]]; try constructor. assert (In user args) as U by (apply I'; left; reflexivity). unfold get_key.
    destruct (is_nil _).
    + destruct (profile_url user) as [u|] eqn:PU; [|constructor]. apply (reach_profile _ user); [apply NM; discriminate | exact U | exact (url_profile _ _ PU)].
    + destruct (loop_pages (w_gh w) user (get_string l (str "keyid") []) (w_gh_pages w) 1) as [n E].
      apply (reach_pages _ user n); [apply NM; discriminate | exact U | exact E].
  - cbn [reaches]. destruct a as [|u [|]]; try apply reach_nothing. apply reach_web; [apply NM; discriminate | apply I'; left; reflexivity].
Qed.

Lemma names_found x c args : find_next x = Some c -> In x args -> names_of c <> [] -> one_of args (names_of c).
Proof.
  intros F I N. apply next_names in F as (p & P & <- & X). cbn [sub_commands In] in P.
  destruct P as [<-|[<-|[<-|[<-|[<-|[<-|[]]]]]]]; cbn [snd names_of] in *; try congruence; cbn [fst In] in X;
    repeat (destruct X as [<-|X]; [eexists; split; [|exact I]; cbn [In]; tauto|]); destruct X.
Qed.

(** Whatever the arguments: the command reaches for nothing; or for standard input; or for the file, the clipboard, the key server or the URL that an argument
    names; or for the profile or the first pages of the GitHub user whom an argument names. *)
Theorem C72_named : forall w args l, main_reaches w args = Some l -> may_reach args l.
Proof.
  intros w args l H. unfold main_reaches, cli in H. pose proof (strip_in (find_flags MRoot) (length args) args (le_n _)) as S.
  destruct (strip_flags (find_flags MRoot) args) as [|x r].
  - cbn [option_map] in H. injection H as <-. apply (cmd_reach w args args MRoot (incl_refl _)). intro N. destruct (N eq_refl).
  - destruct (is_complete x); [discriminate|]. destruct (find_next x) as [c|] eqn:F; cbn [option_map] in H; injection H as <-; [|constructor].
    apply cmd_reach; [apply minus_in|]. apply (names_found x); [exact F | apply S; left; reflexivity].
Qed.
Print Assumptions C72_named.
(** The command asks for the first page of keys. *)
Example C72_named_used : exists w l, main_reaches w [str "-u"; str "github"; str "--keyid=0123456789ABCDEF"; str "bob"] = Some l /\
  l = [Requests (str "https://api.github.com/users/bob/gpg_keys?page=1&per_page=100")] /\ (2 <= w_gh_pages w)%nat.
Proof.
  exists (mkWorld (w_env (world0 (mkStream [] true))) (mkStream [] true) (fun _ => None) None (fun _ => None) (mkGh (fun _ => GErr) (fun _ => None) (fun n => n) (fun _ _ => false)) 2 (fun _ => []) (fun _ => []) None true).
  eexists. split; [vm_compute; reflexivity|]. split; [vm_compute; reflexivity | cbn; lia].
Qed.

(** Without the name of one of the three commands among the arguments, nothing is requested from the network. *)
Theorem C72_offline : forall w args l, ~ one_of args ["hkp"; "h"; "github"; "gh"; "g"; "fetch"; "fch"; "f"]%string ->
  main_reaches w args = Some l -> forall u, ~ In (Requests u) l.
Proof.
  intros w args l N H u. assert (forall names, incl names ["hkp"; "h"; "github"; "gh"; "g"; "fetch"; "fch"; "f"]%string -> ~ one_of args names) as K.
  { intros names S (n & I & A). apply N. exists n. auto. }
  destruct (C72_named w args l H) as [ | | f F S|O|us ho po u' O|us url O|us n urls O|url O]; cbn [In];
    try (intros [E|[]]; discriminate E); try (intros []); try (exfalso; revert O; apply K; intros x; cbn [In]; tauto).
Qed.
Print Assumptions C72_offline.
Example C72_offline_used : ~ one_of [str "--file=hkp"; str "-j"] ["hkp"; "h"; "github"; "gh"; "g"; "fetch"; "fch"; "f"]%string /\
  forall w, main_reaches w [str "--file=hkp"; str "-j"] = Some [Opens (str "hkp")].
Proof.
  split; [|reflexivity]. intros (n & I & A). cbn [In] in I. repeat (destruct I as [<-|I]; [destruct A as [A|[A|[]]]; discriminate A|]). destruct I.
Qed.

(** The commands version, completion and help, whatever follows them, reach for nothing; neither does a command line that asks for both
    the clipboard and a file. *)
Theorem C72_nothing : forall w x rest, In x ["version"; "ver"; "v"; "completion"; "compl"; "cmp"; "help"]%string -> main_reaches w (str x :: rest) = Some [].
Proof.
  intros w x rest I. unfold main_reaches, cli.
  assert (forall c args, In c [MVersion; MCompletion; MHelp] -> reaches w (snd (run_cmd c args)) = []) as K.
  { intros c args C. unfold run_cmd. destruct (parse_args _ _) as [[l a]|]; [|reflexivity]. cbn [snd]. unfold command_of. destruct (get_bool l (str "help")); [reflexivity|].
    destruct C as [<-|[<-|[<-|[]]]]; reflexivity. }
  assert (strip_flags (find_flags MRoot) (str x :: rest) = str x :: strip_flags (find_flags MRoot) rest /\ is_complete (str x) = false /\
    exists c, find_next (str x) = Some c /\ In c [MVersion; MCompletion; MHelp]) as (E1 & E2 & c & E3 & C).
  { cbn [In] in I. repeat (destruct I as [<-|I]; [split; [reflexivity|]; split; [reflexivity|]; eexists; split; [reflexivity | cbn [In]; tauto]|]). destruct I. }
  rewrite E1, E2, E3. cbn [option_map]. rewrite (K c _ C). reflexivity.
Qed.
Print Assumptions C72_nothing.
Theorem C72_both : forall w file, file <> [] -> main_reaches w [str "--clipboard"; str "--file"; file] = Some [].
Proof. intros w [|b f] N; [congruence|]. reflexivity. Qed.
Print Assumptions C72_both.
Theorem C72_bare : forall w, main_reaches w [] = Some [Reads_stdin].
Proof. reflexivity. Qed.
Print Assumptions C72_bare.

(** The GitHub command talks to GitHub only, over https. *)
Theorem C72_github : forall w x rest l u, In x ["github"; "gh"; "g"]%string -> main_reaches w (str x :: rest) = Some l -> In (Requests u) l ->
  exists p, url_parts u = Some p /\ p_scheme p = str "https" /\ In (p_authority p) [str "github.com"; str "api.github.com"].
Proof.
  intros w x rest l u I H R. unfold main_reaches, cli in H.
  assert (strip_flags (find_flags MRoot) (str x :: rest) = str x :: strip_flags (find_flags MRoot) rest /\ is_complete (str x) = false /\ find_next (str x) = Some MGithub) as (E1 & E2 & E3).
  { cbn [In] in I. repeat (destruct I as [<-|I]; [repeat split|]). destruct I. }
  rewrite E1, E2, E3 in H. cbn [option_map] in H. injection H as <-. revert R. generalize (minus_first (str x) (str x :: rest)). intros args R. unfold run_cmd in R.
  destruct (parse_args _ _) as [[s a]|]; [|destruct R]. cbn [snd] in R. unfold command_of in R. destruct (get_bool s (str "help")); [destruct R|].
  cbn [reaches] in R. destruct a as [|user [|]]; try destruct R. apply in_map_iff in R as (v & E & R). injection E as ->.
  apply C58_requests in R as (p & P & S & A). exists p. split; [exact P|]. split; [exact S|]. rewrite A. destruct (is_nil _); cbn [In]; tauto.
Qed.
Print Assumptions C72_github.

(** ** Nothing else matters *)
Section Frame.
Variables (w w' : world).
Hypothesis IN : same_inside w w'.
Let G := w_gh w.
Let G' := w_gh w'.
Lemma frame_put out s : put w out s = put w' out s.
Proof. destruct IN as (_ & _ & _ & _ & R & _). unfold put. rewrite R. reflexivity. Qed.
Lemma frame_write src out : write_from w src out = write_from w' src out.
Proof. unfold write_from. rewrite frame_put. reflexivity. Qed.
Lemma frame_dump fl o src : dump fl w o src = dump fl w' o src.
Proof.
  destruct IN as (E & _). unfold dump. rewrite E. destruct (parse_stream o (w_env w') src) as [i [[]|e| |]]; try reflexivity.
  destruct (marshal fl i); try reflexivity. apply frame_write.
Qed.
Lemma frame_answer fl o raw src : answer fl w o raw src = answer fl w' o raw src.
Proof. unfold answer. rewrite frame_write, frame_dump. reflexivity. Qed.
Lemma frame_debug d s : debug_print w d s = debug_print w' d s.
Proof. destruct IN as (_ & _ & E & _). destruct s as [[[]|e| |] out]; try reflexivity. cbn. destruct d; [|reflexivity]. rewrite frame_put, E. reflexivity. Qed.
Lemma frame_fold a b : equal_fold G a b = equal_fold G' a b.
Proof.
  destruct IN as (_ & _ & _ & _ & _ & _ & _ & F). unfold equal_fold. generalize (runes a), (runes b). clear a b.
  intro a. induction a as [|x a IH]; intros [|y b]; try reflexivity. cbn [equal_fold_runes]. rewrite IH. f_equal. unfold rune_fold, G, G'. rewrite F. reflexivity.
Qed.
Lemma frame_lower s : gh_lower G s = gh_lower G' s.
Proof. destruct IN as (_ & _ & _ & _ & _ & _ & L & _). unfold gh_lower, G, G'. rewrite L. reflexivity. Qed.
Lemma frame_find id l : find_key G id l = find_key G' id l.
Proof. induction l as [|[k|] l IH]; try reflexivity. cbn [find_key]. unfold id_matches. rewrite frame_lower, frame_fold, IH. reflexivity. Qed.
Lemma frame_loop user id m : forall i, Forall (same_there w w') (map Requests (snd (pages_loop G user id m i))) -> pages_loop G user id m i = pages_loop G' user id m i.
Proof.
  induction m as [|m IH]; intros i H; [reflexivity|]. cbn [pages_loop] in *. destruct (page_url user i) as [u|]; [|reflexivity].
  assert (g_page G u = g_page G' u) as E.
  { assert (same_there w w' (Requests u)) as S; [|exact (proj1 (proj2 S))].
    destruct (g_page G u) as [|l]; [exact (Forall_inv H)|]. destruct (find_key G id l); [exact (Forall_inv H)|]. destruct (_ <? _)%N; [exact (Forall_inv H)|].
    destruct (pages_loop G user id m (i + 1)). exact (Forall_inv H). }
  rewrite <- E. destruct (g_page G u) as [|l]; [reflexivity|]. rewrite <- frame_find. destruct (find_key G id l); [reflexivity|].
  destruct (_ <? _)%N; [reflexivity|]. specialize (IH (i + 1)%N). destruct (pages_loop G user id m (i + 1)) as [r us].
  cbn [snd map] in *. apply Forall_inv_tail in H. rewrite <- (IH H). reflexivity.
Qed.
Lemma frame_key user id m : Forall (same_there w w') (map Requests (snd (get_key G user id m))) -> get_key G user id m = get_key G' user id m.
Proof.
  unfold get_key. destruct (is_nil id); [|apply frame_loop]. destruct (profile_url user) as [u|]; [|reflexivity]. intro H.
  destruct (Forall_inv H) as (_ & _ & E). fold G G' in E. rewrite E. reflexivity.
Qed.
Lemma frame_run fl c : Forall (same_there w w') (reaches w c) -> run fl w c = run fl w' c /\ reaches w c = reaches w' c.
Proof.
  pose proof IN as (_ & P & _ & S & _ & T & _). intro H. destruct c as [[] cb file| |args ks port secure raw|args keyid raw|args raw|args| |]; cbn [run reaches]; rewrite ?T; auto.
  - split; [|reflexivity]. rewrite frame_debug. f_equal. unfold run_root. cbn [reaches] in H. destruct (cb && negb (is_nil file)); [reflexivity|].
    destruct cb; [|destruct (is_nil file)]; cbn [negb] in *; pose proof (Forall_inv H) as E; cbn [same_there] in E; rewrite <- E.
    + destruct (w_clip w); [apply frame_dump | reflexivity].
    + apply frame_dump.
    + destruct (w_open w file); [apply frame_dump | reflexivity].
  - split; [|reflexivity]. rewrite frame_debug. f_equal. unfold run_hkp. destruct args as [|user [|]]; try reflexivity. cbn [reaches] in H. destruct (is_nil ks); [reflexivity|].
    destruct (Forall_inv H) as [E _]. rewrite <- E. destruct (w_get w _); [apply frame_answer | reflexivity].
  - rewrite frame_debug. unfold run_github. destruct args as [|user [|]]; try (split; reflexivity). cbn [reaches] in H. pose proof (frame_key _ _ _ H) as E. fold G G'.
    rewrite <- P, <- E. split; [|reflexivity]. f_equal. fold G. destruct (fst (get_key G user keyid (w_gh_pages w))); try reflexivity. apply frame_answer.
  - split; [|reflexivity]. rewrite frame_debug. f_equal. unfold run_fetch. destruct args as [|u [|]]; try reflexivity. cbn [reaches] in H.
    destruct (Forall_inv H) as [E _]. rewrite <- E. destruct (w_get w _); [apply frame_answer | reflexivity].
  - split; [|reflexivity]. unfold run_completion. rewrite <- S. destruct args as [|x [|]]; rewrite ?frame_write; try reflexivity. fold G G'.
    rewrite !frame_fold. reflexivity.
Qed.
End Frame.

(** Exit code and standard output depend on nothing outside but what was reached for: in a world that is the same there, however different
    the rest of it, the command does the same. *)
Theorem C72_frame : forall w w' args l, same_inside w w' -> main_reaches w args = Some l -> Forall (same_there w w') l ->
  main w' args = main w args /\ main_reaches w' args = Some l.
Proof.
  intros w w' args l I H F. unfold main, main_reaches, execute in *. destruct (cli args) as [[fl c]|]; [|discriminate]. cbn [option_map fst snd] in *. injection H as <-.
  destruct (frame_run w w' I fl c F) as [E1 E2]. rewrite E1, E2. auto.
Qed.
Print Assumptions C72_frame.
(** Two worlds with different standard inputs and clipboards, and the same one file. *)
Example C72_frame_used : let w := world0 (mkStream [] true) in
  let w' := mkWorld (w_env w) (mkStream [x00] false) (fun f => if beqs f (str "a") then w_open w f else None) (Some (str "x")) (fun _ => None) (w_gh w) (w_gh_pages w) (w_error w) (w_script w) (w_room w) (w_stderr w) in
  same_inside w w' /\ main_reaches w [str "-fa"] = Some [Opens (str "a")] /\ Forall (same_there w w') [Opens (str "a")] /\ w_stdin w <> w_stdin w'.
Proof. cbn zeta. split; [repeat split|]. split; [reflexivity|]. split; [repeat constructor | discriminate]. Qed.
Example C72_github_used : exists w l u, main_reaches w [str "g"; str "bob"] = Some l /\ In (Requests u) l.
Proof. exists (world0 (mkStream [] true)). eexists. eexists. split; [vm_compute; reflexivity | left; reflexivity]. Qed.
(** What is reached for does not depend on what is found there: only the number of GitHub's pages does. *)
Theorem C72_contents : forall w w' args, ~ one_of args ["github"; "gh"; "g"]%string -> main_reaches w args = main_reaches w' args.
Proof.
  intros w w' args N. unfold main_reaches, cli.
  assert (forall c l, c <> MGithub -> reaches w (snd (run_cmd c l)) = reaches w' (snd (run_cmd c l))) as K.
  { intros c l C. unfold run_cmd. destruct (parse_args _ _) as [[s a]|]; [|reflexivity]. cbn [snd]. unfold command_of. destruct (get_bool s (str "help")); [reflexivity|].
    destruct c; reflexivity || congruence. }
  pose proof (strip_in (find_flags MRoot) (length args) args (le_n _)) as S. destruct (strip_flags (find_flags MRoot) args) as [|x r].
  - cbn [option_map]. rewrite (K MRoot args) by discriminate. reflexivity.
  - destruct (is_complete x); [reflexivity|]. destruct (find_next x) as [c|] eqn:F; [|reflexivity]. cbn [option_map]. rewrite (K c); [reflexivity|].
    intros ->. apply N. apply (names_found x MGithub args F); [apply S; left; reflexivity | discriminate].
Qed.
Print Assumptions C72_contents.
Example C72_contents_used : ~ one_of [str "hkp"; str "bob"] ["github"; "gh"; "g"]%string.
Proof. intros (n & I & A). cbn [In] in I. repeat (destruct I as [<-|I]; [destruct A as [A|[A|[]]]; discriminate A|]). destruct I. Qed.
