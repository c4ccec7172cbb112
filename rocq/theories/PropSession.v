(** * PropSession: parsers and contexts in use together (C60, C61). *)
From Coq Require Import Strings.String Strings.Byte List NArith ZArith Bool Arith Lia ZifyBool ZifyN ZifyNat.
From Verif Require Import Base Item Context Env Opaque Tags Parse Session SpecBase SpecFrame SpecSession BaseL FrameL FramingL PropFrame PropState SessionL SpecTime SpecNest SpecParse SpecHistory HistoryL PropHistory Witness.
Import ListNotations.

Lemma put_same {A} k (v : A) m : put k v m k = Some v.
Proof. unfold put. rewrite Nat.eqb_refl. reflexivity. Qed.
Lemma put_other {A} k n (v : A) m : n <> k -> put k v m n = m n.
Proof. intro H. unfold put. apply Nat.eqb_neq in H. rewrite H. reflexivity. Qed.

Lemma calls_app E l1 : forall l2 h, do_calls E (l1 ++ l2) h = do_calls E l2 (do_calls E l1 h).
Proof. induction l1 as [|c l1 IH]; intros l2 h; [reflexivity | apply IH]. Qed.

(** ** Parsers with contexts of their own do not influence each other *)

Record alike (p x : nat) (h h' : heap) : Prop := mkAlike {
  al_ctx : h_ctx h x = h_ctx h' x;
  al_par : h_par h p = h_par h' p;
  al_own : forall q o, h_par h q = Some o -> (q = p <-> p_ctx o = x)
}.

Lemma alike_about E p x c h h' : alike p x h h' -> (forall q y src, c = NewParser q y src -> (q = p <-> y = x)) -> about p x c = true ->
  alike p x (snd (do_call E c h)) (snd (do_call E c h')) /\ fst (do_call E c h) = fst (do_call E c h').
Proof.
  intros [A1 A2 A3] U B. destruct c as [y l|y code f|q y src|q]; cbn [about] in B; apply Nat.eqb_eq in B; subst; cbn [do_call].
  - rewrite <- A1. destruct (h_ctx h x) eqn:HC; cbn [fst snd]; (split; [|reflexivity]); constructor; cbn [h_ctx h_par]; rewrite ?put_same; auto; congruence.
  - rewrite <- A1. destruct (h_ctx h x) eqn:HC; cbn [fst snd]; (split; [|reflexivity]); constructor; cbn [h_ctx h_par]; rewrite ?put_same; auto; congruence.
  - assert (y = x) as -> by (apply (U p y src eq_refl); reflexivity).
    rewrite <- A2, <- A1. destruct (h_par h p) eqn:HP; [split; [constructor|]; cbn [fst snd]; auto; congruence|]. destruct (h_ctx h x) eqn:HC; [|split; [constructor|]; cbn [fst snd]; auto; congruence].
    destruct (parse_new (x_opts c) E src) as [k|e| |]; cbn [fst snd]; (split; [constructor|]); auto; try congruence; cbn [h_ctx h_par].
    + congruence.
    + rewrite !put_same. reflexivity.
    + intros q o. destruct (Nat.eq_dec q p) as [->|N]; [rewrite put_same; intros [= <-]; cbn; tauto | rewrite put_other by exact N; apply A3].
  - rewrite <- A2. destruct (h_par h p) as [q|] eqn:HP; [|split; [constructor|]; cbn [fst snd]; auto; congruence].
    assert (p_ctx q = x) as -> by (apply (A3 p q HP); reflexivity). rewrite <- A1.
    destruct (h_ctx h x) as [c|] eqn:HC; [|split; [constructor|]; cbn [fst snd]; auto; congruence].
    destruct (parse_run (x_opts c) E (S (chunks_len (p_src q))) (p_src q) (x_cst c) (p_info q)) as [[l r] [k cs]]. cbn [fst snd].
    split; [|reflexivity]. constructor; cbn [h_ctx h_par]; rewrite ?put_same; auto.
    intros q' o. destruct (Nat.eq_dec q' p) as [->|N]; [rewrite put_same; intros [= <-]; cbn; tauto | rewrite put_other by exact N; apply A3].
Qed.

Lemma alike_other E p x c h h' : alike p x h h' -> (forall q y src, c = NewParser q y src -> (q = p <-> y = x)) -> about p x c = false ->
  alike p x (snd (do_call E c h)) h'.
Proof.
  intros [A1 A2 A3] U B. destruct c as [y l|y code f|q y src|q]; cbn [about] in B; apply Nat.eqb_neq in B; cbn [do_call].
  - destruct (h_ctx h y); constructor; cbn [snd h_ctx h_par]; auto. rewrite put_other by auto. exact A1.
  - destruct (h_ctx h y); constructor; cbn [snd h_ctx h_par]; auto. rewrite put_other by auto. exact A1.
  - destruct (h_par h q) eqn:HQ; [constructor; auto|]. destruct (h_ctx h y) as [c|]; [|constructor; auto].
    destruct (parse_new (x_opts c) E src) as [k|e| |]; constructor; cbn [snd h_ctx h_par]; auto.
    + rewrite put_other by auto. exact A2.
    + intros q' o. destruct (Nat.eq_dec q' q) as [->|N]; [rewrite put_same; intros [= <-]; cbn; apply (U q y src eq_refl) | rewrite put_other by exact N; apply A3].
  - destruct (h_par h q) as [o|] eqn:HQ; [|constructor; auto]. destruct (h_ctx h (p_ctx o)) as [c|] eqn:HC; [|constructor; auto].
    assert (p_ctx o <> x) as NX by (intro X; apply B, (A3 q o HQ), X).
    destruct (parse_run (x_opts c) E (S (chunks_len (p_src o))) (p_src o) (x_cst c) (p_info o)) as [[l r] [k cs]].
    constructor; cbn [snd h_ctx h_par]; rewrite ?put_other by auto; auto.
    intros q' o'. destruct (Nat.eq_dec q' q) as [->|N]; [rewrite put_same; intros [= <-]; cbn; apply (A3 q o HQ) | rewrite put_other by exact N; apply A3].
Qed.

Lemma alike_calls E p x calls : only_user p x calls -> forall h h', alike p x h h' ->
  alike p x (do_calls E calls h) (do_calls E (filter (about p x) calls) h').
Proof.
  induction calls as [|c calls IH]; intros U h h' A; [exact A|]. cbn [filter].
  assert (forall q y src, c = NewParser q y src -> (q = p <-> y = x)) as Uc by (intros q y src ->; apply (U q y src); left; reflexivity).
  assert (only_user p x calls) as U' by (intros q y src H; apply (U q y src); right; exact H).
  destruct (about p x c) eqn:B; cbn [do_calls].
  - apply IH; [exact U' | apply alike_about; assumption].
  - apply IH; [exact U' | apply alike_other; assumption].
Qed.

(** C60.  Whatever calls are made in between, on other contexts and parsers, in whatever order: a parser whose context no other
    parser uses returns what it returns when only the calls on itself and on its context are made. *)
Theorem C60_isolated : forall E calls p x, only_user p x calls ->
  answers E calls (CallParse p) = answers E (filter (about p x) calls) (CallParse p).
Proof.
  intros E calls p x U. unfold answers. apply (alike_about E p x).
  - apply alike_calls; [exact U|]. constructor; auto. discriminate.
  - discriminate.
  - cbn. apply Nat.eqb_refl.
Qed.
Print Assumptions C60_isolated.

Lemma sets_calls E x s : forall h c, h_ctx h x = Some c ->
  h_par (do_calls E (sets x s) h) = h_par h /\
  h_ctx (do_calls E (sets x s) h) x = Some (mkCtx (fold_left (fun o p => o_set (fst p) (snd p) o) s (x_opts c)) (x_cst c)).
Proof.
  induction s as [|[code f] s IH]; intros h c H; cbn [sets map do_calls fold_left]; [split; [reflexivity|]; rewrite H; destruct c; reflexivity|].
  cbn [do_call fst snd]. rewrite H. cbn [snd].
  match goal with |- context [do_calls E _ ?h1] => destruct (IH h1 (mkCtx (o_set code f (x_opts c)) (x_cst c)) (put_same _ _ _)) as [P C] end.
  unfold sets in P, C. rewrite P, C. split; reflexivity.
Qed.

(** C60.  What it returns is what parse.New followed by Parse gives with a new context: ARMOR as it was set when the parser was
    made, the other options as they were set when Parse was called. *)
Theorem C60_alone : forall E calls p x l s1 s2 src k, only_user p x calls ->
  filter (about p x) calls = NewContext x l :: sets x s1 ++ NewParser p x src :: sets x s2 ->
  parse_new (o_new (l ++ s1)) E src = ROk k ->
  answers E calls (CallParse p) = let '(items, r) := parse_chunks (o_new (l ++ s1 ++ s2)) E k in Parsed items r.
Proof.
  intros E calls p x l s1 s2 src k U F N. rewrite (C60_isolated E calls p x U), F. unfold answers. cbn [do_calls do_call h_ctx heap0 snd].
  rewrite calls_app. cbn [do_calls].
  set (h1 := mkHeap (put x (mkCtx (o_new l) cst_init) (fun _ => None)) (h_par heap0)).
  destruct (sets_calls E x s1 h1 (mkCtx (o_new l) cst_init)) as [P1 C1]; [apply put_same|]. cbn [x_opts x_cst] in C1.
  set (h2 := do_calls E (sets x s1) h1) in *. cbn [do_call]. rewrite P1, C1. cbn [h_par h1 heap0].
  replace (x_opts _) with (o_new (l ++ s1)) by (unfold o_new; rewrite fold_left_app; reflexivity). rewrite N. cbn [snd].
  match goal with |- context [do_calls E (sets x s2) ?h] => set (h3 := h) end.
  destruct (sets_calls E x s2 h3 (mkCtx (o_new (l ++ s1)) cst_init)) as [P3 C3].
  { cbn [h3 h_ctx]. rewrite C1. unfold o_new. rewrite fold_left_app. reflexivity. }
  rewrite P3. cbn [h3 h_par]. rewrite put_same. cbn [p_ctx p_src p_info]. rewrite C3. cbn [x_opts x_cst].
  assert (fold_left (fun o p => o_set (fst p) (snd p) o) s2 (o_new (l ++ s1)) = o_new (l ++ s1 ++ s2)) as ->
    by (unfold o_new; rewrite !fold_left_app; reflexivity).
  unfold parse_chunks. rewrite <- run_loop.
  destruct (parse_run (o_new (l ++ s1 ++ s2)) E (S (chunks_len k)) k cst_init []) as [[items r] [k' cs']]. reflexivity.
Qed.
Print Assumptions C60_alone.

(** Two parsers with a context each, their calls mixed; one context is changed on the way. *)
Definition mixed : list call :=
  [NewContext 0 [(INTEGER, true)]; NewContext 1 []; NewParser 1 1 (mkStream [xb4; x01; x41] true); SetOption 1 DEBUG true;
   NewParser 0 0 (mkStream [xca; x03; x50; x47; x50] true); CallParse 1; SetOption 0 MARKER true].
Example C60_alone_used : only_user 0 0 mixed /\
  filter (about 0 0) mixed = NewContext 0 [(INTEGER, true)] :: sets 0 [] ++ NewParser 0 0 (mkStream [xca; x03; x50; x47; x50] true) :: sets 0 [(MARKER, true)] /\
  answers env0 mixed (CallParse 0) = Parsed (fst (parse_bytes (o_new [(INTEGER, true); (MARKER, true)]) env0 [xca; x03; x50; x47; x50])) (ROk tt).
Proof.
  split; [|split; [reflexivity | vm_compute; reflexivity]].
  intros q y src H. cbn in H. repeat destruct H as [H|H]; try discriminate H; try contradiction; inversion H; subst; split; congruence.
Qed.

(** ** Parse called again *)

Record heap_ok (h : heap) : Prop := mkOk {
  ok_pieces : forall p q, h_par h p = Some q -> pieces_ok (p_src q)
}.
Lemma call_ok E c h : heap_ok h -> heap_ok (snd (do_call E c h)).
Proof.
  intros [O]. destruct c as [y l|y code f|q y src|q]; cbn [do_call].
  - destruct (h_ctx h y); constructor; exact O.
  - destruct (h_ctx h y); constructor; exact O.
  - destruct (h_par h q) eqn:HQ; [constructor; exact O|]. destruct (h_ctx h y) as [c|]; [|constructor; exact O].
    destruct (parse_new (x_opts c) E src) as [k|e| |] eqn:N; constructor; try exact O. cbn [snd h_par].
    intros p o. destruct (Nat.eq_dec p q) as [->|M]; [rewrite put_same; intros [= <-]; cbn; apply (parse_new_pieces _ _ _ _ N) | rewrite put_other by exact M; apply O].
  - destruct (h_par h q) as [o|] eqn:HQ; [|constructor; exact O]. destruct (h_ctx h (p_ctx o)) as [c|]; [|constructor; exact O].
    pose proof (run_left (x_opts c) E (k_ok (p_src o)) (S (chunks_len (p_src o))) (p_src o) (x_cst c) (p_info o) (conj (O q o HQ) eq_refl)) as R.
    destruct (parse_run (x_opts c) E (S (chunks_len (p_src o))) (p_src o) (x_cst c) (p_info o)) as [[l r] [k cs]]. destruct R as ([R _] & _).
    constructor. cbn [snd h_par]. intros p o'. destruct (Nat.eq_dec p q) as [->|M]; [rewrite put_same; intros [= <-]; exact R | rewrite put_other by exact M; apply O].
Qed.
Lemma calls_ok E calls : forall h, heap_ok h -> heap_ok (do_calls E calls h).
Proof. induction calls as [|c l IH]; intros h O; [exact O | apply IH, call_ok, O]. Qed.
Lemma heap0_ok : heap_ok heap0.
Proof. constructor. discriminate. Qed.

(** The parser [p] is there, with a context, and has recorded at least [l]; [ended]: exactly [l], with nothing left to read. *)
Definition there (p : nat) (l : info) (ended : bool) (h : heap) : Prop :=
  exists q c, h_par h p = Some q /\ h_ctx h (p_ctx q) = Some c /\ (exists more, p_info q = l ++ more) /\
    (ended = true -> p_info q = l /\ c_inv true (p_src q) /\ c_data (p_src q) = []).

Lemma there_call E p l ended c h : heap_ok h -> there p l ended h -> there p l ended (snd (do_call E c h)).
Proof.
  intros [O] (q & x & HP & HC & HM & HE). destruct c as [y s|y code f|p' y src|p']; cbn [do_call].
  - destruct (h_ctx h y) eqn:HY; [exists q, x; auto|]. exists q, x. cbn [snd h_par h_ctx]. rewrite put_other by congruence. auto.
  - destruct (h_ctx h y) as [cy|] eqn:HY; [|exists q, x; auto]. cbn [snd].
    destruct (Nat.eq_dec (p_ctx q) y) as [<-|N]; [exists q; eexists | exists q, x]; cbn [h_par h_ctx]; rewrite ?put_same, ?put_other by exact N; auto.
  - destruct (h_par h p') eqn:HQ; [exists q, x; auto|]. destruct (h_ctx h y) as [cy|]; [|exists q, x; auto].
    destruct (parse_new (x_opts cy) E src); try (exists q, x; auto; fail). exists q, x. cbn [snd h_par h_ctx]. rewrite put_other by congruence. auto.
  - destruct (h_par h p') as [q'|] eqn:HQ; [|exists q, x; auto]. destruct (h_ctx h (p_ctx q')) as [cy|] eqn:HY; [|exists q, x; auto].
    pose proof (run_left (x_opts cy) E (k_ok (p_src q')) (S (chunks_len (p_src q'))) (p_src q') (x_cst cy) (p_info q') (conj (O p' q' HQ) eq_refl)) as R.
    destruct (parse_run (x_opts cy) E (S (chunks_len (p_src q'))) (p_src q') (x_cst cy) (p_info q')) as [[is r] [k cs]] eqn:PR.
    destruct R as (R1 & (more & ->) & _). cbn [snd]. unfold there. cbn [h_par h_ctx].
    assert (exists c', put (p_ctx q') (mkCtx (x_opts cy) cs) (h_ctx h) (p_ctx q) = Some c') as [c' HC'].
    { destruct (Nat.eq_dec (p_ctx q) (p_ctx q')) as [->|N]; [rewrite put_same | rewrite put_other by exact N]; eauto. }
    destruct (Nat.eq_dec p p') as [<-|N].
    + rewrite HP in HQ. injection HQ as <-. eexists _, c'. rewrite put_same. split; [reflexivity|]. cbn [p_ctx p_src p_info]. split; [exact HC'|].
      destruct HM as [m HM]. split; [exists (m ++ more); rewrite HM, app_assoc; reflexivity|]. intro X. destruct (HE X) as (H1 & H2 & H3).
      destruct (run_end (x_opts cy) E (chunks_len (p_src q)) (p_src q) (x_cst cy) (p_info q) H2 H3) as (k' & RE & I' & D'). rewrite RE in PR.
      assert (p_info q ++ more = l /\ k' = k) as [-> <-] by (injection PR as X1 X2 X3 X4; split; congruence). auto.
    + exists q, c'. rewrite put_other by exact N. auto.
Qed.
Lemma there_calls E p l ended calls : forall h, heap_ok h -> there p l ended h -> there p l ended (do_calls E calls h).
Proof. induction calls as [|c t IH]; intros h O T; [exact T | apply IH; [apply call_ok, O | apply there_call; assumption]]. Qed.

Lemma parsed_there E p h l r : heap_ok h -> fst (do_call E (CallParse p) h) = Parsed l r ->
  there p l (match r with ROk _ => true | _ => false end) (snd (do_call E (CallParse p) h)).
Proof.
  intros [O]. cbn [do_call]. destruct (h_par h p) as [q|] eqn:HP; [|discriminate]. destruct (h_ctx h (p_ctx q)) as [c|] eqn:HC; [|discriminate].
  pose proof (run_left (x_opts c) E (k_ok (p_src q)) (S (chunks_len (p_src q))) (p_src q) (x_cst c) (p_info q) (conj (O p q HP) eq_refl)) as R.
  destruct (parse_run (x_opts c) E (S (chunks_len (p_src q))) (p_src q) (x_cst c) (p_info q)) as [[is r'] [k cs]]. destruct R as (R1 & _ & R2).
  cbn [fst snd]. intros [= -> ->]. eexists _, _. cbn [h_par h_ctx]. rewrite put_same. split; [reflexivity|]. cbn [p_ctx p_src p_info].
  split; [apply put_same|]. split; [exists []; rewrite app_nil_r; reflexivity|].
  destruct r as [u|e| |]; try discriminate. intros _. destruct u. destruct (R2 eq_refl) as [D K]. rewrite K in R1. auto.
Qed.

(** C60.  Once Parse has succeeded, it returns the same packets and no error whenever it is called again, whatever has been done in
    between, with its context and with other parsers. *)
Theorem C60_again : forall E calls p l more, answers E calls (CallParse p) = Parsed l (ROk tt) ->
  answers E (calls ++ CallParse p :: more) (CallParse p) = Parsed l (ROk tt).
Proof.
  intros E calls p l more H. unfold answers in *. rewrite calls_app. cbn [do_calls].
  pose proof (calls_ok E calls heap0 heap0_ok) as O. pose proof (parsed_there E p _ l _ O H) as T.
  apply (there_calls E p l true more) in T; [|apply call_ok, O]. destruct T as (q & c & HP & HC & _ & HE). destruct (HE eq_refl) as (H1 & H2 & H3).
  set (h2 := do_calls E more _) in *. clearbody h2. cbn [do_call]. rewrite HP, HC.
  destruct (run_end (x_opts c) E (chunks_len (p_src q)) (p_src q) (x_cst c) (p_info q) H2 H3) as (k' & -> & _). rewrite H1. reflexivity.
Qed.
Print Assumptions C60_again.

(** C60.  The packets that Parse has returned once are returned first by every later call, after an error as well. *)
Theorem C60_grows : forall E calls p l r more l' r', answers E calls (CallParse p) = Parsed l r ->
  answers E (calls ++ CallParse p :: more) (CallParse p) = Parsed l' r' -> exists tail, l' = l ++ tail.
Proof.
  intros E calls p l r more l' r' H. unfold answers in *. rewrite calls_app. cbn [do_calls].
  pose proof (calls_ok E calls heap0 heap0_ok) as O. pose proof (parsed_there E p _ l r O H) as T.
  apply (there_calls E p l _ more) in T; [|apply call_ok, O]. pose proof (calls_ok E more _ (call_ok E (CallParse p) _ O)) as [O2].
  destruct T as (q & c & HP & HC & (m & HM) & _).
  set (h2 := do_calls E more _) in *. clearbody h2. cbn [do_call]. rewrite HP, HC.
  pose proof (run_left (x_opts c) E (k_ok (p_src q)) (S (chunks_len (p_src q))) (p_src q) (x_cst c) (p_info q) (conj (O2 p q HP) eq_refl)) as R.
  destruct (parse_run (x_opts c) E (S (chunks_len (p_src q))) (p_src q) (x_cst c) (p_info q)) as [[is r2] [k cs]]. destruct R as (_ & (m2 & ->) & _).
  cbn [fst]. intros [= <- <-]. exists (m ++ m2). rewrite HM, app_assoc. reflexivity.
Qed.
Print Assumptions C60_grows.

(** C60.  After a packet has failed, Parse called again goes on behind it: the first call returns the packets before it with the error, the
    second one adds what the packets behind it show, with the context as the failed packet has left it. *)
Theorem C60_resumes : forall E p x l src k ps w items tag body wp e ps2 w2,
  let o := o_new l in
  let start := [NewContext x l; NewParser p x src] in
  parse_new o E src = ROk k -> delivers k (w ++ wp ++ w2) ->
  packets_in ps w -> parse_list o E ps cst_init = (items, ROk tt) ->
  framed tag body wp -> fst (packets_parse o E tag body (list_state o E ps cst_init)) = RErr e -> input_of ps2 w2 ->
  let '(items2, r2) := parse_list o E ps2 (snd (packets_parse o E tag body (list_state o E ps cst_init))) in
  answers E start (CallParse p) = Parsed items (RErr e) /\
  answers E (start ++ [CallParse p]) (CallParse p) = Parsed (items ++ items2) r2.
Proof.
  intros E p x l src k ps w items tag body wp e ps2 w2 o start N D P H F HE I2. pose proof (delivers_inv _ _ D) as [IV DD].
  destruct (run_packets o E true ps w P (S (chunks_len k)) k cst_init [] (wp ++ w2) IV DD) as (k1 & f1 & D1 & I1 & L1 & R1).
  { rewrite chunks_len_data, DD. lia. } { rewrite H. reflexivity. }
  rewrite H in R1. cbn [fst app] in R1. destruct f1 as [|f1]; [lia|].
  remember (parse_run o E (S (chunks_len k)) k cst_init []) as run1 eqn:RUN1 in R1. cbn [parse_run] in R1.
  destruct (next_chunks_ok E true tag body wp w2 k1 F I1 D1) as (k2 & N2 & D2 & IV2). rewrite N2 in R1.
  destruct (packets_parse o E tag body (list_state o E ps cst_init)) as [r cs']. cbn [fst snd] in *. subst r. rewrite RUN1 in R1.
  assert (delivers k2 w2) as DL2 by (destruct IV2; split; [assumption | split; assumption]).
  destruct (run_input o E ps2 w2 k2 cs' items I2 DL2) as (k3 & cs3 & R3 & _).
  assert (forall more, do_calls E (start ++ more) heap0 = do_calls E more (mkHeap (put x (mkCtx o cst_init) (fun _ => None)) (put p (mkParser x k []) (fun _ => None)))) as ST.
  { intro more. unfold start. cbn [app do_calls do_call heap0 h_ctx h_par snd]. rewrite put_same. cbn [x_opts]. fold o. rewrite N. reflexivity. }
  assert (do_call E (CallParse p) (mkHeap (put x (mkCtx o cst_init) (fun _ => None)) (put p (mkParser x k []) (fun _ => None))) =
    (Parsed items (RErr e), mkHeap (put x (mkCtx o cs') (put x (mkCtx o cst_init) (fun _ => None))) (put p (mkParser x k2 items) (put p (mkParser x k []) (fun _ => None))))) as C1.
  { cbn [do_call h_par h_ctx]. rewrite put_same. cbn [p_ctx p_src p_info]. rewrite put_same. cbn [x_opts x_cst]. rewrite R1. reflexivity. }
  destruct (parse_list o E ps2 cs') as [items2 r2]. cbn [fst snd] in R3. unfold answers. split.
  - rewrite <- (app_nil_r start), ST. cbn [do_calls]. rewrite C1. reflexivity.
  - rewrite ST. cbn [do_calls]. rewrite C1. cbn [snd do_call h_par h_ctx]. rewrite put_same. cbn [p_ctx p_src p_info]. rewrite put_same. cbn [x_opts x_cst].
    rewrite R3. reflexivity.
Qed.
Print Assumptions C60_resumes.

(** A marker, a signature without a version, another marker: the second call shows the second marker. *)
Example C60_resumes_used :
  let start := [NewContext 0 []; NewParser 0 0 (mkStream [xca; x03; x50; x47; x50; xc2; x00; xca; x01; x41] true)] in
  exists a b, answers env0 start (CallParse 0) = Parsed [a] (RErr EEof) /\ answers env0 (start ++ [CallParse 0]) (CallParse 0) = Parsed [a; b] (ROk tt) /\ a <> b.
Proof. cbv zeta. do 2 eexists. split; [vm_compute; reflexivity|]. split; [vm_compute; reflexivity | discriminate]. Qed.

(** ** A context that is used again *)

(** The parser is the same, and the context has the same options. *)
Record alike_opts (p x : nat) (h h' : heap) : Prop := mkAlikeO {
  ao_ctx : option_map x_opts (h_ctx h x) = option_map x_opts (h_ctx h' x);
  ao_par : h_par h p = h_par h' p
}.

Lemma alike_opts_about E p x c h h' : alike_opts p x h h' -> (forall y src, c = NewParser p y src -> y = x) -> c <> CallParse p -> about p x c = true ->
  alike_opts p x (snd (do_call E c h)) (snd (do_call E c h')).
Proof.
  intros [A1 A2] U NC B. destruct c as [y l|y code f|q y src|q]; cbn [about] in B; apply Nat.eqb_eq in B; subst; cbn [do_call]; [| | |congruence].
  - destruct (h_ctx h x) as [c|] eqn:HC, (h_ctx h' x) as [c'|] eqn:HC'; try discriminate A1; cbn [snd]; constructor; cbn [h_ctx h_par]; rewrite ?put_same, ?HC, ?HC'; auto.
  - destruct (h_ctx h x) as [c|] eqn:HC, (h_ctx h' x) as [c'|] eqn:HC'; try discriminate A1; cbn [snd]; constructor; cbn [h_ctx h_par]; rewrite ?put_same, ?HC, ?HC'; auto.
    cbn [option_map x_opts] in *. congruence.
  - assert (y = x) as -> by (apply (U y src eq_refl)). rewrite <- A2. destruct (h_par h p) eqn:HP; [constructor; cbn [snd]; congruence|].
    destruct (h_ctx h x) as [c|] eqn:HC, (h_ctx h' x) as [c'|] eqn:HC'; try discriminate A1; cbn [snd]; [|constructor; cbn [snd]; rewrite ?HC, ?HC'; congruence].
    cbn [option_map] in A1. assert (x_opts c' = x_opts c) as -> by congruence.
    destruct (parse_new (x_opts c) E src) as [k|e| |]; constructor; cbn [snd h_ctx h_par]; rewrite ?put_same, ?HC, ?HC'; auto; congruence.
Qed.

Lemma alike_opts_other E p x c h h' : alike_opts p x h h' -> about p x c = false -> alike_opts p x (snd (do_call E c h)) h'.
Proof.
  intros [A1 A2] B. destruct c as [y l|y code f|q y src|q]; cbn [about] in B; apply Nat.eqb_neq in B; cbn [do_call].
  - destruct (h_ctx h y); constructor; cbn [snd h_ctx h_par]; auto. rewrite put_other by auto. exact A1.
  - destruct (h_ctx h y); constructor; cbn [snd h_ctx h_par]; auto. rewrite put_other by auto. exact A1.
  - destruct (h_par h q) eqn:HQ; [constructor; auto|]. destruct (h_ctx h y) as [c|]; [|constructor; auto].
    destruct (parse_new (x_opts c) E src) as [k|e| |]; constructor; cbn [snd h_ctx h_par]; auto.
    rewrite put_other by auto. exact A2.
  - destruct (h_par h q) as [o|] eqn:HQ; [|constructor; auto]. destruct (h_ctx h (p_ctx o)) as [c|] eqn:HC; [|constructor; auto].
    destruct (parse_run (x_opts c) E (S (chunks_len (p_src o))) (p_src o) (x_cst c) (p_info o)) as [[l r] [k cs]].
    constructor; cbn [snd h_ctx h_par]; [|rewrite put_other by auto; exact A2].
    destruct (Nat.eq_dec x (p_ctx o)) as [->|N]; [rewrite put_same; cbn [option_map x_opts]; rewrite <- A1, HC; reflexivity | rewrite put_other by exact N; exact A1].
Qed.

Lemma alike_opts_calls E p x calls : (forall c, In c (filter (about p x) calls) -> c <> CallParse p /\ forall y src, c = NewParser p y src -> y = x) ->
  forall h h', alike_opts p x h h' -> alike_opts p x (do_calls E calls h) (do_calls E (filter (about p x) calls) h').
Proof.
  induction calls as [|c calls IH]; intros U h h' A; [exact A|]. cbn [filter] in *. destruct (about p x c) eqn:B; cbn [do_calls].
  - apply IH; [intros d D; apply U; right; exact D|]. destruct (U c (or_introl eq_refl)) as [U1 U2]. apply alike_opts_about; assumption.
  - apply IH; [exact U | apply alike_opts_other; assumption].
Qed.

(** C61.  Whatever is done with other parsers, with the same context as well: what a parser returns when it is called for the first time
    has the outcome that it has with a new context with the same options, and the items are the same but for expiration dates and the kind of session key. *)
Theorem C61_any_context_partial : forall E calls p x l s1 s2 src k ps w,
  filter (about p x) calls = NewContext x l :: sets x s1 ++ NewParser p x src :: sets x s2 ->
  parse_new (o_new (l ++ s1)) E src = ROk k -> delivers k w -> input_of ps w -> sized w -> minute_zone (e_tz E) ->
  let '(fresh, r) := parse_chunks (o_new (l ++ s1 ++ s2)) E k in
  exists items, answers E calls (CallParse p) = Parsed items r /\ Forall2 same_but_history items fresh.
Proof.
  intros E calls p x l s1 s2 src k ps w F N D I Z MZ. rewrite (C01_framing _ E ps w k I D).
  assert (alike_opts p x (do_calls E calls heap0) (do_calls E (filter (about p x) calls) heap0)) as [A1 A2].
  { apply alike_opts_calls; [|constructor; reflexivity]. rewrite F. intros c C.
    assert (forall s, In c (sets x s) -> c <> CallParse p /\ forall y src, c = NewParser p y src -> y = x) as K.
    { intros s H. apply in_map_iff in H. destruct H as ((code & f) & <- & _). split; intros; discriminate. }
    destruct C as [<-|C]; [split; intros; discriminate|]. apply in_app_or in C. destruct C as [C|[<-|C]]; [apply (K s1 C) | | apply (K s2 C)].
    split; [discriminate|]. intros y s' X. congruence. }
  rewrite F in A1, A2. cbn [do_calls do_call h_ctx heap0 snd] in A1, A2. rewrite calls_app in A1, A2. cbn [do_calls] in A1, A2.
  set (h1 := mkHeap (put x (mkCtx (o_new l) cst_init) (fun _ => None)) (h_par heap0)) in *.
  destruct (sets_calls E x s1 h1 (mkCtx (o_new l) cst_init)) as [P1 C1]; [apply put_same|]. cbn [x_opts x_cst] in C1.
  set (h2 := do_calls E (sets x s1) h1) in *. cbn [do_call] in A1, A2. rewrite P1, C1 in A1, A2. cbn [h_par h1 heap0 x_opts] in A1, A2.
  assert (forall s, fold_left (fun o p => o_set (fst p) (snd p) o) s1 (fold_left (fun o p => o_set (fst p) (snd p) o) s opts_empty) = o_new (s ++ s1)) as OA
    by (intro s; unfold o_new; rewrite fold_left_app; reflexivity).
  change (fold_left (fun o p => o_set (fst p) (snd p) o) s1 (o_new l)) with (fold_left (fun o p => o_set (fst p) (snd p) o) s1 (fold_left (fun o p => o_set (fst p) (snd p) o) l opts_empty)) in A1, A2.
  rewrite OA, N in A1, A2. cbn [snd] in A1, A2.
  match type of A2 with _ = h_par (do_calls E (sets x s2) ?h) p => set (h3 := h) in * end.
  destruct (sets_calls E x s2 h3 (mkCtx (o_new (l ++ s1)) cst_init)) as [P3 C3].
  { cbn [h3 h_ctx]. rewrite C1. unfold o_new. rewrite fold_left_app. reflexivity. }
  rewrite P3 in A2. rewrite C3 in A1. cbn [h3 h_par] in A2. rewrite put_same in A2. cbn [option_map x_opts] in A1.
  assert (fold_left (fun o p => o_set (fst p) (snd p) o) s2 (o_new (l ++ s1)) = o_new (l ++ s1 ++ s2)) as EO
    by (unfold o_new; rewrite !fold_left_app; reflexivity).
  rewrite EO in A1. unfold answers. set (h := do_calls E calls heap0) in *. clearbody h. cbn [do_call]. rewrite A2. cbn [p_ctx p_src p_info].
  destruct (h_ctx h x) as [c|] eqn:HC; [|discriminate A1]. cbn [option_map] in A1. injection A1 as A1. rewrite A1.
  set (o := o_new (l ++ s1 ++ s2)) in *.
  destruct (run_input o E ps w k (x_cst c) [] I D) as (k' & cs' & R & _). rewrite R. cbn [fst app].
  assert (all_short ps) as AS.
  { destruct I as [ps w P | ps w tag body P T]; [exact (packets_short ps w P Z)|]. unfold sized, lenZ in Z. rewrite app_length in Z. cbn [length] in Z.
    apply Forall_app. split; [apply (packets_short ps w P); unfold sized, lenZ; lia | constructor; [cbn [snd]; unfold lenZ; lia | constructor]]. }
  destruct (list_history o E ps MZ AS (x_cst c) cst_init) as [Q1 Q2]. destruct (parse_list o E ps cst_init) as [fresh r]. cbn [fst snd] in *.
  exists (fst (parse_list o E ps (x_cst c))). rewrite Q1. auto.
Qed.
Print Assumptions C61_any_context_partial.
(** Parsers that share a context. *)
Definition sharing : list call :=
  [NewContext 0 []; NewParser 1 0 (mkStream [xc3; x04; x04; x09; x00; x08] true); CallParse 1; NewParser 0 0 (mkStream [xc9; x02; x01; x02] true)].
Example C61_any_context_used : filter (about 0 0) sharing = NewContext 0 [] :: sets 0 [] ++ NewParser 0 0 (mkStream [xc9; x02; x01; x02] true) :: sets 0 [] /\
  parse_new (o_new []) env0 (mkStream [xc9; x02; x01; x02] true) = ROk (chunks_of [xc9; x02; x01; x02] true) /\ minute_zone (e_tz env0) /\
  input_of [(9%N, [x01; x02])] [xc9; x02; x01; x02].
Proof.
  split; [reflexivity|]. split; [vm_compute; reflexivity|]. split; [intros t _; split; [split|]; vm_compute; congruence|].
  apply all_definite. refine (one_more 9 [x01; x02] [] [xc9; x02; x01; x02] [] (new_format 9 [x01; x02] [x02; x01; x02] eq_refl (part_last [x01; x02] [x02] (len_one 2 eq_refl))) no_packet).
Qed.

(** C61.  A second parser with the same context goes on where the first one has ended: together they show what the packets of both
    inputs show in one input. *)
Theorem C61_shared : forall E p q x l src1 src2 k1 k2 ps1 ps2 w1 w2 items1,
  let o := o_new l in
  p <> q -> parse_new o E src1 = ROk k1 -> delivers k1 w1 -> input_of ps1 w1 -> parse_new o E src2 = ROk k2 -> delivers k2 w2 -> input_of ps2 w2 ->
  parse_list o E ps1 cst_init = (items1, ROk tt) ->
  let start := [NewContext x l; NewParser p x src1; NewParser q x src2] in
  exists items2 r2, answers E start (CallParse p) = Parsed items1 (ROk tt) /\
    answers E (start ++ [CallParse p]) (CallParse q) = Parsed items2 r2 /\
    parse_list o E (ps1 ++ ps2) cst_init = (items1 ++ items2, r2).
Proof.
  intros E p q x l src1 src2 k1 k2 ps1 ps2 w1 w2 items1 o NE N1 D1 I1 N2 D2 I2 H start.
  destruct (run_input o E ps1 w1 k1 cst_init [] I1 D1) as (k1' & cs1 & R1 & S1). rewrite H in R1, S1. cbn [fst snd app] in R1. rewrite (S1 eq_refl) in R1.
  destruct (run_input o E ps2 w2 k2 (list_state o E ps1 cst_init) [] I2 D2) as (k2' & cs2 & R2 & _).
  set (h := mkHeap (put x (mkCtx o cst_init) (fun _ => None)) (put q (mkParser x k2 []) (put p (mkParser x k1 []) (fun _ => None)))).
  assert (forall more, do_calls E (start ++ more) heap0 = do_calls E more h) as ST.
  { intro more. unfold start. cbn [app do_calls do_call heap0 h_ctx h_par snd]. rewrite put_same. cbn [x_opts]. fold o. rewrite N1. cbn [snd h_par h_ctx].
    rewrite put_other by congruence. rewrite put_same. cbn [x_opts]. rewrite N2. reflexivity. }
  assert (do_call E (CallParse p) h = (Parsed items1 (ROk tt), mkHeap (put x (mkCtx o (list_state o E ps1 cst_init)) (h_ctx h)) (put p (mkParser x k1' items1) (h_par h)))) as C1.
  { unfold h. cbn [do_call h_par h_ctx]. rewrite put_other, put_same by congruence. cbn [p_ctx p_src p_info]. rewrite put_same. cbn [x_opts x_cst]. rewrite R1. reflexivity. }
  exists (fst (parse_list o E ps2 (list_state o E ps1 cst_init))), (snd (parse_list o E ps2 (list_state o E ps1 cst_init))). unfold answers. split; [|split].
  - rewrite <- (app_nil_r start), ST. cbn [do_calls]. rewrite C1. reflexivity.
  - rewrite ST. cbn [do_calls]. rewrite C1. cbn [snd do_call h_par h_ctx]. rewrite put_other by congruence. cbn [h h_par]. rewrite put_same. cbn [p_ctx p_src p_info].
    rewrite put_same. cbn [x_opts x_cst]. rewrite R2. reflexivity.
  - rewrite parse_list_app, H. reflexivity.
Qed.
Print Assumptions C61_shared.

(** C61 is false of contexts that are used again: encrypted data without a session key is shown as belonging to the session key of the
    input that was parsed before with the same context. *)
Definition session_key : bytes := xc1 :: x0d :: pub_session.
Definition cipher_text : bytes := [xc9; x01; x41].
Theorem C61_shared_refuted : exists E src1 src2 fresh used,
  answers E [NewContext 0 []; NewParser 1 0 src2] (CallParse 1) = Parsed fresh (ROk tt) /\
  answers E [NewContext 0 []; NewParser 0 0 src1; CallParse 0; NewParser 1 0 src2] (CallParse 1) = Parsed used (ROk tt) /\ fresh <> used.
Proof.
  exists env0, (mkStream session_key true), (mkStream cipher_text true). do 2 eexists.
  split; [vm_compute; reflexivity|]. split; [vm_compute; reflexivity | discriminate].
Qed.
Print Assumptions C61_shared_refuted.
