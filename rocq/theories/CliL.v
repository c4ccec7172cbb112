(** * CliL: the command line. *)
From Coq Require Import Strings.String Strings.Byte List NArith ZArith Bool Arith Lia ZifyBool ZifyN ZifyNat.
From Coq Require DecimalFacts DecimalN Decimal.
From Coq Require Import DecimalString.
From Verif Require Import Base SpecBase BaseL Context Facade Cli SpecCli.
Import ListNotations.
Local Open Scope Z_scope.

Definition conv (l : list (string * value)) : list (bytes * value) := map (fun p => (str (fst p), snd p)) l.
Lemma conv_app l m : conv (l ++ m) = conv l ++ conv m. Proof. apply map_app. Qed.
Definition more (l : list (bytes * value)) (r : option (list (bytes * value) * list bytes)) :=
  match r with Some (m, a) => Some (l ++ m, a) | None => None end.
Lemma more_app l m r : more (l ++ m) r = more l (more m r).
Proof. destruct r as [[? ?]|]; cbn [more]; [rewrite app_assoc|]; reflexivity. Qed.

(** ** Values *)
Lemma dec_head n : (0 < n)%N -> exists b r, dec n = b :: r /\ b <> "0"%byte.
Proof.
  intro H. unfold dec. pose proof (DecimalN.Unsigned.to_of (N.to_uint n)) as E. rewrite DecimalN.Unsigned.of_to in E.
  destruct (N.to_uint n) as [|d|d|d|d|d|d|d|d|d|d] eqn:U; try (eexists; eexists; split; [reflexivity|discriminate]).
  - exfalso. unfold Decimal.unorm in E. cbn [Decimal.nzhead] in E. destruct (Decimal.nzhead d) eqn:Z.
    + pose proof (DecimalN.Unsigned.of_to n) as K. rewrite U, E in K. subst n; discriminate H.
    + exact (DecimalFacts.nzhead_nonzero _ _ Z).
    + discriminate E.
    + discriminate E.
    + discriminate E.
    + discriminate E.
    + discriminate E.
    + discriminate E.
    + discriminate E.
    + discriminate E.
    + discriminate E.
Qed.
Lemma digits_read l : forallb is_digit l = true -> forall acc, digits_in 10 acc l = read_dec_from acc l.
Proof.
  induction l as [|b l IH]; intros H acc; [reflexivity|]. cbn [forallb digits_in read_dec_from] in *. apply andb_true_iff in H as [H1 H2].
  assert (Byte.eqb b "_"%byte = false /\ exists d, digit_of b = Some d /\ digit_val b = Some d /\ (d < 10)%N) as (E & d & D1 & D2 & D3)
    by (destruct b; try discriminate H1; (split; [reflexivity | eexists; repeat split])).
  rewrite E, D1, D2. replace (d <? 10)%N with true by lia. apply IH, H2.
Qed.
Lemma digits_ok h l : forallb is_digit l = true -> forall x, underscore_ok h x l = true.
Proof.
  induction l as [|b l IH]; intros H x; [reflexivity|]. cbn [forallb underscore_ok] in *. apply andb_true_iff in H as [H1 H2].
  assert (Byte.eqb b "_"%byte = false) as -> by (destruct b; try discriminate H1; reflexivity). apply IH, H2.
Qed.
Lemma parse_uint_dec n : parse_uint (dec n) = Some n.
Proof.
  destruct (N.eq_dec n 0) as [->|N0]; [reflexivity|]. destruct (dec_head n ltac:(lia)) as (b & r & E & B).
  pose proof (dec_digits n) as D. pose proof (read_dec_dec n) as R. unfold read_dec in R. rewrite E in *. 
  assert (parse_uint (b :: r) = if underscore_ok false false (b :: r) then digits_in 10 0 (b :: r) else None) as ->
    by (destruct b; try reflexivity; congruence).
  rewrite (digits_ok false _ D), (digits_read _ D). exact R.
Qed.
Lemma parse_int_dec z : - 2 ^ 63 <= z < 2 ^ 63 -> parse_int (decZ z) = Some z.
Proof.
  intro H. assert (forall n, (n < 2 ^ 63)%N -> parse_int (dec n) = Some (Z.of_N n)) as P.
  { intros n L. pose proof (parse_uint_dec n) as U. pose proof (dec_digits n) as D. unfold parse_int.
    destruct (dec n) as [|b r] eqn:E; [exfalso; exact (dec_nonempty n E)|]. cbn [forallb] in D. apply andb_true_iff in D as [D _].
    assert (match b with "-"%byte => match parse_uint r with Some n => if (n <=? 2 ^ 63)%N then Some (- Z.of_N n) else None | None => None end
            | "+"%byte => match parse_uint r with Some n => if (n <? 2 ^ 63)%N then Some (Z.of_N n) else None | None => None end
            | _ => match parse_uint (b :: r) with Some n => if (n <? 2 ^ 63)%N then Some (Z.of_N n) else None | None => None end end = Some (Z.of_N n)) as G;
      [|destruct b; exact G].
    rewrite U. replace (n <? 2 ^ 63)%N with true by lia. destruct b; try reflexivity; discriminate D. }
  destruct z as [|p|p]; cbn [decZ].
  - apply (P 0%N). reflexivity.
  - cbn [Z.to_N]. rewrite P; [reflexivity|]. lia.
  - change (str "-" ++ dec (N.pos p)) with ("-"%byte :: dec (N.pos p)). unfold parse_int. rewrite parse_uint_dec.
    replace (N.pos p <=? 2 ^ 63)%N with true by lia. reflexivity.
Qed.
Lemma digit_of_spec b d : digit_of b = Some d <-> digit_char b d.
Proof.
  unfold digit_of, digit_char. pose proof (b2n_lt b) as L. cbn zeta. split.
  - destruct ((48 <=? b2n b) && (b2n b <=? 57))%N eqn:E1; [intro H; injection H as <-; lia|].
    destruct ((65 <=? b2n b) && (b2n b <=? 90))%N eqn:E2; [intro H; injection H as <-; lia|].
    destruct ((97 <=? b2n b) && (b2n b <=? 122))%N eqn:E3; [intro H; injection H as <-; lia | discriminate].
  - destruct ((48 <=? b2n b) && (b2n b <=? 57))%N eqn:E1; [intro H; f_equal; lia|].
    destruct ((65 <=? b2n b) && (b2n b <=? 90))%N eqn:E2; [intro H; f_equal; lia|].
    destruct ((97 <=? b2n b) && (b2n b <=? 122))%N eqn:E3; [intro H; f_equal; lia | lia].
Qed.
Lemma run_spec h base : forall t last acc n, last = true \/ t <> [] ->
  (underscore_ok h last t = true /\ digits_in base acc t = Some n) <-> (exists ds, digit_run base last t ds /\ n = fold_left (fun a d => a * base + d)%N ds acc).
Proof.
  induction t as [|b t IH]; intros last acc n H.
  - destruct H as [->|H]; [|congruence]. cbn. split.
    + intros [_ E]. injection E as <-. exists []. split; [constructor | reflexivity].
    + intros (ds & R & ->). inversion R; subst. auto.
  - cbn [underscore_ok digits_in]. destruct (Byte.eqb b "_"%byte) eqn:U.
    + apply Byte.byte_dec_bl in U. subst b. rewrite andb_true_iff. split.
      * intros [[-> O] D]. destruct t as [|c t]; [discriminate|]. apply andb_true_iff in O as [_ O].
        assert (c :: t <> []) as NE by discriminate. pose proof (IH false acc n (or_intror NE)) as [K _]. destruct (K (conj O D)) as (ds & R & E). exists ds. split; [constructor; exact R | exact E].
      * intros (ds & R & E). inversion R as [|? ? d ? ds' C|? ? R']; subst; [apply digit_of_spec in C; discriminate C|].
        destruct t as [|c t]; [inversion R'|]. assert (c :: t <> []) as NE by discriminate.
        pose proof (IH false acc (fold_left (fun a d => a * base + d)%N ds acc) (or_intror NE)) as [_ K]. destruct (K (ex_intro _ ds (conj R' eq_refl))) as [O D].
        split; [|exact D]. split; [reflexivity|]. rewrite O, andb_true_r. inversion R' as [|? ? d ? ds' C|]; subst.
        destruct (Byte.eqb c "_"%byte) eqn:U; [|reflexivity]. apply Byte.byte_dec_bl in U. subst c. apply digit_of_spec in C. discriminate C.
    + split.
      * intros [O D]. destruct (digit_of b) as [d|] eqn:C; [|discriminate]. destruct (d <? base)%N eqn:L; [|discriminate].
        pose proof (IH true (acc * base + d)%N n (or_introl eq_refl)) as [K _]. destruct (K (conj O D)) as (ds & R & E). exists (d :: ds). split; [|exact E].
        constructor; [apply digit_of_spec; exact C | lia | exact R].
      * intros (ds & R & E). inversion R as [|? ? d ? ds' C L R'|]; subst; [|discriminate U].
        apply digit_of_spec in C. rewrite C. replace (d <? base)%N with true by lia.
        pose proof (IH true (acc * base + d)%N (fold_left (fun a d => a * base + d)%N ds' (acc * base + d)%N) (or_introl eq_refl)) as [_ K]. exact (K (ex_intro _ ds' (conj R' eq_refl))).
Qed.
Lemma run_some h base t last n : last = true \/ t <> [] ->
  (if underscore_ok h last t then digits_in base 0 t else None) = Some n <-> exists ds, digit_run base last t ds /\ n = run_value base ds.
Proof.
  intro H. rewrite <- (run_spec h base t last 0%N n H). destruct (underscore_ok h last t); [tauto|]. split; [discriminate | intros [K _]; discriminate].
Qed.
Definition prefixes : list (byte * N) := [("b", 2); ("B", 2); ("o", 8); ("O", 8); ("x", 16); ("X", 16)]%byte%N.
Lemma prefix_cases p : let lower := (if (65 <=? b2n p) && (b2n p <=? 90) then b2n p + 32 else b2n p)%N in
  (lower = 98 /\ In (p, 2) prefixes /\ (forall b, In (p, b) prefixes -> b = 2) \/ lower = 111 /\ In (p, 8) prefixes /\ (forall b, In (p, b) prefixes -> b = 8) \/
   lower = 120 /\ In (p, 16) prefixes /\ (forall b, In (p, b) prefixes -> b = 16) \/
   lower <> 98 /\ lower <> 111 /\ lower <> 120 /\ (forall b, ~ In (p, b) prefixes))%N.
Proof.
  cbn zeta. destruct (in_dec Byte.byte_eq_dec p ["b"; "B"; "o"; "O"; "x"; "X"]%byte) as [I|I].
  - cbn [In] in I. destruct I as [<-|[<-|[<-|[<-|[<-|[<-|[]]]]]]];
      [left | left | right; left | right; left | right; right; left | right; right; left];
      (split; [reflexivity|]; split; [cbn [prefixes In]; tauto|]; intros b B; cbn [prefixes In] in B;
       repeat (destruct B as [B|B]; [congruence|]); destruct B).
  - right. right. right. assert (forall q, In q ["b"; "B"; "o"; "O"; "x"; "X"]%byte -> b2n p <> b2n q) as K by (intros q Q E; apply I; rewrite (b2n_inj _ _ E); exact Q).
    pose proof (K "b"%byte ltac:(cbn; tauto)) as K1. pose proof (K "B"%byte ltac:(cbn; tauto)) as K2. pose proof (K "o"%byte ltac:(cbn; tauto)) as K3.
    pose proof (K "O"%byte ltac:(cbn; tauto)) as K4. pose proof (K "x"%byte ltac:(cbn; tauto)) as K5. pose proof (K "X"%byte ltac:(cbn; tauto)) as K6.
    vm_compute (b2n "b") in K1. vm_compute (b2n "B") in K2. vm_compute (b2n "o") in K3. vm_compute (b2n "O") in K4. vm_compute (b2n "x") in K5. vm_compute (b2n "X") in K6.
    destruct ((65 <=? b2n p) && (b2n p <=? 90))%N eqn:E; (split; [lia|]; split; [lia|]; split; [lia|]);
      (intros b B; cbn [prefixes In] in B; apply I; cbn [In]; repeat (destruct B as [B|B]; [injection B as <- _; tauto|]); destruct B).
Qed.
Lemma no_octal p t ds : (exists b, In (p, b) prefixes) -> ~ digit_run 8 true (p :: t) ds.
Proof.
  intros [b B] R. inversion R as [|? ? d ? ds' C L|]; subst.
  - cbn [prefixes In] in B. apply digit_of_spec in C. repeat (destruct B as [B|B]; [injection B as <- _; vm_compute in C; injection C as <-; discriminate L|]). destruct B.
  - cbn [prefixes In] in B. repeat (destruct B as [B|B]; [discriminate B|]). destruct B.
Qed.
Lemma parse_uint_spec t n : parse_uint t = Some n <-> nat_text t n.
Proof.
  destruct t as [|c t]; [split; [discriminate | intro H; inversion H as [? ? ? R| |]; inversion R]|].
  destruct (Byte.byte_eq_dec c "0"%byte) as [->|C].
  - assert (OCT : (if underscore_ok false false ("0"%byte :: t) then digits_in 8 0 t else None) = Some n <-> exists ds, digit_run 8 true t ds /\ n = run_value 8 ds)
      by (change (underscore_ok false false ("0"%byte :: t)) with (underscore_ok false true t); apply run_some; left; reflexivity).
    assert (ONLY : nat_text ("0"%byte :: t) n <-> (exists ds, digit_run 8 true t ds /\ n = run_value 8 ds) \/
      exists p base r ds, t = p :: r /\ In (p, base) prefixes /\ r <> [] /\ digit_run base true r ds /\ n = run_value base ds).
    { split.
      - intro H. inversion H as [? ds Z R|? ds R|p base r ds I N R]; subst; [cbn in Z; congruence | left; eauto | right; exists p, base, r, ds; auto].
      - intros [(ds & R & ->)|(p & base & r & ds & -> & I & N & R & ->)]; [apply n_octal; exact R | apply n_prefix; assumption]. }
    rewrite ONLY. destruct t as [|p [|q r]].
    + change (parse_uint ["0"%byte]) with (if underscore_ok false false ["0"%byte] then digits_in 8 0 [] else None). rewrite OCT.
      split; [auto | intros [H|(p & base & r & ds & E & _)]; [exact H | discriminate]].
    + change (parse_uint ["0"%byte; p]) with (if underscore_ok false false ["0"%byte; p] then digits_in 8 0 [p] else None). rewrite OCT.
      split; [auto | intros [H|(p' & base & r & ds & E & _ & N & _)]; [exact H | injection E as <- <-; congruence]].
    + unfold parse_uint. cbn zeta. cbn [skipn]. pose proof (prefix_cases p) as PC. cbn zeta in PC.
      remember (if (65 <=? b2n p) && (b2n p <=? 90) then b2n p + 32 else b2n p)%N as lower eqn:LW.
      assert (PRE : forall base h, In (p, base) prefixes -> (forall b, In (p, b) prefixes -> b = base) ->
        (if underscore_ok h true (q :: r) then digits_in base 0 (q :: r) else None) = Some n <->
        (exists ds, digit_run 8 true (p :: q :: r) ds /\ n = run_value 8 ds) \/
        exists p' base r' ds, p :: q :: r = p' :: r' /\ In (p', base) prefixes /\ r' <> [] /\ digit_run base true r' ds /\ n = run_value base ds).
      { intros base h I U. rewrite (run_some h base (q :: r) true n (or_introl eq_refl)). split.
        - intros (ds & R & E). right. exists p, base, (q :: r), ds. repeat split; auto; discriminate.
        - intros [(ds & R & _)|(p' & b & r' & ds & E & I' & _ & R & V)]; [exfalso; exact (no_octal _ _ _ (ex_intro _ base I) R)|].
          injection E as <- <-. rewrite (U b I') in *. eauto. }
      destruct PC as [(E & I & U)|[(E & I & U)|[(E & I & U)|(E1 & E2 & E3 & U)]]].
      * rewrite E. apply (PRE 2%N false I U).
      * rewrite E. apply (PRE 8%N false I U).
      * rewrite E. apply (PRE 16%N true I U).
      * apply N.eqb_neq in E1, E2, E3. rewrite E1, E2, E3, OCT. split; [auto|]. intros [H|(p' & b & r' & ds & E & I' & _)]; [exact H|].
        injection E as <- _. destruct (U b I').
  - assert (parse_uint (c :: t) = if underscore_ok false false (c :: t) then digits_in 10 0 (c :: t) else None) as -> by (destruct c; try reflexivity; congruence).
    assert (c :: t <> []) as NE by discriminate. rewrite (run_some false 10 (c :: t) false n (or_intror NE)). split.
    + intros (ds & R & ->). apply n_decimal; [cbn; congruence | exact R].
    + intro H. inversion H as [? ds Z R|? ds R|p base r ds I N R]; subst; [eauto | congruence | congruence].
Qed.
Lemma nat_not_sign t n : nat_text t n -> hd_error t <> Some "-"%byte /\ hd_error t <> Some "+"%byte.
Proof.
  intro H. inversion H as [? ds Z R|? ds R|p base r ds I N R]; subst; try (split; discriminate). inversion R as [|? b d u ds' C|]; subst.
  apply digit_of_spec in C. cbn. split; intro E; injection E as ->; discriminate C.
Qed.
Lemma parse_int_spec t z : parse_int t = Some z <-> int_text t z.
Proof.
  split.
  - assert (forall P, match parse_uint t with Some n => if (n <? 2 ^ 63)%N then Some (Z.of_N n) else None | None => None end = Some z ->
      (forall n, nat_text t n -> (n < 2 ^ 63)%N -> z = Z.of_N n -> P) -> P) as PL.
    { intros P E K. destruct (parse_uint t) as [n|] eqn:U; [|discriminate]. destruct (n <? 2 ^ 63)%N eqn:L; [|discriminate]. injection E as <-.
      apply parse_uint_spec in U. apply (K n); [exact U | lia | reflexivity]. }
    intro E. destruct t as [|c t]; [discriminate|]. destruct (Byte.byte_eq_dec c "-"%byte) as [->|M]; [|destruct (Byte.byte_eq_dec c "+"%byte) as [->|P]].
    + cbn [parse_int] in E. destruct (parse_uint t) as [n|] eqn:U; [|discriminate]. destruct (n <=? 2 ^ 63)%N eqn:L; [|discriminate]. injection E as <-.
      apply parse_uint_spec in U. apply i_minus; [exact U | lia].
    + cbn [parse_int] in E. destruct (parse_uint t) as [n|] eqn:U; [|discriminate]. destruct (n <? 2 ^ 63)%N eqn:L; [|discriminate]. injection E as <-.
      apply parse_uint_spec in U. apply i_plus; [exact U | lia].
    + apply PL; [destruct c; try exact E; congruence|]. intros n U L ->. apply i_plain; assumption.
  - intro H. destruct H as [t n U L|t n U L|t n U L].
    + destruct (nat_not_sign t n U) as [M P]. apply parse_uint_spec in U.
      assert (parse_int t = match parse_uint t with Some n => if (n <? 2 ^ 63)%N then Some (Z.of_N n) else None | None => None end) as ->.
      { destruct t as [|c t]; [reflexivity|]. destruct c; try reflexivity; cbn in M, P; congruence. }
      rewrite U. replace (n <? 2 ^ 63)%N with true by lia. reflexivity.
    + apply parse_uint_spec in U. cbn [parse_int]. rewrite U. replace (n <? 2 ^ 63)%N with true by lia. reflexivity.
    + apply parse_uint_spec in U. cbn [parse_int]. rewrite U. replace (n <=? 2 ^ 63)%N with true by lia. reflexivity.
Qed.
Lemma int_dec z : - 2 ^ 63 <= z < 2 ^ 63 -> int_text (decZ z) z.
Proof. intro H. apply parse_int_spec, parse_int_dec, H. Qed.
Lemma value_means k t v : parse_value k t = Some v <-> means k t v.
Proof.
  split.
  - destruct k; cbn [parse_value].
    + unfold parse_bool. destruct (existsb _ _) eqn:X; [|destruct (existsb (beqs t) [str "0"; _; _; _; _; _]) eqn:Y; [|discriminate]]; intro H; injection H as <-.
      * apply existsb_exists in X as (y & I & E). apply beqs_spec in E. subst y. apply m_true, I.
      * apply existsb_exists in Y as (y & I & E). apply beqs_spec in E. subst y. apply m_false, I.
    + destruct (parse_int t) as [z|] eqn:E; [|discriminate]. intro H. injection H as <-. apply m_int, parse_int_spec, E.
    + intro H. injection H as <-. constructor.
  - destruct 1 as [t H|t H|t z H|s]; cbn [parse_value].
    + cbn [In] in H. destruct H as [<-|[<-|[<-|[<-|[<-|[<-|[]]]]]]]; reflexivity.
    + cbn [In] in H. destruct H as [<-|[<-|[<-|[<-|[<-|[<-|[]]]]]]]; reflexivity.
    + apply parse_int_spec in H. rewrite H. reflexivity.
    + reflexivity.
Qed.
Lemma means_value k t v : means k t v -> parse_value k t = Some v.
Proof. apply value_means. Qed.

(** ** The tables *)
Definition entry_ok (fs : list flag) (e : string * option byte * kind) : Prop :=
  let '(n, s, k) := e in
  lookup fs (str n) = Some (mkFlag (str n) s k) /\ has_eq (str n) = false /\ (exists b r, str n = b :: r /\ b <> "-"%byte /\ b <> "="%byte) /\
  match s with Some c => lookup_short fs c = Some (mkFlag (str n) s k) /\ c <> "="%byte /\ c <> "-"%byte /\ c <> "t"%byte | None => True end.
Ltac entries := repeat (constructor; [cbn [entry_ok]; repeat split; try (vm_compute; reflexivity); try discriminate; do 2 eexists; repeat split; try reflexivity; discriminate|]); constructor.
Lemma parse_entries c : Forall (entry_ok (parse_flags c)) (options c).
Proof. destruct c; unfold options, common, own; cbn [app]; entries. Qed.
Lemma find_entries : Forall (entry_ok (find_flags MRoot)) (options MRoot).
Proof. unfold options, common, own; cbn [app]; entries. Qed.
Lemma entry T fs n s k : Forall (entry_ok fs) T -> In (n, s, k) T -> entry_ok fs (n, s, k).
Proof. intros F H. rewrite Forall_forall in F. exact (F _ H). Qed.

Lemma byte_sym a b : Byte.eqb a b = Byte.eqb b a.
Proof. destruct (Byte.eqb a b) eqn:A, (Byte.eqb b a) eqn:B; try reflexivity; [apply Byte.byte_dec_bl in A; subst; rewrite <- B; symmetry; apply Byte.byte_dec_lb; reflexivity | apply Byte.byte_dec_bl in B; subst; rewrite <- A; apply Byte.byte_dec_lb; reflexivity]. Qed.
Lemma split_none t : has_eq t = false -> split_eq t = (t, None).
Proof.
  induction t as [|b t IH]; intro H; [reflexivity|]. cbn [has_eq existsb split_eq] in *. apply orb_false_iff in H as [H1 H2].
  rewrite byte_sym in H1. rewrite H1. unfold has_eq in IH. rewrite (IH H2). reflexivity.
Qed.
Lemma split_some t v : has_eq t = false -> split_eq (t ++ str "=" ++ v) = (t, Some v).
Proof.
  induction t as [|b t IH]; intro H; [reflexivity|]. cbn [has_eq existsb split_eq app] in *. apply orb_false_iff in H as [H1 H2].
  rewrite byte_sym in H1. rewrite H1. unfold has_eq in IH. rewrite (IH H2). reflexivity.
Qed.

(** ** What parse_args does with options *)
Lemma short_letter fs c t : c <> "t"%byte -> hd_error t <> Some "="%byte -> forall f, lookup_short fs c = Some f -> no_value f = true ->
  short_arg fs (c :: t) = match set_flag f (str "true") with Sets l => before l (short_arg fs t) | a => a end.
Proof.
  intros C T f F N. cbn [short_arg]. replace (beqs (firstn 5 (c :: t)) (str "test.")) with false
    by (cbn [firstn]; change (str "test.") with ["t"%byte; "e"%byte; "s"%byte; "t"%byte; "."%byte]; destruct c; try reflexivity; congruence).
  rewrite F, N. destruct t as [|b t]; [reflexivity|]. cbn [hd_error] in T. destruct b; try reflexivity; congruence.
Qed.
Lemma letters_run T fs l u : Forall (entry_ok fs) T -> letters T l u -> forall t, hd_error t <> Some "="%byte ->
  short_arg fs (u ++ t) = before (conv l) (short_arg fs t).
Proof.
  intros F H. induction H as [|n s l u I H IH]; intros t Ht; cbn [app conv map fst snd].
  - destruct (short_arg fs t); reflexivity.
  - destruct (entry _ _ _ _ _ F I) as (_ & _ & _ & L & E1 & _ & E3).
    rewrite (short_letter fs s _ E3) with (f := mkFlag (str n) (Some s) KBool); [|..|exact L|reflexivity].
    + cbn [set_flag fl_kind parse_value]. change (parse_bool (str "true")) with (Some true). cbn [option_map].
      rewrite IH by exact Ht. fold (conv l). destruct (short_arg fs t); reflexivity.
    + destruct H as [|n' s' l' u' I' H']; [exact Ht|]. cbn [app hd_error]. destruct (entry _ _ _ _ _ F I') as (_ & _ & _ & _ & E1' & _). congruence.
Qed.
Lemma short_value fs c t f : c <> "t"%byte -> lookup_short fs c = Some f -> no_value f = false -> t <> [] -> hd_error t <> Some "="%byte ->
  short_arg fs (c :: t) = set_flag f t.
Proof.
  intros C F N T E. cbn [short_arg]. replace (beqs (firstn 5 (c :: t)) (str "test.")) with false
    by (cbn [firstn]; change (str "test.") with ["t"%byte; "e"%byte; "s"%byte; "t"%byte; "."%byte]; destruct c; try reflexivity; congruence).
  rewrite F, N. destruct t as [|b t]; [congruence|]. cbn [hd_error] in E. destruct b; try reflexivity; congruence.
Qed.
Lemma short_is fs c t f : c <> "t"%byte -> lookup_short fs c = Some f -> t <> [] -> short_arg fs (c :: "="%byte :: t) = set_flag f t.
Proof.
  intros C F T. cbn [short_arg]. replace (beqs (firstn 5 (c :: "="%byte :: t)) (str "test.")) with false
    by (cbn [firstn]; change (str "test.") with ["t"%byte; "e"%byte; "s"%byte; "t"%byte; "."%byte]; destruct c; try reflexivity; congruence).
  rewrite F. destruct t as [|b t]; [congruence|]. reflexivity.
Qed.
Lemma short_wants fs c f : lookup_short fs c = Some f -> no_value f = false -> short_arg fs [c] = Wants [] f.
Proof.
  intros F N. cbn [short_arg]. replace (beqs (firstn 5 [c]) (str "test.")) with false by (destruct c; reflexivity). rewrite F, N. reflexivity.
Qed.
Lemma long_known T fs n s k : Forall (entry_ok fs) T -> In (n, s, k) T ->
  long_arg fs (str n) = if no_value (mkFlag (str n) s k) then set_flag (mkFlag (str n) s k) (str "true") else Wants [] (mkFlag (str n) s k).
Proof.
  intros F I. destruct (entry _ _ _ _ _ F I) as (L & E & (b & r & B & B1 & B2) & _).
  assert (long_arg fs (str n) = let '(n', v) := split_eq (str n) in
    match lookup fs n' with None => Bad | Some f => match v with Some v => set_flag f v | None => if no_value f then set_flag f (str "true") else Wants [] f end end) as ->
    by (unfold long_arg; rewrite B; destruct b; try reflexivity; congruence).
  rewrite split_none by exact E. rewrite L. reflexivity.
Qed.
Lemma long_known_is T fs n s k t : Forall (entry_ok fs) T -> In (n, s, k) T ->
  long_arg fs (str n ++ str "=" ++ t) = set_flag (mkFlag (str n) s k) t.
Proof.
  intros F I. destruct (entry _ _ _ _ _ F I) as (L & E & (b & r & B & B1 & B2) & _).
  assert (long_arg fs (str n ++ str "=" ++ t) = let '(n', v) := split_eq (str n ++ str "=" ++ t) in
    match lookup fs n' with None => Bad | Some f => match v with Some v => set_flag f v | None => if no_value f then set_flag f (str "true") else Wants [] f end end) as ->
    by (unfold long_arg; rewrite B; cbn [app]; destruct b; try reflexivity; congruence).
  rewrite split_some by exact E. rewrite L. reflexivity.
Qed.
Definition act_args (a : act) (fs : list flag) (rest : list bytes) : option (list (bytes * value) * list bytes) :=
  match a with
  | Bad => None
  | Sets l => more l (parse_args fs rest)
  | Wants l f => match rest with [] => None | v :: rest' => match parse_value (fl_kind f) v with Some v => more (l ++ [(fl_name f, v)]) (parse_args fs rest') | None => None end end
  end.
Lemma args_long fs t rest : t <> [] -> parse_args fs ((str "--" ++ t) :: rest) = act_args (long_arg fs t) fs rest.
Proof.
  intro T. change (str "--" ++ t) with ("-"%byte :: "-"%byte :: t). cbn [parse_args].
  replace (beqs ("-"%byte :: "-"%byte :: t) (str "--")) with false by (destruct t; [congruence|reflexivity]). reflexivity.
Qed.
Lemma args_short fs c t rest : c <> "-"%byte -> parse_args fs ((str "-" ++ c :: t) :: rest) = act_args (short_arg fs (c :: t)) fs rest.
Proof.
  intro C. change (str "-" ++ c :: t) with ("-"%byte :: c :: t). cbn [parse_args].
  replace (beqs ("-"%byte :: c :: t) (str "--")) with false by (destruct c; try reflexivity; congruence).
  replace (Byte.eqb c "-"%byte) with false by (destruct c; try reflexivity; congruence). reflexivity.
Qed.
Lemma args_other fs y rest : hd_error y <> Some "-"%byte \/ y = str "-" ->
  parse_args fs (y :: rest) = match parse_args fs rest with Some (l, a) => Some (l, y :: a) | None => None end.
Proof.
  intros [H| ->]; [|reflexivity]. destruct y as [|b y]; [reflexivity|]. cbn [hd_error] in H. destruct b; try reflexivity; congruence.
Qed.
Lemma set_known n s k t v : means k t v -> set_flag (mkFlag (str n) s k) t = Sets (conv [(n, v)]).
Proof. intro M. unfold set_flag. cbn [fl_kind fl_name]. rewrite (means_value _ _ _ M). reflexivity. Qed.
Lemma letters_head T l u : letters T l u -> u <> [] -> exists b r, u = b :: r /\ exists n, In (n, Some b, KBool) T.
Proof. intros H E. destruct H as [|m x l' u' I H]; [congruence|]. exists x, u'. split; [reflexivity|]. exists m. exact I. Qed.
Lemma entry_nonempty T fs n s k : Forall (entry_ok fs) T -> In (n, s, k) T -> str n <> [].
Proof. intros F I. destruct (entry _ _ _ _ _ F I) as (_ & _ & (b & r & -> & _) & _). discriminate. Qed.
Lemma entry_letter T fs n s k : Forall (entry_ok fs) T -> In (n, Some s, k) T ->
  lookup_short fs s = Some (mkFlag (str n) (Some s) k) /\ s <> "="%byte /\ s <> "-"%byte /\ s <> "t"%byte.
Proof. intros F I. destruct (entry _ _ _ _ _ F I) as (_ & _ & _ & H). exact H. Qed.
Lemma not_bool n s k : k <> KBool -> no_value (mkFlag n s k) = false. Proof. destruct k; [congruence|reflexivity|reflexivity]. Qed.

Theorem written_run T fs l a rest : Forall (entry_ok fs) T -> written T l a -> parse_args fs (a ++ rest) = more (conv l) (parse_args fs rest).
Proof.
  intros F H. destruct H as [n s I|n s k t v I M|n s k t v I K M|l u H U|l u n s k t v H I K M T1 T2|l u n s k t v H I M T1|n s k t v I K M]; cbn [app].
  - rewrite args_long, (long_known T _ _ _ _ F I) by exact (entry_nonempty _ _ _ _ _ F I). cbn [no_value fl_kind].
    rewrite (set_known n s KBool (str "true") (VBool true)); [reflexivity|]. apply m_true. cbn [In]. tauto.
  - rewrite args_long by (pose proof (entry_nonempty _ _ _ _ _ F I); destruct (str n); [congruence|discriminate]).
    rewrite (long_known_is T _ _ _ _ _ F I), (set_known _ _ _ _ _ M). reflexivity.
  - rewrite args_long, (long_known T _ _ _ _ F I), (not_bool _ _ _ K) by exact (entry_nonempty _ _ _ _ _ F I).
    cbn [act_args fl_kind fl_name]. rewrite (means_value _ _ _ M). reflexivity.
  - destruct (letters_head T l u H U) as (b & r & E & m & Ib). destruct (entry_letter _ _ _ _ _ F Ib) as (_ & _ & B & _).
    pose proof (letters_run T fs l u F H [] ltac:(discriminate)) as R. rewrite app_nil_r in R. rewrite E in R |- *. rewrite args_short by exact B. rewrite R.
    cbn [short_arg before act_args]. rewrite app_nil_r. reflexivity.
  - destruct (entry_letter _ _ _ _ _ F I) as (L & E1 & E2 & E3).
    pose proof (letters_run T fs l u F H (s :: t) ltac:(cbn [hd_error]; congruence)) as R.
    rewrite (short_value fs s t _ E3 L (not_bool _ _ _ K) T1 T2), (set_known _ _ _ _ _ M) in R. cbn [before] in R.
    rewrite conv_app. destruct H as [|m x l' u' Im H]; cbn [app] in R |- *.
    + rewrite args_short by exact E2. rewrite R. reflexivity.
    + rewrite args_short by exact (proj1 (proj2 (proj2 (entry_letter _ _ _ _ _ F Im)))). rewrite R. reflexivity.
  - destruct (entry_letter _ _ _ _ _ F I) as (L & E1 & E2 & E3).
    pose proof (letters_run T fs l u F H (s :: str "=" ++ t) ltac:(cbn [hd_error]; congruence)) as R.
    change (s :: str "=" ++ t) with (s :: "="%byte :: t) in R |- *.
    rewrite (short_is fs s t _ E3 L T1), (set_known _ _ _ _ _ M) in R. cbn [before] in R.
    rewrite conv_app. destruct H as [|m x l' u' Im H]; cbn [app] in R |- *.
    + rewrite args_short by exact E2. rewrite R. reflexivity.
    + rewrite args_short by exact (proj1 (proj2 (proj2 (entry_letter _ _ _ _ _ F Im)))). rewrite R. reflexivity.
  - destruct (entry_letter _ _ _ _ _ F I) as (L & E1 & E2 & E3).
    rewrite args_short by exact E2. rewrite (short_wants fs s _ L (not_bool _ _ _ K)). cbn [act_args fl_kind fl_name]. rewrite (means_value _ _ _ M). reflexivity.
Qed.
Lemma written_all_run T fs l a rest : Forall (entry_ok fs) T -> written_all T l a -> parse_args fs (a ++ rest) = more (conv l) (parse_args fs rest).
Proof.
  intros F H. induction H as [|l a m b H _ IH]; cbn [app conv map].
  - destruct (parse_args fs rest) as [[? ?]|]; reflexivity.
  - rewrite <- app_assoc, (written_run _ _ _ _ _ F H), IH, conv_app, more_app. reflexivity.
Qed.
Lemma line_run T fs l x b : Forall (entry_ok fs) T -> line T l x b -> parse_args fs b = Some (conv l, x).
Proof.
  intros F H. induction H as [|l a m x b H _ IH|y m x b Y _ IH|x].
  - reflexivity.
  - rewrite (written_run _ _ _ _ _ F H), IH, conv_app. reflexivity.
  - rewrite args_other by exact Y. rewrite IH. reflexivity.
  - reflexivity.
Qed.

(** ** Finding the command *)
Lemma strip_option fs s rest : (exists c r, s = "-"%byte :: c :: r /\ s <> str "--") -> takes_next fs s = false -> strip_flags fs (s :: rest) = strip_flags fs rest.
Proof.
  intros (c & r & -> & E) T. cbn [strip_flags]. rewrite T.
  destruct (beqs ("-"%byte :: c :: r) (str "--")) eqn:B; [|reflexivity]. exfalso. apply E. apply beqs_spec, B.
Qed.
Lemma strip_takes fs s t rest : s <> str "--" -> takes_next fs s = true -> strip_flags fs (s :: t :: rest) = strip_flags fs rest.
Proof.
  intros E T. cbn [strip_flags]. rewrite T.
  destruct (beqs s (str "--")) eqn:B; [exfalso; apply E; apply beqs_spec, B|]. destruct rest; reflexivity.
Qed.
Lemma takes_group fs c d r : c <> "-"%byte -> takes_next fs ("-"%byte :: c :: d :: r) = false.
Proof. intro C. destruct c; try reflexivity; congruence. Qed.
Lemma takes_letter fs c : c <> "-"%byte -> c <> "="%byte -> takes_next fs ["-"%byte; c] = negb (match lookup_short fs c with Some f => no_value f | None => false end).
Proof. intros C D. destruct c; try reflexivity; congruence. Qed.
Lemma has_eq_long n : has_eq (str "--" ++ n) = has_eq n. Proof. reflexivity. Qed.
Lemma has_eq_app a b : has_eq (a ++ b) = has_eq a || has_eq b. Proof. apply existsb_app. Qed.
Lemma strip_written T fs l a rest : Forall (entry_ok fs) T -> written T l a -> strip_flags fs (a ++ rest) = strip_flags fs rest.
Proof.
  intros F H. destruct H as [n s I|n s k t v I M|n s k t v I K M|l u H U|l u n s k t v H I K M T1 T2|l u n s k t v H I M T1|n s k t v I K M]; cbn [app].
  - destruct (entry _ _ _ _ _ F I) as (L & E & (b & r & B & _) & _).
    apply strip_option; [exists "-"%byte, (str n); split; [reflexivity|rewrite B; discriminate]|].
    change (takes_next fs (str "--" ++ str n)) with (negb (has_eq (str "--" ++ str n)) && negb (match lookup fs (str n) with Some f => no_value f | None => false end)).
    rewrite L. cbn [no_value fl_kind]. rewrite andb_false_r. reflexivity.
  - destruct (entry _ _ _ _ _ F I) as (L & E & (b & r & B & _) & _).
    apply strip_option; [exists "-"%byte, (str n ++ str "=" ++ t); split; [reflexivity|rewrite B; discriminate]|].
    change (takes_next fs (str "--" ++ str n ++ str "=" ++ t)) with (negb (has_eq (str "--" ++ str n ++ str "=" ++ t)) && negb (match lookup fs (str n ++ str "=" ++ t) with Some f => no_value f | None => false end)).
    rewrite has_eq_long, has_eq_app. replace (has_eq (str "=" ++ t)) with true by reflexivity. rewrite orb_true_r. reflexivity.
  - destruct (entry _ _ _ _ _ F I) as (L & E & (b & r & B & _) & _).
    apply strip_takes; [rewrite B; discriminate|].
    change (takes_next fs (str "--" ++ str n)) with (negb (has_eq (str "--" ++ str n)) && negb (match lookup fs (str n) with Some f => no_value f | None => false end)).
    rewrite L, (not_bool _ _ _ K), has_eq_long, E. reflexivity.
  - destruct H as [|m x l' u' Im H]; [congruence|]. destruct (entry_letter _ _ _ _ _ F Im) as (L & E1 & E2 & E3).
    apply strip_option; [exists x, u'; split; [reflexivity|intro Q; injection Q; congruence]|].
    change (str "-" ++ x :: u') with ("-"%byte :: x :: u'). destruct u' as [|d u']; [|apply takes_group, E2].
    rewrite takes_letter by assumption. rewrite L. reflexivity.
  - destruct (entry_letter _ _ _ _ _ F I) as (L & E1 & E2 & E3). destruct t as [|d t]; [congruence|].
    destruct H as [|m x l' u' Im H].
    + apply strip_option; [exists s, (d :: t); split; [reflexivity|discriminate]|]. apply (takes_group fs s d t E2).
    + destruct (entry_letter _ _ _ _ _ F Im) as (_ & _ & E2' & _).
      apply strip_option; [exists x, (u' ++ s :: d :: t); split; [reflexivity|intro Q; injection Q; congruence]|].
      destruct u' as [|y u']; [apply (takes_group fs x s (d :: t) E2')|apply (takes_group fs x y (u' ++ s :: d :: t) E2')].
  - destruct (entry_letter _ _ _ _ _ F I) as (L & E1 & E2 & E3).
    destruct H as [|m x l' u' Im H].
    + apply strip_option; [exists s, (str "=" ++ t); split; [reflexivity|discriminate]|]. apply (takes_group fs s "="%byte t E2).
    + destruct (entry_letter _ _ _ _ _ F Im) as (_ & _ & E2' & _).
      apply strip_option; [exists x, (u' ++ s :: str "=" ++ t); split; [reflexivity|intro Q; injection Q; congruence]|].
      destruct u' as [|y u']; [apply (takes_group fs x s (str "=" ++ t) E2')|apply (takes_group fs x y (u' ++ s :: str "=" ++ t) E2')].
  - destruct (entry_letter _ _ _ _ _ F I) as (L & E1 & E2 & E3).
    apply strip_takes; [change (str "-" ++ [s]) with ["-"%byte; s]; intro Q; injection Q; congruence|].
    change (str "-" ++ [s]) with ["-"%byte; s]. rewrite takes_letter by assumption. rewrite L, (not_bool _ _ _ K). reflexivity.
Qed.
Lemma strip_all T fs l a rest : Forall (entry_ok fs) T -> written_all T l a -> strip_flags fs (a ++ rest) = strip_flags fs rest.
Proof.
  intros F H. induction H as [|l a m b H _ IH]; [reflexivity|]. rewrite <- app_assoc, (strip_written _ _ _ _ _ F H). exact IH.
Qed.
Lemma strip_word fs x rest : x <> [] -> hd_error x <> Some "-"%byte -> strip_flags fs (x :: rest) = x :: strip_flags fs rest.
Proof.
  intros X H. destruct x as [|b x]; [congruence|]. cbn [hd_error] in H. cbn [strip_flags].
  replace (takes_next fs (b :: x)) with false by (destruct b; try reflexivity; congruence).
  replace (beqs (b :: x) (str "--")) with false by (destruct b; try reflexivity; congruence).
  destruct b; try reflexivity; congruence.
Qed.
Lemma written_incl T U l a : incl T U -> written T l a -> written U l a.
Proof.
  intros S H. assert (forall l u, letters T l u -> letters U l u) as G by (clear - S; induction 1; [constructor|econstructor; eauto]).
  destruct H; [eapply w_long|eapply w_long_is|eapply w_long_next|eapply w_letters|eapply w_letters_value|eapply w_letters_is|eapply w_letter_next]; eauto.
Qed.
Lemma written_all_incl T U l a : incl T U -> written_all T l a -> written_all U l a.
Proof. intros S H. induction H; constructor; [eapply written_incl; eauto|assumption]. Qed.

(** The name of the command is the first of its kind behind the common options. *)
Definition not_word (x : bytes) : bool := match x with b :: _ => Byte.eqb b "-"%byte || (Byte.eqb b "+"%byte || is_digit b) | [] => false end.
Lemma int_not_word t z : int_text t z -> not_word t = true.
Proof.
  assert (forall t n, nat_text t n -> not_word t = true) as P.
  { intros u n H. inversion H as [? ds Z R|? ds R|p base r ds I N R]; subst; try reflexivity. inversion R as [|? b d v ds' C L|]; subst.
    cbn [not_word]. apply digit_of_spec in C. destruct b; try reflexivity; vm_compute in C; try discriminate C; injection C as <-; discriminate L. }
  intro H. destruct H as [u n H L|u n H L|u n H L]; [exact (P u n H) | reflexivity | reflexivity].
Qed.
Lemma common_not_word l a : written common l a -> Forall (fun x => not_word x = true) a.
Proof.
  intro H. destruct H as [n s I|n s k t v I M|n s k t v I K M|l u H U|l u n s k t v H I K M T1 T2|l u n s k t v H I M T1|n s k t v I K M];
    repeat (apply Forall_cons || apply Forall_nil); try reflexivity.
  - destruct M as [t M|t M|t z M|s']; [congruence|congruence|exact (int_not_word t z M)|]. exfalso. cbn [common In] in I. repeat destruct I as [I|I]; try discriminate I. exact I.
  - destruct M as [t M|t M|t z M|s']; [congruence|congruence|exact (int_not_word t z M)|]. exfalso. cbn [common In] in I. repeat destruct I as [I|I]; try discriminate I. exact I.
Qed.
Lemma common_all_not_word l a : written_all common l a -> Forall (fun x => not_word x = true) a.
Proof. induction 1; [constructor|]. apply Forall_app. split; [eapply common_not_word; eauto|assumption]. Qed.
Lemma minus_first_app x a rest : not_word x = false -> Forall (fun y => not_word y = true) a -> minus_first x (a ++ x :: rest) = a ++ rest.
Proof.
  intros X F. induction F as [|y a Y _ IH]; cbn [app minus_first].
  - rewrite beqs_refl. reflexivity.
  - destruct (beqs x y) eqn:E; [apply beqs_spec in E; congruence|]. rewrite IH. reflexivity.
Qed.
Lemma find_name c n : command_name c n ->
  str n <> [] /\ hd_error (str n) <> Some "-"%byte /\ is_complete (str n) = false /\ find_next (str n) = Some c /\ not_word (str n) = false.
Proof.
  destruct 1 as [n H|n H|n H|n H|n H|]; [cbn [In] in H; repeat (destruct H as [<-|H])..|]; try contradiction; (split; [discriminate|]); (split; [discriminate|]);
    repeat split; vm_compute; reflexivity.
Qed.

(** ** Settings *)
Lemma str_inj a b : str a = str b -> a = b.
Proof. intro H. unfold str in H. rewrite <- (string_of_list_byte_of_string a), <- (string_of_list_byte_of_string b), H. reflexivity. Qed.
Lemma beqs_str a b : beqs (str a) (str b) = String.eqb a b.
Proof.
  destruct (String.eqb_spec a b) as [->|N]; [apply beqs_refl|]. destruct (beqs (str a) (str b)) eqn:E; [|reflexivity]. apply beqs_spec, str_inj in E. congruence.
Qed.
Lemma setting_said l n : setting (conv l) (str n) = said l n.
Proof.
  unfold setting, said, conv. rewrite <- map_rev. induction (rev l) as [|p r IH]; [reflexivity|]. cbn [map find fst snd]. rewrite beqs_str.
  destruct (String.eqb n (fst p)); [reflexivity|exact IH].
Qed.
Lemma get_bool_on l n : get_bool (conv l) (str n) = on l n. Proof. unfold get_bool, on. rewrite setting_said. reflexivity. Qed.
Lemma get_int_number l n d : get_int (conv l) (str n) d = number l n d. Proof. unfold get_int, number. rewrite setting_said. reflexivity. Qed.
Lemma get_string_text l n d : get_string (conv l) (str n) d = text l n d. Proof. unfold get_string, text. rewrite setting_said. reflexivity. Qed.
Lemma flags_of_asked l : flags_asked l (flags_of (conv l)).
Proof.
  unfold flags_asked, flags_of; cbn [f_json f_indent f_on].
  repeat match goal with |- _ /\ _ => split end; first [apply get_int_number | apply get_bool_on].
Qed.
Definition named (T : table) (p : string * value) : Prop := exists s k, In (fst p, s, k) T.
Lemma letters_named T l u : letters T l u -> Forall (named T) l.
Proof. induction 1; constructor; [do 2 eexists; cbn [fst]; eassumption|assumption]. Qed.
Lemma written_named T l a : written T l a -> Forall (named T) l.
Proof.
  destruct 1; try (apply Forall_app; split); try (eapply letters_named; eassumption); (constructor; [do 2 eexists; cbn [fst]; eassumption|constructor]).
Qed.
Lemma written_all_named T l a : written_all T l a -> Forall (named T) l.
Proof. induction 1; [constructor|]. apply Forall_app. split; [eapply written_named; eassumption|assumption]. Qed.
Lemma line_named T l x b : line T l x b -> Forall (named T) l.
Proof. induction 1; [constructor| |assumption|constructor]. apply Forall_app. split; [eapply written_named; eassumption|assumption]. Qed.
Lemma said_none T l n : Forall (named T) l -> (forall s k, ~ In (n, s, k) T) -> said l n = None.
Proof.
  intros F N. unfold said. assert (Forall (named T) (rev l)) as G by (apply Forall_forall; intros p I; rewrite Forall_forall in F; apply F, in_rev, I).
  induction G as [|p r (s & k & I) _ IH]; [reflexivity|]. cbn [find]. destruct (String.eqb_spec n (fst p)) as [->|_]; [exfalso; exact (N _ _ I)|exact IH].
Qed.
Lemma no_help c s k : ~ In ("help"%string, s, k) (options c).
Proof. destruct c; cbn [options common own app In]; intro H; repeat destruct H as [H|H]; try discriminate H; exact H. Qed.
Lemma command_of_asked c l x : Forall (named (options c)) l -> command_of c (conv l) x = command_asked c l x.
Proof.
  intro F. unfold command_of. rewrite get_bool_on. unfold on at 1. rewrite (said_none _ _ _ F (no_help c)).
  destruct c; cbn [command_asked]; rewrite ?get_bool_on, ?get_int_number, ?get_string_text; reflexivity.
Qed.
