(** * Radix64L: lemmas for C52 and C53. *)
From Coq Require Import Strings.String Strings.Byte List NArith ZArith Bool Arith Lia ZifyBool ZifyN ZifyNat.
From Verif Require Import Base BaseL SpecBase Utf8 Env Parse Radix64 SpecArmor SpecRadix64 ArmorL.
Import ListNotations.
Local Open Scope N_scope.

(** ** Base64 *)
Lemma sextet_value n : b64_value (sextet n) = Some (n mod 64).
Proof.
  assert (forall i, i < 64 -> b64_value (nth (N.to_nat i) alphabet x00) = Some i) as H.
  { assert (forallb (fun k => match b64_value (nth k alphabet x00) with Some j => j =? N.of_nat k | None => false end) (seq 0 64) = true) as F by (vm_compute; reflexivity).
    intros i Hi. rewrite forallb_forall in F. specialize (F (N.to_nat i)). rewrite N2Nat.id in F.
    destruct (b64_value (nth (N.to_nat i) alphabet x00)) as [j|].
    - rewrite (proj1 (N.eqb_eq j i)); [reflexivity | apply F, in_seq; lia].
    - discriminate F. apply in_seq. lia. }
  unfold sextet. apply H. apply N.mod_lt. discriminate.
Qed.
Lemma sextet_plain n : not_newline (sextet n) = true /\ sextet n <> x2d /\ sextet n <> x3d /\ sextet n <> x0a /\ sextet n <> x0d.
Proof.
  pose proof (sextet_value n) as V.
  assert (forall c, b64_value c = None -> sextet n <> c) as X by (intros c Hc E; rewrite E, Hc in V; discriminate).
  repeat split; try (apply X; reflexivity).
  unfold not_newline. destruct (Byte.eqb (sextet n) x0a) eqn:A; [apply byte_eqb_spec in A; exfalso; apply (X x0a); [reflexivity | assumption]|].
  destruct (Byte.eqb (sextet n) x0d) eqn:B; [apply byte_eqb_spec in B; exfalso; apply (X x0d); [reflexivity | assumption]|]. reflexivity.
Qed.

Local Ltac divs := Z.div_mod_to_equations; nia.
Lemma byte_of x b : x = b2n b -> n2b x = b. Proof. intros ->. apply n2b_b2n. Qed.
Ltac Zify.zify_post_hook ::= Z.div_mod_to_equations.
Lemma octet0 a b c : (let n := a * 65536 + b * 256 + c in n / 262144 mod 64 * 4 + n / 4096 mod 64 / 16 = a) \/ 256 <= a \/ 256 <= b \/ 256 <= c.
Proof. destruct (N.lt_ge_cases a 256), (N.lt_ge_cases b 256), (N.lt_ge_cases c 256); auto. left. cbv zeta. lia. Qed.
Lemma octet1 a b c : (let n := a * 65536 + b * 256 + c in n / 4096 mod 64 mod 16 * 16 + n / 64 mod 64 / 4 = b) \/ 256 <= a \/ 256 <= b \/ 256 <= c.
Proof. destruct (N.lt_ge_cases a 256), (N.lt_ge_cases b 256), (N.lt_ge_cases c 256); auto. left. cbv zeta. lia. Qed.
Lemma octet2 a b c : (let n := a * 65536 + b * 256 + c in n / 64 mod 64 mod 4 * 64 + n mod 64 = c) \/ 256 <= a \/ 256 <= b \/ 256 <= c.
Proof. destruct (N.lt_ge_cases a 256), (N.lt_ge_cases b 256), (N.lt_ge_cases c 256); auto. left. cbv zeta. lia. Qed.
Ltac Zify.zify_post_hook ::= idtac.

Lemma quantum_three a b c : let n := b2n a * 65536 + b2n b * 256 + b2n c in
  quantum (sextet (n / 262144)) (sextet (n / 4096)) (sextet (n / 64)) (sextet n) = Some ([a; b; c], false).
Proof.
  intro n. unfold quantum. rewrite !sextet_value. pose proof (b2n_lt a). pose proof (b2n_lt b). pose proof (b2n_lt c).
  do 2 f_equal. f_equal; [|f_equal; [|f_equal]]; apply byte_of.
  - destruct (octet0 (b2n a) (b2n b) (b2n c)) as [E|E]; [exact E | lia].
  - destruct (octet1 (b2n a) (b2n b) (b2n c)) as [E|E]; [exact E | lia].
  - destruct (octet2 (b2n a) (b2n b) (b2n c)) as [E|E]; [exact E | lia].
Qed.
Lemma eq_value : b64_value x3d = None. Proof. reflexivity. Qed.
Lemma quantum_two a b : let n := b2n a * 65536 + b2n b * 256 in
  quantum (sextet (n / 262144)) (sextet (n / 4096)) (sextet (n / 64)) x3d = Some ([a; b], true).
Proof.
  intro n. unfold quantum. rewrite !sextet_value, eq_value. change (Byte.eqb x3d x3d) with true. cbv match.
  pose proof (b2n_lt a). pose proof (b2n_lt b).
  do 2 f_equal. f_equal; [|f_equal]; apply byte_of; unfold n; replace (b2n a * 65536 + b2n b * 256) with (b2n a * 65536 + b2n b * 256 + 0) by lia.
  - destruct (octet0 (b2n a) (b2n b) 0) as [E|E]; [exact E | lia].
  - destruct (octet1 (b2n a) (b2n b) 0) as [E|E]; [exact E | lia].
Qed.
Lemma quantum_one a : let n := b2n a * 65536 in
  quantum (sextet (n / 262144)) (sextet (n / 4096)) x3d x3d = Some ([a], true).
Proof.
  intro n. unfold quantum. rewrite !sextet_value, eq_value. change (Byte.eqb x3d x3d) with true. cbn [andb].
  pose proof (b2n_lt a).
  do 2 f_equal. f_equal; apply byte_of; unfold n; replace (b2n a * 65536) with (b2n a * 65536 + 0 * 256 + 0) by lia.
  destruct (octet0 (b2n a) 0 0) as [E|E]; [exact E | lia].
Qed.

(** Induction three octets at a time. *)
Lemma three_ind (P : bytes -> Prop) :
  P [] -> (forall a, P [a]) -> (forall a b, P [a; b]) -> (forall a b c t, P t -> P (a :: b :: c :: t)) -> forall l, P l.
Proof.
  intros P0 P1 P2 P3 l. enough (forall n l, (length l <= n)%nat -> P l) as H by (apply (H (length l)); lia). clear l.
  induction n as [|n IH]; intros [|a [|b [|c t]]] L; cbn [length] in L; auto; try lia. apply P3, IH. lia.
Qed.
Lemma decode_base64 d : decode_buf (base64 d) = (d, true).
Proof.
  induction d as [| a | a b | a b c t IH] using three_ind; [reflexivity | | |]; cbn [base64 decode_buf].
  - rewrite quantum_one. reflexivity.
  - rewrite quantum_two. reflexivity.
  - rewrite quantum_three, IH. reflexivity.
Qed.
Lemma base64_len4 d : exists k, length (base64 d) = (4 * k)%nat.
Proof.
  induction d as [| a | a b | a b c t [k IH]] using three_ind.
  - exists 0%nat. reflexivity.
  - exists 1%nat. reflexivity.
  - exists 1%nat. reflexivity.
  - exists (S k). cbn [base64 length]. rewrite IH. lia.
Qed.
Lemma base64_nil d : base64 d = [] -> d = [].
Proof. destruct d as [|a [|b [|c t]]]; cbn [base64]; [reflexivity | discriminate ..]. Qed.
Lemma base64_split d : forall k, (4 * k <= length (base64 d))%nat ->
  firstn (4 * k) (base64 d) = base64 (firstn (3 * k) d) /\ skipn (4 * k) (base64 d) = base64 (skipn (3 * k) d).
Proof.
  induction d as [| a | a b | a b c t IH] using three_ind; intros k L.
  - cbn [base64 length] in L. replace k with 0%nat by lia. split; reflexivity.
  - cbn [base64 length] in L. destruct k as [|[|k]]; [split; reflexivity | split; reflexivity | lia].
  - cbn [base64 length] in L. destruct k as [|[|k]]; [split; reflexivity | split; reflexivity | lia].
  - destruct k as [|k]; [split; reflexivity|]. cbn [base64 length] in L. specialize (IH k ltac:(lia)).
    replace (4 * S k)%nat with (S (S (S (S (4 * k))))) by lia. replace (3 * S k)%nat with (S (S (S (3 * k)))) by lia.
    cbn [base64 firstn skipn]. destruct IH as [-> ->]. split; reflexivity.
Qed.
Lemma body_base64 f : forall cuts d eof, (length (base64 d) < f)%nat -> b64_body f cuts (base64 d) eof = (d, eof).
Proof.
  induction f as [|f IH]; intros cuts d eof L; [lia|]. cbn [b64_body].
  destruct (base64_len4 d) as [k4 L4].
  destruct (length (base64 d) <? 4)%nat eqn:S.
  - assert (base64 d = []) as Z by (destruct (base64 d); [reflexivity | apply Nat.ltb_lt in S; cbn [length] in *; lia]).
    rewrite Z. rewrite (base64_nil d Z). cbn [is_nil]. rewrite andb_true_r. reflexivity.
  - apply Nat.ltb_ge in S.
    assert (length (base64 d) / 4 = k4)%nat as Q by (rewrite L4, Nat.mul_comm; apply Nat.div_mul; discriminate).
    rewrite Q. set (k := Nat.min _ k4). assert (1 <= k <= k4)%nat as K by (unfold k; lia).
    destruct (base64_split d k ltac:(lia)) as [-> ->]. rewrite decode_base64.
    assert (length (base64 (skipn (3 * k) d)) < f)%nat as L'.
    { pose proof (proj2 (base64_split d k ltac:(lia))) as E. rewrite <- E, skipn_length. lia. }
    rewrite IH by exact L'. rewrite firstn_skipn. reflexivity.
Qed.
(** A padding character is one of the last two. *)
Lemma base64_pad d : forall u v, base64 d = u ++ x3d :: v -> (length v <= 1)%nat.
Proof.
  induction d as [| a | a b | a b c t IH] using three_ind; intros u v E; cbn [base64] in E.
  - destruct u; discriminate.
  - assert (length [sextet (b2n a * 65536 / 262144); sextet (b2n a * 65536 / 4096); x3d; x3d] = length (u ++ x3d :: v)) as L by (rewrite E; reflexivity).
    rewrite app_length in L. cbn [length] in L. destruct u as [|u0 [|u1 u]]; cbn [length] in L; [| |lia]; exfalso; cbn [app] in E; injection E; intros; subst;
      eapply (proj1 (proj2 (proj2 (sextet_plain _)))); eassumption.
  - assert (length (u ++ x3d :: v) = 4)%nat as L by (rewrite <- E; reflexivity).
    rewrite app_length in L. cbn [length] in L. destruct u as [|u0 [|u1 u]]; cbn [length] in L; [| |lia]; exfalso; cbn [app] in E; injection E; intros; subst;
      eapply (proj1 (proj2 (proj2 (sextet_plain _)))); eassumption.
  - destruct u as [|u0 [|u1 [|u2 [|u3 u]]]]; cbn [app] in E; injection E; intros; subst;
      try (exfalso; eapply (proj1 (proj2 (proj2 (sextet_plain _)))); eassumption).
    eapply IH. eassumption.
Qed.
Lemma base64_chars d : Forall (fun c => not_newline c = true /\ c <> x2d) (base64 d).
Proof.
  assert (forall n, not_newline (sextet n) = true /\ sextet n <> x2d) as X by (intro n; split; apply sextet_plain).
  assert (not_newline x3d = true /\ x3d <> x2d) as Y by (split; [reflexivity | discriminate]).
  induction d as [| a | a b | a b c t IH] using three_ind; cbn [base64]; auto.
Qed.
