(** * ShownScanL: what a scan of SpecAccept.v finds is what SpecShown.v describes. *)
From Coq Require Import Strings.String Strings.Byte List NArith ZArith Bool Lia ZifyBool ZifyN ZifyNat.
From Verif Require Import Base BaseL SpecBase Item Context Env SpecValues ValuesL SpecPacket SpecFrame SpecSub SpecSubs SpecLiteral SpecSecret SpecNest SpecComp SpecText.
From Verif Require Import SpecAccept SpecShown.
Import ListNotations.
Local Open Scope N_scope.

(** ** Inversion of scans *)
Lemma after_inv {A B} (w : scan A) (f : A -> scan B) l b r : after w f l = Found b r -> exists a m, w l = Found a m /\ f a m = Found b r.
Proof. unfold after. destruct (w l) as [a m| |]; [|discriminate..]. eauto. Qed.
Lemma give_inv {A} (a : A) l b r : give a l = Found b r -> b = a /\ l = r.
Proof. unfold give. intro H. injection H as <- <-. auto. Qed.
Lemma octets_inv n l a r : octets n l = Found a r -> l = a ++ r /\ lenN a = n.
Proof.
  unfold octets. destruct (n <=? lenN l) eqn:L; [|discriminate]. intro H. injection H as <- <-. split; [symmetry; apply firstn_skipn|].
  unfold lenN in *. rewrite firstn_length. lia.
Qed.
Lemma number1_inv l n r : number 1 l = Found n r -> exists b, l = b :: r /\ n = b2n b.
Proof.
  unfold number. intro H. apply after_inv in H as (a & m & H & G). apply octets_inv in H as [-> L]. apply give_inv in G as [-> <-].
  destruct a as [|b [|]]; try (exfalso; unfold lenN in L; cbn [length] in L; lia). exists b. split; [reflexivity|]. cbn. lia.
Qed.
Lemma be_inv k n l r : octets (N.of_nat k) l = Found n r -> l = be_enc k (be n) ++ r /\ be n < 256 ^ N.of_nat k.
Proof.
  intro H. apply octets_inv in H as [-> L]. assert (length n = k) as LK by (unfold lenN in L; lia). rewrite <- LK at 1. rewrite be_enc_be. split; [reflexivity|].
  rewrite <- (be_enc_be n), LK, be_be_enc. apply N.mod_upper_bound. apply N.pow_nonzero. discriminate.
Qed.
Lemma octets4_inv l d r : octets 4 l = Found d r -> exists t, l = be_enc 4 t ++ r /\ t < 2 ^ 32 /\ d = be_enc 4 t.
Proof.
  intro H. pose proof (octets_inv _ _ _ _ H) as [E L]. apply (be_inv 4) in H as [-> T]. exists (be d). split; [reflexivity|]. split; [exact T|]. apply app_inv_tail in E. auto.
Qed.
Lemma octets2_inv l d r : octets 2 l = Found d r -> exists t, l = be_enc 2 t ++ r /\ t < 65536 /\ d = be_enc 2 t.
Proof.
  intro H. pose proof (octets_inv _ _ _ _ H) as [E L]. apply (be_inv 2) in H as [-> T]. exists (be d). split; [reflexivity|]. split; [exact T|]. apply app_inv_tail in E. auto.
Qed.
Lemma number4_inv l n r : number 4 l = Found n r -> l = be_enc 4 n ++ r /\ n < 2 ^ 32.
Proof. unfold number. intro H. apply after_inv in H as (a & m & H & G). apply (be_inv 4) in H as [-> T]. apply give_inv in G as [-> ->]. auto. Qed.
Lemma number2_inv l n r : number 2 l = Found n r -> l = be_enc 2 n ++ r /\ n < 65536.
Proof. unfold number. intro H. apply after_inv in H as (a & m & H & G). apply (be_inv 2) in H as [-> T]. apply give_inv in G as [-> ->]. auto. Qed.
Lemma part_inv {A} n (w : scan A) l a r : part n w l = Found a r -> exists d m, l = d ++ r /\ lenN d = n /\ w d = Found a m.
Proof.
  unfold part. intro H. apply after_inv in H as (d & m & H & G). apply octets_inv in H as [-> L]. destruct (w d) as [x q| |] eqn:W; [|discriminate..].
  apply give_inv in G as [-> ->]. eauto.
Qed.
Lemma found_inv {A} (x : found A) : verdict_of x = Accepted -> exists a r, x = Found a r.
Proof. destruct x; [eauto | discriminate..]. Qed.
Ltac sc H a m G := apply after_inv in H as (a & m & G & H).

(** ** Fields of algorithms *)
Fixpoint lack_last (s : list slot) : Prop := match s with [] => True | x :: t => (may_lack x -> t = []) /\ lack_last t end.
Lemma mpi_data (d : bytes) bits : lenN d = (bits + 7) / 8 -> mpi_octets bits (lenN d).
Proof. intros ->. unfold mpi_octets. split; zify; Z.to_euclidean_division_equations; lia. Qed.
Lemma slot_inv s l u r : slot_scan s l = Found u r -> (exists f, fills s f /\ l = enc f ++ r) \/ (may_lack s /\ l = [] /\ r = []).
Proof.
  assert (forall x, (number 1 >> n ; octets n >> _ ; give tt) x = Found u r -> exists d, lenN d < 256 /\ x = len1 d ++ r) as B.
  { intros x H. sc H n m G. apply number1_inv in G as (b & -> & ->). sc H d m2 G. apply octets_inv in G as [-> L]. apply give_inv in H as [_ <-].
    exists d. pose proof (b2n_lt b). split; [lia|]. unfold len1. rewrite L, n2b_b2n. reflexivity. }
  destruct s as [n|n| | |n]; cbn [slot_scan]; intro H.
  - sc H bits m G. apply number2_inv in G as [-> T]. sc H d m2 G. apply octets_inv in G as [-> L]. apply give_inv in H as [_ <-]. left.
    exists (FMpi n bits d). cbn [fills wf enc]. split; [split; [reflexivity | split; [exact T | apply mpi_data, L]]|]. rewrite <- app_assoc. reflexivity.
  - sc H bits m G. apply number2_inv in G as [-> T]. sc H d m2 G. apply octets_inv in G as [-> L]. apply give_inv in H as [_ <-]. left.
    exists (FPoint n bits d). cbn [fills wf enc]. split; [split; [reflexivity | split; [exact T | apply mpi_data, L]]|]. rewrite <- app_assoc. reflexivity.
  - apply B in H as (d & L & ->). left. exists (FCurve d). auto.
  - unfold look in H. destruct l as [|y l]; [apply give_inv in H as [_ <-]; right; cbn; auto|]. apply B in H as (d & L & ->). left. exists (FKdf d). auto.
  - unfold look in H. destruct l as [|y l]; [apply give_inv in H as [_ <-]; right; cbn; auto|]. apply B in H as (d & L & ->). left. exists (FParm n d). cbn [fills wf]. auto.
Qed.
Lemma slots_inv s : lack_last s -> forall l u r, slots_scan s l = Found u r ->
  (exists fs, Forall2 fills s fs /\ l = encs fs ++ r) \/ (exists s' x fs, s = s' ++ [x] /\ may_lack x /\ Forall2 fills s' fs /\ l = encs fs /\ r = []).
Proof.
  induction s as [|x s IH]; intros LL l u r H; cbn [slots_scan fold_right] in H.
  - apply give_inv in H as [_ <-]. left. exists []. auto.
  - destruct LL as [L1 L2]. sc H y m G. destruct y. apply slot_inv in G as [(f & F & ->) | (M & -> & ->)].
    + destruct (IH L2 _ _ _ H) as [(fs & A & ->) | (s' & z & fs & -> & M & A & -> & ->)].
      * left. exists (f :: fs). split; [constructor; assumption|]. unfold encs. cbn [flat_map]. rewrite app_assoc. reflexivity.
      * right. exists (x :: s'), z, (f :: fs). repeat split; auto.
    + rewrite (L1 M) in *. cbn [fold_right] in H. apply give_inv in H as [_ <-]. right. exists [], x, []. repeat split; auto.
Qed.
Ltac layouts a := destruct a as [|p]; [intros H; inversion H|]; do 5 (destruct p as [p|p|]; try (intros H; cbn in H; inversion H; subst; cbn; intuition congruence)).
Lemma pub_last a s : pub_layout a = Some s -> lack_last s.
Proof. layouts a. Qed.
Lemma ses_last a s : ses_layout a = Some s -> lack_last s.
Proof. layouts a. Qed.
Lemma sig_last a s : sig_layout a = Some s -> Forall (fun x => exists n, x = SMpi n) s.
Proof. destruct a as [|p]; [discriminate|]. do 5 (destruct p as [p|p|]; try (intros H; cbn in H; inversion H; subst; repeat constructor; eexists; reflexivity)). Qed.
Lemma sec_last a s : sec_layout a = Some s -> Forall (fun x => exists n, x = SMpi n) s.
Proof. destruct a as [|p]; [discriminate|]. do 5 (destruct p as [p|p|]; try (intros H; cbn in H; inversion H; subst; repeat constructor; eexists; reflexivity)). Qed.
Lemma mpis_last s : Forall (fun x => exists n, x = SMpi n) s -> lack_last s.
Proof. induction 1 as [|x s (n & ->) _ IH]; cbn; [exact I|]. split; [intros [] | exact IH]. Qed.

Lemma fields_inv o E t label a l u r : (forall s, t (b2n a) = Some s -> lack_last s) -> fields_scan t (b2n a) l = Found u r ->
  exists is, fields_read o E t label a l is r.
Proof.
  intros HT H. unfold fields_scan in H. destruct (t (b2n a)) as [s|] eqn:T.
  - destruct (slots_inv s (HT _ eq_refl) _ _ _ H) as [(fs & F & ->) | (s' & x & fs & -> & M & F & -> & ->)].
    + eexists. apply f_all. exists s. auto.
    + eexists. eapply f_lacking; eassumption.
  - apply give_inv in H as [_ <-]. eexists. apply f_unknown, T.
Qed.
(** Numbers that end early. *)
Lemma mpi_missing n l why : slot_scan (SMpi n) l = Missing why -> exists f, fills (SMpi n) f /\ strict_prefix l (enc f).
Proof.
  cbn [slot_scan]. destruct l as [|x [|y d]]; intro H.
  - exists (FMpi n 0 []). split; [cbn; unfold mpi_octets; repeat split; lia|]. exists [x00; x00]. split; [discriminate | reflexivity].
  - pose proof (b2n_lt x). set (bits := b2n x * 256). set (k := (bits + 7) / 8).
    assert (lenN (repeat x00 (N.to_nat k)) = k) as LK by (unfold lenN; rewrite repeat_length; lia).
    exists (FMpi n bits (repeat x00 (N.to_nat k))). split; [cbn [fills wf]; split; [reflexivity|]; split; [lia | apply mpi_data, LK]|].
    assert (be_enc 2 bits = [x; x00]) as Q. { rewrite <- (be_enc_be [x; x00]). cbn [length]. f_equal. cbn. lia. }
    exists (x00 :: repeat x00 (N.to_nat k)). split; [discriminate|]. cbn [enc]. rewrite Q. reflexivity.
  - set (bits := be [x; y]). assert (be_enc 2 bits = [x; y]) as Q by apply (be_enc_be [x; y]).
    assert (bits < 65536) as LB by (unfold bits; pose proof (b2n_lt x); pose proof (b2n_lt y); cbn; lia).
    set (k := (bits + 7) / 8). assert (lenN d < k) as LD.
    { unfold after, number, after, octets in H. replace (2 <=? lenN (x :: y :: d)) with true in H by (unfold lenN; cbn [length]; lia).
      change (N.to_nat 2) with 2%nat in H. cbn [firstn skipn] in H. unfold give in H. fold bits in H. fold k in H. destruct (k <=? lenN d) eqn:K; [discriminate H | lia]. }
    assert (lenN (d ++ repeat x00 (N.to_nat (k - lenN d))) = k) as LK by (rewrite lenN_app; unfold lenN in *; rewrite repeat_length; lia).
    exists (FMpi n bits (d ++ repeat x00 (N.to_nat (k - lenN d)))). split; [cbn [fills wf]; split; [reflexivity|]; split; [exact LB | apply mpi_data, LK]|].
    exists (repeat x00 (N.to_nat (k - lenN d))). split; [intro Z; apply (f_equal (@length byte)) in Z; rewrite repeat_length in Z; cbn in Z; lia|].
    cbn [enc]. rewrite Q. reflexivity.
Qed.
Lemma mpis_missing s : Forall (fun x => exists n, x = SMpi n) s -> forall l why, slots_scan s l = Missing why ->
  exists s1 x s2 fs f q, s = s1 ++ x :: s2 /\ Forall2 fills s1 fs /\ fills x f /\ strict_prefix q (enc f) /\ l = encs fs ++ q.
Proof.
  induction 1 as [|x s (n & ->) FS IH]; intros l why H; [discriminate|]. cbn [slots_scan fold_right] in H. unfold after at 1 in H.
  destruct (slot_scan (SMpi n) l) as [u m| |] eqn:S.
  - apply slot_inv in S as [(f & F & ->) | ([] & _)]. destruct (IH _ _ H) as (s1 & x & s2 & fs & g & q & -> & A & B & C & ->).
    exists (SMpi n :: s1), x, s2, (f :: fs), g, q. repeat split; auto. unfold encs. cbn [flat_map]. apply app_assoc.
  - destruct (mpi_missing _ _ _ S) as (f & F & P). exists [], (SMpi n), s, [], f, l. repeat split; auto.
  - discriminate.
Qed.
Lemma mpis_calm s : Forall (fun x => exists n, x = SMpi n) s -> forall l, slots_scan s l <> Crash.
Proof.
  induction 1 as [|x s (n & ->) FS IH]; intros l; [discriminate|]. cbn [slots_scan fold_right]. unfold after at 1.
  destruct (slot_scan (SMpi n) l) as [u m| |] eqn:S; [apply IH | discriminate|]. exfalso. cbn [slot_scan] in S. unfold number, after, octets in S.
  destruct (2 <=? lenN l); [|discriminate]. unfold give in S. match type of S with context [if ?b then _ else _] => destruct b; discriminate end.
Qed.

(** ** Parts of keys *)
Lemma public_inv o E v l n r : public_scan (b2n v) l = Found n r -> exists a t is, n = b2n a /\ public_reads o E v l a t is r.
Proof.
  unfold public_scan. destruct (b2n v =? 5) eqn:V5; [|destruct (b2n v =? 4) eqn:V4; [|destruct (b2n v =? 3) eqn:V3]]; intro H.
  - sc H d m G. apply octets4_inv in G as (t & -> & T & ->). sc H a' m2 G. apply number1_inv in G as (a & -> & ->). sc H k m3 G. apply number4_inv in G as [-> K].
    sc H u m4 G. apply part_inv in G as (d & q & -> & L & F). apply give_inv in H as [-> <-].
    destruct (fields_inv o E pub_layout unknown_alg a _ _ _ (fun s => pub_last _ s) F) as (fs & R). eexists a, _, _. split; [reflexivity|]. rewrite <- L. eapply k_5; [lia | exact T | lia | exact R].
  - sc H d m G. apply octets4_inv in G as (t & -> & T & ->). sc H a' m2 G. apply number1_inv in G as (a & -> & ->). sc H u m3 G. apply give_inv in H as [-> <-].
    destruct (fields_inv o E pub_layout unknown_alg a _ _ _ (fun s => pub_last _ s) G) as (fs & R). eexists a, _, _. split; [reflexivity|]. eapply k_4; [lia | exact T | exact R].
  - sc H d m G. apply octets4_inv in G as (t & -> & T & ->). sc H d2 m1 G. apply octets2_inv in G as (days & -> & T2 & ->). sc H a' m2 G. apply number1_inv in G as (a & -> & ->). sc H u m3 G. apply give_inv in H as [-> <-].
    destruct (fields_inv o E pub_layout unknown_alg a _ _ _ (fun s => pub_last _ s) G) as (fs & R). eexists a, _, _. split; [reflexivity|]. eapply k_3; [lia | exact T | exact T2 | exact R].
  - apply give_inv in H as [-> <-]. exists x00, None, []. split; [reflexivity|]. apply k_other. cbn. lia.
Qed.
Lemma byte_is (b : byte) n : b2n b = n -> b = n2b n.
Proof. intros <-. symmetry. apply n2b_b2n. Qed.
Lemma specifier_inv o l iv r : specifier_scan l = Found iv r -> exists s, specifier_reads o l iv s r.
Proof.
  unfold specifier_scan. intro H. sc H ty m G. apply number1_inv in G as (b & -> & ->). destruct (b2n b =? 0) eqn:B0; [|destruct (b2n b =? 1) eqn:B1; [|destruct (b2n b =? 3) eqn:B3; [|destruct (b2n b =? 101) eqn:B101]]].
  - rewrite (byte_is b 0) by lia. sc H d m2 G. apply octets_inv in G as [-> L]. apply give_inv in H as [-> <-]. destruct d as [|h [|]]; try (exfalso; unfold lenN in L; cbn [length] in L; lia). eexists. apply (k_specifier o (S2Simple h)). exact I.
  - rewrite (byte_is b 1) by lia. sc H d m2 G. apply octets_inv in G as [-> L]. apply give_inv in H as [-> <-]. destruct d as [|h salt]; [discriminate L|]. eexists. apply (k_specifier o (S2Salted h salt)). cbn [s2k_wf]. unfold lenN in L. cbn [length] in L. lia.
  - rewrite (byte_is b 3) by lia. sc H d m2 G. apply octets_inv in G as [-> L]. apply give_inv in H as [-> <-]. destruct d as [|h d]; [discriminate L|].
    destruct (exists_last (l := d)) as (salt & c & ->); [intros ->; discriminate L|]. eexists. apply (k_specifier o (S2Iterated h salt c)). cbn [s2k_wf]. unfold lenN in L. cbn [length] in L. rewrite app_length in L. cbn [length] in L. lia.
  - rewrite (byte_is b 101) by lia. unfold look in H. destruct (lenN m <? 4) eqn:L4; [|destruct (beqs (firstn 3 m) (str "GNU")) eqn:GN].
    + apply give_inv in H as [-> <-]. eexists. apply k_private. left. lia.
    + apply beqs_spec in GN. sc H d m2 G. apply octets_inv in G as [-> L]. assert (d = str "GNU") as ->.
      { rewrite <- GN. assert (length d = 3%nat) as L3 by (unfold lenN in L; lia). rewrite <- L3. rewrite firstn_app, Nat.sub_diag, firstn_all. cbn [firstn]. symmetry. apply app_nil_r. }
      sc H k m3 G. apply number1_inv in G as (e & -> & ->). destruct (b2n e =? 2) eqn:E2.
      * sc H n m4 G. apply number1_inv in G as (c & -> & ->). sc H ser m5 G. apply octets_inv in G as [-> LS]. apply give_inv in H as [-> <-]. rewrite (byte_is e 2) by lia.
        pose proof (b2n_lt c). assert (c = n2b (lenN ser)) as -> by (rewrite LS, n2b_b2n; reflexivity). eexists. apply (k_specifier o (S2Card ser)). cbn [s2k_wf]. lia.
      * apply give_inv in H as [-> <-]. eexists. apply (k_specifier o (S2Gnu e)). cbn [s2k_wf]. lia.
    + apply give_inv in H as [-> <-]. eexists. apply k_private. right. intro Q. rewrite Q in GN. discriminate GN.
  - apply give_inv in H as [-> <-]. eexists. apply (k_specifier o (S2Other b)). cbn [s2k_wf In]. lia.
Qed.
Lemma optional_inv o E u l p r : optional_scan (b2n u) l = Found p r -> exists c is, fst p = b2n c /\ optional_reads o E u l c (snd p) is r.
Proof.
  unfold optional_scan. pose proof (b2n_lt u). destruct (b2n u =? 0) eqn:U0; intro H1.
  - apply give_inv in H1 as [-> <-]. exists x00, []. split; [reflexivity|]. apply o_none. lia.
  - sc H1 c' m G. apply number1_inv in G as (c & -> & ->). sc H1 q m2 G. sc H1 iv m3 G2. apply give_inv in H1 as [-> <-]. cbn [fst snd]. apply octets_inv in G as [-> L].
    destruct (b2n u =? 253) eqn:U253; [|destruct (253 <=? b2n u) eqn:US].
    + replace (253 <=? b2n u) with true in G2 by lia. destruct q as [|x [|]]; try (exfalso; unfold lenN in L; cbn [length] in L; lia). destruct (specifier_inv o _ _ _ G2) as (s & R). eexists c, _. split; [reflexivity|]. eapply o_aead; [lia | exact R].
    + destruct q; [|discriminate L]. destruct (specifier_inv o _ _ _ G2) as (s & R). eexists c, _. split; [reflexivity|]. eapply o_specifier; [lia | exact R].
    + destruct q; [|discriminate L]. apply give_inv in G2 as [-> <-]. eexists c, _. split; [reflexivity|]. apply o_cipher. lia.
Qed.
Lemma numbers_inv o E a l u r : numbers_scan (b2n a) l = Found u r -> exists is, numbers_read o E a l is r.
Proof.
  unfold numbers_scan. destruct (sec_layout (b2n a)) as [s|] eqn:S; intro H.
  - pose proof (sec_last _ _ S) as M. destruct (slots_inv s (mpis_last _ M) _ _ _ H) as [(fs & F & ->) | (s' & x & fs & -> & MX & _)].
    + eexists. apply n_known. exists s. auto.
    + apply Forall_app in M as [_ M]. inversion M as [|y ys (n & ->)]. destruct MX.
  - unfold look in H. destruct l as [|x [|y l]]; [discriminate..|]. sc H d m G. apply octets_inv in G as [Q L]. apply give_inv in H as [_ <-].
    assert (lenN m = 2) as LM by (apply (f_equal lenN) in Q; rewrite lenN_app in Q; unfold lenN in *; cbn [length] in *; lia).
    destruct m as [|w [|z [|]]]; try (exfalso; unfold lenN in LM; cbn [length] in LM; lia). rewrite Q. eexists. apply n_unknown, S.
Qed.
Lemma iv_inv p l u r : iv_scan p l = Found u r -> exists w, l = w ++ r /\ lenN w = (if snd p then cipher_iv_octets (fst p) else 0).
Proof. unfold iv_scan. intro H. sc H w m G. apply octets_inv in G as [-> L]. apply give_inv in H as [_ <-]. eauto. Qed.
Lemma secret_inv o E v a l u r : secret_scan (b2n v) (b2n a) l = Found u r -> exists note is, secret_reads o E v a l note is r.
Proof.
  unfold secret_scan. intro H. sc H u' m G. apply number1_inv in G as (us & -> & ->). destruct (b2n v =? 5) eqn:V5.
  - sc H n m2 G. apply number1_inv in G as (nb & -> & ->). sc H x m3 G.
    assert (exists is1, counted_options o E us (nb :: m2) is1 m3) as (is1 & C1).
    { destruct (b2n nb =? 0) eqn:N0.
      - apply give_inv in G as [_ <-]. rewrite (byte_is nb 0) by lia. eexists. apply co_none.
      - sc G p m4 G2. apply part_inv in G2 as (d & q & -> & L & F). destruct (optional_inv o E us _ _ _ F) as (c & is & Q & R). apply iv_inv in G as (w & -> & LW).
        rewrite Q in LW. pose proof (b2n_lt nb). rewrite (byte_is nb (lenN d)) by lia. eexists. eapply co_some; [lia | exact R | exact LW]. }
    clear G. unfold look in H. destruct (lenN m3 <? 4) eqn:L4; [discriminate|]. sc H k m4 G. apply number4_inv in G as [-> K].
    assert (exists note is2, counted_numbers o E a us (be_enc 4 k ++ m4) note is2 r) as (note & is2 & C2).
    { destruct (k =? 0) eqn:K0; [|destruct (b2n us =? 0) eqn:U0].
      - apply give_inv in H as [_ <-]. replace k with 0 by lia. do 2 eexists. apply cn_none.
      - sc H y m5 G. apply part_inv in G as (d & q & -> & L & F). destruct y. destruct (numbers_inv o E a _ _ _ F) as (is & R). sc H chk m6 G. apply octets_inv in G as [-> LC]. apply give_inv in H as [_ <-].
        rewrite <- L. do 2 eexists. eapply cn_plain; [lia | lia | exact R | unfold lenN in LC; lia].
      - sc H d m5 G. apply octets_inv in G as [-> L]. apply give_inv in H as [_ <-]. rewrite <- L. do 2 eexists. apply cn_sealed; lia. }
    do 2 eexists. eapply x_counted; [lia | exact C1 | exact C2].
  - sc H p m2 G. destruct (optional_inv o E us _ _ _ G) as (c & is & Q & R). sc H x m3 G2. apply iv_inv in G2 as (w & -> & LW). rewrite Q in LW. destruct (b2n us =? 0) eqn:U0.
    + destruct p as [pc iv]. cbn [fst snd] in *. inversion R; subst; try lia. cbv iota in LW. destruct w; [|exfalso; unfold lenN in LW; cbn [length] in LW; lia]. cbn [app] in *. sc H y m5 G2. destruct y. destruct (numbers_inv o E a _ _ _ G2) as (is & RN).
      sc H chk m6 G3. apply octets_inv in G3 as [-> LC]. apply give_inv in H as [_ <-]. rewrite (byte_is us 0) by lia. do 2 eexists. eapply x_plain; [lia | exact RN | unfold lenN in LC; lia].
    + unfold rest_taken in H. injection H as _ <-. do 2 eexists. eapply x_sealed; [lia | lia | exact R | exact LW].
Qed.

(** ** Signatures of version 3: every octet sequence is described *)
Lemma hashed_total o E d : d <> [] -> exists it x, hashed_reads o E d it x.
Proof.
  destruct d as [|n d]; [congruence|]. intros _. destruct (N.eq_dec (b2n n) 5) as [H5|H5].
  - rewrite (byte_is n 5 H5). change (n2b 5) with x05. destruct d as [|t d]; [do 2 eexists; apply h_five_none|]. destruct (le_lt_dec 4 (length d)) as [L|L].
    + assert (octets 4 d = Found (firstn 4 d) (skipn 4 d)) as Q by (unfold octets; replace (4 <=? lenN d) with true by (unfold lenN; lia); reflexivity).
      apply octets4_inv in Q as (tm & Q & T & _). rewrite Q. do 2 eexists. apply h_five, T.
    + do 2 eexists. apply h_five_type, L.
  - destruct (N.le_gt_cases (b2n n) (lenN d)) as [L|L].
    + assert (octets (b2n n) d = Found (firstn (N.to_nat (b2n n)) d) (skipn (N.to_nat (b2n n)) d)) as Q by (unfold octets; replace (b2n n <=? lenN d) with true by lia; reflexivity).
      apply octets_inv in Q as (Q & L2). rewrite Q. do 2 eexists. apply h_other; assumption.
    + do 2 eexists. apply h_other_cut; assumption.
Qed.
Lemma tail_total o E d : exists l, tail_reads o E d l.
Proof.
  destruct (le_lt_dec 8 (length d)) as [L|L]; [|eexists; apply l_none, L].
  rewrite <- (firstn_skipn 8 d). set (id := firstn 8 d). assert (length id = 8%nat) as LI by (unfold id; rewrite firstn_length; lia). generalize (skipn 8 d). clearbody id. clear d L. intro d.
  destruct d as [|a [|h d]]; [rewrite app_nil_r; eexists; apply l_issuer, LI | eexists; apply l_public, LI|].
  destruct d as [|x [|y d]]; [eexists; apply l_hash; [exact LI | cbn; lia].. |].
  change (x :: y :: d) with ([x; y] ++ d). destruct (fields_scan sig_layout (b2n a) d) as [u r| |] eqn:F.
  - destruct (fields_inv o E sig_layout sig_label a _ _ _ (fun s Q => mpis_last _ (sig_last _ s Q)) F) as (fs & R). eexists. eapply l_all; [exact LI | reflexivity | exact R].
  - unfold fields_scan in F. destruct (sig_layout (b2n a)) as [s|] eqn:S; [|discriminate]. destruct (mpis_missing s (sig_last _ _ S) _ _ F) as (s1 & z & s2 & fs & f & q & -> & A & B & C & ->).
    eexists. eapply l_cut; [exact LI | reflexivity | exact S | exact A | exact B | exact C].
  - unfold fields_scan in F. destruct (sig_layout (b2n a)) as [s|] eqn:S; [|discriminate]. exfalso. exact (mpis_calm _ (sig_last _ _ S) _ F).
Qed.
