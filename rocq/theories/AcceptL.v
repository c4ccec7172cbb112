(** * AcceptL: how reading fields ends (C63). *)
From Coq Require Import Strings.String Strings.Byte List NArith ZArith Bool Lia ZifyBool ZifyN ZifyNat.
From Verif Require Import Base BaseL SpecBase Item Reader ReaderL SpecReader Context Env Time Values Opaque Monad MonadL Pubkey S2k Subs Tags
  SpecValues SpecPacket SpecAccept.
From Verif Require RedactL RedactTagL FramingL.
Import ListNotations.
Local Open Scope N_scope.

Notation bind_same := RedactL.bind_same.
Notation head_of := RedactL.head_of.
Notation be_below := RedactL.be_below.

(** From [rest]: goes on where the scan does, fails where octets are missing, with an error that tells so, panics where the scan crashes. *)
Definition reads {A W} (m : M A) (w : scan W) (R : A -> W -> Prop) (rest : bytes) : Prop :=
  forall B cs it, suf B rest ->
  match w rest with
  | Found b t => (exists d, rest = d ++ t) /\ exists a cs1 it1, R a b /\ m (sat B rest cs it) = (ROk a, sat B t cs1 it1)
  | Missing k => exists e s1, tells e k /\ m (sat B rest cs it) = (RErr e, s1)
  | Crash => exists s1, m (sat B rest cs it) = (RPanic, s1)
  end.
Definition any {A B} : A -> B -> Prop := fun _ _ => True.

Lemma dec_bind {A B W V} (m : M A) (f : A -> M B) (w : scan W) (g : W -> scan V) R R2 rest :
  reads m w R rest -> (forall a b rest2, R a b -> (length rest2 <= length rest)%nat -> reads (f a) (g b) R2 rest2) -> reads (bind m f) (after w g) R2 rest.
Proof.
  intros H K C cs it S. unfold after. specialize (H C cs it S). destruct (w rest) as [b t|k|].
  - destruct H as [[d ->] (a & cs1 & it1 & Rab & M1)]. specialize (K a b t Rab ltac:(rewrite app_length; lia) C cs1 it1 (suf_app _ _ _ S)).
    rewrite (bind_ok _ f _ _ _ M1). destruct (g b t) as [b2 t2| |]; [|exact K..]. destruct K as [[d2 ->] K]. split; [|exact K]. exists (d ++ d2). apply app_assoc.
  - destruct H as (e & s1 & T & M1). exists e, s1. split; [exact T | apply bind_err, M1].
  - destruct H as (s1 & M1). exists s1. apply bind_panic, M1.
Qed.
Lemma bind_cong {A B} (m : M A) (f g : A -> M B) s : (forall a t, f a t = g a t) -> bind m f s = bind m g s.
Proof. intro H. unfold bind. destruct (m s) as [[a|e| |] t]; auto. Qed.
Lemma dec_ext {A W} (m k : M A) (w v : scan W) R rest : (forall s, k s = m s) -> v rest = w rest -> reads m w R rest -> reads k v R rest.
Proof. intros H1 H2 K B cs it S. rewrite H1, H2. apply K, S. Qed.
Lemma after_assoc {A B C} (w : scan A) (f : A -> scan B) (g : B -> scan C) l : after (after w f) g l = after w (fun a => after (f a) g) l.
Proof. unfold after. destruct (w l); reflexivity. Qed.
Lemma after_end {A} (w : scan A) l : after w give l = w l.
Proof. unfold after, give. destruct (w l); reflexivity. Qed.
Lemma after_unit (w : scan unit) l : after w (fun _ => give tt) l = w l.
Proof. unfold after, give. destruct (w l) as [[] t|k|]; reflexivity. Qed.
Lemma after_ext {A B} (w : scan A) (f g : A -> scan B) l : (forall a t, f a t = g a t) -> after w f l = after w g l.
Proof. intro H. unfold after. destruct (w l); auto. Qed.

Lemma dec_ret {A W} (a : A) (b : W) (R : A -> W -> Prop) rest : R a b -> reads (ret a) (give b) R rest.
Proof. intros H B cs it S. split; [exists []; reflexivity|]. exists a, cs, it. auto. Qed.
Notation quiet := RedactL.quiet.
Lemma dec_quiet {A C W} (m : M A) a g (f : A -> M C) (w : scan W) R rest : quiet m a g -> (forall x, reads (f x) w R rest) -> reads (bind m f) w R rest.
Proof. intros H K B cs it S. rewrite (bind_ok _ f _ _ _ (H _)). cbn [sat s_rd s_cs s_cur]. exact (K (a cs it) B _ _ S). Qed.
Lemma dec_upd {C W} h (f : unit -> M C) (w : scan W) R rest : reads (f tt) w R rest -> reads (bind (upd h) f) w R rest.
Proof. intro K. apply (dec_quiet _ _ _ _ _ _ _ (RedactL.quiet_upd h)). intros []. exact K. Qed.
Lemma dec_upd_end h W (b : W) (R : unit -> W -> Prop) rest : R tt b -> reads (upd h) (give b) R rest.
Proof.
  intro H. eapply (dec_ext (bind (upd h) ret)); [intro s; reflexivity | reflexivity|]. apply dec_upd. apply dec_ret, H.
Qed.
Lemma dec_rest {C W} (f : Z -> M C) (w : scan W) R rest : reads (f (lenZ rest)) w R rest -> reads (bind rdRest f) w R rest.
Proof. intros K B cs it S. rewrite (bind_ok _ f _ _ _ (rdRest_at _ _ _ _ S)). apply K, S. Qed.
Lemma dec_child {A W} i (m : M A) (w : scan W) R rest : reads m w R rest -> reads (child i m) w R rest.
Proof.
  intros K B cs it S. specialize (K B cs i S). unfold child. cbn [sat s_rd s_cs s_cur]. change (mkSt (at_ B rest) cs i) with (sat B rest cs i). destruct (w rest) as [b t| |].
  - destruct K as [D (a & cs1 & it1 & Ra & ->)]. split; [exact D|]. cbn [sat s_rd s_cs s_cur]. eexists a, cs1, _. split; [exact Ra | reflexivity].
  - destruct K as (e & s1 & T & ->). eauto.
  - destruct K as (s1 & ->). eauto.
Qed.
Lemma dec_assoc {A B C W} (m : M A) (f : A -> M B) (g : B -> M C) (w : scan W) R rest : reads (bind m (fun a => bind (f a) g)) w R rest -> reads (bind (bind m f) g) w R rest.
Proof. apply dec_ext; [apply bind_assoc | reflexivity]. Qed.
Lemma dec_wassoc {A X Y Z} (m : M A) (w : scan X) (f : X -> scan Y) (g : Y -> scan Z) R rest : reads m (after w (fun a => after (f a) g)) R rest -> reads m (after (after w f) g) R rest.
Proof. apply dec_ext; [reflexivity | apply after_assoc]. Qed.
Lemma dec_ret_bind {A B W} (a : A) (f : A -> M B) (w : scan W) R rest : reads (f a) w R rest -> reads (bind (ret a) f) w R rest.
Proof. intro H. exact H. Qed.
Lemma dec_small {A W} (m : M A) (w : scan W) R rest : ((lenZ rest < 2 ^ 62)%Z -> reads m w R rest) -> reads m w R rest.
Proof. intros K B cs it S. pose proof (suf_len _ _ S) as [G1 G2]. apply K; [lia | exact S]. Qed.
Lemma dec_unit {A W} (m : M A) (w : scan W) R rest : reads m w R rest -> reads m (after w (fun _ => give tt)) any rest.
Proof.
  intros K B cs it S. specialize (K B cs it S). unfold after, give. destruct (w rest) as [b t| |]; [|exact K..]. destruct K as [D (a & cs1 & it1 & _ & M1)].
  split; [exact D|]. exists a, cs1, it1. split; [exact I | exact M1].
Qed.
Lemma dec_look {A W} (m : M A) (f : bytes -> scan W) R rest : reads m (f rest) R rest -> reads m (look f) R rest.
Proof. intro K. exact K. Qed.
Lemma dec_end {A C W} (m : M A) (f : A -> M C) (w : scan W) R R2 rest :
  reads m w R rest -> (forall a b rest2, R a b -> (length rest2 <= length rest)%nat -> reads (f a) (give b) R2 rest2) -> reads (bind m f) w R2 rest.
Proof. intros H K. apply (dec_ext (bind m f) _ (after w give)); [reflexivity | symmetry; apply after_end|]. apply (dec_bind m f w give R R2 rest H K). Qed.

(** ** Octets *)
Lemma dec_octets {A V} z n (f : bytes -> M A) (g : bytes -> scan V) R rest : z = Z.of_N n -> n < 2 ^ 62 ->
  (forall d rest2, lenN d = n -> rest = d ++ rest2 -> reads (f d) (g d) R rest2) -> reads (bind (rdBytes z) f) (after (octets n) g) R rest.
Proof.
  intros -> L K B cs it S. unfold after, octets. destruct (n <=? lenN rest) eqn:Q.
  - destruct (FramingL.split_at (N.to_nat n) rest) as (d & t & E & LB); [unfold lenN in Q; lia|].
    assert (firstn (N.to_nat n) rest = d) as -> by (rewrite E, <- LB, firstn_app, Nat.sub_diag, firstn_all; cbn; apply app_nil_r).
    assert (skipn (N.to_nat n) rest = t) as -> by (rewrite E, <- LB, skipn_app, Nat.sub_diag, skipn_all; reflexivity).
    subst rest. rewrite (bind_ok _ f _ _ _ (rdBytes_at B d t (Z.of_N n) cs it S ltac:(unfold lenZ; lia))).
    specialize (K d t ltac:(unfold lenN; lia) eq_refl B cs it (suf_app _ _ _ S)). destruct (g d t) as [b2 t2| |]; [|exact K..].
    destruct K as [[d2 ->] K]. split; [|exact K]. exists (d ++ d2). apply app_assoc.
  - eexists _, _. split; [|apply bind_err; apply rdBytes_short; [exact S | unfold lenN in Q; unfold lenZ; lia | lia]]. destruct (is_nil rest); cbn; auto.
Qed.
Lemma dec_number {A V} z n (f : bytes -> M A) (g : N -> scan V) R rest : z = Z.of_N n -> n < 2 ^ 62 ->
  (forall d rest2, lenN d = n -> rest = d ++ rest2 -> reads (f d) (g (be d)) R rest2) -> reads (bind (rdBytes z) f) (after (number n) g) R rest.
Proof.
  intros E L K. apply (dec_ext (bind (rdBytes z) f) _ (after (octets n) (fun l => g (be l)))); [reflexivity | | apply dec_octets; assumption].
  unfold number. rewrite after_assoc. apply after_ext. reflexivity.
Qed.
Lemma dec_byte {A V} (f : byte -> M A) (g : N -> scan V) R rest :
  (forall b rest2, rest = b :: rest2 -> reads (f b) (g (b2n b)) R rest2) -> reads (bind rdByte f) (after (number 1) g) R rest.
Proof.
  intro K. eapply dec_ext; [apply RedactL.rdByte_bind | reflexivity|]. apply dec_number; [reflexivity | reflexivity|]. intros d rest2 D E.
  pose proof (RedactL.one_octet d D) as X. replace (be d) with (b2n (head_of d)) by (rewrite X; cbn; lia). apply K. rewrite E, X at 1. reflexivity.
Qed.
Lemma dec_octet {A V} (f : byte -> M A) (g : bytes -> scan V) R rest :
  (forall b rest2, rest = b :: rest2 -> reads (f b) (g [b]) R rest2) -> reads (bind rdByte f) (after (octets 1) g) R rest.
Proof.
  intro K. eapply dec_ext; [apply RedactL.rdByte_bind | reflexivity|]. apply dec_octets; [reflexivity | reflexivity|]. intros d rest2 D E.
  pose proof (RedactL.one_octet d D) as X. rewrite X at 2. apply K. rewrite E, X at 1. reflexivity.
Qed.
(** Octets of which nothing is used are found together. *)
Lemma octets_sum {V} n m (g : scan V) l : after (octets (n + m)) (fun _ => g) l = after (octets n) (fun _ => after (octets m) (fun _ => g)) l.
Proof.
  unfold after, octets. destruct (n <=? lenN l) eqn:Q1.
  - destruct (m <=? lenN (skipn (N.to_nat n) l)) eqn:Q2; unfold lenN in *; rewrite skipn_length in Q2.
    + replace (n + m <=? N.of_nat (length l)) with true by lia. rewrite RedactL.skipn_twice. f_equal. f_equal. lia.
    + replace (n + m <=? N.of_nat (length l)) with false by lia. reflexivity.
  - replace (n + m <=? lenN l) with false by lia. reflexivity.
Qed.
Lemma octets_none {V} (g : scan V) l : after (octets 0) (fun _ => g) l = g l.
Proof. unfold after, octets. replace (0 <=? lenN l) with true by lia. reflexivity. Qed.
Lemma dec_sum {A V} n m k (c : M A) (g : scan V) R rest : k = n + m -> reads c (after (octets n) (fun _ => after (octets m) (fun _ => g))) R rest -> reads c (after (octets k) (fun _ => g)) R rest.
Proof. intros ->. apply dec_ext; [reflexivity | apply octets_sum]. Qed.
Lemma dec_none {A V} (c : M A) (g : scan V) R rest : reads c g R rest -> reads c (after (octets 0) (fun _ => g)) R rest.
Proof. apply dec_ext; [reflexivity | apply octets_none]. Qed.

(** ** Octets read on their own *)
Lemma dec_with {A C W V} n z (m : M A) (f : A * reader -> M C) (w : scan W) (g : W -> scan V) R R2 rest :
  z = Z.of_N n -> n < 2 ^ 62 -> (forall d, lenN d = n -> (length d <= length rest)%nat -> reads m w R d) ->
  (forall d a b t rest2, R a b -> suf d t -> reads (f (a, at_ d t)) (g b) R2 rest2) ->
  reads (bind (rdBytes z) (fun d => bind (with_rd (r_new d) m) f)) (after (part n w) g) R2 rest.
Proof.
  intros Hz Hn K H. unfold part. apply dec_wassoc. apply dec_octets; [exact Hz | exact Hn|]. intros d rest2 LD E B cs it S.
  assert (lenZ d < 2 ^ 62)%Z as LZ by (unfold lenN, lenZ in *; lia). pose proof (suf_refl d LZ) as SD. specialize (K d LD ltac:(rewrite E, app_length; lia) d cs it SD).
  unfold after at 1. unfold bind, with_rd. cbn [sat s_rd s_cs s_cur]. rewrite !at_new. unfold sat in K. destruct (w d) as [b t| |].
  - destruct K as [[p Ep] (a & cs1 & it1 & Rab & M1)]. rewrite M1. cbn [s_rd s_cs s_cur give]. assert (suf d t) as ST by (rewrite Ep in SD at 2; exact (suf_app _ _ _ SD)).
    exact (H d a b t rest2 Rab ST B cs1 it1 S).
  - destruct K as (e & s1 & T & ->). eauto.
  - destruct K as (s1 & ->). eauto.
Qed.

(** ** Fields of algorithms *)
Section Off.
Variable o : opts.

Lemma dec_mpi (k : mpi -> item) nm rest : reads (let* m := newMPI in add (k m)) (slot_scan (SMpi nm)) any rest.
Proof.
  unfold newMPI. cbn [slot_scan]. apply dec_assoc. apply dec_number; [reflexivity | reflexivity|]. intros d r D _. cbv zeta.
  apply be_below in D. change (256 ^ 2) with 65536 in D. apply dec_assoc. apply dec_octets; [lia | lia|]. intros x r2 _ _. apply dec_ret_bind. apply dec_upd_end. exact I.
Qed.
Lemma dec_curve rest : reads addOID (slot_scan SCurve) any rest.
Proof.
  unfold addOID. cbn [slot_scan].
  apply (dec_ext (bind rdByte (fun l => bind (rdBytes (Z.of_N (b2n l))) (fun oid => add (oid_item oid true)))) _ (after (number 1) (fun n => after (octets n) (fun _ => give tt)))); [| reflexivity|].
  1: intro s; unfold newOID; rewrite bind_assoc; unfold bind at 1 3; destruct (rdByte s) as [[b|e| |] s1]; try reflexivity;
    destruct (b2n b =? 0) eqn:Z; [|reflexivity]; apply N.eqb_eq in Z; rewrite Z; destruct s1; reflexivity.
  apply dec_byte. intros b r2 _. apply dec_octets; [reflexivity | pose proof (b2n_lt b); lia|]. intros d r3 _ _. apply dec_upd_end. exact I.
Qed.
Lemma dec_parm (k : bytes -> item) nm rest : reads (let* ep := newECParm in add (k ep)) (slot_scan (SParm nm)) any rest.
Proof.
  cbn [slot_scan]. unfold look. destruct rest as [|b rest].
  - intros B cs it S. rewrite (bind_ok _ _ _ _ _ (RedactL.newECParm_nil _ _ _ S)). exact (dec_upd_end (add_child (k [])) unit tt any [] I B cs it S).
  - assert (reads (let* ep := bind rdByte (fun n => rdBytes (Z.of_N (b2n n))) in add (k ep)) (number 1 >> n ; octets n >> _ ; give tt) any (b :: rest)) as K.
    { apply dec_assoc. apply dec_byte. intros c r _. pose proof (b2n_lt c). apply dec_octets; [reflexivity | lia|]. intros d r2 _ _. apply dec_upd_end. exact I. }
    intros B cs it S. rewrite (bind_same _ _ (fun ep => add (k ep)) _ (RedactL.newECParm_some b B rest cs it S)). exact (K B cs it S).
Qed.
Lemma dec_dump {C W} f (k : bytes -> M C) (w : scan W) R rest : (forall x, reads (k x) w R rest) -> reads (bind (dumpRest f) k) w R rest.
Proof. intros K B cs it S. rewrite (bind_ok _ k _ _ _ (dumpRest_at f B rest cs it S)). apply K, S. Qed.
Lemma dec_raw {C W} name f (k : item -> M C) (w : scan W) R rest : (forall x, reads (k x) w R rest) -> reads (bind (rawData name f) k) w R rest.
Proof. intros K B cs it S. rewrite (bind_ok _ k _ _ _ (rawData_at name f B rest cs it S)). apply K, S. Qed.
Lemma dec_sized size name rest : reads (addSized o size name) (give tt) any rest.
Proof. unfold addSized. apply dec_dump. intro x. apply dec_upd_end. exact I. Qed.
Lemma dec_addRest name f rest : reads (addRest name f) (give tt) any rest.
Proof.
  unfold addRest. apply dec_rest. destruct (0 <? lenZ rest)%Z; [|apply dec_ret; exact I]. apply dec_raw. intro x. apply dec_upd_end. exact I.
Qed.
Lemma dec_addMPI n nm rest : reads (addMPI o n) (slot_scan (SMpi nm)) any rest.
Proof. exact (dec_mpi (fun m => mpi_item n m (oInteger o)) nm rest). Qed.
Lemma dec_point alg nm rest : reads (addPoint o alg) (slot_scan (SPoint nm)) any rest.
Proof. exact (dec_mpi (fun m => mpi_item (point_name alg (mpi_flag m)) m (oInteger o)) nm rest). Qed.
Lemma dec_kdf rest : reads (let* ep := newECParm in add (kdf_item o ep)) (slot_scan SKdf) any rest.
Proof. exact (dec_parm (kdf_item o) ""%string rest). Qed.
Lemma dec_sparm n nm rest : reads (let* ep := newECParm in add (ecparm_item n ep (oInteger o))) (slot_scan (SParm nm)) any rest.
Proof. exact (dec_parm (fun ep => ecparm_item n ep (oInteger o)) nm rest). Qed.
Ltac slot := first [apply dec_addMPI | apply dec_point | apply dec_curve | apply dec_kdf | apply dec_sparm].
Ltac slots := cbv beta iota delta [fields_scan pub_layout ses_layout sig_layout sec_layout slots_scan fold_right];
  repeat (eapply dec_bind; [slot | intros _ _ ? _ _]); first [eapply dec_unit; slot | apply dec_sized].
Lemma dec_pub pub rest : reads (parsePub o pub) (fields_scan pub_layout (b2n pub)) any rest.
Proof.
  unfold parsePub. apply dec_rest.
  destruct (isRSA pub) eqn:H1; [replace (fields_scan pub_layout (b2n pub)) with (fields_scan pub_layout 1) by (destruct pub; try discriminate H1; reflexivity); unfold rsaPub; slots|].
  destruct (isDSA pub) eqn:H2; [replace (fields_scan pub_layout (b2n pub)) with (fields_scan pub_layout 17) by (destruct pub; try discriminate H2; reflexivity); unfold dsaPub; slots|].
  destruct (isElgamal pub) eqn:H3; [replace (fields_scan pub_layout (b2n pub)) with (fields_scan pub_layout 16) by (destruct pub; try discriminate H3; reflexivity); unfold elgPub; slots|].
  destruct (isECDH pub) eqn:H4; [replace (fields_scan pub_layout (b2n pub)) with (fields_scan pub_layout 18) by (destruct pub; try discriminate H4; reflexivity); unfold ecdhPub; slots|].
  destruct (isECDSA pub) eqn:H5; [replace (fields_scan pub_layout (b2n pub)) with (fields_scan pub_layout 19) by (destruct pub; try discriminate H5; reflexivity); unfold ecdsaPub; slots|].
  destruct (isEdDSA pub) eqn:H6; [replace (fields_scan pub_layout (b2n pub)) with (fields_scan pub_layout 22) by (destruct pub; try discriminate H6; reflexivity); unfold eddsaPub; slots|].
  replace (fields_scan pub_layout (b2n pub)) with (fields_scan pub_layout 0)
    by (destruct pub; try reflexivity; first [discriminate H1|discriminate H2|discriminate H3|discriminate H4|discriminate H5|discriminate H6]).
  slots.
Qed.
Lemma dec_ses pub rest : reads (parseSes o pub) (fields_scan ses_layout (b2n pub)) any rest.
Proof.
  unfold parseSes. apply dec_rest.
  destruct (isRSA pub) eqn:H1; [replace (fields_scan ses_layout (b2n pub)) with (fields_scan ses_layout 1) by (destruct pub; try discriminate H1; reflexivity); slots|].
  destruct (isDSA pub) eqn:H2; [replace (fields_scan ses_layout (b2n pub)) with (fields_scan ses_layout 17) by (destruct pub; try discriminate H2; reflexivity); slots|].
  destruct (isElgamal pub) eqn:H3; [replace (fields_scan ses_layout (b2n pub)) with (fields_scan ses_layout 16) by (destruct pub; try discriminate H3; reflexivity); slots|].
  destruct (isECDH pub) eqn:H4; [replace (fields_scan ses_layout (b2n pub)) with (fields_scan ses_layout 18) by (destruct pub; try discriminate H4; reflexivity); slots|].
  destruct (isECDSA pub) eqn:H5; [replace (fields_scan ses_layout (b2n pub)) with (fields_scan ses_layout 19) by (destruct pub; try discriminate H5; reflexivity); slots|].
  destruct (isEdDSA pub) eqn:H6; [replace (fields_scan ses_layout (b2n pub)) with (fields_scan ses_layout 22) by (destruct pub; try discriminate H6; reflexivity); slots|].
  replace (fields_scan ses_layout (b2n pub)) with (fields_scan ses_layout 0)
    by (destruct pub; try reflexivity; first [discriminate H1|discriminate H2|discriminate H3|discriminate H4|discriminate H5|discriminate H6]).
  slots.
Qed.
Lemma dec_sig pub rest : reads (parseSig o pub) (fields_scan sig_layout (b2n pub)) any rest.
Proof.
  unfold parseSig. apply dec_rest.
  destruct (isRSA pub) eqn:H1; [replace (fields_scan sig_layout (b2n pub)) with (fields_scan sig_layout 1) by (destruct pub; try discriminate H1; reflexivity); slots|].
  destruct (isDSA pub) eqn:H2; [replace (fields_scan sig_layout (b2n pub)) with (fields_scan sig_layout 17) by (destruct pub; try discriminate H2; reflexivity); slots|].
  destruct (isElgamal pub) eqn:H3; [replace (fields_scan sig_layout (b2n pub)) with (fields_scan sig_layout 16) by (destruct pub; try discriminate H3; reflexivity); slots|].
  destruct (isECDH pub) eqn:H4; [replace (fields_scan sig_layout (b2n pub)) with (fields_scan sig_layout 18) by (destruct pub; try discriminate H4; reflexivity); slots|].
  destruct (isECDSA pub) eqn:H5; [replace (fields_scan sig_layout (b2n pub)) with (fields_scan sig_layout 19) by (destruct pub; try discriminate H5; reflexivity); slots|].
  destruct (isEdDSA pub) eqn:H6; [replace (fields_scan sig_layout (b2n pub)) with (fields_scan sig_layout 22) by (destruct pub; try discriminate H6; reflexivity); slots|].
  replace (fields_scan sig_layout (b2n pub)) with (fields_scan sig_layout 0)
    by (destruct pub; try reflexivity; first [discriminate H1|discriminate H2|discriminate H3|discriminate H4|discriminate H5|discriminate H6]).
  slots.
Qed.
Lemma dec_unknownSec size pub rest : size = lenZ rest -> reads (unknownSec o size pub) (numbers_scan 0) any rest.
Proof.
  intros ->. unfold unknownSec, numbers_scan. cbn [sec_layout]. cbv zeta. destruct rest as [|a [|b rest]].
  - intros B cs it S. unfold look. exists EEof. eexists. split; [left; reflexivity|]. apply bind_err. pose proof (suf_len _ _ S) as [G1 G2]. unfold rdBytes, on_rd, sat. cbn [s_rd s_cs s_cur].
    unfold r_readbytes, r_size, at_. cbn [r_off r_buf]. change (lenZ []) with 0%Z in *. change (0 - 2 =? 0)%Z with false. cbv iota. rewrite Z.sub_0_r.
    replace (lenZ B >=? lenZ B)%Z with true by lia. reflexivity.
  - intros B cs it S. unfold look. eexists. apply bind_panic. pose proof (suf_len _ _ S) as [G1 G2]. unfold rdBytes, on_rd, sat. cbn [s_rd s_cs s_cur].
    unfold r_readbytes, r_size, at_. cbn [r_off r_buf]. change (lenZ [a]) with 1%Z in *. change (1 - 2 =? 0)%Z with false. cbv iota.
    replace (lenZ B - 1 >=? lenZ B)%Z with false by lia. rewrite wrap64_small by lia.
    match goal with |- context [if (?a >? ?b)%Z then _ else _] => replace (a >? b)%Z with false by lia end.
    match goal with |- context [if ?a || ?b then _ else _] => replace (a || b) with true by lia end. reflexivity.
  - apply dec_small. intro LZ. unfold look. apply dec_octets; [unfold lenN, lenZ in *; cbn [length] in *; lia | unfold lenN, lenZ in *; cbn [length] in *; lia|].
    intros d r2 _ _. apply dec_upd_end. exact I.
Qed.
Lemma dec_plain pub rest : reads (parseSecPlain o pub) (numbers_scan (b2n pub)) any rest.
Proof.
  unfold parseSecPlain. apply dec_rest.
  assert (forall a l, sec_layout a = Some l -> numbers_scan a = fields_scan sec_layout a) as N by (intros a l H; unfold numbers_scan, fields_scan; rewrite H; reflexivity).
  destruct (isRSA pub) eqn:H1; [replace (numbers_scan (b2n pub)) with (numbers_scan 1) by (destruct pub; try discriminate H1; reflexivity); rewrite (N 1 _ eq_refl); unfold rsaSec; slots|].
  destruct (isDSA pub) eqn:H2; [replace (numbers_scan (b2n pub)) with (numbers_scan 17) by (destruct pub; try discriminate H2; reflexivity); rewrite (N 17 _ eq_refl); slots|].
  destruct (isElgamal pub) eqn:H3; [replace (numbers_scan (b2n pub)) with (numbers_scan 16) by (destruct pub; try discriminate H3; reflexivity); rewrite (N 16 _ eq_refl); slots|].
  destruct (isECDH pub) eqn:H4; [replace (numbers_scan (b2n pub)) with (numbers_scan 18) by (destruct pub; try discriminate H4; reflexivity); rewrite (N 18 _ eq_refl); slots|].
  destruct (isECDSA pub) eqn:H5; [replace (numbers_scan (b2n pub)) with (numbers_scan 19) by (destruct pub; try discriminate H5; reflexivity); rewrite (N 19 _ eq_refl); slots|].
  destruct (isEdDSA pub) eqn:H6; [replace (numbers_scan (b2n pub)) with (numbers_scan 22) by (destruct pub; try discriminate H6; reflexivity); rewrite (N 22 _ eq_refl); slots|].
  replace (numbers_scan (b2n pub)) with (numbers_scan 0)
    by (destruct pub; try reflexivity; first [discriminate H1|discriminate H2|discriminate H3|discriminate H4|discriminate H5|discriminate H6]).
  apply dec_unknownSec. reflexivity.
Qed.
Lemma dec_enc pub rest : reads (parseSecEnc o pub) rest_taken any rest.
Proof.
  unfold parseSecEnc. apply dec_rest. apply (dec_ext (let* d := dumpRest (oDebug o) in bind (add (Item (secenc_name pub) [] d (n_bytes (lenZ rest)) [])) (fun _ => bind (rdSeek 0 2) (fun _ => ret tt))) _ rest_taken);
    [intro s; unfold addSized; rewrite bind_assoc; reflexivity | reflexivity|]. apply dec_dump. intro x. apply dec_upd.
  intros B cs it S. pose proof (suf_len _ _ S) as [G1 G2]. pose proof (lenZ_nonneg B) as GN.
  split; [exists rest; symmetry; apply app_nil_r|]. exists tt, cs, it. split; [exact I|]. unfold bind, rdSeek, on_rd, sat, r_seek, r_size, at_. cbn [s_rd s_cs s_cur r_buf r_off].
  change (2 =? 0)%Z with false. change (2 =? 1)%Z with false. change (2 =? 2)%Z with true. cbv iota beta zeta. rewrite Z.add_0_r, (wrap64_small (lenZ B)) by lia.
  replace ((lenZ B <? 0)%Z || (lenZ B >? lenZ B)%Z) with false by lia. rewrite lenZ_nil, Z.sub_0_r. reflexivity.
Qed.

(** ** String-to-key specifiers *)
Ltac upd_ := apply dec_upd.
Ltac ends := apply dec_upd_end; exact I.
Ltac octet_ := apply dec_octet; intros ? ? _.
Ltac octets_ := apply dec_octets; [reflexivity | reflexivity|]; intros ? ? _ _.
Lemma dec_s2k f rest : reads (s2k_parse f) specifier_scan eq rest.
Proof.
  unfold s2k_parse, specifier_scan. apply dec_byte. intros b rest2 _. apply dec_child. unfold s2k_fields. cbv zeta.
  destruct (b2n b =? 0) eqn:H0; [cbn [orb negb]|destruct (b2n b =? 1) eqn:H1; [cbn [orb negb]|destruct (b2n b =? 3) eqn:H3; [cbn [orb negb]|cbn [orb]]]].
  - octet_. upd_. apply dec_ret_bind. replace (b2n b =? 3) with false by lia. apply dec_ret_bind. apply dec_ret. reflexivity.
  - apply (dec_sum 1 8); [reflexivity|]. octet_. upd_. apply dec_assoc. octets_. upd_. replace (b2n b =? 3) with false by lia. apply dec_ret_bind. apply dec_ret. reflexivity.
  - apply (dec_sum 1 9); [reflexivity|]. octet_. upd_. apply dec_assoc. apply (dec_sum 8 1); [reflexivity|]. octets_. upd_. apply dec_assoc. octet_. upd_. apply dec_ret. reflexivity.
  - destruct (b2n b =? 101); [|apply dec_ret; reflexivity]. apply dec_rest. apply dec_look.
    replace (lenZ rest2 <? 4)%Z with (lenN rest2 <? 4) by (unfold lenN, lenZ; lia). destruct (lenN rest2 <? 4) eqn:L4; [apply dec_ret; reflexivity|].
    destruct (FramingL.split_at 3 rest2) as (d & t & E & LB); [unfold lenN in L4; lia|].
    assert (firstn 3 rest2 = d) as FD by (rewrite E, <- LB, firstn_app, Nat.sub_diag, firstn_all; cbn; apply app_nil_r). rewrite FD.
    destruct (beqs d (str "GNU")) eqn:G.
    + apply dec_octets; [reflexivity | reflexivity|]. intros d2 r4 L2 E2.
      assert (d2 = d) as ->. { rewrite E2 in FD. rewrite firstn_app in FD. unfold lenN in L2. replace (3 - length d2)%nat with 0%nat in FD by lia. rewrite firstn_O, app_nil_r, firstn_all2 in FD by lia. exact FD. }
      rewrite G. apply dec_byte. intros k r5 _. cbv zeta. destruct (b2n k =? 2) eqn:K2.
      * replace (1000 + b2n k =? 1002) with true by lia. apply dec_assoc. apply dec_byte. intros l r6 _. apply dec_assoc. apply dec_octets; [reflexivity | pose proof (b2n_lt l); lia|].
        intros d3 r7 _ _. apply dec_ret_bind. upd_. apply dec_ret. reflexivity.
      * replace (1000 + b2n k =? 1002) with false by lia. apply dec_ret_bind. upd_. apply dec_ret. reflexivity.
    + intros B cs it S. split; [exists []; reflexivity|]. exists true, cs, it. split; [reflexivity|]. subst rest2.
      erewrite bind_ok by (apply (rdBytes_at B d t); [exact S | unfold lenZ; lia]). rewrite G. pose proof (suf_len _ _ S) as [U1 U2]. rewrite lenZ_app in U1. pose proof (lenZ_nonneg t).
      unfold bind, rdSeek, on_rd, sat, r_seek, r_size. cbn [s_rd s_cs s_cur r_buf r_off at_]. change (1 =? 0)%Z with false. change (1 =? 1)%Z with true. cbv iota beta zeta.
      unfold at_. cbn [r_buf r_off]. rewrite wrap64_small by (unfold lenZ in *; lia).
      match goal with |- context [if ?c then _ else _] => replace c with false by (unfold lenZ in *; lia) end.
      unfold ret. f_equal. f_equal. unfold lenZ in *. rewrite app_length. f_equal. lia.
Qed.

(** ** Keys *)
Notation is_octet := RedactTagL.is_octet.
Lemma dec_keyTime E {C W} (f : unit -> M C) (g : scan W) R rest : (forall r, (length r <= length rest)%nat -> reads (f tt) g R r) -> reads (bind (keyTime o E) f) (after (octets 4) (fun _ => g)) R rest.
Proof.
  intro K. unfold keyTime, newDateTime. apply dec_assoc. apply dec_assoc. apply dec_octets; [reflexivity | reflexivity|]. intros d r _ EQ. apply dec_ret_bind. apply dec_assoc.
  eapply dec_quiet; [apply RedactL.quiet_setKey|]. intros _. upd_. apply K. rewrite EQ, app_length. lia.
Qed.
Lemma dec_keyAlg {C W} (f : byte -> M C) (g : N -> scan W) R rest : (forall b r, (length r <= length rest)%nat -> reads (f b) (g (b2n b)) R r) -> reads (bind (keyAlg o) f) (after (number 1) g) R rest.
Proof. intro K. unfold keyAlg. apply dec_assoc. apply dec_byte. intros b r EQ. apply dec_assoc. upd_. apply dec_ret_bind. apply K. rewrite EQ. cbn [length]. lia. Qed.
Lemma dec_public E v rest : reads (pub_parse o E (PubVer v)) (public_scan (b2n v)) is_octet rest.
Proof.
  unfold pub_parse, public_scan. rewrite RedactTagL.pubver_draft, RedactTagL.pubver_cur, RedactTagL.pubver_old. destruct (b2n v =? 5); [|destruct (b2n v =? 4); [|destruct (b2n v =? 3)]].
  - unfold pubV5. apply dec_keyTime. intros r _. apply dec_keyAlg. intros a r2 _. apply dec_number; [reflexivity | reflexivity|]. intros d r3 D _. apply be_below in D. change (256 ^ 4) with (2 ^ 32) in D.
    apply (dec_with (be d) _ _ _ _ _ any); [reflexivity | lia | |].
    + intros x _ _. apply dec_pub.
    + intros x [] [] t r4 _ _. apply dec_ret. reflexivity.
  - unfold pubV4. apply dec_keyTime. intros r _. apply dec_keyAlg. intros a r2 _. eapply dec_bind; [apply dec_pub|]. intros [] [] r3 _ _. apply dec_ret. reflexivity.
  - unfold pubV3. apply dec_keyTime. intros r _. octets_. upd_. apply dec_keyAlg. intros a r3 _. eapply dec_bind; [apply dec_pub|]. intros [] [] r4 _ _. apply dec_ret. reflexivity.
  - apply dec_ret. reflexivity.
Qed.
Notation core := (RedactTagL.core o).
Notation iv_step := RedactTagL.iv_step.
Notation opts_rel := RedactTagL.opts_rel.
Lemma dec_core u rest : reads (core (b2n u)) (optional_scan (b2n u)) (opts_rel (b2n u)) rest.
Proof.
  unfold RedactTagL.core, optional_scan. destruct (b2n u =? 0) eqn:U; [apply dec_ret; split; reflexivity|].
  apply dec_assoc. apply dec_byte. intros c r _. apply dec_assoc. upd_. apply dec_ret_bind.
  assert (forall r2, reads (let* iv := (if usage_s2k (b2n u) then s2k_parse (oDebug o) else ret true) in ret (c, iv))
    ((if 253 <=? b2n u then specifier_scan else give true) >> iv; give (b2n c, iv)) (opts_rel (b2n u)) r2) as K.
  { intro r2. replace (usage_s2k (b2n u)) with (253 <=? b2n u) by (unfold usage_s2k; pose proof (b2n_lt u); lia).
    apply (dec_bind _ _ _ _ eq); [destruct (253 <=? b2n u); [apply dec_s2k | apply dec_ret; reflexivity]|].
    intros iv b r3 <- _. apply dec_ret. split; [reflexivity|]. rewrite U. discriminate. }
  destruct (b2n u =? 253).
  - apply dec_assoc. octet_. upd_. apply K.
  - apply dec_ret_bind. apply dec_none. apply K.
Qed.
Lemma dec_iv u p b rest : opts_rel u p b -> reads (iv_step u p) (iv_scan b) any rest.
Proof.
  intros [-> H]. unfold RedactTagL.iv_step, iv_scan. cbn [fst snd]. destruct (u =? 0); [rewrite (H eq_refl); apply dec_none, dec_ret; exact I|]. cbn [negb andb].
  destruct (snd p); [|apply dec_none, dec_ret; exact I]. unfold sec_iv. apply dec_assoc. apply dec_octets; [apply RedactTagL.ivlen_octets | apply RedactTagL.cipher_iv_small|].
  intros d r _ _. apply dec_ret_bind. ends.
Qed.
Lemma dec_part_rest name f d t rest : suf d t -> reads (let* _ := opt_run (Some (at_ d t)) (addRest name f) in ret tt) (give tt) any rest.
Proof.
  intros S B cs it S1. split; [exists []; reflexivity|]. unfold opt_run, bind, with_rd, sat. cbn [s_cs s_cur s_rd]. change (mkSt (at_ d t) cs it) with (sat d t cs it).
  pose proof (dec_addRest name f t d cs it S) as K. cbn [give] in K. destruct K as [_ (a & cs1 & it1 & _ & ->)]. cbn [s_cs s_cur s_rd fst snd ret sat]. exists tt, cs1, it1. split; [exact I | reflexivity].
Qed.
Lemma dec_len4 {C W} (f : bytes -> M C) (g : N -> scan W) R rest : (forall d r, lenN d = 4 -> rest = d ++ r -> reads (f d) (g (be d)) R r) ->
  reads (bind readLen4 f) (look (fun l => if lenN l <? 4 then fun _ => Crash else after (number 4) g)) R rest.
Proof.
  intro K. unfold look. intros B cs it S. destruct (lenN rest <? 4) eqn:L.
  - eexists. apply bind_panic. unfold readLen4. rewrite rdBytes_short by (assumption || (unfold lenN, lenZ in *; lia)). reflexivity.
  - pose proof (dec_number 4 4 f g R rest eq_refl eq_refl K B cs it S) as H.
    assert (bind readLen4 f (sat B rest cs it) = bind (rdBytes 4) f (sat B rest cs it)) as ->; [|exact H].
    unfold bind, readLen4. destruct (FramingL.split_at 4 rest) as (d & t & -> & LD); [unfold lenN in L; lia|]. rewrite (rdBytes_at B d t 4%Z cs it S) by (unfold lenZ; lia). reflexivity.
Qed.
Lemma dec_bind_none {A W} (m : M unit) (f : unit -> M A) (w : scan W) R rest : reads m (give tt) any rest -> reads (f tt) w R rest -> reads (bind m f) w R rest.
Proof.
  intros H K B cs it S. specialize (H B cs it S). cbn [give] in H. destruct H as [_ ([] & cs1 & it1 & _ & M1)]. rewrite (bind_ok _ f _ _ _ M1). apply K, S.
Qed.
Lemma dec_secret v pub rest : reads (sec_parse o (PubVer v) pub) (secret_scan (b2n v) (b2n pub)) any rest.
Proof.
  unfold sec_parse, secret_scan. apply dec_byte. intros u r _. cbv zeta. unfold getField1, getField2. change (v_num (PubVer v)) with (b2n v). destruct (b2n v =? 5) eqn:V.
  - apply dec_assoc. apply dec_byte. intros n r2 _.
    assert (forall r3, reads
       (let* f2 := (let* l := readLen4 in if be l =? 0 then ret None else let* b := rdBytes (Z.of_N (be l)) in ret (Some (Some (r_new b)))) in
        match f2 with Some ro => sec_material o (PubVer v) pub (b2n u) ro | None => ret tt end)
       (look (fun l => if lenN l <? 4 then fun _ => Crash else number 4 >> m ;
          if m =? 0 then give tt
          else if b2n u =? 0 then part m (numbers_scan (b2n pub)) >> _ ; octets 2 >> _ ; give tt
          else octets m >> _ ; give tt)) any r3) as K2.
    { intro r3. apply dec_assoc. apply dec_len4. intros d r4 D _. apply be_below in D. change (256 ^ 4) with (2 ^ 32) in D. destruct (be d =? 0); [apply dec_ret_bind, dec_ret; exact I|].
      apply dec_assoc. unfold sec_material. change (v_num (PubVer v)) with (b2n v). rewrite V. destruct (b2n u =? 0) eqn:U.
      - set (last := fun p : unit * option reader => bind (let* chk := rdBytes 2 in add (it_nd (str "2-octet checksum") (dump_bytes chk true)) ;; ret p) (fun p => let* _ := opt_run (snd p) (addRest sUnknownData (oDebug o)) in ret tt)).
        apply (dec_ext (bind (rdBytes (Z.of_N (be d))) (fun b => bind (with_rd (r_new b) (setNote (usage_note (b2n u)) ;; parseSecPlain o pub)) (fun p => last (fst p, Some (snd p)))))
          _ (part (be d) (numbers_scan (b2n pub)) >> _ ; octets 2 >> _ ; give tt)); [| reflexivity|].
        { intro s. unfold last, opt_run, setNote, bind, with_rd, ret, upd. destruct (rdBytes (Z.of_N (be d)) s) as [[b|e| |] s1]; try reflexivity. cbn [s_rd s_cs s_cur].
          destruct (parseSecPlain o pub _) as [[x|e| |] s2]; reflexivity. }
        apply (dec_with (be d) _ _ _ _ _ any); [reflexivity | lia | |].
        + intros x _ _. upd_. apply dec_plain.
        + intros x [] [] t r5 _ ST. unfold last. cbn [fst snd]. apply dec_assoc. octets_. apply dec_assoc. upd_. apply dec_ret_bind. cbn [snd]. apply dec_part_rest, ST.
      - apply (dec_ext (bind (rdBytes (Z.of_N (be d))) (fun b => bind (with_rd (r_new b) (setNote (usage_note (b2n u)) ;; parseSecEnc o pub)) (fun p => let* _ := opt_run (Some (snd p)) (addRest sUnknownData (oDebug o)) in ret tt)))
          _ (part (be d) rest_taken >> _ ; give tt)).
        { intro s. unfold opt_run, setNote, bind, with_rd, ret, upd. destruct (rdBytes (Z.of_N (be d)) s) as [[b|e| |] s1]; try reflexivity. cbn [s_rd s_cs s_cur].
          destruct (parseSecEnc o pub _) as [[x|e| |] s2]; reflexivity. }
        { unfold part, rest_taken. rewrite after_assoc. reflexivity. }
        apply (dec_with (be d) _ _ _ _ _ any); [reflexivity | lia | |].
        + intros x _ _. upd_. apply dec_enc.
        + intros x [] [] t r5 _ ST. apply dec_part_rest, ST. }
    destruct (b2n n =? 0).
    + apply dec_ret_bind. apply dec_ret_bind. eapply dec_ext; [reflexivity | | apply K2]. reflexivity.
    + apply dec_assoc. apply dec_wassoc.
      apply (dec_ext (bind (rdBytes (Z.of_N (b2n n))) (fun b => bind (with_rd (r_new b) (core (b2n u))) (fun p => bind (iv_step (b2n u) (fst p)) (fun _ => bind (let* _ := opt_run (Some (snd p)) (addRest sUnknownData (oDebug o)) in ret tt) (fun _ =>
         (let* f2 := (let* l := readLen4 in if be l =? 0 then ret None else let* b := rdBytes (Z.of_N (be l)) in ret (Some (Some (r_new b)))) in
        match f2 with Some ro => sec_material o (PubVer v) pub (b2n u) ro | None => ret tt end))))))
        _ (part (b2n n) (optional_scan (b2n u)) >> p ; iv_scan p >> _ ; look (fun l => if lenN l <? 4 then fun _ => Crash else number 4 >> m ;
          if m =? 0 then give tt
          else if b2n u =? 0 then part m (numbers_scan (b2n pub)) >> _ ; octets 2 >> _ ; give tt
          else octets m >> _ ; give tt))); [| reflexivity|].
      { intro s. apply bind_cong. intros b s1.
        etransitivity; [refine (bind_same (sec_opts o (PubVer v) (b2n u) (Some (r_new b))) _ _ _ (RedactTagL.opts_part o (PubVer v) (b2n u) (r_new b) s1 V))|].
        rewrite bind_assoc. apply bind_cong. intros p s2. apply bind_assoc. }
      apply (dec_with (b2n n) _ _ _ _ _ (opts_rel (b2n u))); [reflexivity | pose proof (b2n_lt n); lia | |].
      * intros x _ _. apply dec_core.
      * intros x a b t r3 Rab ST. cbn [fst snd]. apply (dec_bind _ _ _ _ any); [apply dec_iv, Rab|]. intros [] [] r4 _ _. apply dec_bind_none; [apply dec_part_rest, ST | apply K2].
  - apply dec_ret_bind. eapply dec_ext; [intro s; apply bind_same, RedactTagL.opts_own; exact V | reflexivity|]. apply dec_assoc.
    apply (dec_bind _ _ _ _ (opts_rel (b2n u))); [apply dec_core|]. intros a b r2 Rab _. apply (dec_bind _ _ _ _ any); [apply dec_iv, Rab|]. intros [] [] r3 _ _.
    apply dec_ret_bind. unfold sec_material. change (v_num (PubVer v)) with (b2n v). rewrite V. upd_. destruct (b2n u =? 0).
    + apply dec_assoc. unfold opt_run. apply dec_assoc. apply (dec_bind _ _ _ _ any); [apply dec_plain|]. intros [] [] r4 _ _.
      apply dec_ret_bind. apply dec_assoc. octets_. apply dec_assoc. upd_. apply dec_ret_bind. apply dec_ret. exact I.
    + unfold opt_run. apply dec_assoc. apply (dec_end _ _ _ any); [apply dec_enc|]. intros [] [] r4 _ _. apply dec_ret_bind. apply dec_ret. exact I.
Qed.
End Off.
