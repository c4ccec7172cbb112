(** * ReadsL: programs that consume a known string of octets, all or nothing. *)
From Coq Require Import Strings.String Strings.Byte List NArith ZArith Bool Lia ZifyBool ZifyN ZifyNat.
From Verif Require Import Base BaseL SpecBase Item Reader ReaderL SpecReader Context Env Values Monad MonadL Pubkey S2k Subs SpecPacket.
Import ListNotations.
Local Open Scope Z_scope.


(** [m] in front of the octets [d] consumes exactly them, returns [a], and changes context and current item by
    [ec] and [ei]. *)
Definition runs {A} (m : M A) (d : bytes) (a : A) (ec : cst -> cst) (ei : item -> item) : Prop :=
  forall B rest cs it, suf B (d ++ rest) -> m (sat B (d ++ rest) cs it) = (ROk a, sat B rest (ec cs) (ei it)).
(** If the input ends inside [d], [m] fails. *)
Definition cuts {A} (m : M A) (d : bytes) : Prop :=
  forall B q cs it, suf B q -> strict_prefix q d ->
    exists e s, m (sat B q cs it) = (RErr e, s) /\ (e = EEof \/ e = EUnexp).
(** On the octets [d ++ extra] at the end of the input, [m] succeeds. *)
Definition ends {A} (m : M A) (d extra : bytes) (a : A) (ec : cst -> cst) (ei : item -> item) : Prop :=
  forall B cs it, suf B (d ++ extra) ->
    exists s, m (sat B (d ++ extra) cs it) = (ROk a, s) /\ s_cs s = ec cs /\ s_cur s = ei it.

Definition same {A} (x : A) : A := x.

(** Adding children. *)
Definition adds (l : list item) (i : item) : item :=
  let '(Item n v d t k) := i in Item n v d t (k ++ l).
Lemma adds_nil i : adds [] i = i.
Proof. destruct i. cbn. rewrite app_nil_r. reflexivity. Qed.
Lemma adds_adds a b i : adds b (adds a i) = adds (a ++ b) i.
Proof. destruct i. cbn. rewrite app_assoc. reflexivity. Qed.
Lemma add_child_adds c i : add_child c i = adds [c] i.
Proof. destruct i. reflexivity. Qed.
Definition opt_list {A} (o : option A) : list A := match o with Some x => [x] | None => [] end.
Lemma add_opt_adds c i : add_opt c i = adds (opt_list c) i.
Proof. destruct c; [apply add_child_adds | symmetry; apply adds_nil]. Qed.

Lemma strict_prefix_nil q : ~ strict_prefix q [].
Proof. intros (t & NE & E). destruct q, t; try discriminate. congruence. Qed.

Lemma strict_prefix_app q d1 d2 : strict_prefix q (d1 ++ d2) ->
  strict_prefix q d1 \/ exists q2, q = d1 ++ q2 /\ strict_prefix q2 d2.
Proof.
  revert q. induction d1 as [|b d1 IH]; intros q H.
  - right. exists q. auto.
  - destruct q as [|c q].
    + left. exists (b :: d1). split; [discriminate|reflexivity].
    + destruct H as (t & NE & E). cbn [app] in E. injection E as -> E.
      destruct (IH q) as [(t' & NE' & ->)|(q2 & -> & S)]; [exists t; auto | |].
      * left. exists t'. auto.
      * right. exists q2. auto.
Qed.

Lemma strict_prefix_len q d : strict_prefix q d -> lenZ q < lenZ d.
Proof.
  intros (t & NE & ->). rewrite lenZ_app. destruct t as [|b t]; [congruence|]. rewrite lenZ_cons. pose proof (lenZ_nonneg t). lia.
Qed.

Lemma strict_prefix_firstn k (d : bytes) : (k < length d)%nat -> strict_prefix (firstn k d) d.
Proof.
  intro H. exists (skipn k d). split.
  - intro E. pose proof (skipn_length k d) as L. rewrite E in L. cbn in L. lia.
  - symmetry. apply firstn_skipn.
Qed.

(** ** Sequencing *)

Lemma runs_ret {A} (a : A) : runs (ret a) [] a same same.
Proof. intros B rest cs it H. reflexivity. Qed.
Lemma runs_bind {A B} (m : M A) (f : A -> M B) d1 d2 a b ec1 ec2 ei1 ei2 :
  runs m d1 a ec1 ei1 -> runs (f a) d2 b ec2 ei2 ->
  runs (bind m f) (d1 ++ d2) b (fun c => ec2 (ec1 c)) (fun i => ei2 (ei1 i)).
Proof.
  intros F1 F2 Bf rest cs it H. rewrite <- app_assoc in *.
  erewrite bind_ok by (apply F1; exact H). apply F2. eapply suf_app. exact H.
Qed.
Lemma cuts_bind {A B} (m : M A) (f : A -> M B) d1 d2 a ec1 ei1 :
  cuts m d1 -> runs m d1 a ec1 ei1 -> cuts (f a) d2 -> cuts (bind m f) (d1 ++ d2).
Proof.
  intros S1 F1 S2 Bf q cs it H SP. apply strict_prefix_app in SP as [SP|(q2 & -> & SP)].
  - destruct (S1 Bf q cs it H SP) as (e & s & E & X). exists e, s. split; [|exact X]. apply bind_err. exact E.
  - erewrite bind_ok by (apply F1; exact H). apply S2; [eapply suf_app; exact H | exact SP].
Qed.
Lemma cuts_first {A B} (m : M A) (f : A -> M B) d : cuts m d -> cuts (bind m f) d.
Proof.
  intros S Bf q cs it H SP. destruct (S Bf q cs it H SP) as (e & s & E & X). exists e, s. split; [|exact X]. apply bind_err. exact E.
Qed.
Lemma cuts_nil {A} (m : M A) : cuts m [].
Proof. intros B q cs it _ S. destruct (strict_prefix_nil _ S). Qed.
Lemma ends_bind {A B} (m : M A) (f : A -> M B) d1 d2 extra a b ec1 ec2 ei1 ei2 :
  runs m d1 a ec1 ei1 -> ends (f a) d2 extra b ec2 ei2 ->
  ends (bind m f) (d1 ++ d2) extra b (fun c => ec2 (ec1 c)) (fun i => ei2 (ei1 i)).
Proof.
  intros F1 F2 Bf cs it H. rewrite <- app_assoc in *.
  erewrite bind_ok by (apply F1; exact H). apply F2. eapply suf_app. exact H.
Qed.
(** The same when [m] consumes all of [d]. *)
Lemma runs_bind0 {A B} (m : M A) (f : A -> M B) d a b ec1 ec2 ei1 ei2 :
  runs m d a ec1 ei1 -> runs (f a) [] b ec2 ei2 ->
  runs (bind m f) d b (fun c => ec2 (ec1 c)) (fun i => ei2 (ei1 i)).
Proof. intros F1 F2. rewrite <- (app_nil_r d). exact (runs_bind m f d [] a b ec1 ec2 ei1 ei2 F1 F2). Qed.
Lemma ends_bind0 {A B} (m : M A) (f : A -> M B) d extra a b ec1 ec2 ei1 ei2 :
  runs m d a ec1 ei1 -> ends (f a) [] extra b ec2 ei2 ->
  ends (bind m f) d extra b (fun c => ec2 (ec1 c)) (fun i => ei2 (ei1 i)).
Proof. intros F1 F2. rewrite <- (app_nil_r d). exact (ends_bind m f d [] extra a b ec1 ec2 ei1 ei2 F1 F2). Qed.
Lemma runs_ends {A} (m : M A) d extra a ec ei : runs m d a ec ei -> ends m d extra a ec ei.
Proof. intros F B cs it H. eexists. split; [apply F; exact H | split; reflexivity]. Qed.
(** Nothing follows that looks at the reader. *)
Lemma ends_then {A B} (m : M A) (f : A -> M B) d extra a b ec1 ec2 ei1 ei2 :
  ends m d extra a ec1 ei1 ->
  (forall s, exists s', f a s = (ROk b, s') /\ s_cs s' = ec2 (s_cs s) /\ s_cur s' = ei2 (s_cur s)) ->
  ends (bind m f) d extra b (fun c => ec2 (ec1 c)) (fun i => ei2 (ei1 i)).
Proof.
  intros F1 F2 Bf cs it H. destruct (F1 Bf cs it H) as (s & E & C & I).
  destruct (F2 s) as (s' & E' & C' & I'). exists s'. split; [|split; [rewrite C', C | rewrite I', I]; reflexivity].
  erewrite bind_ok by exact E. exact E'.
Qed.

Lemma runs_ext {A} (m : M A) d d' a ec ec' ei ei' :
  runs m d a ec ei -> d = d' -> (forall c, ec c = ec' c) -> (forall i, ei i = ei' i) -> runs m d' a ec' ei'.
Proof. intros F <- Ec Ei B rest cs it H. rewrite <- Ec, <- Ei. apply F. assumption. Qed.
Lemma ends_ext {A} (m : M A) d d' extra a ec ec' ei ei' :
  ends m d extra a ec ei -> d = d' -> (forall c, ec c = ec' c) -> (forall i, ei i = ei' i) -> ends m d' extra a ec' ei'.
Proof. intros F <- Ec Ei B cs it H. rewrite <- Ec, <- Ei. apply F. assumption. Qed.
Lemma runs_ext0 {A} (m : M A) d a ec ec' ei ei' :
  runs m d a ec ei -> (forall c, ec c = ec' c) -> (forall i, ei i = ei' i) -> runs m d a ec' ei'.
Proof. intros. eapply runs_ext; try eassumption. reflexivity. Qed.
Lemma ends_ext0 {A} (m : M A) d extra a ec ec' ei ei' :
  ends m d extra a ec ei -> (forall c, ec c = ec' c) -> (forall i, ei i = ei' i) -> ends m d extra a ec' ei'.
Proof. intros. eapply ends_ext; try eassumption. reflexivity. Qed.
Lemma cuts_ext {A} (m : M A) d d' : cuts m d -> d = d' -> cuts m d'.
Proof. intros F <-. exact F. Qed.

(** ** Primitive steps *)

Lemma runs_byte b : runs rdByte [b] b same same.
Proof. intros B rest cs it H. apply rdByte_at. assumption. Qed.
Lemma cuts_byte b : cuts rdByte [b].
Proof.
  intros B q cs it H SP. pose proof (strict_prefix_len _ _ SP) as L. change (lenZ [b]) with 1 in L.
  assert (q = []) as -> by (apply lenZ_0; lia). exists EEof. eexists. split; [apply rdByte_eof; assumption | auto].
Qed.
Lemma runs_bytes n d : n = lenZ d -> runs (rdBytes n) d d same same.
Proof. intros E B rest cs it H. apply rdBytes_at; assumption. Qed.
Lemma cuts_bytes n d : n = lenZ d -> n < 2 ^ 62 -> cuts (rdBytes n) d.
Proof.
  intros E L B q cs it H SP. apply strict_prefix_len in SP. eexists. eexists. split.
  - apply rdBytes_short; [assumption | lia | assumption].
  - destruct (is_nil q); auto.
Qed.
Lemma runs_add c : runs (add c) [] tt same (adds [c]).
Proof. intros B rest cs it H. rewrite add_at, add_child_adds. reflexivity. Qed.
Lemma runs_addo c : runs (addo c) [] tt same (adds (opt_list c)).
Proof. intros B rest cs it H. rewrite addo_at, add_opt_adds. reflexivity. Qed.
Lemma runs_upd f : runs (upd f) [] tt same f.
Proof. intros B rest cs it H. reflexivity. Qed.
Lemma runs_setMode x : runs (setMode x) [] tt (with_mode x) same.
Proof. intros B rest cs it H. reflexivity. Qed.
Lemma runs_setSig x : runs (setSig x) [] tt (with_sig x) same.
Proof. intros B rest cs it H. reflexivity. Qed.
Lemma runs_setKey x : runs (setKey x) [] tt (with_key x) same.
Proof. intros B rest cs it H. reflexivity. Qed.

Lemma runs_child {A} it0 (m : M A) d a ec ei : runs m d a ec ei -> runs (child it0 m) d a ec (adds [ei it0]).
Proof.
  intros F B rest cs it H. unfold child.
  change (mkSt (s_rd (sat B (d ++ rest) cs it)) (s_cs (sat B (d ++ rest) cs it)) it0) with (sat B (d ++ rest) cs it0).
  rewrite F by assumption. cbn [sat s_rd s_cs s_cur]. rewrite add_child_adds. reflexivity.
Qed.
Lemma cuts_child {A} it0 (m : M A) d : cuts m d -> cuts (child it0 m) d.
Proof.
  intros S B q cs it H SP. destruct (S B q cs it0 H SP) as (e & s & E & X). exists e. eexists. split; [|exact X].
  unfold child. change (mkSt (s_rd (sat B q cs it)) (s_cs (sat B q cs it)) it0) with (sat B q cs it0). rewrite E. reflexivity.
Qed.
Lemma ends_child {A} it0 (m : M A) d extra a ec ei : ends m d extra a ec ei ->
  ends (child it0 m) d extra a ec (adds [ei it0]).
Proof.
  intros F B cs it H. destruct (F B cs it0 H) as (s & E & C & I). unfold child.
  change (mkSt (s_rd (sat B (d ++ extra) cs it)) (s_cs (sat B (d ++ extra) cs it)) it0) with (sat B (d ++ extra) cs it0).
  rewrite E. eexists. split; [reflexivity|]. cbn [s_cs s_cur sat]. rewrite I, add_child_adds. auto.
Qed.

(** A size that is read but does not matter. *)
Lemma runs_rest {A} (f : Z -> M A) d a ec ei : (forall n, runs (f n) d a ec ei) -> runs (bind rdRest f) d a ec ei.
Proof. intros F B rest cs it H. erewrite bind_ok by (apply rdRest_at; assumption). apply F. assumption. Qed.
Lemma cuts_rest {A} (f : Z -> M A) d : (forall n, cuts (f n) d) -> cuts (bind rdRest f) d.
Proof. intros F B rest cs it H SP. erewrite bind_ok by (apply rdRest_at; assumption). apply F; assumption. Qed.

(** Programs that look at everything that is left. *)
Lemma ends_rest {A} (f : Z -> M A) d extra a ec ei :
  ends (f (lenZ (d ++ extra))) d extra a ec ei -> ends (bind rdRest f) d extra a ec ei.
Proof. intros F B cs it H. erewrite bind_ok by (apply rdRest_at; assumption). apply F; assumption. Qed.
Lemma ends_addRest n f extra : ends (addRest n f) [] extra tt same (adds (opt_list (rest_item n f extra))).
Proof. intros B cs it H. cbn [app] in *. rewrite addRest_at by assumption. eexists. rewrite add_opt_adds. split; [reflexivity|auto]. Qed.
Lemma ends_rawData {A} n f (g : item -> M A) extra a ec ei :
  ends (g (Item n [] (dump_bytes extra f) (n_bytes (lenZ extra)) [])) [] extra a ec ei -> ends (bind (rawData n f) g) [] extra a ec ei.
Proof. intros F B cs it H. cbn [app] in *. erewrite bind_ok by (apply rawData_at; assumption). apply F. exact H. Qed.
Lemma ends_dumpRest {A} f (g : bytes -> M A) extra a ec ei :
  ends (g (dump_bytes extra f)) [] extra a ec ei -> ends (bind (dumpRest f) g) [] extra a ec ei.
Proof. intros F B cs it H. cbn [app] in *. erewrite bind_ok by (apply dumpRest_at; assumption). apply F. exact H. Qed.

(** ** MPIs *)
Lemma mpi_bytes bits (data : bytes) : (bits < 65536)%N -> mpi_octets bits (lenN data) ->
  be (be_enc 2 bits) = bits /\ (Z.of_N bits + 7) / 8 = lenZ data /\ lenZ data < 2 ^ 62 /\ 2 = lenZ (be_enc 2 bits).
Proof.
  intros Hb Hd. split; [|split; [|split]].
  - rewrite be_be_enc. change (256 ^ N.of_nat 2)%N with 65536%N. apply N.mod_small. assumption.
  - rewrite lenZ_lenN, (mpi_octets_div _ _ Hd), N2Z.inj_div, N2Z.inj_add. reflexivity.
  - rewrite lenZ_lenN. unfold mpi_octets in Hd. lia.
  - unfold lenZ. rewrite be_enc_length. reflexivity.
Qed.
Lemma runs_mpi bits data : (bits < 65536)%N -> mpi_octets bits (lenN data) ->
  runs newMPI (be_enc 2 bits ++ data) (mkMPI bits data) same same.
Proof.
  intros Hb Hd. destruct (mpi_bytes _ _ Hb Hd) as (Eb & El & L & E2). unfold newMPI. eapply runs_ext.
  - eapply runs_bind; [exact (runs_bytes _ _ E2)|]. cbv beta zeta. rewrite Eb.
    eapply runs_bind; [exact (runs_bytes _ _ El) | apply runs_ret].
  - rewrite app_nil_r. reflexivity.
  - reflexivity.
  - reflexivity.
Qed.
Lemma cuts_mpi bits data : (bits < 65536)%N -> mpi_octets bits (lenN data) -> cuts newMPI (be_enc 2 bits ++ data).
Proof.
  intros Hb Hd. destruct (mpi_bytes _ _ Hb Hd) as (Eb & El & L & E2). unfold newMPI.
  eapply cuts_bind; [apply cuts_bytes; [exact E2|reflexivity] | exact (runs_bytes _ _ E2) |].
  cbv beta zeta. rewrite Eb. apply cuts_first. apply cuts_bytes; [exact El | lia].
Qed.

(** ** Step lemmas for input whose octets are given *)
Section Steps.
  Context {A : Type}.
  Implicit Types (a : A) (ec : cst -> cst) (ei : item -> item).

  Lemma runs_byte_bind (f : byte -> M A) b d a ec ei : runs (f b) d a ec ei -> runs (bind rdByte f) (b :: d) a ec ei.
  Proof. intro F. exact (runs_bind rdByte f [b] d b a same ec same ei (runs_byte b) F). Qed.
  Lemma runs_bytes_bind n (f : bytes -> M A) x d a ec ei : n = lenZ x -> runs (f x) d a ec ei ->
    runs (bind (rdBytes n) f) (x ++ d) a ec ei.
  Proof. intros E F. exact (runs_bind _ f x d x a same ec same ei (runs_bytes n x E) F). Qed.
  Lemma runs_add_bind c (k : unit -> M A) d a ec ei : runs (k tt) d a ec ei ->
    runs (bind (add c) k) d a ec (fun i => ei (adds [c] i)).
  Proof. intro F. exact (runs_bind _ k [] d tt a same ec (adds [c]) ei (runs_add c) F). Qed.
  Lemma runs_addo_bind c (k : unit -> M A) d a ec ei : runs (k tt) d a ec ei ->
    runs (bind (addo c) k) d a ec (fun i => ei (adds (opt_list c) i)).
  Proof. intro F. exact (runs_bind _ k [] d tt a same ec (adds (opt_list c)) ei (runs_addo c) F). Qed.
  Lemma runs_mode_bind x (k : unit -> M A) d a ec ei : runs (k tt) d a ec ei ->
    runs (bind (setMode x) k) d a (fun c => ec (with_mode x c)) ei.
  Proof. intro F. exact (runs_bind _ k [] d tt a (with_mode x) ec same ei (runs_setMode x) F). Qed.
  Lemma runs_sig_bind x (k : unit -> M A) d a ec ei : runs (k tt) d a ec ei ->
    runs (bind (setSig x) k) d a (fun c => ec (with_sig x c)) ei.
  Proof. intro F. exact (runs_bind _ k [] d tt a (with_sig x) ec same ei (runs_setSig x) F). Qed.
  Lemma runs_key_bind x (k : unit -> M A) d a ec ei : runs (k tt) d a ec ei ->
    runs (bind (setKey x) k) d a (fun c => ec (with_key x c)) ei.
  Proof. intro F. exact (runs_bind _ k [] d tt a (with_key x) ec same ei (runs_setKey x) F). Qed.

  Lemma ends_byte_bind (f : byte -> M A) b d extra a ec ei : ends (f b) d extra a ec ei -> ends (bind rdByte f) (b :: d) extra a ec ei.
  Proof. intro F. exact (ends_bind rdByte f [b] d extra b a same ec same ei (runs_byte b) F). Qed.
  Lemma ends_bytes_bind n (f : bytes -> M A) x d extra a ec ei : n = lenZ x -> ends (f x) d extra a ec ei ->
    ends (bind (rdBytes n) f) (x ++ d) extra a ec ei.
  Proof. intros E F. exact (ends_bind _ f x d extra x a same ec same ei (runs_bytes n x E) F). Qed.
  Lemma ends_add_bind c (k : unit -> M A) d extra a ec ei : ends (k tt) d extra a ec ei ->
    ends (bind (add c) k) d extra a ec (fun i => ei (adds [c] i)).
  Proof. intro F. exact (ends_bind _ k [] d extra tt a same ec (adds [c]) ei (runs_add c) F). Qed.
  Lemma ends_addo_bind c (k : unit -> M A) d extra a ec ei : ends (k tt) d extra a ec ei ->
    ends (bind (addo c) k) d extra a ec (fun i => ei (adds (opt_list c) i)).
  Proof. intro F. exact (ends_bind _ k [] d extra tt a same ec (adds (opt_list c)) ei (runs_addo c) F). Qed.
  Lemma ends_upd_bind f (k : unit -> M A) d extra a ec ei : ends (k tt) d extra a ec ei ->
    ends (bind (upd f) k) d extra a ec (fun i => ei (f i)).
  Proof. intro F. exact (ends_bind _ k [] d extra tt a same ec f ei (runs_upd f) F). Qed.
  Lemma ends_mode_bind x (k : unit -> M A) d extra a ec ei : ends (k tt) d extra a ec ei ->
    ends (bind (setMode x) k) d extra a (fun c => ec (with_mode x c)) ei.
  Proof. intro F. exact (ends_bind _ k [] d extra tt a (with_mode x) ec same ei (runs_setMode x) F). Qed.
  Lemma ends_sig_bind x (k : unit -> M A) d extra a ec ei : ends (k tt) d extra a ec ei ->
    ends (bind (setSig x) k) d extra a (fun c => ec (with_sig x c)) ei.
  Proof. intro F. exact (ends_bind _ k [] d extra tt a (with_sig x) ec same ei (runs_setSig x) F). Qed.
  Lemma ends_key_bind x (k : unit -> M A) d extra a ec ei : ends (k tt) d extra a ec ei ->
    ends (bind (setKey x) k) d extra a (fun c => ec (with_key x c)) ei.
  Proof. intro F. exact (ends_bind _ k [] d extra tt a (with_key x) ec same ei (runs_setKey x) F). Qed.
  (** The rest of the input is [extra]. *)
  Lemma ends_rest0 (f : Z -> M A) extra a ec ei :
    ends (f (lenZ extra)) [] extra a ec ei -> ends (bind rdRest f) [] extra a ec ei.
  Proof. apply (ends_rest f [] extra). Qed.

  Lemma cuts_byte_bind (f : byte -> M A) b d : cuts (f b) d -> cuts (bind rdByte f) (b :: d).
  Proof. intro F. exact (cuts_bind rdByte f [b] d b same same (cuts_byte b) (runs_byte b) F). Qed.
  Lemma cuts_bytes_bind n (f : bytes -> M A) x d : n = lenZ x -> n < 2 ^ 62 -> cuts (f x) d ->
    cuts (bind (rdBytes n) f) (x ++ d).
  Proof. intros E L F. exact (cuts_bind _ f x d x same same (cuts_bytes n x E L) (runs_bytes n x E) F). Qed.
  Lemma cuts_add_bind c (k : unit -> M A) d : cuts (k tt) d -> cuts (bind (add c) k) d.
  Proof. intro F. exact (cuts_bind _ k [] d tt same (adds [c]) (cuts_nil _) (runs_add c) F). Qed.
  Lemma cuts_addo_bind c (k : unit -> M A) d : cuts (k tt) d -> cuts (bind (addo c) k) d.
  Proof. intro F. exact (cuts_bind _ k [] d tt same _ (cuts_nil _) (runs_addo c) F). Qed.
  Lemma cuts_upd_bind f (k : unit -> M A) d : cuts (k tt) d -> cuts (bind (upd f) k) d.
  Proof. intro F. exact (cuts_bind _ k [] d tt same _ (cuts_nil _) (runs_upd f) F). Qed.
  Lemma cuts_mode_bind x (k : unit -> M A) d : cuts (k tt) d -> cuts (bind (setMode x) k) d.
  Proof. intro F. exact (cuts_bind _ k [] d tt _ _ (cuts_nil _) (runs_setMode x) F). Qed.
  Lemma cuts_sig_bind x (k : unit -> M A) d : cuts (k tt) d -> cuts (bind (setSig x) k) d.
  Proof. intro F. exact (cuts_bind _ k [] d tt _ _ (cuts_nil _) (runs_setSig x) F). Qed.
  Lemma cuts_key_bind x (k : unit -> M A) d : cuts (k tt) d -> cuts (bind (setKey x) k) d.
  Proof. intro F. exact (cuts_bind _ k [] d tt _ _ (cuts_nil _) (runs_setKey x) F). Qed.

  Lemma runs_ret_bind {B} (b : B) (f : B -> M A) d a ec ei : runs (f b) d a ec ei -> runs (bind (ret b) f) d a ec ei.
  Proof. intro F. exact F. Qed.
  Lemma ends_ret_bind {B} (b : B) (f : B -> M A) d extra a ec ei : ends (f b) d extra a ec ei -> ends (bind (ret b) f) d extra a ec ei.
  Proof. intro F. exact F. Qed.
  Lemma cuts_ret_bind {B} (b : B) (f : B -> M A) d : cuts (f b) d -> cuts (bind (ret b) f) d.
  Proof. intro F. exact F. Qed.
  Lemma runs_assoc {B C} (m : M B) (f : B -> M C) (g : C -> M A) d a ec ei :
    runs (bind m (fun x => bind (f x) g)) d a ec ei -> runs (bind (bind m f) g) d a ec ei.
  Proof. intros F b rest cs it H. rewrite bind_assoc. apply F. exact H. Qed.
  Lemma ends_assoc {B C} (m : M B) (f : B -> M C) (g : C -> M A) d extra a ec ei :
    ends (bind m (fun x => bind (f x) g)) d extra a ec ei -> ends (bind (bind m f) g) d extra a ec ei.
  Proof. intros F b cs it H. rewrite bind_assoc. apply F. exact H. Qed.
  Lemma cuts_assoc {B C} (m : M B) (f : B -> M C) (g : C -> M A) d :
    cuts (bind m (fun x => bind (f x) g)) d -> cuts (bind (bind m f) g) d.
  Proof. intros F b q cs it H. rewrite bind_assoc. apply F. exact H. Qed.
End Steps.

(** One step at a time, by the shape of the program. *)
Ltac step :=
  cbv beta;
  lazymatch goal with
  | |- runs (bind (ret _) _) _ _ _ _ => apply runs_ret_bind
  | |- ends (bind (ret _) _) _ _ _ _ _ => apply ends_ret_bind
  | |- runs (bind (bind _ _) _) _ _ _ _ => apply runs_assoc
  | |- ends (bind (bind _ _) _) _ _ _ _ _ => apply ends_assoc
  | |- runs (bind rdByte _) (_ :: _) _ _ _ => apply runs_byte_bind
  | |- runs (bind (rdBytes _) _) (_ ++ _) _ _ _ => apply runs_bytes_bind
  | |- runs (bind (add _) _) _ _ _ _ => apply runs_add_bind
  | |- runs (bind (addo _) _) _ _ _ _ => apply runs_addo_bind
  | |- runs (bind (setMode _) _) _ _ _ _ => apply runs_mode_bind
  | |- runs (bind (setSig _) _) _ _ _ _ => apply runs_sig_bind
  | |- runs (bind (setKey _) _) _ _ _ _ => apply runs_key_bind
  | |- runs (ret _) [] _ _ _ => apply runs_ret
  | |- runs (add _) [] _ _ _ => apply runs_add
  | |- ends (bind rdByte _) (_ :: _) _ _ _ _ => apply ends_byte_bind
  | |- ends (bind (rdBytes _) _) (_ ++ _) _ _ _ _ => apply ends_bytes_bind
  | |- ends (bind (add _) _) _ _ _ _ _ => apply ends_add_bind
  | |- ends (bind (addo _) _) _ _ _ _ _ => apply ends_addo_bind
  | |- ends (bind (upd _) _) _ _ _ _ _ => apply ends_upd_bind
  | |- ends (bind (setMode _) _) _ _ _ _ _ => apply ends_mode_bind
  | |- ends (bind (setSig _) _) _ _ _ _ _ => apply ends_sig_bind
  | |- ends (bind (setKey _) _) _ _ _ _ _ => apply ends_key_bind
  | |- ends (bind rdRest _) [] _ _ _ _ => apply ends_rest0
  | |- ends (bind (rawData _ _) _) [] _ _ _ _ => apply ends_rawData
  | |- ends (bind (dumpRest _) _) [] _ _ _ _ => apply ends_dumpRest
  | |- ends (addRest _ _) [] _ _ _ _ => apply ends_addRest
  | |- ends (ret _) [] _ _ _ _ => apply runs_ends, runs_ret
  | |- ends (add _) [] _ _ _ _ => apply runs_ends, runs_add
  | |- ends (upd _) [] _ _ _ _ => apply runs_ends, runs_upd
  | |- ends (setMode _) [] _ _ _ _ => apply runs_ends, runs_setMode
  | |- cuts _ [] => apply cuts_nil
  | |- cuts (bind (ret _) _) _ => apply cuts_ret_bind
  | |- cuts (bind (bind _ _) _) _ => apply cuts_assoc
  | |- cuts (bind rdByte _) (_ :: _) => apply cuts_byte_bind
  | |- cuts (bind (rdBytes _) _) (_ ++ _) => apply cuts_bytes_bind
  | |- cuts (bind (add _) _) _ => apply cuts_add_bind
  | |- cuts (bind (addo _) _) _ => apply cuts_addo_bind
  | |- cuts (bind (upd _) _) _ => apply cuts_upd_bind
  | |- cuts (bind (setMode _) _) _ => apply cuts_mode_bind
  | |- cuts (bind (setSig _) _) _ => apply cuts_sig_bind
  | |- cuts (bind (setKey _) _) _ => apply cuts_key_bind
  | |- cuts (bind rdRest _) _ => apply cuts_rest; intro
  end.
