(** * ShownSigL: the parser on whole packets that SpecShown.v describes; signatures of version 3 that end early. *)
From Coq Require Import Strings.String Strings.Byte List NArith ZArith Bool Lia ZifyBool ZifyN ZifyNat.
From Verif Require Import Base BaseL SpecBase Item Reader ReaderL SpecReader Context Env Time Values Monad MonadL Pubkey S2k Subs Tags SubParse.
From Verif Require Import RelL ParseL SigL SpecValues ValuesL SpecPacket ReadsL PacketL TagL SpecSecret SecretL SpecShown ShownL SpecParse SpecComp UnfoldL PropPacket.
Import ListNotations.
Local Open Scope N_scope.

(** ** Whole packets *)
Lemma ends_session o E v id a d fs rest : length id = 8%nat -> fields_read o E ses_layout ses_label a d fs rest ->
  ends (tag01 o) (v :: id ++ a :: d) [] tt (with_mode ModePubEnc)
    (adds (shows o E [FVersion KPubSession v; FKeyID id; FPub a] ++ fs ++ surplus "Unknown data" (oDebug o) rest)).
Proof.
  intros I F. eapply leaves_ends with (x := rest). unfold tag01. eapply leaves_ext.
  - eapply leaves_none; [apply runs_setMode|]. cbv beta. apply leaves_byte. cbv zeta. eapply leaves_none; [apply runs_add|]. cbv beta.
    eapply leaves_first; [apply runs_bytes, lenZ_8, I|]. cbv beta. eapply leaves_none; [apply runs_add|]. cbv beta.
    apply leaves_byte. cbv zeta. eapply leaves_none; [apply runs_add|]. cbv beta.
    eapply leaves_bind; [apply (leaves_parseSes o E), F|]. cbv beta. apply leaves_rest.
  - reflexivity.
  - intro i. rewrite (show_version o E KPubSession v) by tauto. rewrite (show_keyid o E) by assumption. fin_items.
Qed.
Lemma ends_symmetric o E a d iv s rest : specifier_reads o d iv s rest ->
  ends (tag03 o) (x04 :: a :: d) [] tt (with_mode ModeSymEnc)
    (adds (shows o E [FVersion KSymSession x04; FSym a] ++ s :: surplus "Unknown data" (oDebug o) rest)).
Proof.
  intros F. eapply leaves_ends with (x := rest). unfold tag03. eapply leaves_ext.
  - eapply leaves_none; [apply runs_setMode|]. cbv beta. apply leaves_byte. cbv zeta. eapply leaves_none; [apply runs_add|]. cbv beta.
    ver_if. eapply leaves_bind; [apply leaves_byte; cbv zeta; eapply leaves_none; [apply runs_add|]; cbv beta;
      eapply leaves_bind; [apply (leaves_specifier o), F|]; cbv beta; apply leaves_ret|]. cbv beta. apply leaves_rest.
  - reflexivity.
  - intro i. rewrite (show_version o E KSymSession x04) by tauto. fin_items.
Qed.
Lemma ends_public o E v d a t fs rest : public_reads o E v d a t fs rest ->
  ends (tag06 o E) (v :: d) [] tt (noted o t) (adds (show o E (FVersion KPublicKey v) :: fs ++ surplus "Unknown data" (oDebug o) rest)).
Proof.
  intro F. eapply leaves_ends with (x := rest). unfold tag06. eapply leaves_ext.
  - apply leaves_byte. cbv zeta. eapply leaves_none; [apply runs_add|]. cbv beta.
    eapply leaves_bind; [apply leaves_public, F|]. cbv beta. apply leaves_rest.
  - reflexivity.
  - intro i. rewrite (shown_version o E). fin_items.
Qed.
Lemma ends_secret o E v d a t fs d' note is rest : public_reads o E v d a t fs d' -> secret_reads o E v a d' note is rest ->
  ends (tag05 o E) (v :: d) [] tt (noted o t)
    (adds (show o E (FVersion KPublicKey v) :: public_shown fs :: secret_shown note is :: surplus "Unknown data" (oDebug o) rest)).
Proof.
  intros F X. pose proof (leaves_tag05 o E v d d' rest a (noted o t) fs _ (leaves_public _ _ _ _ _ _ _ _ F) (leaves_secret _ _ _ _ _ _ _ _ X)) as K.
  cbv beta in K. destruct note; exact K.
Qed.

(** ** Readers that end before their fields *)
Definition stops {A} (m : M A) (d : bytes) (ei : item -> item) : Prop :=
  forall B cs it, suf B d -> exists e s, m (sat B d cs it) = (RErr e, s) /\ s_cs s = cs /\ s_cur s = ei it.
Lemma stops_first {A B} (m : M A) (f : A -> M B) d ei : stops m d ei -> stops (bind m f) d ei.
Proof. intros H Bf cs it S. destruct (H Bf cs it S) as (e & s & R & C & I). exists e, s. split; [apply bind_err, R | auto]. Qed.
Lemma stops_bind {A B} (m : M A) (f : A -> M B) d x a e1 e2 : leaves m d x a same e1 -> stops (f a) x e2 -> stops (bind m f) d (fun i => e2 (e1 i)).
Proof. intros H K Bf cs it S. destruct (H Bf cs it S) as (S1 & R). erewrite bind_ok by exact R. apply K, S1. Qed.
Lemma stops_byte : stops rdByte [] same.
Proof. intros B cs it S. exists EEof, (sat B [] cs it). split; [apply rdByte_eof, S | split; reflexivity]. Qed.
Lemma stops_bytes n q : (lenZ q < n)%Z -> (n < 2 ^ 62)%Z -> stops (rdBytes n) q same.
Proof. intros L A B cs it S. do 2 eexists. split; [apply rdBytes_short; assumption | split; reflexivity]. Qed.
Lemma stops_child {A} k (m : M A) d ei : stops m d ei -> stops (child k m) d (adds [ei k]).
Proof.
  intros H B cs it S. destruct (H B cs k S) as (e & s & R & C & I). unfold child, sat in *. cbn [s_rd s_cs s_cur]. rewrite R. do 2 eexists. split; [reflexivity|].
  cbn [s_cs s_cur]. rewrite C, I, add_child_adds. split; reflexivity.
Qed.
Lemma stops_ext {A} (m : M A) d e1 e2 : stops m d e1 -> (forall i, e2 i = e1 i) -> stops m d e2.
Proof. intros H K B cs it S. destruct (H B cs it S) as (e & s & R & C & I). exists e, s. rewrite K. auto. Qed.

(** ** Signatures of version 3 *)
Lemma stops_mpi o name f q : wf f -> (exists n b d, f = FMpi n b d) -> strict_prefix q (enc f) -> stops (addMPI o (str name)) q same.
Proof.
  intros W (n & bits & d & ->) SP. unfold addMPI, newMPI. apply stops_first. cbn [enc] in SP. cbn [wf] in W. destruct W as [W1 W2]. unfold mpi_octets in W2.
  apply ReadsL.strict_prefix_app in SP as [SP|(q2 & -> & SP)].
  - apply stops_first, stops_bytes; [|reflexivity]. destruct SP as (r & NE & EQ). apply (f_equal (@length byte)) in EQ. rewrite app_length, be_enc_length in EQ.
    unfold lenZ. destruct r; [congruence|]. cbn [length] in EQ. lia.
  - eapply stops_ext; [eapply stops_bind; [apply leaves_runs, runs_bytes, len2|]; cbv beta zeta; apply stops_first, stops_bytes; [|]|reflexivity].
    + rewrite be2 by lia. destruct SP as (r & NE & EQ). apply (f_equal (@length byte)) in EQ. rewrite app_length in EQ. unfold lenZ.
      destruct r; [congruence|]. cbn [length] in EQ. unfold lenN in W2. lia.
    + rewrite be2 by lia. lia.
Qed.
Definition hashed_m (o : opts) (E : env) (sz : byte) : M unit :=
  child (Item (str "Hashed material") [] [] (n_bytes (Z.of_N (b2n sz))) [])
    (if negb (b2n sz =? 5) then
       setValue sUnknown ;;
       let* b := rdBytes (Z.of_N (b2n sz)) in
       setDump (dump_bytes b (oDebug o))
     else
       let* sig := rdByte in
       add (sig_item sig (oDebug o)) ;;
       let* tm := newDateTime (oUTC o) in
       add (sigtime_item E tm (oDebug o))).
Definition tail_m (o : opts) : M unit :=
  let* keyid := rdBytes 8 in
  add (keyid_item keyid) ;;
  let* pubid := rdByte in
  add (pub_item pubid (oDebug o)) ;;
  let* hashid := rdByte in
  add (hash_item hashid (oDebug o)) ;;
  let* hv := rdBytes 2 in
  add (hashleft_item hv) ;;
  parseSig o pubid.
Lemma hashed_found o E n d it rest : hashed_reads o E (n :: d) it (Some rest) -> leaves (hashed_m o E n) d rest tt same (adds [it]).
Proof.
  intro H. inversion H as [t tm rest' T | | | n' d' rest' N L |]; subst; unfold hashed_m, hashed_shown; rewrite n_bytes_ofN.
  - change (t :: _ :: _ :: _ :: _ :: rest) with (t :: be_enc 4 tm ++ rest). eapply leaves_ext.
    + apply leaves_child. change (negb (b2n x05 =? 5)) with false. cbv iota. apply leaves_byte. eapply leaves_none; [apply runs_add|]. cbv beta.
      unfold newDateTime. apply leaves_reassoc. eapply leaves_first; [apply runs_bytes, len4|]. cbv beta. eapply leaves_none; [apply runs_ret|]. cbv beta. apply (leaves_runs _ []), runs_add.
    + reflexivity.
    + intro i. unfold sigtime_item. rewrite (show_sigtype o E), (show_time o E) by assumption. reflexivity.
  - eapply leaves_ext.
    + apply leaves_child. replace (negb (b2n n =? 5)) with true by lia. cbv iota. unfold setValue, setDump. eapply leaves_none; [apply runs_upd|]. cbv beta.
      eapply leaves_first; [apply runs_bytes; rewrite lenZ_lenN, L; reflexivity|]. cbv beta. apply (leaves_runs _ []), runs_upd.
    + reflexivity.
    + intro i. rewrite dump_bytes_if. reflexivity.
Qed.
Lemma hashed_stops o E n d it : hashed_reads o E (n :: d) it None -> stops (hashed_m o E n) d (adds [it]).
Proof.
  intro H. inversion H as [| t q L | | | n' q N L]; subst; unfold hashed_m, hashed_shown; rewrite n_bytes_ofN.
  - eapply stops_ext.
    + apply stops_child. change (negb (b2n x05 =? 5)) with false. cbv iota. eapply stops_bind; [apply (leaves_runs _ [t]), runs_byte|]. cbv beta.
      eapply stops_bind; [apply (leaves_runs _ []), runs_add|]. cbv beta. unfold newDateTime. apply stops_first, stops_first, stops_bytes; [unfold lenZ; lia | reflexivity].
    + intro i. cbv beta. rewrite (show_sigtype o E). reflexivity.
  - eapply stops_ext.
    + apply stops_child. change (negb (b2n x05 =? 5)) with false. cbv iota. apply stops_first, stops_byte.
    + reflexivity.
  - eapply stops_ext.
    + apply stops_child. replace (negb (b2n n =? 5)) with true by lia. cbv iota. unfold setValue, setDump. eapply stops_bind; [apply (leaves_runs _ []), runs_upd|]. cbv beta.
      apply stops_first, stops_bytes; [rewrite lenZ_lenN; lia | pose proof (b2n_lt n); lia].
    + reflexivity.
Qed.
Lemma tail_run o E d l : tail_reads o E d l ->
  stops (tail_m o) d (adds l) \/ exists rest l', l = l' ++ surplus "Unknown data" (oDebug o) rest /\ leaves (tail_m o) d rest tt same (adds l').
Proof.
  intros [q L | id I | id a I | id a h q I L | id a h h2 s x s' l' f q I H2 LY F X SP | id a h h2 d' fs rest I H2 F]; unfold tail_m.
  - left. eapply stops_ext; [apply stops_first, stops_bytes; [unfold lenZ; lia | reflexivity] | intro i; apply adds_nil].
  - left. rewrite <- (app_nil_r id) at 1. eapply stops_ext.
    + eapply stops_bind; [apply leaves_runs, runs_bytes, lenZ_8, I|]. cbv beta. eapply stops_bind; [apply (leaves_runs _ []), runs_add|]. cbv beta. apply stops_first, stops_byte.
    + intro i. rewrite (show_keyid o E) by assumption. fin_items.
  - left. eapply stops_ext.
    + eapply stops_bind; [apply leaves_runs, runs_bytes, lenZ_8, I|]. cbv beta. eapply stops_bind; [apply (leaves_runs _ []), runs_add|]. cbv beta.
      eapply stops_bind; [apply (leaves_runs _ [a]), runs_byte|]. cbv beta. eapply stops_bind; [apply (leaves_runs _ []), runs_add|]. cbv beta. apply stops_first, stops_byte.
    + intro i. rewrite (show_keyid o E) by assumption. fin_items.
  - left. eapply stops_ext.
    + eapply stops_bind; [apply leaves_runs, runs_bytes, lenZ_8, I|]. cbv beta. eapply stops_bind; [apply (leaves_runs _ []), runs_add|]. cbv beta.
      eapply stops_bind; [apply (leaves_runs _ [a]), runs_byte|]. cbv beta. eapply stops_bind; [apply (leaves_runs _ []), runs_add|]. cbv beta.
      eapply stops_bind; [apply (leaves_runs _ [h]), runs_byte|]. cbv beta. eapply stops_bind; [apply (leaves_runs _ []), runs_add|]. cbv beta.
      apply stops_first, stops_bytes; [unfold lenZ; lia | reflexivity].
    + intro i. rewrite (show_keyid o E) by assumption. fin_items.
  - left. eapply stops_ext.
    + eapply stops_bind; [apply leaves_runs, runs_bytes, lenZ_8, I|]. cbv beta. eapply stops_bind; [apply (leaves_runs _ []), runs_add|]. cbv beta.
      eapply stops_bind; [apply (leaves_runs _ [a]), runs_byte|]. cbv beta. eapply stops_bind; [apply (leaves_runs _ []), runs_add|]. cbv beta.
      eapply stops_bind; [apply (leaves_runs _ [h]), runs_byte|]. cbv beta. eapply stops_bind; [apply (leaves_runs _ []), runs_add|]. cbv beta.
      eapply stops_bind; [apply leaves_runs, runs_bytes, lenZ_2, H2|]. cbv beta. eapply stops_bind; [apply (leaves_runs _ []), runs_add|]. cbv beta.
      instantiate (1 := adds (shows o E l')). clear - LY F X SP. unfold parseSig. intros B cs it S. erewrite bind_ok by (apply rdRest_at, S). revert B cs it S.
      generalize (lenZ (encs l' ++ q)). intro n. fold (stops (A := unit)).
      destruct a; try discriminate LY; injection LY as LY.
      all: repeat match goal with |- forall B cs it, suf B ?d -> exists e s, (if ?c then _ else _) _ = _ /\ _ =>
             let v := eval vm_compute in c in change c with v; cbv iota end.
      all: match goal with |- forall B cs it, suf B ?d -> exists e s, ?m _ = _ /\ _ => change (stops m d (adds (shows o E l'))) end.
      all: destruct s as [|s1 [|s2 s]]; cbn [app] in LY; try discriminate LY.
      all: try (exfalso; injection LY as _ _ LY; destruct s; discriminate LY).
      all: first [injection LY as <- <- <- | injection LY as <- <-].
      all: forall2_inv; rename X into W.
      all: unfold encs, shows; cbn [flat_map app map]; rewrite ?app_nil_r.
      all: first [ eapply stops_ext; [apply stops_first; eapply stops_mpi; [exact W | eauto | exact SP] | intro; apply adds_nil]
                 | eapply stops_ext; [eapply stops_mpi; [exact W | eauto | exact SP] | intro; apply adds_nil]
                 | eapply stops_ext; [eapply stops_bind; [apply leaves_runs, (runs_addMPI o E); assumption|]; cbv beta; eapply stops_mpi; [exact W | eauto | exact SP] | reflexivity] ].
    + intro i. rewrite (show_keyid o E) by assumption. rewrite (show_hash2 o E). fin_items.
  - right. exists rest, (shows o E [FKeyID id; FPub a; FHash h; FHash2 h2] ++ fs). split; [rewrite <- app_assoc; reflexivity|]. eapply leaves_ext.
    + eapply leaves_first; [apply runs_bytes, lenZ_8, I|]. cbv beta. eapply leaves_none; [apply runs_add|]. cbv beta.
      apply leaves_byte. cbv zeta. eapply leaves_none; [apply runs_add|]. cbv beta. apply leaves_byte. cbv zeta. eapply leaves_none; [apply runs_add|]. cbv beta.
      eapply leaves_first; [apply runs_bytes, lenZ_2, H2|]. cbv beta. eapply leaves_none; [apply runs_add|]. cbv beta. apply (leaves_parseSig o E), F.
    + reflexivity.
    + intro i. rewrite (show_keyid o E) by assumption. rewrite (show_hash2 o E). fin_items.
Qed.

Lemma leaves_catch {A} (m : M A) d x a ec ei : leaves m d x a ec ei -> leaves (catchM m) d x (Some a) ec ei.
Proof. intros F B cs it S. destruct (F B cs it S) as [S1 R]. split; [exact S1|]. unfold catchM. rewrite R. reflexivity. Qed.
(** A signature of version 3 that is described is parsed. *)
Lemma sig3_body rec o E d l extra : (stops (sigV3 o E) d (adds l) /\ extra = [] \/ exists rest, extra = surplus "Unknown data" (oDebug o) rest /\ leaves (sigV3 o E) d rest tt same (adds l)) ->
  ends (tag02 rec o E) (x03 :: d) [] tt same (adds (show o E (FVersion KSignature x03) :: l ++ extra)).
Proof.
  intros [[F ->]|(rest & -> & F)].
  - intros B cs it S. rewrite app_nil_r in *. unfold tag02. erewrite bind_ok by (apply rdByte_at, S). cbv zeta. erewrite bind_ok by apply add_at. ver_if.
    destruct (F B cs (add_child (v_item (SigVer x03) (oDebug o)) it) (suf_cons _ _ _ S)) as (e & s & R & C & I).
    exists s. split; [|split; [exact C|]].
    + erewrite bind_ok; [|unfold catchM; rewrite R; reflexivity]. reflexivity.
    + rewrite I. rewrite (show_version o E KSignature x03) by tauto. rewrite app_nil_r, add_child_adds, adds_adds. reflexivity.
  - eapply leaves_ends with (x := rest). unfold tag02. eapply leaves_ext.
    + apply leaves_byte. cbv zeta. eapply leaves_none; [apply runs_add|]. cbv beta. ver_if. eapply leaves_bind; [apply leaves_catch, F|]. cbv beta iota. apply leaves_rest.
    + reflexivity.
    + intro i. rewrite (show_version o E KSignature x03) by tauto. fin_items.
Qed.
Lemma sig3_parse o E cs d l extra : (stops (sigV3 o E) d (adds l) /\ extra = [] \/ exists rest, extra = surplus "Unknown data" (oDebug o) rest /\ leaves (sigV3 o E) d rest tt same (adds l)) ->
  sized (x03 :: d) -> parse_tag o E 2 (x03 :: d) cs = (ROk (packet_shown o 2 (x03 :: d) (show o E (FVersion KSignature x03) :: l ++ extra), None), cs).
Proof.
  intros H L. destruct (parse_tag_body o E 2 (x03 :: d) cs) as [rec ->]. unfold tag_body, tag_m. rewrite tag_item_shown, at_new.
  pose proof (sig3_body rec o E d l extra H) as F.
  destruct (F (x03 :: d) cs (packet_shown o 2 (x03 :: d) [])) as (s & R & C & I); [rewrite app_nil_r; apply suf_refl, L|].
  rewrite app_nil_r in R. unfold sat in R. unfold no_data. erewrite bind_ok by exact R. unfold ret. rewrite C, I. reflexivity.
Qed.
Lemma sig3_none o E : stops (sigV3 o E) [] (adds []).
Proof. eapply stops_ext; [unfold sigV3; apply stops_first, stops_byte | intro i; apply adds_nil]. Qed.
Lemma sig3_cut o E d it : hashed_reads o E d it None -> stops (sigV3 o E) d (adds [it]).
Proof.
  intro H. destruct d as [|n d]; [inversion H|]. unfold sigV3. eapply stops_ext.
  - eapply stops_bind; [apply (leaves_runs _ [n]), runs_byte|]. cbv beta. apply stops_first. exact (hashed_stops o E n d it H).
  - reflexivity.
Qed.
Lemma sig3_all o E d it rest l : hashed_reads o E d it (Some rest) -> tail_reads o E rest l -> exists l' extra, it :: l = l' ++ extra /\
  (stops (sigV3 o E) d (adds l') /\ extra = [] \/ exists rest, extra = surplus "Unknown data" (oDebug o) rest /\ leaves (sigV3 o E) d rest tt same (adds l')).
Proof.
  intros H T. destruct d as [|n d]; [inversion H|]. pose proof (hashed_found o E n d it rest H) as F1. destruct (tail_run o E rest l T) as [F2 | (rest' & l' & -> & F2)].
  - exists (it :: l), []. split; [symmetry; apply app_nil_r|]. left. split; [|reflexivity]. unfold sigV3. eapply stops_ext.
    + eapply stops_bind; [apply (leaves_runs _ [n]), runs_byte|]. cbv beta. eapply stops_bind; [exact F1 | exact F2].
    + intro i. cbv beta. unfold same. rewrite adds_adds. reflexivity.
  - exists (it :: l'), (surplus "Unknown data" (oDebug o) rest'). split; [reflexivity|]. right. exists rest'. split; [reflexivity|]. unfold sigV3. eapply leaves_ext.
    + apply leaves_byte. eapply leaves_bind; [exact F1 | exact F2].
    + reflexivity.
    + intro i. cbv beta. rewrite adds_adds. reflexivity.
Qed.
