(** * PacketL: each field is read and shown as SpecPacket says. *)
From Coq Require Import Strings.String Strings.Byte List NArith ZArith Bool Lia ZifyBool ZifyN ZifyNat.
From Verif Require Import Base BaseL SpecBase Item Reader ReaderL SpecReader Context Env Time Values Monad MonadL Pubkey S2k
  Subs Tags SpecValues ValuesL SpecTime TimeL SpecPacket ReadsL.
Import ListNotations.
Local Open Scope N_scope.

(** ** Texts *)
Lemma hexdump_hex_text l : hexdump l = hex_text l.
Proof.
  assert (forall l, hexdump_from (str " ") l = flat_map (fun b => str " " ++ two_hex b) l) as H.
  { induction l0 as [|b t IH]; [reflexivity|]. cbn [hexdump_from flat_map]. rewrite IH, hex2_two_hex, app_assoc. reflexivity. }
  destruct l as [|b t]; [reflexivity|]. unfold hexdump. cbn [hexdump_from app]. rewrite H, hex2_two_hex.
  revert b. induction t as [|c t IH]; intro b; [apply app_nil_r|].
  cbn [flat_map]. specialize (IH c). change (hex_text (b :: c :: t)) with (two_hex b ++ str " " ++ hex_text (c :: t)).
  rewrite <- IH. rewrite <- app_assoc. reflexivity.
Qed.
Lemma dump_bytes_if f l : dump_bytes l f = dump_if f l.
Proof. unfold dump_bytes, dump_if. rewrite hexdump_hex_text. reflexivity. Qed.
Lemma dump_byte_if f b : dump_byte b f = octet_dump f b.
Proof. unfold dump_byte, octet_dump. rewrite hex2_two_hex. reflexivity. Qed.
Lemma n_bytes_ofN n : n_bytes (Z.of_N n) = bytes_note n.
Proof. unfold n_bytes, bytes_note. destruct n; reflexivity. Qed.
Lemma n_bytes_note (l : bytes) : n_bytes (lenZ l) = bytes_note (lenN l).
Proof. rewrite lenZ_lenN. apply n_bytes_ofN. Qed.

Lemma rest_item_surplus n f d : opt_list (rest_item (str n) f d) = surplus n f d.
Proof. destruct d; [reflexivity|]. unfold rest_item, surplus, opt_list. rewrite dump_bytes_if, n_bytes_note. reflexivity. Qed.

Lemma sym_shown_eq b f : sym_item b f = sym_shown f b. Proof. apply sym_item_spec. Qed.
Lemma hash_shown_eq b f : hash_item b f = hash_shown f b. Proof. apply hash_item_spec. Qed.
Lemma pub_shown_eq b f : pub_item b f = pub_shown f b. Proof. apply pub_item_spec. Qed.
Lemma aead_shown_eq b f : aead_item b f = aead_shown f b. Proof. apply aead_item_spec. Qed.
Lemma comp_shown_eq b f : comp_item b f = comp_shown f b. Proof. apply comp_item_spec. Qed.
Lemma s2k_shown_eq b f : s2k_item b f = s2k_shown f b. Proof. apply s2k_item_spec. Qed.

Lemma oid_curve oid : oid_string oid = curve_name oid.
Proof.
  unfold oid_string, curve_name.
  assert (forall (l : list (bytes * bytes)) (l' : list (bytes * string)),
            Forall2 (fun p q => fst p = str (snd q) /\ snd p = fst q) l l' ->
            oid_string_in l oid = match find (fun c => beqs oid (fst c)) l' with Some c => str (snd c) | None => str "Unknown" end) as H.
  { induction 1 as [|[k v] q l l' [E1 E2] _ IH]; [reflexivity|].
    cbn [oid_string_in find fst snd] in *. rewrite E2. destruct (beqs oid (fst q)); [exact E1 | exact IH]. }
  apply H. unfold oid_list.
  assert (forall a b : bytes, beqs a b = true -> a = b) as Q by (intros; apply beqs_spec; assumption).
  unfold curves. repeat (constructor; [split; apply Q; vm_compute; reflexivity|]). constructor.
Qed.

Lemma point_name_format alg m : point_name alg (mpi_flag m) = alg ++ str " EC point (" ++ point_format (m_data m) ++ str ")".
Proof.
  unfold point_name. do 3 f_equal. unfold mpi_flag, point_format. destruct (m_data m) as [|b t]; [reflexivity|].
  apply beqs_spec. revert b.
  apply (byte_all (fun b => beqs (msgs_get point_names (b2n b) sUnknown) (point_format [b]))). vm_compute. reflexivity.
Qed.

Lemma tag_item_shown o t body : tag_item t body (tag_dumpflag o t) = packet_shown o t body [].
Proof.
  unfold tag_item, packet_shown, tag_dumpflag. rewrite dump_bytes_if, n_bytes_note. f_equal.
  unfold tag_string, id_text. rewrite reg_msgs. reflexivity.
Qed.

(** ** Fields *)

(** The program that reads a field of the given kind, in the code at hand. *)
Definition reads_as (o : opts) (E : env) (m : M unit) (f : field) : Prop :=
  wf f -> runs m (enc f) tt same (adds [show o E f]) .

Ltac fin :=
  match goal with
  | |- _ = _ => cbn [enc app]; rewrite ?app_nil_r, <- ?app_assoc; reflexivity
  | |- forall _, _ = _ => let i := fresh "i" in intro i; try (destruct i; cbn); reflexivity
  end.

Lemma runs_addMPI o E name bits d : wf (FMpi name bits d) ->
  runs (addMPI o (str name)) (enc (FMpi name bits d)) tt same (adds [show o E (FMpi name bits d)]).
Proof.
  intros [Hb Hd]. unfold addMPI. eapply runs_ext.
  - eapply runs_bind; [apply runs_mpi; eassumption | apply runs_add].
  - fin.
  - fin.
  - intro i. unfold mpi_item. cbn [m_data m_bits show]. rewrite dump_bytes_if. reflexivity.
Qed.
Lemma cuts_addMPI o name bits d : wf (FMpi name bits d) -> cuts (addMPI o (str name)) (enc (FMpi name bits d)).
Proof. intros [Hb Hd]. apply cuts_first, cuts_mpi; assumption. Qed.

Lemma runs_addPoint o E name bits d : wf (FPoint name bits d) ->
  runs (addPoint o (str name)) (enc (FPoint name bits d)) tt same (adds [show o E (FPoint name bits d)]).
Proof.
  intros [Hb Hd]. unfold addPoint. eapply runs_ext.
  - eapply runs_bind; [apply runs_mpi; eassumption | apply runs_add].
  - fin.
  - fin.
  - intro i. unfold mpi_item. rewrite point_name_format. cbn [m_data m_bits show]. rewrite dump_bytes_if. reflexivity.
Qed.
Lemma cuts_addPoint o name bits d : wf (FPoint name bits d) -> cuts (addPoint o (str name)) (enc (FPoint name bits d)).
Proof. intros [Hb Hd]. apply cuts_first, cuts_mpi; assumption. Qed.

Lemma b2n_len1 (d : bytes) : lenN d < 256 -> b2n (n2b (lenN d)) = lenN d.
Proof. intro H. apply b2n_n2b_small. exact H. Qed.

Lemma runs_oid d : lenN d < 256 -> runs newOID (len1 d) d same same.
Proof.
  intro H. unfold newOID, len1. eapply runs_ext with (d := [n2b (lenN d)] ++ d); [|reflexivity|reflexivity|reflexivity].
  - eapply runs_bind; [apply runs_byte|]. cbv beta. rewrite b2n_len1 by assumption.
    destruct (N.eqb_spec (lenN d) 0) as [Z|Z].
    + apply lenN_0 in Z. subst d. apply runs_ret.
    + apply runs_bytes. rewrite lenZ_lenN. reflexivity.
Qed.
Lemma cuts_oid d : lenN d < 256 -> cuts newOID (len1 d).
Proof.
  intro H. unfold newOID, len1. change (n2b (lenN d) :: d) with ([n2b (lenN d)] ++ d).
  eapply cuts_bind; [apply cuts_byte | apply runs_byte|]. cbv beta. rewrite b2n_len1 by assumption.
  destruct (N.eqb_spec (lenN d) 0) as [Z|Z].
  - apply lenN_0 in Z. subst d. apply cuts_nil.
  - apply cuts_bytes; [rewrite lenZ_lenN; reflexivity | lia].
Qed.
Lemma runs_addOID o E d : wf (FCurve d) -> runs addOID (enc (FCurve d)) tt same (adds [show o E (FCurve d)]).
Proof.
  intro H. unfold addOID. eapply runs_ext.
  - eapply runs_bind; [apply runs_oid; exact H | apply runs_add].
  - fin.
  - fin.
  - intro i. unfold oid_item. cbn [show]. rewrite oid_curve, dump_bytes_if. reflexivity.
Qed.
Lemma cuts_addOID d : wf (FCurve d) -> cuts addOID (enc (FCurve d)).
Proof. intro H. apply cuts_first, cuts_oid. exact H. Qed.

Lemma runs_ecparm d : lenN d < 256 -> runs newECParm (len1 d) d same same.
Proof.
  intro H. intros B rest cs it Hs. unfold newECParm, len1 in *. cbn [app] in *. rewrite rdByte_at by assumption.
  rewrite b2n_len1 by assumption. destruct (N.eqb_spec (lenN d) 0) as [Z|Z].
  - apply lenN_0 in Z. subst d. reflexivity.
  - apply rdBytes_at; [eapply suf_cons; exact Hs|]. rewrite lenZ_lenN. reflexivity.
Qed.
Lemma kdf_shown o E d : kdf_item o d = show o E (FKdf d).
Proof.
  unfold kdf_item, ecparm_item. rewrite dump_bytes_if, n_bytes_note.
  destruct d as [|e0 t]; [reflexivity|].
  destruct (N.eqb_spec (b2n e0) 1) as [E1|E1].
  - assert (e0 = x01) as -> by (apply b2n_inj; exact E1).
    destruct t as [|e1 [|e2 t]]; [reflexivity|reflexivity|].
    rewrite hash_shown_eq, sym_shown_eq. reflexivity.
  - destruct e0; try reflexivity. exfalso; apply E1; reflexivity.
Qed.
Lemma runs_addKdf o E d : wf (FKdf d) ->
  runs (bind newECParm (fun ep => add (kdf_item o ep))) (enc (FKdf d)) tt same (adds [show o E (FKdf d)]).
Proof.
  intro H. eapply runs_ext.
  - eapply runs_bind; [apply runs_ecparm; exact H | apply runs_add].
  - fin.
  - fin.
  - intro i. rewrite (kdf_shown o E). reflexivity.
Qed.
Lemma runs_addParm o E name d : wf (FParm name d) ->
  runs (bind newECParm (fun ep => add (ecparm_item (str name) ep (oInteger o)))) (enc (FParm name d)) tt same
       (adds [show o E (FParm name d)]).
Proof.
  intro H. eapply runs_ext.
  - eapply runs_bind; [apply runs_ecparm; exact H | apply runs_add].
  - fin.
  - fin.
  - intro i. unfold ecparm_item. cbn [show]. rewrite dump_bytes_if, n_bytes_note. reflexivity.
Qed.

(** Single octets followed by the item that shows them. *)
Lemma runs_octet {A} (mk : byte -> item) (f : byte -> M A) b d a ec ei c :
  c = mk b -> runs (f b) d a ec ei ->
  runs (bind rdByte (fun x => bind (add (mk x)) (fun _ => f x))) (b :: d) a ec (fun i => ei (adds [c] i)).
Proof.
  intros -> F. eapply runs_ext with (d := [b] ++ [] ++ d).
  - eapply runs_bind; [apply runs_byte|]. cbv beta. eapply runs_bind; [apply runs_add | exact F].
  - reflexivity.
  - reflexivity.
  - reflexivity.
Qed.

(** ** Algorithm-specific fields *)

Ltac forall2_inv :=
  repeat match goal with
  | H : Forall2 _ (_ :: _) _ |- _ => inversion H; clear H; subst
  | H : Forall2 _ [] _ |- _ => inversion H; clear H; subst
  | H : fills (SMpi _) ?f |- _ => destruct f; cbn [fills] in H; try contradiction; destruct H as [<- H]
  | H : fills (SPoint _) ?f |- _ => destruct f; cbn [fills] in H; try contradiction; destruct H as [<- H]
  | H : fills (SParm _) ?f |- _ => destruct f; cbn [fills] in H; try contradiction; destruct H as [<- H]
  | H : fills SCurve ?f |- _ => destruct f; cbn [fills] in H; try contradiction
  | H : fills SKdf ?f |- _ => destruct f; cbn [fills] in H; try contradiction
  end.

Ltac run_if :=
  repeat match goal with
  | |- runs (if ?c then _ else _) _ _ _ _ => let v := eval vm_compute in c in change c with v; cbv iota
  | |- cuts (if ?c then _ else _) _ => let v := eval vm_compute in c in change c with v; cbv iota
  end.
Ltac run_one :=
  match goal with
  | H : wf (FMpi ?n ?b ?d), E : env |- runs (addMPI ?o (str ?n)) _ _ _ _ => exact (runs_addMPI o E n b d H)
  | H : wf (FPoint ?n ?b ?d), E : env |- runs (addPoint ?o (str ?n)) _ _ _ _ => exact (runs_addPoint o E n b d H)
  | H : wf (FCurve ?d), E : env, o : opts |- runs addOID _ _ _ _ => exact (runs_addOID o E d H)
  | H : wf (FKdf ?d), E : env |- runs (bind newECParm (fun x => add (kdf_item ?o x))) _ _ _ _ => exact (runs_addKdf o E d H)
  | H : wf (FParm ?n ?d), E : env |- runs (bind newECParm (fun x => add (ecparm_item _ x (oInteger ?o)))) _ _ _ _ => exact (runs_addParm o E n d H)
  end.
Ltac run_steps :=
  first [ run_one
        | lazymatch goal with |- runs (bind _ _) _ _ _ _ => eapply runs_bind; [run_one | cbv beta; run_steps] end ].
Ltac fin_adds :=
  cbv beta;
  first [ reflexivity
        | solve [unfold encs; cbn [flat_map]; rewrite ?app_nil_r; reflexivity]
        | solve [intro; rewrite ?adds_adds; reflexivity] ].

Lemma runs_parsePub o E a l : material pub_layout a l ->
  runs (parsePub o a) (encs l) tt same (adds (shows o E l)).
Proof.
  intros (s & L & F). unfold parsePub. apply runs_rest. intro n.
  destruct a; try discriminate L; injection L as <-; forall2_inv; run_if; cbv [rsaPub dsaPub elgPub ecdhPub ecdsaPub eddsaPub];
    (eapply runs_ext; [run_steps | fin_adds | fin_adds | fin_adds]).
Qed.

Lemma runs_parseSec o E a l : material sec_layout a l ->
  runs (parseSecPlain o a) (encs l) tt same (adds (shows o E l)).
Proof.
  intros (s & L & F). unfold parseSecPlain. apply runs_rest. intro n.
  destruct a; try discriminate L; injection L as <-; forall2_inv; run_if; cbv [rsaSec];
    (eapply runs_ext; [run_steps | fin_adds | fin_adds | fin_adds]).
Qed.
Lemma runs_parseSes o E a l : material ses_layout a l ->
  runs (parseSes o a) (encs l) tt same (adds (shows o E l)).
Proof.
  intros (s & L & F). unfold parseSes. apply runs_rest. intro n.
  destruct a; try discriminate L; injection L as <-; forall2_inv; run_if;
    (eapply runs_ext; [run_steps | fin_adds | fin_adds | fin_adds]).
Qed.
Lemma runs_parseSig o E a l : material sig_layout a l ->
  runs (parseSig o a) (encs l) tt same (adds (shows o E l)).
Proof.
  intros (s & L & F). unfold parseSig. apply runs_rest. intro n.
  destruct a; try discriminate L; injection L as <-; forall2_inv; run_if;
    (eapply runs_ext; [run_steps | fin_adds | fin_adds | fin_adds]).
Qed.

(** ** Truncation inside the algorithm-specific fields *)
Ltac cut_one :=
  match goal with
  | H : wf (FMpi ?n ?b ?d) |- cuts (addMPI ?o (str ?n)) _ => exact (cuts_addMPI o n b d H)
  | H : wf (FPoint ?n ?b ?d) |- cuts (addPoint ?o (str ?n)) _ => exact (cuts_addPoint o n b d H)
  | H : wf (FCurve ?d) |- cuts addOID _ => exact (cuts_addOID d H)
  end.
Ltac cut_steps :=
  first [ cut_one
        | lazymatch goal with |- cuts (bind _ _) _ => eapply cuts_bind; [cut_one | run_one | cbv beta; cut_steps] end ].

Lemma cuts_parsePub o (E : env) a l : material pub_layout a l -> b2n a <> 18 -> cuts (parsePub o a) (encs l).
Proof.
  intros (s & L & F) N18. unfold parsePub. apply cuts_rest. intro n.
  destruct a; try discriminate L; try (exfalso; apply N18; reflexivity); clear N18; injection L as <-; forall2_inv; run_if;
    cbv [rsaPub dsaPub elgPub ecdhPub ecdsaPub eddsaPub];
    (eapply cuts_ext; [cut_steps | fin_adds]).
Qed.
Lemma cuts_parseSec o (E : env) a l : material sec_layout a l -> cuts (parseSecPlain o a) (encs l).
Proof.
  intros (s & L & F). unfold parseSecPlain. apply cuts_rest. intro n.
  destruct a; try discriminate L; injection L as <-; forall2_inv; run_if; cbv [rsaSec];
    (eapply cuts_ext; [cut_steps | fin_adds]).
Qed.
Lemma cuts_parseSes o (E : env) a l : material ses_layout a l -> b2n a <> 18 -> cuts (parseSes o a) (encs l).
Proof.
  intros (s & L & F) N18. unfold parseSes. apply cuts_rest. intro n.
  destruct a; try discriminate L; try (exfalso; apply N18; reflexivity); clear N18; injection L as <-; forall2_inv; run_if;
    (eapply cuts_ext; [cut_steps | fin_adds]).
Qed.
Lemma cuts_parseSig o (E : env) a l : material sig_layout a l -> cuts (parseSig o a) (encs l).
Proof.
  intros (s & L & F). unfold parseSig. apply cuts_rest. intro n.
  destruct a; try discriminate L; injection L as <-; forall2_inv; run_if;
    (eapply cuts_ext; [cut_steps | fin_adds]).
Qed.

(** ** Single fields *)
Lemma show_version o E k b v :
  (k, v) = (KPublicKey, PubVer b) \/ (k, v) = (KSignature, SigVer b) \/ (k, v) = (KOnePass, OneSigVer b) \/
  (k, v) = (KPubSession, PubSessKeyVer b) \/ (k, v) = (KSymSession, SymSessKeyVer b) \/ (k, v) = (KAead, AEADVer b) ->
  v_item v (oDebug o) = show o E (FVersion k b).
Proof.
  intros [H|[H|[H|[H|[H|H]]]]]; injection H as -> ->; cbn [show]; unfold v_item; rewrite dump_byte_if; cbn [v_ver PubVer SigVer OneSigVer PubSessKeyVer SymSessKeyVer AEADVer];
  f_equal; unfold v_note, v_isold, v_iscur, v_isdraft, v_num, version_label, current_version, draft_version; cbn [v_ver v_cur v_draft PubVer SigVer OneSigVer PubSessKeyVer SymSessKeyVer AEADVer N.eqb];
  match goal with |- context [(?n ?= ?c)%N] => destruct (N.compare_spec n c) end;
  repeat match goal with |- context [(?a <? ?b)%N] => destruct (N.ltb_spec a b) | |- context [(?a =? ?b)%N] => destruct (N.eqb_spec a b) end; try lia; try reflexivity.
Qed.
