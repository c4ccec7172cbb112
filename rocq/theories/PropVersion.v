(** * PropVersion: the tests on a version number and the label that is shown (C48). *)
From Coq Require Import Strings.String Strings.Byte List NArith ZArith Bool Lia ZifyBool ZifyN.
From Verif Require Import Base Item Values SpecBase.
Import ListNotations.
Local Open Scope N_scope.

(** C48.  IsOld, IsCurrent, IsDraft and IsUnknown of a version tell what its label says, for every current version and every draft version behind it
    (0: there is no draft version); so exactly one of the four holds. *)
Theorem C48_tests : forall (b : byte) (cur draft : N) (f : bool), draft = 0 \/ cur < draft ->
  let v := mkVer b cur draft in let label := i_note (v_item v f) in
  (v_isold v = true <-> label = str "old") /\ (v_iscur v = true <-> label = str "current") /\
  (v_isdraft v = true <-> label = str "draft") /\ (v_isunknown v = true <-> label = str "unknown") /\
  (v_isold v = true <-> b2n b < cur) /\ (v_iscur v = true <-> b2n b = cur) /\ (v_isdraft v = true <-> draft <> 0 /\ b2n b = draft).
Proof.
  intros b cur draft f H. cbv zeta. cbn [v_item i_note]. unfold v_note, v_isunknown, v_isold, v_iscur, v_isdraft, v_num. cbn [v_ver v_cur v_draft].
  destruct (N.ltb_spec (b2n b) cur) as [A|A], (N.eqb_spec (b2n b) cur) as [B|B], (N.eqb_spec draft 0) as [C|C], (N.eqb_spec (b2n b) draft) as [D|D]; try lia;
    cbn [negb andb]; repeat split; intros; first [reflexivity | discriminate | lia].
Qed.
Print Assumptions C48_tests.

(** The pairs that the program uses meet the condition; a draft version before the current one would be called old and draft at once. *)
Example C48_tests_used :
  Forall (fun v => v_draft v = 0 \/ v_cur v < v_draft v) [PubVer x04; SigVer x04; OneSigVer x03; PubSessKeyVer x03; SymSessKeyVer x04; AEADVer x01] /\
  v_isold (mkVer x03 4 3) = true /\ v_isdraft (mkVer x03 4 3) = true.
Proof. split; [repeat constructor; cbn; lia | split; reflexivity]. Qed.
