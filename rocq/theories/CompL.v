(** * CompL: the closed form of a compressed data packet (tag 8). *)
From Coq Require Import Strings.String Strings.Byte List NArith ZArith Bool Lia ZifyBool ZifyN ZifyNat.
From Verif Require Import Base Item Reader Context Env Values Opaque Monad Subs Tags Parse.
From Verif Require Import SpecBase BaseL MonadL TagL SpecNest.
Import ListNotations.
Local Open Scope Z_scope.

Definition comp_data (o : opts) (z : bytes) (value : bytes) : item :=
  Item (str "Compressed data") value (dump_bytes z (oDebug o)) (n_bytes (lenZ z)) [].

Lemma tag08_closed o E a z cs : lenZ (a :: z) < 2 ^ 62 ->
  parse_tag o E 8%N (a :: z) cs =
    let p kids := Item (tag_string 8%N) [] (dump_bytes (a :: z) (oDebug o)) (n_bytes (lenZ (a :: z))) (comp_item a (oDebug o) :: kids) in
    match z with
    | [] => (ROk (p [], Some []), cs)
    | _ =>
      if (b2n a =? 0)%N then (ROk (p [comp_data o z []], Some z), cs)
      else if (b2n a <=? 3)%N then
        match copy_from (e_inflate E (b2n a) z) with
        | inl d => (ROk (p [comp_data o z []], Some d), cs)
        | inr true => (ROk (p [comp_data o z (str "<too laege decompressed data>")], None), cs)
        | inr false => (RErr EDecomp, cs)
        end
      else (ROk (p [comp_data o z []], Some []), cs)
    end.
Proof.
  intro L. destruct (parse_tag_body o E 8%N (a :: z) cs) as [rec ->]. unfold tag_body.
  change (tag_m rec o E 8%N) with (tag08 o E). unfold tag08.
  rewrite at_new. change (mkSt (at_ (a :: z) (a :: z)) cs ?i) with (sat (a :: z) (a :: z) cs i).
  assert (suf (a :: z) (a :: z)) as S0 by (apply suf_refl, L).
  assert (suf (a :: z) z) as S1 by (split; [exists [a]; reflexivity | exact L]).
  erewrite bind_ok by (apply rdByte_at, S0). erewrite bind_ok by apply add_at. erewrite bind_ok by (apply rdRest_at, S1).
  change (tag_dumpflag o 8%N) with (oDebug o). unfold tag_item. cbn [add_child app].
  destruct z as [|b z]; [reflexivity|].
  replace (0 <? lenZ (b :: z)) with true by (rewrite lenZ_cons; pose proof (lenZ_nonneg z); lia).
  erewrite bind_ok by (apply rawData_at, S1). cbv zeta. fold (comp_data o (b :: z) []).
  destruct (rd2EOF_at (a :: b :: z) (b :: z) cs
              (Item (tag_string 8%N) [] (dump_bytes (a :: b :: z) (oDebug o)) (n_bytes (lenZ (a :: b :: z))) [comp_item a (oDebug o)]) S1 ltac:(discriminate))
    as (s' & R1 & R2 & R3 & _).
  destruct (b2n a =? 0)%N.
  { erewrite bind_ok by exact R1. unfold bind, add, upd, ret. cbn [fst snd s_cur s_cs]. rewrite R2, R3. reflexivity. }
  destruct (b2n a <=? 3)%N.
  - erewrite bind_ok by exact R1. destruct (copy_from (e_inflate E (b2n a) (b :: z))) as [d|[|]];
    unfold bind, add, upd, ret, fail, of_res; cbn [fst snd s_cur s_cs]; rewrite R2, ?R3; reflexivity.
  - reflexivity.
Qed.

Lemma tag08_empty o E cs : parse_tag o E 8%N [] cs = (RErr EEof, cs).
Proof. reflexivity. Qed.

(** Only compressed packets have contents. *)
Lemma no_data_none m s x s' : no_data m s = (ROk x, s') -> x = None.
Proof. unfold no_data, bind, ret. destruct (m s) as [[| | |] ?]; intro H; inversion H; reflexivity. Qed.

Lemma expanded_contents o E tag body cs it d cs' : lenZ body < 2 ^ 62 ->
  parse_tag o E tag body cs = (ROk (it, Some d), cs') -> tag = 8%N /\ (contents E body d \/ d = []).
Proof.
  intros L H. destruct (N.eq_dec tag 8) as [->|N8].
  - split; [reflexivity|]. destruct body as [|a z]; [discriminate|]. rewrite tag08_closed in H by exact L. cbv zeta in H.
    destruct z as [|b z]; [inversion H; auto|].
    destruct (b2n a =? 0)%N eqn:A0.
    { inversion H; subst. left. assert (a = x00) as -> by (apply b2n_inj; apply N.eqb_eq, A0). constructor. }
    destruct (b2n a <=? 3)%N eqn:A3; [|inversion H; auto].
    destruct (copy_from (e_inflate E (b2n a) (b :: z))) as [d'|[|]] eqn:C; try discriminate. inversion H; subst.
    left. unfold copy_from, max_decompressed in C. destruct (e_inflate E (b2n a) (b :: z)) as [|out ok] eqn:EI; [discriminate|].
    destruct (2 ^ 30 <=? lenN out)%N eqn:K; [discriminate|]. destruct ok; [|discriminate]. inversion C; subst.
    apply contents_inflated; [lia | discriminate | exact EI | apply N.leb_gt, K].
  - exfalso. destruct (parse_tag_body o E tag body cs) as [rec X]. rewrite X in H. clear X. unfold tag_body in H.
    destruct (tag_m rec o E tag _) as [r s] eqn:T. destruct r as [x| | |]; try discriminate. inversion H; subst. clear H.
    assert (@None bytes = Some d); [|discriminate]. symmetry.
    revert T N8. unfold tag_m. destruct tag as [|p]; [intros T _; exact (no_data_none _ _ _ _ T)|].
    do 5 (try (destruct p as [p|p|])); intros T N8; try exact (no_data_none _ _ _ _ T); congruence.
Qed.
