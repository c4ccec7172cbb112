(** * ShownKeyL: key blocks that end inside a packet, and those of another type. *)
From Coq Require Import Strings.String Strings.Byte List NArith ZArith Bool Lia ZifyBool ZifyN ZifyNat.
From Verif Require Import Base BaseL SpecBase Item Reader ReaderL SpecReader Context Env Values Opaque Monad MonadL Subs Tags SubParse.
From Verif Require Import RelL ParseL SpecValues SpecPacket ReadsL PacketL TagL SpecFrame FramingL SpecParse SpecComp SpecSub SpecSubs SpecLiteral SubL SubsL KeyL PropKeyBlock.
From Verif Require SpecAccept AcceptFrameL.
Import ListNotations.
Local Open Scope N_scope.

Lemma key_cut o E ty l w q is cs cs1 : sub_type ty = 38 -> sized (x00 :: w ++ q) -> packets_in l w -> flat_list o E l cs = (ROk is, cs1) ->
  SpecAccept.int_sizes (e_grow E) -> lenN q < 2 ^ 32 -> SpecAccept.first_packet q = None -> SpecAccept.lost (e_grow E) q = true ->
  parse_sub o E 2 ty (x00 :: w ++ q) cs = (ROk (key_shown o ty (w ++ q) is), cs1).
Proof.
  intros T L P F I LQ FP LO. destruct q as [|h t].
  - rewrite app_nil_r in *. rewrite (C34_complete o E ty l w cs T L P), F. reflexivity.
  - rewrite (key_rest o E ty l w (h :: t) is cs cs1 (ROk None) T L P F); [reflexivity | | left; reflexivity].
    intros s (B & rest & SF & PS) D. rewrite PS, remaining_at in D by exact SF. subst rest.
    destruct (AcceptFrameL.next_rd_tail E B (h :: t) (s_cs s) (s_cur s) I SF LQ ltac:(eauto)) as (r & H).
    rewrite (AcceptFrameL.dropped_lost E h t I LQ), LO in H. exists r. unfold sat in H. rewrite <- PS in H. destruct s. exact H.
Qed.
Lemma key_other o E ty v w cs : sub_type ty = 38 -> sized (v :: w) -> b2n v <> 0 ->
  parse_sub o E 2 ty (v :: w) cs = (ROk (sub_shown o ty (v :: w) [number_shown "Type" (b2n v); data_shown "Key data" (oDebug o) w]), cs).
Proof.
  intros T L V. pose proof (suf_refl _ L) as SF. change (v :: w) with ([v] ++ w) in SF at 2. pose proof (suf_app _ _ _ SF) as SF1.
  unfold parse_sub. rewrite (sub_case o E ty 38 T), sub_item_shown, at_new.
  change (mkSt (MonadL.at_ (v :: w) (v :: w)) cs (sub_shown o ty (v :: w) [])) with (sat (v :: w) (v :: w) cs (sub_shown o ty (v :: w) [])).
  unfold sub38. erewrite bind_ok by (apply rdByte_at; exact SF). erewrite bind_ok by (apply add_at).
  erewrite bind_ok by (apply rawData_at; exact SF1). replace (b2n v =? 0) with false by lia. cbv iota. rewrite add_at.
  rewrite dump_bytes_if, n_bytes_note. reflexivity.
Qed.
