(** * KeyTailL: what follows the complete packets of a key block (C33, C34). *)
From Coq Require Import Strings.String Strings.Byte List NArith ZArith Bool Lia ZifyBool ZifyN ZifyNat.
From Verif Require Import Base BaseL SpecBase Item Reader ReaderL Context Env Opaque Monad MonadL SubParse Tags.
From Verif Require Import SpecPacket SpecFrame FramingL FrameL SpecNest SpecSub SpecSubs SpecParse SpecComp SubsL KeyL Subs SubL ReadsL SpecReader.
Import ListNotations.
Local Open Scope N_scope.

Lemma first_octet b t r : posn r -> remaining r = b :: t -> exists r1, read_full rdr_read 1 1 [] r = (Some (inl [b]), r1) /\ remaining r1 = t /\ posn r1.
Proof. intros P D. destruct (read_full_ok rdr_read remaining posn rdr_good 1 [] [b] t r P D ltac:(reflexivity)) as (r1 & R & D1 & P1). exists r1. auto. Qed.
Lemma next_rd_bad E b t s : b2n b < 128 -> posn (s_rd s) -> remaining (s_rd s) = b :: t ->
  exists r', next_rd E s = (RErr EStruct, mkSt r' (s_cs s) (s_cur s)).
Proof.
  intros B P D. unfold next_rd, next_packet, readHeader. destruct (first_octet b t _ P D) as (r1 & -> & _). cbv zeta.
  assert (N.land (b2n b) 128 = 0) as ->; [|eexists; reflexivity]. destruct b; try reflexivity; vm_compute in B; discriminate B.
Qed.
(** The program's own reader never reports the bare end of input, so io.ReadAll never ends well on it. *)
Lemma read_all_never grow fuel : forall cap acc r b cs, read_all rdr_read grow fuel cap acc (CRaw, r) <> (Some (inl b), cs).
Proof.
  induction fuel as [|fuel IH]; intros cap acc r b cs; cbn [read_all]; [discriminate|]. cbv zeta.
  set (n := _ - lenN acc). unfold cread, rdr_read. destruct (2 ^ 63 <=? n); [discriminate|].
  destruct (r_read (Z.of_N n) r) as [[l|[]| |] r1]; try discriminate. apply IH.
Qed.
Lemma next_rd_raw E tag body s : tag < 16 -> posn (s_rd s) -> remaining (s_rd s) = n2b (131 + 4 * tag) :: body ->
  exists r' y, next_rd E s = (y, mkSt r' (s_cs s) (s_cur s)) /\ (y = ROk None \/ exists e, y = RErr e).
Proof.
  intros T P D. pose proof (posn_fuel (e_grow E) _ P) as FU. unfold next_rd, next_packet, readHeader in *.
  destruct (first_octet _ _ _ P D) as (r1 & R & D1 & P1). rewrite R in *. cbv zeta in *. rewrite b2n_n2b_small in * by lia.
  destruct (old_header tag 3 T ltac:(lia)) as (H1 & H2 & H3 & H4). replace (131 + 4 * tag) with (128 + 3 + 4 * tag) in * by lia.
  rewrite H1, H2, H3, H4 in *. change (3 =? 3) with true in *. cbv iota in *. 
  destruct (read_all rdr_read (e_grow E) (S (S (length (r_buf (s_rd s))))) 512 [] (CRaw, r1)) as [[[b|e]|] [c2 r2]] eqn:RA.
  - exfalso. exact (read_all_never _ _ _ _ _ _ _ RA).
  - exists r2. destruct (rerr_err e); eexists; (split; [reflexivity|]); eauto.
  - exfalso. apply FU. reflexivity.
Qed.

Lemma key_rest_y o E ty l w q is cs cs1 : sub_type ty = 38 -> (lenZ (x00 :: w ++ q) < 2 ^ 62)%Z -> packets_in l w ->
  flat_list o E l cs = (ROk is, cs1) ->
  (forall s, posn (s_rd s) -> remaining (s_rd s) = q -> exists r' y, next_rd E s = (y, mkSt r' (s_cs s) (s_cur s)) /\ (y = ROk None \/ exists e, y = RErr e)) ->
  (exists e, parse_sub o E 2 ty (x00 :: w ++ q) cs = (RErr e, cs1)) \/
  parse_sub o E 2 ty (x00 :: w ++ q) cs = (ROk (key_shown o ty (w ++ q) is), cs1).
Proof.
  intros T L P F N. destruct (sub38_start o E ty (w ++ q) cs T L) as (r & fuel & PS & D & LF & K).
  pose proof (key_packets o E l w P fuel (mkSt r cs (key_item o (w ++ q))) q PS D LF) as H. cbn [s_cs s_cur] in H.
  rewrite F in H. destruct H as (r' & fuel' & D' & P' & L' & Z). destruct fuel' as [|fuel']; [lia|]. cbn [key_loop] in Z.
  destruct (N (mkSt r' cs1 (adds is (key_item o (w ++ q)))) P' D') as (r2 & y & R & [Y|[e Y]]); subst y; cbn [s_cs s_cur] in R; unfold bind in Z; rewrite R in Z.
  - right. apply K. rewrite Z. unfold ret. cbn [s_cs s_cur]. unfold key_item, adds. cbn [i_items app]. auto.
  - left. exists e. apply K. rewrite Z. cbn [s_cs s_cur]. split; [reflexivity|]. split; [reflexivity | discriminate].
Qed.
Lemma key_rest_bad o E ty l w b t is cs cs1 : sub_type ty = 38 -> (lenZ (x00 :: w ++ b :: t) < 2 ^ 62)%Z -> packets_in l w ->
  flat_list o E l cs = (ROk is, cs1) -> b2n b < 128 -> parse_sub o E 2 ty (x00 :: w ++ b :: t) cs = (RErr EStruct, cs1).
Proof.
  intros T L P F B. destruct (sub38_start o E ty (w ++ b :: t) cs T L) as (r & fuel & PS & D & LF & K).
  pose proof (key_packets o E l w P fuel (mkSt r cs (key_item o (w ++ b :: t))) (b :: t) PS D LF) as H. cbn [s_cs s_cur] in H.
  rewrite F in H. destruct H as (r' & fuel' & D' & P' & L' & Z). destruct fuel' as [|fuel']; [lia|]. cbn [key_loop] in Z.
  destruct (next_rd_bad E b t (mkSt r' cs1 (adds is (key_item o (w ++ b :: t)))) B P' D') as (r2 & R). cbn [s_cs s_cur] in R. unfold bind in Z; rewrite R in Z.
  apply K. rewrite Z. cbn [s_cs s_cur]. split; [reflexivity|]. split; [reflexivity | discriminate].
Qed.
