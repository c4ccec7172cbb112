(** * PropKeyBlock: key block sub-packets (C33, C34). *)
From Coq Require Import Strings.String Strings.Byte List NArith ZArith Bool Lia ZifyBool ZifyN ZifyNat.
From Verif Require Import Base BaseL SpecBase Item Reader ReaderL Context Env Opaque Monad MonadL SubParse Tags.
From Verif Require Import SpecPacket SpecFrame FramingL SpecNest SpecSub SpecSubs SpecParse SpecComp SubsL KeyL KeyTailL GrammarL Subs SubL ReadsL Witness.
Import ListNotations.
Local Open Scope N_scope.

Lemma framed_octet tag body b w : framed tag body (b :: w) -> 128 <= b2n b.
Proof. intro F. remember (b :: w) as u eqn:Q. destruct F; apply cons_inj in Q as [<- _]; rewrite b2n_n2b_small by lia; lia. Qed.

(** ** C34: complete key blocks *)
(** C34.  The packets of a complete key block are parsed one after the other; the item of the key data has their
    items, or the sub-packet fails with the first packet that fails. *)
Theorem C34_complete : forall o E ty l w cs, sub_type ty = 38 -> sized (x00 :: w) -> packets_in l w ->
  parse_sub o E 2 ty (x00 :: w) cs = (map_res (key_shown o ty w) (fst (flat_list o E l cs)), snd (flat_list o E l cs)).
Proof. intros o E ty l w cs T L P. apply key_complete; assumption. Qed.
Print Assumptions C34_complete.

(** The items of a list of packets: one for each packet, the one it has by itself in the state reached there. *)
Theorem C34_each : forall o E l cs is cs', flat_list o E l cs = (ROk is, cs') ->
  length is = length l /\
  forall k tag body, nth_error l k = Some (tag, body) -> exists cs1 cs2 i x,
    snd (flat_list o E (firstn k l) cs) = cs1 /\ parse_tag o E tag body cs1 = (ROk (i, x), cs2) /\ nth_error is k = Some i.
Proof.
  intros o E l. induction l as [|[tag body] l IH]; intros cs is cs' H; cbn [flat_list] in H.
  - inversion H; subst. split; [reflexivity|]. intros [|k]; discriminate.
  - destruct (parse_tag o E tag body cs) as [[[i x]|e| |] cs1] eqn:R; try discriminate.
    destruct (flat_list o E l cs1) as [[r|e| |] cs2] eqn:F; try discriminate. inversion H; subst.
    destruct (IH cs1 r cs' F) as (L & A). split; [cbn [length]; lia|]. intros [|k] t b K; cbn [nth_error] in K.
    + inversion K; subst. exists cs, cs1, i, x. cbn. auto.
    + destruct (A k t b K) as (c1 & c2 & j & y & S & P & N). exists c1, c2, j, y. cbn [firstn flat_list nth_error]. rewrite R.
      split; [|auto]. rewrite <- S. destruct (flat_list o E (firstn k l) cs1) as [[]]; reflexivity.
Qed.
Print Assumptions C34_each.

Definition marker : bytes := [xca; x03; x50; x47; x50].
Definition user : bytes := [xb4; x02; x41; x42].
Example C34_used : packets_in [(10, [x50; x47; x50]); (13, [x41; x42])] (marker ++ user) /\
  parse_sub o_plain env0 2 x26 (x00 :: marker ++ user) cst_init =
    (ROk (sub_shown o_plain x26 (x00 :: marker ++ user)
      [number_shown "Type" 0;
       Item (str "Key data") [] [] (str "9 bytes")
         [packet_shown o_plain 10 [x50; x47; x50] [Item (str "Literal data") [] [] (str "3 bytes") []];
          packet_shown o_plain 13 [x41; x42] [Item (str "User ID") (str "AB") [] [] []]]]), cst_init).
Proof.
  split.
  - change (marker ++ user) with ((n2b (192 + 10) :: [x03] ++ [x50; x47; x50]) ++ (n2b (128 + 4 * 13) :: be_enc 1 2 ++ [x41; x42]) ++ []).
    repeat constructor; reflexivity || lia.
  - vm_compute. reflexivity.
Qed.

(** ** C33: key blocks that are cut *)
(** C33, as far as it goes.  Key data that ends inside a packet: if all of the header and some but fewer than
    min(512, size) octets of the body are there, the sub-packet fails. *)
Theorem C33_reported_partial : forall o E ty l w tag (body : bytes) h q is cs cs1, sub_type ty = 38 -> sized (x00 :: w ++ h ++ q) ->
  packets_in l w -> flat_list o E l cs = (ROk is, cs1) ->
  header tag (lenN body) h -> strict_prefix q body -> 0 < lenN q < 512 ->
  parse_sub o E 2 ty (x00 :: w ++ h ++ q) cs = (RErr EUnexp, cs1).
Proof.
  intros o E ty l w tag body h q is cs cs1 T L P F H (x & NX & EB) Q.
  assert (lenN q < lenN body) as LT by (rewrite EB; unfold lenN; rewrite app_length; destruct x; [congruence|]; cbn [length]; lia).
  rewrite (key_rest o E ty l w (h ++ q) is cs cs1 (RErr EUnexp) T L P F); [reflexivity| |auto].
  intros s PS D. destruct (next_rd_in_body E tag body h q s H PS D ltac:(lia)) as (r' & R). exists r'. rewrite R.
  destruct q; [cbn in Q; lia | reflexivity].
Qed.
Print Assumptions C33_reported_partial.

(** C33 is not true otherwise: a key block that ends after the header of a packet with a body is accepted, and that
    packet is not shown. *)
Theorem C33_header_only : forall o E ty l w tag (body : bytes) h is cs cs1, sub_type ty = 38 -> sized (x00 :: w ++ h) ->
  packets_in l w -> flat_list o E l cs = (ROk is, cs1) -> header tag (lenN body) h -> body <> [] ->
  parse_sub o E 2 ty (x00 :: w ++ h) cs = (ROk (key_shown o ty (w ++ h) is), cs1).
Proof.
  intros o E ty l w tag body h is cs cs1 T L P F H NB.
  rewrite (key_rest o E ty l w h is cs cs1 (ROk None) T L P F); [reflexivity| |auto].
  intros s PS D. assert (0 < lenN body) by (destruct body; [congruence|]; unfold lenN; cbn [length]; lia).
  rewrite <- (app_nil_r h) in D. destruct (next_rd_in_body E tag body h [] s H PS D ltac:(change (lenN []) with 0; lia)) as (r' & R).
  exists r'. exact R.
Qed.
Print Assumptions C33_header_only.
Theorem C33_refuted : exists l w tag body cut lost it cs',
  packets_in l w /\ framed tag body (cut ++ lost) /\ cut <> [] /\ lost <> [] /\
  parse_sub o_plain env0 2 x26 (x00 :: w ++ cut) cst_init = (ROk it, cs') /\
  it = key_shown o_plain x26 (w ++ cut) [packet_shown o_plain 10 [x50; x47; x50] [Item (str "Literal data") [] [] (str "3 bytes") []]].
Proof.
  exists [(10, [x50; x47; x50])], marker, 13, [x41; x42], [xb4; x02], [x41; x42]. eexists _, _.
  split; [|split; [|split; [discriminate | split; [discriminate | split; [vm_compute; reflexivity | vm_compute; reflexivity]]]]].
  - change marker with ((n2b (192 + 10) :: [x03] ++ [x50; x47; x50]) ++ []). repeat constructor; reflexivity || lia.
  - change ([xb4; x02] ++ [x41; x42]) with (n2b (128 + 4 * 13) :: be_enc 1 2 ++ [x41; x42]). constructor; reflexivity.
Qed.
Print Assumptions C33_refuted.

(** C33, for every cut of every packet: the sub-packet fails with "unexpected EOF", or shows exactly the complete
    packets before it.  Nothing of a packet that is cut is ever shown. *)
Theorem C33_either : forall o E ty l w tag body q x is cs cs1, sub_type ty = 38 -> sized (x00 :: w ++ q ++ x) ->
  packets_in l w -> flat_list o E l cs = (ROk is, cs1) -> framed tag body (q ++ x) -> x <> [] ->
  parse_sub o E 2 ty (x00 :: w ++ q) cs = (RErr EUnexp, cs1) \/
  parse_sub o E 2 ty (x00 :: w ++ q) cs = (ROk (key_shown o ty (w ++ q) is), cs1).
Proof.
  intros o E ty l w tag body q x is cs cs1 T L P F FR NX. unfold sized in L.
  assert (lenZ (x00 :: w ++ q) < 2 ^ 62)%Z as L1 by (unfold lenZ in *; cbn [length] in *; rewrite !app_length in *; lia).
  assert (lenZ (q ++ x) < 2 ^ 62)%Z as L2 by (unfold lenZ in *; cbn [length] in *; rewrite !app_length in *; lia).
  destruct (key_rest_any o E ty l w q is cs cs1 T L1 P F) as [R|R]; [|auto..].
  intros s PS D. exact (next_rd_short E tag body q x s FR NX L2 PS D).
Qed.
Print Assumptions C33_either.

(** C33 and C34 together, for every key block: its octets are some complete packets followed by nothing, by something
    that is no packet, or by a packet that is cut or of indeterminate length.  If the complete packets do not parse,
    the sub-packet fails as they do.  Otherwise it shows them; or fails with a structural error; or fails or shows only them. *)
Theorem C33_every : forall o E ty w cs, sub_type ty = 38 -> lenN (x00 :: w) < 2 ^ 32 ->
  exists l w1 rest, w = w1 ++ rest /\ packets_in l w1 /\ tail_of rest /\
  match flat_list o E l cs with
  | (ROk is, cs1) =>
    match rest with
    | [] => parse_sub o E 2 ty (x00 :: w) cs = (ROk (key_shown o ty w is), cs1)
    | b :: _ => if b2n b <? 128 then parse_sub o E 2 ty (x00 :: w) cs = (RErr EStruct, cs1)
      else (exists e, parse_sub o E 2 ty (x00 :: w) cs = (RErr e, cs1)) \/ parse_sub o E 2 ty (x00 :: w) cs = (ROk (key_shown o ty w is), cs1)
    end
  | (r, cs1) => parse_sub o E 2 ty (x00 :: w) cs = (map_res (key_shown o ty w) r, cs1)
  end.
Proof.
  intros o E ty w cs T L. change (2 ^ 32) with 4294967296 in L. destruct (octets_are_packets w) as (l & w1 & rest & -> & P & TL).
  exists l, w1, rest. split; [reflexivity|]. split; [exact P|]. split; [exact TL|].
  assert (sized (x00 :: w1 ++ rest)) as SZ by (unfold sized, lenZ, lenN in *; lia).
  destruct (flat_list o E l cs) as [[is|e| |] cs1] eqn:F.
  2-4: destruct (sub38_start o E ty (w1 ++ rest) cs T SZ) as (r & fuel & PS & D & LF & K);
    pose proof (key_packets o E l w1 P fuel (mkSt r cs (key_item o (w1 ++ rest))) rest PS D LF) as X; cbn [s_cs s_cur] in X; rewrite F in X;
    destruct X as [X1 X2]; apply K; destruct (key_loop (parse_tag o E) E fuel (mkSt r cs (key_item o (w1 ++ rest)))) as [y s]; cbn [fst snd] in *; subst y;
    (split; [exact X2 | split; [reflexivity | discriminate]]).
  destruct TL as [|b t B|tag body TT|q tag body x Q X FR LX].
  - rewrite app_nil_r in *. rewrite (C34_complete o E ty l w1 cs T SZ P), F. reflexivity.
  - replace (b2n b <? 128) with true by lia. exact (key_rest_bad o E ty l w1 b t is cs cs1 T SZ P F B).
  - rewrite b2n_n2b_small by lia. replace (131 + 4 * tag <? 128) with false by lia.
    apply (key_rest_y o E ty l w1 _ is cs cs1 T SZ P F). intros s PS D. exact (next_rd_raw E tag body s TT PS D).
  - destruct q as [|b q]; [congruence|]. 
    destruct (key_rest_any o E ty l w1 (b :: q) is cs cs1 T SZ P F) as [R|R].
    + intros s PS D. refine (next_rd_short E tag body (b :: q) x s FR X _ PS D). change (2 ^ 32) with 4294967296 in LX.
      unfold lenZ, lenN in *. rewrite !app_length in *. cbn [length] in *. rewrite !app_length in *. cbn [length] in *. lia.
    + destruct (b2n b <? 128) eqn:B; [|eauto]. exfalso. apply framed_octet in FR. lia.
    + destruct (b2n b <? 128) eqn:B; [|eauto]. exfalso. apply framed_octet in FR. lia.
Qed.
Print Assumptions C33_every.
