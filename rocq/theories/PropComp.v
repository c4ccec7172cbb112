(** * PropComp: C35. *)
From Coq Require Import Strings.String Strings.Byte List NArith ZArith Bool Lia ZifyBool ZifyN ZifyNat.
From Verif Require Import Base Item Reader Context Env Values Opaque Monad Subs Tags Parse SpecBase BaseL SpecValues
  SpecPacket PacketL FrameL SpecFrame FramingL SpecNest CompL SpecParse SpecComp Witness PropFrame.
Import ListNotations.
Local Open Scope N_scope.

Lemma compressed_eq o a z label inner :
  Item (tag_string 8) [] (dump_bytes (a :: z) (oDebug o)) (n_bytes (lenZ (a :: z)))
    (comp_item a (oDebug o) :: match z with [] => [] | _ => [comp_data o z label] end ++ inner) = compressed_shown o a z label inner.
Proof.
  pose proof (f_equal i_name (tag_item_shown o 8 (a :: z))) as T. cbn [tag_item packet_shown i_name] in T.
  unfold compressed_shown, packet_shown. change ((60 <=? 8) && (8 <=? 63))%bool with false. cbv iota.
  rewrite T, dump_bytes_if, n_bytes_note, comp_shown_eq. f_equal. f_equal. destruct z; [reflexivity|]. unfold comp_data. rewrite dump_bytes_if, n_bytes_note. reflexivity.
Qed.

Lemma expand_packets o E l w : packets_in l w -> forall fuel c it cs rest, c_inv true c -> c_data c = w ++ rest -> (length (w ++ rest) < fuel)%nat ->
  exists c' fuel', c_data c' = rest /\ c_inv true c' /\ (length rest < fuel')%nat /\
    expand_loop o E fuel c it cs =
      match flat_list o E l cs with
      | (ROk is, cs') => expand_loop o E fuel' c' (fold_left (fun i c => add_child c i) is it) cs'
      | (RErr e, cs') => (RErr e, cs')
      | (RPanic, cs') => (RPanic, cs')
      | (RFuel, cs') => (RFuel, cs')
      end.
Proof.
  induction 1 as [|tag body l w w' F P IH]; intros fuel c it cs rest I D L.
  - exists c, fuel. auto.
  - rewrite <- app_assoc in D, L. destruct (next_chunks_ok E true tag body w (w' ++ rest) c F I D) as (c1 & N & D1 & I1).
    pose proof (framed_longer _ _ _ F) as LF. destruct fuel as [|fuel]; [lia|]. cbn [expand_loop flat_list]. rewrite N.
    destruct (parse_tag o E tag body cs) as [[[i x]|e| |] cs1] eqn:PP.
    2-4: exists (mkChunks (match rest with [] => [] | _ => [rest] end) true), (Datatypes.S (length rest));
      (split; [destruct rest; [reflexivity | unfold c_data; cbn; rewrite app_nil_r; reflexivity]|]);
      (split; [split; [destruct rest; repeat constructor; discriminate | reflexivity]|]); (split; [lia | reflexivity]).
    rewrite app_length in L. destruct (IH fuel c1 (add_child i it) cs1 rest I1 D1 ltac:(lia)) as (c' & fuel' & D' & I' & L' & ->).
    exists c', fuel'. split; [exact D'|]. split; [exact I'|]. split; [exact L'|].
    destruct (flat_list o E l cs1) as [[is|e| |] cs2]; reflexivity.
Qed.
Lemma fold_add is : forall n v d t l, fold_left (fun i c => add_child c i) is (Item n v d t l) = Item n v d t (l ++ is).
Proof.
  induction is as [|i is IH]; intros n v d t l; [cbn; rewrite app_nil_r; reflexivity|]. cbn [fold_left add_child]. rewrite IH, <- app_assoc. reflexivity.
Qed.
Lemma chunks_of_inv d : c_inv true (chunks_of d true) /\ c_data (chunks_of d true) = d.
Proof. split; [split; [destruct d; repeat constructor; discriminate | reflexivity] | destruct d; [reflexivity | unfold c_data; cbn; rewrite app_nil_r; reflexivity]]. Qed.

(** The data handed to the expansion. *)
Lemma packets_parse_8 o E a z d cs : (lenZ (a :: z) < 2 ^ 62)%Z -> contents E (a :: z) d ->
  packets_parse o E 8 (a :: z) cs = expand_loop o E (S (length d)) (chunks_of d true) (compressed_shown o a z [] []) cs.
Proof.
  intros L C. unfold packets_parse. rewrite tag08_closed by exact L. cbv zeta.
  inversion C as [z' | a' z' d' A Z EI LD]; subst.
  - destruct d as [|b z]; [rewrite <- compressed_eq; reflexivity|]. change (b2n x00 =? 0) with true. cbv iota. rewrite <- compressed_eq. reflexivity.
  - destruct z as [|b z]; [congruence|]. replace (b2n a =? 0) with false by lia. replace (b2n a <=? 3) with true by lia.
    rewrite EI. unfold copy_from, max_decompressed. replace (2 ^ 30 <=? lenN d) with false by lia. rewrite <- compressed_eq. reflexivity.
Qed.

(** C35.  The packets inside a compressed packet are shown after its own fields, one item each, in order; the first that
    fails makes the whole packet fail.  A compressed packet among them is not opened. *)
Theorem C35_expanded : forall (o : opts) (E : env) (a : byte) (z d : bytes) (l : list (N * bytes)) (cs : cst),
  sized (a :: z) -> contents E (a :: z) d -> input_of l d ->
  fst (packets_parse o E 8 (a :: z) cs) = map_res (compressed_shown o a z []) (fst (flat_list o E l cs)) /\
  snd (packets_parse o E 8 (a :: z) cs) = snd (flat_list o E l cs).
Proof.
  intros o E a z d l cs L C I. rewrite (packets_parse_8 o E a z d cs L C). destruct (chunks_of_inv d) as [IV DD].
  assert (forall is, fold_left (fun i c => add_child c i) is (compressed_shown o a z [] []) = compressed_shown o a z [] is) as FA.
  { intro is. unfold compressed_shown, packet_shown. rewrite fold_add, app_nil_r. reflexivity. }
  destruct I as [l w P | l w tag body P T].
  - destruct (expand_packets o E l w P (S (length w)) (chunks_of w true) (compressed_shown o a z [] []) cs []) as (c' & f' & D' & I' & L' & ->).
    + exact IV.
    + rewrite app_nil_r. exact DD.
    + rewrite app_nil_r. lia.
    + destruct (flat_list o E l cs) as [[is|e| |] cs1]; cbn [fst snd map_res]; try (split; reflexivity).
      destruct f' as [|f']; [cbn [length] in L'; lia|]. cbn [expand_loop]. destruct (next_chunks_end E true c' I' D') as (c2 & ->).
      rewrite FA. split; reflexivity.
  - destruct (expand_packets o E l w P (S (length (w ++ n2b (131 + 4 * tag) :: body))) (chunks_of (w ++ n2b (131 + 4 * tag) :: body) true)
      (compressed_shown o a z [] []) cs (n2b (131 + 4 * tag) :: body) IV DD ltac:(lia)) as (c' & f' & D' & I' & L' & ->).
    assert (flat_list o E (l ++ [(tag, body)]) cs =
      match flat_list o E l cs with
      | (ROk is, cs1) => match parse_tag o E tag body cs1 with
                         | (ROk (i, _), cs2) => (ROk (is ++ [i]), cs2)
                         | (RErr e, cs2) => (RErr e, cs2) | (RPanic, cs2) => (RPanic, cs2) | (RFuel, cs2) => (RFuel, cs2)
                         end
      | (RErr e, cs1) => (RErr e, cs1) | (RPanic, cs1) => (RPanic, cs1) | (RFuel, cs1) => (RFuel, cs1)
      end) as ->.
    { clear. revert cs. induction l as [|[t b] l IH]; intro cs; cbn [app flat_list].
      - destruct (parse_tag o E tag body cs) as [[[i x]|e| |] cs1]; reflexivity.
      - destruct (parse_tag o E t b cs) as [[[i x]|e| |] cs1]; try reflexivity. rewrite IH.
        destruct (flat_list o E l cs1) as [[is|e| |] cs2]; try reflexivity.
        destruct (parse_tag o E tag body cs2) as [[[j y]|e| |] cs3]; reflexivity. }
    destruct (flat_list o E l cs) as [[is|e| |] cs1]; cbn [fst snd map_res]; try (split; reflexivity).
    destruct f' as [|f']; [lia|]. cbn [expand_loop]. destruct (next_chunks_raw E tag body c' T I' D') as (c2 & -> & D2 & I2).
    destruct (parse_tag o E tag body cs1) as [[[i x]|e| |] cs2]; cbn [fst snd map_res]; try (split; reflexivity).
    destruct f' as [|f']; [cbn [length] in L'; lia|]. cbn [expand_loop]. destruct (next_chunks_end E true c2 I2 D2) as (c3 & ->).
    cbn [fst snd]. split; [|reflexivity]. rewrite FA. unfold compressed_shown, packet_shown. cbn [add_child]. rewrite app_comm_cons, <- !app_assoc. reflexivity.
Qed.
Print Assumptions C35_expanded.
(** Stored (algorithm 0): a marker packet and a compressed packet; the latter is shown but not opened. *)
Example C35_expanded_used :
  let z := [xca; x03; x50; x47; x50; xc8; x06; x00; xca; x03; x50; x47; x50] in
  fst (packets_parse o_plain env0 8 (x00 :: z) cst_init)
  = ROk (compressed_shown o_plain x00 z []
      [packet_shown o_plain 10 [x50; x47; x50] [Item (str "Literal data") [] [] (str "3 bytes") []];
       compressed_shown o_plain x00 [xca; x03; x50; x47; x50] [] []]).
Proof. vm_compute. reflexivity. Qed.

(** C35.  A packet inside that is cut short makes the parse fail. *)
Theorem C35_cut_inside : forall (o : opts) (E : env) (a : byte) (z : bytes) (l : list (N * bytes)) (w : bytes) (tag : N) (body q x : bytes) (is : list item) (cs : cst),
  sized (a :: z) -> contents E (a :: z) (w ++ q) -> packets_in l w -> framed tag body (q ++ x) -> q <> [] -> x <> [] ->
  fst (flat_list o E l cs) = ROk is -> fst (packets_parse o E 8 (a :: z) cs) = RErr EUnexp.
Proof.
  intros o E a z l w tag body q x is cs L C P F Q X H. rewrite (packets_parse_8 o E a z (w ++ q) cs L C). destruct (chunks_of_inv (w ++ q)) as [IV DD].
  destruct (expand_packets o E l w P (S (length (w ++ q))) _ (compressed_shown o a z [] []) cs q IV DD ltac:(lia)) as (c' & f' & D' & I' & L' & ->).
  destruct (flat_list o E l cs) as [r cs1]. cbn [fst] in H. subst r. destruct f' as [|f']; [lia|]. cbn [expand_loop].
  destruct (next_chunks_cut E true tag body q x c' F Q X I' D') as (c2 & ->). reflexivity.
Qed.
Print Assumptions C35_cut_inside.

(** C35.  Something inside that is no packet makes the parse fail. *)
Theorem C35_no_packet_inside : forall (o : opts) (E : env) (a : byte) (z : bytes) (l : list (N * bytes)) (w : bytes) (b : byte) (t : bytes) (is : list item) (cs : cst),
  sized (a :: z) -> contents E (a :: z) (w ++ b :: t) -> packets_in l w -> b2n b < 128 ->
  fst (flat_list o E l cs) = ROk is -> fst (packets_parse o E 8 (a :: z) cs) = RErr EStruct.
Proof.
  intros o E a z l w b t is cs L C P B H. rewrite (packets_parse_8 o E a z (w ++ b :: t) cs L C). destruct (chunks_of_inv (w ++ b :: t)) as [IV DD].
  destruct (expand_packets o E l w P (S (length (w ++ b :: t))) _ (compressed_shown o a z [] []) cs (b :: t) IV DD ltac:(lia)) as (c' & f' & D' & I' & L' & ->).
  destruct (flat_list o E l cs) as [r cs1]. cbn [fst] in H. subst r. destruct f' as [|f']; [lia|]. cbn [expand_loop].
  destruct (PropFrame.next_chunks_bad E true b t c' B I' D') as (c2 & ->). reflexivity.
Qed.
Print Assumptions C35_no_packet_inside.

(** C35.  Packets inside that do not parse make the parse fail alike, whatever follows them. *)
Theorem C35_failing_inside : forall (o : opts) (E : env) (a : byte) (z : bytes) (l : list (N * bytes)) (w rest : bytes) (cs : cst),
  sized (a :: z) -> contents E (a :: z) (w ++ rest) -> packets_in l w ->
  match fst (flat_list o E l cs) with ROk _ => True | r => fst (packets_parse o E 8 (a :: z) cs) = map_res (fun _ => compressed_shown o a z [] []) r end.
Proof.
  intros o E a z l w rest cs L C P. rewrite (packets_parse_8 o E a z (w ++ rest) cs L C). destruct (chunks_of_inv (w ++ rest)) as [IV DD].
  destruct (expand_packets o E l w P (S (length (w ++ rest))) _ (compressed_shown o a z [] []) cs rest IV DD ltac:(lia)) as (c' & f' & D' & I' & L' & ->).
  destruct (flat_list o E l cs) as [[is|e| |] cs1]; reflexivity || exact I.
Qed.
Print Assumptions C35_failing_inside.

(** C35.  Data that decompresses to 1 GiB or more (or without end) is not opened but marked; this is no error. *)
Theorem C35_too_large : forall (o : opts) (E : env) (a : byte) (z d : bytes) (ok : bool) (cs : cst),
  sized (a :: z) -> 1 <= b2n a <= 3 -> z <> [] -> e_inflate E (b2n a) z = DStream d ok -> 2 ^ 30 <= lenN d ->
  packets_parse o E 8 (a :: z) cs = (ROk (compressed_shown o a z (str "<too laege decompressed data>") []), cs).
Proof.
  intros o E a z d ok cs L A Z EI LD. unfold packets_parse. rewrite tag08_closed by exact L. cbv zeta. destruct z as [|b z]; [congruence|].
  replace (b2n a =? 0) with false by lia. replace (b2n a <=? 3) with true by lia.
  rewrite EI. unfold copy_from, max_decompressed. replace (2 ^ 30 <=? lenN d) with true by lia. rewrite <- compressed_eq. reflexivity.
Qed.
Print Assumptions C35_too_large.

(** C35.  A decompression error makes the parse fail. *)
Theorem C35_bad_data : forall (o : opts) (E : env) (a : byte) (z : bytes) (cs : cst),
  sized (a :: z) -> 1 <= b2n a <= 3 -> z <> [] ->
  (match e_inflate E (b2n a) z with DStream d ok => ok = false /\ lenN d < 2 ^ 30 | _ => True end) ->
  packets_parse o E 8 (a :: z) cs = (RErr EDecomp, cs).
Proof.
  intros o E a z cs L A Z EI. unfold packets_parse. rewrite tag08_closed by exact L. cbv zeta. destruct z as [|b z]; [congruence|].
  replace (b2n a =? 0) with false by lia. replace (b2n a <=? 3) with true by lia.
  unfold copy_from, max_decompressed. destruct (e_inflate E (b2n a) (b :: z)) as [|d ok]; [reflexivity|]. destruct EI as [-> LD].
  replace (2 ^ 30 <=? lenN d) with false by lia. reflexivity.
Qed.
Print Assumptions C35_bad_data.

(** C35.  Of an unknown compression algorithm nothing is opened; the same for an algorithm without data. *)
Theorem C35_unknown_algorithm : forall (o : opts) (E : env) (a : byte) (z : bytes) (cs : cst),
  sized (a :: z) -> 3 < b2n a \/ z = [] ->
  packets_parse o E 8 (a :: z) cs = (ROk (compressed_shown o a z [] []), cs).
Proof.
  intros o E a z cs L A. unfold packets_parse. rewrite tag08_closed by exact L. cbv zeta.
  destruct z as [|b z]; [rewrite <- compressed_eq; reflexivity|]. destruct A as [A | A]; [|discriminate A].
  replace (b2n a =? 0) with false by lia. replace (b2n a <=? 3) with false by lia. rewrite <- compressed_eq. reflexivity.
Qed.
Print Assumptions C35_unknown_algorithm.
Example C35_unknown_algorithm_used : 3 < b2n x04. Proof. reflexivity. Qed.
(** An environment whose decompressor inverts a toy compression, refuses one input, and bombs on another. *)
Definition env_comp : env := mkEnv (e_grow env0)
  (fun a z => match z with x00 :: t => DStream t true | x01 :: t => DStream t false | _ => DHeaderErr end) (e_tz env0) (e_armor env0).
Example C35_inflated_used :
  contents env_comp (x01 :: x00 :: ex_bytes) ex_bytes /\
  fst (packets_parse o_plain env_comp 8 (x02 :: x01 :: ex_bytes) cst_init) = RErr EDecomp /\
  fst (packets_parse o_plain env_comp 8 (x01 :: x00 :: ex_bytes) cst_init)
    = map_res (compressed_shown o_plain x01 (x00 :: ex_bytes) []) (fst (flat_list o_plain env_comp ex_packets cst_init)).
Proof.
  split; [apply contents_inflated; [vm_compute; split; discriminate | discriminate | reflexivity | reflexivity]|].
  split; vm_compute; reflexivity.
Qed.
Example C35_too_large_used : exists (E : env) (d : bytes), e_inflate E (b2n x01) [x00] = DStream d true /\ 2 ^ 30 <= lenN d.
Proof.
  exists (mkEnv (e_grow env0) (fun _ _ => DStream (repeat x00 (N.to_nat (2 ^ 30))) true) (e_tz env0) (e_armor env0)),
    (repeat x00 (N.to_nat (2 ^ 30))).
  split; [reflexivity|]. unfold lenN. rewrite repeat_length, N2Nat.id. apply N.le_refl.
Qed.
