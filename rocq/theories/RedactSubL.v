(** * RedactSubL: sub-packets, key blocks and packets with their redactions. *)
From Coq Require Import Strings.String Strings.Byte List NArith ZArith Bool Lia ZifyBool ZifyN ZifyNat.
From Verif Require Import Base BaseL SpecBase Item Reader ReaderL SpecReader Context Env Time Values Opaque Monad MonadL Pubkey S2k Subs Tags SubParse
  SpecValues SpecPacket SpecFrame SpecSub SpecNest SpecParse SpecHidden HiddenL SubL KeyL GrammarL SpecRedact RedactL RedactTagL.
Import ListNotations.
Local Open Scope N_scope.

(** ** The decoders of lengths *)
Lemma be_two a b : be [a; b] = b2n a * 256 + b2n b.
Proof. cbn. lia. Qed.
Lemma sub_length_sound l h n : sub_length_of l = Some (h, n) -> sub_length n (firstn h l) /\ (h <= length l)%nat.
Proof.
  destruct l as [|a t]; [discriminate|]. cbn [sub_length_of]. pose proof (b2n_lt a) as HA. destruct (b2n a <? 192) eqn:H1.
  - intro E. injection E as <- <-. cbn [firstn]. split; [|cbn [length]; lia]. rewrite <- (n2b_b2n a) at 2. apply slen_one. lia.
  - destruct (b2n a <? 255) eqn:H2.
    + destruct t as [|b t]; [discriminate|]. intro E. injection E as <- <-. cbn [firstn]. split; [|cbn [length]; lia]. pose proof (b2n_lt b) as HB.
      set (n := (b2n a - 192) * 256 + b2n b + 192).
      assert ([a; b] = [n2b (192 + (n - 192) / 256); n2b ((n - 192) mod 256)]) as ->.
      { assert ((n - 192) / 256 = b2n a - 192) as -> by (unfold n; lia). assert ((n - 192) mod 256 = b2n b) as -> by (unfold n; lia).
        replace (192 + (b2n a - 192)) with (b2n a) by lia. rewrite !n2b_b2n. reflexivity. }
      apply slen_two. unfold n. lia.
    + destruct t as [|b [|c [|d [|e t]]]]; try discriminate. intro E. injection E as <- <-. cbn [firstn]. split; [|cbn [length]; lia].
      assert (a = xff) as -> by (apply b2n_inj; change (b2n xff) with 255; lia).
      destruct (be_code 4 [b; c; d; e] eq_refl) as [E1 E2]. rewrite <- E1 at 2. apply slen_five. exact E2.
Qed.
Lemma new_length_ok a b n : n = (b2n a - 192) * 256 + b2n b + 192 -> 192 <= b2n a < 224 -> new_length n [a; b].
Proof.
  intros -> H. pose proof (b2n_lt b) as HB. set (n := (b2n a - 192) * 256 + b2n b + 192).
  assert ([a; b] = [n2b (192 + (n - 192) / 256); n2b ((n - 192) mod 256)]) as ->.
  { assert ((n - 192) / 256 = b2n a - 192) as -> by (unfold n; lia). assert ((n - 192) mod 256 = b2n b) as -> by (unfold n; lia).
    replace (192 + (b2n a - 192)) with (b2n a) by lia. rewrite !n2b_b2n. reflexivity. }
  apply len_two. unfold n. lia.
Qed.
Lemma header_sound l h tag n : header_of l = Some (h, tag, n) -> (h <= length l)%nat /\ forall body, lenN body = n -> framed tag body (firstn h l ++ body).
Proof.
  destruct l as [|c t]; [discriminate|]. cbn [header_of]. cbv zeta. pose proof (b2n_lt c) as HC. destruct (b2n c <? 128) eqn:H1; [discriminate|].
  destruct (192 <=? b2n c) eqn:H2.
  - assert (c = n2b (192 + (b2n c - 192))) as EC by (replace (192 + (b2n c - 192)) with (b2n c) by lia; rewrite n2b_b2n; reflexivity).
    destruct t as [|a t]; [discriminate|]. pose proof (b2n_lt a) as HA. destruct (b2n a <? 192) eqn:H3; [|destruct (b2n a <? 224) eqn:H4; [|destruct (b2n a =? 255) eqn:H5; [|discriminate]]].
    + intro E. injection E as <- <- <-. split; [cbn [length]; lia|]. intros body L. cbn [firstn app]. rewrite EC at 2. apply new_format; [lia|].
      apply (part_last body [a]). rewrite L, <- (n2b_b2n a) at 1. rewrite n2b_b2n. rewrite <- (n2b_b2n a) at 2. apply len_one. lia.
    + destruct t as [|b t]; [discriminate|]. intro E. injection E as <- <- <-. split; [cbn [length]; lia|]. intros body L. cbn [firstn app]. rewrite EC at 2. apply new_format; [lia|].
      apply (part_last body [a; b]). rewrite L. apply new_length_ok; [reflexivity | lia].
    + destruct t as [|b [|d [|e [|f t]]]]; try discriminate. intro E. injection E as <- <- <-. split; [cbn [length]; lia|]. intros body L. cbn [firstn app]. rewrite EC at 2. apply new_format; [lia|].
      apply (part_last body [a; b; d; e; f]). rewrite L. assert (a = xff) as -> by (apply b2n_inj; change (b2n xff) with 255; lia).
      destruct (be_code 4 [b; d; e; f] eq_refl) as [E1 E2]. rewrite <- E1 at 2. apply len_five. exact E2.
  - assert (forall k, b2n c mod 4 = k -> c = n2b (128 + k + 4 * ((b2n c - 128) / 4)) /\ (b2n c - 128) / 4 < 16) as EC.
    { intros k <-. split; [|lia]. rewrite <- (n2b_b2n c) at 1. f_equal. lia. }
    destruct (b2n c mod 4) as [|[p|p|]] eqn:M; [| discriminate || (destruct p; discriminate)| |].
    + destruct (EC 0 eq_refl) as [E1 E2]. destruct t as [|a t]; [discriminate|]. intro E. injection E as <- <- <-. split; [cbn [length]; lia|]. intros body L. cbn [firstn app]. rewrite E1 at 2.
      destruct (be_code 1 [a] eq_refl) as [E3 E4]. change (a :: body) with ([a] ++ body). rewrite <- E3. replace (be [a]) with (lenN body) by (rewrite L; cbn; lia). apply old_one; [exact E2|]. rewrite L. pose proof (b2n_lt a). lia.
    + destruct p as [p|p|]; try discriminate. destruct (EC 2 eq_refl) as [E1 E2]. destruct t as [|a [|b [|d [|e t]]]]; try discriminate. intro E. injection E as <- <- <-. split; [cbn [length]; lia|]. intros body L. cbn [firstn app]. rewrite E1 at 2.
      destruct (be_code 4 [a; b; d; e] eq_refl) as [E3 E4]. change (a :: b :: d :: e :: body) with ([a; b; d; e] ++ body). rewrite <- E3. rewrite <- L. apply old_four; [exact E2|]. rewrite L. exact E4.
    + destruct (EC 1 eq_refl) as [E1 E2]. destruct t as [|a [|b t]]; try discriminate. intro E. injection E as <- <- <-. split; [cbn [length]; lia|]. intros body L. cbn [firstn app]. rewrite E1 at 2.
      destruct (be_code 2 [a; b] eq_refl) as [E3 E4]. change (a :: b :: body) with ([a; b] ++ body). rewrite <- E3. rewrite <- L. apply old_two; [exact E2|]. rewrite L. exact E4.
Qed.

Section Nested.
Variable o : opts.
Hypothesis Q : no_dump o.
Variable E : env.
Variable rec : tagrec.
Variable red : N -> bytes -> bytes.
Hypothesis same : forall tag b cs, sized b -> rec tag b cs = rec tag (red tag b) cs.
Hypothesis zero : forall tag b, zeroed b (red tag b).

Lemma red_length tag b : length (red tag b) = length b.
Proof. symmetry. apply zeroed_length, zero. Qed.

(** ** Key blocks *)
Definition red_packet (p : N * bytes) : N * bytes := (fst p, red (fst p) (snd p)).
Lemma block_split fuel : forall w r, block_redacted red fuel w = Some r -> zeroed w r /\ exists l, packets_in l w /\ packets_in (map red_packet l) r.
Proof.
  induction fuel as [|fuel IH]; intros w r H; destruct w as [|c w]; cbn [block_redacted] in H; try discriminate H; try (injection H as <-; split; [constructor | exists []; split; constructor]).
  destruct (header_of (c :: w)) as [[[h tag] n]|] eqn:HD; [|discriminate H]. destruct (header_sound _ _ _ _ HD) as [LH FR].
  destruct (lenN (skipn h (c :: w)) <? n) eqn:LN; [discriminate H|]. set (t := skipn h (c :: w)) in *.
  destruct (block_redacted red fuel (skipn (N.to_nat n) t)) as [r2|] eqn:R2; [|discriminate H]. cbn [option_map] in H. injection H as <-.
  destruct (IH _ _ R2) as (Z & l & P1 & P2). set (b := firstn (N.to_nat n) t) in *.
  assert (lenN b = n) as LB by (unfold b, lenN in *; rewrite firstn_length; lia).
  assert (c :: w = firstn h (c :: w) ++ b ++ skipn (N.to_nat n) t) as SP by (unfold b; rewrite firstn_skipn; unfold t; rewrite firstn_skipn; reflexivity).
  split.
  - rewrite SP at 1. apply zeroed_app; [apply zeroed_refl|]. apply zeroed_app; [apply zero | exact Z].
  - exists ((tag, b) :: l). split.
    + rewrite SP, app_assoc. apply one_more; [apply FR, LB | exact P1].
    + cbn [map red_packet fst snd]. rewrite app_assoc. apply one_more; [|exact P2]. apply FR. unfold lenN. rewrite red_length. exact LB.
Qed.
Definition alike {A} (x y : res A * st) : Prop := fst x = fst y /\ s_cs (snd x) = s_cs (snd y) /\ s_cur (snd x) = s_cur (snd y).
Lemma packets_in_sizes l w : packets_in l w -> sized w -> Forall (fun p => sized (snd p)) l.
Proof.
  induction 1 as [|tag body l w w' F P IH]; intro Z; constructor; unfold sized, lenZ in *; rewrite app_length in Z.
  - pose proof (FramingL.framed_longer _ _ _ F). cbn [snd]. lia.
  - apply IH. lia.
Qed.
Lemma key_loop_alike l : forall w w', packets_in l w -> packets_in (map red_packet l) w' -> Forall (fun p => sized (snd p)) l ->
  forall fuel s s', posn (s_rd s) -> posn (s_rd s') -> remaining (s_rd s) = w -> remaining (s_rd s') = w' -> s_cs s = s_cs s' -> s_cur s = s_cur s' ->
  alike (key_loop rec E fuel s) (key_loop rec E fuel s').
Proof.
  induction l as [|[tag b] l IH]; intros w w' P P' Z fuel s s' N N' D D' C U; (destruct fuel as [|fuel]; [repeat split; assumption|]); cbn [key_loop].
  - assert (w = []) as E1 by (inversion P; reflexivity). assert (w' = []) as E2 by (inversion P'; reflexivity). rewrite E1 in D. rewrite E2 in D'.
    rewrite (bind_ok _ _ _ _ _ (next_rd_end E s N D)), (bind_ok _ _ _ _ _ (next_rd_end E s' N' D')). repeat split; assumption.
  - assert (exists u v, w = u ++ v /\ framed tag b u /\ packets_in l v) as (u & v & E1 & F & P2) by (inversion P; eauto).
    change (map red_packet ((tag, b) :: l)) with ((tag, red tag b) :: map red_packet l) in P'.
    assert (exists u v, w' = u ++ v /\ framed tag (red tag b) u /\ packets_in (map red_packet l) v) as (u' & v' & E2 & F' & P2') by (inversion P'; eauto).
    rewrite E1 in D. rewrite E2 in D'.
    apply Forall_cons_iff in Z as [Zb Zl]. cbn [snd] in Zb.
    destruct (next_rd_ok E _ _ _ v s F N D) as (r1 & R1 & D1 & N1). destruct (next_rd_ok E _ _ _ v' s' F' N' D') as (r1' & R1' & D1' & N1').
    rewrite (bind_ok _ _ _ _ _ R1), (bind_ok _ _ _ _ _ R1'). unfold call_rec. unfold bind at 1 3. cbn [s_cs s_rd s_cur]. rewrite <- C, <- U, (same tag b _ Zb).
    destruct (rec tag (red tag b) (s_cs s)) as [[p|e| |] cs1]; try (repeat split; reflexivity). cbn [bind add upd s_rd s_cs s_cur].
    apply (IH v v'); auto.
Qed.

(** ** Sub-packets *)
Definition start (ty : byte) (b : bytes) (cs : cst) : st := mkSt (r_new b) cs (sub_item ty b (oDebug o)).
Lemma one_alike tagid ty b b' : (forall cs, alike (sub_m rec o E tagid ty (start ty b cs)) (sub_m rec o E tagid ty (start ty b' cs))) ->
  forall s, sub_one rec o E tagid (ty, b) s = sub_one rec o E tagid (ty, b') s.
Proof.
  intros H s. unfold sub_one. cbn [fst snd]. apply bind_same. unfold run_in. specialize (H (s_cs s)). unfold start in H.
  destruct (sub_m rec o E tagid ty _) as [x s1], (sub_m rec o E tagid ty _) as [x' s1']. destruct H as (F1 & F2 & F3). cbn [fst snd] in *. subst x'.
  rewrite F2, F3. reflexivity.
Qed.
Lemma lenZ_same (b b' : bytes) : length b = length b' -> lenZ b = lenZ b'.
Proof. unfold lenZ. congruence. Qed.
Lemma item_same ty b b' : length b = length b' -> sub_item ty b (oDebug o) = sub_item ty b' (oDebug o).
Proof. intro L. unfold sub_item. rewrite (off_debug o Q), (lenZ_same _ _ L). reflexivity. Qed.
Lemma fol_alike {A W} (m : M A) (w : walk W) R ty b cs : fol m m w R b -> inside w -> sized b -> alike (m (start ty b cs)) (m (start ty (covered w b) cs)).
Proof.
  intros K I Z. pose proof (covered_length w b I) as LC. unfold start. rewrite <- (item_same ty b (covered w b)) by (symmetry; exact LC). rewrite !at_new.
  assert (suf b b) as SD by (apply suf_refl, Z). assert (suf (covered w b) (covered w b)) as SC by (apply suf_refl; rewrite (lenZ_same _ _ LC); exact Z).
  specialize (K b (covered w b) (covered w b) _ cs (sub_item ty b (oDebug o)) SD SC (eq_sym LC) (eq_sym LC) (covered_zeroed w b I) eq_refl). unfold sat in K.
  destruct K as [(F1 & F2 & F3 & F4) | (a & c & cs1 & it1 & X & Ra & M1 & M2)].
  - repeat split; assumption.
  - rewrite M1, M2. repeat split.
Qed.
Lemma alike_refl {A} (x : res A * st) : alike x x.
Proof. repeat split. Qed.
Lemma alike_bind_get {A} (m : M A) s s' : s_cs s = s_cs s' -> s_cur s = s_cur s' -> (forall r r', alike (m (mkSt r (s_cs s) (s_cur s))) (m (mkSt r' (s_cs s) (s_cur s)))) -> alike (m s) (m s').
Proof. destruct s, s'. cbn. intros -> -> H. apply H. Qed.

Lemma fol_rdLen {C W} (f f' : Z -> M C) (w : walk W) R rest : (forall z, fol (f z) (f' z) w R rest) -> fol (bind rdLen f) (bind rdLen f') w R rest.
Proof.
  intros K B B' rest' t' cs it S1 S2 L1 L2 Z2 X. rewrite !(bind_ok _ _ _ _ _ (rdLen_at _ _ _ _)). rewrite <- (lenZ_same B B' L1). apply K; assumption.
Qed.
Lemma type_low ty : bland ty 0x7f = b2n ty mod 128.
Proof. destruct ty; reflexivity. Qed.
Lemma sub_m_none ty : existsb (N.eqb (b2n ty mod 128)) kept_types = false -> b2n ty mod 128 <> 32 -> b2n ty mod 128 <> 37 -> b2n ty mod 128 <> 38 -> sub_m rec o E 2 ty = ret tt.
Proof. destruct ty; intros H1 H2 H3 H4; first [reflexivity | discriminate H1 | exfalso; apply H2; reflexivity | exfalso; apply H3; reflexivity | exfalso; apply H4; reflexivity]. Qed.
Lemma sub_m_at ty k : b2n ty mod 128 = k -> sub_m rec o E 2 ty = match k with 32 => sub32 rec | 37 => sub37 o | 38 => sub38 rec o E | _ => sub_m rec o E 2 ty end.
Proof. intros <-. destruct ty; reflexivity. Qed.
Lemma type_01 ty : sub_m rec o E 17 ty = if b2n ty mod 128 =? 1 then sub01 else ret tt.
Proof. destruct ty; reflexivity. Qed.

Lemma fol_01 rest : fol sub01 sub01 (keep 2 >> _ ; number 1 >> v ; if (100 <=? v) && (v <=? 110) then keep 1 >> _ ; give tt else give tt) any rest.
Proof.
  unfold sub01. apply fol_keep; [reflexivity | reflexivity|]. intros d r1 Ld. apply fol_byte. intros ver r2.
  assert (forall r, fol (let* size := rdLen in add (Item (str "Image data") [] [] (n_bytes (size - Z.of_N (be d))) [])) (let* size := rdLen in add (Item (str "Image data") [] [] (n_bytes (size - Z.of_N (be d))) [])) (give tt) any r) as LAST.
  { intro r. apply fol_rdLen. intro z. apply fol_upd_end; [reflexivity | exact I]. }
  cbv zeta. unfold in_private. destruct (b2n ver =? 1) eqn:V1.
  - replace ((100 <=? b2n ver) && (b2n ver <=? 110)) with false by lia. apply fol_upd; [reflexivity|]. apply LAST.
  - destruct ((100 <=? b2n ver) && (b2n ver <=? 110)).
    + apply fol_assoc. apply fol_upd; [reflexivity|]. apply fol_assoc. apply fol_octet. intros e r3. apply fol_upd; [reflexivity|]. apply LAST.
    + apply fol_upd; [reflexivity|]. apply LAST.
Qed.
Lemma inside_01 : inside (keep 2 >> _ ; number 1 >> v ; if (100 <=? v) && (v <=? 110) then keep 1 >> _ ; give tt else give tt).
Proof. auto 20 with ins. Qed.

Lemma attribute_one ty b : sized b -> forall s, sub_one rec o E 17 (ty, b) s = sub_one rec o E 17 (ty, attribute_redacted ty b) s.
Proof.
  intro Z. apply one_alike. intro cs. rewrite type_01. unfold attribute_redacted. destruct (b2n ty mod 128 =? 1).
  - apply (fol_alike sub01 _ any ty b cs (fol_01 b) inside_01 Z).
  - unfold start. rewrite <- (item_same ty b (blank b)) by (symmetry; apply blank_length). repeat split.
Qed.
Lemma attribute_zeroed ty b : zeroed b (attribute_redacted ty b).
Proof. unfold attribute_redacted. destruct (_ =? 1); [apply covered_zeroed, inside_01 | apply zeroed_blank]. Qed.

Definition block_or_same (w : bytes) : bytes := match block_redacted red (length w) w with Some r => r | None => w end.
Lemma sub_redacted_38 ty v w : b2n ty mod 128 = 38 -> sub_redacted red ty (v :: w) = v :: (if b2n v =? 0 then block_or_same w else blank w).
Proof.
  intro T. unfold sub_redacted. rewrite T. change (existsb (N.eqb 38) kept_types) with false. change (38 =? 32) with false. change (38 =? 38) with true. cbv iota.
  destruct v; reflexivity.
Qed.
Lemma block_zeroed w : zeroed w (block_or_same w).
Proof. unfold block_or_same. destruct (block_redacted red (length w) w) as [r|] eqn:R; [apply (block_split _ _ _ R) | apply zeroed_refl]. Qed.
Lemma block_alike w w' cs it : sized w -> w' = block_or_same w -> forall B B' fuel, suf B w -> suf B' w' ->
  alike (key_loop rec E fuel (mkSt (at_ B w) cs it)) (key_loop rec E fuel (mkSt (at_ B' w') cs it)) \/ (w = w').
Proof.
  intros Z -> B B' fuel S S'. unfold block_or_same in *. destruct (block_redacted red (length w) w) as [r|] eqn:R; [|right; reflexivity]. left.
  destruct (block_split _ _ _ R) as (_ & l & P1 & P2). destruct (posn_at _ _ S) as [N D]. destruct (posn_at _ _ S') as [N' D'].
  apply (key_loop_alike l w r P1 P2 (packets_in_sizes _ _ P1 Z)); auto.
Qed.

Lemma sub_zeroed ty b : zeroed b (sub_redacted red ty b).
Proof.
  destruct (b2n ty mod 128 =? 38) eqn:T38.
  - destruct b as [|v w]; [unfold sub_redacted; rewrite (proj1 (N.eqb_eq _ _) T38); constructor|].
    rewrite sub_redacted_38 by lia. constructor; [left; reflexivity|]. destruct (b2n v =? 0); [apply block_zeroed | apply zeroed_blank].
  - unfold sub_redacted. rewrite T38. destruct (existsb _ _); [apply zeroed_refl|]. destruct (_ =? 32); [apply zero | apply zeroed_blank].
Qed.
Lemma signature_one ty b : sized b -> forall s, sub_one rec o E 2 (ty, b) s = sub_one rec o E 2 (ty, sub_redacted red ty b) s.
Proof.
  intro Z. pose proof (zeroed_length _ _ (sub_zeroed ty b)) as L. apply one_alike. intro cs.
  unfold start. rewrite <- (item_same ty b (sub_redacted red ty b)) by exact L.
  destruct (b2n ty mod 128 =? 38) eqn:T38.
  - assert (b2n ty mod 128 = 38) as T by lia. rewrite (sub_m_at ty 38 T). destruct b as [|v w]; [unfold sub_redacted; rewrite T; apply alike_refl|].
    assert (exists w', sub_redacted red ty (v :: w) = v :: w' /\ w' = if b2n v =? 0 then block_or_same w else blank w) as (w' & SR & W0) by (eexists; split; [apply (sub_redacted_38 ty v w T) | reflexivity]).
    rewrite SR in *. rewrite !at_new. set (it := sub_item ty (v :: w) (oDebug o)).
    assert (length w = length w') as L' by exact (f_equal pred L).
    pose proof (suf_refl _ Z : suf (v :: w) (v :: w)) as S. assert (suf (v :: w') (v :: w')) as S' by (apply suf_refl; rewrite <- (lenZ_same (v :: w) (v :: w') L); exact Z).
    unfold sub38. change (mkSt (at_ (v :: w) (v :: w)) cs it) with (sat (v :: w) (v :: w) cs it). change (mkSt (at_ (v :: w') (v :: w')) cs it) with (sat (v :: w') (v :: w') cs it).
    rewrite !(bind_ok _ _ _ _ _ (rdByte_at _ _ _ _ _ S)), !(bind_ok _ _ _ _ _ (rdByte_at _ _ _ _ _ S')). apply suf_cons in S, S'.
    rewrite !(bind_ok _ _ _ _ _ (add_at _ _ _ _ _)). rewrite (bind_ok _ _ _ _ _ (rawData_at _ _ _ _ _ _ S)), (bind_ok _ _ _ _ _ (rawData_at _ _ _ _ _ _ S')).
    rewrite (off_debug o Q). unfold dump_bytes. rewrite <- (lenZ_same _ _ L'). destruct (b2n v =? 0) eqn:V.
    + rewrite !(bind_ok _ _ _ _ _ (rdLen_at _ _ _ _)). rewrite <- (lenZ_same (v :: w) (v :: w') L).
      rename W0 into W.
      assert (sized w) as Zw by (unfold sized, lenZ in *; cbn [length] in Z; lia).
      unfold bind, sub_it. cbn [sat s_rd s_cs s_cur]. set (i1 := Item (str "Key data") [] [] (n_bytes (lenZ w)) []). set (fuel := Datatypes.S (Z.to_nat (lenZ (v :: w)))).
      destruct (block_alike w w' cs i1 Zw W (v :: w) (v :: w') fuel S S') as [(F1 & F2 & F3) | EW]; [|rewrite <- EW; apply alike_refl].
      destruct (key_loop rec E fuel _) as [x s1], (key_loop rec E fuel _) as [x' s1']. cbn [fst snd] in *. subst x'. rewrite F2, F3. destruct x; repeat split.
    + apply alike_bind_get; [reflexivity | reflexivity|]. intros r r'. repeat split.
  - unfold sub_redacted in *. rewrite T38 in *. destruct (existsb (N.eqb (b2n ty mod 128)) kept_types) eqn:K; [apply alike_refl|].
    destruct (b2n ty mod 128 =? 32) eqn:T32.
    + assert (b2n ty mod 128 = 32) as T by lia. rewrite (sub_m_at ty 32 T). unfold sub32. unfold bind, getBody, call_rec. cbn [s_rd s_cs s_cur r_new r_body r_buf].
      change (r_body (r_new b)) with b. change (r_body (r_new (red 2 b))) with (red 2 b). rewrite <- (same 2 b cs Z). destruct (rec 2 b cs) as [[p|e| |] c1]; repeat split.
    + destruct (b2n ty mod 128 =? 37) eqn:T37.
      * assert (b2n ty mod 128 = 37) as T by lia. rewrite (sub_m_at ty 37 T). unfold sub37. rewrite !at_new.
        assert (suf b b) as S by (apply suf_refl, Z). assert (suf (blank b) (blank b)) as S' by (apply suf_refl; rewrite (lenZ_same _ _ (blank_length b)); exact Z).
        change (mkSt (at_ b b) cs (sub_item ty b (oDebug o))) with (sat b b cs (sub_item ty b (oDebug o))).
        change (mkSt (at_ (blank b) (blank b)) cs (sub_item ty b (oDebug o))) with (sat (blank b) (blank b) cs (sub_item ty b (oDebug o))).
        rewrite (bind_ok _ _ _ _ _ (rawData_at _ _ _ _ _ _ S)), (bind_ok _ _ _ _ _ (rawData_at _ _ _ _ _ _ S')). rewrite (off_cert o Q). unfold dump_bytes. rewrite (lenZ_same _ _ L). repeat split.
      * rewrite sub_m_none by (assumption || lia). repeat split.
Qed.

(** ** Areas of sub-packets *)
Section Area.
Variable tagid : N.
Variable sub : byte -> bytes -> bytes.
Hypothesis sub_same : forall ty b, sized b -> forall s, sub_one rec o E tagid (ty, b) s = sub_one rec o E tagid (ty, sub ty b) s.
Hypothesis sub_zero : forall ty b, zeroed b (sub ty b).
Definition red_sub (p : byte * bytes) : byte * bytes := (fst p, sub (fst p) (snd p)).
Lemma area_split fuel : forall w r, area_redacted sub fuel w = Some r -> zeroed w r /\ exists l, subs_in l w /\ subs_in (map red_sub l) r.
Proof.
  induction fuel as [|fuel IH]; intros w r H; destruct w as [|c w]; cbn [area_redacted] in H; try discriminate H; try (injection H as <-; split; [constructor | exists []; split; constructor]).
  destruct (sub_length_of (c :: w)) as [[h n]|] eqn:HD; [|discriminate H]. destruct (sub_length_sound _ _ _ HD) as [SL LH].
  destruct ((n =? 0) || (lenN (skipn h (c :: w)) <? n)) eqn:LN; [discriminate H|]. set (t := skipn h (c :: w)) in *.
  destruct (firstn (N.to_nat n) t) as [|ty body] eqn:FB; [discriminate H|].
  destruct (area_redacted sub fuel (skipn (N.to_nat n) t)) as [r2|] eqn:R2; [|discriminate H]. cbn [option_map] in H. injection H as <-.
  destruct (IH _ _ R2) as (Z & l & P1 & P2).
  assert (n = 1 + lenN body) as LB. { pose proof (f_equal (@length byte) FB) as LL. rewrite firstn_length in LL. cbn [length] in LL. unfold lenN in LN, LL |- *. lia. }
  assert (c :: w = firstn h (c :: w) ++ ty :: body ++ skipn (N.to_nat n) t) as SP.
  { change (ty :: body ++ skipn (N.to_nat n) t) with ((ty :: body) ++ skipn (N.to_nat n) t). rewrite <- FB, firstn_skipn. unfold t. rewrite firstn_skipn. reflexivity. }
  split.
  - rewrite SP at 1. apply zeroed_app; [apply zeroed_refl|]. constructor; [left; reflexivity|]. apply zeroed_app; [apply sub_zero | exact Z].
  - exists ((ty, body) :: l). split.
    + rewrite SP. apply one_more_sub; [rewrite <- LB; exact SL | exact P1].
    + cbn [map red_sub fst snd]. apply one_more_sub; [|exact P2]. unfold lenN. rewrite <- (zeroed_length _ _ (sub_zero ty body)). fold (lenN body). rewrite <- LB. exact SL.
Qed.
Lemma area_zeroed w : zeroed w (area_or_same sub w).
Proof. unfold area_or_same. destruct (area_redacted sub (length w) w) as [r|] eqn:R; [apply (area_split _ _ _ R) | apply zeroed_refl]. Qed.
Lemma subs_in_sizes l w : subs_in l w -> sized w -> Forall (fun p => sized (snd p)) l.
Proof.
  induction 1 as [|ty body len l w F P IH]; intro Z; constructor; unfold sized, lenZ in Z |- *; rewrite app_length in Z; cbn [length] in Z; rewrite app_length in Z.
  - cbn [snd]. lia.
  - apply IH. unfold sized, lenZ. lia.
Qed.
Lemma subs_same l : Forall (fun p => sized (snd p)) l -> forall s, mapM_ (sub_one rec o E tagid) l s = mapM_ (sub_one rec o E tagid) (map red_sub l) s.
Proof.
  induction 1 as [|[ty b] l Zb _ IH]; intro s; [reflexivity|]. change (map red_sub ((ty, b) :: l)) with ((ty, sub ty b) :: map red_sub l). cbn [mapM_].
  rewrite (bind_same _ _ _ _ (sub_same ty b Zb s)). unfold bind. destruct (sub_one rec o E tagid (ty, sub ty b) s) as [[u|e| |] s1]; [apply IH | reflexivity..].
Qed.
Lemma area_same name w s : lenN w < 2 ^ 32 -> sub_area rec o E tagid name w s = sub_area rec o E tagid name (area_or_same sub w) s.
Proof.
  intro LW. pose proof (zeroed_length _ _ (area_zeroed w)) as L. unfold area_or_same in *. destruct (area_redacted sub (length w) w) as [r|] eqn:R; [|reflexivity].
  destruct (area_split _ _ _ R) as (_ & l & P1 & P2).
  assert (sized w) as Z by (unfold sized, lenZ, lenN in *; lia). pose proof (subs_in_sizes _ _ P1 Z) as ZS.
  apply subpackets_in in P1; [|exact LW]. apply subpackets_in in P2; [|rewrite <- (lenN_same _ _ L); exact LW].
  unfold sub_area. rewrite P1, P2. rewrite (off_debug o Q). unfold dump_bytes. rewrite <- (lenZ_same _ _ L).
  unfold sub_it. rewrite (subs_same l ZS). reflexivity.
Qed.
End Area.
End Nested.
