(** * KeyL: packets read from the program's own reader (key blocks). *)
From Coq Require Import Strings.String Strings.Byte List NArith ZArith Bool Lia ZifyBool ZifyN ZifyNat.
From Verif Require Import Base BaseL SpecBase Item Reader ReaderL SpecReader Context Env Values Opaque Monad MonadL Subs Tags.
From Verif Require Import SubParse SpecPacket ReadsL PacketL FrameL SpecFrame FramingL SpecComp SpecSub SpecSubs SubsL.
Import ListNotations.
Local Open Scope N_scope.

(** A position in a buffer that fits in memory. *)
Definition posn (r : reader) : Prop := exists B rest, suf B rest /\ r = at_ B rest.
Lemma posn_at B rest : suf B rest -> posn (at_ B rest) /\ remaining (at_ B rest) = rest.
Proof. intro H. split; [exists B, rest; auto | apply remaining_at, H]. Qed.

Lemma rdr_enough n r : n <= lenN (remaining r) -> posn r ->
  exists b r', rdr_read n r = ((b, None), r') /\ lenN b = n /\ remaining r = b ++ remaining r' /\ posn r'.
Proof.
  intros L (B & rest & SF & ->). rewrite remaining_at in * by assumption.
  destruct (split_at (N.to_nat n) rest) as (b & t & -> & LB); [unfold lenN in L; lia|].
  pose proof (suf_len _ _ SF) as [L1 L2]. unfold lenZ in *. exists b, (at_ B t).
  unfold rdr_read. replace (2 ^ 63 <=? n) with false by (unfold lenN in L; lia).
  unfold r_read. replace (Z.of_N n) with (lenZ b) by (unfold lenZ; lia). rewrite readbytes_at by assumption.
  split; [reflexivity|]. split; [unfold lenN; lia|]. apply suf_app in SF. rewrite remaining_at by assumption. split; [reflexivity | exists B, t; auto].
Qed.
Lemma rdr_less n r : lenN (remaining r) < n -> n < 2 ^ 62 -> posn r ->
  rdr_read n r = (([], Some (if is_nil (remaining r) then RWrapEof else RUnexp)), r).
Proof.
  intros L L2 (B & rest & SF & ->). rewrite remaining_at in * by assumption.
  unfold rdr_read. replace (2 ^ 63 <=? n) with false by lia. unfold r_read.
  rewrite readbytes_short; [|assumption | unfold lenZ; unfold lenN in L; lia | lia]. destruct (is_nil rest); reflexivity.
Qed.
Lemma rdr_good n r : 0 < n -> posn r -> n <= lenN (remaining r) ->
  exists b r', rdr_read n r = ((b, None), r') /\ b <> [] /\ lenN b <= n /\ remaining r = b ++ remaining r' /\ posn r'.
Proof.
  intros N P L. destruct (rdr_enough n r L P) as (b & r' & R & LB & D & P'). exists b, r'. rewrite R. split; [reflexivity|].
  split; [intros ->; cbn in LB; lia|]. split; [lia | auto].
Qed.

(** ** Data cut short: the same as with all the data, or an error. *)
Section Short.
  Variable x : bytes.
  (** [r2] has the octets [x] more than [r1]. *)
  Definition longer (r1 r2 : reader) : Prop := posn r1 /\ posn r2 /\ remaining r2 = remaining r1 ++ x.
  Definition ended (e : rerr) : Prop := e = RWrapEof \/ e = RUnexp.

  (** Both runs go the same way, or the shorter one meets the end. *)
  Definition along {A} (a b : rout A * reader) : Prop :=
    fst a = fst b /\ longer (snd a) (snd b) \/ exists e, fst a = Some (inr e) /\ ended e.

  Lemma rdr_along n r1 r2 : longer r1 r2 -> n < 2 ^ 62 ->
    (exists b r1' r2', rdr_read n r1 = ((b, None), r1') /\ rdr_read n r2 = ((b, None), r2') /\ longer r1' r2') \/
    (exists e r1', rdr_read n r1 = (([], Some e), r1') /\ ended e).
  Proof.
    intros (P1 & P2 & D) L. destruct (N.le_gt_cases n (lenN (remaining r1))) as [H|H].
    - left. destruct (rdr_enough n r1 H P1) as (b & r1' & R1 & L1 & D1 & P1').
      destruct (rdr_enough n r2) as (b2 & r2' & R2 & L2 & D2 & P2'); [rewrite D; unfold lenN in *; rewrite app_length; lia | assumption|].
      rewrite D, D1, <- app_assoc in D2. assert (b = b2 /\ remaining r1' ++ x = remaining r2') as [-> K].
      { apply app_eq_app in D2. destruct D2 as (l & [[A1 A2]|[A1 A2]]).
        - subst b. unfold lenN in *. rewrite app_length in L1. destruct l; [|cbn [length] in L1; lia]. rewrite app_nil_r. auto.
        - subst b2. unfold lenN in *. rewrite app_length in L2. destruct l; [|cbn [length] in L2; lia]. rewrite app_nil_r. auto. }
      exists b2, r1', r2'. split; [assumption|]. split; [assumption|]. repeat split; auto.
    - right. exists (if is_nil (remaining r1) then RWrapEof else RUnexp), r1. split; [apply rdr_less; assumption|].
      unfold ended. destruct (is_nil _); auto.
  Qed.
  Lemma read_full_along fuel n : n < 2 ^ 62 -> forall acc r1 r2, longer r1 r2 ->
    along (read_full rdr_read fuel n acc r1) (read_full rdr_read fuel n acc r2).
  Proof.
    intro L. induction fuel as [|fuel IH]; intros acc r1 r2 H; cbn [read_full].
    - destruct (n <=? lenN acc); left; auto.
    - destruct (n <=? lenN acc) eqn:Q; [left; auto|].
      destruct (rdr_along (n - lenN acc) r1 r2 H ltac:(lia)) as [(b & r1' & r2' & -> & -> & H') | (e & r1' & -> & Ee)].
      + apply IH, H'.
      + right. exists e. rewrite app_nil_r, Q. split; [|exact Ee]. destruct Ee as [-> | ->]; reflexivity.
  Qed.
  Lemma readFull_along n : n < 2 ^ 62 -> forall r1 r2, longer r1 r2 -> along (readFull rdr_read n r1) (readFull rdr_read n r2).
  Proof.
    intros L r1 r2 H. unfold readFull. destruct (read_full_along (N.to_nat n) n L [] r1 r2 H) as [[F D] | (e & F & Ee)].
    - destruct (read_full rdr_read (N.to_nat n) n [] r1) as [a r1'], (read_full rdr_read (N.to_nat n) n [] r2) as [b r2']. cbn [fst snd] in *. subst b.
      left. destruct a as [[|[]]|]; auto.
    - right. exists e. destruct (read_full rdr_read (N.to_nat n) n [] r1) as [a r1']. cbn [fst] in F. subst a.
      destruct Ee as [-> | ->]; (split; [reflexivity | unfold ended; auto]).
  Qed.

  Lemma readLength_along r1 r2 : longer r1 r2 -> along (readLength rdr_read r1) (readLength rdr_read r2).
  Proof.
    intro H. unfold readLength. destruct (readFull_along 1 ltac:(reflexivity) _ _ H) as [[F D] | (e & F & Ee)].
    2:{ right. exists e. destruct (readFull rdr_read 1 r1) as [a r1']. cbn [fst] in F. subst a. auto. }
    destruct (readFull rdr_read 1 r1) as [a r1'], (readFull rdr_read 1 r2) as [b r2']. cbn [fst snd] in *. subst b.
    destruct a as [[[|y [|]]|]|]; try (left; auto; fail). cbv zeta.
    destruct (b2n y <? 192); [left; auto|]. destruct (b2n y <? 224).
    - destruct (readFull_along 1 ltac:(reflexivity) _ _ D) as [[F2 D2] | (e & F2 & Ee)].
      + destruct (readFull rdr_read 1 r1') as [a2 r1''], (readFull rdr_read 1 r2') as [b2 r2'']. cbn [fst snd] in *. subst b2.
        destruct a2 as [[[|y2 [|]]|]|]; left; auto.
      + right. exists e. destruct (readFull rdr_read 1 r1') as [a2 r1'']. cbn [fst] in F2. subst a2. auto.
    - destruct (b2n y <? 255); [left; auto|]. destruct (readFull_along 4 ltac:(reflexivity) _ _ D) as [[F2 D2] | (e & F2 & Ee)].
      + destruct (readFull rdr_read 4 r1') as [a2 r1''], (readFull rdr_read 4 r2') as [b2 r2'']. cbn [fst snd] in *. subst b2.
        destruct a2 as [[|]|]; left; auto.
      + right. exists e. destruct (readFull rdr_read 4 r1') as [a2 r1'']. cbn [fst] in F2. subst a2. auto.
  Qed.
  Lemma readHeader_along r1 r2 : longer r1 r2 -> along (readHeader rdr_read r1) (readHeader rdr_read r2).
  Proof.
    intro H. unfold readHeader. destruct (read_full_along 1 1 ltac:(reflexivity) [] _ _ H) as [[F D] | (e & F & Ee)].
    2:{ right. exists e. destruct (read_full rdr_read 1 1 [] r1) as [a r1']. cbn [fst] in F. subst a. auto. }
    destruct (read_full rdr_read 1 1 [] r1) as [a r1'], (read_full rdr_read 1 1 [] r2) as [b r2']. cbn [fst snd] in *. subst b.
    destruct a as [[[|y [|]]|]|]; try (left; auto; fail). cbv zeta.
    destruct (N.land (b2n y) 128 =? 0); [left; auto|]. destruct (N.land (b2n y) 64 =? 0).
    - destruct (N.land (b2n y) 3 =? 3) eqn:L3; [left; auto|].
      assert (2 ^ N.land (b2n y) 3 < 2 ^ 62) as L.
      { apply N.pow_lt_mono_r; [lia|]. change 3 with (N.ones 2). rewrite N.land_ones. pose proof (N.mod_lt (b2n y) (2 ^ 2) ltac:(discriminate)). lia. }
      destruct (readFull_along _ L _ _ D) as [[F2 D2] | (e & F2 & Ee)].
      + destruct (readFull rdr_read _ r1') as [a2 r1''], (readFull rdr_read _ r2') as [b2 r2'']. cbn [fst snd] in *. subst b2.
        destruct a2 as [[|]|]; left; auto.
      + right. exists e. destruct (readFull rdr_read _ r1') as [a2 r1'']. cbn [fst] in F2. subst a2. auto.
    - destruct (readLength_along _ _ D) as [[F2 D2] | (e & F2 & Ee)].
      + destruct (readLength rdr_read r1') as [a2 r1''], (readLength rdr_read r2') as [b2 r2'']. cbn [fst snd] in *. subst b2.
        destruct a2 as [[[? []]|]|]; left; auto.
      + right. exists e. destruct (readLength rdr_read r1') as [a2 r1'']. cbn [fst] in F2. subst a2. auto.
  Qed.

  (** One Read of the contents. *)
  Definition calong (a b : (bytes * rout (option rerr)) * (cont * reader)) : Prop :=
    (fst a = fst b /\ fst (snd a) = fst (snd b) /\ longer (snd (snd a)) (snd (snd b)))
    \/ exists l e, fst a = (l, Some (inl (Some e))) /\ ended e.
  Lemma posn_small r : posn r -> lenN (remaining r) < 2 ^ 62.
  Proof. intros (B & rest & SF & ->). rewrite remaining_at by assumption. pose proof (suf_len _ _ SF). unfold lenN, lenZ in *. lia. Qed.
  Lemma cread_go_along n rem part r1 r2 : rem <= lenN (remaining r2) -> longer r1 r2 ->
    calong (cread_go rdr_read n rem part r1) (cread_go rdr_read n rem part r2).
  Proof.
    intros L H. unfold cread_go. cbv zeta. pose proof (posn_small r2 (proj1 (proj2 H))) as S.
    destruct (rdr_along (N.min n rem) r1 r2 H ltac:(lia)) as [(b & r1' & r2' & -> & -> & H') | (e & r1' & -> & Ee)].
    - left. auto.
    - right. exists [], e. split; [|exact Ee]. destruct Ee as [-> | ->]; reflexivity.
  Qed.
  Lemma cread_along n c body w r1 r2 : pending c body w -> remaining r2 = w -> longer r1 r2 ->
    calong (cread rdr_read n (c, r1)) (cread rdr_read n (c, r2)).
  Proof.
    intros P D H. pose proof (posn_small r2 (proj1 (proj2 H))) as S. destruct P as [body | b part body w A]; unfold cread.
    - destruct (lenN body =? 0); [left; auto|].
      destruct (rdr_along (N.min n (lenN body)) r1 r2 H) as [(b & r1' & r2' & -> & -> & H') | (e & r1' & -> & Ee)].
      + rewrite D in S. lia.
      + left. auto.
      + right. exists [], e. split; [|exact Ee]. destruct Ee as [-> | ->]; reflexivity.
    - destruct (lenN b =? 0) eqn:Z.
      + destruct part; [|left; auto]. inversion A as [|? ? P]; subst.
        destruct (in_parts_inv body w P) as (part & len & b1 & body2 & w2 & -> & -> & A2 & L).
        assert (b = []) as -> by (destruct b; [reflexivity | rewrite lenN_cons in Z; lia]). cbn [app] in D.
        destruct (readLength_parts rdr_read remaining posn rdr_good part len b1 (b1 ++ w2) r2 L (proj1 (proj2 H)) D) as (r2' & R & D2 & P2).
        destruct (readLength_along _ _ H) as [[F2 D3] | (e & F2 & Ee)].
        * destruct (readLength rdr_read r1) as [a r1']. rewrite R in *. cbn [fst snd] in *. subst a.
          destruct (lenN b1 =? 0); [left; auto|].
          apply (cread_go_along n (lenN b1) part r1' r2'); [|exact D3]. rewrite D2. unfold lenN. rewrite app_length. lia.
        * right. exists [], e. destruct (readLength rdr_read r1) as [a r1']. cbn [fst] in F2. subst a. auto.
      + apply (cread_go_along n (lenN b) part r1 r2); [|exact H]. rewrite D. unfold lenN. rewrite app_length. lia.
  Qed.

  Lemma read_all_along grow fuel : forall cap acc c body w r1 r2, lenN acc <= cap -> pending c body w -> remaining r2 = w -> longer r1 r2 ->
    (exists c1 c2 r1' r2' y, read_all rdr_read grow fuel cap acc (c, r1) = (y, (c1, r1')) /\
       read_all rdr_read grow fuel cap acc (c, r2) = (y, (c2, r2')) /\ longer r1' r2') \/
    (exists e cs, read_all rdr_read grow fuel cap acc (c, r1) = (Some (inr e), cs) /\ ended e).
  Proof.
    induction fuel as [|fuel IH]; intros cap acc c body w r1 r2 LC P D H; cbn [read_all].
    - left. exists c, c, r1, r2, None. auto.
    - set (cap' := if lenN acc <? cap then cap else N.max (cap + 1) (grow cap)).
      assert (0 < cap' - lenN acc) as Hn by (unfold cap'; destruct (lenN acc <? cap) eqn:E; lia).
      pose proof (cread_along (cap' - lenN acc) c body w r1 r2 P D H) as C.
      rewrite <- (app_nil_r w) in D.
      destruct (cread_ok rdr_read remaining posn rdr_good _ c body w [] r2 Hn P (proj1 (proj2 H)) D)
        as [(b & c' & body' & w' & r2' & R & NE & LB & -> & P' & I' & D') | (-> & c' & r2' & R & I' & D')]; rewrite R in *;
        (destruct C as [(F1 & F2 & F3) | (l & e & F & Ee)];
         [destruct (cread rdr_read (cap' - lenN acc) (c, r1)) as [a [c1 r1']]; cbn [fst snd] in F1, F2, F3; subst a c1
         |right; exists e; destruct (cread rdr_read (cap' - lenN acc) (c, r1)) as [a cs]; cbn [fst] in F; subst a; exists cs; split; [destruct Ee as [-> | ->]; reflexivity | exact Ee]]).
      + rewrite app_nil_r in D'. apply (IH cap' (acc ++ b) c' body' w' r1' r2'); try assumption. unfold lenN in *. rewrite app_length. lia.
      + left. eexists c', c', r1', r2', _. split; [reflexivity|]. split; [reflexivity | exact F3].
  Qed.

  Lemma read_all_more grow fuel k : forall cap acc cs v cs', read_all rdr_read grow fuel cap acc cs = (Some v, cs') ->
    read_all rdr_read grow (fuel + k) cap acc cs = (Some v, cs').
  Proof.
    induction fuel as [|fuel IH]; intros cap acc cs v cs' H; [discriminate H|]. cbn [read_all Nat.add] in *.
    destruct (cread rdr_read _ cs) as [[b [[[[]|]|]|]] cs1]; try exact H. apply IH, H.
  Qed.

  (** A packet cut short is never read as a packet. *)
  Theorem next_packet_short grow fuel tag body w q r : framed tag body w -> w = q ++ x -> x <> [] -> fst (next_packet rdr_read grow fuel r) <> None ->
    (lenZ w < 2 ^ 62)%Z -> posn r -> remaining r = q ->
    exists e r', next_packet rdr_read grow fuel r = (Some (inr e), r') /\ ended e.
  Proof.
    intros F E X L B P D. assert (suf w w) as SF by (split; [exists []; reflexivity | exact B]).
    assert (posn (at_ w w) /\ remaining (at_ w w) = w) as (P2 & D2) by (apply posn_at, SF).
    assert (longer r (at_ w w)) as H by (split; [|split]; auto; rewrite D2, D; exact E).
    assert (remaining (at_ w w) = w ++ []) as D3 by (rewrite app_nil_r; exact D2).
    unfold next_packet in *. pose proof (readHeader_along _ _ H) as HA.
    destruct (readHeader_ok rdr_read remaining posn rdr_good tag body w [] (at_ w w) F P2 D3) as (c & s' & w' & R & PE & D4 & P4).
    rewrite R in HA. destruct HA as [[F1 F2] | (e & F1 & Ee)].
    2:{ destruct (readHeader rdr_read r) as [a r']. cbn [fst] in F1. subst a. exists e, r'. auto. }
    destruct (readHeader rdr_read r) as [a r1]. cbn [fst snd] in F1, F2. subst a.
    destruct (read_all_ok rdr_read remaining posn rdr_good grow (fuel + S (length body)) 512 [] c body w' [] s' ltac:(lia) ltac:(discriminate) PE P4 D4) as (c2 & s2 & R2 & D5 & P5).
    rewrite app_nil_r in D4.
    destruct (read_all_along grow fuel 512 [] c body w' r1 s' ltac:(discriminate) PE D4 F2) as [(c1 & c2' & r1' & r2' & y & K1 & K2 & K3) | (e & [c1 r1'] & -> & Ee)].
    - exfalso. destruct y as [v|]; [|rewrite K1 in L; apply L; reflexivity].
      apply read_all_more with (k := S (length body)) in K2. rewrite R2 in K2. injection K2 as <- <- <-.
      destruct K3 as (_ & _ & K3). rewrite D5 in K3. destruct (remaining r1'); [|discriminate]. cbn [app] in K3. congruence.
    - exists e, r1'. auto.
  Qed.
End Short.

(** ** The packets of a key block *)
Lemma posn_buf r : posn r -> (length (remaining r) <= length (r_buf r))%nat.
Proof. intros (B & rest & SF & ->). rewrite remaining_at by assumption. pose proof (suf_len _ _ SF). cbn [at_ r_buf]. unfold lenZ in *. lia. Qed.
Lemma next_rd_ok E tag body w rest s : framed tag body w -> posn (s_rd s) -> remaining (s_rd s) = w ++ rest ->
  exists r', next_rd E s = (ROk (Some (tag, body)), mkSt r' (s_cs s) (s_cur s)) /\ remaining r' = rest /\ posn r'.
Proof.
  intros F P D. pose proof (posn_buf _ P) as L. rewrite D, app_length in L. pose proof (framed_longer _ _ _ F) as LF.
  destruct (next_packet_ok rdr_read remaining posn rdr_good (e_grow E) (S (S (length (r_buf (s_rd s))))) tag body w rest (s_rd s) F P D ltac:(lia)) as (r' & R & D' & P').
  exists r'. unfold next_rd. rewrite R. auto.
Qed.
Lemma next_rd_end E s : posn (s_rd s) -> remaining (s_rd s) = [] -> next_rd E s = (ROk None, s).
Proof.
  intros P D. unfold next_rd, next_packet, readHeader. cbn [read_full]. change (1 <=? lenN []) with false. cbv iota.
  change (1 - lenN []) with 1. rewrite (rdr_less 1 (s_rd s)); [|rewrite D; reflexivity | reflexivity | exact P]. rewrite D. destruct s. reflexivity.
Qed.
Lemma posn_inv r : posn r -> rdr_inv (r_buf r) r.
Proof.
  intros (B & rest & SF & ->). pose proof (suf_len _ _ SF). unfold rdr_inv. cbn [at_ r_buf r_off]. destruct SF as (_ & L). repeat split; lia.
Qed.
Lemma posn_fuel grow r : posn r -> fst (next_packet rdr_read grow (S (S (length (r_buf r)))) r) <> None.
Proof.
  intro P. pose proof (next_packet_rdr grow (S (S (length (r_buf r)))) (r_buf r) r (posn_inv r P)) as H.
  destruct (next_packet rdr_read grow _ r) as [[v|] r']; [discriminate|]. exfalso.
  apply H. unfold rdr_left, lenZ. destruct P as (B & rest & SF & ->). pose proof (suf_len _ _ SF). cbn [at_ r_off r_buf]. lia.
Qed.
Lemma next_rd_short E tag body q x s : framed tag body (q ++ x) -> x <> [] -> (lenZ (q ++ x) < 2 ^ 62)%Z -> posn (s_rd s) -> remaining (s_rd s) = q ->
  exists r', next_rd E s = (ROk None, mkSt r' (s_cs s) (s_cur s)) \/ next_rd E s = (RErr EUnexp, mkSt r' (s_cs s) (s_cur s)).
Proof.
  intros F X L P D. unfold next_rd.
  destruct (next_packet_short x (e_grow E) (S (S (length (r_buf (s_rd s))))) tag body (q ++ x) q (s_rd s) F eq_refl X (posn_fuel _ _ P) L P D) as (e & r' & -> & Ee).
  exists r'. destruct Ee as [-> | ->]; [left | right]; reflexivity.
Qed.

Lemma header_framed tag body h : header tag (lenN body) h -> framed tag body (h ++ body).
Proof. intro H. destruct H; cbn [app]; constructor; try assumption. constructor. assumption. Qed.

Lemma readHeader_head tag (body : bytes) h rest r : header tag (lenN body) h -> posn r -> remaining r = h ++ rest ->
  exists r', readHeader rdr_read r = (Some (inl (tag, CSpan (lenN body))), r') /\ remaining r' = rest /\ posn r'.
Proof.
  intros H P D. destruct H as [T L | T L | T L | len T L].
  - apply (readHeader_old rdr_read remaining posn rdr_good tag 0 1 body rest r T ltac:(lia) eq_refl L P D).
  - apply (readHeader_old rdr_read remaining posn rdr_good tag 1 2 body rest r T ltac:(lia) eq_refl L P D).
  - apply (readHeader_old rdr_read remaining posn rdr_good tag 2 4 body rest r T ltac:(lia) eq_refl L P D).
  - destruct (read_full_ok rdr_read remaining posn rdr_good 1 [] [n2b (192 + tag)] (len ++ rest) r P D ltac:(reflexivity)) as (s1 & R & D1 & I1).
    destruct (readLength_ok rdr_read remaining posn rdr_good (lenN body) len rest s1 L I1 D1) as (s2 & RL & D2 & I2).
    unfold readHeader. cbn [app] in R. change (lenN [n2b (192 + tag)]) with 1 in R. rewrite R. cbv zeta.
    rewrite b2n_n2b_small by lia. destruct (new_header tag T) as (-> & -> & ->). rewrite RL. exists s2. auto.
Qed.
Lemma next_rd_in_body E tag (body h q : bytes) s : header tag (lenN body) h -> posn (s_rd s) -> remaining (s_rd s) = h ++ q ->
  lenN q < N.min 512 (lenN body) ->
  exists r', next_rd E s = (if is_nil q then ROk None else RErr EUnexp, mkSt r' (s_cs s) (s_cur s)).
Proof.
  intros H P D L. unfold next_rd, next_packet.
  destruct (readHeader_head tag body h q (s_rd s) H P D) as (r1 & -> & D1 & P1).
  cbn [read_all]. change (lenN [] <? 512) with true. cbv iota. change (512 - lenN []) with 512. unfold cread.
  replace (lenN body =? 0) with false by lia.
  rewrite (rdr_less (N.min 512 (lenN body)) r1) by (try rewrite D1; assumption || lia). rewrite D1.
  exists r1. destruct q; reflexivity.
Qed.

(** The loop over the packets. *)
Lemma key_packets o E l w : packets_in l w -> forall fuel s rest, posn (s_rd s) -> remaining (s_rd s) = w ++ rest -> (length (w ++ rest) < fuel)%nat ->
  match flat_list o E l (s_cs s) with
  | (ROk is, cs') => exists r' fuel', remaining r' = rest /\ posn r' /\ (length rest < fuel')%nat /\
      key_loop (parse_tag o E) E fuel s = key_loop (parse_tag o E) E fuel' (mkSt r' cs' (adds is (s_cur s)))
  | (r, cs') => fst (key_loop (parse_tag o E) E fuel s) = map_res (fun _ => tt) r /\ s_cs (snd (key_loop (parse_tag o E) E fuel s)) = cs'
  end.
Proof.
  induction 1 as [|tag body l w w' F P IH]; intros fuel s rest I D L.
  - cbn [flat_list]. exists (s_rd s), fuel. rewrite adds_nil. destruct s. auto.
  - rewrite <- app_assoc in D, L. destruct (next_rd_ok E tag body w (w' ++ rest) s F I D) as (r1 & N & D1 & I1).
    pose proof (framed_longer _ _ _ F) as LF. destruct fuel as [|fuel]; [lia|].
    assert (key_loop (parse_tag o E) E (S fuel) s =
      (let* p := call_rec (parse_tag o E) tag body in add (fst p) ;; key_loop (parse_tag o E) E fuel) (mkSt r1 (s_cs s) (s_cur s))) as ->.
    { cbn [key_loop]. rewrite (bind_ok _ _ _ _ _ N). reflexivity. }
    cbn [flat_list].
    destruct (parse_tag o E tag body (s_cs s)) as [[[i x]|e| |] cs1] eqn:PP; unfold call_rec, add, upd, bind; cbn [s_cs s_rd s_cur]; rewrite PP; try (split; reflexivity).
    cbn [fst s_rd s_cs s_cur].
    rewrite app_length in L. specialize (IH fuel (mkSt r1 cs1 (add_child i (s_cur s))) rest I1 D1 ltac:(lia)). cbn [s_cs s_cur] in IH.
    destruct (flat_list o E l cs1) as [[is|e| |] cs2]; try exact IH.
    destruct IH as (r' & fuel' & D' & I' & L' & R). exists r', fuel'. split; [exact D'|]. split; [exact I'|]. split; [exact L'|]. rewrite add_child_adds, adds_adds in R. rewrite add_child_adds. exact R.
Qed.

Definition key_item (o : opts) (w : bytes) : item := Item (str "Key data") [] (dump_if (oDebug o) w) (bytes_note (lenN w)) [].

Lemma sub38_start o E ty w cs : sub_type ty = 38 -> (lenZ (x00 :: w) < 2 ^ 62)%Z ->
  exists r fuel, posn r /\ remaining r = w /\ (length w < fuel)%nat /\
    forall out cs', (let '(x, s) := key_loop (parse_tag o E) E fuel (mkSt r cs (key_item o w)) in
       s_cs s = cs' /\ out = map_res (fun _ => key_shown o ty w (i_items (s_cur s))) x /\
       (forall u, x = ROk u -> s_cur s = Item (str "Key data") [] (dump_if (oDebug o) w) (bytes_note (lenN w)) (i_items (s_cur s)))) ->
    parse_sub o E 2 ty (x00 :: w) cs = (out, cs').
Proof.
  intros T L. pose proof (suf_refl _ L) as SF. change (x00 :: w) with ([x00] ++ w) in SF at 2. pose proof (suf_app _ _ _ SF) as SF1.
  exists (at_ (x00 :: w) w), (S (Z.to_nat (r_size (at_ (x00 :: w) w)))).
  destruct (posn_at _ _ SF1) as [P D]. split; [exact P|]. split; [exact D|].
  split; [unfold r_size; cbn [at_ r_buf]; unfold lenZ; cbn [length]; lia|].
  intros out cs' H. unfold parse_sub. rewrite (sub_case o E ty 38 T), sub_item_shown, at_new.
  change (mkSt (at_ (x00 :: w) (x00 :: w)) cs (sub_shown o ty (x00 :: w) [])) with (sat (x00 :: w) (x00 :: w) cs (sub_shown o ty (x00 :: w) [])).
  unfold sub38. erewrite bind_ok by (apply rdByte_at; exact SF). erewrite bind_ok by (apply add_at).
  erewrite bind_ok by (apply rawData_at; exact SF1). change (b2n x00 =? 0) with true. cbv iota.
  unfold bind at 1. unfold rdLen at 1. cbn [sat s_rd]. unfold bind, sub_it. cbn [sat s_rd s_cs s_cur].
  rewrite dump_bytes_if, n_bytes_note. fold (key_item o w).
  destruct (key_loop (parse_tag o E) E (S (Z.to_nat (r_size (at_ (x00 :: w) w)))) (mkSt (at_ (x00 :: w) w) cs (key_item o w))) as [x s].
  destruct H as (<- & -> & H). destruct x as [u|e| |]; try reflexivity. cbn [s_rd s_cs s_cur map_res add upd]. unfold key_shown. rewrite <- (H u eq_refl).
  reflexivity.
Qed.

Lemma key_complete o E ty l w cs : sub_type ty = 38 -> (lenZ (x00 :: w) < 2 ^ 62)%Z -> packets_in l w ->
  parse_sub o E 2 ty (x00 :: w) cs = (map_res (key_shown o ty w) (fst (flat_list o E l cs)), snd (flat_list o E l cs)).
Proof.
  intros T L P. destruct (sub38_start o E ty w cs T L) as (r & fuel & PS & D & LF & K). apply K. clear K.
  rewrite <- (app_nil_r w) in D, LF. pose proof (key_packets o E l w P fuel (mkSt r cs (key_item o w)) [] PS D LF) as H. cbn [s_cs s_cur] in H.
  destruct (flat_list o E l cs) as [[is|e| |] cs1]; cbn [fst snd map_res].
  - destruct H as (r' & fuel' & D' & P' & L' & ->). destruct fuel' as [|fuel']; [cbn [length] in L'; lia|]. cbn [key_loop].
    rewrite (bind_ok _ _ _ _ _ (next_rd_end E (mkSt r' cs1 (adds is (key_item o w))) P' D')). unfold ret. cbn [s_cs s_cur map_res].
    unfold key_item, adds. cbn [i_items app]. auto.
  - destruct (key_loop _ _ _ _) as [x s]. cbn [fst snd] in H. destruct H as [-> <-]. cbn [map_res]. split; [reflexivity|]. split; [reflexivity | discriminate].
  - destruct (key_loop _ _ _ _) as [x s]. cbn [fst snd] in H. destruct H as [-> <-]. cbn [map_res]. split; [reflexivity|]. split; [reflexivity | discriminate].
  - destruct (key_loop _ _ _ _) as [x s]. cbn [fst snd] in H. destruct H as [-> <-]. cbn [map_res]. split; [reflexivity|]. split; [reflexivity | discriminate].
Qed.

(** After the complete packets [l], what is left decides. *)
Lemma key_rest o E ty l w q is cs cs1 y : sub_type ty = 38 -> (lenZ (x00 :: w ++ q) < 2 ^ 62)%Z -> packets_in l w ->
  flat_list o E l cs = (ROk is, cs1) ->
  (forall s, posn (s_rd s) -> remaining (s_rd s) = q -> exists r', next_rd E s = (y, mkSt r' (s_cs s) (s_cur s))) -> (y = ROk None \/ y = RErr EUnexp) ->
  parse_sub o E 2 ty (x00 :: w ++ q) cs = (map_res (fun _ => key_shown o ty (w ++ q) is) y, cs1).
Proof.
  intros T L P F N Y. destruct (sub38_start o E ty (w ++ q) cs T L) as (r & fuel & PS & D & LF & K). apply K. clear K.
  pose proof (key_packets o E l w P fuel (mkSt r cs (key_item o (w ++ q))) q PS D LF) as H. cbn [s_cs s_cur] in H.
  rewrite F in H. destruct H as (r' & fuel' & D' & P' & L' & ->). destruct fuel' as [|fuel']; [lia|]. cbn [key_loop].
  destruct (N (mkSt r' cs1 (adds is (key_item o (w ++ q)))) P' D') as (r2 & R). cbn [s_cs s_cur] in R. unfold bind. rewrite R.
  destruct Y as [-> | ->].
  - unfold ret. cbn [s_cs s_cur map_res]. unfold key_item, adds. cbn [i_items app]. auto.
  - cbn [s_cs s_cur map_res]. split; [reflexivity|]. split; [reflexivity | discriminate].
Qed.

Lemma key_rest_any o E ty l w q is cs cs1 : sub_type ty = 38 -> (lenZ (x00 :: w ++ q) < 2 ^ 62)%Z -> packets_in l w ->
  flat_list o E l cs = (ROk is, cs1) ->
  (forall s, posn (s_rd s) -> remaining (s_rd s) = q ->
    exists r', next_rd E s = (ROk None, mkSt r' (s_cs s) (s_cur s)) \/ next_rd E s = (RErr EUnexp, mkSt r' (s_cs s) (s_cur s))) ->
  parse_sub o E 2 ty (x00 :: w ++ q) cs = (RErr EUnexp, cs1) \/
  parse_sub o E 2 ty (x00 :: w ++ q) cs = (ROk (key_shown o ty (w ++ q) is), cs1).
Proof.
  intros T L P F N. destruct (sub38_start o E ty (w ++ q) cs T L) as (r & fuel & PS & D & LF & K).
  pose proof (key_packets o E l w P fuel (mkSt r cs (key_item o (w ++ q))) q PS D LF) as H. cbn [s_cs s_cur] in H.
  rewrite F in H. destruct H as (r' & fuel' & D' & P' & L' & Z). destruct fuel' as [|fuel']; [lia|]. cbn [key_loop] in Z.
  destruct (N (mkSt r' cs1 (adds is (key_item o (w ++ q)))) P' D') as (r2 & [R|R]); cbn [s_cs s_cur] in R; unfold bind in Z; rewrite R in Z.
  - right. apply K. rewrite Z. unfold ret. cbn [s_cs s_cur]. unfold key_item, adds. cbn [i_items app]. auto.
  - left. apply K. rewrite Z. cbn [s_cs s_cur]. split; [reflexivity|]. split; [reflexivity | discriminate].
Qed.
