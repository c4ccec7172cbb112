(** * AcceptFrameL: splitting octets into packets and sub-packets, and reading key blocks (C63). *)
From Coq Require Import Strings.String Strings.Byte List NArith ZArith Bool Lia ZifyBool ZifyN ZifyNat.
From Verif Require Import Base BaseL SpecBase Item Reader ReaderL SpecReader Context Env Values Opaque Monad MonadL Subs Tags SubParse
  SpecValues SpecPacket ReadsL PacketL SpecFrame FramingL FrameL SpecComp SpecSub SpecSubs SubsL SubL GrammarL KeyL KeyTailL SpecAccept.
Import ListNotations.
Local Open Scope N_scope.

(** ** Sub-packets *)
Lemma first_sub_ok l : lenN l < 2 ^ 32 -> next_subpacket l = option_map (fun p => (fst p, snd p)) (first_sub l).
Proof.
  intro L. rewrite next_subpacket_eq. unfold first_sub.
  assert (forall n t, lenN t < 2 ^ 32 -> fin_sub n t = option_map (fun p => (fst p, snd p))
     (match t with ty :: t' => if (1 <=? n) && (n <=? lenN t) then Some (ty, firstn (N.to_nat (n - 1)) t', skipn (N.to_nat (n - 1)) t') else None | [] => None end)) as F.
  { intros n t H. unfold fin_sub. rewrite wrap32_small by assumption. destruct t as [|ty t]; [destruct (_ || _); reflexivity|].
    destruct ((lenN (ty :: t) <? n) || (n =? 0)) eqn:Q; [replace ((1 <=? n) && (n <=? lenN (ty :: t))) with false by lia | replace ((1 <=? n) && (n <=? lenN (ty :: t))) with true by lia]; reflexivity. }
  destruct l as [|a t]; [reflexivity|]. rewrite lenN_cons in L. destruct (b2n a <? 192); [apply F; lia|]. destruct (b2n a <? 255).
  - destruct t as [|b t]; [reflexivity|]. rewrite lenN_cons in L. apply F. lia.
  - destruct t as [|b [|c [|d [|e t]]]]; try reflexivity. rewrite !lenN_cons in L. apply F. lia.
Qed.
Lemma subs_of_ok fuel : forall l, lenN l < 2 ^ 32 ->
  match subs_of fuel l with Some s => opaque_subpackets fuel l = (s, true) | None => snd (opaque_subpackets fuel l) = false end.
Proof.
  induction fuel as [|fuel IH]; intros l L; (destruct l as [|a t]; [reflexivity|]); [reflexivity|].
  cbn [subs_of opaque_subpackets]. pose proof (first_sub_ok _ L) as F. destruct (first_sub (a :: t)) as [[[ty b] rest]|]; cbn [option_map fst snd] in F; rewrite F; [|reflexivity].
  assert (lenN rest < 2 ^ 32) as LR. { apply next_sub_inv in F; [|exact L]. destruct F as (len & _ & Q). apply (f_equal (@length byte)) in Q. rewrite app_length in Q. cbn [length] in Q. rewrite app_length in Q. unfold lenN in *. cbn [length] in L. lia. }
  specialize (IH rest LR). destruct (subs_of fuel rest) as [s|]; cbn [option_map].
  - rewrite IH. reflexivity.
  - destruct (opaque_subpackets fuel rest) as [r ok]. exact IH.
Qed.

(** ** Packets *)
Lemma take_app (n : N) (a b : bytes) : lenN a = n -> firstn (N.to_nat n) (a ++ b) = a /\ skipn (N.to_nat n) (a ++ b) = b /\ (n <=? lenN (a ++ b)) = true.
Proof.
  intros <-. unfold lenN. rewrite Nat2N.id, firstn_app, skipn_app, Nat.sub_diag, firstn_all, skipn_all, app_length. cbn [firstn skipn]. rewrite app_nil_r. split; [reflexivity|]. split; [reflexivity | lia].
Qed.
Lemma first_parts_complete body w : in_parts body w -> forall fuel rest, (length (w ++ rest) <= fuel)%nat -> first_parts fuel (w ++ rest) = Some (body, rest).
Proof.
  induction 1 as [body len HL | k part body w K LP H IH]; intros fuel rest F.
  - assert (forall n, lenN body = n -> (if n <=? lenN (body ++ rest) then Some (firstn (N.to_nat n) (body ++ rest), skipn (N.to_nat n) (body ++ rest)) else None) = Some (body, rest)) as C.
    { intros n Ln. destruct (take_app n body rest Ln) as (-> & -> & ->). reflexivity. }
    rewrite <- app_assoc in *. destruct HL as [HL|HL|HL].
    + cbn [app] in *. destruct fuel as [|fuel]; [cbn [length] in F; lia|]. cbn [first_parts]. rewrite b2n_n2b_small by lia. replace (_ <? 192) with true by lia. apply C. reflexivity.
    + cbn [app] in *. destruct fuel as [|fuel]; [cbn [length] in F; lia|]. cbn [first_parts]. destruct (two_octets (lenN body) ltac:(lia)) as (H1 & H2 & H3 & H4). rewrite H1, H2, H3.
      replace (_ <? 192) with false by lia. replace (_ <? 224) with true by lia. apply C. reflexivity.
    + destruct (four_octets _ HL) as (a & b & c & d & X & B). rewrite X in *. cbn [app] in *. destruct fuel as [|fuel]; [cbn [length] in F; lia|]. cbn [first_parts].
      change (b2n xff) with 255. cbn [N.ltb N.eqb N.compare Pos.compare Pos.compare_cont Pos.eqb]. rewrite B. apply C. reflexivity.
  - cbn [app] in *. rewrite <- app_assoc in *. destruct fuel as [|fuel]; [cbn [length] in F; lia|]. cbn [first_parts]. rewrite b2n_n2b_small by lia.
    replace (_ <? 192) with false by lia. replace (_ <? 224) with false by lia. replace (_ =? 255) with false by lia. replace (224 + k - 224) with k by lia.
    destruct (take_app (2 ^ k) part (w ++ rest) LP) as (-> & -> & ->). rewrite IH; [reflexivity|]. cbn [length] in F. rewrite app_length in F. lia.
Qed.
Lemma first_packet_complete tag body w rest : framed tag body w -> first_packet (w ++ rest) = Some (tag, body, rest).
Proof.
  assert (forall n, lenN body = n -> (if n <=? lenN (body ++ rest) then Some (tag, firstn (N.to_nat n) (body ++ rest), skipn (N.to_nat n) (body ++ rest)) else None) = Some (tag, body, rest)) as C.
  { intros n Ln. destruct (take_app n body rest Ln) as (-> & -> & ->). reflexivity. }
  assert (forall k lt, tag < 16 -> lt < 4 -> k = 128 + lt + 4 * tag -> b2n (n2b k) = k /\ (k <? 128) = false /\ (192 <=? k) = false /\ (k - 128) / 4 = tag /\ k mod 4 = lt) as O.
  { intros k lt T LT ->. rewrite b2n_n2b_small by lia. repeat split; lia. }
  intros [T L | T L | T L | v T H]; cbn [app]; try rewrite <- app_assoc.
  - destruct (O (128 + 4 * tag) 0 T ltac:(lia) ltac:(lia)) as (H1 & H2 & H3 & H4 & H5). destruct (be_enc 1 (lenN body)) as [|a [|b t]] eqn:X;
      try (apply (f_equal (@length byte)) in X; rewrite be_enc_length in X; cbn in X; lia).
    unfold first_packet. cbn [app]. cbv zeta. rewrite H1, H2, H3, H4, H5. apply C. assert (be [a] = lenN body) as <- by (rewrite <- X; rewrite be_be_enc; apply N.mod_small, L). cbn. lia.
  - destruct (O (129 + 4 * tag) 1 T ltac:(lia) ltac:(lia)) as (H1 & H2 & H3 & H4 & H5). destruct (be_enc 2 (lenN body)) as [|a [|b [|c t]]] eqn:X;
      try (apply (f_equal (@length byte)) in X; rewrite be_enc_length in X; cbn in X; lia).
    unfold first_packet. cbn [app]. cbv zeta. rewrite H1, H2, H3, H4, H5. apply C. rewrite <- X. rewrite be_be_enc. symmetry. apply N.mod_small, L.
  - destruct (O (130 + 4 * tag) 2 T ltac:(lia) ltac:(lia)) as (H1 & H2 & H3 & H4 & H5). destruct (four_octets _ L) as (a & b & c & d & X & B). rewrite X.
    unfold first_packet. cbn [app]. cbv zeta. rewrite H1, H2, H3, H4, H5. apply C. rewrite B. reflexivity.
  - unfold first_packet. cbv zeta. rewrite b2n_n2b_small by lia. replace (_ <? 128) with false by lia. replace (192 <=? _) with true by lia.
    rewrite (first_parts_complete body v H) by lia. cbn [option_map fst snd]. replace (192 + tag - 192) with tag by lia. reflexivity.
Qed.
Lemma cut_more {A} (f : bytes -> bytes -> A) (g : A -> option (bytes * bytes)) n (t x : bytes) b r : 
  (if n <=? lenN t then Some (firstn (N.to_nat n) t, skipn (N.to_nat n) t) else None) = Some (b, r) ->
  (if n <=? lenN (t ++ x) then Some (firstn (N.to_nat n) (t ++ x), skipn (N.to_nat n) (t ++ x)) else None) = Some (b, r ++ x).
Proof.
  destruct (n <=? lenN t) eqn:Q; [|discriminate]. intro H. injection H as <- <-. replace (n <=? lenN (t ++ x)) with true by (unfold lenN in *; rewrite app_length; lia).
  rewrite firstn_app, skipn_app. replace (N.to_nat n - length t)%nat with 0%nat by (unfold lenN in Q; lia). cbn [firstn skipn]. rewrite app_nil_r. reflexivity.
Qed.
Lemma first_parts_more fuel : forall t x b r k, first_parts fuel t = Some (b, r) -> first_parts (fuel + k) (t ++ x) = Some (b, r ++ x).
Proof.
  induction fuel as [|fuel IH]; intros t x b r k; (destruct t as [|a t]; [discriminate|]); [discriminate|]. cbn [first_parts Nat.add app]. cbv zeta.
  destruct (b2n a <? 192); [apply (cut_more (fun _ _ => tt) (fun _ => None))|]. destruct (b2n a <? 224).
  - destruct t as [|c t]; [discriminate|]. apply (cut_more (fun _ _ => tt) (fun _ => None)).
  - destruct (b2n a =? 255).
    + destruct t as [|c [|d [|e [|f t]]]]; try discriminate. apply (cut_more (fun _ _ => tt) (fun _ => None)).
    + set (n := 2 ^ (b2n a - 224)). destruct (if n <=? lenN t then Some (firstn (N.to_nat n) t, skipn (N.to_nat n) t) else None) as [[p rest]|] eqn:Q; [|discriminate].
      rewrite (cut_more (fun _ _ => tt) (fun _ => None) _ _ x _ _ Q). destruct (first_parts fuel rest) as [[b2 r2]|] eqn:R; [|discriminate]. rewrite (IH _ x _ _ k R). cbn [option_map fst snd].
      intro H. injection H as <- <-. reflexivity.
Qed.
Lemma first_packet_more l x tag b r : first_packet l = Some (tag, b, r) -> first_packet (l ++ x) = Some (tag, b, r ++ x).
Proof.
  destruct l as [|h t]; [discriminate|]. unfold first_packet. cbn [app]. cbv zeta. destruct (b2n h <? 128); [discriminate|]. destruct (192 <=? b2n h).
  - destruct (first_parts (length t) t) as [[b2 r2]|] eqn:R; [|discriminate]. rewrite app_length, (first_parts_more _ _ x _ _ (length x) R). cbn [option_map fst snd]. intro H. injection H as <- <- <-. reflexivity.
  - assert (forall n u, (if n <=? lenN u then Some ((b2n h - 128) / 4, firstn (N.to_nat n) u, skipn (N.to_nat n) u) else None) = Some (tag, b, r) ->
      (if n <=? lenN (u ++ x) then Some ((b2n h - 128) / 4, firstn (N.to_nat n) (u ++ x), skipn (N.to_nat n) (u ++ x)) else None) = Some (tag, b, r ++ x)) as C.
    { intros n u. pose proof (cut_more (fun _ _ => tt) (fun _ => None) n u x b r) as K. destruct (n <=? lenN u); [|discriminate]. intro H. injection H as -> Hb Hr. rewrite Hb, Hr in K. specialize (K eq_refl).
      destruct (n <=? lenN (u ++ x)); [|discriminate]. injection K as -> ->. reflexivity. }
    destruct (b2n h mod 4) as [|[p|p|]]; [| discriminate || (destruct p; discriminate) | |].
    + destruct t as [|a t]; [discriminate|]. apply C.
    + destruct p as [p|p|]; try discriminate. destruct t as [|a [|c [|d [|e t]]]]; try discriminate. apply C.
    + destruct t as [|a [|c t]]; try discriminate. apply C.
Qed.
(** The first packet is a packet; where there is none, there is something else in front, or the end is missing. *)
Lemma first_packet_none b t : first_packet (b :: t) = None ->
  b2n b < 128 \/ (exists tag, tag < 16 /\ b = n2b (131 + 4 * tag)) \/ (exists tag body x, framed tag body ((b :: t) ++ x) /\ x <> [] /\ lenN x <= cut_bound).
Proof.
  intro H. destruct (front b t) as [G|[G|[(tag & body & w & rest & F & Q)|G]]]; auto. rewrite Q, (first_packet_complete _ _ _ rest F) in H. discriminate.
Qed.
Lemma first_packet_sound l tag body rest : first_packet l = Some (tag, body, rest) -> exists w, framed tag body w /\ l = w ++ rest.
Proof.
  destruct l as [|b t]; [discriminate|]. intro H. destruct (front b t) as [G|[(k & T & ->)|[(k & y & w & r & F & Q)|(k & y & x & F & NX & _)]]].
  - unfold first_packet in H. replace (b2n b <? 128) with true in H by lia. discriminate.
  - exfalso. unfold first_packet in H. rewrite b2n_n2b_small in H by lia. replace (131 + 4 * k <? 128) with false in H by lia. replace (192 <=? 131 + 4 * k) with false in H by lia.
    replace ((131 + 4 * k) mod 4) with 3 in H by lia. discriminate.
  - rewrite Q, (first_packet_complete _ _ _ r F) in H. injection H as -> -> ->. exists w. auto.
  - apply first_packet_more with (x := x) in H. pose proof (first_packet_complete _ _ _ [] F) as K. rewrite app_nil_r in K. rewrite K in H. injection H as _ _ H.
    destruct rest; [|discriminate]. cbn [app] in H. congruence.
Qed.

Lemma same_prefix (a b c d : bytes) : a ++ b = c ++ d -> lenN a = lenN c -> a = c /\ b = d.
Proof.
  revert c. induction a as [|x a IH]; intros [|y c] H L; unfold lenN in L; cbn [length] in L; try lia; [split; [reflexivity | exact H]|].
  cbn [app] in H. injection H as -> H. destruct (IH c H) as [-> ->]; [unfold lenN; lia | auto].
Qed.
(** ** Reading from two readers with the same octets left *)
Definition same (r1 r2 : reader) : Prop := posn r1 /\ posn r2 /\ remaining r1 = remaining r2.
Definition akin (e1 e2 : rerr) : Prop := e1 = e2 /\ e1 <> RBareEof \/ (e1 = RUnexp \/ e1 = RIo) /\ (e2 = RUnexp \/ e2 = RIo).
Definition pair_ {A} (a b : rout A * reader) : Prop :=
  fst a = fst b /\ same (snd a) (snd b) \/ exists e1 e2, fst a = Some (inr e1) /\ fst b = Some (inr e2) /\ akin e1 e2.
Lemma rdr_pair n r1 r2 : same r1 r2 ->
  (exists b r1' r2', rdr_read n r1 = ((b, None), r1') /\ rdr_read n r2 = ((b, None), r2') /\ same r1' r2') \/
  (exists e1 e2 r1' r2', rdr_read n r1 = (([], Some e1), r1') /\ rdr_read n r2 = (([], Some e2), r2') /\ akin e1 e2).
Proof.
  intros (P1 & P2 & D). destruct (N.le_gt_cases n (lenN (remaining r1))) as [H|H].
  - left. destruct (rdr_enough n r1 H P1) as (b & r1' & R1 & L1 & D1 & P1'). destruct (rdr_enough n r2) as (b2 & r2' & R2 & L2 & D2 & P2'); [rewrite <- D; exact H | assumption|].
    rewrite <- D, D1 in D2. destruct (same_prefix _ _ _ _ D2 ltac:(lia)) as [<- D3]. exists b, r1', r2'. repeat split; auto.
  - right. assert (forall r, posn r -> lenN (remaining r) < n -> exists e, rdr_read n r = (([], Some e), r) /\ (if is_nil (remaining r) then (if 2 ^ 63 <=? n then e = RIo else e = RWrapEof) else e = RUnexp \/ e = RIo)) as K.
    { intros r (B & rest & SF & ->) L. rewrite remaining_at in * by assumption. pose proof (suf_len _ _ SF) as [U1 U2]. unfold rdr_read. destruct (2 ^ 63 <=? n) eqn:Q; [eexists; split; [reflexivity | destruct (is_nil rest); auto]|].
      unfold r_read, r_readbytes, r_size, at_. cbn [r_buf r_off]. replace (Z.of_N n =? 0)%Z with false by lia. destruct rest as [|c rest].
      - replace (lenZ B - lenZ [] >=? lenZ B)%Z with true by (change (lenZ []) with 0%Z; lia). eexists. split; reflexivity.
      - assert (0 < lenZ (c :: rest))%Z by (unfold lenZ; cbn [length]; lia). replace (lenZ B - lenZ (c :: rest) >=? lenZ B)%Z with false by lia. cbn [is_nil].
        destruct (wrap64 (lenZ B - lenZ (c :: rest) + Z.of_N n) >? lenZ B)%Z eqn:W; [eexists; split; [reflexivity|auto]|].
        match goal with |- context [if ?a || ?b then _ else _] => destruct (a || b) eqn:W2 end; [eexists; split; [reflexivity|auto]|]. exfalso. unfold wrap64 in *. unfold lenN, lenZ in *. lia. }
    destruct (K r1 P1 H) as (e1 & R1 & X1). destruct (K r2 P2 ltac:(rewrite <- D; exact H)) as (e2 & R2 & X2). exists e1, e2, r1, r2. split; [exact R1|]. split; [exact R2|]. rewrite <- D in X2.
    unfold akin. destruct (is_nil (remaining r1)); [|auto]. left. destruct (2 ^ 63 <=? n); subst; split; (reflexivity || discriminate).
Qed.
Lemma read_full_pair fuel n : forall acc r1 r2, same r1 r2 -> pair_ (read_full rdr_read fuel n acc r1) (read_full rdr_read fuel n acc r2).
Proof.
  induction fuel as [|fuel IH]; intros acc r1 r2 H; cbn [read_full].
  - destruct (n <=? lenN acc); left; auto.
  - destruct (n <=? lenN acc) eqn:Q; [left; auto|]. destruct (rdr_pair (n - lenN acc) r1 r2 H) as [(b & r1' & r2' & -> & -> & H') | (e1 & e2 & r1' & r2' & -> & -> & A)]; [apply IH, H'|].
    right. exists e1, e2. rewrite app_nil_r, Q. destruct A as [[-> N]|[[-> | ->] [-> | ->]]]; (split; [|split]); try (destruct acc; reflexivity); try (unfold akin; tauto).
    1,2: destruct e2; try congruence; destruct acc; reflexivity.
Qed.
Lemma readFull_pair n r1 r2 : same r1 r2 -> pair_ (readFull rdr_read n r1) (readFull rdr_read n r2).
Proof.
  intro H. unfold readFull. destruct (read_full_pair (N.to_nat n) n [] r1 r2 H) as [[F D] | (e1 & e2 & F1 & F2 & A)];
    destruct (read_full rdr_read (N.to_nat n) n [] r1) as [a r1'], (read_full rdr_read (N.to_nat n) n [] r2) as [b r2']; cbn [fst snd] in *; subst.
  - left. destruct b as [[|[]]|]; auto.
  - right. exists e1, e2. split; [|split; [|exact A]]; destruct A as [[-> N]|[[-> | ->] [-> | ->]]]; try reflexivity; destruct e2; try reflexivity; congruence.
Qed.
Ltac both_ r1 r2 n D a b r1' r2' D' := 
    destruct (readFull_pair n r1 r2 D) as [[? D'] | (? & ? & ? & ? & ?)]; destruct (readFull rdr_read n r1) as [a r1'], (readFull rdr_read n r2) as [b r2']; cbn [fst snd] in *; subst; [|right; eexists _, _; split; [reflexivity | split; [reflexivity | eassumption]]].
Lemma readLength_pair r1 r2 : same r1 r2 -> pair_ (readLength rdr_read r1) (readLength rdr_read r2).
Proof.
  intro H. unfold readLength. both_ r1 r2 1 H a b r1' r2' D. destruct b as [[[|y [|]]|]|]; try (left; auto; fail). cbv zeta.
  destruct (b2n y <? 192); [left; auto|]. destruct (b2n y <? 224).
  - both_ r1' r2' 1 D a2 b2 r3 r4 D2. destruct b2 as [[[|y2 [|]]|]|]; left; auto.
  - destruct (b2n y <? 255); [left; auto|]. both_ r1' r2' 4 D a2 b2 r3 r4 D2. destruct b2 as [[|]|]; left; auto.
Qed.
Lemma readHeader_pair r1 r2 : same r1 r2 -> pair_ (readHeader rdr_read r1) (readHeader rdr_read r2).
Proof.
  intro H. unfold readHeader. destruct (read_full_pair 1 1 [] _ _ H) as [[F D] | (e1 & e2 & F1 & F2 & A)];
    destruct (read_full rdr_read 1 1 [] r1) as [a r1'], (read_full rdr_read 1 1 [] r2) as [b r2']; cbn [fst snd] in *; subst; [|right; eexists _, _; split; [reflexivity | split; [reflexivity | eassumption]]].
  destruct b as [[[|y [|]]|]|]; try (left; auto; fail). cbv zeta. destruct (N.land (b2n y) 128 =? 0); [left; auto|]. destruct (N.land (b2n y) 64 =? 0).
  - destruct (N.land (b2n y) 3 =? 3); [left; auto|]. both_ r1' r2' (2 ^ N.land (b2n y) 3) D a2 b2 r3 r4 D2. destruct b2 as [[|]|]; left; auto.
  - destruct (readLength_pair _ _ D) as [[F D2] | (e1 & e2 & F1 & F2 & A)]; destruct (readLength rdr_read r1') as [a2 r1''], (readLength rdr_read r2') as [b2 r2'']; cbn [fst snd] in *; subst; [|right; eexists _, _; split; [reflexivity | split; [reflexivity | eassumption]]].
    destruct b2 as [[[? []]|]|]; left; auto.
Qed.
Definition cpair (a b : (bytes * rout (option rerr)) * (cont * reader)) : Prop :=
  (fst a = fst b /\ fst (snd a) = fst (snd b) /\ same (snd (snd a)) (snd (snd b)))
  \/ exists l1 l2 e1 e2, fst a = (l1, Some (inl (Some e1))) /\ fst b = (l2, Some (inl (Some e2))) /\ akin e1 e2.
Ltac eofs A := right; eexists _, _, _, _; (split; [|split; [|exact A]]); destruct A as [[-> ?]|[[-> | ->] [-> | ->]]]; try reflexivity; match goal with |- context [match ?e with RBareEof => _ | _ => _ end] => destruct e end; try reflexivity; congruence.
Lemma cread_go_pair n rem part r1 r2 : same r1 r2 -> cpair (cread_go rdr_read n rem part r1) (cread_go rdr_read n rem part r2).
Proof.
  intro H. unfold cread_go. cbv zeta. destruct (rdr_pair (N.min n rem) r1 r2 H) as [(b & r1' & r2' & -> & -> & H') | (e1 & e2 & r1' & r2' & -> & -> & A)]; [left; auto|]. eofs A.
Qed.
Lemma cread_pair n c r1 r2 : same r1 r2 -> cpair (cread rdr_read n (c, r1)) (cread rdr_read n (c, r2)).
Proof.
  intro H. destruct c as [|k|rem part]; unfold cread.
  - destruct (rdr_pair n r1 r2 H) as [(b & r1' & r2' & -> & -> & H') | (e1 & e2 & r1' & r2' & -> & -> & A)]; [left; auto|]. right. exists [], [], e1, e2. auto.
  - destruct (k =? 0); [left; auto|]. destruct (rdr_pair (N.min n k) r1 r2 H) as [(b & r1' & r2' & -> & -> & H') | (e1 & e2 & r1' & r2' & -> & -> & A)]; [left; auto|]. eofs A.
  - destruct (rem =? 0).
    + destruct part; [|left; auto]. destruct (readLength_pair _ _ H) as [[F D2] | (e1 & e2 & F1 & F2 & A)]; destruct (readLength rdr_read r1) as [a2 r1''], (readLength rdr_read r2) as [b2 r2'']; cbn [fst snd] in *; subst.
      * destruct b2 as [[[len p']|e]|]; [|left; auto..]. destruct (len =? 0); [left; auto|]. apply (cread_go_pair n len p' _ _ D2).
      * right. exists [], [], e1, e2. auto.
    + apply (cread_go_pair n rem part _ _ H).
Qed.
Lemma read_all_pair grow fuel : forall cap acc c r1 r2, same r1 r2 ->
  (exists y c1 c2 r1' r2', read_all rdr_read grow fuel cap acc (c, r1) = (y, (c1, r1')) /\ read_all rdr_read grow fuel cap acc (c, r2) = (y, (c2, r2')) /\ same r1' r2') \/
  (exists e1 e2 k1 k2, read_all rdr_read grow fuel cap acc (c, r1) = (Some (inr e1), k1) /\ read_all rdr_read grow fuel cap acc (c, r2) = (Some (inr e2), k2) /\ akin e1 e2).
Proof.
  induction fuel as [|fuel IH]; intros cap acc c r1 r2 H; cbn [read_all]; [left; eauto 10|]. cbv zeta. set (n := _ - lenN acc).
  destruct (cread_pair n c r1 r2 H) as [(F1 & F2 & F3) | (l1 & l2 & e1 & e2 & F1 & F2 & A)]; destruct (cread rdr_read n (c, r1)) as [[b1 x1] [c1 r1']], (cread rdr_read n (c, r2)) as [[b2 x2] [c2 r2']]; cbn [fst snd] in *.
  - injection F1 as -> ->. subst c2. destruct x2 as [[[e|]|e]|]; [destruct e; left; eauto 10 | apply IH, F3 | left; eauto 10 | left; eauto 10].
  - injection F1 as -> ->. injection F2 as -> ->. right. destruct A as [[-> N]|[[-> | ->] [-> | ->]]].
    + destruct e2; try congruence; eexists _, _, _, _; (split; [reflexivity|]); (split; [reflexivity|]); left; split; (reflexivity || discriminate).
    + eexists _, _, _, _; (split; [reflexivity|]); (split; [reflexivity|]); unfold akin; auto.
    + eexists _, _, _, _; (split; [reflexivity|]); (split; [reflexivity|]); unfold akin; auto.
    + eexists _, _, _, _; (split; [reflexivity|]); (split; [reflexivity|]); unfold akin; auto.
    + eexists _, _, _, _; (split; [reflexivity|]); (split; [reflexivity|]); unfold akin; auto.
Qed.
Lemma next_packet_pair grow fuel r1 r2 : same r1 r2 -> pair_ (next_packet rdr_read grow fuel r1) (next_packet rdr_read grow fuel r2).
Proof.
  intro H. unfold next_packet. destruct (readHeader_pair _ _ H) as [[F D] | (e1 & e2 & F1 & F2 & A)]; destruct (readHeader rdr_read r1) as [a r1'], (readHeader rdr_read r2) as [b r2']; cbn [fst snd] in *; subst; [|right; eexists _, _; split; [reflexivity | split; [reflexivity | eassumption]]].
  destruct b as [[[tag c]|e]|]; [|left; auto..]. destruct (read_all_pair grow fuel 512 [] c _ _ D) as [(y & c1 & c2 & r3 & r4 & -> & -> & S) | (e1 & e2 & [c1 k1] & [c2 k2] & -> & -> & A)].
  - left. destruct y as [[b|e]|]; auto.
  - right. exists e1, e2. auto.
Qed.
Lemma next_packet_more grow fuel k r v r' : next_packet rdr_read grow fuel r = (Some v, r') -> next_packet rdr_read grow (fuel + k) r = (Some v, r').
Proof.
  unfold next_packet. destruct (readHeader rdr_read r) as [[[[tag c]|e]|] r1]; try congruence. destruct (read_all rdr_read grow fuel 512 [] (c, r1)) as [[y|] [c2 r2]] eqn:R; [|discriminate].
  rewrite (read_all_more grow fuel k _ _ _ _ _ R). auto.
Qed.

(** What is left at the end of a key block is taken for its end. *)
Definition dropped (E : env) (q : bytes) : bool :=
  match next_packet rdr_read (e_grow E) (S (S (length q))) (r_new q) with
  | (Some (inr e), _) => match rerr_err e with EEof => true | _ => false end
  | _ => false
  end.
(** A body of indeterminate length that never ends well: octets are missing. *)
Lemma raw_early grow : int_sizes grow -> forall F cap acc r e cs, posn r -> lenN acc <= cap -> cap < 2 ^ 62 -> lenN acc + lenN (remaining r) < 2 ^ 32 ->
  read_all rdr_read grow F cap acc (CRaw, r) = (Some (inr e), cs) -> tells (rerr_err e) Ends_early.
Proof.
  intro G. induction F as [|F IH]; intros cap acc r e cs P LC CB LA H; cbn [read_all] in H; [discriminate|]. cbv zeta in H.
  set (cap' := if lenN acc <? cap then cap else N.max (cap + 1) (grow cap)) in *.
  assert (lenN acc < cap' /\ cap' < 2 ^ 62) as [C1 C2].
  { unfold cap'. destruct (lenN acc <? cap) eqn:Q; [lia|]. assert (cap < 2 ^ 32) as S by lia. specialize (G cap S). change (2 ^ 32) with 4294967296 in *. change (2 ^ 62) with 4611686018427387904 in *. lia. }
  unfold cread in H. destruct (N.leb_spec (cap' - lenN acc) (lenN (remaining r))) as [LE|GT].
  - destruct (rdr_enough _ _ LE P) as (b & r' & X & LB & D & P'). rewrite X in H. apply IH in H; [exact H | exact P' | rewrite lenN_app; lia | exact C2 |].
    rewrite lenN_app. rewrite D, lenN_app in LA. lia.
  - rewrite (rdr_less _ _ GT ltac:(lia) P) in H. destruct (is_nil (remaining r)); injection H as <- _; cbn; auto.
Qed.
Lemma next_rd_raw_early E tag body s : int_sizes (e_grow E) -> tag < 16 -> lenN body < 2 ^ 32 -> posn (s_rd s) -> remaining (s_rd s) = n2b (131 + 4 * tag) :: body ->
  exists r' y, next_rd E s = (y, mkSt r' (s_cs s) (s_cur s)) /\ (y = ROk None \/ exists e, tells e Ends_early /\ y = RErr e).
Proof.
  intros G T L P D. pose proof (posn_fuel (e_grow E) _ P) as FU. unfold next_rd, next_packet, readHeader in *.
  destruct (first_octet _ _ _ P D) as (r1 & R & D1 & P1). rewrite R in *. cbv zeta in *. rewrite b2n_n2b_small in * by lia.
  destruct (old_header tag 3 T ltac:(lia)) as (H1 & H2 & H3 & H4). replace (131 + 4 * tag) with (128 + 3 + 4 * tag) in * by lia.
  rewrite H1, H2, H3, H4 in *. change (3 =? 3) with true in *. cbv iota in *.
  destruct (read_all rdr_read (e_grow E) (S (S (length (r_buf (s_rd s))))) 512 [] (CRaw, r1)) as [[[b|e]|] [c2 r2]] eqn:RA.
  - exfalso. exact (read_all_never _ _ _ _ _ _ _ RA).
  - pose proof (raw_early (e_grow E) G _ 512 [] r1 e _ P1 ltac:(discriminate) ltac:(reflexivity) ltac:(change (lenN (@nil byte)) with 0; rewrite D1; lia) RA) as K.
    exists r2. destruct (rerr_err e); eexists; (split; [reflexivity|]); eauto.
  - exfalso. apply FU. reflexivity.
Qed.
Definition tail_reason (q : bytes) : reason := match q with h :: _ => if b2n h <? 128 then Malformed else Ends_early | [] => Ends_early end.
Lemma next_rd_tail E B q cs it : int_sizes (e_grow E) -> suf B q -> lenN q < 2 ^ 32 -> (exists h t, q = h :: t /\ first_packet q = None) ->
  exists r, (if dropped E q then next_rd E (sat B q cs it) = (ROk None, mkSt r cs it) else exists e, tells e (tail_reason q) /\ next_rd E (sat B q cs it) = (RErr e, mkSt r cs it)).
Proof.
  intros GS SF LQ (h & t & Q & N). pose proof (suf_len _ _ SF) as [U1 U2].
  assert (exists e r, next_rd E (sat B q cs it) = (e, mkSt r cs it) /\ (e = ROk None \/ exists x, tells x (tail_reason q) /\ e = RErr x)) as (e & r & R & K).
  { subst q. destruct (posn_at _ _ SF) as [P D]. destruct (first_packet_none h t N) as [G|[(tag & T & ->)|(tag & body & x & F & NX & BX)]].
    - destruct (next_rd_bad E h t (sat B (h :: t) cs it) G P D) as (r & R). exists (RErr EStruct), r. split; [exact R|]. right. exists EStruct. split; [|reflexivity]. unfold tail_reason. replace (b2n h <? 128) with true by lia. reflexivity.
    - rewrite lenN_cons in LQ. destruct (next_rd_raw_early E tag t (sat B (n2b (131 + 4 * tag) :: t) cs it) GS T ltac:(lia) P D) as (r & y & R & Y). exists y, r. split; [exact R|].
      unfold tail_reason. rewrite b2n_n2b_small by lia. replace (131 + 4 * tag <? 128) with false by lia. exact Y.
    - destruct (next_rd_short E tag body (h :: t) x (sat B (h :: t) cs it) F NX) as (r & [R|R]); [ | exact P | exact D | exists (ROk None), r; auto | exists (RErr EUnexp), r; split; [exact R|]; right; exists EUnexp; split; [|reflexivity]].
      1: rewrite lenZ_app. all: swap 1 2.
      { unfold tail_reason. destruct (b2n h <? 128) eqn:H8; [|right; reflexivity]. exfalso. destruct (next_rd_bad E h t (sat B (h :: t) cs it) ltac:(lia) P D) as (r3 & R3). rewrite R3 in R. discriminate R. }
      unfold cut_bound in BX. unfold lenN, lenZ in *. lia. }
  exists r. rewrite R. unfold dropped. rewrite at_new. assert (suf q q) as SQ by (apply suf_refl; lia).
  pose proof (posn_fuel (e_grow E) (at_ B q) (proj1 (posn_at _ _ SF))) as F1. pose proof (posn_fuel (e_grow E) (at_ q q) (proj1 (posn_at _ _ SQ))) as F2.
  unfold next_rd in R. cbn [sat s_rd s_cs s_cur] in *. cbn [at_ r_buf] in F1, F2, R.
  destruct (next_packet rdr_read (e_grow E) (S (S (length B))) (at_ B q)) as [[v1|] r1] eqn:N1; [|exfalso; apply F1; reflexivity]. clear F1.
  destruct (next_packet rdr_read (e_grow E) (S (S (length q))) (at_ q q)) as [[v2|] r2] eqn:N2; [|exfalso; apply F2; reflexivity]. clear F2.
  apply next_packet_more with (k := S (S (length q))) in N1. apply next_packet_more with (k := S (S (length B))) in N2. rewrite Nat.add_comm in N2.
  assert (same (at_ B q) (at_ q q)) as SM by (split; [|split]; [apply posn_at, SF | apply posn_at, SQ | rewrite !remaining_at by assumption; reflexivity]).
  pose proof (next_packet_pair (e_grow E) (S (S (length B)) + S (S (length q))) _ _ SM) as PR. rewrite N1, N2 in PR.
  destruct PR as [[FE _]|(e1 & e2 & F1 & F2 & A)]; cbn [fst] in *.
  - injection FE as ->. destruct v2 as [p|x]; [injection R as <- _; destruct K as [K|(y & _ & K)]; discriminate K|]. destruct (rerr_err x) eqn:X; injection R as <- <-; try reflexivity;
      (destruct K as [K|(y & TK & K)]; [discriminate K | injection K as <-; eexists; split; [exact TK | reflexivity]]).
  - injection F1 as ->. injection F2 as ->. destruct A as [[-> _]|[[-> | ->] [-> | ->]]]; cbn [rerr_err] in *; [destruct (rerr_err e2) eqn:X|..]; injection R as <- <-; try reflexivity;
      (destruct K as [K|(y & TK & K)]; [discriminate K | injection K as <-; eexists; split; [exact TK | reflexivity]]).
Qed.

(** ** When the tail of a key block is dropped *)
Definition ends_eof {A} (x : rout A) : bool := match x with Some (inr e) => match rerr_err e with EEof => true | _ => false end | _ => false end.
Lemma rdr_out n r : posn r -> lenN (remaining r) < n -> n < 2 ^ 63 ->
  exists e, rdr_read n r = (([], Some e), r) /\ e <> RBareEof /\ ends_eof (@Some (unit + rerr) (inr e)) = is_nil (remaining r).
Proof.
  intros (B & rest & SF & ->) L Q. rewrite remaining_at in * by assumption. pose proof (suf_len _ _ SF) as [U1 U2]. unfold rdr_read. replace (2 ^ 63 <=? n) with false by lia.
  unfold r_read, r_readbytes, r_size, at_. cbn [r_buf r_off]. replace (Z.of_N n =? 0)%Z with false by lia. destruct rest as [|c rest].
  - replace (lenZ B - lenZ [] >=? lenZ B)%Z with true by (change (lenZ []) with 0%Z; lia). eexists. split; [reflexivity|]. split; [discriminate | reflexivity].
  - assert (0 < lenZ (c :: rest))%Z by (unfold lenZ; cbn [length]; lia). replace (lenZ B - lenZ (c :: rest) >=? lenZ B)%Z with false by lia. cbn [is_nil].
    destruct (wrap64 (lenZ B - lenZ (c :: rest) + Z.of_N n) >? lenZ B)%Z eqn:W; [eexists; split; [reflexivity | split; [discriminate | reflexivity]]|].
    match goal with |- context [if ?a || ?b then _ else _] => destruct (a || b) eqn:W2 end; [eexists; split; [reflexivity | split; [discriminate | reflexivity]]|]. exfalso. unfold wrap64 in *. unfold lenN, lenZ in *. lia.
Qed.
Lemma readFull_enough d t r : posn r -> remaining r = d ++ t -> exists r', readFull rdr_read (lenN d) r = (Some (inl d), r') /\ remaining r' = t /\ posn r'.
Proof.
  intros P D. unfold readFull. destruct (read_full_ok rdr_read remaining posn rdr_good (N.to_nat (lenN d)) [] d t r P D ltac:(unfold lenN; lia)) as (r' & R & D' & P').
  cbn [app] in R. rewrite R. exists r'. auto.
Qed.
Lemma readFull_less n r : posn r -> lenN (remaining r) < n -> n < 2 ^ 62 -> exists e, readFull rdr_read n r = (Some (inr e), r) /\ e <> RBareEof /\ ends_eof (@Some (unit + rerr) (inr e)) = is_nil (remaining r).
Proof.
  intros P L Q. unfold readFull. replace (N.to_nat n) with (S (N.to_nat (n - 1))) by lia. cbn [read_full]. change (lenN []) with 0. replace (n <=? 0) with false by lia. rewrite N.sub_0_r.
  destruct (rdr_out n r P L ltac:(lia)) as (e & -> & NB & EE). cbn [app]. replace (n <=? lenN []) with false by (change (lenN []) with 0; lia). exists e. split; [destruct e; try reflexivity; congruence | auto].
Qed.
(** What is read next fits what is to come. *)
Definition kin (c : cont) (part : N) (more : bool) (got : N) : Prop :=
  match c with CPart p m => p = part /\ m = more | CSpan p => p = part /\ more = false | CRaw => more = false /\ 2 ^ 64 <= part + got end.
Lemma cread_piece c part more got n r : kin c part more got -> posn r -> part <> 0 -> 0 < n -> n < 2 ^ 63 -> got + lenN (remaining r) < 2 ^ 32 ->
  if N.min n part <=? lenN (remaining r)
  then exists b c' r', cread rdr_read n (c, r) = ((b, Some (inl None)), (c', r')) /\ lenN b = N.min n part /\ remaining r = b ++ remaining r' /\ posn r' /\ kin c' (part - N.min n part) more (got + N.min n part)
  else exists e x, cread rdr_read n (c, r) = (([], Some (inl (Some e))), x) /\ e <> RBareEof /\ ends_eof (@Some (unit + rerr) (inr e)) = is_nil (remaining r).
Proof.
  intros K P PN N0 N63 LG. assert (forall m, m < 2 ^ 63 -> m = N.min n part -> if m <=? lenN (remaining r)
    then exists b r', rdr_read m r = ((b, None), r') /\ lenN b = m /\ remaining r = b ++ remaining r' /\ posn r'
    else exists e, rdr_read m r = (([], Some e), r) /\ e <> RBareEof /\ ends_eof (@Some (unit + rerr) (inr e)) = is_nil (remaining r)) as RD.
  { intros m M63 _. destruct (m <=? lenN (remaining r)) eqn:Q; [apply rdr_enough; [lia | exact P] | apply rdr_out; [exact P | lia | exact M63]]. }
  specialize (RD (N.min n part) ltac:(lia) eq_refl). destruct c as [|p|p m]; cbn [kin cread] in *.
  - destruct K as [-> K]. replace (N.min n part) with n in * by lia. destruct (n <=? lenN (remaining r)) eqn:Q.
    + destruct RD as (b & r' & -> & L & D & P'). exists b, CRaw, r'. split; [reflexivity|]. split; [exact L|]. split; [exact D|]. split; [exact P'|]. split; [reflexivity | lia].
    + destruct RD as (e & -> & NB & EE). eexists e, _. split; [reflexivity | auto].
  - destruct K as [-> ->]. replace (part =? 0) with false by lia. destruct (N.min n part <=? lenN (remaining r)).
    + destruct RD as (b & r' & -> & L & D & P'). exists b, (CSpan (part - N.min n part)), r'. rewrite L. cbn [kin]. auto 10.
    + destruct RD as (e & -> & NB & EE). eexists e, _. split; [destruct e; try reflexivity; congruence | auto].
  - destruct K as [-> ->]. replace (part =? 0) with false by lia. destruct (N.min n part <=? lenN (remaining r)).
    + destruct RD as (b & r' & -> & L & D & P'). exists b, (CPart (part - N.min n part) more), r'. rewrite L. cbn [kin]. auto 10.
    + destruct RD as (e & -> & NB & EE). eexists e, _. split; [destruct e; try reflexivity; congruence | auto].
Qed.
Lemma read_all_length grow f cap acc r : 
  read_all rdr_read grow (S f) cap acc (CPart 0 true, r) =
  match readLength rdr_read r with
  | (Some (inl (len, part')), r1) => if len =? 0 then (Some (inl (acc ++ [])), (CPart 0 part', r1)) else read_all rdr_read grow (S f) cap acc (CPart len part', r1)
  | (Some (inr RBareEof), r1) => (Some (inl (acc ++ [])), (CPart 0 true, r1))
  | (Some (inr e), r1) => (Some (inr e), (CPart 0 true, r1))
  | (None, r1) => (None, (CPart 0 true, r1))
  end.
Proof.
  cbn [read_all]. cbv zeta. cbn [cread]. change (0 =? 0) with true. cbv iota. destruct (readLength rdr_read r) as [[[[len p]|e]|] r1]; [|destruct e; reflexivity | reflexivity].
  destruct (len =? 0) eqn:Q; reflexivity.
Qed.
Lemma asked_ok grow fuel : int_sizes grow -> forall F c cap acc part more r, kin c part more (lenN acc) -> posn r -> (length (remaining r) < fuel)%nat -> (length (remaining r) < F)%nat ->
  lenN acc <= cap -> cap < 2 ^ 63 -> lenN acc + lenN (remaining r) < 2 ^ 32 ->
  ends_eof (fst (read_all rdr_read grow F cap acc (c, r))) = asked_at_end grow fuel cap (lenN acc) part more (remaining r).
Proof.
  intro G. induction fuel as [|fuel IH]; intros F c cap acc part more r K P LF LF2 LC CB LA; [lia|]. destruct F as [|F]; [lia|].
  destruct (part =? 0) eqn:P0.
  - assert (part = 0) as -> by lia. cbn [asked_at_end]. change (0 =? 0) with true. cbv iota. destruct more.
    + destruct c as [|p|p m]; cbn [kin] in K; [destruct K; discriminate | destruct K; discriminate | destruct K as [-> ->]]. rewrite read_all_length. unfold readLength.
      destruct (remaining r) as [|a t] eqn:D.
      * destruct (readFull_less 1 r P) as (e & -> & NB & EE); [rewrite D; reflexivity | reflexivity|]. rewrite D in EE. destruct e; try congruence; exact EE.
      * destruct (readFull_enough [a] t r P D) as (r1 & R1 & D1 & P1). change (lenN [a]) with 1 in R1. rewrite R1. cbv zeta.
        rewrite !lenN_cons in LA. cbn [length] in LF, LF2.
        assert (forall n m r2, posn r2 -> (length (remaining r2) <= length t)%nat -> ends_eof (fst (if n =? 0 then (Some (inl (acc ++ [])), (CPart 0 m, r2)) else read_all rdr_read grow (S F) cap acc (CPart n m, r2))) =
          (if n =? 0 then false else asked_at_end grow fuel cap (lenN acc) n m (remaining r2))) as GO.
        { intros n m r2 P2 L2. destruct (n =? 0); [reflexivity|]. apply IH; [split; reflexivity | exact P2 | lia | lia | exact LC | exact CB | unfold lenN in *; lia]. }
        assert (forall f g x y l, asked_at_end g (S f) x y 0 false l = false) as Z0 by (intros f g x y [|]; reflexivity).
        assert (forall n l, (length l < fuel)%nat -> (if n =? 0 then false else asked_at_end grow fuel cap (lenN acc) n false l) = asked_at_end grow fuel cap (lenN acc) n false l) as Z1.
        { intros n l L. destruct (n =? 0) eqn:Q; [|reflexivity]. replace n with 0 by lia. destruct fuel; [lia | symmetry; apply Z0]. }
        cbn [negb]. destruct (b2n a <? 192); [rewrite GO by (rewrite ?D1; auto); rewrite D1; apply Z1; lia|]. destruct (b2n a <? 224) eqn:A224.
        -- destruct t as [|b t].
           ++ destruct (readFull_less 1 r1 P1) as (e & -> & NB & EE); [rewrite D1; reflexivity | reflexivity|]. rewrite D1 in EE. destruct e; try congruence; exact EE.
           ++ destruct (readFull_enough [b] t r1 P1 D1) as (r2 & R2 & D2 & P2). change (lenN [b]) with 1 in R2. rewrite R2. rewrite N.add_assoc. rewrite GO by (rewrite ?D2; cbn [length]; auto).
              rewrite D2. cbn [length] in LF. apply Z1. lia.
        -- replace (b2n a =? 255) with (negb (b2n a <? 255)) by (pose proof (b2n_lt a); lia). destruct (b2n a <? 255) eqn:A255; cbn [negb].
           ++ assert (N.land (b2n a) 31 = b2n a - 224) as -> by (revert A224 A255; clear; destruct a; try reflexivity; intros A B; vm_compute in A, B; discriminate).
              rewrite GO by (rewrite ?D1; auto). rewrite D1. replace (2 ^ (b2n a - 224) =? 0) with false; [reflexivity|]. symmetry. apply N.eqb_neq. apply N.pow_nonzero. discriminate.
           ++ destruct t as [|b [|c [|d [|e u]]]].
              1: destruct (readFull_less 4 r1 P1) as (x & -> & NB & EE); [rewrite D1; reflexivity | reflexivity|]; rewrite D1 in EE; destruct x; try congruence; exact EE.
              1-3: destruct (readFull_less 4 r1 P1) as (x & -> & NB & EE); [rewrite D1; reflexivity | reflexivity|]; rewrite D1 in EE; destruct x; try congruence; exact EE.
              destruct (readFull_enough [b; c; d; e] u r1 P1 D1) as (r2 & R2 & D2 & P2). change (lenN [b; c; d; e]) with 4 in R2. rewrite R2. rewrite GO by (rewrite ?D2; cbn [length]; auto with arith).
              rewrite D2. cbn [length] in LF. apply Z1. lia.
    + cbn [negb]. assert (ends_eof (fst (read_all rdr_read grow (S F) cap acc (c, r))) = false) as ->; [|destruct (remaining r); reflexivity].
      cbn [read_all]. cbv zeta. destruct c as [|p|p m]; cbn [kin] in K.
      * destruct K as [_ K]. lia.
      * destruct K as [-> _]. reflexivity.
      * destruct K as [-> ->]. reflexivity.
  - cbn [asked_at_end]. rewrite P0. cbn [negb orb]. set (cap' := if lenN acc <? cap then cap else N.max (cap + 1) (grow cap)).
    assert (cap' < 2 ^ 63 /\ lenN acc < cap') as [C63 CA].
    { unfold cap'. destruct (lenN acc <? cap) eqn:Q; [lia|]. specialize (G cap ltac:(lia)). lia. }
    pose proof (cread_piece c part more (lenN acc) (cap' - lenN acc) r K P ltac:(lia) ltac:(lia) ltac:(lia) LA) as CP. cbn [read_all]. cbv zeta. fold cap'. set (n := N.min (cap' - lenN acc) part) in *.
    assert (0 < n) as N0 by (unfold n; lia). destruct (n <=? lenN (remaining r)) eqn:Q.
    + destruct CP as (b & c' & r' & -> & LB & D & P' & K'). rewrite (IH F c' cap' (acc ++ b) (part - n) more r').
      * assert (lenN (acc ++ b) = lenN acc + n) as -> by (unfold lenN in *; rewrite app_length; lia).
        assert (remaining r' = skipn (N.to_nat n) (remaining r)) as -> by (rewrite D; destruct (take_app n b (remaining r') LB) as (_ & -> & _); reflexivity).
        destruct (remaining r) as [|a t]; [change (lenN []) with 0 in Q; lia | reflexivity].
      * assert (lenN (acc ++ b) = lenN acc + n) as -> by (unfold lenN in *; rewrite app_length; lia). exact K'.
      * exact P'.
      * apply (f_equal (@length byte)) in D. rewrite app_length in D. unfold lenN in LB. lia.
      * apply (f_equal (@length byte)) in D. rewrite app_length in D. unfold lenN in LB. lia.
      * unfold lenN in *. rewrite app_length. unfold n in LB. lia.
      * exact C63.
      * apply (f_equal (@length byte)) in D. rewrite app_length in D. unfold lenN in *. rewrite app_length. lia.
    + destruct CP as (e & x & -> & NB & EE). destruct (remaining r) as [|a t]; destruct e; try congruence; exact EE.
Qed.
Lemma readFull_cases n r : posn r -> 0 < n -> n < 2 ^ 62 ->
  (exists b r', readFull rdr_read n r = (Some (inl b), r') /\ posn r' /\ (length (remaining r') <= length (remaining r))%nat) \/ (exists e, readFull rdr_read n r = (Some (inr e), r) /\ e <> RBareEof).
Proof.
  intros P N0 N62. destruct (N.le_gt_cases n (lenN (remaining r))) as [H|H].
  - left. assert (lenN (firstn (N.to_nat n) (remaining r)) = n) as LN by (unfold lenN in *; rewrite firstn_length; lia).
    destruct (readFull_enough (firstn (N.to_nat n) (remaining r)) (skipn (N.to_nat n) (remaining r)) r P) as (r' & R & D & P'); [symmetry; apply firstn_skipn|]. rewrite LN in R.
    eexists _, r'. split; [exact R|]. split; [exact P'|]. rewrite D, skipn_length. lia.
  - right. destruct (readFull_less n r P H N62) as (e & R & NB & _). eauto.
Qed.
Lemma readLength_cases r : posn r ->
  match readLength rdr_read r with
  | (Some (inl (len, more)), r') => posn r' /\ (length (remaining r') <= length (remaining r))%nat /\ (more = true -> len <> 0)
  | (Some (inr e), _) => e <> RBareEof
  | (None, _) => True
  end.
Proof.
  intro P. unfold readLength. destruct (readFull_cases 1 r P ltac:(lia) ltac:(reflexivity)) as [(b & r1 & -> & P1 & L1)|(e & -> & NB)]; [|exact NB].
  destruct b as [|a [|]]; try exact I. cbv zeta. destruct (b2n a <? 192); [split; [exact P1|]; split; [exact L1 | discriminate]|]. destruct (b2n a <? 224).
  - destruct (readFull_cases 1 r1 P1 ltac:(lia) ltac:(reflexivity)) as [(b & r2 & -> & P2 & L2)|(e & -> & NB)]; [|exact NB]. destruct b as [|c [|]]; try exact I. split; [exact P2|]. split; [lia | discriminate].
  - destruct (b2n a <? 255); [split; [exact P1|]; split; [exact L1|]; intros _; apply N.pow_nonzero; discriminate|].
    destruct (readFull_cases 4 r1 P1 ltac:(lia) ltac:(reflexivity)) as [(b & r2 & -> & P2 & L2)|(e & -> & NB)]; [|exact NB]. split; [exact P2|]. split; [lia | discriminate].
Qed.
Lemma dropped_lost E h t : int_sizes (e_grow E) -> lenN (h :: t) < 2 ^ 32 -> dropped E (h :: t) = lost (e_grow E) (h :: t).
Proof.
  intros G L. assert (suf (h :: t) (h :: t)) as SQ by (apply suf_refl; unfold lenN, lenZ in *; lia). unfold dropped. rewrite at_new.
  transitivity (ends_eof (fst (next_packet rdr_read (e_grow E) (S (S (length (h :: t)))) (at_ (h :: t) (h :: t))))); [destruct (next_packet _ _ _ _) as [[[]|]]; reflexivity|].
  destruct (posn_at _ _ SQ) as [P D]. unfold next_packet, readHeader.
  destruct (first_octet h t _ P D) as (r1 & -> & D1 & P1). cbv zeta. unfold lost. cbv zeta. pose proof (b2n_lt h) as HB. rewrite lenN_cons in L. set (F := S (S (length (h :: t)))).
  assert (forall tag c part more r l, kin c part more 0 -> posn r -> remaining r = l -> (length l <= length t)%nat ->
    ends_eof (fst (match read_all rdr_read (e_grow E) F 512 [] (c, r) with
                   | (Some (inl body), (_, s2)) => (Some (inl (tag, body)), s2) | (Some (inr e), (_, s2)) => (Some (inr e), s2) | (None, (_, s2)) => (None, s2) end : rout (N * bytes) * reader)) =
    asked_at_end (e_grow E) (S (length l)) 512 0 part more l) as RA.
  { intros tag c part more r l K PR <- LR. pose proof (asked_ok (e_grow E) (S (length (remaining r))) G F c 512 [] part more r K PR ltac:(lia) ltac:(unfold F; cbn [length]; lia) ltac:(discriminate) ltac:(reflexivity) ltac:(change (lenN (@nil byte)) with 0; unfold lenN in *; lia)) as H.
    change (lenN (@nil byte)) with 0 in H. rewrite <- H.
    destruct (read_all _ _ _ _ _ _) as [[[b|e]|] [c2 r2]]; reflexivity. }
  destruct (b2n h <? 128) eqn:H128.
  { assert (N.land (b2n h) 128 = 0) as -> by (revert H128; clear; destruct h; try reflexivity; intro B; vm_compute in B; discriminate). reflexivity. }
  destruct (192 <=? b2n h) eqn:H192.
  - assert (h = n2b (192 + (b2n h - 192))) as Hh by (replace (192 + (b2n h - 192)) with (b2n h) by lia; symmetry; apply n2b_b2n).
    assert (b2n h = 192 + (b2n h - 192)) as Hn by lia. rewrite Hn. destruct (new_header (b2n h - 192) ltac:(lia)) as (-> & -> & ->). clear Hh Hn.
    pose proof (RA (b2n h - 192) (CPart 0 true) 0 true r1 t (conj eq_refl eq_refl) P1 D1 (le_n _)) as H. rewrite <- H. clear H. unfold F. rewrite read_all_length.
    pose proof (readLength_cases r1 P1) as RC. rewrite D1 in RC. destruct (readLength rdr_read r1) as [[[[len [|]]|e]|] r2].
    + destruct RC as (P2 & L2 & NZ). replace (len =? 0) with false by (specialize (NZ eq_refl); lia). reflexivity.
    + destruct RC as (P2 & L2 & _). fold F. rewrite (RA (b2n h - 192) (CSpan len) len false r2 _ (conj eq_refl eq_refl) P2 eq_refl L2). destruct (len =? 0) eqn:Z.
      * replace len with 0 by lia. destruct (remaining r2); reflexivity.
      * symmetry. apply (RA (b2n h - 192) (CPart len false) len false r2 _ (conj eq_refl eq_refl) P2 eq_refl L2).
    + destruct e; try congruence; reflexivity.
    + reflexivity.
  - assert (exists tag lt, tag < 16 /\ lt < 4 /\ b2n h = 128 + lt + 4 * tag) as (tag & lt & T & LT & Hn) by (exists ((b2n h - 128) / 4), (b2n h mod 4); lia).
    rewrite Hn. destruct (old_header tag lt T LT) as (-> & -> & -> & ->). replace ((128 + lt + 4 * tag) mod 4) with lt by lia.
    assert (lt = 3 \/ lt = 0 \/ lt = 1 \/ lt = 2) as [-> | LL] by lia.
    + change (3 =? 3) with true. cbv iota. apply RA; [split; [reflexivity | discriminate] | exact P1 | exact D1 | lia].
    + replace (lt =? 3) with false by lia. destruct t as [|a t].
      * destruct (readFull_less (2 ^ lt) r1 P1) as (e & -> & NB & EE); [rewrite D1; change (lenN []) with 0; destruct LL as [->|[-> | ->]]; reflexivity | destruct LL as [->|[-> | ->]]; reflexivity|].
        rewrite D1 in EE. destruct LL as [->|[-> | ->]]; destruct e; try congruence; exact EE.
      * assert (forall d u, a :: t = d ++ u -> lenN d = 2 ^ lt -> ends_eof (fst (match
            (match readFull rdr_read (2 ^ lt) r1 with (Some (inl l), s2) => (Some (inl (tag, CSpan (be l))), s2) | (Some (inr e), s2) => (Some (inr e), s2) | (None, s2) => (None, s2) end : rout (N * cont) * reader) with
            | (Some (inl (tag0, c)), s1) => match read_all rdr_read (e_grow E) F 512 [] (c, s1) with
                | (Some (inl body), (_, s2)) => (Some (inl (tag0, body)), s2) | (Some (inr e), (_, s2)) => (Some (inr e), s2) | (None, (_, s2)) => (None, s2) end
            | (Some (inr e), s1) => (Some (inr e), s1) | (None, s1) => (None, s1) end : rout (N * bytes) * reader)) = asked_at_end (e_grow E) (S (length u)) 512 0 (be d) false u) as OK.
        { intros d u Q LD. rewrite Q in D1. destruct (readFull_enough d u r1 P1 D1) as (r2 & R2 & D2 & P2). rewrite LD in R2. rewrite R2. apply RA; [split; reflexivity | exact P2 | exact D2|].
          rewrite Q, app_length. lia. }
        assert (lenN (a :: t) < 2 ^ lt -> ends_eof (fst (match
            (match readFull rdr_read (2 ^ lt) r1 with (Some (inl l), s2) => (Some (inl (tag, CSpan (be l))), s2) | (Some (inr e), s2) => (Some (inr e), s2) | (None, s2) => (None, s2) end : rout (N * cont) * reader) with
            | (Some (inl (tag0, c)), s1) => match read_all rdr_read (e_grow E) F 512 [] (c, s1) with
                | (Some (inl body), (_, s2)) => (Some (inl (tag0, body)), s2) | (Some (inr e), (_, s2)) => (Some (inr e), s2) | (None, (_, s2)) => (None, s2) end
            | (Some (inr e), s1) => (Some (inr e), s1) | (None, s1) => (None, s1) end : rout (N * bytes) * reader)) = false) as NO.
        { intro LL2. destruct (readFull_less (2 ^ lt) r1 P1) as (e & -> & NB & EE); [rewrite D1; exact LL2 | destruct LL as [->|[-> | ->]]; reflexivity|]. rewrite D1 in EE. exact EE. }
        destruct LL as [->|[-> | ->]].
        -- specialize (OK [a] t eq_refl eq_refl). replace (be [a]) with (b2n a) in OK by (cbn; lia). exact OK.
        -- destruct t as [|b t]; [apply NO; reflexivity | apply (OK [a; b] t); reflexivity].
        -- destruct t as [|b [|c [|d t]]]; [apply NO; reflexivity | apply NO; reflexivity | apply NO; reflexivity | apply (OK [a; b; c; d] t); reflexivity].
Qed.
