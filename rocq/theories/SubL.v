(** * SubL: splitting and parsing sub-packet areas. *)
From Coq Require Import Strings.String Strings.Byte List NArith ZArith Bool Lia ZifyBool ZifyN ZifyNat.
From Verif Require Import Base BaseL SpecBase Item Reader ReaderL Context Env Values Opaque Monad MonadL Pubkey Subs Tags SubParse.
From Verif Require Import SpecValues ValuesL SpecPacket ReadsL PacketL TagL SpecSub FramingL.
Import ListNotations.
Local Open Scope N_scope.

(** ** Splitting *)
Lemma wrap32_small n : n < 2 ^ 32 -> wrap32 n = n.
Proof. intro H. unfold wrap32. apply N.mod_small, H. Qed.

Definition fin_sub (sublen : N) (l : bytes) : option (subpkt * bytes) :=
  if (wrap32 (lenN l) <? sublen) || (sublen =? 0) then None else
  match l with
  | [] => None
  | ty :: t => Some ((ty, firstn (N.to_nat (sublen - 1)) t), skipn (N.to_nat (sublen - 1)) t)
  end.

Lemma fin_sub_ok ty body rest : lenN (ty :: body ++ rest) < 2 ^ 32 ->
  fin_sub (1 + lenN body) (ty :: body ++ rest) = Some ((ty, body), rest).
Proof.
  intro L. unfold fin_sub. rewrite wrap32_small by assumption.
  assert (lenN (ty :: body ++ rest) = 1 + lenN body + lenN rest) as -> by (unfold lenN; cbn [length]; rewrite app_length; lia).
  match goal with |- (if ?c then _ else _) = _ => replace c with false by lia end.
  replace (N.to_nat (1 + lenN body - 1)) with (length body) by (unfold lenN; lia).
  rewrite firstn_app, firstn_all, skipn_app, skipn_all, Nat.sub_diag. cbn [firstn skipn app]. rewrite app_nil_r. reflexivity.
Qed.
Lemma fin_sub_inv n l ty body rest : lenN l < 2 ^ 32 -> fin_sub n l = Some ((ty, body), rest) ->
  l = ty :: body ++ rest /\ n = 1 + lenN body.
Proof.
  intro L. unfold fin_sub. rewrite wrap32_small by assumption. destruct ((lenN l <? n) || (n =? 0)) eqn:C; [discriminate|].
  destruct l as [|x t]; [discriminate|]. intro H. injection H as <- <- <-.
  rewrite firstn_skipn. split; [reflexivity|]. unfold lenN in *. cbn [length] in *. rewrite firstn_length. lia.
Qed.

Lemma next_subpacket_eq l : next_subpacket l =
  match l with
  | [] => None
  | b0 :: t0 =>
    if b2n b0 <? 192 then fin_sub (b2n b0) t0
    else if b2n b0 <? 255 then match t0 with b1 :: t1 => fin_sub ((b2n b0 - 192) * 256 + b2n b1 + 192) t1 | _ => None end
    else match t0 with a :: b :: c :: d :: t4 => fin_sub (be [a; b; c; d]) t4 | _ => None end
  end.
Proof.
  assert (forall n, fin_sub n [] = None) as F0 by (intro n; unfold fin_sub; destruct (_ || _); reflexivity).
  destruct l as [|b0 t0]; [reflexivity|]. unfold next_subpacket.
  destruct (b2n b0 <? 192); [destruct t0; [rewrite F0|]; reflexivity|].
  destruct (b2n b0 <? 255).
  - destruct t0 as [|b1 [|x t1]]; [reflexivity | rewrite F0; reflexivity | reflexivity].
  - destruct t0 as [|a [|b [|c [|d [|x t4]]]]]; try reflexivity. rewrite F0. reflexivity.
Qed.

Lemma two_octets n : 192 <= n < 16320 ->
  b2n (n2b (192 + (n - 192) / 256)) = 192 + (n - 192) / 256 /\ b2n (n2b ((n - 192) mod 256)) = (n - 192) mod 256 /\
  (192 + (n - 192) / 256 - 192) * 256 + (n - 192) mod 256 + 192 = n /\ 192 + (n - 192) / 256 < 255.
Proof.
  intro H. pose proof (N.div_mod (n - 192) 256 ltac:(lia)). pose proof (N.mod_upper_bound (n - 192) 256 ltac:(lia)).
  assert ((n - 192) / 256 < 63) by (apply N.div_lt_upper_bound; lia).
  rewrite !b2n_n2b_small by lia. repeat split; lia.
Qed.
Lemma four_octets n : n < 2 ^ 32 -> exists a b c d, be_enc 4 n = [a; b; c; d] /\ be [a; b; c; d] = n.
Proof.
  intro H. pose proof (be4 n H) as B. destruct (be_enc 4 n) as [|a [|b [|c [|d [|e t]]]]] eqn:X;
    try (apply (f_equal (@length byte)) in X; rewrite be_enc_length in X; cbn in X; lia).
  exists a, b, c, d. auto.
Qed.

Lemma next_sub_ok ty body len rest : sub_length (1 + lenN body) len -> lenN (len ++ ty :: body ++ rest) < 2 ^ 32 ->
  next_subpacket (len ++ ty :: body ++ rest) = Some ((ty, body), rest).
Proof.
  intros H L. assert (lenN (ty :: body ++ rest) < 2 ^ 32) as L' by (unfold lenN in *; rewrite app_length in L; lia).
  rewrite next_subpacket_eq. destruct H as [H|H|H].
  - cbn [app]. rewrite b2n_n2b_small by lia. replace (1 + lenN body <? 192) with true by lia. apply fin_sub_ok, L'.
  - destruct (two_octets _ H) as (H1 & H2 & H3 & H4). cbn [app]. rewrite H1, H2, H3.
    replace (_ <? 192) with false by lia. replace (_ <? 255) with true by lia. apply fin_sub_ok, L'.
  - destruct (four_octets _ H) as (a & b & c & d & X & B). rewrite X. cbn [app]. change (b2n xff) with 255. cbn [N.ltb N.compare Pos.compare Pos.compare_cont].
    rewrite B. apply fin_sub_ok, L'.
Qed.
Lemma next_sub_inv w ty body rest : lenN w < 2 ^ 32 -> next_subpacket w = Some ((ty, body), rest) ->
  exists len, sub_length (1 + lenN body) len /\ w = len ++ ty :: body ++ rest.
Proof.
  intro L. rewrite next_subpacket_eq. destruct w as [|b0 t0]; [discriminate|].
  destruct (b2n b0 <? 192) eqn:C1; [|destruct (b2n b0 <? 255) eqn:C2].
  - intro H. apply fin_sub_inv in H; [|unfold lenN in *; cbn [length] in L; lia]. destruct H as [-> H].
    exists [b0]. split; [|reflexivity]. rewrite <- (n2b_b2n b0), H. apply slen_one. lia.
  - destruct t0 as [|b1 t1]; [discriminate|]. intro H. apply fin_sub_inv in H; [|unfold lenN in *; cbn [length] in L; lia]. destruct H as [-> H].
    exists [b0; b1]. split; [|reflexivity]. pose proof (b2n_lt b1).
    assert (b2n b0 = 192 + (1 + lenN body - 192) / 256 /\ b2n b1 = (1 + lenN body - 192) mod 256) as [X Y].
    { rewrite <- H. replace ((b2n b0 - 192) * 256 + b2n b1 + 192 - 192) with (b2n b1 + (b2n b0 - 192) * 256) by lia.
      rewrite N.div_add, N.mod_add, N.div_small, N.mod_small by lia. lia. }
    rewrite <- (n2b_b2n b0), <- (n2b_b2n b1), X, Y. apply slen_two. lia.
  - destruct t0 as [|a [|b [|c [|d t4]]]]; try discriminate. intro H.
    apply fin_sub_inv in H; [|unfold lenN in *; cbn [length] in L; lia]. destruct H as [-> H].
    exists [b0; a; b; c; d]. split; [|reflexivity]. pose proof (b2n_lt b0). replace b0 with xff by (rewrite <- (n2b_b2n b0); replace (b2n b0) with 255 by lia; reflexivity).
    pose proof (be_lt [a; b; c; d]) as BL. change (256 ^ lenN [a; b; c; d]) with (2 ^ 32) in BL.
    replace [a; b; c; d] with (be_enc 4 (1 + lenN body)); [apply slen_five; lia|].
    rewrite <- H. apply (be_enc_be [a; b; c; d]).
Qed.

Lemma opaque_in l w : subs_in l w -> lenN w < 2 ^ 32 -> forall fuel, (length w <= fuel)%nat -> opaque_subpackets fuel w = (l, true).
Proof.
  induction 1 as [|ty body len l w HL H IH]; intros L fuel F.
  - destruct fuel; reflexivity.
  - assert (len ++ ty :: body ++ w <> []) as NE by (destruct len; discriminate).
    destruct fuel as [|fuel]; [rewrite app_length in F; cbn [length] in F; lia|]. cbn [opaque_subpackets].
    rewrite next_sub_ok by assumption. rewrite app_length in F. cbn [length] in F. rewrite app_length in F.
    rewrite IH; [|unfold lenN in *; rewrite app_length in L; cbn [length] in L; rewrite app_length in L; lia | lia].
    destruct (len ++ ty :: body ++ w); [congruence|reflexivity].
Qed.
Lemma opaque_out fuel : forall w l, lenN w < 2 ^ 32 -> opaque_subpackets fuel w = (l, true) -> subs_in l w.
Proof.
  induction fuel as [|fuel IH]; intros w l L; (destruct w as [|x w]; [intro H; injection H as <-; constructor|]); [discriminate|].
  cbn [opaque_subpackets]. destruct (next_subpacket (x :: w)) as [[[ty body] rest]|] eqn:N; [|discriminate].
  apply next_sub_inv in N; [|assumption]. destruct N as (len & HL & W). rewrite W in L |- *.
  destruct (opaque_subpackets fuel rest) as [r ok] eqn:O. intro H. injection H as <- ->.
  constructor; [assumption|]. apply IH; [|exact O]. unfold lenN in *. rewrite app_length in L. cbn [length] in L. rewrite app_length in L. lia.
Qed.
Lemma subpackets_in l w : lenN w < 2 ^ 32 -> subs_in l w <-> subpackets w = (l, true).
Proof.
  intro L. split; [|apply opaque_out, L]. intro H. apply opaque_in; auto.
Qed.

(** ** The items of an area *)
Lemma adds_cons i a l : adds l (add_child a i) = adds (a :: l) i.
Proof. destruct i. cbn. rewrite <- app_assoc. reflexivity. Qed.

Lemma mapM_subs o E tagid l : forall s,
  match sub_list o E tagid l (s_cs s) with
  | (ROk r, cs') => mapM_ (sub_one (parse_tag o E) o E tagid) l s = (ROk tt, mkSt (s_rd s) cs' (adds r (s_cur s)))
  | (RErr e, cs') => exists i, mapM_ (sub_one (parse_tag o E) o E tagid) l s = (RErr e, mkSt (s_rd s) cs' i)
  | (RPanic, cs') => exists i, mapM_ (sub_one (parse_tag o E) o E tagid) l s = (RPanic, mkSt (s_rd s) cs' i)
  | (RFuel, cs') => exists i, mapM_ (sub_one (parse_tag o E) o E tagid) l s = (RFuel, mkSt (s_rd s) cs' i)
  end.
Proof.
  induction l as [|[ty body] l IH]; intros [rd cs cur]; cbn [sub_list mapM_ s_cs s_rd s_cur].
  - rewrite adds_nil. reflexivity.
  - unfold bind at 1 2 3 4. unfold sub_one at 1 3 5 7. unfold bind at 1 2 3 4. unfold run_in, parse_sub. cbn [fst snd s_cs s_rd s_cur].
    destruct (sub_m (parse_tag o E) o E tagid ty _) as [[[]|e| |] s1]; cbn [fst snd s_cs s_rd s_cur]; try (eexists; reflexivity).
    unfold add, upd. cbn [fst snd s_cs s_rd s_cur].
    specialize (IH (mkSt rd (s_cs s1) (add_child (s_cur s1) cur))). cbn [s_cs s_rd s_cur] in IH.
    destruct (sub_list o E tagid l (s_cs s1)) as [[r|e| |] cs2]; try exact IH. rewrite adds_cons in IH. exact IH.
Qed.

Lemma area_eval o E tagid name w l s : subs_in l w -> lenN w < 2 ^ 32 ->
  sub_area (parse_tag o E) o E tagid (str name) w s =
  (match fst (sub_list o E tagid l (s_cs s)) with
   | ROk r => ROk (area_shown o name w r)
   | RErr e => RErr e | RPanic => RPanic | RFuel => RFuel end,
   mkSt (s_rd s) (snd (sub_list o E tagid l (s_cs s))) (s_cur s)).
Proof.
  intros H L. unfold sub_area. apply subpackets_in in H; [|assumption]. rewrite H. unfold sub_it.
  pose proof (mapM_subs o E tagid l (mkSt (s_rd s) (s_cs s) (Item (str name) [] (dump_bytes w (oDebug o)) (n_bytes (lenZ w)) []))) as K.
  cbn [s_cs s_rd s_cur] in K. destruct (sub_list o E tagid l (s_cs s)) as [[r|e| |] cs2]; cbn [fst snd]; try (destruct K as [i ->]; reflexivity).
  rewrite K. cbn [s_cs s_rd s_cur adds app]. unfold area_shown. rewrite dump_bytes_if, n_bytes_note. reflexivity.
Qed.
Lemma area_bad o E tagid name w s : (forall l, ~ subs_in l w) -> lenN w < 2 ^ 32 ->
  sub_area (parse_tag o E) o E tagid (str name) w s = (RErr EStruct, s).
Proof.
  intros H L. unfold sub_area. destruct (subpackets w) as [l ok] eqn:X. destruct ok; [|reflexivity].
  exfalso. apply (H l). apply subpackets_in; assumption.
Qed.
