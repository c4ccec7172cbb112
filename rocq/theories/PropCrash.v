(** * PropCrash: C04. *)
From Coq Require Import Strings.String Strings.Byte List NArith ZArith Bool Lia ZifyBool ZifyN ZifyNat.
From Verif Require Import Base Utf8 Item Reader Context Env Time Values Opaque Monad Subs Tags Parse.
From Verif Require Import SpecBase BaseL SpecPacket SpecNest TagL SpecParse RelL ParseL StreamL PropParse SpecCrash CrashL BoomL Witness.
Import ListNotations.
Local Open Scope Z_scope.

(** C04.  If parsing panics, one of the packets met in the input is a secret key of the described kinds. *)
Theorem C04_panics_only_there : forall (o : opts) (E : env) (src : stream), fits E src ->
  snd (parse_stream o E src) = RPanic -> exists t b, stream_met o E src t b /\ crash_packet t b.
Proof.
  intros o E src F P.
  destruct (rel_parse_stream eq eq eq eq eq o o E E crash_packet src (leaves_same o E) (fun rec tag body c => tag_body_crash rec o E tag body c)
    eq_refl eq_refl F ltac:(auto)) as [H _].
  rewrite P in H. exact H.
Qed.
Print Assumptions C04_panics_only_there.

(** C04.  An input in which no secret key occurs, at any level, never makes the parser panic. *)
Theorem C04_without_secret_keys : forall (o : opts) (E : env) (src : stream), fits E src ->
  (forall t b, stream_met o E src t b -> t <> 5%N /\ t <> 7%N) ->
  snd (parse_stream o E src) <> RPanic /\ snd (parse_stream o E src) <> RFuel.
Proof.
  intros o E src F H. split; [|apply C03_terminates; exact F].
  intro P. destruct (C04_panics_only_there o E src F P) as (t & b & M & [[-> | ->] _]); destruct (H _ _ M); congruence.
Qed.
Print Assumptions C04_without_secret_keys.

Definition met_tags (o : opts) (E : env) (src : stream) : Prop := forall t b, stream_met o E src t b -> t <> 5%N /\ t <> 7%N.
(** The two packets of [src2] are literal data and a marker. *)
Lemma next_src2 : exists c1 c2, next_chunks env0 (chunks_of two_packets true) = (ROk (Some (11%N, [x62; x01; x61; x00; x00; x00; x01; x78; x79])), c1) /\
  next_chunks env0 c1 = (ROk (Some (10%N, [x50; x47; x50])), c2) /\ fst (next_chunks env0 c2) = ROk None.
Proof. eexists _, _. vm_compute. auto. Qed.
Example C04_without_secret_keys_used : met_tags o_plain env0 src2.
Proof.
  intros t b (c & P & M). assert (c = chunks_of two_packets true) as -> by (vm_compute in P; injection P as <-; reflexivity).
  destruct next_src2 as (c1 & c2 & N1 & N2 & N3).
  assert (forall t b, input_packet env0 (chunks_of two_packets true) t b -> (t = 11 \/ t = 10)%N) as IP.
  { intros t0 b0 H. inversion H; subst.
    - rewrite N1 in *. left. congruence.
    - match goal with K : next_chunks env0 (chunks_of two_packets true) = _ |- _ => rewrite N1 in K; injection K as _ _ <- end.
      match goal with K : input_packet env0 c1 _ _ |- _ => inversion K; subst end.
      + rewrite N2 in *. right. congruence.
      + match goal with K : next_chunks env0 c1 = _ |- _ => rewrite N2 in K; injection K as _ _ <- end.
        match goal with K : input_packet env0 c2 _ _ |- _ => inversion K; subst end;
        match goal with K : next_chunks env0 c2 = _ |- _ => rewrite K in N3; discriminate N3 end. }
  assert (forall t0 b0 t b, (t0 = 11 \/ t0 = 10)%N -> nested env0 t0 b0 t b -> t = t0) as NS.
  { intros t0 b0 t1 b1 T H. destruct H; try reflexivity; destruct T; discriminate. }
  destruct M as [t0 b0 Hi Hn | b0 d t0 b' Hi _ _ _].
  - rewrite (NS _ _ _ _ (IP _ _ Hi) Hn). destruct (IP _ _ Hi) as [-> | ->]; split; discriminate.
  - destruct (IP _ _ Hi); discriminate.
Qed.

(** C04.  Secret keys that do make the parser panic, whatever options are set: version 5 cut inside the count of the
    secret material; unencrypted with one octet of secret material and an algorithm without known fields. *)
Theorem C04_secret_keys_that_panic : forall (o : opts) (E : env) (tag : N) (body : bytes) (cs : cst),
  tag = 5%N \/ tag = 7%N -> sized body -> sure_crash_key body -> fst (parse_tag o E tag body cs) = RPanic.
Proof.
  intros o E tag body cs T L H. destruct (parse_tag_body o E tag body cs) as [rec ->]. apply tag_body_boom; assumption.
Qed.
Print Assumptions C04_secret_keys_that_panic.
Example sure_v4_used : sure_crash_key ([x04] ++ [x00; x00; x00; x01] ++ [x63; x00; xff]).
Proof. apply sure_v4; reflexivity. Qed.
Example sure_v5_used : sure_crash_key ([x05] ++ [x00; x00; x00; x01] ++ [x63] ++ [x00; x00; x00; x02] ++ [xaa; xbb] ++ [x00; x01] ++ [xcc] ++ [x00; x00; x00; x01; xff; x00]).
Proof. apply (sure_v5 [x00; x00; x00; x01] x63 [x00; x00; x00; x02] [xaa; xbb] x01 [xcc] [x00; x00; x00; x01] xff [x00]); repeat split. Qed.
(** An RSA key with n = 1, e = 1, cut behind its optional fields. *)
Example sure_cut_used : sure_crash_key ([x05] ++ [x00; x00; x00; x01] ++ [x01] ++ [x00; x00; x00; x06] ++ [x00; x01; x01; x00; x01; x01] ++ [xfe; x00] ++ [] ++ [x00; x00]).
Proof.
  apply (sure_cut [x00; x00; x00; x01] x01 [x00; x00; x00; x06] [x00; x01; x01; x00; x01; x01] xfe x00 [] [x00; x00]); [repeat split | auto | cbn; lia|].
  right. exists [FMpi "RSA public modulus n" 1 [x01]; FMpi "RSA public encryption exponent e" 1 [x01]], []. split; [|reflexivity].
  eexists. split; [reflexivity|]. repeat first [constructor | reflexivity | lia | (intro; discriminate)].
Qed.

(** C04 as stated is false: five octets are enough. *)
Theorem C04_never_panics_refuted : exists (o : opts) (E : env) (src : stream), fits E src /\ snd (parse_stream o E src) = RPanic.
Proof.
  exists o_plain, env0, (mkStream [xc5; x03; x06; x00; x00] true). split; [split; [vm_compute; reflexivity | discriminate] | vm_compute; reflexivity].
Qed.
Print Assumptions C04_never_panics_refuted.
