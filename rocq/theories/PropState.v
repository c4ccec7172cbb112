(** * PropState: what packets and sub-packets take from earlier ones (C10, C11). *)
From Coq Require Import Strings.String Strings.Byte List NArith ZArith Bool Lia ZifyBool ZifyN ZifyNat.
From Verif Require Import Base BaseL Item Reader Context Env Time Values Opaque Monad Subs Tags SubParse Parse.
From Verif Require Import SpecBase SpecTime TimeL SpecSub SpecSubs SubsL SpecFrame SpecNest SpecParse SpecPacket SpecComp PropFrame PropPacket PropKeyBlock PropComp SpecState EventL TotalL Witness.
Import ListNotations.
Local Open Scope N_scope.

Lemma dates_init : four_octet_dates cst_init.
Proof. intros d [H|H]; discriminate H. Qed.

Lemma small_sized (b : bytes) : lenN b < 65536 -> sized b.
Proof. unfold sized, lenZ, lenN. lia. Qed.

(** ** C11: session keys *)
Lemma quiet_snoc tags t : quiet tags -> ~ In t [1; 3; 9; 18] -> quiet (tags ++ [t]).
Proof. intros Q N x H. apply in_app_or in H as [H|[<-|[]]]; auto. Qed.
Lemma recent_of_tags tags : recent_key tags (fold_left after_tag tags ModeNotSpecified).
Proof.
  induction tags as [|t tags IH] using rev_ind; [left; intros t []|]. rewrite fold_left_app. cbn [fold_left].
  assert (In t [1; 3; 9; 18] \/ ~ In t [1; 3; 9; 18]) as [I|N] by (cbn [In]; lia).
  - assert (quiet []) as Q by (intros x []). cbn [In] in I. destruct I as [<-|[<-|[<-|[<-|[]]]]]; cbn [after_tag recent_key].
    + exists tags, []. auto.
    + exists tags, []. auto.
    + right. exists tags, 9, []. cbn [In]. auto.
    + right. exists tags, 18, []. cbn [In]. auto.
  - assert (after_tag (fold_left after_tag tags ModeNotSpecified) t = fold_left after_tag tags ModeNotSpecified) as ->.
    { unfold after_tag. cbn [In] in N. destruct t as [|p]; [reflexivity|]. do 5 (try destruct p as [p|p|]); try reflexivity; exfalso; apply N; auto. }
    destruct (fold_left after_tag tags ModeNotSpecified); cbn [recent_key] in *.
    + destruct IH as [Q | (b & u & a & -> & U & Q)]; [left; apply quiet_snoc; assumption|].
      right. exists b, u, (a ++ [t]). rewrite <- app_assoc. cbn [app]. auto using quiet_snoc.
    + destruct IH as (b & a & -> & Q). exists b, (a ++ [t]). rewrite <- app_assoc. cbn [app]. auto using quiet_snoc.
    + destruct IH as (b & a & -> & Q). exists b, (a ++ [t]). rewrite <- app_assoc. cbn [app]. auto using quiet_snoc.
Qed.
Lemma mode_after o evs : forall c, c_mode (after_events o evs c) = fold_left after_tag (tags_of evs) (c_mode c).
Proof.
  induction evs as [|[t b|ty b] evs IH]; intro c; [reflexivity| |]; unfold after_events in *; cbn [fold_left tags_of flat_map app]; rewrite IH; reflexivity.
Qed.
Lemma recent_after o evs : recent_key (tags_of evs) (c_mode (after_events o evs cst_init)).
Proof. rewrite mode_after. apply recent_of_tags. Qed.
Lemma encrypted o E tag body cs : In tag [9; 18] -> sized body ->
  parse_tag o E tag body cs = (ROk (encrypted_shown o tag body (c_mode cs), None), with_mode ModeNotSpecified cs).
Proof. intros [<-|[<-|[]]] L; [apply C21_encrypted, L | apply C21_protected, L]. Qed.
Lemma shown_split o E l1 p l2 cs is r : parse_list o E (l1 ++ p :: l2) cs = (is, r) -> (length l1 < length is)%nat ->
  exists is1 it is2 cs', parse_list o E l1 cs = (is1, ROk tt) /\ packets_parse o E (fst p) (snd p) (list_state o E l1 cs) = (ROk it, cs') /\
    is = is1 ++ it :: is2 /\ length is1 = length l1.
Proof.
  revert cs is. induction l1 as [|[tag b] l1 IH]; intros cs is H L.
  - destruct p as [tag b]. cbn [app parse_list list_state fst snd] in *. destruct (packets_parse o E tag b cs) as [[i|e| |] cs1]; try (inversion H; subst; cbn in L; lia).
    destruct (parse_list o E l2 cs1) as [r2 x]. inversion H; subst. exists [], i, r2, cs1. auto 8.
  - cbn [app parse_list list_state] in *. destruct (packets_parse o E tag b cs) as [[i|e| |] cs1]; try (inversion H; subst; cbn in L; lia).
    destruct (parse_list o E (l1 ++ p :: l2) cs1) as [r2 x] eqn:R. inversion H; subst. cbn [length] in L.
    destruct (IH cs1 r2 R ltac:(lia)) as (is1 & it & is2 & cs' & -> & Q & -> & LL). exists (i :: is1), it, is2, cs'. cbn [snd app length]. auto 8.
Qed.

(** C11.  Encrypted data in a stream shows the kind of the most recent session key since the previous encrypted data,
    counting all packets met before it: those of the stream, those in compressed packets, and those in key blocks of
    signatures, in this order.  [meets] describes what is met; whatever comes before a packet that is shown has such a description. *)
Theorem C11_label : forall (o : opts) (E : env) (l1 l2 : list (N * bytes)) (tag : N) (body : bytes) (is : info) (r : res unit),
  In tag [9; 18] -> all_sized (l1 ++ (tag, body) :: l2) ->
  parse_list o E (l1 ++ (tag, body) :: l2) cst_init = (is, r) -> (length l1 < length is)%nat ->
  (exists evs, meets E (Stream l1) evs) /\
  forall evs, meets E (Stream l1) evs -> exists m, recent_key (tags_of evs) m /\ nth_error is (length l1) = Some (encrypted_shown o tag body m).
Proof.
  intros o E l1 l2 tag body is r T L H LI. destruct (shown_split o E l1 _ l2 cst_init is r H LI) as (is1 & it & is2 & cs' & P1 & P2 & -> & LL).
  apply Forall_app in L as [L1 L2]. inversion L2 as [|? ? LB _]; subst. cbn [fst snd] in *.
  split; [exact (stream_meets o E l1 cst_init is1 L1 dates_init P1)|].
  intros evs M. destruct (state_after o E _ _ M cst_init is1 L1 dates_init P1) as [S _].
  exists (c_mode (after_events o evs cst_init)). split; [apply recent_after|].
  rewrite nth_error_app2 by lia. rewrite LL, Nat.sub_diag. cbn [nth_error].
  apply packets_parse_other in P2 as (x & P2); [|cbn [In] in T; lia]. rewrite (encrypted o E tag body _ T LB), S in P2. inversion P2; subst. reflexivity.
Qed.
Print Assumptions C11_label.

Lemma flat_split o E l1 p l2 cs is cs' : flat_list o E (l1 ++ p :: l2) cs = (ROk is, cs') ->
  exists is1 cs1 it x cs2 is2, flat_list o E l1 cs = (ROk is1, cs1) /\ parse_tag o E (fst p) (snd p) cs1 = (ROk (it, x), cs2) /\
    is = is1 ++ it :: is2 /\ length is1 = length l1.
Proof.
  revert cs is. induction l1 as [|[tag b] l1 IH]; intros cs is H.
  - destruct p as [tag b]. cbn [app flat_list fst snd] in *. destruct (parse_tag o E tag b cs) as [[[i x]|e| |] cs1] eqn:PT; try discriminate.
    destruct (flat_list o E l2 cs1) as [[r2|e| |] c]; try discriminate. inversion H; subst. exists [], cs, i, x, cs1, r2. auto 8.
  - cbn [app flat_list] in *. destruct (parse_tag o E tag b cs) as [[[i x]|e| |] cs1] eqn:PT; try discriminate.
    destruct (flat_list o E (l1 ++ p :: l2) cs1) as [[r2|e| |] c] eqn:R; try discriminate. inversion H; subst.
    destruct (IH cs1 r2 R) as (is1 & c1 & it & y & cs2 & is2 & -> & Q & -> & LL). exists (i :: is1), c1, it, y, cs2, is2. cbn [app length]. auto 8.
Qed.
(** C11.  The same inside a compressed packet. *)
Theorem C11_inside : forall (o : opts) (E : env) (l1 l2 : list (N * bytes)) (a : byte) (z d : bytes) (i1 i2 : list (N * bytes)) (tag : N) (body : bytes) (is : info) (r : res unit),
  In tag [9; 18] -> all_sized (l1 ++ (8, a :: z) :: l2) -> contents E (a :: z) d -> input_of (i1 ++ (tag, body) :: i2) d -> all_sized (i1 ++ (tag, body) :: i2) ->
  parse_list o E (l1 ++ (8, a :: z) :: l2) cst_init = (is, r) -> (length l1 < length is)%nat ->
  (exists evs1 evs2, meets E (Stream l1) evs1 /\ meets E (Packets i1) evs2) /\
  forall evs1 evs2, meets E (Stream l1) evs1 -> meets E (Packets i1) evs2 ->
  exists m inner, recent_key (tags_of (evs1 ++ evs2)) m /\ nth_error is (length l1) = Some (compressed_shown o a z [] inner) /\
    nth_error inner (length i1) = Some (encrypted_shown o tag body m).
Proof.
  intros o E l1 l2 a z d i1 i2 tag body is r T L C IO LD H LI. destruct (shown_split o E l1 _ l2 cst_init is r H LI) as (is1 & it & is2 & cs' & P1 & P2 & -> & LL).
  apply Forall_app in L as [L1 L2]. inversion L2 as [|? ? LB _]; subst. cbn [fst snd] in *.
  apply Forall_app in LD as [LD1 LD2]. inversion LD2 as [|? ? LBB _]; subst. cbn [fst snd] in *.
  destruct (C35_expanded o E a z d _ (list_state o E l1 cst_init) LB C IO) as [X1 _]. rewrite P2 in X1. cbn [fst] in X1.
  destruct (flat_list o E (i1 ++ (tag, body) :: i2) (list_state o E l1 cst_init)) as [[inner|e| |] c] eqn:F; try discriminate. cbn [fst map_res] in X1. inversion X1; subst it.
  destruct (flat_split _ _ _ _ _ _ _ _ F) as (in1 & c1 & it & x & c2 & in2 & F1 & F2 & -> & LL2). cbn [fst snd] in F2.
  destruct (stream_meets o E l1 cst_init is1 L1 dates_init P1) as (ev & M).
  destruct (state_after o E _ _ M cst_init is1 L1 dates_init P1) as [_ DS].
  split.
  - exists ev. destruct (list_meets o E i1 _ in1 c1 LD1 DS F1) as (e2 & M2). eauto.
  - clear ev M. intros evs1 evs2 M1 M2. destruct (state_after o E _ _ M1 cst_init is1 L1 dates_init P1) as [S1 _].
    destruct (state_after o E _ _ M2 _ in1 c1 LD1 DS F1) as [S2 _]. rewrite S1, <- after_app in S2.
    exists (c_mode c1), (in1 ++ it :: in2). split; [rewrite S2; apply recent_after|].
    rewrite !nth_error_app2 by lia. rewrite LL, LL2, !Nat.sub_diag. cbn [nth_error]. split; [reflexivity|].
    rewrite (encrypted o E tag body _ T LBB) in F2. inversion F2; subst. reflexivity.
Qed.
Print Assumptions C11_inside.

(** A public-key session key, encrypted data, a password session key, and encrypted data twice. *)
Definition pub_session : bytes := x03 :: [x00; x00; x00; x00; x00; x00; x00; x01] ++ [x01; x00; x01; x01].
Definition sym_session : bytes := [x04; x07; x00; x02].
Definition stream11 : list (N * bytes) := [(1, pub_session); (9, [x41]); (3, sym_session); (18, [x01; x42]); (9, [x43])].
Example C11_used :
  parse_list o_plain env0 stream11 cst_init =
    ([nth 0 (fst (parse_list o_plain env0 stream11 cst_init)) (Item [] [] [] [] []);
      encrypted_shown o_plain 9 [x41] ModePubEnc;
      nth 2 (fst (parse_list o_plain env0 stream11 cst_init)) (Item [] [] [] [] []);
      encrypted_shown o_plain 18 [x01; x42] ModeSymEnc;
      encrypted_shown o_plain 9 [x43] ModeNotSpecified], ROk tt)
  /\ meets env0 (Stream (firstn 3 stream11)) [EvPacket 1 pub_session; EvPacket 9 [x41]; EvPacket 3 sym_session]
  /\ recent_key (tags_of [EvPacket 1 pub_session; EvPacket 9 [x41]; EvPacket 3 sym_session]) ModeSymEnc.
Proof.
  split; [vm_compute; reflexivity|]. split.
  - refine (meets_next _ 1 _ _ [_] _ _ _ (meets_next _ 9 _ _ [_] _ _ _ (meets_next _ 3 _ _ [_] [] _ _ (meets_end _)))); try discriminate; constructor; discriminate.
  - exists [1; 9], []. split; [reflexivity | intros t []].
Qed.

(** ** C10: creation times *)
Lemma sub_split o E l1 p l2 cs is cs' : sub_list o E 2 (l1 ++ p :: l2) cs = (ROk is, cs') ->
  exists is1 cs1 it cs2 is2, sub_list o E 2 l1 cs = (ROk is1, cs1) /\ parse_sub o E 2 (fst p) (snd p) cs1 = (ROk it, cs2) /\
    sub_list o E 2 l2 cs2 = (ROk is2, cs') /\ is = is1 ++ it :: is2 /\ length is1 = length l1.
Proof.
  revert cs is. induction l1 as [|[ty b] l1 IH]; intros cs is H.
  - destruct p as [ty b]. cbn [app sub_list fst snd] in *. destruct (parse_sub o E 2 ty b cs) as [[i|e| |] cs1] eqn:PT; try discriminate.
    destruct (sub_list o E 2 l2 cs1) as [[r2|e| |] c] eqn:R; try discriminate. inversion H; subst. exists [], cs, i, cs1, r2. auto 8.
  - cbn [app sub_list] in *. destruct (parse_sub o E 2 ty b cs) as [[i|e| |] cs1] eqn:PT; try discriminate.
    destruct (sub_list o E 2 (l1 ++ p :: l2) cs1) as [[r2|e| |] c] eqn:R; try discriminate. inversion H; subst.
    destruct (IH cs1 r2 R) as (is1 & c1 & it & cs2 & is2 & -> & Q & Q2 & -> & LL). exists (i :: is1), c1, it, cs2, is2. cbn [app length]. auto 8.
Qed.
Lemma sig_kept o evs : no_sub_of [2; 3] evs -> forall c, c_sig (after_events o evs c) = c_sig c.
Proof.
  induction evs as [|ev evs IH]; intros N c; [reflexivity|]. unfold after_events in *. cbn [fold_left]. rewrite IH.
  - destruct ev as [t b|ty b]; [reflexivity|]. cbn [after_event c_sig after_sig_time]. pose proof (N ty b (or_introl eq_refl)) as K. cbn [In] in K.
    destruct (sub_type ty) as [|p]; [reflexivity|]. do 2 (try destruct p as [p|p|]); try reflexivity; exfalso; apply K; auto.
  - intros ty b I. apply (N ty b). right. exact I.
Qed.
Lemma key_kept o evs : no_sub_of [9] evs -> no_key_in evs -> forall c, c_key (after_events o evs c) = c_key c.
Proof.
  induction evs as [|ev evs IH]; intros N K c; [reflexivity|]. unfold after_events in *. cbn [fold_left]. rewrite IH.
  - destruct ev as [t b|ty b]; cbn [after_event c_key after_key_time].
    + destruct b as [|v b]; [reflexivity|]. rewrite (K t (v :: b) (or_introl eq_refl)). reflexivity.
    + pose proof (N ty b (or_introl eq_refl)) as Q. cbn [In] in Q.
      destruct (sub_type ty) as [|p]; [reflexivity|]. do 4 (try destruct p as [p|p|]); try reflexivity; exfalso; apply Q; auto.
  - intros ty b I. apply (N ty b). right. exact I.
  - intros ty b I. apply (K ty b). right. exact I.
Qed.

(** C10.  For every history: the state behind a stream is determined by what was met.  A signature creation time
    (sub-packet 2) is remembered up to the next expiration time (sub-packet 3), a key creation time (a key of version
    3 to 5) up to the next key expiration time (sub-packet 9), whichever signature or key they are in. *)
Theorem C10_history : forall (o : opts) (E : env) (l : list (N * bytes)) (is : info),
  all_sized l -> parse_list o E l cst_init = (is, ROk tt) ->
  (exists evs, meets E (Stream l) evs) /\
  forall evs, meets E (Stream l) evs ->
    c_sig (list_state o E l cst_init) = fold_left (after_sig_time o) evs None /\
    c_key (list_state o E l cst_init) = fold_left (after_key_time o) evs None.
Proof.
  intros o E l is L H. split; [exact (stream_meets o E l cst_init is L dates_init H)|]. intros evs M.
  destruct (state_after o E _ _ M cst_init is L dates_init H) as [-> _].
  change None with (c_sig cst_init) at 1. change None with (c_key cst_init) at 1. generalize cst_init. clear.
  induction evs as [|ev evs IH]; intro c; [split; reflexivity|]. unfold after_events in *. cbn [fold_left]. destruct (IH (after_event o c ev)) as [-> ->]. auto.
Qed.
Print Assumptions C10_history.
(** C10.  The expiration time of a signature, wherever it stands among the sub-packets, uses the time remembered there. *)
Theorem C10_shown : forall (o : opts) (E : env) (s1 s2 : list (byte * bytes)) (ty : byte) (t : N) (x : bytes) (cs cs' : cst) (is : list item),
  Forall (fun p => lenN (snd p) < 2 ^ 16) (s1 ++ (ty, be_enc 4 t ++ x) :: s2) -> t < 2 ^ 32 -> four_octet_dates cs ->
  sub_list o E 2 (s1 ++ (ty, be_enc 4 t ++ x) :: s2) cs = (ROk is, cs') ->
  (exists evs, meets E (Subs s1) evs) /\
  forall evs, meets E (Subs s1) evs ->
    (sub_type ty = 3 -> nth_error is (length s1) = Some (expire_shown o E ty (fold_left (after_sig_time o) evs (c_sig cs)) t)) /\
    (sub_type ty = 9 -> nth_error is (length s1) = Some (expire_shown o E ty (fold_left (after_key_time o) evs (c_key cs)) t)).
Proof.
  intros o E s1 s2 ty t x cs cs' is L T D H. destruct (sub_split _ _ _ _ _ _ _ _ H) as (is1 & cs1 & it & cs2 & is2 & H1 & H2 & H3 & -> & LL). cbn [fst snd] in *.
  apply Forall_app in L as [L1 L2]. pose proof (Forall_inv L2) as LB. cbn beta in LB. cbn [snd] in LB. change (2 ^ 16) with 65536 in *.
  split; [exact (subs_list_meets o E s1 cs is1 cs1 L1 D H1)|]. intros evs M.
  assert (all_sized s1) as A1 by (eapply Forall_impl; [|exact L1]; intros p Q; cbn beta in Q; exact (small_sized _ Q)).
  destruct (state_after o E _ _ M cs is1 cs1 A1 D H1) as [S _].
  assert (lenZ (be_enc 4 t ++ x) < 2 ^ 62)%Z as LZ by exact (small_sized _ LB).
  rewrite nth_error_app2 by lia. rewrite LL, Nat.sub_diag. cbn [nth_error].
  assert (c_sig cs1 = fold_left (after_sig_time o) evs (c_sig cs) /\ c_key cs1 = fold_left (after_key_time o) evs (c_key cs)) as [<- <-].
  { rewrite S. clear. revert cs. induction evs as [|ev evs IH]; intro c; [split; reflexivity|]. unfold after_events in *. cbn [fold_left]. destruct (IH (after_event o c ev)) as [-> ->]. auto. }
  split; intro TY.
  - rewrite (parse_03 o E ty t x cs1 TY T LZ) in H2. inversion H2; subst. reflexivity.
  - rewrite (parse_09 o E ty t x cs1 TY T LZ) in H2. inversion H2; subst. reflexivity.
Qed.
Print Assumptions C10_shown.
(** C10, the part that is true of signatures: after a creation time in the same area, with no creation or expiration
    time in between (also not in an embedded signature), whatever came before, the date shown is creation time plus seconds. *)
Theorem C10_same_signature_partial : forall (o : opts) (E : env) (s0 s1 s2 : list (byte * bytes)) (tc te : byte) (c t : N) (x y : bytes) (evs : list event) (cs cs' : cst) (is : list item),
  sub_type tc = 2 -> sub_type te = 3 -> 0 < c -> t < 2 ^ 32 -> c + t < 2 ^ 32 ->
  Forall (fun p => lenN (snd p) < 2 ^ 16) (s0 ++ (tc, be_enc 4 c ++ x) :: s1 ++ (te, be_enc 4 t ++ y) :: s2) -> four_octet_dates cs ->
  meets E (Subs s1) evs -> no_sub_of [2; 3] evs ->
  (oUTC o = false -> real_offset (e_tz E (c + t)) /\ Z.rem (e_tz E (c + t)) 60 = 0%Z) ->
  sub_list o E 2 (s0 ++ (tc, be_enc 4 c ++ x) :: s1 ++ (te, be_enc 4 t ++ y) :: s2) cs = (ROk is, cs') ->
  exists it, nth_error is (length s0 + S (length s1)) = Some it /\ i_name it = sub_name te /\ read_rfc3339 (i_note it) = Some (Z.of_N (c + t)).
Proof.
  intros o E s0 s1 s2 tc te c t x y evs cs cs' is TC TE C0 T CT L D M N Z H.
  destruct (sub_split _ _ _ _ _ _ _ _ H) as (is0 & cs1 & it0 & cs2 & is1 & H1 & H2 & H3 & -> & LL). cbn [fst snd] in *.
  apply Forall_app in L as [L0 L1]. pose proof (Forall_inv L1) as LC. pose proof (Forall_inv_tail L1) as L2. cbn beta in LC. cbn [snd] in LC. change (2 ^ 16) with 65536 in *.
  assert (forall l, Forall (fun p : byte * bytes => lenN (snd p) < 65536) l -> all_sized l) as SZ
    by (intros l Q; eapply Forall_impl; [|exact Q]; intros p K; exact (small_sized _ K)).
  destruct (subs_list_meets o E s0 cs is0 cs1 L0 D H1) as (e0 & M0).
  destruct (state_after o E _ _ M0 cs is0 cs1 (SZ _ L0) D H1) as [_ D1].
  assert (sized (be_enc 4 c ++ x)) as LX by exact (small_sized _ LC).
  destruct (sub_state o E tc _ cs1 it0 cs2 LX ltac:(lia) ltac:(lia) H2) as [S2 D2]. specialize (D2 D1).
  destruct (C10_shown o E s1 s2 te t y cs2 cs' is1 L2 T D2 H3) as [_ X]. destruct (X evs M) as [X3 _]. specialize (X3 TE).
  assert (fold_left (after_sig_time o) evs (c_sig cs2) = Some (mkDT (be_enc 4 c) (oUTC o))) as FE.
  { assert (forall evs c, fold_left (after_sig_time o) evs (c_sig c) = c_sig (after_events o evs c)) as FA
      by (clear; induction evs as [|ev evs IH]; intro c; [reflexivity|]; unfold after_events in *; cbn [fold_left]; rewrite <- IH; reflexivity).
    rewrite FA, (sig_kept o evs N), S2. cbn [after_event c_sig after_sig_time]. rewrite TC.
    rewrite firstn_app, be_enc_length, Nat.sub_diag. change 4%nat with (length (be_enc 4 c)) at 1. rewrite firstn_all, app_nil_r. reflexivity. }
  rewrite FE in X3. exists (expire_shown o E te (Some (mkDT (be_enc 4 c) (oUTC o))) t).
  split; [rewrite nth_error_app2 by lia; replace (length s0 + S (length s1) - length is0)%nat with (S (length s1)) by lia; exact X3|].
  split; [reflexivity|]. cbn [expire_shown i_note expire_note dt_tm dt_utc]. rewrite be_be_enc. change (256 ^ N.of_nat 4) with 4294967296. change (2 ^ 32) with 4294967296 in *.
  rewrite !N.mod_small by lia. replace (c =? 0) with false by lia.
  destruct (oUTC o).
  - apply (text_utc (e_tz E) (c + t)). exact CT.
  - destruct (Z eq_refl) as [RO ZR]. destruct (text_local (e_tz E) (c + t) CT RO) as [-> _]. f_equal. lia.
Qed.
Print Assumptions C10_same_signature_partial.

(** C10, the part that is true of keys: after a key (tag 5, 6, 7 or 14, version 3 to 5) in the stream, with no other
    key and no key expiration time in between, the date shown is the key's creation time plus seconds. *)
Theorem C10_same_key_partial : forall (o : opts) (E : env) (l0 l1 : list (N * bytes)) (s1 s2 : list (byte * bytes)) (tag : N) (v te : byte) (c t : N) (x y : bytes)
    (evs evs1 : list event) (is : info) (r : list item) (cs' : cst),
  let l := l0 ++ (tag, v :: be_enc 4 c ++ x) :: l1 in
  let s := s1 ++ (te, be_enc 4 t ++ y) :: s2 in
  In tag [5; 6; 7; 14] -> 3 <= b2n v <= 5 -> sub_type te = 9 -> 0 < c -> t < 2 ^ 32 -> c + t < 2 ^ 32 -> all_sized l ->
  Forall (fun p => lenN (snd p) < 2 ^ 16) s ->
  meets E (Stream l1) evs -> no_sub_of [9] evs -> no_key_in evs -> meets E (Subs s1) evs1 -> no_sub_of [9] evs1 -> no_key_in evs1 ->
  (oUTC o = false -> real_offset (e_tz E (c + t)) /\ Z.rem (e_tz E (c + t)) 60 = 0%Z) ->
  parse_list o E l cst_init = (is, ROk tt) -> sub_list o E 2 s (list_state o E l cst_init) = (ROk r, cs') ->
  exists it, nth_error r (length s1) = Some it /\ i_name it = sub_name te /\ read_rfc3339 (i_note it) = Some (Z.of_N (c + t)).
Proof.
  intros o E l0 l1 s1 s2 tag v te c t x y evs evs1 is r cs' l s TG V TE C0 T CT L LS M N K M1 N1 K1 Z H HS.
  assert (exists is0 i cs1 cs2 is1, parse_list o E l0 cst_init = (is0, ROk tt) /\ cs1 = list_state o E l0 cst_init /\
    packets_parse o E tag (v :: be_enc 4 c ++ x) cs1 = (ROk i, cs2) /\ parse_list o E l1 cs2 = (is1, ROk tt) /\ list_state o E l cst_init = list_state o E l1 cs2)
    as (is0 & i & cs1 & cs2 & is1 & P0 & E1 & P1 & P2 & E2).
  { unfold l in *. clear -H. revert is H. generalize cst_init. induction l0 as [|[t0 b0] l0 IH]; intros c0 is H.
    - apply parse_list_cons in H as (i & cs1 & r' & H1 & H2). exists [], i, c0, cs1, r'. cbn [app list_state]. rewrite H1. auto 7.
    - cbn [app] in H. apply parse_list_cons in H as (i & cs1 & r' & H1 & H2). destruct (IH cs1 r' H2) as (a1 & a2 & a3 & a4 & a5 & Q1 & Q2 & Q3 & Q4 & Q5).
      exists (i :: a1), a2, a3, a4, a5. cbn [app list_state parse_list]. rewrite H1. cbn [snd]. rewrite Q1. auto 7. }
  apply Forall_app in L as [L0 L1]. pose proof (Forall_inv L1) as LK. apply Forall_inv_tail in L1. cbn beta in LK. cbn [snd] in LK.
  destruct (stream_meets o E l0 cst_init is0 L0 dates_init P0) as (e0 & M0).
  destruct (state_after o E _ _ M0 cst_init is0 L0 dates_init P0) as [_ D1]. rewrite <- E1 in D1.
  apply packets_parse_other in P1 as (z & P1); [|cbn [In] in TG; lia].
  destruct (packet_state o E tag _ cs1 i z cs2 LK ltac:(cbn [In] in TG; lia) P1) as [S2 D2]. specialize (D2 D1).
  destruct (state_after o E _ _ M cs2 is1 L1 D2 P2) as [S3 D3]. rewrite E2 in HS.
  destruct (C10_shown o E s1 s2 te t y _ cs' r LS T D3 HS) as [_ X]. destruct (X evs1 M1) as [_ X9]. specialize (X9 TE).
  assert (fold_left (after_key_time o) evs1 (c_key (list_state o E l1 cs2)) = Some (mkDT (be_enc 4 c) (oUTC o))) as FE.
  { assert (forall evs c, fold_left (after_key_time o) evs (c_key c) = c_key (after_events o evs c)) as FA
      by (clear; induction evs as [|ev evs IH]; intro c; [reflexivity|]; unfold after_events in *; cbn [fold_left]; rewrite <- IH; reflexivity).
    rewrite FA, (key_kept o evs1 N1 K1), S3, (key_kept o evs N K), S2. cbn [after_event c_key after_key_time].
    assert (is_key tag = true) as -> by (unfold is_key; cbn [In] in TG; lia). replace (3 <=? b2n v) with true by lia. replace (b2n v <=? 5) with true by lia. cbn [andb].
    rewrite firstn_app, be_enc_length, Nat.sub_diag. change 4%nat with (length (be_enc 4 c)) at 1. rewrite firstn_all, app_nil_r. reflexivity. }
  rewrite FE in X9. exists (expire_shown o E te (Some (mkDT (be_enc 4 c) (oUTC o))) t).
  split; [exact X9|].
  split; [reflexivity|]. cbn [expire_shown i_note expire_note dt_tm dt_utc]. rewrite be_be_enc. change (256 ^ N.of_nat 4) with 4294967296. change (2 ^ 32) with 4294967296 in *.
  rewrite !N.mod_small by lia. replace (c =? 0) with false by lia.
  destruct (oUTC o).
  - apply (text_utc (e_tz E) (c + t)). exact CT.
  - destruct (Z eq_refl) as [RO ZR]. destruct (text_local (e_tz E) (c + t) CT RO) as [-> _]. f_equal. lia.
Qed.
Print Assumptions C10_same_key_partial.

(** A signature creation time of 2020-09-13 and an expiration time of one day, in both orders. *)
Definition created (t : N) : byte * bytes := (x02, be_enc 4 t).
Definition expires (t : N) : byte * bytes := (x03, be_enc 4 t).
Definition key_expires (t : N) : byte * bytes := (x09, be_enc 4 t).
Definition o_utc : opts := o_new [(UTC, true)].
Example C10_same_signature_used :
  meets env0 (Subs [(x10, [x00; x01; x02; x03; x04; x05; x06; x07])]) [EvSub x10 [x00; x01; x02; x03; x04; x05; x06; x07]]
  /\ (let '(r, _) := sub_list o_utc env0 2 [created 1600000000; (x10, [x00; x01; x02; x03; x04; x05; x06; x07]); expires 86400] cst_init in
      match r with ROk [_; _; it] => i_note it = str "2020-09-14T12:26:40Z" | _ => False end).
Proof. split; [constructor; [discriminate | discriminate | constructor] | vm_compute; reflexivity]. Qed.

(** C10 is false: when the expiration time comes before the creation time in its own signature, the date is based on
    the creation time of an earlier signature; and the second expiration time of a signature has no date. *)
Definition sig_of (l : list (byte * bytes)) : bytes :=
  let area := flat_map (fun p => n2b (1 + lenN (snd p)) :: fst p :: snd p) l in
  x04 :: x00 :: x11 :: x08 :: be_enc 2 (lenN area) ++ area ++ [x00; x00; xab; xcd; x00; x01; x01; x00; x01; x01].
Definition notes_of (i : item) : list bytes := flat_map (fun area => map i_note (i_items area)) (i_items i).
Theorem C10_refuted : exists c1 c2 t : N, c1 <> c2 /\
  (let '(is, r) := parse_list o_utc env0 [(2, sig_of [created c1]); (2, sig_of [expires t; created c2; expires t; expires t])] cst_init in
   r = ROk tt /\
   match map notes_of is with
   | [_; [n1; _; n2; n3]] => read_rfc3339 n1 = Some (Z.of_N (c1 + t)) /\ read_rfc3339 n2 = Some (Z.of_N (c2 + t)) /\ n3 = []
   | _ => False
   end).
Proof. exists 1000000000, 1600000000, 86400. split; [discriminate|]. vm_compute. repeat split. Qed.
Print Assumptions C10_refuted.
(** The same for keys: the date of a second key expiration time, for the same key, is missing; and the date of an
    expiration time in a certification of a key is based on whichever key came last. *)
Definition key_of (t : N) : bytes := x04 :: be_enc 4 t ++ [x01; x00; x01; x01; x00; x01; x01].
Theorem C10_key_refuted : exists c1 c2 t : N, c1 <> c2 /\
  (let '(is, r) := parse_list o_utc env0 [(6, key_of c1); (14, key_of c2); (2, sig_of [key_expires t]); (2, sig_of [key_expires t])] cst_init in
   r = ROk tt /\
   match map notes_of is with
   | [_; _; [n1]; [n2]] => read_rfc3339 n1 = Some (Z.of_N (c2 + t)) /\ n2 = []
   | _ => False
   end).
Proof. exists 1000000000, 1600000000, 86400. split; [discriminate|]. vm_compute. repeat split. Qed.
Print Assumptions C10_key_refuted.
Example C10_same_key_used :
  parse_list o_utc env0 [(6, key_of 1600000000); (13, [x41])] cst_init = (fst (parse_list o_utc env0 [(6, key_of 1600000000); (13, [x41])] cst_init), ROk tt)
  /\ meets env0 (Stream [(13, [x41])]) [EvPacket 13 [x41]] /\ no_sub_of [9] [EvPacket 13 [x41]] /\ no_key_in [EvPacket 13 [x41]]
  /\ (let '(r, _) := sub_list o_utc env0 2 [key_expires 86400] (list_state o_utc env0 [(6, key_of 1600000000); (13, [x41])] cst_init) in
      match r with ROk [it] => read_rfc3339 (i_note it) = Some (1600086400)%Z | _ => False end).
Proof.
  split; [vm_compute; reflexivity|]. split; [refine (meets_next _ 13 _ _ [_] [] _ _ (meets_end _)); [discriminate | constructor; discriminate]|].
  split; [intros ty b [Q|[]]; discriminate Q|]. split; [intros tg b [Q|[]]; injection Q as <- <-; reflexivity|]. vm_compute. reflexivity.
Qed.
