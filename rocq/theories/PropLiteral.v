(** * PropLiteral: what literal data, marker, trust and user ID packets show (C51). *)
From Coq Require Import Strings.String Strings.Byte List NArith ZArith Bool Lia ZifyBool ZifyN ZifyNat.
From Verif Require Import Base BaseL SpecBase Utf8L Item Reader ReaderL Context Env Time Values Monad MonadL Subs Tags
  SpecValues SpecText SpecPacket ReadsL PacketL TagL SpecSubs SubsL SpecLiteral PropPacket PropSub Witness.
Import ListNotations.
Local Open Scope N_scope.

Lemma format_item f : litfmt_item f = format_shown f.
Proof. unfold litfmt_item, format_shown, litfmt_string. rewrite enc_rune_utf8. destruct f; reflexivity. Qed.
Lemma file_time_item o E t : t < 2 ^ 32 -> filetime_item E (mkDT (be_enc 4 t) (oUTC o)) (oDebug o) = file_time_shown o E t.
Proof.
  intro H. unfold filetime_item, file_time_shown, dt_item, dt_text, dt_unix. cbn [dt_tm dt_utc].
  rewrite be4 by exact H. rewrite dump_bytes_if. destruct (t =? 0); reflexivity.
Qed.
Lemma runs_fname name : lenN name < 256 -> runs (newLiteralFname (Z.of_N (b2n (n2b (lenN name))))) name name same same.
Proof.
  intro H. rewrite b2n_len1 by exact H. unfold newLiteralFname. destruct name as [|b t].
  - apply runs_ret.
  - replace (Z.of_N (lenN (b :: t)) <? 1)%Z with false by (unfold lenN; cbn [length]; lia).
    apply runs_bytes. unfold lenZ, lenN. lia.
Qed.
Lemma cuts_fname name : lenN name < 256 -> cuts (newLiteralFname (Z.of_N (b2n (n2b (lenN name))))) name.
Proof.
  intro H. rewrite b2n_len1 by exact H. unfold newLiteralFname. destruct name as [|b t]; [apply cuts_nil|].
  replace (Z.of_N (lenN (b :: t)) <? 1)%Z with false by (unfold lenN; cbn [length]; lia).
  apply cuts_bytes; unfold lenZ, lenN in *; lia.
Qed.
Lemma data_item name f d : Item (str name) [] (dump_bytes d f) (n_bytes (lenZ d)) [] = data_shown name f d.
Proof. unfold data_shown. rewrite dump_bytes_if, n_bytes_note. reflexivity. Qed.

Lemma ends_tag11 o E f name t d : lenN name < 256 -> t < 2 ^ 32 ->
  ends (tag11 o E) (literal_octets f name t) d tt same
    (adds [format_shown f; text_item (str "File name") name (oLiteral o); file_time_shown o E t; data_shown "Literal data" (oLiteral o) d]).
Proof.
  intros Hn Ht. unfold tag11, literal_octets, len1. cbn [app]. eapply ends_ext0.
  - do 3 step. eapply ends_bind; [apply runs_fname; exact Hn|]. step.
    unfold newDateTime. rewrite <- (app_nil_r (be_enc 4 t)). step. step; [apply lenZ4|]. do 2 step. unfold tag_raw. step.
    apply runs_ends, runs_add.
  - reflexivity.
  - intro i. cbv beta. unfold same. rewrite !adds_adds, format_item, file_time_item, data_item by exact Ht. reflexivity.
Qed.
Lemma cuts_tag11 o E f name t : lenN name < 256 -> cuts (tag11 o E) (literal_octets f name t).
Proof.
  intro Hn. unfold tag11, literal_octets, len1. cbn [app].
  do 3 step. eapply cuts_bind; [apply cuts_fname; exact Hn | apply runs_fname; exact Hn|]. step.
  unfold newDateTime. rewrite <- (app_nil_r (be_enc 4 t)). step. step; [apply lenZ4|reflexivity|]. apply cuts_nil.
Qed.

(** C51.  A literal data packet (tag 11) shows its format, file name, time and the number of data octets. *)
Theorem C51_literal : forall o E cs f name t d it,
  let body := literal_octets f name t ++ d in
  lenN name < 256 -> t < 2 ^ 32 -> text_shown (str "File name") (oLiteral o) name it -> in_memory body ->
  parse_tag o E 11 body cs =
  (ROk (packet_shown o 11 body [format_shown f; it; file_time_shown o E t; data_shown "Literal data" (oLiteral o) d], None), cs).
Proof.
  intros o E cs f name t d it body Hn Ht Hi L. rewrite (text_shown_eq _ _ _ _ Hi).
  exact (done o E 11 _ d cs _ _ (tag11 o E) ltac:(is_tag) (ends_tag11 o E f name t d Hn Ht) L).
Qed.
Print Assumptions C51_literal.
(** Every file name has such a text, and only one. *)
Theorem C51_text : forall name f body, exists it, text_shown name f body it /\ forall it', text_shown name f body it' -> it' = it.
Proof.
  intros name f body. exists (text_item name body f). split; [apply text_item_shown|]. intros it' H. exact (text_shown_eq _ _ _ _ H).
Qed.
Print Assumptions C51_text.
(** A literal data packet cut before the end of its fields is an error. *)
Theorem C51_literal_truncated : forall o E cs f name t q,
  lenN name < 256 -> t < 2 ^ 32 -> strict_prefix q (literal_octets f name t) -> in_memory q ->
  exists e, fst (parse_tag o E 11 q cs) = RErr e /\ (e = EEof \/ e = EUnexp).
Proof.
  intros o E cs f name t q Hn Ht P L.
  exact (parse_cuts o E 11 _ q cs (tag11 o E) ltac:(is_tag) (cuts_tag11 o E f name t Hn) P L).
Qed.
Print Assumptions C51_literal_truncated.
(** Every body is one or the other: the fields are there, or the body is cut before their end. *)
Theorem C51_literal_every : forall o E cs body, in_memory body ->
  (exists f name t d it, body = literal_octets f name t ++ d /\ lenN name < 256 /\ t < 2 ^ 32 /\ text_shown (str "File name") (oLiteral o) name it /\
     parse_tag o E 11 body cs =
     (ROk (packet_shown o 11 body [format_shown f; it; file_time_shown o E t; data_shown "Literal data" (oLiteral o) d], None), cs)) \/
  (exists e, fst (parse_tag o E 11 body cs) = RErr e /\ (e = EEof \/ e = EUnexp)).
Proof.
  intros o E cs body L.
  assert (forall f (name : bytes) t, lenN name < 256 -> t < 2 ^ 32 -> strict_prefix body (literal_octets f name t) ->
    exists e, fst (parse_tag o E 11 body cs) = RErr e /\ (e = EEof \/ e = EUnexp)) as K.
  { intros f name t Hn Ht P. exact (C51_literal_truncated o E cs f name t body Hn Ht P L). }
  destruct body as [|f [|n r]].
  - right. apply (K x00 [] 0); [reflexivity | reflexivity|]. exists (literal_octets x00 [] 0). split; [discriminate | reflexivity].
  - right. apply (K f [] 0); [reflexivity | reflexivity|]. exists (len1 [] ++ be_enc 4 0). split; [discriminate | reflexivity].
  - destruct (Nat.ltb (length r) (N.to_nat (b2n n) + 4)) eqn:Q.
    + right. apply Nat.ltb_lt in Q. pose proof (b2n_lt n).
      set (pad := r ++ repeat x00 (N.to_nat (b2n n) + 4)).
      set (name := firstn (N.to_nat (b2n n)) pad). set (tm := firstn 4 (skipn (N.to_nat (b2n n)) pad)).
      assert (length name = N.to_nat (b2n n)) as Ln.
      { unfold name, pad. rewrite firstn_length, app_length, repeat_length. lia. }
      assert (length tm = 4%nat) as Lt.
      { unfold tm, pad. rewrite firstn_length, skipn_length, app_length, repeat_length. lia. }
      assert (lenN name = b2n n) as LN by (unfold lenN; lia).
      apply (K f name (be tm)).
      * lia.
      * exact (be_small 4 tm Lt).
      * unfold literal_octets, len1. rewrite LN, n2b_b2n, (be_of 4 tm Lt).
        exists (skipn (length r) (name ++ tm)). split.
        -- intro Z. apply (f_equal (@length byte)) in Z. rewrite skipn_length, app_length in Z. cbn [length] in Z. lia.
        -- cbn [app]. f_equal. f_equal.
           assert (name ++ tm = firstn (N.to_nat (b2n n) + 4) pad) as ->.
           { unfold name, tm. rewrite <- (firstn_skipn (N.to_nat (b2n n)) (firstn (N.to_nat (b2n n) + 4) pad)).
             rewrite firstn_firstn, skipn_firstn_comm. f_equal; f_equal; lia. }
           unfold pad. rewrite <- (firstn_skipn (length r) (firstn _ _)) at 1. f_equal.
           rewrite firstn_firstn, Nat.min_l by lia. rewrite firstn_app, Nat.sub_diag, firstn_all. cbn [firstn]. apply app_nil_r.
    + left. apply Nat.ltb_ge in Q. pose proof (b2n_lt n).
      set (name := firstn (N.to_nat (b2n n)) r). set (tm := firstn 4 (skipn (N.to_nat (b2n n)) r)).
      assert (length name = N.to_nat (b2n n)) as Ln by (unfold name; rewrite firstn_length; lia).
      assert (length tm = 4%nat) as Lt by (unfold tm; rewrite firstn_length, skipn_length; lia).
      assert (lenN name = b2n n) as LN by (unfold lenN; lia).
      exists f, name, (be tm), (skipn (N.to_nat (b2n n) + 4) r), (text_item (str "File name") name (oLiteral o)).
      assert (f :: n :: r = literal_octets f name (be tm) ++ skipn (N.to_nat (b2n n) + 4) r) as X.
      { unfold literal_octets, len1. rewrite LN, n2b_b2n, (be_of 4 tm Lt). cbn [app]. f_equal. f_equal.
        unfold name, tm. rewrite <- app_assoc. rewrite <- (firstn_skipn (N.to_nat (b2n n)) r) at 1. f_equal.
        rewrite <- (firstn_skipn 4 (skipn (N.to_nat (b2n n)) r)) at 1. f_equal. rewrite <- skipn_add. reflexivity. }
      assert (be tm < 2 ^ 32) as Bt by exact (be_small 4 tm Lt).
      split; [exact X|]. split; [lia|]. split; [exact Bt|]. split; [apply text_item_shown|].
      rewrite X in *. apply C51_literal; auto; [lia | apply text_item_shown].
Qed.
Print Assumptions C51_literal_every.

(** C51.  Marker packets (tag 10, where the code says "Literal data") and trust packets (tag 12) are shown as octets;
    a user ID (tag 13) is shown as text. *)
Theorem C51_marker : forall o E cs body, in_memory body ->
  parse_tag o E 10 body cs = (ROk (packet_shown o 10 body [data_shown "Literal data" (oMarker o) body], None), cs).
Proof.
  intros o E cs body L.
  refine (done o E 10 [] body cs same _ (tag_raw (str "Literal data") (oMarker o)) ltac:(is_tag) _ L).
  unfold tag_raw. eapply ends_ext0; [step; apply runs_ends, runs_add | reflexivity|]. intro i. cbv beta. rewrite data_item. reflexivity.
Qed.
Print Assumptions C51_marker.
Theorem C51_trust : forall o E cs body, in_memory body ->
  parse_tag o E 12 body cs = (ROk (packet_shown o 12 body [data_shown "Trust" true body], None), cs).
Proof.
  intros o E cs body L.
  refine (done o E 12 [] body cs same _ (tag_raw (str "Trust") true) ltac:(is_tag) _ L).
  unfold tag_raw. eapply ends_ext0; [step; apply runs_ends, runs_add | reflexivity|]. intro i. cbv beta. rewrite data_item. reflexivity.
Qed.
Print Assumptions C51_trust.
Theorem C51_user_id : forall o E cs body it, in_memory body -> text_shown (str "User ID") (oDebug o) body it ->
  parse_tag o E 13 body cs = (ROk (packet_shown o 13 body [it], None), cs).
Proof.
  intros o E cs body it L H. rewrite (text_shown_eq _ _ _ _ H).
  destruct (parse_tag_body o E 13 body cs) as [rec ->].
  unfold tag_body, tag_m. rewrite tag_item_shown. reflexivity.
Qed.
Print Assumptions C51_user_id.

(** A concrete literal packet: format b, name "a.txt", a time, three octets of data; shown without dumps. *)
Example C51_witness : exists it,
  parse_tag o_plain env0 11 (literal_octets x62 (str "a.txt") 1577836800 ++ str "abc") cst_init =
  (ROk (packet_shown o_plain 11 (literal_octets x62 (str "a.txt") 1577836800 ++ str "abc")
     [Item (str "Literal data format") (str "b") [] (str "binary") []; it;
      file_time_shown o_plain env0 1577836800; Item (str "Literal data") [] [] (str "3 bytes") []], None), cst_init) /\
  text_shown (str "File name") false (str "a.txt") it /\ it = Item (str "File name") (str "a.txt") [] [] [].
Proof. eexists. split; [vm_compute; reflexivity|]. split; [apply text_item_shown | vm_compute; reflexivity]. Qed.
Example C51_witness_cut : strict_prefix (str "b") (literal_octets x62 (str "a.txt") 1577836800).
Proof. eexists. split; [|reflexivity]. discriminate. Qed.
