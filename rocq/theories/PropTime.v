(** * PropTime: C08 and C09. *)
From Coq Require Import Strings.String Strings.Byte List NArith ZArith Bool Lia ZifyBool ZifyN.
From Verif Require Import Base BaseL SpecBase Item Context Env Values Time SpecTime TimeL Witness.
Import ListNotations.
Local Open Scope Z_scope.

(** C08.  With the utc option: the four octets that encode time [t] are shown, under the given name, as an
    RFC 3339 date-time that denotes exactly [t] and ends in Z. *)
Theorem C08_utc : forall (E : env) (name : bytes) (f : bool) (t : N), (t < 2 ^ 32)%N ->
  let it := dt_item E name (mkDT (be_enc 4 t) true) f in
  i_name it = name /\ read_rfc3339 (i_value it) = Some (Z.of_N t) /\ skipn 19 (i_value it) = str "Z"
  /\ i_note it = [] /\ i_items it = [].
Proof.
  intros E name f t H. cbn [dt_item i_name i_value i_note i_items]. unfold dt_text, dt_unix. cbn [dt_tm dt_utc].
  rewrite be_enc4 by assumption. destruct (text_utc (e_tz E) t H). auto.
Qed.
Print Assumptions C08_utc.

(** C08.  Without it, in a zone whose offset at that time is a whole number of minutes: it denotes exactly [t], and
    the zone written is that offset. *)
Theorem C08_local : forall (E : env) (name : bytes) (f : bool) (t : N), (t < 2 ^ 32)%N ->
  real_offset (e_tz E t) -> Z.rem (e_tz E t) 60 = 0 ->
  let it := dt_item E name (mkDT (be_enc 4 t) false) f in
  i_name it = name /\ read_rfc3339 (i_value it) = Some (Z.of_N t)
  /\ read_zone (skipn 19 (i_value it)) = Some (e_tz E t).
Proof.
  intros E name f t H R M. cbn [dt_item i_name i_value i_note i_items]. unfold dt_text, dt_unix. cbn [dt_tm dt_utc].
  rewrite be_enc4 by assumption. destruct (text_local (e_tz E) t H R) as [T1 T2]. rewrite M in *.
  rewrite Z.add_0_r in T1. rewrite Z.sub_0_r in T2. auto.
Qed.
Print Assumptions C08_local.

(** C08.  In a zone with seconds in its offset (as in the local mean times of old zone data) the text is off by exactly
    those seconds. *)
Theorem C08_zone_with_seconds : forall (E : env) (name : bytes) (f : bool) (t : N), (t < 2 ^ 32)%N ->
  real_offset (e_tz E t) ->
  read_rfc3339 (i_value (dt_item E name (mkDT (be_enc 4 t) false) f)) = Some (Z.of_N t + Z.rem (e_tz E t) 60).
Proof.
  intros E name f t H R. cbn [dt_item i_value]. unfold dt_text, dt_unix. cbn [dt_tm dt_utc].
  rewrite be_enc4 by assumption. apply (text_local (e_tz E) t H R).
Qed.
Print Assumptions C08_zone_with_seconds.

(** C08.  The modification time of a literal packet: 0 is shown as "null", any other time as above. *)
Theorem C08_file_time : forall (E : env) (f : bool) (t : N), (t < 2 ^ 32)%N ->
  let v := i_value (filetime_item E (mkDT (be_enc 4 t) true) f) in
  if (t =? 0)%N then v = str "null" else read_rfc3339 v = Some (Z.of_N t).
Proof.
  intros E f t H. unfold filetime_item, dt_unix. cbn [dt_tm]. rewrite be_enc4 by assumption.
  destruct (t =? 0)%N; [reflexivity|]. apply (C08_utc E (str "Creation time") f t H).
Qed.
Print Assumptions C08_file_time.

Example C08_witness :
  i_value (dt_item env0 (str "t") (mkDT (be_enc 4 951827696) true) false) = str "2000-02-29T12:34:56Z"
  /\ i_value (dt_item env0 (str "t") (mkDT (be_enc 4 951827696) false) false) = str "2000-02-29T21:34:56+09:00"
  /\ real_offset (e_tz env0 951827696) /\ Z.rem (e_tz env0 951827696) 60 = 0.
Proof. repeat split; vm_compute; reflexivity. Qed.

(** C09.  Creation time [c] (not zero) and lifetime [l] with c + l still a 32-bit time: the note is the date c + l. *)
Theorem C09_expiration_date : forall (E : env) (name : bytes) (f : bool) (c l : N),
  (0 < c)%N -> (l < 2 ^ 32)%N -> (c + l < 2 ^ 32)%N ->
  let it := expire_item E name (Some (mkDT (be_enc 4 c) true)) (be_enc 4 l) f in
  i_name it = name /\ read_rfc3339 (i_note it) = Some (Z.of_N c + Z.of_N l).
Proof.
  intros E name f c l Hc Hl H. cbn [expire_item i_name i_note]. unfold dt_unix. cbn [dt_tm dt_utc].
  rewrite !be_enc4 by lia. replace (0 <? c)%N with true by lia. unfold wrap32. rewrite N.mod_small by assumption.
  destruct (text_utc (e_tz E) (c + l) H) as [-> _]. split; [reflexivity|]. f_equal. lia.
Qed.
Print Assumptions C09_expiration_date.

(** The same without the utc option. *)
Theorem C09_expiration_date_local : forall (E : env) (name : bytes) (f : bool) (c l : N),
  (0 < c)%N -> (l < 2 ^ 32)%N -> (c + l < 2 ^ 32)%N ->
  real_offset (e_tz E (c + l)) -> Z.rem (e_tz E (c + l)) 60 = 0 ->
  let it := expire_item E name (Some (mkDT (be_enc 4 c) false)) (be_enc 4 l) f in
  i_name it = name /\ read_rfc3339 (i_note it) = Some (Z.of_N c + Z.of_N l).
Proof.
  intros E name f c l Hc Hl H R M. cbn [expire_item i_name i_note]. unfold dt_unix. cbn [dt_tm dt_utc].
  rewrite !be_enc4 by lia. replace (0 <? c)%N with true by lia. unfold wrap32. rewrite N.mod_small by assumption.
  destruct (text_local (e_tz E) (c + l) H R) as [-> _]. split; [reflexivity|]. f_equal. lia.
Qed.
Print Assumptions C09_expiration_date_local.

(** C09 is false when the sum passes 2^32 - 1: a key made in 2020 that is valid for 100 years is shown as expired in 1983. *)
Theorem C09_overflow_refuted : exists c l : N,
  (0 < c < 2 ^ 32)%N /\ (l < 2 ^ 32)%N /\
  i_note (expire_item env0 (str "Key Expiration Time") (Some (mkDT (be_enc 4 c) true)) (be_enc 4 l) false)
  = str "1983-10-31T17:31:44Z".
Proof. exists 1577836800%N, 3153600000%N. vm_compute. auto. Qed.
Print Assumptions C09_overflow_refuted.

(** C09.  What is shown in every case: the sum modulo 2^32, and no date without a creation time. *)
Theorem C09_expiration_modular : forall (E : env) (name : bytes) (f : bool) (c l : N),
  (0 < c < 2 ^ 32)%N -> (l < 2 ^ 32)%N ->
  read_rfc3339 (i_note (expire_item E name (Some (mkDT (be_enc 4 c) true)) (be_enc 4 l) f))
  = Some ((Z.of_N c + Z.of_N l) mod 2 ^ 32).
Proof.
  intros E name f c l Hc Hl. cbn [expire_item i_name i_note]. unfold dt_unix. cbn [dt_tm dt_utc].
  rewrite !be_enc4 by lia. replace (0 <? c)%N with true by lia. unfold wrap32.
  assert ((c + l) mod 2 ^ 32 < 2 ^ 32)%N as B by (apply N.mod_lt; discriminate).
  destruct (text_utc (e_tz E) _ B) as [-> _]. f_equal. rewrite N2Z.inj_mod, N2Z.inj_add. reflexivity.
Qed.
Print Assumptions C09_expiration_modular.

Theorem C09_no_creation_time : forall (E : env) (name : bytes) (f : bool) (l : bytes) (u : bool),
  i_note (expire_item E name None l f) = [] /\
  i_note (expire_item E name (Some (mkDT (be_enc 4 0) u)) l f) = [].
Proof. intros. split; reflexivity. Qed.
Print Assumptions C09_no_creation_time.

Example C09_witness :
  i_note (expire_item env0 (str "e") (Some (mkDT (be_enc 4 1577836800) true)) (be_enc 4 86400) false) = str "2020-01-02T00:00:00Z".
Proof. vm_compute. reflexivity. Qed.
