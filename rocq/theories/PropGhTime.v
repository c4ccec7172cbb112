(** * PropGhTime: C69, which texts the members created_at and expires_at may have. *)
From Coq Require Import Strings.String Strings.Byte List NArith ZArith Bool Lia ZifyBool ZifyN ZifyNat.
From Verif Require Import Base BaseL SpecBase SpecTime Github GhTime SpecGhTime GhTimeL GhJson SpecGhJson GhKeyL PropGhJson.
Import ListNotations.
Local Open Scope Z_scope.

(** Just the texts of SpecGhTime are taken for times. *)
Theorem C69_times : forall s, time_ok s = true <-> loose_time s.
Proof. exact time_ok_spec. Qed.
Print Assumptions C69_times.

(** All times as of RFC 3339 are among them. *)
Lemma worth_below d : Forall decimal_digit d -> forall acc, 0 <= acc ->
  0 <= fold_left (fun a b => 10 * a + (Z.of_N (b2n b) - 48)) d acc < (acc + 1) * 10 ^ Z.of_nat (List.length d).
Proof.
  induction 1 as [|b d D F IH]; intros acc A; cbn [fold_left List.length]; [lia|].
  unfold decimal_digit in D. specialize (IH (10 * acc + (Z.of_N (b2n b) - 48)) ltac:(lia)). rewrite Nat2Z.inj_succ, Z.pow_succ_r by lia.
  assert (0 < 10 ^ Z.of_nat (List.length d)) by (apply Z.pow_pos_nonneg; lia). nia.
Qed.
Theorem C69_rfc3339 : forall s, rfc_time s -> time_ok s = true.
Proof.
  intros s (year & month & day & hh & mm & ss & f & z & E & DY & DM & DD & DH & DMI & DS & DF & DZ & B). apply C69_times.
  exists year, month, day, hh, mm, ss, f, z. split; [exact E|]. split; [exact DY|]. split; [exact DM|]. split; [exact DD|]. split; [right; exact DH|].
  split; [exact DMI|]. split; [exact DS|]. split; [|split; [|exact B]].
  - destruct DF as [->|(n & d & -> & [L F] & N)]; [left; reflexivity|]. right. exists n, d. split; [reflexivity|]. split; [split; assumption|]. split; [lia|].
    pose proof (worth_below d F 0 ltac:(lia)) as W. unfold worth. rewrite L in W.
    assert (10 ^ Z.of_nat n <= 10 ^ 9) by (apply Z.pow_le_mono_r; lia). lia.
  - destruct DZ as [->|(sign & h & m & -> & S & H & M)]; [left; reflexivity|]. right. exists sign, h, m. split; [reflexivity|]. split; [exact S|]. split; left; assumption.
Qed.
Print Assumptions C69_rfc3339.

Lemma of_sort_weaken (T U : bytes -> Prop) : (forall x, T x -> U x) -> forall v s, of_sort T s v -> of_sort U s v.
Proof.
  intros TU v. induction v as [| | | |l IH|l IH] using jv_ind'; intros s H.
  - constructor.
  - inversion H; constructor.
  - inversion H; subst. constructor. assumption.
  - inversion H; subst; [apply sort_string | apply sort_time, TU; assumption].
  - inversion H as [| | | | |? ? F| |]; subst. constructor. rewrite Forall_forall in *. auto.
  - rewrite Forall_forall in IH. inversion H as [| | | | | |? F|? F]; subst.
    + apply sort_address. intros k v name s I1 I2 N. exact (IH (k, v) I1 s (F k v name s I1 I2 N)).
    + apply sort_key. intros k v name s I1 I2 N. exact (IH (k, v) I1 s (F k v name s I1 I2 N)).
Qed.
Lemma page_weaken (T U : bytes -> Prop) whole body keys : (forall x, T x -> U x) -> page_says T whole body keys -> page_says U whole body keys.
Proof.
  intros TU [w b rest l keys' W D N O F|w rest W R].
  - apply (page_list U whole w b rest l); try assumption. exact (of_sort_weaken T U TU _ _ O).
  - apply page_null; assumption.
Qed.

(** The decoder of the pages with its reader of times: the keys the document lists, and an error if it lists none.
    Nothing is left open here but the answers themselves. *)
Theorem C69_page_times : forall body whole keys, decode_page time_ok body whole = GKeys keys <-> page_says loose_time whole body keys.
Proof.
  intros body whole keys. rewrite C69_page. split; apply page_weaken; intro x; apply C69_times.
Qed.
Print Assumptions C69_page_times.
Theorem C69_refused_times : forall body whole, decode_page time_ok body whole = GErr <-> (forall keys, ~ page_says loose_time whole body keys).
Proof.
  intros body whole. rewrite C69_refused. split; intros H keys P; apply (H keys); revert P; apply page_weaken; intro x; apply C69_times.
Qed.
Print Assumptions C69_refused_times.

(** A time as GitHub writes them, one with a fraction and a difference, and what RFC 3339 does not have but is read: an hour of one digit,
    a difference of minus minus one hour. *)
Example C69_rfc3339_used : rfc_time (str "2016-02-29T23:59:59.123456789-06:30").
Proof.
  exists (str "2016"), (str "02"), (str "29"), (str "23"), (str "59"), (str "59"), (str ".123456789"), (str "-06:30").
  split; [reflexivity|].
  assert (forall n s, List.length s = n -> forallb (fun b => (48 <=? b2n b)%N && (b2n b <=? 57)%N) s = true -> decimals n s) as D.
  { intros n s L F. split; [exact L|]. rewrite forallb_forall in F. apply Forall_forall. intros b I. specialize (F b I). unfold decimal_digit. lia. }
  repeat (split; [apply D; reflexivity|]).
  split; [right; exists 9%nat, (str "123456789"); split; [reflexivity|]; split; [apply D; reflexivity | lia]|].
  split; [right; exists "-"%byte, (str "06"), (str "30"); split; [reflexivity|]; split; [right; reflexivity|]; split; apply D; reflexivity|].
  vm_compute. intuition congruence.
Qed.
Example C69_times_used :
  map time_ok [str "2016-03-24T11:31:04-06:00"; str "2016-03-24T11:31:04Z"; str "2016-03-24T1:31:04Z"; str "2016-03-24T11:31:04.0000000000001Z"; str "2016-03-24T11:31:04+-1:00"]
  = [true; true; true; true; true] /\
  map time_ok [str "2016-02-30T11:31:04Z"; str "2016-03-24 11:31:04Z"; str "2016-03-24T11:31:60Z"; str "2016-03-24T24:00:00Z"; str "2016-03-24T11:31:04"; str "2016-03-24T11:31:04.1234567891Z"; str "2016-03-24T11:31:04Zz"; str ""]
  = [false; false; false; false; false; false; false; false].
Proof. vm_compute. auto. Qed.
Example C69_page_times_used :
  decode_page time_ok (str "[{""key_id"": ""AB"", ""created_at"": ""2016-03-24T11:31:04-06:00"", ""expires_at"": null}]") true = GKeys [Some (mkKey (str "AB") None)] /\
  decode_page time_ok (str "[{""key_id"": ""AB"", ""created_at"": ""2016-03-24""}]") true = GErr.
Proof. vm_compute. auto. Qed.
