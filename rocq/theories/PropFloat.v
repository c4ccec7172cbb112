(** * PropFloat: the days of an expiration time (C56). *)
From Coq Require Import Strings.String Strings.Byte List NArith ZArith QArith Qabs Lqa Bool Arith Lia ZifyBool ZifyN ZifyNat.
From Verif Require Import Base BaseL Item Reader Context Env Time Values Opaque Monad Subs Tags SubParse Parse SpecBase SpecSub SpecSubs SpecPacket SpecParse SpecState Float SpecFloat FloatL Witness PropState.
Import ListNotations.
Local Open Scope N_scope.

(** The value of an item gives [t] seconds in days: a decimal number, right within a millionth of a second. *)
Definition gives_days (t : N) (it : item) : Prop :=
  exists x q, i_value it = x ++ str " days after" /\ decimal x q /\ (Qabs (q * 86400 - inject_Z (Z.of_N t)) <= 1 # 1000000)%Q.
Lemma gives_text t it : t < 2 ^ 32 -> i_value it = days_text t ++ str " days after" -> gives_days t it.
Proof. intros T V. destruct (days_text_value t T) as [q [D A]]. exists (days_text t), q. auto. Qed.

(** C56.  Every expiration time, with or without a creation time before it, is shown with its number of days. *)
Theorem C56_days : forall (E : env) (name : bytes) (start : option datetime) (f : bool) (t : N), t < 2 ^ 32 ->
  gives_days t (expire_item E name start (be_enc 4 t) f).
Proof.
  intros E name start f t T. apply gives_text; [exact T|]. cbn [expire_item i_value]. rewrite be_be_enc. change (256 ^ N.of_nat 4) with (2 ^ 32).
  rewrite N.mod_small by exact T. reflexivity.
Qed.
Print Assumptions C56_days.

(** C56.  So are the two expiration times of a signature, wherever they stand among its sub-packets. *)
Theorem C56_shown : forall (o : opts) (E : env) (s1 s2 : list (byte * bytes)) (ty : byte) (t : N) (x : bytes) (cs cs' : cst) (is : list item),
  Forall (fun p => lenN (snd p) < 2 ^ 16) (s1 ++ (ty, be_enc 4 t ++ x) :: s2) -> t < 2 ^ 32 -> four_octet_dates cs ->
  sub_type ty = 3 \/ sub_type ty = 9 ->
  sub_list o E 2 (s1 ++ (ty, be_enc 4 t ++ x) :: s2) cs = (ROk is, cs') ->
  exists it, nth_error is (length s1) = Some it /\ gives_days t it.
Proof.
  intros o E s1 s2 ty t x cs cs' is L T D TY H. destruct (C10_shown o E s1 s2 ty t x cs cs' is L T D H) as [[evs M] X].
  destruct (X evs M) as [X3 X9]. destruct TY as [TY|TY]; [specialize (X3 TY) | specialize (X9 TY)]; eexists; (split; [eassumption|]); apply gives_text; auto.
Qed.
Print Assumptions C56_shown.
Example C56_shown_used : sub_list o_plain env0 2 [(x10, be_enc 8 5); (x09, be_enc 4 100000)] cst_init <> (RFuel, cst_init) /\
  match sub_list o_plain env0 2 [(x10, be_enc 8 5); (x09, be_enc 4 100000)] cst_init with
  | (ROk is, _) => option_map i_value (nth_error is 1) = Some (str "1.1574074074074074 days after")
  | _ => False
  end.
Proof. split; [vm_compute; discriminate | vm_compute; reflexivity]. Qed.

(** C56.  A decimal text has one value... *)
Theorem C56_one_value : forall (x : bytes) (q q' : Q), decimal x q -> decimal x q' -> q = q'.
Proof. exact decimal_unique. Qed.
Print Assumptions C56_one_value.
(** ... so different expiration times are shown differently, and a longer one by a greater number. *)
Theorem C56_order : forall (t t' : N) (it it' : item), t < t' -> gives_days t it -> gives_days t' it' ->
  exists x x' q q', i_value it = x ++ str " days after" /\ i_value it' = x' ++ str " days after" /\ decimal x q /\ decimal x' q' /\ (q < q')%Q.
Proof.
  intros t t' it it' L (x & q & V & D & A) (x' & q' & V' & D' & A'). exists x, x', q, q'. repeat (split; [assumption|]).
  apply Qabs_Qle_condition in A as [A1 A2]. apply Qabs_Qle_condition in A' as [A1' A2'].
  assert (inject_Z (Z.of_N t + 1) <= inject_Z (Z.of_N t'))%Q as L1 by (rewrite <- Zle_Qle; lia). rewrite inject_Z_plus in L1. change (inject_Z 1) with 1%Q in L1. lra.
Qed.
Print Assumptions C56_order.
Theorem C56_injective : forall (E E' : env) (name name' : bytes) (start start' : option datetime) (f f' : bool) (t t' : N), t < 2 ^ 32 -> t' < 2 ^ 32 ->
  i_value (expire_item E name start (be_enc 4 t) f) = i_value (expire_item E' name' start' (be_enc 4 t') f') -> t = t'.
Proof.
  intros E E' name name' start start' f f' t t' T T' H. cbn [expire_item i_value] in H. rewrite !be_be_enc in H. change (256 ^ N.of_nat 4) with (2 ^ 32) in H.
  rewrite !N.mod_small in H by assumption. apply app_inv_tail in H. exact (days_text_inj t t' T T' H).
Qed.
Print Assumptions C56_injective.

(** C56.  A whole number of days is shown as this number. *)
Theorem C56_whole_days : forall (E : env) (name : bytes) (start : option datetime) (f : bool) (d : N), 86400 * d < 2 ^ 32 ->
  i_value (expire_item E name start (be_enc 4 (86400 * d)) f) = dec d ++ str " days after".
Proof.
  intros E name start f d T. cbn [expire_item i_value]. rewrite be_be_enc. change (256 ^ N.of_nat 4) with (2 ^ 32).
  rewrite N.mod_small by exact T. rewrite days_text_whole by exact T. reflexivity.
Qed.
Print Assumptions C56_whole_days.

Example C56_used :
  map days_text [0; 1; 8; 9; 90; 3600; 86400; 100000; 1000000; 31557600; 86400 * 49710; 4294967295] =
  map str ["0"; "1.1574074074074073e-05"; "9.259259259259259e-05"; "0.00010416666666666667"; "0.0010416666666666667"; "0.041666666666666664"; "1";
           "1.1574074074074074"; "11.574074074074074"; "365.25"; "49710"; "49710.26961805556"]%string.
Proof. vm_compute. reflexivity. Qed.
