(** * NameL: sub-packet parsers treat the name of their item as a label only (C27). *)
From Coq Require Import Strings.String Strings.Byte List NArith ZArith Bool Lia ZifyBool ZifyN ZifyNat.
From Verif Require Import Base BaseL Item Reader Context Env Time Values Opaque Monad Subs Tags SubParse SpecBase SpecSub.
Import ListNotations.
Local Open Scope N_scope.

(** The same state with the current item renamed. *)
Definition rn (n : bytes) (s : st) : st := mkSt (s_rd s) (s_cs s) (w_name n (s_cur s)).
(** Renaming the current item before or after makes no difference. *)
Definition named {A} (m : M A) : Prop := forall n s, m (rn n s) = (fst (m s), rn n (snd (m s))).

Lemma named_ret {A} (a : A) : named (ret a).
Proof. intros n s. reflexivity. Qed.
Lemma named_bind {A B} (m : M A) (f : A -> M B) : named m -> (forall a, named (f a)) -> named (bind m f).
Proof.
  intros Hm Hf n s. unfold bind. rewrite Hm. destruct (m s) as [[a|e| |] s']; cbn [fst snd]; try reflexivity. apply Hf.
Qed.
Lemma named_on_rd {A} (f : reader -> res A * reader) : named (on_rd f).
Proof. intros n s. unfold on_rd, rn. cbn [s_rd s_cs s_cur]. destruct (f (s_rd s)). reflexivity. Qed.
Lemma named_byte : named rdByte. Proof. apply named_on_rd. Qed.
Lemma named_bytes k : named (rdBytes k). Proof. apply named_on_rd. Qed.
Lemma named_2eof : named rd2EOF. Proof. apply named_on_rd. Qed.
Lemma named_rest : named rdRest. Proof. intros n s. reflexivity. Qed.
Lemma named_len : named rdLen. Proof. intros n s. reflexivity. Qed.
Lemma named_body : named getBody. Proof. intros n s. reflexivity. Qed.
Lemma named_getcs : named getCs. Proof. intros n s. reflexivity. Qed.
Lemma named_setsig x : named (setSig x). Proof. intros n s. reflexivity. Qed.
Lemma named_setkey x : named (setKey x). Proof. intros n s. reflexivity. Qed.
Lemma named_of_res {A} (r : res A) : named (of_res r). Proof. intros n s. reflexivity. Qed.
Lemma named_upd f : (forall n i, f (w_name n i) = w_name n (f i)) -> named (upd f).
Proof. intros H n s. unfold upd, rn. cbn [s_rd s_cs s_cur fst snd]. rewrite H. reflexivity. Qed.
Lemma named_add c : named (add c). Proof. apply named_upd. intros n []. reflexivity. Qed.
Lemma named_addo c : named (addo c).
Proof. apply named_upd. intros n []. destruct c; reflexivity. Qed.
Lemma named_value x : named (setValue x). Proof. apply named_upd. intros n []. reflexivity. Qed.
Lemma named_dump x : named (setDump x). Proof. apply named_upd. intros n []. reflexivity. Qed.
Lemma named_dumprest f : named (dumpRest f).
Proof. intros n s. unfold dumpRest, rn. cbn [s_rd]. destruct f; reflexivity. Qed.
Lemma named_sub_it {A} i (m : M A) : named (sub_it i m).
Proof. intros n s. unfold sub_it, rn. cbn [s_rd s_cs s_cur]. destruct (m _) as [r s']. reflexivity. Qed.
Lemma named_mapM {A} (f : A -> M unit) l : (forall a, named (f a)) -> named (mapM_ f l).
Proof. intro H. induction l; cbn [mapM_]; [apply named_ret | apply named_bind; auto]. Qed.
Lemma named_call rec tag b : named (call_rec rec tag b).
Proof. intros n s. unfold call_rec, rn. cbn [s_cs s_rd s_cur]. destruct (rec tag b (s_cs s)). reflexivity. Qed.
Lemma named_next E : named (next_rd E).
Proof.
  intros n s. unfold next_rd, rn. cbn [s_rd s_cs s_cur].
  destruct (next_packet _ _ _ _) as [[[p|e]|] r]; reflexivity.
Qed.
Ltac nm1 := lazymatch goal with
  | |- named (bind _ _) => apply named_bind; [|intro]
  | |- named (ret _) => apply named_ret
  | |- named rdByte => apply named_byte
  | |- named (rdBytes _) => apply named_bytes
  | |- named rd2EOF => apply named_2eof
  | |- named rdRest => apply named_rest
  | |- named rdLen => apply named_len
  | |- named getBody => apply named_body
  | |- named getCs => apply named_getcs
  | |- named (setSig _) => apply named_setsig
  | |- named (setKey _) => apply named_setkey
  | |- named (of_res _) => apply named_of_res
  | |- named (add _) => apply named_add
  | |- named (addo _) => apply named_addo
  | |- named (setValue _) => apply named_value
  | |- named (setDump _) => apply named_dump
  | |- named (dumpRest _) => apply named_dumprest
  | |- named (sub_it _ _) => apply named_sub_it
  | |- named (call_rec _ _ _) => apply named_call
  | |- named (next_rd _) => apply named_next
  | |- named (mapM_ _ _) => apply named_mapM; intro
  | |- named (if ?x then _ else _) => destruct x
  end.
Ltac nm := repeat nm1.

Lemma named_raw name f : named (rawData name f). Proof. unfold rawData. nm. Qed.
Lemma named_flags l : forall k, named (flag_loop k l).
Proof. induction l; intro k; cbn [flag_loop]; nm. apply IHl. Qed.
Lemma named_more : named more_flags.
Proof. unfold more_flags. nm. apply named_flags. Qed.

(** The parsers that make their own item give it the same name again. *)
Lemma name_w n i : i_name (w_name n i) = n.
Proof. destruct i. reflexivity. Qed.
Ltac dst E := unfold E, curName, getBody, getCs, newDateTime, rdBytes, on_rd, setSig, setKey, putCur, upd, ret, rn, bind;
  cbn [s_rd s_cs s_cur fst snd]; rewrite ?name_w.
Lemma named_text o : named (sub_text o).
Proof. intros n s. dst sub_text. unfold text_item. destruct (is_nil _); [reflexivity|]. destruct (negb _); reflexivity. Qed.
Lemma named_02 o E : named (sub02 o E).
Proof. intros n s. dst sub02. destruct (r_readbytes 4 (s_rd s)) as [[d|e| |] r]; reflexivity. Qed.
Lemma w_name_expire n n' E c d f : w_name n (expire_item E n' c d f) = expire_item E n c d f.
Proof. reflexivity. Qed.
Lemma named_03 o E : named (sub03 o E).
Proof. intros n s. dst sub03. destruct (r_readbytes 4 (s_rd s)) as [[d|e| |] r]; cbn [s_rd s_cs s_cur fst snd]; try reflexivity. Qed.
Lemma named_09 o E : named (sub09 o E).
Proof. intros n s. dst sub09. destruct (r_readbytes 4 (s_rd s)) as [[d|e| |] r]; cbn [s_rd s_cs s_cur fst snd]; try reflexivity. Qed.
Lemma named_16 : named sub16.
Proof. intros n s. dst sub16. destruct (r_readbytes 8 (s_rd s)) as [[d|e| |] r]; cbn [s_rd s_cs s_cur fst snd]; try reflexivity. Qed.

Lemma named_loop rec E fuel : named (key_loop rec E fuel).
Proof. induction fuel; cbn [key_loop]; nm. destruct a as [[t b]|]; nm. exact IHfuel. Qed.
Create HintDb nam discriminated.
#[local] Hint Resolve named_ret named_text named_02 named_03 named_09 named_16 named_raw named_more named_flags named_loop : nam.
Ltac nms := cbv zeta; repeat nm1; auto with nam.
Lemma named_bool a b : named (sub_bool a b). Proof. unfold sub_bool. nms. Qed.
#[local] Hint Resolve named_bool : nam.
Lemma named_04 : named sub04. Proof. unfold sub04. nms. Qed.
Lemma named_05 : named sub05. Proof. unfold sub05. nms. Qed.
Lemma named_algs mk o : named (sub_algs mk o). Proof. unfold sub_algs. nms. Qed.
Lemma named_12 o : named (sub12 o). Proof. unfold sub12. nms. Qed.
Lemma named_20 o : named (sub20 o). Proof. unfold sub20. nms. Qed.
Lemma named_23 : named sub23. Proof. unfold sub23. nms. Qed.
Lemma named_27 : named sub27. Proof. unfold sub27. nms. Qed.
Lemma named_29 o : named (sub29 o). Proof. unfold sub29. nms. Qed.
Lemma named_30 : named sub30. Proof. unfold sub30. nms. Qed.
Lemma named_31 o : named (sub31 o). Proof. unfold sub31. nms. Qed.
Lemma named_32 rec : named (sub32 rec). Proof. unfold sub32. nms. Qed.
Lemma named_fpr : named sub_fpr. Proof. unfold sub_fpr. nms. Qed.
Lemma named_37 o : named (sub37 o). Proof. unfold sub37. nms. Qed.
Lemma named_38 rec o E : named (sub38 rec o E). Proof. unfold sub38. nms. Qed.
Lemma named_01 : named sub01. Proof. unfold sub01. nms. Qed.
#[local] Hint Resolve named_04 named_05 named_algs named_12 named_20 named_23 named_27 named_29 named_30 named_31 named_32 named_fpr
  named_37 named_38 named_01 : nam.
Lemma named_sub rec o E tagid ty : named (sub_m rec o E tagid ty).
Proof.
  unfold sub_m. generalize (bland ty 127). intro t. destruct (tagid =? 2).
  - destruct t as [|p]; [apply named_ret|]. do 7 (try destruct p as [p|p|]; auto with nam). all: apply named_bool.
  - destruct t as [|p]; [apply named_ret|]. destruct p; auto with nam.
Qed.

(** ** The name of a critical sub-packet *)
Lemma parse_sub_critical o E tagid ty ty' body cs : b2n ty < 128 -> b2n ty' = b2n ty + 128 ->
  parse_sub o E tagid ty' body cs =
  (match fst (parse_sub o E tagid ty body cs) with
   | ROk i => ROk (w_name (sub_string ty') i) | RErr e => RErr e | RPanic => RPanic | RFuel => RFuel end,
   snd (parse_sub o E tagid ty body cs)).
Proof.
  intros L H. unfold parse_sub.
  assert (bland ty' 127 = bland ty 127) as B.
  { unfold bland. change 127 with (N.ones 7). rewrite !N.land_ones, H. change (2 ^ 7) with 128.
    rewrite <- (N.mul_1_l 128) at 1. apply N.mod_add. discriminate. }
  unfold sub_m. rewrite B. fold (sub_m (parse_tag o E) o E tagid ty).
  change (mkSt (r_new body) cs (sub_item ty' body (oDebug o))) with
    (rn (sub_string ty') (mkSt (r_new body) cs (sub_item ty body (oDebug o)))).
  rewrite (named_sub (parse_tag o E) o E tagid ty).
  destruct (sub_m _ _ _ _ _ _) as [[a|e| |] s]; reflexivity.
Qed.
