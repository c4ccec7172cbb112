(** * SizeTL: packets and sub-packets hold a bounded amount of text for each octet, without the debug option. *)
From Coq Require Import Strings.String Strings.Byte List NArith ZArith Bool Arith Lia ZifyBool ZifyN ZifyNat.
From Verif Require Import Base Item Reader Context Env Values Opaque Monad Pubkey S2k Subs Tags Parse.
From Verif Require Import SpecBase SpecParse BaseL ReaderL FrameL SizeL SizeItemL SizePL.
Import ListNotations.
Local Open Scope Z_scope.

Lemma dec20 n : (n < 2 ^ 63)%N -> lenZ (dec n) <= 20.
Proof. intro H. exact (dec_le 19 n (2 ^ 63) H ltac:(vm_compute; discriminate)). Qed.
Lemma uflag_len k v : (k < 2 ^ 63)%N -> lenZ (unknown_flag k v) <= 112.
Proof. intro K. unfold unknown_flag. pose proof (dec20 k K). len. Qed.
Ltac nn := unfold got, any, in64 in *; try lia.
Ltac short_str := match goal with |- lenZ (str _) <= _ => vm_compute; discriminate | |- lenZ sUnknownData <= _ => vm_compute; discriminate end.
Ltac ready := first [assumption | short_str | nn].
Ltac item_short := lazymatch goal with
  | |- exc (v_item _ _) <= _ => apply x_v
  | |- exc (keyid_item _) <= _ => apply x_keyid
  | |- exc (pub_item _ _) <= _ => apply x_pub
  | |- exc (sig_item _ _) <= _ => apply x_sig
  | |- exc (hash_item _ _) <= _ => apply x_hash
  | |- exc (sym_item _ _) <= _ => apply x_sym
  | |- exc (aead_item _ _) <= _ => apply x_aead
  | |- exc (comp_item _ _) <= _ => apply x_comp
  | |- exc (s2k_item _ _) <= _ => apply x_s2k
  | |- exc (salt_item _ _) <= _ => apply x_salt
  | |- exc (stretch_item _) <= _ => apply x_stretch
  | |- exc (oid_item _ _) <= _ => apply x_oid
  | |- exc (litfmt_item _) <= _ => apply x_litfmt
  | |- exc (filetime_item _ _ _) <= _ => apply x_filetime; ready
  | |- exc (pubkeytime_item _ _ _) <= _ => apply x_pubtime; ready
  | |- exc (sigtime_item _ _ _) <= _ => apply x_sigtime; ready
  | |- exc (mpi_item _ _ _) <= _ => apply x_mpi; ready
  | |- exc (ecparm_item _ _ _) <= _ => apply x_ecparm; ready
  | |- exc (text_item _ _ _) <= _ => apply x_text; ready
  | |- exc (hashleft_item _) <= _ => apply x_hashleft
  | |- exc (kdf_item _ _) <= _ => apply x_kdf; ready
  | |- exc _ <= ?k => unify k 0; unfold got, in64, any in *; short
  end.
Ltac prim2 := fail.
Ltac prim := lazymatch goal with
  | |- spends _ rdByte _ _ => apply sp_rdByte; nn
  | |- spends _ (rdBytes _) _ _ => apply sp_rdBytes; nn
  | |- spends _ rd2EOF _ _ => apply sp_rd2EOF; nn
  | |- spends _ rdRest _ _ => apply sp_rest; nn
  | |- spends _ rdLen _ _ => apply sp_len; nn
  | |- spends _ getCs _ _ => apply (sp_quiet _ _ q_cs); nn
  | |- spends _ (setMode ?x) _ _ => apply (sp_quiet _ _ (q_mode x)); nn
  | |- spends _ (setSig ?x) _ _ => apply (sp_quiet _ _ (q_sig x)); nn
  | |- spends _ (setKey ?x) _ _ => apply (sp_quiet _ _ (q_key x)); nn
  | |- spends _ (dumpRest false) _ _ => apply sp_dump0; nn
  | |- spends _ (add _) _ _ => eapply sp_addk; item_short
  | |- spends _ (addo _) _ _ => apply sp_addo; first [short_str | apply uflag_len; reflexivity]
  | |- spends _ (setNote _) _ _ => apply sp_note; len
  | |- spends _ (setValue _) _ _ => apply sp_value; len
  | |- spends _ (setDump _) _ _ => apply sp_setdump
  | |- _ => prim2
  end.
Ltac fin := eapply sp_post; [prim | cbv beta; intros; split; [try exact I; auto | nn]].
Ltac sp := lazymatch goal with
  | |- spends _ (bind _ _) _ _ => try (eapply sp_bind; [prim | ]; let a := fresh "a" in let H := fresh "H" in intros a H; cbv beta in *; sp)
  | |- spends _ (ret _) _ _ => apply sp_ret; [try exact I; auto | cbv beta; nn]
  | |- spends _ (if ?b then _ else _) _ _ => let E := fresh "E" in destruct b eqn:E; sp
  | |- _ => try fin
  end.

Lemma sp_raw c n : 0 <= c -> lenZ n <= 104 -> spends c (rawData n false) (fun i => exc i <= 0) (fun _ => c).
Proof.
  intros C N. unfold rawData. eapply sp_bind; [prim|]. intros z Z. cbv beta. eapply sp_bind; [prim|]. intros d ->. cbv beta. apply sp_ret; [|lia].
  rewrite exc_leaf. unfold in64 in Z. len.
Qed.
Lemma sp_addRest c n : 0 <= c -> lenZ n <= 104 -> spends c (addRest n false) any (fun _ => c).
Proof.
  intros C N. unfold addRest. eapply sp_bind; [prim|]. intros z Z. cbv beta. destruct (0 <? z); [|sp].
  eapply sp_bind; [apply sp_raw; nn|]. intros i Hi. cbv beta in *. eapply sp_post; [apply (sp_addk _ 0); exact Hi|]. intros; split; [exact I|nn].
Qed.
Lemma sp_mpi c : 0 <= c -> spends c newMPI (fun m => (m_bits m < 65536)%N /\ 0 <= lenZ (m_data m)) (fun m => c + 12 * lenZ (m_data m)).
Proof.
  intro C. unfold newMPI. eapply sp_bind; [prim|]. intros l L. cbv beta. cbv zeta. eapply sp_bind; [prim|]. intros d D. cbv beta. apply sp_ret; cbn [m_bits m_data]; [|nn].
  split; [apply be2; nn|nn].
Qed.
Lemma sp_oid c : 0 <= c -> spends c newOID (fun d => 0 <= lenZ d) (fun d => c + 12 * lenZ d).
Proof.
  intro C. unfold newOID. eapply sp_bind; [prim|]. intros l L. cbv beta. destruct (_ =? 0)%N; [apply sp_ret; change (@lenZ byte []) with 0; nn|].
  eapply sp_post; [prim|]. intros d D. cbv beta. split; nn.
Qed.
Lemma sp_dt c u : 0 <= c -> spends c (newDateTime u) (fun d => lenZ (dt_tm d) <= 4) (fun _ => c).
Proof. intro C. unfold newDateTime. eapply sp_bind; [prim|]. intros d D. cbv beta. apply sp_ret; cbn [dt_tm]; nn. Qed.
Lemma sp_fname c n : 0 <= c -> spends c (newLiteralFname n) (fun d => 0 <= lenZ d) (fun d => c + 12 * lenZ d).
Proof.
  intro C. unfold newLiteralFname. destruct (n <? 1); [apply sp_ret; change (@lenZ byte []) with 0; nn|]. eapply sp_post; [prim|]. intros d D. cbv beta. split; nn.
Qed.
Lemma sp_ecparm c : 0 <= c -> spends c newECParm (fun d => 0 <= lenZ d < 2 ^ 62) (fun d => c + 12 * lenZ d).
Proof.
  intros C s W. unfold newECParm. pose proof (sp_rdByte 0 (Z.le_refl 0) s W) as H. destruct (rdByte s) as [[b|e| |] s']; auto.
  - destruct H as (H1 & H2 & _). cbv beta in H2. destruct (b2n b =? 0)%N.
    + split; [auto|]. change (lenZ (@nil byte)) with 0. lia.
    + pose proof (sp_rdBytes 12 (Z.of_N (b2n b)) ltac:(lia) s' H1) as K. destruct (rdBytes _ s') as [[d|e| |] s'']; auto.
      * destruct K as (K1 & K2 & K3). cbv beta in K2. split; [auto|]. unfold got in K3. lia.
      * destruct K. split; [auto|]. lia.
  - destruct H. split; [auto|]. change (lenZ (@nil byte)) with 0. lia.
Qed.
Ltac prim2 ::= lazymatch goal with
  | |- spends _ newMPI _ _ => apply sp_mpi; nn
  | |- spends _ newOID _ _ => apply sp_oid; nn
  | |- spends _ (newDateTime _) _ _ => apply sp_dt; nn
  | |- spends _ (newLiteralFname _) _ _ => apply sp_fname; nn
  | |- spends _ newECParm _ _ => apply sp_ecparm; nn
  | |- spends _ (addRest _ false) _ _ => apply sp_addRest; ready
  end.

(** Algorithm-specific fields. *)
Lemma sp_addMPI c o n : 0 <= c -> lenZ n <= 104 -> spends c (addMPI o n) any (fun _ => c).
Proof.
  intros C N. unfold addMPI. eapply sp_bind; [prim|]. intros m [M1 M2]. cbv beta in *. eapply sp_post; [eapply sp_addk; apply x_mpi; ready|]. intros; split; [exact I|nn].
Qed.
Lemma sp_addPoint c o n : 0 <= c -> lenZ n <= 40 -> spends c (addPoint o n) any (fun _ => c).
Proof.
  intros C N. unfold addPoint. eapply sp_bind; [prim|]. intros m [M1 M2]. cbv beta in *. pose proof (point_len n (mpi_flag m)).
  eapply sp_post; [eapply sp_addk; apply x_mpi; [lia|exact M1]|]. intros; split; [exact I|nn].
Qed.
Lemma sp_addOID c : 0 <= c -> spends c addOID any (fun _ => c).
Proof. intro C. unfold addOID. sp. Qed.
Lemma sp_sized c o z n : oDebug o = false -> 0 <= c -> in64 z -> lenZ n <= 104 -> spends c (addSized o z n) any (fun _ => c).
Proof.
  intros D C Z N. unfold addSized. rewrite D. eapply sp_bind; [prim|]. intros d ->. cbv beta. eapply sp_post; [apply (sp_addk _ 0); rewrite exc_leaf; unfold in64 in Z; len|].
  intros; split; [exact I|nn].
Qed.
Ltac prim2 ::= lazymatch goal with
  | |- spends _ newMPI _ _ => apply sp_mpi; nn
  | |- spends _ newOID _ _ => apply sp_oid; nn
  | |- spends _ (newDateTime _) _ _ => apply sp_dt; nn
  | |- spends _ (newLiteralFname _) _ _ => apply sp_fname; nn
  | |- spends _ newECParm _ _ => apply sp_ecparm; nn
  | |- spends _ (addRest _ false) _ _ => apply sp_addRest; ready
  | |- spends _ (addMPI _ _) _ _ => apply sp_addMPI; ready
  | |- spends _ (addPoint _ _) _ _ => apply sp_addPoint; ready
  | |- spends _ addOID _ _ => apply sp_addOID; nn
  | |- spends _ (addSized _ _ _) _ _ => apply sp_sized; [assumption|nn|assumption|first [short_str | cbv delta [with_pub] beta; len]]
  end.
Lemma sp_pub c o p : oDebug o = false -> 0 <= c -> spends c (parsePub o p) any (fun _ => c).
Proof. intros D C. unfold parsePub, rsaPub, dsaPub, elgPub, ecdhPub, ecdsaPub, eddsaPub. sp. Qed.
Lemma sp_secenc c o p : oDebug o = false -> 0 <= c -> spends c (parseSecEnc o p) any (fun _ => c).
Proof.
  intros D C. unfold parseSecEnc. eapply sp_bind; [prim|]. intros z Z. cbv beta in *. eapply sp_bind; [prim|]. intros ? _. cbv beta.
  eapply sp_bind; [apply sp_seek_end; nn|]. intros ? _. cbv beta. sp.
Qed.
Lemma sp_secplain c o p : oDebug o = false -> 0 <= c -> spends c (parseSecPlain o p) any (fun _ => c).
Proof.
  intros D C. unfold parseSecPlain, rsaSec. eapply sp_bind; [prim|]. intros z Z. cbv beta in *. sp. unfold unknownSec. cbv zeta. eapply sp_bind; [prim|].
  intros d G. cbv beta in *. rewrite D. cbn [dump_bytes]. eapply sp_post; [apply (sp_addk _ 0); rewrite exc_leaf; cbv delta [with_pub] beta; unfold in64 in Z; len|]. intros; split; [exact I|nn].
Qed.
Lemma sp_ses c o p : oDebug o = false -> 0 <= c -> spends c (parseSes o p) any (fun _ => c).
Proof. intros D C. unfold parseSes. sp. Qed.
Lemma sp_sig c o p : oDebug o = false -> 0 <= c -> spends c (parseSig o p) any (fun _ => c).
Proof. intros D C. unfold parseSig. sp. Qed.

(** String-to-key specifiers. *)
Lemma sp_s2k_fields c id f : 0 <= c -> spends c (s2k_fields id f) any (fun _ => c).
Proof.
  intro C. unfold s2k_fields. cbv zeta. destruct (_ || _ || _).
  - eapply sp_bind; [prim|]. intros h _. cbv beta. eapply sp_bind; [prim|]. intros ? _. cbv beta.
    eapply sp_bind with (P := any) (f := fun _ => c); [sp|].
    intros ? _. cbv beta. eapply sp_bind with (P := any) (f := fun _ => c); [sp|].
    intros ? _. sp.
  - destruct (_ =? 101)%N; [|sp]. eapply sp_bind; [prim|]. intros z _. cbv beta. destruct (z <? 4); [sp|].
    eapply sp_bind; [prim|]. intros mrk G. cbv beta. destruct (beqs mrk _).
    + eapply sp_bind; [prim|]. intros k _. cbv beta. cbv zeta.
      assert (exc (it_nv (str "GNU-divert-to-card") (str "Extension Number " ++ dec (1000 + b2n k))) <= 0) as X.
      { unfold it_nv. rewrite exc_leaf. pose proof (dec16 (1000 + b2n k) ltac:(pose proof (b2n_lt k); lia)). len. }
      set (gnu := it_nv _ _) in *. clearbody gnu. eapply sp_bind with (P := any) (f := fun g => c + exc g).
      { destruct (_ =? 1002)%N; [|apply sp_ret; [exact I|nn]].
        eapply sp_bind; [prim|]. intros l _. cbv beta. eapply sp_bind; [prim|]. intros ser G'. cbv beta. apply sp_ret; [exact I|].
        rewrite exc_add. assert (exc (it_nd (str "Serial Number") (dump_bytes ser true)) <= 3 * lenZ ser) by short. nn. }
      intros g _. cbv beta. eapply sp_bind; [apply sp_add|]. intros ? _. cbv beta. apply sp_ret; [exact I|nn].
    + eapply sp_bind; [apply sp_seek3; nn|]. intros ? _. cbv beta. apply sp_ret; [exact I|nn].
Qed.
Lemma sp_s2k c f : 0 <= c -> spends c (s2k_parse f) any (fun _ => c).
Proof.
  intro C. unfold s2k_parse. eapply sp_bind; [prim|]. intros ss _. cbv beta. apply sp_child; [|apply x_s2k].
  eapply sp_post; [apply sp_s2k_fields; nn|]. intros; split; [exact I|nn].
Qed.

(** Keys. *)
Lemma sp_keyTime c o E : 0 <= c -> spends c (keyTime o E) any (fun _ => c).
Proof. intro C. unfold keyTime. sp. Qed.
Lemma sp_keyAlg c o : 0 <= c -> spends c (keyAlg o) any (fun _ => c).
Proof. intro C. unfold keyAlg. sp. Qed.
Lemma sp_drop {A} b c (m : M A) : lenZ b < 2 ^ 62 -> spends 0 m any (fun _ => 0) -> 12 * lenZ b <= c ->
  spends c (with_rd (r_new b) m) any (fun _ => c - 12 * lenZ b).
Proof.
  intros S H L. eapply sp_post; [apply (sp_frame _ c _ _ _ (sp_with 0 (r_new b) m any _ (new_weak b S) H))|].
  - rewrite new_lft. lia.
  - intros [a r] _. cbv beta. cbn [fst snd]. split; [exact I|]. rewrite new_lft. pose proof (lft_pos r). lia.
Qed.
Ltac prim2 ::= lazymatch goal with
  | |- spends _ newMPI _ _ => apply sp_mpi; nn
  | |- spends _ newOID _ _ => apply sp_oid; nn
  | |- spends _ (newDateTime _) _ _ => apply sp_dt; nn
  | |- spends _ (newLiteralFname _) _ _ => apply sp_fname; nn
  | |- spends _ newECParm _ _ => apply sp_ecparm; nn
  | |- spends _ (addRest _ false) _ _ => apply sp_addRest; ready
  | |- spends _ (addMPI _ _) _ _ => apply sp_addMPI; ready
  | |- spends _ (addPoint _ _) _ _ => apply sp_addPoint; ready
  | |- spends _ addOID _ _ => apply sp_addOID; nn
  | |- spends _ (addSized _ _ _) _ _ => apply sp_sized; [assumption|nn|assumption|first [short_str | cbv delta [with_pub] beta; len]]
  | |- spends _ (parsePub _ _) _ _ => apply sp_pub; [assumption|nn]
  | |- spends _ (parseSes _ _) _ _ => apply sp_ses; [assumption|nn]
  | |- spends _ (parseSig _ _) _ _ => apply sp_sig; [assumption|nn]
  | |- spends _ (parseSecEnc _ _) _ _ => apply sp_secenc; [assumption|nn]
  | |- spends _ (parseSecPlain _ _) _ _ => apply sp_secplain; [assumption|nn]
  | |- spends _ (s2k_parse _) _ _ => apply sp_s2k; nn
  | |- spends _ (keyTime _ _) _ _ => apply sp_keyTime; nn
  | |- spends _ (keyAlg _) _ _ => apply sp_keyAlg; nn
  end.
Lemma sp_pub_parse c o E v : oDebug o = false -> 0 <= c -> spends c (pub_parse o E v) any (fun _ => c).
Proof.
  intros D C. unfold pub_parse, pubV5, pubV4, pubV3. destruct (v_isdraft v); [|destruct (v_iscur v); [|destruct (_ && _)]]; [..|sp].
  - eapply sp_bind; [prim|]. intros ? _. cbv beta. eapply sp_bind; [prim|]. intros p _. cbv beta.
    eapply sp_bind; [prim|]. intros sz Gs. cbv beta. eapply sp_bind; [prim|]. intros b Gb. cbv beta.
    eapply sp_bind; [apply (sp_drop b); [apply Gb| |nn]|].
    + eapply sp_post; [prim|]. intros; split; [exact I|lia].
    + intros q _. cbv beta. apply sp_ret; [exact I|nn].
  - sp.
  - eapply sp_bind; [prim|]. intros ? _. cbv beta. eapply sp_bind; [prim|]. intros d Gd. cbv beta.
    eapply sp_bind.
    { apply (sp_addk _ 0). rewrite exc_leaf. pose proof (dec16 _ (be2 d ltac:(nn))). len. }
    intros ? _. cbv beta. sp.
Qed.

(** Secret keys. *)
Definition rowk (f : option (option reader)) : Prop := match f with Some ro => owk ro | None => True end.
Definition roleft (f : option (option reader)) : Z := match f with Some ro => oleft ro | None => 0 end.
Lemma sp_field1 c v : 0 <= c -> spends c (getField1 v) rowk (fun f => c + roleft f).
Proof.
  intro C. unfold getField1. destruct (_ =? 5)%N; [|apply sp_ret; [exact I|cbn [roleft oleft]; lia]].
  eapply sp_bind; [prim|]. intros l _. cbv beta. destruct (_ =? 0)%N; [apply sp_ret; [exact I|cbn [roleft]; lia]|].
  eapply sp_bind; [prim|]. intros b G. cbv beta. apply sp_ret; [apply new_weak, G|]. cbn [roleft oleft]. rewrite new_lft. lia.
Qed.
Lemma sp_len4 c : 0 <= c -> spends c readLen4 any (fun _ => c).
Proof.
  intros C s W. unfold readLen4. pose proof (sp_rdBytes c 4 C s W) as H. destruct (rdBytes 4 s) as [[b|e| |] s']; auto.
  destruct H as (H1 & H2 & H3). split; [auto|]. split; [nn|exact I].
Qed.
Lemma sp_field2 c v : 0 <= c -> spends c (getField2 v) rowk (fun f => c + roleft f).
Proof.
  intro C. unfold getField2. destruct (_ =? 5)%N; [|apply sp_ret; [exact I|cbn [roleft oleft]; lia]].
  eapply sp_bind; [apply sp_len4; nn|]. intros l _. cbv beta. destruct (_ =? 0)%N; [apply sp_ret; [exact I|cbn [roleft]; lia]|].
  eapply sp_bind; [prim|]. intros b G. cbv beta. apply sp_ret; [apply new_weak, G|]. cbn [roleft oleft]. rewrite new_lft. lia.
Qed.
Lemma sp_field {A} c ro (m : M A) : owk ro -> spends 0 m any (fun _ => 0) -> oleft ro <= c ->
  spends c (opt_run ro m) (fun p => owk (snd p)) (fun p => c - oleft ro + oleft (snd p)).
Proof.
  intros W H L. eapply sp_post; [apply (sp_frame _ c _ _ _ (sp_opt 0 ro m any _ W H)); lia|].
  intros [a r] [_ R]. cbv beta. cbn [fst snd] in *. split; [exact R|lia].
Qed.
Lemma sp_sec_opts c o v u ro : oDebug o = false -> owk ro -> oleft ro <= c -> spends c (sec_opts o v u ro) any (fun _ => c - oleft ro).
Proof.
  intros D W C. unfold sec_opts. pose proof (oleft_pos ro).
  eapply sp_bind with (P := fun p => owk (snd p)) (f := fun p => c - oleft ro + oleft (snd p)).
  { destruct (negb _); [|apply sp_ret; cbn [snd]; [auto|lia]]. eapply sp_post; [apply sp_field; [exact W|sp|lia]|].
    intros [a9 r] R. cbn [snd] in *. split; [exact R|lia]. }
  intros [symid ro1] W1. cbn [snd] in W1. cbv beta. cbn [snd]. pose proof (oleft_pos ro1).
  eapply sp_bind with (P := fun p => owk (snd p)) (f := fun p => c - oleft ro + oleft (snd p)).
  { destruct (u =? 253)%N; [|apply sp_ret; cbn [snd]; [auto|lia]]. eapply sp_post; [apply sp_field; [exact W1|sp|lia]|].
    intros [a9 r] R. cbn [snd] in *. split; [exact R|lia]. }
  intros [u2 ro2] W2. cbn [snd] in W2. cbv beta. cbn [snd]. pose proof (oleft_pos ro2).
  eapply sp_bind with (P := fun p => owk (snd p)) (f := fun p => c - oleft ro + oleft (snd p)).
  { destruct (u =? 0)%N; [apply sp_ret; cbn [snd]; [auto|lia]|]. destruct (usage_s2k u); [|apply sp_ret; cbn [snd]; [auto|lia]].
    eapply sp_post; [apply sp_field; [exact W2| |lia]|].
    - eapply sp_post; [prim|]. intros; split; [exact I|lia].
    - intros [a9 r] R. cbn [snd] in *. split; [exact R|lia]. }
  intros [iv ro3] W3. cbn [snd] in W3. cbv beta. cbn [snd]. pose proof (oleft_pos ro3).
  eapply sp_bind with (P := any) (f := fun _ => c - oleft ro + oleft ro3).
  { destruct (_ && _); [|apply sp_ret; [exact I|lia]]. unfold sec_iv.
    eapply sp_bind with (P := any) (f := fun i => c - oleft ro + oleft ro3 + exc i).
    - eapply sp_bind; [prim|]. intros d G. cbv beta. apply sp_ret; [exact I|]. 
      assert (exc (it_nd (if (u =? 253)%N then str "nonce for the AEAD" else str "IV") (dump_bytes d true)) <= 3 * lenZ d) by short. nn.
    - intros i _. eapply sp_post; [apply sp_add|]. intros; split; [exact I|lia]. }
  intros ? _. cbv beta. destruct (_ =? 5)%N; [|apply sp_ret; [exact I|lia]]. rewrite D.
  eapply sp_bind; [apply sp_field; [exact W3| |lia]|].
  - eapply sp_post; [prim|]. intros; split; [exact I|lia].
  - intros [a9 r] _. cbv beta. cbn [snd]. pose proof (oleft_pos r). apply sp_ret; [exact I|lia].
Qed.
Lemma usage_len u : (u < 256)%N -> lenZ (usage_note u) <= 104.
Proof. intro H. assert (u = b2n (n2b u)) as -> by (rewrite b2n_n2b, N.mod_small by lia; reflexivity). generalize (n2b u). intro b. by_table b. Qed.
Lemma sp_sec_material c o v p u ro : oDebug o = false -> (u < 256)%N -> owk ro -> oleft ro <= c -> spends c (sec_material o v p u ro) any (fun _ => c - oleft ro).
Proof.
  intros D U W C. unfold sec_material. pose proof (oleft_pos ro). eapply sp_bind; [apply sp_note, usage_len, U|]. intros ? _. cbv beta.
  eapply sp_bind with (P := fun p => owk (snd p)) (f := fun p => c - oleft ro + oleft (snd p)).
  { destruct (u =? 0)%N.
    - eapply sp_bind; [apply sp_field; [exact W| |lia]|].
      + eapply sp_post; [prim|]. intros; split; [exact I|lia].
      + intros [a9 r] R. cbv beta. cbn [snd] in *. pose proof (oleft_pos r). eapply sp_bind; [prim|]. intros d G. cbv beta in *. eapply sp_bind.
        * apply (sp_addk _ (3 * lenZ d)). short.
        * intros ? _. cbv beta. apply sp_ret; cbn [snd]; [exact R|nn].
    - eapply sp_post; [apply sp_field; [exact W| |lia]|].
      + eapply sp_post; [prim|]. intros; split; [exact I|lia].
      + intros [a9 r] R. cbn [snd] in *. split; [exact R|lia]. }
  intros [a9 r] R. cbv beta. cbn [snd] in *. pose proof (oleft_pos r). destruct (_ =? 5)%N; [|apply sp_ret; [exact I|lia]]. rewrite D.
  eapply sp_bind; [apply sp_field; [exact R| |lia]|].
  - eapply sp_post; [prim|]. intros; split; [exact I|lia].
  - intros [a' r'] _. cbv beta. cbn [snd]. pose proof (oleft_pos r'). apply sp_ret; [exact I|lia].
Qed.
Lemma sp_sec c o v p : oDebug o = false -> 0 <= c -> spends c (sec_parse o v p) any (fun _ => c).
Proof.
  intros D C. unfold sec_parse. eapply sp_bind; [prim|]. intros u _. cbv beta. cbv zeta. eapply sp_bind; [apply sp_field1; nn|].
  intros f1 W1. cbv beta. eapply sp_bind with (P := any) (f := fun _ => c).
  { destruct f1 as [ro|]; cbn [rowk roleft] in *; [|apply sp_ret; [exact I|lia]].
    eapply sp_post; [apply sp_sec_opts; [exact D|exact W1|lia]|]. intros; split; [exact I|lia]. }
  intros ? _. cbv beta. eapply sp_bind; [apply sp_field2; nn|]. intros f2 W2. cbv beta.
  destruct f2 as [ro|]; cbn [rowk roleft] in *; [|apply sp_ret; [exact I|lia]].
  eapply sp_post; [apply sp_sec_material; [exact D|apply b2n_lt|exact W2|lia]|]. intros; split; [exact I|lia].
Qed.
