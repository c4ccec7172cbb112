(** * SizeItemL: items of bounded size, and what an item holds beyond that. *)
From Coq Require Import Strings.String Strings.Byte List NArith ZArith Bool Arith Lia ZifyBool ZifyN ZifyNat.
From Verif Require Import Base Utf8 Item Reader Context Env Time Float Values Opaque Monad Pubkey S2k Subs Tags.
From Verif Require Import SpecBase BaseL SpecCount SpecSize SizeL.
Import ListNotations.
Local Open Scope Z_scope.

(** What is beyond [k] octets. *)
Definition over (k : Z) (x : bytes) : Z := Z.max 0 (lenZ x - k).
Fixpoint exc (i : item) : Z :=
  match i with Item n v d t l => over 104 n + over 112 v + over 32 d + over 104 t + fold_right (fun j z => exc j + z) 0 l end.
Lemma over_pos k x : 0 <= over k x.
Proof. unfold over. lia. Qed.
Lemma over_short k x : lenZ x <= k -> over k x = 0.
Proof. unfold over. lia. Qed.
Lemma over_le k x n : lenZ x <= n -> over k x <= Z.max 0 (n - k).
Proof. unfold over. lia. Qed.
Lemma exc_eq n v d t l : exc (Item n v d t l) = over 104 n + over 112 v + over 32 d + over 104 t + fold_right (fun j z => exc j + z) 0 l.
Proof. reflexivity. Qed.
Lemma sum_pos l : (forall j, In j l -> 0 <= exc j) -> 0 <= fold_right (fun j z => exc j + z) 0 l.
Proof.
  induction l as [|j l IH]; intro H; cbn [fold_right]; [lia|]. pose proof (H j (or_introl eq_refl)). specialize (IH (fun k K => H k (or_intror K))). lia.
Qed.
Fixpoint isize (i : item) : nat := match i with Item _ _ _ _ l => S (list_sum (map isize l)) end.
Lemma item_strong (P : item -> Prop) : (forall n v d t l, (forall j, In j l -> P j) -> P (Item n v d t l)) -> forall i, P i.
Proof.
  intro H. assert (forall k i, (isize i <= k)%nat -> P i) as G; [|intro i; apply (G (isize i)); lia].
  induction k as [|k IH]; intros [n v d t l] L; [cbn [isize] in L; lia|]. apply H. intros j J. apply IH. cbn [isize] in L.
  assert (isize j <= list_sum (map isize l))%nat; [|lia]. clear -J. induction l as [|x l IH]; [destruct J|]. cbn [map].
  change (list_sum (?x :: ?y)) with (x + list_sum y)%nat. destruct J as [->|J]; [lia|specialize (IH J); lia].
Qed.
Lemma exc_pos i : 0 <= exc i.
Proof. induction i as [n v d t l IH] using item_strong. rewrite exc_eq. pose proof (sum_pos l IH). pose proof (over_pos 104 n). pose proof (over_pos 112 v). pose proof (over_pos 32 d). pose proof (over_pos 104 t). lia. Qed.
Lemma fold_snoc l i : fold_right (fun j z => exc j + z) 0 (l ++ [i]) = fold_right (fun j z => exc j + z) 0 l + exc i.
Proof. induction l as [|j l IH]; cbn [app fold_right]; [lia|]. rewrite IH. lia. Qed.
Lemma exc_add i j : exc (add_child i j) = exc i + exc j.
Proof. destruct j as [n v d t l]. cbn [add_child]. rewrite !exc_eq, fold_snoc. lia. Qed.
Lemma exc_leaf n v d t : exc (Item n v d t []) = over 104 n + over 112 v + over 32 d + over 104 t.
Proof. rewrite exc_eq. cbn [fold_right]. lia. Qed.
Lemma exc_value x i : exc (w_value x i) <= exc i + over 112 x.
Proof. destruct i as [n v d t l]. cbn [w_value]. rewrite !exc_eq. pose proof (over_pos 112 v). lia. Qed.
Lemma exc_note x i : exc (w_note x i) <= exc i + over 104 x.
Proof. destruct i as [n v d t l]. cbn [w_note]. rewrite !exc_eq. pose proof (over_pos 104 t). lia. Qed.
Lemma exc_dump x i : exc (w_dump x i) <= exc i + over 32 x.
Proof. destruct i as [n v d t l]. cbn [w_dump]. rewrite !exc_eq. pose proof (over_pos 32 d). lia. Qed.
Lemma exc_name x i : exc (w_name x i) <= exc i + over 104 x.
Proof. destruct i as [n v d t l]. cbn [w_name]. rewrite !exc_eq. pose proof (over_pos 104 n). lia. Qed.

(** All the text: 352 octets an item, and what is beyond. *)
Lemma octets_exc i : Z.of_nat (item_octets i) <= 352 * Z.of_nat (item_count i) + exc i.
Proof.
  induction i as [n v d t l IH] using item_strong. rewrite exc_eq. cbn [item_octets item_count].
  assert (Z.of_nat (list_sum (map item_octets l)) <= 352 * Z.of_nat (list_sum (map item_count l)) + fold_right (fun j z => exc j + z) 0 l) as H.
  { clear n v d t. induction l as [|j l IHl]; [cbn [map list_sum fold_right]; lia|]. cbn [map fold_right]. change (list_sum (?x :: ?y)) with (x + list_sum y)%nat.
    pose proof (IH j (or_introl eq_refl)). specialize (IHl (fun k K => IH k (or_intror K))). lia. }
  unfold over, lenZ. lia.
Qed.

(** The names of algorithms and types. *)
Ltac by_table b := match goal with |- lenZ ?x <= ?k => let P := eval pattern b in (lenZ x <=? k) in
  lazymatch P with ?f b => apply Z.leb_le; change (f b = true); apply byte_all; vm_compute; reflexivity end end.
Lemma pub_len b : lenZ (pub_string b) <= 64. Proof. by_table b. Qed.
Lemma sig_len b : lenZ (sig_string b) <= 80. Proof. by_table b. Qed.
Lemma hash_len b : lenZ (hash_string b) <= 64. Proof. by_table b. Qed.
Lemma sym_len b : lenZ (sym_string b) <= 64. Proof. by_table b. Qed.
Lemma aead_len b : lenZ (aead_string b) <= 64. Proof. by_table b. Qed.
Lemma comp_len b : lenZ (comp_string b) <= 64. Proof. by_table b. Qed.
Lemma s2k_len b : lenZ (s2k_string b) <= 64. Proof. by_table b. Qed.
Lemma sub_len b : lenZ (sub_string b) <= 80. Proof. by_table b. Qed.
Lemma stretch_len b : lenZ (dec (stretch_count b)) <= 20. Proof. by_table b. Qed.
Lemma chunk_len b : lenZ (dec (chunk_size b)) <= 20. Proof. by_table b. Qed.
Lemma lit_len b : lenZ (msgs_get literal_names (b2n b) (str "unknown")) <= 20. Proof. by_table b. Qed.
Lemma reason_len b : lenZ ((if in_private (b2n b) then str "(Private Use)" else msgs_get reason_names (b2n b) (str "Unknown reason")) ++ str " (" ++ dec (b2n b) ++ str ")") <= 80. Proof. by_table b. Qed.
Lemma secenc_len b : lenZ (secenc_name b) <= 80. Proof. by_table b. Qed.
Lemma tag_len t : (t < 64)%N -> lenZ (tag_string t) <= 64.
Proof.
  intro H. assert (t = b2n (n2b t)) as -> by (rewrite b2n_n2b, N.mod_small by lia; reflexivity). generalize (n2b t). intro b. by_table b.
Qed.
Lemma msgs_len m k : (forall p, In p m -> lenZ (str (snd p)) <= k) -> forall i d, lenZ d <= k -> lenZ (msgs_get m i d) <= k.
Proof.
  intros H i d D. induction m as [|[j s] m IH]; [exact D|]. cbn [msgs_get]. destruct (j =? i)%N; [exact (H (j, s) (or_introl eq_refl))|].
  apply IH. intros p P. apply H. right. exact P.
Qed.
Lemma point_len a f : lenZ (point_name a f) <= lenZ a + 60.
Proof.
  unfold point_name. rewrite !lenZ_app. assert (lenZ (msgs_get point_names f sUnknown) <= 40).
  { apply msgs_len; [|vm_compute; discriminate]. intros p P. repeat (destruct P as [<-|P]; [vm_compute; discriminate|]). destruct P. }
  change (lenZ (str " EC point (")) with 11. change (lenZ (str ")")) with 1. lia.
Qed.
Lemma oid_len oid : lenZ (oid_string oid) <= 40.
Proof.
  unfold oid_string. assert (forall l, (forall p, In p l -> lenZ (fst p) <= 40) -> lenZ (oid_string_in l oid) <= 40) as H.
  { induction l as [|[k v] l IH]; intro F; cbn [oid_string_in]; [vm_compute; discriminate|]. destruct (beqs oid v); [exact (F (k, v) (or_introl eq_refl))|].
    apply IH. intros p P. apply F. right. exact P. }
  apply H. intros p P. unfold oid_list in P. repeat (destruct P as [<-|P]; [vm_compute; discriminate|]). destruct P.
Qed.
Lemma unix_len tz t u : lenZ (unixtime2rfc3339 tz t u) <= 25.
Proof. apply rfc3339_len. Qed.
Lemma hex2_len b : lenZ (hex2 b) = 2.
Proof. unfold hex2, lenZ. rewrite hexw_length. reflexivity. Qed.
Lemma hex0x2_len b : lenZ (hex0x2 b) = 4.
Proof. unfold hex0x2. rewrite lenZ_app, hex2_len. reflexivity. Qed.
Lemma keyid_len b : lenZ (keyid_string b) = 18.
Proof. unfold keyid_string, hex0x16. rewrite lenZ_app. unfold lenZ at 2. rewrite hexw_length. reflexivity. Qed.
Lemma be_bits l n : lenZ l <= n -> 0 <= n -> (be l < 256 ^ Z.to_N n)%N.
Proof. intros L N. eapply N.lt_le_trans; [apply be_lt|]. apply N.pow_le_mono_r; [discriminate|]. unfold lenN, lenZ in *. lia. Qed.
Lemma be4 l : lenZ l <= 4 -> (be l < 2 ^ 32)%N.
Proof. intro L. exact (be_bits l 4 L ltac:(lia)). Qed.
Lemma be2 l : lenZ l <= 2 -> (be l < 65536)%N.
Proof. intro L. exact (be_bits l 2 L ltac:(lia)). Qed.
Lemma dec16 n : (n < 65536)%N -> lenZ (dec n) <= 5.
Proof. intro H. apply (dec_le 4 n 65536 H). vm_compute. discriminate. Qed.
Lemma lenZ_pos {A} (l : list A) : 0 <= lenZ l.
Proof. unfold lenZ. lia. Qed.
Lemma wrap64_in z : - 2 ^ 63 <= wrap64 z < 2 ^ 63.
Proof. unfold wrap64. pose proof (Z.mod_pos_bound (z + 2 ^ 63) (2 ^ 64)). lia. Qed.

(** Bounds for the lengths in the goal. *)
Ltac len := unfold over, sUnknownData; rewrite ?lenZ_app;
  repeat match goal with
  | |- context [lenZ (str ?s)] => let v := eval vm_compute in (lenZ (str s)) in change (lenZ (str s)) with v
  | |- context [@lenZ byte []] => change (@lenZ byte []) with 0
  | |- context [lenZ sUnknown] => change (lenZ sUnknown) with 7
  | |- context [lenZ (if ?b then _ else _)] => destruct b
  | |- context [lenZ (match ?b with _ => _ end)] => destruct b
  | |- context [lenZ (hex2 ?b)] => rewrite (hex2_len b)
  | |- context [lenZ (hex0x2 ?b)] => rewrite (hex0x2_len b)
  | |- context [lenZ (keyid_string ?b)] => rewrite (keyid_len b)
  end;
  repeat match goal with
  | |- context [lenZ (?f ?x)] => lazymatch goal with H : lenZ (f x) <= _ |- _ => fail | |- _ => idtac end;
    lazymatch f with
    | dec => match x with b2n ?b => pose proof (dec_byte b) | v_num _ => unfold v_num; let b := match x with v_num ?v => v end in pose proof (dec_byte (v_ver b))
             | stretch_count ?b => pose proof (stretch_len b) | chunk_size ?b => pose proof (chunk_len b) end
    | pub_string => pose proof (pub_len x) | sig_string => pose proof (sig_len x) | hash_string => pose proof (hash_len x) | sym_string => pose proof (sym_len x)
    | aead_string => pose proof (aead_len x) | comp_string => pose proof (comp_len x) | s2k_string => pose proof (s2k_len x) | sub_string => pose proof (sub_len x)
    | secenc_name => pose proof (secenc_len x) | oid_string => pose proof (oid_len x) | point_name ?a => pose proof (point_len a x)
    | unixtime2rfc3339 ?tz ?t => pose proof (unix_len tz t x) | enc_rune => pose proof (enc_rune_len x)
    | dump_byte ?b => pose proof (dump_byte_len b x) | dump_bytes ?l => pose proof (dump_bytes_len l x)
    | sanitize => pose proof (sanitize_len x)
    | n_bytes => let H := fresh in assert (lenZ (n_bytes x) <= 32) as H by (apply n_bytes_len; lia)
    end
  end;
  repeat match goal with H : context [lenZ (str ?s)] |- _ => let v := eval vm_compute in (lenZ (str s)) in change (lenZ (str s)) with v in H end;
  repeat match goal with |- context [lenZ ?x] => lazymatch goal with H : 0 <= lenZ x |- _ => fail | |- _ => pose proof (lenZ_pos x) end end;
  lia.
Ltac leaf := cbv delta [v_item v_note keyid_item pub_item sig_item hash_item sym_item aead_item comp_item s2k_item salt_item stretch_item
    dt_item dt_text filetime_item pubkeytime_item sigtime_item oid_item ecparm_item mpi_item litfmt_item litfmt_string text_item hashleft_item it_nv it_nd with_pub unknown_flag] beta;
  rewrite ?exc_leaf.
Ltac short := leaf; len.

Lemma x_v v f : exc (v_item v f) <= 0. Proof. short. Qed.
Lemma x_keyid b : exc (keyid_item b) <= 0. Proof. short. Qed.
Lemma x_pub b f : exc (pub_item b f) <= 0. Proof. short. Qed.
Lemma x_sig b f : exc (sig_item b f) <= 0. Proof. short. Qed.
Lemma x_hash b f : exc (hash_item b f) <= 0. Proof. short. Qed.
Lemma x_sym b f : exc (sym_item b f) <= 0. Proof. short. Qed.
Lemma x_aead b f : exc (aead_item b f) <= 0. Proof. short. Qed.
Lemma x_comp b f : exc (comp_item b f) <= 0. Proof. short. Qed.
Lemma x_s2k b f : exc (s2k_item b f) <= 0. Proof. short. Qed.
Lemma x_salt l f : exc (salt_item l f) <= 3 * lenZ l. Proof. short. Qed.
Lemma x_stretch b : exc (stretch_item b) <= 0. Proof. short. Qed.
Lemma x_oid l f : exc (oid_item l f) <= 3 * lenZ l. Proof. short. Qed.
Lemma x_litfmt b : exc (litfmt_item b) <= 0. Proof. pose proof (lit_len b). short. Qed.
Lemma x_dt E n d f : lenZ n <= 104 -> lenZ (dt_tm d) <= 4 -> exc (dt_item E n d f) <= 0. Proof. intros. short. Qed.
Lemma x_filetime E d f : lenZ (dt_tm d) <= 4 -> exc (filetime_item E d f) <= 0.
Proof. intros. unfold filetime_item. destruct (dt_unix d =? 0)%N; [short|]. apply x_dt; [vm_compute; discriminate|assumption]. Qed.
Lemma x_pubtime E d f : lenZ (dt_tm d) <= 4 -> exc (pubkeytime_item E d f) <= 0.
Proof. intros. apply x_dt; [vm_compute; discriminate|assumption]. Qed.
Lemma x_sigtime E d f : lenZ (dt_tm d) <= 4 -> exc (sigtime_item E d f) <= 0.
Proof. intros. apply x_dt; [vm_compute; discriminate|assumption]. Qed.
Lemma x_expire E n s day f : lenZ n <= 104 -> lenZ day <= 4 -> exc (expire_item E n s day f) <= 0.
Proof.
  intros N D. unfold expire_item. cbv zeta. rewrite exc_leaf. pose proof (days_len (be day) (be4 day D)) as L. set (x := days_text (be day)) in *. clearbody x.
  destruct s as [d|]; [destruct (0 <? dt_unix d)%N|destruct (0 <? 0)%N]; len.
Qed.
Lemma x_mpi n m f : lenZ n <= 104 -> (m_bits m < 65536)%N -> exc (mpi_item n m f) <= 3 * lenZ (m_data m).
Proof. intros N B. pose proof (dec16 _ B). short. Qed.
Lemma x_ecparm n l f : lenZ n <= 104 -> lenZ l < 2 ^ 62 -> exc (ecparm_item n l f) <= 3 * lenZ l.
Proof. intros N B. pose proof (lenZ_pos l). short. Qed.
Lemma x_text n l f : lenZ n <= 104 -> exc (text_item n l f) <= 11 * lenZ l.
Proof. intro N. unfold text_item. destruct (is_nil l); [|destruct (negb _)]; rewrite exc_leaf; len. Qed.
Lemma x_hashleft l : exc (hashleft_item l) <= 3 * lenZ l. Proof. short. Qed.
Lemma x_kdf o ep : lenZ ep < 2 ^ 62 -> exc (kdf_item o ep) <= 3 * lenZ ep.
Proof.
  intro L. unfold kdf_item. cbv zeta. pose proof (x_ecparm (str "KDF parameters") ep (oInteger o) ltac:(vm_compute; discriminate) L) as X.
  pose proof (exc_value sUnknown (ecparm_item (str "KDF parameters") ep (oInteger o))) as V. change (over 112 sUnknown) with 0 in V.
  destruct ep as [|e0 [|e1 [|e2 t]]]; try (destruct (b2n e0 =? 1)%N); rewrite ?exc_add; try lia.
  pose proof (x_hash e1 (oDebug o)). pose proof (x_sym e2 (oDebug o)). lia.
Qed.
Lemma x_sub b l : lenZ l < 2 ^ 62 -> exc (sub_item b l false) <= 0.
Proof. intro L. pose proof (lenZ_pos l). unfold sub_item. rewrite exc_leaf. cbn [dump_bytes]. len. Qed.
Lemma x_tag t l f : (t < 64)%N -> lenZ l < 2 ^ 62 -> exc (tag_item t l f) <= if f then 3 * lenZ l else 0.
Proof.
  intros T L. pose proof (lenZ_pos l). pose proof (tag_len t T). unfold tag_item. rewrite exc_leaf. destruct f; [|cbn [dump_bytes]]; len.
Qed.
