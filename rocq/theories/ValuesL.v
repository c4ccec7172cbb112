(** * ValuesL: lemmas about identifiers, dumps and curve names. *)
From Coq Require Import Strings.String Strings.Byte List NArith ZArith Bool Lia ZifyBool ZifyN ZifyNat Permutation.
From Verif Require Import Base BaseL SpecBase Item Reader Context Env Values Tags SpecValues.
Import ListNotations.
Local Open Scope N_scope.

(** ** Dumps *)

Lemma hex2_two_hex b : hex2 b = two_hex b.
Proof.
  apply beqs_spec. revert b. apply (byte_all (fun b => beqs (hex2 b) (two_hex b))). vm_compute. reflexivity.
Qed.

Lemma hex_pair_two_hex b : forall x y, two_hex b = [x; y] -> hex_pair x y = Some b.
Proof.
  intros x y H. unfold two_hex in H. inversion H; subst. clear H.
  assert (E : forall b, match hex_pair (nth_digit (b2n b / 16)) (nth_digit (b2n b mod 16)) with
                        | Some c => Byte.eqb c b | None => false end = true)
    by (apply byte_all; vm_compute; reflexivity).
  specialize (E b). destruct (hex_pair _ _); [|discriminate]. apply byte_eqb_spec in E. congruence.
Qed.

Lemma hex2_pair b : exists x y, hex2 b = [x; y] /\ hex_pair x y = Some b.
Proof.
  rewrite hex2_two_hex. exists (nth_digit (b2n b / 16)), (nth_digit (b2n b mod 16)).
  split; [reflexivity | apply hex_pair_two_hex; reflexivity].
Qed.

Lemma hexdump_tail l : read_dump_tail (hexdump_from (str " ") l) = Some l.
Proof.
  induction l as [|b l IH]; [reflexivity|]. cbn [hexdump_from].
  destruct (hex2_pair b) as (x & y & E & P). rewrite E. change (str " ") with [x20] in *.
  cbn [app read_dump_tail]. rewrite byte_eqb_refl, P, IH. reflexivity.
Qed.

Lemma hexdump_read l : read_dump (hexdump l) = Some l.
Proof.
  destruct l as [|b l]; [reflexivity|]. unfold hexdump, read_dump. cbn [hexdump_from app].
  pose proof (hexdump_tail (b :: l)) as H. cbn [hexdump_from] in H.
  destruct (hex2_pair b) as (x & y & E & P). rewrite E in *. exact H.
Qed.

Lemma hexdump_inj a b : hexdump a = hexdump b -> a = b.
Proof. intro H. pose proof (hexdump_read a) as A. rewrite H, hexdump_read in A. congruence. Qed.

(** The reader accepts nothing but dumps. *)
Lemma hex_pair_canon x y b : hex_pair x y = Some b -> [x; y] = two_hex b.
Proof.
  intro H.
  assert (E : forall x y, match hex_pair x y with Some b => beqs [x; y] (two_hex b) | None => true end = true).
  { intros u v. revert v. apply byte_all. revert u. apply byte_all. vm_compute. reflexivity. }
  specialize (E x y). rewrite H in E. apply beqs_spec in E. exact E.
Qed.

Lemma read_dump_tail_canon : forall n l, (length l <= n)%nat -> forall d, read_dump_tail l = Some d -> l = hexdump_from (str " ") d.
Proof.
  induction n as [|n IH]; intros l Hl d H.
  { destruct l; [|cbn in Hl; lia]. inversion H. reflexivity. }
  destruct l as [|s [|a [|b t]]]; try discriminate; [inversion H; reflexivity|].
  cbn [read_dump_tail] in H. destruct (Byte.eqb s x20) eqn:Es; [|discriminate].
  destruct (hex_pair a b) as [x|] eqn:P; [|discriminate].
  destruct (read_dump_tail t) as [r|] eqn:R; [|discriminate]. inversion H; subst.
  apply byte_eqb_spec in Es. subst s. cbn [hexdump_from]. rewrite hex2_two_hex, <- (hex_pair_canon _ _ _ P).
  cbn in Hl. rewrite (IH t ltac:(lia) r R) at 1. reflexivity.
Qed.

Lemma read_dump_canon l d : read_dump l = Some d -> l = hexdump d.
Proof.
  destruct l as [|b l]; intro H; [inversion H; reflexivity|].
  unfold read_dump in H. apply (read_dump_tail_canon (length (x20 :: b :: l)) _ (le_n _)) in H.
  destruct d as [|c d]; [discriminate|]. cbn [hexdump_from] in H. unfold hexdump. cbn [hexdump_from app].
  change (str " ") with [x20] in H at 1. cbn [app] in H. inversion H. reflexivity.
Qed.

(** ** Key IDs *)

Lemma hexw_be l : hexw hexdig (2 * length l) (be l) = flat_map two_hex l.
Proof.
  induction l as [|b l IH] using rev_ind; [reflexivity|].
  rewrite app_length. cbn [length]. replace (2 * (length l + 1))%nat with (2 * length l + 2)%nat by lia.
  rewrite hexw_app. change (16 ^ N.of_nat 2) with 256.
  rewrite be_app, be_cons, be_nil, lenN_cons, !lenN_nil. change (256 ^ (1 + 0)) with 256. change (256 ^ 0) with 1.
  pose proof (b2n_lt b).
  replace ((be l * 256 + (b2n b * 1 + 0)) / 256) with (be l).
  2:{ rewrite N.div_add_l by discriminate. rewrite N.div_small by lia. lia. }
  rewrite IH, flat_map_app. f_equal. cbn [flat_map]. rewrite app_nil_r, <- hex2_two_hex. unfold hex2.
  cbn [hexw app]. rewrite N.mul_1_r, N.add_0_r.
  replace ((be l * 256 + b2n b) mod 16) with (b2n b mod 16).
  2:{ replace (be l * 256 + b2n b) with (b2n b + be l * 16 * 16) by lia. rewrite N.mod_add by discriminate. reflexivity. }
  replace ((be l * 256 + b2n b) / 16) with (be l * 16 + b2n b / 16).
  2:{ replace (be l * 256 + b2n b) with (be l * 16 * 16 + b2n b) by lia. rewrite N.div_add_l by discriminate. reflexivity. }
  replace ((be l * 16 + b2n b / 16) mod 16) with ((b2n b / 16) mod 16).
  2:{ rewrite N.add_comm, N.mod_add by discriminate. reflexivity. }
  reflexivity.
Qed.

Lemma read_hexpairs_two_hex l : read_hexpairs (flat_map two_hex l) = Some l.
Proof.
  induction l as [|b l IH]; [reflexivity|]. cbn [flat_map]. unfold two_hex at 1. cbn [app read_hexpairs].
  rewrite (hex_pair_two_hex b _ _ eq_refl), IH. reflexivity.
Qed.

Lemma keyid_value_spec id : length id = 8%nat ->
  i_value (keyid_item id) = str "0x" ++ flat_map two_hex id.
Proof.
  intro L. cbn [keyid_item it_nv i_value]. unfold keyid_string, hex0x16. f_equal.
  rewrite <- hexw_be, L. reflexivity.
Qed.

Lemma keyid_spec id : length id = 8%nat ->
  exists digits, i_value (keyid_item id) = str "0x" ++ digits /\ length digits = 16%nat /\
                 read_hexpairs digits = Some id.
Proof.
  intro L. exists (flat_map two_hex id). split; [apply keyid_value_spec; assumption|].
  split; [|apply read_hexpairs_two_hex].
  do 9 (destruct id as [|? id]; try discriminate); reflexivity.
Qed.

Lemma keyid_inj a b : length a = 8%nat -> length b = 8%nat -> keyid_item a = keyid_item b -> a = b.
Proof.
  intros La Lb H.
  destruct (keyid_spec a La) as (da & Ea & _ & Ra).
  destruct (keyid_spec b Lb) as (db & Eb & _ & Rb).
  rewrite H, Eb in Ea. apply app_inv_head in Ea. subst. congruence.
Qed.

(** ** Registries *)

Lemma reg_msgs r : forall n def, msgs_get r n def = match reg_find r n with Some s => str s | None => def end.
Proof.
  unfold reg_find. induction r as [|[k v] r IH]; intros n def; [reflexivity|].
  cbn [msgs_get find fst]. destruct (k =? n); [reflexivity | apply IH].
Qed.

Definition eq_item_b (a b : item) : bool :=
  beqs (i_name a) (i_name b) && beqs (i_value a) (i_value b) && beqs (i_dump a) (i_dump b)
  && beqs (i_note a) (i_note b) && is_nil (i_items a) && is_nil (i_items b).
Lemma eq_item_b_spec a b : eq_item_b a b = true -> a = b.
Proof.
  destruct a, b. unfold eq_item_b. cbn. intro H.
  repeat (apply andb_true_iff in H as [H ?]).
  repeat match goal with H : beqs _ _ = true |- _ => apply beqs_spec in H end.
  destruct items; [|discriminate]. destruct items0; [|discriminate]. congruence.
Qed.

Ltac by_octets :=
  intros b f; apply eq_item_b_spec; destruct f; revert b;
  match goal with |- forall b, @?P b = true => apply (byte_all P) end; vm_compute; reflexivity.

Lemma sym_item_spec : forall b f, sym_item b f =
  Item (str "Symmetric Algorithm")
       (id_text (reg_name sym_registry private_100_110 private_alg (b2n b)) (str "sym") (b2n b))
       (octet_dump f b) [] [].
Proof. by_octets. Qed.
Lemma hash_item_spec : forall b f, hash_item b f =
  Item (str "Hash Algorithm")
       (id_text (reg_name hash_registry private_100_110 private_alg (b2n b)) (str "hash") (b2n b))
       (octet_dump f b) [] [].
Proof. by_octets. Qed.
Lemma pub_item_spec : forall b f, pub_item b f =
  Item (str "Public-key Algorithm")
       (id_text (reg_name pub_registry private_100_110 private_alg (b2n b)) (str "pub") (b2n b))
       (octet_dump f b) [] [].
Proof. by_octets. Qed.
Lemma comp_item_spec : forall b f, comp_item b f =
  Item (str "Compression Algorithm")
       (id_text (reg_name comp_registry no_private private_alg (b2n b)) (str "comp") (b2n b))
       (octet_dump f b) [] [].
Proof. by_octets. Qed.
Lemma aead_item_spec : forall b f, aead_item b f =
  Item (str "AEAD Algorithm")
       (id_text (reg_name aead_registry private_100_110 private_alg (b2n b)) (str "aead") (b2n b))
       (octet_dump f b) [] [].
Proof. by_octets. Qed.
Lemma s2k_item_spec : forall b f, s2k_item b f =
  Item (str "String-to-Key (S2K) Algorithm")
       (id_text (reg_name s2k_registry private_100_110 private_alg (b2n b)) (str "s2k") (b2n b))
       (octet_dump f b) [] [].
Proof. by_octets. Qed.
Lemma sig_item_spec : forall b f, sig_item b f =
  Item (str "Signiture Type")
       (reg_name sig_registry no_private "" (b2n b) ++ str " (0x" ++ two_hex b ++ str ")")
       (octet_dump f b) [] [].
Proof. by_octets. Qed.

Lemma id_text_read name label n : read_id label (id_text name label n) = Some n.
Proof.
  unfold id_text. change (str " (") with (str " " ++ str "("). rewrite <- app_assoc, (app_assoc name).
  apply read_id_correct.
Qed.

Lemma sig_read : forall b f, read_hexid (i_value (sig_item b f)) = Some b.
Proof.
  intros b f. cbn [sig_item i_value].
  assert (E : forall b, match read_hexid (sig_string b) with Some c => Byte.eqb c b | None => false end = true)
    by (apply byte_all; vm_compute; reflexivity).
  specialize (E b). destruct (read_hexid (sig_string b)); [|discriminate]. apply byte_eqb_spec in E. congruence.
Qed.

Lemma sub_string_spec : forall b, sub_string b =
  reg_name sub_registry private_100_110 "Private or experimental" (b2n b mod 128)
  ++ (if 128 <=? b2n b then str " <critical>" else [])
  ++ str " (sub " ++ dec (b2n b mod 128) ++ str ")".
Proof.
  intro b. apply beqs_spec. revert b.
  match goal with |- forall b, @?P b = true => apply (byte_all P) end; vm_compute; reflexivity.
Qed.

Lemma sub_read : forall b, read_sub (sub_string b) = Some (b2n b).
Proof.
  intro b.
  assert (E : forall b, match read_sub (sub_string b) with Some c => c =? b2n b | None => false end = true)
    by (apply byte_all; vm_compute; reflexivity).
  specialize (E b). destruct (read_sub (sub_string b)); [|discriminate]. apply N.eqb_eq in E. congruence.
Qed.

Lemma tag_string_spec t : tag_string t = id_text (reg_name tag_registry no_private "" t) (str "tag") t.
Proof.
  unfold tag_string, id_text, reg_name, no_private. rewrite reg_msgs. reflexivity.
Qed.

(** ** Curves *)

Lemma oid_in_order : forall order oid name, NoDup (map snd order) -> In (name, oid) order -> oid_string_in order oid = name.
Proof.
  induction order as [|[k v] order IH]; intros oid name ND H; [contradiction|].
  cbn [oid_string_in map snd] in *. inversion ND; subst.
  destruct (beqs oid v) eqn:E.
  - apply beqs_spec in E. subst. destruct H as [H|H]; [congruence|].
    exfalso. apply H2. apply in_map_iff. exists (name, v). auto.
  - destruct H as [H|H]; [inversion H; subst; rewrite beqs_refl in E; discriminate|]. apply IH; assumption.
Qed.

Lemma oid_not_in_order : forall order oid, ~ In oid (map snd order) -> oid_string_in order oid = str "Unknown".
Proof.
  induction order as [|[k v] order IH]; intros oid H; [reflexivity|].
  cbn [oid_string_in map snd] in *. destruct (beqs oid v) eqn:E.
  - apply beqs_spec in E. subst. exfalso. apply H. left; reflexivity.
  - apply IH. intro; apply H; right; assumption.
Qed.

Lemma oid_list_curves : oid_list = map (fun p => (str (snd p), fst p)) curves.
Proof. vm_compute. reflexivity. Qed.

Lemma oids_nodup : NoDup (map snd oid_list).
Proof.
  repeat (constructor; [cbn; intro H; repeat (destruct H as [H|H]; [discriminate H|]); exact H|]). constructor.
Qed.

Lemma curve_known order oid name : Permutation order oid_list -> In (oid, name) curves ->
  oid_string_in order oid = str name.
Proof.
  intros P H. apply oid_in_order.
  - eapply Permutation_NoDup; [apply Permutation_map, Permutation_sym, P | apply oids_nodup].
  - eapply Permutation_in; [apply Permutation_sym, P|]. rewrite oid_list_curves.
    apply in_map_iff. exists (oid, name). auto.
Qed.

Lemma curve_unknown order oid : Permutation order oid_list -> ~ In oid (map fst curves) ->
  oid_string_in order oid = str "Unknown".
Proof.
  intros P H. apply oid_not_in_order. intro C. apply H.
  assert (In oid (map snd oid_list)) as C2.
  { eapply Permutation_in; [|exact C]. apply Permutation_map, P. }
  rewrite oid_list_curves, map_map in C2. exact C2.
Qed.

Lemma curve_names_distinct : forall o1 n1 o2 n2, In (o1, n1) curves -> In (o2, n2) curves -> n1 = n2 -> o1 = o2.
Proof.
  intros o1 n1 o2 n2 H1 H2 E. subst n2.
  assert (D : forallb (fun p => forallb (fun q => if String.eqb (snd p) (snd q) then beqs (fst p) (fst q) else true) curves) curves = true)
    by (vm_compute; reflexivity).
  rewrite forallb_forall in D. specialize (D _ H1). cbn [fst snd] in D.
  rewrite forallb_forall in D. specialize (D _ H2). cbn [fst snd] in D.
  rewrite String.eqb_refl in D. apply beqs_spec in D. exact D.
Qed.

(** ** Counts *)

Lemma stretch_spec b : stretch_count b = (16 + b2n b mod 16) * 2 ^ (b2n b / 16 + 6).
Proof.
  apply N.eqb_eq. revert b.
  match goal with |- forall b, @?P b = true => apply (byte_all P) end; vm_compute; reflexivity.
Qed.
Lemma stretch_bounds b : 1024 <= stretch_count b <= 65011712.
Proof.
  cut (((1024 <=? stretch_count b) && (stretch_count b <=? 65011712)) = true); [lia|].
  revert b. match goal with |- forall b, @?P b = true => apply (byte_all P) end; vm_compute; reflexivity.
Qed.
Lemma stretch_mono a b : b2n a < b2n b -> stretch_count a < stretch_count b.
Proof.
  assert (E : forall a b, implb (b2n a <? b2n b) (stretch_count a <? stretch_count b) = true).
  { intros u v. revert v. match goal with |- forall b, @?P b = true => apply (byte_all P) end.
    revert u. match goal with |- forall b, @?P b = true => apply (byte_all P) end. vm_compute. reflexivity. }
  specialize (E a b). intro H. apply N.ltb_lt in H. rewrite H in E. cbn in E. lia.
Qed.

Lemma chunk_size_low c : b2n c <= 57 -> chunk_size c = 2 ^ (b2n c + 6).
Proof.
  assert (E : forall c, implb (b2n c <=? 57) (chunk_size c =? 2 ^ (b2n c + 6)) = true)
    by (apply byte_all; vm_compute; reflexivity).
  intro H. specialize (E c). apply N.leb_le in H. rewrite H in E. cbn in E. lia.
Qed.
Lemma chunk_size_high c : 58 <= b2n c -> chunk_size c = if b2n c <? 250 then 0 else 2 ^ (b2n c - 250).
Proof.
  assert (E : forall c, implb (58 <=? b2n c) (chunk_size c =? if b2n c <? 250 then 0 else 2 ^ (b2n c - 250)) = true)
    by (apply byte_all; vm_compute; reflexivity).
  intro H. specialize (E c). apply N.leb_le in H. rewrite H in E. cbn [implb] in E. lia.
Qed.

(** ** Versions *)

Definition mkversion (k : kind) : byte -> version :=
  match k with
  | KPublicKey => PubVer | KSignature => SigVer | KOnePass => OneSigVer
  | KPubSession => PubSessKeyVer | KSymSession => SymSessKeyVer | KAead => AEADVer
  end.
Lemma version_spec : forall k b f,
  v_item (mkversion k b) f = Item (str "Version") (dec (b2n b)) (octet_dump f b) (version_label k (b2n b)) [].
Proof. destruct k; by_octets. Qed.

(** ** Statements as used by the property file *)

Lemma dumpstring_read data off : (0 <= off)%Z ->
  exists d, r_dumpstring off (r_new data) = ROk d /\ read_dump d = Some (skipn (Z.to_nat off) data).
Proof.
  intro H. unfold r_dumpstring, r_size. cbn [r_new r_buf].
  destruct (Z.geb_spec off (lenZ data)).
  - exists []. split; [reflexivity|]. rewrite skipn_all2; [reflexivity|]. unfold lenZ in *. lia.
  - replace (off <? 0)%Z with false by lia. eexists. split; [reflexivity | apply hexdump_read].
Qed.

Lemma dump_canonical data d : read_dump d = Some data <-> d = dump_bytes data true.
Proof. split; [apply read_dump_canon | intros ->; apply hexdump_read]. Qed.

Lemma mpi_item_spec name bits data :
  i_note (mpi_item name (mkMPI bits data) true) = dec bits ++ str " bits" /\
  read_dump (i_dump (mpi_item name (mkMPI bits data) true)) = Some data /\
  i_name (mpi_item name (mkMPI bits data) true) = name.
Proof. split; [reflexivity|]. split; [apply hexdump_read | reflexivity]. Qed.

Lemma octet_recoverable b t body f :
  read_id (str "sym") (i_value (sym_item b f)) = Some (b2n b) /\
  read_id (str "hash") (i_value (hash_item b f)) = Some (b2n b) /\
  read_id (str "pub") (i_value (pub_item b f)) = Some (b2n b) /\
  read_id (str "comp") (i_value (comp_item b f)) = Some (b2n b) /\
  read_id (str "aead") (i_value (aead_item b f)) = Some (b2n b) /\
  read_id (str "s2k") (i_value (s2k_item b f)) = Some (b2n b) /\
  read_hexid (i_value (sig_item b f)) = Some b /\
  read_sub (i_name (sub_item b body f)) = Some (b2n b) /\
  read_id (str "tag") (i_name (tag_item t body f)) = Some t.
Proof.
  rewrite sym_item_spec, hash_item_spec, pub_item_spec, comp_item_spec, aead_item_spec, s2k_item_spec.
  cbn [i_value]. rewrite !id_text_read, sig_read. cbn [tag_item sub_item i_name].
  rewrite tag_string_spec, id_text_read, sub_read. auto 12.
Qed.

Lemma stretch_item_spec b :
  i_value (stretch_item b) = dec ((16 + b2n b mod 16) * 2 ^ (b2n b / 16 + 6)) /\
  1024 <= (16 + b2n b mod 16) * 2 ^ (b2n b / 16 + 6) <= 65011712.
Proof. rewrite <- stretch_spec. split; [reflexivity | apply stretch_bounds]. Qed.

Lemma stretch_increasing a b m n :
  read_dec (i_value (stretch_item a)) = Some m -> read_dec (i_value (stretch_item b)) = Some n ->
  b2n a < b2n b -> m < n.
Proof.
  cbn [stretch_item i_value]. rewrite !read_dec_dec. intros E1 E2 H. inversion E1. inversion E2. apply stretch_mono, H.
Qed.

Lemma oid_any_order order oid : Permutation order oid_list -> oid_string_in order oid = oid_string oid.
Proof.
  intro P. unfold oid_string.
  destruct (in_dec (list_eq_dec Byte.byte_eq_dec) oid (map fst curves)) as [H|H].
  - apply in_map_iff in H as [[o n] [E H]]. cbn in E. subst o.
    rewrite (curve_known order oid n P H), (curve_known oid_list oid n (Permutation_refl _) H). reflexivity.
  - rewrite (curve_unknown order oid P H), (curve_unknown oid_list oid (Permutation_refl _) H). reflexivity.
Qed.

Lemma oid_item_any_order order oid f : Permutation order oid_list ->
  oid_item oid f = Item (str "ECC Curve OID") (oid_string_in order oid) (dump_bytes oid f) [] [].
Proof. intro P. rewrite (oid_any_order order oid P). reflexivity. Qed.

Lemma all_versions b f :
  v_item (PubVer b) f = Item (str "Version") (dec (b2n b)) (octet_dump f b) (version_label KPublicKey (b2n b)) [] /\
  v_item (SigVer b) f = Item (str "Version") (dec (b2n b)) (octet_dump f b) (version_label KSignature (b2n b)) [] /\
  v_item (OneSigVer b) f = Item (str "Version") (dec (b2n b)) (octet_dump f b) (version_label KOnePass (b2n b)) [] /\
  v_item (PubSessKeyVer b) f = Item (str "Version") (dec (b2n b)) (octet_dump f b) (version_label KPubSession (b2n b)) [] /\
  v_item (SymSessKeyVer b) f = Item (str "Version") (dec (b2n b)) (octet_dump f b) (version_label KSymSession (b2n b)) [] /\
  v_item (AEADVer b) f = Item (str "Version") (dec (b2n b)) (octet_dump f b) (version_label KAead (b2n b)) [].
Proof.
  exact (conj (version_spec KPublicKey b f) (conj (version_spec KSignature b f) (conj (version_spec KOnePass b f)
        (conj (version_spec KPubSession b f) (conj (version_spec KSymSession b f) (version_spec KAead b f)))))).
Qed.
