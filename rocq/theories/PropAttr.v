(** * PropAttr: image attributes (C32). *)
From Coq Require Import Strings.String Strings.Byte List NArith ZArith Bool Lia ZifyBool ZifyN ZifyNat.
From Verif Require Import Base BaseL SpecBase Item Reader ReaderL Context Env Time Values Opaque Monad MonadL Pubkey Subs Tags SubParse.
From Verif Require Import SpecValues ValuesL SpecPacket ReadsL PacketL TagL SpecFrame SpecNest SpecSub SpecSubs SubL SpecParse SubsL Witness.
Import ListNotations.
Local Open Scope N_scope.

(** The fields shown before the image: the version, and for private versions the encoding. *)
Inductive image_fields (v : byte) : bytes -> list item -> Prop :=
| image_v1 rest : b2n v = 1 -> image_fields v rest [number_shown "Version" 1]
| image_private e rest : 100 <= b2n v <= 110 -> image_fields v (e :: rest)
    [Item (str "Version") (dec (b2n v)) [] (str "private or experimental use") [];
     Item (str "Encoding") (str (if b2n e =? 1 then "JPEG" else "Unknown")) [] (str "(enc " ++ dec (b2n e) ++ str ")") []]
| image_other rest : b2n v <> 1 -> ~ 100 <= b2n v <= 110 ->
    image_fields v rest [Item (str "Version") (dec (b2n v)) [] (str "Unknown") []].

Lemma image_parse o E ty a b v rest fs cs : sub_type ty = 1 -> image_fields v rest fs -> sized (a :: b :: v :: rest) ->
  parse_sub o E 17 ty (a :: b :: v :: rest) cs =
    (ROk (image_shown o ty (a :: b :: v :: rest) fs (lenZ (a :: b :: v :: rest) - Z.of_N (be [a; b]))), cs).
Proof.
  intros T F L. unfold sized in L.
  assert (sub_m (parse_tag o E) o E 17 ty = sub01) as M by (unfold sub_m; rewrite bland_type, T; reflexivity).
  rewrite (parse_sub_start o E 17 ty _ cs _ M). unfold sub01.
  set (B := a :: b :: v :: rest) in *.
  assert (suf B ([a; b] ++ v :: rest)) as S0 by (apply suf_refl; exact L).
  assert (suf B (v :: rest)) as S1 by exact (suf_app _ _ _ S0).
  assert (suf B rest) as S2 by exact (suf_app B [v] _ S1).
  erewrite bind_ok by (apply (rdBytes_at B [a; b] (v :: rest) 2); [exact S0 | reflexivity]).
  erewrite bind_ok by (apply rdByte_at; exact S1).
  destruct F as [rest H | e rest H | rest H1 H2].
  - rewrite H. change (1 =? 1) with true. cbv iota. erewrite bind_ok by reflexivity. erewrite bind_ok by reflexivity. reflexivity.
  - replace (b2n v =? 1) with false by lia. replace (in_private (b2n v)) with true by (unfold in_private; lia).
    assert (suf B rest) as S3 by exact (suf_app B [e] _ S2).
    rewrite bind_assoc. erewrite bind_ok by reflexivity. rewrite bind_assoc. erewrite bind_ok by (apply rdByte_at; exact S2).
    erewrite bind_ok by reflexivity. erewrite bind_ok by reflexivity. unfold image_shown. destruct (b2n e =? 1); reflexivity.
  - replace (b2n v =? 1) with false by lia. replace (in_private (b2n v)) with false by (unfold in_private; lia).
    erewrite bind_ok by reflexivity. erewrite bind_ok by reflexivity. reflexivity.
Qed.
(** C32.  What an image attribute shows: version (and encoding), and as the size of the image the number of octets
    of the sub-packet less the header length, read big-endian. *)
Theorem C32_shown : forall o E ty a b v rest fs cs, sub_type ty = 1 -> image_fields v rest fs -> sized (a :: b :: v :: rest) ->
  parse_sub o E 17 ty (a :: b :: v :: rest) cs =
    (ROk (image_shown o ty (a :: b :: v :: rest) fs (lenZ (a :: b :: v :: rest) - Z.of_N (be [a; b]))), cs).
Proof. exact image_parse. Qed.
Print Assumptions C32_shown.

(** C32, as far as it goes.  An image attribute is a header, which begins with its own length (little-endian) and a
    version, and the image.  The size shown is the size of the image if and only if the two octets of the header
    length are equal. *)
Theorem C32_image_size_partial : forall o E ty a b v rest image fs cs, sub_type ty = 1 ->
  let header := a :: b :: v :: rest in let body := header ++ image in
  image_fields v (rest ++ image) fs -> sized body ->
  lenN header = b2n a + 256 * b2n b ->
  exists size, parse_sub o E 17 ty body cs = (ROk (image_shown o ty body fs size), cs) /\ (size = lenZ image <-> a = b).
Proof.
  intros o E ty a b v rest image fs cs T header body F L H. exists (lenZ body - Z.of_N (be [a; b]))%Z. split; [exact (image_parse o E ty a b v _ fs cs T F L)|].
  assert (lenZ body = Z.of_N (lenN header) + lenZ image)%Z as -> by (unfold body, lenZ, lenN; rewrite app_length; lia).
  rewrite H. change (be [a; b]) with ((0 * 256 + b2n a) * 256 + b2n b). split; [|intros ->; lia].
  intro K. apply b2n_inj. lia.
Qed.
Print Assumptions C32_image_size_partial.
Example C32_used : lenN (x01 :: x01 :: x01 :: repeat x00 254) = b2n x01 + 256 * b2n x01 /\ image_fields x01 (repeat x00 254 ++ [xff]) [number_shown "Version" 1].
Proof. split; [vm_compute; reflexivity | constructor; reflexivity]. Qed.

(** C32 is not true of the header in use: 16 octets, version 1, JPEG (5.12.1).  The size of a two-octet image is shown
    as -4078 bytes. *)
Theorem C32_refuted : exists header image it cs', header = [x10; x00; x01; x01] ++ repeat x00 12 /\ lenN header = b2n x10 + 256 * b2n x00 /\ length image = 2%nat /\
  parse_sub o_plain env0 17 x01 (header ++ image) cst_init = (ROk it, cs') /\
  In (Item (str "Image data") [] [] (str "-4078 bytes") []) (i_items it).
Proof.
  exists ([x10; x00; x01; x01] ++ repeat x00 12), [xff; xd8]. eexists _, _. split; [reflexivity|]. split; [reflexivity|]. split; [reflexivity|].
  split; [vm_compute; reflexivity|]. vm_compute. auto.
Qed.
Print Assumptions C32_refuted.
