(** * SpecSecret: the parts of a secret-key packet (RFC 4880bis 5.5.2 and 5.5.3). *)
From Coq Require Import Strings.String Strings.Byte List NArith ZArith Bool.
From Verif Require Import Base Item Context Env SpecBase SpecValues SpecPacket.
Import ListNotations.
Local Open Scope N_scope.

Definition key_version (v : byte) : Prop := v = x03 \/ v = x04 \/ v = x05.
(** The public part behind the version octet: creation time, days of validity (version 3 only), algorithm, in version 5 the
    number of octets of the numbers, the numbers. *)
Definition public_part (v : byte) (t days : N) (a : byte) (l : list field) : bytes :=
  match v with
  | x05 => be_enc 4 t ++ a :: be_enc 4 (lenN (encs l)) ++ encs l
  | _ => encs (key_fields (b2n v) t days a l)
  end.
Definition public_part_shown (o : opts) (E : env) (v : byte) (t days : N) (a : byte) (l : list field) : list item :=
  shows o E (key_fields (b2n v) t days a l).
Definition key_ok (v : byte) (t days : N) (a : byte) (pub : list field) : Prop :=
  key_version v /\ t < 2 ^ 32 /\ days < 65536 /\ material pub_layout a pub.

(** The optional fields: the cipher; for usage 253 the AEAD algorithm; for usages 253 to 255 a string-to-key specifier. *)
Definition usage_fields (u : N) (x : option byte) (s : option s2k) : Prop :=
  match x, s with
  | Some _, Some _ => u = 253
  | None, Some _ => u = 254 \/ u = 255
  | None, None => 1 <= u <= 252
  | Some _, None => False
  end.
Definition optional_octets (c : byte) (x : option byte) (s : option s2k) : bytes :=
  c :: option_list x ++ match s with Some k => s2k_enc k | None => [] end.
Definition optional_shown (o : opts) (E : env) (c : byte) (x : option byte) (s : option s2k) : list item :=
  show o E (FSym c) :: shows o E (map FAead (option_list x)) ++ map (s2k_tree o) (option_list s).
Definition specifier_wf (s : option s2k) : Prop := match s with Some k => s2k_wf k | None => True end.
(** There is an IV of the cipher's block length, except with the GNU extensions of the specifier. *)
Definition has_iv (s : option s2k) : bool := match s with Some k => s2k_iv k | None => true end.
Definition iv_octets (c : byte) (s : option s2k) : N := if has_iv s then cipher_iv_octets (b2n c) else 0.
Definition iv_shown (o : opts) (E : env) (x : option byte) (s : option s2k) (iv : bytes) : list item :=
  if has_iv s then [show o E (FDumped (match x with Some _ => "nonce for the AEAD" | None => "IV" end) iv)] else [].
(** The encrypted secret numbers. *)
Definition sealed (o : opts) (a : byte) (ct : bytes) : item :=
  Item (secenc_label (b2n a)) [] (dump_if (oDebug o) ct) (bytes_note (lenN ct)) [].
(** The secret numbers of an algorithm without a layout, not encrypted. *)
Definition unknown_secret (o : opts) (a : byte) (d : bytes) : item :=
  Item (str "Multi-precision integers of unknown secret key (pub " ++ dec (b2n a) ++ str ")") [] (dump_if (oDebug o) d) (bytes_note (lenN d)) [].
