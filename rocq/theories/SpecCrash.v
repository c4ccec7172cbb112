(** * SpecCrash: the secret-key packets on which the parser panics (C04). *)
From Coq Require Import Strings.String Strings.Byte List NArith ZArith Bool.
From Verif Require Import Base SpecBase SpecPacket.
Import ListNotations.
Local Open Scope N_scope.

(** A string-to-key specifier of the GNU extension. *)
Definition gnu_s2k (l : bytes) : Prop := exists k t, l = n2b 101 :: str "GNU" ++ k :: t.
(** The octets taken as initialization vector behind the optional fields [opt] of a version 5 secret key with the given
    usage octet: none for an unencrypted key, without optional fields and with the GNU extension; otherwise as many as the
    cipher has. *)
Inductive taken_iv (usage : N) (opt iv : bytes) : Prop :=
| iv_none : usage = 0 \/ opt = [] -> iv = [] -> taken_iv usage opt iv
| iv_gnu c r : usage <> 0 -> opt = c :: r -> gnu_s2k (if usage =? 253 then tl r else r) -> iv = [] -> taken_iv usage opt iv
| iv_cipher c r : usage <> 0 -> opt = c :: r -> lenN iv = cipher_iv_octets (b2n c) -> taken_iv usage opt iv.

(** The fixed part of a version 5 secret key: version, time, algorithm, counted public material, usage octet,
    counted optional fields. *)
Definition v5_head (t : bytes) (a : byte) (l mat : bytes) (u n : byte) (opt : bytes) : bytes :=
  [x05] ++ t ++ [a] ++ l ++ mat ++ [u; n] ++ opt.
Definition v5_head_ok (t l mat : bytes) (n : byte) (opt : bytes) : Prop :=
  length t = 4%nat /\ length l = 4%nat /\ be l = lenN mat /\ b2n n = lenN opt.

Inductive crash_key : bytes -> Prop :=
(** Version 5, cut inside the four octets that count the secret material. *)
| crash_cut t a l mat u n opt iv tail :
    v5_head_ok t l mat n opt -> taken_iv (b2n u) opt iv -> (length tail < 4)%nat ->
    crash_key (v5_head t a l mat u n opt ++ iv ++ tail)
(** Unencrypted, of an algorithm without known secret fields, with exactly one octet of secret material. *)
| crash_v5 t a l mat n opt k x rest :
    v5_head_ok t l mat n opt -> length k = 4%nat -> be k = 1 -> sec_layout (b2n a) = None ->
    crash_key (v5_head t a l mat x00 n opt ++ k ++ x :: rest)
| crash_v4 t a x : length t = 4%nat -> sec_layout (b2n a) = None -> crash_key ([x04] ++ t ++ [a; x00; x])
| crash_v3 t d a x : length t = 4%nat -> length d = 2%nat -> sec_layout (b2n a) = None ->
    crash_key ([x03] ++ t ++ d ++ [a; x00; x])
(** Of an unknown version: only three octets, the second one zero. *)
| crash_version v x : ~ In (b2n v) [3; 4; 5] -> crash_key [v; x00; x].

(** A secret-key or secret-subkey packet with such a body. *)
Definition crash_packet (tag : N) (body : bytes) : Prop := (tag = 5 \/ tag = 7) /\ crash_key body.

(** Of these, some that are known to panic: the public material is complete, or of an algorithm without known fields. *)
Definition readable_material (a : byte) (mat : bytes) : Prop :=
  pub_layout (b2n a) = None \/ exists l junk, material pub_layout a l /\ mat = encs l ++ junk.
Inductive sure_crash_key : bytes -> Prop :=
| sure_cut t a l mat u n opt tail :
    v5_head_ok t l mat n opt -> u = x00 \/ opt = [] -> (length tail < 4)%nat -> readable_material a mat ->
    sure_crash_key (v5_head t a l mat u n opt ++ tail)
| sure_v5 t a l mat n opt k x rest :
    v5_head_ok t l mat n opt -> length k = 4%nat -> be k = 1 -> sec_layout (b2n a) = None ->
    sure_crash_key (v5_head t a l mat x00 n opt ++ k ++ x :: rest)
| sure_v4 t a x : length t = 4%nat -> sec_layout (b2n a) = None -> sure_crash_key ([x04] ++ t ++ [a; x00; x])
| sure_v3 t d a x : length t = 4%nat -> length d = 2%nat -> sec_layout (b2n a) = None ->
    sure_crash_key ([x03] ++ t ++ d ++ [a; x00; x])
| sure_version v x : ~ In (b2n v) [3; 4; 5] -> sure_crash_key [v; x00; x].
