(** * PropLengths: the lengths an algorithm identifier stands for (C18). *)
From Coq Require Import Strings.String Strings.Byte List NArith ZArith Bool.
From Verif Require Import Base SpecBase Values SpecValues SpecPacket.
Import ListNotations.
Local Open Scope N_scope.

(** RFC 4880bis 9.6: both AEAD algorithms of the registry have an authentication tag of 16 octets. *)
Definition aead_tag_octets (a : N) : N := if existsb (fun p => fst p =? a) aead_registry then 16 else 0.

(** The lengths the identifiers report: the tag of every AEAD algorithm, the nonce of every AEAD algorithm but OCB, the IV
    of every cipher, and nothing for a number that is no algorithm. *)
Theorem C18_lengths : forall b,
  aead_taglen b = Z.of_N (aead_tag_octets (b2n b)) /\
  (b2n b <> 2 -> aead_ivlen b = Z.of_N (aead_nonce_octets (b2n b))) /\
  sym_ivlen b = Z.of_N (cipher_iv_octets (b2n b)).
Proof. intros b. destruct b; repeat split; first [reflexivity | intros H; exfalso; apply H; reflexivity]. Qed.
Print Assumptions C18_lengths.

(** OCB is left out above because 16 octets are reported for its nonce of 15 (finding 4). *)
Example C18_ocb_nonce : aead_ivlen x02 = 16%Z /\ aead_nonce_octets 2 = 15.
Proof. split; reflexivity. Qed.

Example C18_lengths_used : aead_taglen x02 = 16%Z /\ aead_ivlen x01 = 16%Z /\ sym_ivlen x09 = 16%Z /\ sym_ivlen x03 = 8%Z /\ aead_taglen x03 = 0%Z.
Proof. repeat split. Qed.
