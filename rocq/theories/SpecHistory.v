(** * SpecHistory: what the item of a packet may take from the packets before it (C54). *)
From Coq Require Import Strings.String Strings.Byte List NArith ZArith.
From Verif Require Import Base Item SpecBase SpecTime SpecParse.
Import ListNotations.

(** The note of an expiration sub-packet: none, or a date. *)
Definition expiry_note (t : bytes) : Prop := t = [] \/ exists s, (0 <= s < 2 ^ 32)%Z /\ read_rfc3339 t = Some s.
(** The value of the data of an encrypted packet (tag 9). *)
Definition key_kind_value (v : bytes) : Prop :=
  In v [str "sym alg is IDEA, simple string-to-key"; str "sym alg is specified in sym-key encrypted session key";
        str "sym alg is specified in pub-key encrypted session key"].
(** The note of the data of an integrity protected packet (tag 18): its size, or the kind of its key. *)
Definition key_kind_note (t : bytes) : Prop :=
  In t [str "plain text + MDC SHA1(20 bytes); sym alg is specified in sym-key encrypted session key";
        str "plain text + MDC SHA1(20 bytes); sym alg is specified in pub-key encrypted session key"]
  \/ exists n, t = n ++ str " bytes".

(** The same text, or two texts of one of these kinds. *)
Definition value_but_history (v v' : bytes) : Prop := v = v' \/ (key_kind_value v /\ key_kind_value v').
Definition note_but_history (t t' : bytes) : Prop := t = t' \/ (expiry_note t /\ expiry_note t') \/ (key_kind_note t /\ key_kind_note t').
(** The same tree: same shape, names and dumps, and the same values and notes but for these. *)
Definition same_but_history : item -> item -> Prop := alike value_but_history eq note_but_history.
