(** * SpecLiteral: literal data, marker, trust and user ID packets (RFC 4880bis 5.8-5.11; C51). *)
From Coq Require Import Strings.String Strings.Byte List NArith ZArith Bool.
From Verif Require Import Base Item Context Env Time SpecBase SpecValues SpecText SpecPacket SpecSubs.
Import ListNotations.
Local Open Scope N_scope.

(** A literal data packet: format octet, file name behind one octet of length, four octets of time, the data. *)
Definition literal_octets (f : byte) (name : bytes) (t : N) : bytes := f :: len1 name ++ be_enc 4 t.
(** RFC 4880bis 5.9: the formats b, t, u; l and (by mistake, as the RFC says) 1 stand for local data. *)
Definition format_note (f : byte) : bytes :=
  match f with
  | x62 => str "binary" | x74 => str "text" | x75 => str "UTF-8 text" | x31 | x6c => str "local"
  | _ => str "unknown"
  end.
(** The format is shown as the character with that number. *)
Definition format_shown (f : byte) : item := Item (str "Literal data format") (utf8 (b2n f)) [] (format_note f) [].
(** A time of zero means that there is none. *)
Definition file_time_shown (o : opts) (E : env) (t : N) : item :=
  Item (str "Creation time") (if t =? 0 then str "null" else unixtime2rfc3339 (e_tz E) t (oUTC o)) (dump_if (oDebug o) (be_enc 4 t)) [] [].
(** Octets with their number, dumped on demand. *)
Definition data_shown (name : string) (f : bool) (d : bytes) : item := Item (str name) [] (dump_if f d) (bytes_note (lenN d)) [].
