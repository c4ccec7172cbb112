(** * Properties of the byte cursor (reader.Reader): C38, C39, C40. *)
From Coq Require Import Strings.String Strings.Byte List NArith ZArith Bool Lia.
From Verif Require Import Base Reader SpecReader ReaderL.
Import ListNotations.
Local Open Scope Z_scope.

(** ** C38: reading is exact *)

Theorem C38_reads_are_exact : forall c r,
  in_buffer r -> 0 <= call_len c -> r_off r + call_len c < 2 ^ 63 ->
  read_spec (call_len c) r (fst (do_read c r)) (snd (do_read c r)).
Proof. exact do_read_spec. Qed.
Print Assumptions C38_reads_are_exact.

Theorem C38_history_concatenates : forall cs r ds r',
  in_buffer r ->
  Forall (fun c => 0 <= call_len c /\ lenZ (r_buf r) + call_len c < 2 ^ 63) cs ->
  delivered cs r = (ds, r') ->
  in_buffer r' /\ r_buf r' = r_buf r /\ remaining r = ds ++ remaining r' /\ r_off r' = r_off r + lenZ ds.
Proof. exact delivered_history. Qed.
Print Assumptions C38_history_concatenates.

Example C38_sat : in_buffer (mkReader (str "abcdef") 2) /\
  delivered [CallReadByte; CallReadBytes 9; CallRead 2] (mkReader (str "abcdef") 2)
  = (str "cde", mkReader (str "abcdef") 5).
Proof. split; [split; vm_compute; split; congruence | reflexivity]. Qed.

(** The bound on the size cannot be dropped: a size near 2^63 overflows and panics. *)
Theorem C38_huge_size_refuted : exists r n,
  in_buffer r /\ 0 <= n < 2 ^ 63 /\ fst (r_readbytes n r) = RPanic.
Proof.
  exists (mkReader (str "ab") 1), (2 ^ 63 - 1). split; [split; vm_compute; split; congruence|].
  split; [vm_compute; split; congruence | reflexivity].
Qed.
Print Assumptions C38_huge_size_refuted.

(** ** C39: seeking never leaves the buffer *)

Theorem C39_seek : forall off whence r,
  in_buffer r -> int64 off ->
  r_seek off whence r =
  match seek_target off whence r with
  | Some t => if (0 <=? t) && (t <=? lenZ (r_buf r))
              then (ROk t, mkReader (r_buf r) t)
              else (RErr EOffset, r)
  | None => (RErr EWhence, r)
  end.
Proof. exact seek_spec. Qed.
Print Assumptions C39_seek.

Example C39_sat : in_buffer (mkReader (str "abcdef") 2) /\ int64 (2 ^ 63 - 1) /\
  r_seek (2 ^ 63 - 1) 1 (mkReader (str "abcdef") 2) = (RErr EOffset, mkReader (str "abcdef") 2) /\
  r_seek (-1) 2 (mkReader (str "abcdef") 2) = (ROk 5, mkReader (str "abcdef") 5).
Proof. repeat split; vm_compute; congruence. Qed.

(** ** C40: the cursor along every history *)

(** Full statement (false): after any history 0 <= Rest() <= Size(). *)
Theorem C40_rest_negative_refuted : exists l data,
  Forall op_ok l /\ lenZ data < 2 ^ 62 /\ r_rest (snd (run_ops l (r_new data))) < 0.
Proof.
  exists [OpRead CallReadByte; OpRead2EOF], (str "abc").
  split; [repeat constructor; vm_compute; congruence | split; reflexivity].
Qed.
Print Assumptions C40_rest_negative_refuted.

(** Proved: when every Read2EOF is made at the start or the end of the buffer. *)
Theorem C40_cursor_in_buffer_partial : forall l data,
  lenZ data < 2 ^ 62 -> Forall op_ok l -> eof_from_start l (r_new data) ->
  0 <= r_rest (snd (run_ops l (r_new data))) <= lenZ data.
Proof. exact run_ops_in_buffer. Qed.
Print Assumptions C40_cursor_in_buffer_partial.

Example C40_partial_sat :
  let l := [OpSeek 2 0; OpRead (CallRead 2); OpReadAt 1 1; OpWriteTo true; OpRead2EOF; OpSeek 0 0; OpRead2EOF; OpDump 1] in
  Forall op_ok l /\ eof_from_start l (r_new (str "abcdef")).
Proof.
  split; [repeat constructor; vm_compute; congruence|].
  unfold eof_from_start.
  repeat (split; [intro H; first [discriminate H | left; vm_compute; reflexivity | right; vm_compute; discriminate]|]).
  exact I.
Qed.

(** For all histories: no operation panics, the buffer is never changed and Rest() stays
    within -Size()..Size(). *)
Theorem C40_no_history_panics : forall l data,
  lenZ data < 2 ^ 62 -> Forall op_ok l ->
  fst (run_ops l (r_new data)) = false /\
  r_buf (snd (run_ops l (r_new data))) = data /\
  - lenZ data <= r_rest (snd (run_ops l (r_new data))) <= lenZ data.
Proof. exact run_ops_no_panic. Qed.
Print Assumptions C40_no_history_panics.

(** Read2EOF delivers exactly what remains, and leaves Rest() = - (old offset). *)
Theorem C40_read2eof : forall r,
  in_buffer r -> lenZ (r_buf r) < 2 ^ 62 -> r_off r < lenZ (r_buf r) ->
  exists r', r_read2eof r = (ROk (remaining r), r') /\ r_buf r' = r_buf r /\ r_rest r' = - r_off r.
Proof. exact read2eof_spec. Qed.
Print Assumptions C40_read2eof.

(** With a negative Rest() every read reports EOF and does not move. *)
Theorem C40_reads_past_end : forall c r,
  r_rest r < 0 -> lenZ (r_buf r) < 2 ^ 62 -> 0 <= r_off r < 2 ^ 63 -> call_len c <> 0 ->
  do_read c r = (RErr EEof, r).
Proof. exact do_read_past_end. Qed.
Print Assumptions C40_reads_past_end.

Example C40_past_end_sat : let r := snd (run_ops [OpRead CallReadByte; OpRead2EOF] (r_new (str "abc"))) in
  r_rest r = -1 /\ do_read CallReadByte r = (RErr EEof, r).
Proof. split; reflexivity. Qed.
