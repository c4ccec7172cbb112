(** * PropRedact: C06 for every packet, well-formed or not: what is shown can be told from the redacted packet. *)
From Coq Require Import Strings.String Strings.Byte List NArith ZArith Bool Lia ZifyBool ZifyN ZifyNat.
From Verif Require Import Base BaseL SpecBase Item Reader Context Env Time Values Opaque Monad Subs Tags Parse SubParse
  SpecValues SpecPacket SpecFrame SpecNest SpecSub SpecSubs SpecComp SpecLiteral SpecSecret SpecParse EventL
  PropFrame PropSecret SpecHidden HiddenL PropHidden SpecRedact RedactL RedactPktL Witness.
Import ListNotations.
Local Open Scope N_scope.

(** C06.  Without a dump option every packet, complete or cut short, is shown as its redaction is, and fails as its redaction does; the
    state for the packets behind it is the same as well.  Missing is what [redact] keeps: see the refutations in PropHidden, and the
    areas of sub-packets and key blocks that do not split into whole sub-packets and packets. *)
Theorem C06_redacted_partial : forall o E tag body cs, no_dump o -> sized body ->
  parse_tag o E tag body cs = parse_tag o E tag (redact tag body) cs.
Proof. intros o E tag body cs Q Z. exact (redact_same o E tag body cs Q Z). Qed.
Print Assumptions C06_redacted_partial.

(** A redaction has the length of the packet, and each octet is kept or zero. *)
Theorem C06_redaction : forall tag body, Forall2 (fun b r => r = b \/ r = x00) body (redact tag body).
Proof.
  intros tag body. refine (proj1 (depth_same o_plain env0 _ (S (length body))) tag body).
  intros c H. cbn in H. repeat destruct H as [<-|H]; reflexivity || destruct H.
Qed.
Print Assumptions C06_redaction.

(** Packets with the same redaction cannot be told apart by what is shown. *)
Theorem C06_same_redaction_partial : forall o E tag b b' cs, no_dump o -> sized b -> redact tag b = redact tag b' ->
  parse_tag o E tag b cs = parse_tag o E tag b' cs.
Proof.
  intros o E tag b b' cs Q Z H. rewrite (redact_same o E tag b cs Q Z), H. symmetry. apply redact_same; [exact Q|].
  pose proof (zeroed_length _ _ (C06_redaction tag b)) as L. pose proof (zeroed_length _ _ (C06_redaction tag b')) as L'. rewrite H in L.
  unfold sized, lenZ in *. rewrite L', <- L. exact Z.
Qed.
Print Assumptions C06_same_redaction_partial.

(** The same of whole inputs, in whatever frames and pieces. *)
Definition redacted_packet (p : N * bytes) : N * bytes := (fst p, redact (fst p) (snd p)).
Lemma list_redacted o E : no_dump o -> forall l, all_sized l -> forall cs, parse_list o E l cs = parse_list o E (map redacted_packet l) cs.
Proof.
  intros Q l Z. induction Z as [|[tag b] l Zb _ IH]; intro cs; [reflexivity|]. change (map redacted_packet ((tag, b) :: l)) with ((tag, redact tag b) :: map redacted_packet l).
  cbn [parse_list]. unfold packets_parse. cbn [snd] in Zb. rewrite <- (redact_same o E tag b cs Q Zb).
  destruct (parse_tag o E tag b cs) as [[[i [d|]]|e| |] c1]; try reflexivity; [|rewrite IH; reflexivity].
  destruct (expand_loop _ _ _ _ _ _) as [[j|e| |] c2]; try reflexivity. rewrite IH. reflexivity.
Qed.
Theorem C06_redacted_input_partial : forall o E l w w' c c', no_dump o -> input_of l w -> input_of (map redacted_packet l) w' ->
  delivers c w -> delivers c' w' -> sized w -> parse_chunks o E c = parse_chunks o E c'.
Proof.
  intros o E l w w' c c' Q I I' D D' Z. rewrite (C01_framing o E l w c I D), (C01_framing o E _ w' c' I' D').
  apply list_redacted; [exact Q | exact (input_sizes l w I Z)].
Qed.
Print Assumptions C06_redacted_input_partial.

(** From octets: an input of packets of definite lengths, with the body of each one redacted in its place. *)
Theorem C06_redacted_octets_partial : forall o E w r c c', no_dump o -> block_redacted redact (length w) w = Some r ->
  delivers c w -> delivers c' r -> sized w -> parse_chunks o E c = parse_chunks o E c'.
Proof.
  intros o E w r c c' Q R D D' Z.
  destruct (RedactSubL.block_split (fun _ _ cs => (RFuel, cs)) redact (fun _ _ _ _ => eq_refl) C06_redaction _ _ _ R) as (_ & l & P & P').
  apply (C06_redacted_input_partial o E l w r c c' Q); [constructor; exact P | constructor; exact P' | assumption..].
Qed.
Print Assumptions C06_redacted_octets_partial.

(** What is hidden. *)
Theorem C06_hidden_whole : forall tag body, ~ In tag [1; 2; 3; 4; 5; 6; 7; 8; 11; 12; 13; 14; 17; 20] -> redact tag body = repeat x00 (length body).
Proof.
  intros tag body N. unfold redact. cbn [redact_depth]. assert (packet_walk (redact_depth (length body)) tag = give tt) as ->.
  { destruct tag as [|p]; [reflexivity|]. do 5 (try destruct p as [p|p|]); try reflexivity; exfalso; apply N; cbn; tauto. }
  unfold covered, give, blank. cbn [fst length skipn app]. induction body as [|b body IH]; [reflexivity|]. cbn [map length repeat]. rewrite IH; reflexivity.
Qed.
Print Assumptions C06_hidden_whole.
Lemma walk_prefix {A} (w : walk A) p d : fst (w (p ++ d)) = p -> covered w (p ++ d) = p ++ repeat x00 (length d).
Proof.
  intro H. unfold covered. rewrite H, skipn_app_length. f_equal. clear H. unfold blank. induction d as [|b d IH]; [reflexivity|]. cbn [map length repeat]. rewrite IH. reflexivity.
Qed.
Lemma keep_app {B} n p (g : bytes -> walk B) d : lenN p = n -> after (keep n) g (p ++ d) = (p ++ fst (g p d), snd (g p d)).
Proof.
  intros <-. unfold after, keep. replace (lenN p <=? lenN (p ++ d)) with true by (rewrite lenN_app; lia). 
  assert (firstn (N.to_nat (lenN p)) (p ++ d) = p) as -> by (unfold lenN; rewrite Nat2N.id, firstn_app, firstn_all, Nat.sub_diag; apply app_nil_r).
  rewrite skipn_app_length. destruct (g p d). reflexivity.
Qed.
(** Of literal data the format, the name and the time are kept. *)
Theorem C06_hidden_literal : forall f name t d, lenN name < 256 -> redact 11 (literal_octets f name t ++ d) = literal_octets f name t ++ repeat x00 (length d).
Proof.
  intros f name t d L. unfold redact. cbn [redact_depth packet_walk]. apply walk_prefix. unfold literal_octets, len1. 
  change (f :: (n2b (lenN name) :: name) ++ be_enc 4 t) with ([f] ++ [n2b (lenN name)] ++ name ++ be_enc 4 t). rewrite <- !app_assoc.
  rewrite keep_app by reflexivity. cbn [fst]. f_equal. unfold number. rewrite after_assoc. rewrite keep_app by reflexivity. cbn [fst]. f_equal. rewrite after_give.
  replace (be [n2b (lenN name)]) with (lenN name) by (cbn; rewrite b2n_n2b, N.mod_small by lia; lia).
  rewrite keep_app by reflexivity. cbn [fst]. f_equal. rewrite keep_app by (unfold lenN; rewrite be_enc_length; reflexivity). cbn [fst give]. apply app_nil_r.
Qed.
Print Assumptions C06_hidden_literal.

(** A secret key: the public numbers, the encrypted part; and, cut in the middle of the encrypted part, what is left of it. *)
Definition some_key (u : byte) (rest : bytes) : bytes :=
  x04 :: be_enc 4 1577836800 ++ n2b 22 :: n2b 9 :: [x2b; x06; x01; x04; x01; xda; x47; x0f; x01] ++ x00 :: x0f :: [x40; xaa] ++ u :: rest.
Example C06_secret_redacted :
  redact 5 (some_key xfe ([x09; x03; x08] ++ repeat x55 8 ++ [x60] ++ repeat x07 16 ++ repeat xee 54)) =
  x04 :: be_enc 4 1577836800 ++ n2b 22 :: n2b 9 :: [x2b; x06; x01; x04; x01; xda; x47; x0f; x01] ++ x00 :: x0f :: [x40; x00] ++ xfe ::
    ([x09; x03; x08] ++ repeat x55 8 ++ [x60] ++ repeat x07 16 ++ repeat x00 54).
Proof. vm_compute. reflexivity. Qed.
(** Not encrypted: the number is hidden, the checksum is not. *)
Example C06_plain_redacted :
  redact 5 (some_key x00 ([x00; x10; xbe; xef] ++ [x01; xad])) = 
  x04 :: be_enc 4 1577836800 ++ n2b 22 :: n2b 9 :: [x2b; x06; x01; x04; x01; xda; x47; x0f; x01] ++ x00 :: x0f :: [x40; x00] ++ x00 :: [x00; x10; x00; x00] ++ [x01; xad].
Proof. vm_compute. reflexivity. Qed.
(** Cut in the secret number: the parser fails, whatever is left of the number. *)
Example C06_cut_redacted : redact 5 (some_key x00 [x00; x10; xbe]) = redact 5 (some_key x00 [x00; x10; xef]) /\
  fst (parse_tag o_plain env0 5 (some_key x00 [x00; x10; xbe]) cst_init) <> RPanic.
Proof. split; [vm_compute; reflexivity | vm_compute; discriminate]. Qed.
(** Inside a signature: the number of an embedded signature, an unknown sub-packet, and the key in a key block. *)
Definition nested_sig (r : byte) : bytes :=
  let inner := [x04; x19; x16; x08; x00; x00; x00; x00; x12; x34] ++ [x00; x08; r; x00; x08; r] in
  let key := [x04; x00; x00; x00; x00; x16; x01; x2b; x00; x0f; x40; r] in
  let block := x00 :: [x98; n2b (lenN key)] ++ key in
  let area := (n2b (1 + lenN inner) :: x20 :: inner) ++ (n2b (1 + lenN block) :: x26 :: block) ++ [x02; x7f; r] in
  [x04; x13; x16; x08] ++ be_enc 2 (lenN area) ++ area ++ [x00; x00; x12; x34] ++ [x00; x08; r; x00; x08; r].
Example C06_nested_redacted : redact 2 (nested_sig xee) = nested_sig x00 /\
  exists i, fst (parse_tag o_plain env0 2 (nested_sig xee) cst_init) = ROk (i, None).
Proof. split; [vm_compute; reflexivity|]. eexists. vm_compute. reflexivity. Qed.
Example C06_octets_redacted : exists w r, w = old_frame 11 (literal_octets x62 [] 0 ++ [x01; x02]) ++ old_frame 2 (nested_sig xee) /\ block_redacted redact (length w) w = Some r /\ w <> r /\ sized w.
Proof. do 2 eexists. split; [reflexivity|]. split; [vm_compute; reflexivity|]. split; [vm_compute; discriminate | vm_compute; reflexivity]. Qed.
