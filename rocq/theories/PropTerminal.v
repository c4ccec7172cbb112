(** * PropTerminal: what the output of a dump can do to a terminal (C76). *)
From Coq Require Import Strings.String Strings.Byte List NArith ZArith Bool Lia ZifyBool ZifyN ZifyNat.
From Verif Require Import Base Item Context Env Parse Json Facade Cli Opaque SpecBase SpecNest SpecText SpecParse SpecJson SpecFacade SpecCli SpecCommand SpecTerminal StreamL Utf8L TextL TerminalL
  PropParse PropFacade PropCli PropRadix64 PropAcceptCmd ArmorSizeL PropShown PropCommand PropSame.
Import ListNotations.
Local Open Scope Z_scope.

(** A character that is the format octet of a literal data packet, at any level of the input. *)
Definition a_format (o : opts) (E : env) (src : stream) (c : N) : Prop := exists f l, stream_met o E src 11 (f :: l) /\ c = b2n f.

(** C76.  The strings of a result are UTF-8, and a control character in them is the format octet of a literal data packet of the input. *)
Theorem C76_result : forall (o : opts) (E : env) (src : stream), fits E src ->
  Forall (all_fields (controls_are (a_format o E src))) (fst (parse_stream o E src)).
Proof.
  intros o E src F.
  destruct (rel_stream _ _ _ _ _ o o E E src
    (clean_leaves (controls_are (a_format o E src)) o E (ca_clean _)) eq_refl eq_refl F) as (_ & _ & H2).
  - intros f l M. rewrite litfmt_utf8. apply ca_char; [left; pose proof (BaseL.b2n_lt f); lia|]. intros _. exists f, l. auto.
  - apply RI_fieldss in H2. revert H2. apply Forall_impl. intros i H. apply fields_all.
    revert H. induction i as [n v d t l IH] using item_rect'. intro H. inversion H as [? ? ? ? ? N V D T L]. subst.
    constructor; auto using ca_clean. clear H. induction IH as [|i l H IH IHl]; [constructor|]. inversion L. subst. constructor; auto.
Qed.
Print Assumptions C76_result.

(** What a command without --debug has written when it ends with success. *)
Lemma written w args l c t : asks args l c -> dump_command c = true -> on l "debug" = false ->
  (forall src, input w c src -> fits (w_env w) src) -> main w args = Some (Some 0, t) ->
  exists src items fl, input w c src /\ parse_stream (options_asked l c) (w_env w) src = (items, ROk tt) /\ flags_asked l fl /\ rendering fl items t.
Proof.
  intros A D ND F M. destruct (asks_cli _ _ _ A) as (fl & CL & FA). unfold main in M. rewrite CL in M. cbn [option_map fst snd] in M. injection M as M.
  assert (f_on fl DEBUG = false) as FD by (destruct FA as (_ & _ & _ & _ & X & _); rewrite X; exact ND).
  destruct (C44_only_success fl w c D FD) as (text & (src & o & items & I & O & P & R & T) & Q); [rewrite M; reflexivity|].
  rewrite M in Q. cbn [snd] in Q. subst text.
  rewrite (same_in_force fl c o (options_asked l c) _ _ (F src I) O (asked_in_force l fl c FA)) in P. exists src, items, fl. auto.
Qed.

(** C76.  Without --json: the output of a command that ends with success is UTF-8 text; its control characters are the line feeds at the ends of lines,
    the tabs of the indentation if there is no --indent, and format octets of literal data packets. *)
Theorem C76_text : forall (w : world) (args : list bytes) (l : list (string * value)) (c : command) (t : bytes),
  asks args l c -> dump_command c = true -> on l "json" = false -> on l "debug" = false ->
  (forall src, input w c src -> fits (w_env w) src) -> main w args = Some (Some 0, t) ->
  exists src, input w c src /\
    controls_are (fun k => k = 10%N \/ (k = 9%N /\ number l "indent" 0 <= 0) \/ a_format (options_asked l c) (w_env w) src k) t.
Proof.
  intros w args l c t A D J ND F M. destruct (written w args l c t A D ND F M) as (src & items & fl & I & P & FA & R). exists src. split; [exact I|].
  apply (rendered_lines l fl items t FA J) in R. subst t. pose proof (C76_result (options_asked l c) (w_env w) src (F src I)) as C. rewrite P in C. cbn [fst] in C.
  apply ca_text; [|left; reflexivity|].
  - unfold indent_asked. destruct (Z.ltb_spec 0 (number l "indent" 0)) as [N|N].
    + apply ca_plain. induction (Z.to_nat _); [reflexivity | cbn [repeat forallb]; exact IHn].
    + apply ca_byte; [reflexivity|]. intros _. right. left. split; [reflexivity | exact N].
  - revert C. apply Forall_impl. induction a as [n v d m ch IH] using item_rect'. intro H. inversion H as [? ? ? ? ? A1 A2 A3 A4 A5]. subst.
    constructor; try (eapply ca_impl; [|eassumption]; cbv beta; tauto).
    clear H. induction IH as [|i ch H IH IHl]; [constructor|]. inversion A5. subst. constructor; auto.
Qed.
Print Assumptions C76_text.

(** C76.  With --json: the output is UTF-8 text; its control characters are line feeds, and those only with --indent, and format octets of literal data
    packets above 0x7e (DEL and the C1 characters). *)
Theorem C76_json : forall (w : world) (args : list bytes) (l : list (string * value)) (c : command) (t : bytes),
  asks args l c -> dump_command c = true -> on l "json" = true -> on l "debug" = false ->
  (forall src, input w c src -> fits (w_env w) src) -> main w args = Some (Some 0, t) ->
  exists src, input w c src /\
    controls_are (fun k => (k = 10%N /\ 0 < number l "indent" 0) \/ ((0x7f <= k)%N /\ a_format (options_asked l c) (w_env w) src k)) t.
Proof.
  intros w args l c t A D J ND F M. destruct (written w args l c t A D ND F M) as (src & items & fl & I & P & FA & R). exists src. split; [exact I|].
  pose proof (C76_result (options_asked l c) (w_env w) src (F src I)) as C. rewrite P in C. cbn [fst] in C.
  assert (info_JSON (number l "indent" 0) items = ROk t) as E.
  { destruct FA as (FJ & FI & _). rewrite J in FJ. rewrite <- FI. destruct R as [[_ R]|[(R & _)|(R & _)]]; [exact R | congruence | congruence]. }
  apply (ca_JSON _ _ _ _ C) in E. revert E. apply ca_impl. intros k CK [[H1 H2]|[H1 H2]]; [right; split; [unfold control in CK; lia | exact H1] | left; auto].
Qed.
Print Assumptions C76_json.

(** C76.  If no literal data packet of the input has a control character as its format octet: line feeds and the tabs of the indentation are all. *)
Theorem C76_safe : forall (w : world) (args : list bytes) (l : list (string * value)) (c : command) (t : bytes),
  asks args l c -> dump_command c = true -> on l "debug" = false ->
  (forall src, input w c src -> fits (w_env w) src) ->
  (forall src f b, input w c src -> stream_met (options_asked l c) (w_env w) src 11 (f :: b) -> ~ control (b2n f)) ->
  main w args = Some (Some 0, t) ->
  controls_are (fun k => k = 10%N \/ (k = 9%N /\ on l "json" = false /\ number l "indent" 0 <= 0)) t.
Proof.
  intros w args l c t A D ND F S M. destruct (on l "json") eqn:J.
  - destruct (C76_json w args l c t A D J ND F M) as (src & I & C). revert C. apply ca_impl. intros k CK [H|(_ & f & b & H1 & ->)]; [left; tauto|].
    exfalso. exact (S src f b I H1 CK).
  - destruct (C76_text w args l c t A D J ND F M) as (src & I & C). revert C. apply ca_impl. intros k CK [H|[H|(f & b & H1 & ->)]]; [left; tauto | right; tauto|].
    exfalso. exact (S src f b I H1 CK).
Qed.
Print Assumptions C76_safe.

(** C76.  With --json, whatever the input: no octet below 0x20 is written but line feeds.  In particular no escape character. *)
Theorem C76_no_escape : forall (w : world) (args : list bytes) (l : list (string * value)) (c : command) (t : bytes),
  asks args l c -> dump_command c = true -> on l "json" = true -> on l "debug" = false ->
  (forall src, input w c src -> fits (w_env w) src) -> main w args = Some (Some 0, t) ->
  forall x, In x t -> (0x20 <= b2n x)%N \/ (x = x0a /\ 0 < number l "indent" 0).
Proof.
  intros w args l c t A D J ND F M. destruct (written w args l c t A D ND F M) as (src & items & fl & I & P & FA & R).
  assert (info_JSON (number l "indent" 0) items = ROk t) as E.
  { destruct FA as (FJ & FI & _). rewrite J in FJ. rewrite <- FI. destruct R as [[_ R]|[(R & _)|(R & _)]]; [exact R | congruence | congruence]. }
  apply json_octets in E; [rewrite Forall_forall in E; exact E|].
  pose proof (C14_all_utf8 (options_asked l c) (w_env w) src (F src I)) as C. rewrite P in C. exact C.
Qed.
Print Assumptions C76_no_escape.

(** ** The key of C67: it has no literal data packet. *)
Example C76_used : let w := armor_world demo_octets in let c := CRoot false false [] in
  asks [str "-u"] demo_asked c /\ asks [str "-ju"] demo_json c /\ dump_command c = true /\
  on demo_asked "json" = false /\ on demo_asked "debug" = false /\ on demo_json "json" = true /\ on demo_json "debug" = false /\
  (forall src, input w c src -> fits (w_env w) src) /\
  main w [str "-u"] = Some (Some 0, demo_output) /\ In x09 demo_output /\ exists j, main w [str "-ju"] = Some (Some 0, j) /\ (100 < lenN j)%N.
Proof.
  cbv zeta. destruct C73_used as (A & B & D & J & J' & _ & ND & F & _). split; [exact B|]. split; [exact A|]. do 5 (split; [assumption || reflexivity|]).
  split; [exact F|]. split; [exact C67_command_shows|]. split; [vm_compute; tauto|]. eexists. split; [vm_compute; reflexivity | vm_compute; reflexivity].
Qed.

(** A literal data packet with the format octet b and a marker packet behind it. *)
Example C76_safe_used : let w := armor_world [xcb; x06; x62; x00; x00; x00; x00; x00; xca; x03; x50; x47; x50] in let c := CRoot false false [] in
  (forall src f b, input w c src -> stream_met (options_asked demo_asked c) (w_env w) src 11 (f :: b) -> ~ control (b2n f)) /\
  (forall src, input w c src -> fits (w_env w) src) /\ (exists b, stream_met (options_asked demo_asked c) (w_env w) (w_stdin w) 11 (x62 :: b)) /\
  exists t, main w [str "-u"] = Some (Some 0, t) /\ (100 < lenN t)%N.
Proof.
  cbv zeta. set (w := armor_world _). split; [|split; [|split]].
  - intros src f b I (c & P & M). rewrite (input_unique _ _ src _ I (in_stdin w)) in P. vm_compute in P. inversion P; subst c.
    assert (forall t x, input_packet env_armor (mkChunks [[xcb; x06; x62; x00; x00; x00; x00; x00; xca; x03; x50; x47; x50]] true) t x ->
      (t, x) = (11%N, [x62; x00; x00; x00; x00; x00]) \/ (t, x) = (10%N, [x50; x47; x50])) as K.
    { intros t x H. inversion H as [c tag b0 c' N | c t0 b0 c' tag b1 N H']; subst; vm_compute in N; injection N as <- <- <-; [left; reflexivity|].
      inversion H' as [c tag b0 c' N | c t0 b0 c' tag b1 N H'']; subst; vm_compute in N; injection N as <- <- <-; [right; reflexivity|].
      inversion H'' as [c tag b0 c' N | c t0 b0 c' tag b1 N H3]; subst; vm_compute in N; discriminate N. }
    destruct M as [t0 b0 Hi Hn | body d t0 b0 Hi _ _ _]; apply K in Hi; destruct Hi as [Hi|Hi]; inversion Hi; subst; inversion Hn; subst.
    unfold control. cbn. lia.
  - intros src I. rewrite (input_unique _ _ src _ I (in_stdin w)). apply decoder_fits; [exact decodes_armor_used | vm_compute; reflexivity].
  - exists [x00; x00; x00; x00; x00]. exists (mkChunks [[xcb; x06; x62; x00; x00; x00; x00; x00; xca; x03; x50; x47; x50]] true). split; [vm_compute; reflexivity|].
    apply (met_top _ _ _ _ 11%N [x62; x00; x00; x00; x00; x00]); [|constructor].
    apply (ip_next _ _ _ _ (snd (next_chunks (w_env w) (mkChunks [[xcb; x06; x62; x00; x00; x00; x00; x00; xca; x03; x50; x47; x50]] true)))). vm_compute. reflexivity.
  - subst w. eexists. split; [vm_compute; reflexivity | vm_compute; reflexivity].
Qed.

(** The exception is real: the escape character as format octet reaches the terminal in the text output, and it does not in JSON. *)
Example C76_escape : let w := armor_world [xcb; x06; x1b; x00; x00; x00; x00; x00] in
  (exists t, main w [str "-u"] = Some (Some 0, t) /\ In x1b t) /\ (exists j, main w [str "-ju"] = Some (Some 0, j) /\ ~ In x1b j).
Proof.
  cbv zeta. split; eexists; (split; [vm_compute; reflexivity|]); [vm_compute; tauto|].
  intro H. vm_compute in H. repeat (destruct H as [H|H]; [discriminate H|]). exact H.
Qed.
(** And DEL reaches it in JSON too. *)
Example C76_delete : let w := armor_world [xcb; x06; x7f; x00; x00; x00; x00; x00] in exists j, main w [str "-ju"] = Some (Some 0, j) /\ In x7f j.
Proof. cbv zeta. eexists. split; [vm_compute; reflexivity | vm_compute; tauto]. Qed.
