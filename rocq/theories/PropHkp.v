(** * PropHkp: C45, key-server queries cannot be altered by the user ID. *)
From Coq Require Import Strings.String Strings.Byte List NArith ZArith Bool Lia.
From Verif Require Import Base Utf8 Hkp SpecBase SpecHkp BaseL HkpL.
Import ListNotations.
Local Open Scope N_scope.

(** The request URL, read by the rules of RFC 3986, has a query, and the query holds
    exactly the two parameters op=get and search=<the user ID>: whatever the octets of
    the user ID, whatever the server. *)
Theorem C45_query : forall s uid, exists p q,
  url_parts (url_string (fetch_url s uid)) = Some p /\
  p_query p = Some q /\
  parameters q = Some [(str "op", str "get"); (str "search", uid)].
Proof.
  intros s uid. rewrite fetch_parts. eexists. eexists.
  split; [reflexivity|]. split; [reflexivity|]. apply fetch_parameters.
Qed.
Print Assumptions C45_query.

(** The user ID has no influence on any other part of the URL: the path is always
    /pks/lookup, there is no fragment, and scheme and authority are the server's. *)
Theorem C45_only_the_query : forall s uid uid', exists p p',
  url_parts (url_string (fetch_url s uid)) = Some p /\
  url_parts (url_string (fetch_url s uid')) = Some p' /\
  p_scheme p = p_scheme p' /\ p_authority p = p_authority p' /\
  p_path p = str "/pks/lookup" /\ p_path p' = str "/pks/lookup" /\
  p_fragment p = None /\ p_fragment p' = None.
Proof.
  intros s uid uid'. rewrite !fetch_parts. do 2 eexists. repeat split.
Qed.
Print Assumptions C45_only_the_query.

(** Different user IDs give different requests. *)
Theorem C45_injective : forall s uid uid',
  url_string (fetch_url s uid) = url_string (fetch_url s uid') -> uid = uid'.
Proof.
  intros s uid uid' H.
  destruct (C45_query s uid) as (p & q & Hp & Hq & Hd).
  destruct (C45_query s uid') as (p' & q' & Hp' & Hq' & Hd').
  congruence.
Qed.
Print Assumptions C45_injective.

(** The URL is printable ASCII without blanks: a user ID cannot smuggle line breaks or
    control characters into the request line. *)
Theorem C45_printable : forall s uid b,
  In b (url_string (fetch_url s uid)) -> 33 <= b2n b <= 126.
Proof.
  intros s uid b. rewrite fetch_text.
  assert (G : forall l, forallb (fun b => inr 33 126 (b2n b)) l = true -> In b l -> 33 <= b2n b <= 126).
  { intros l H K. rewrite forallb_forall in H. apply H in K. unfold inr in K.
    apply andb_true_iff in K as [K1 K2]. apply N.leb_le in K1, K2. lia. }
  assert (W : forall (p q : byte -> bool) l, (forall x, p x = true -> q x = true) ->
              forallb p l = true -> forallb q l = true).
  { intros p q l H. rewrite !forallb_forall. intros K x Hx. apply H, K, Hx. }
  apply G. rewrite forallb_app. cbn [forallb]. rewrite !forallb_app. cbn [forallb]. rewrite !forallb_app.
  rewrite !andb_true_iff. repeat split; try reflexivity.
  - unfold protocol_string. destruct (_ =? _)%Z; [|destruct (_ =? _)%Z]; reflexivity.
  - eapply W; [|apply host_octets]. intros x; destruct x; try reflexivity; discriminate.
  - eapply W; [|apply decZ_octets]. intros x; destruct x; try reflexivity; discriminate.
  - eapply W; [|apply escape_octets]. intros x; destruct x; try reflexivity; discriminate.
Qed.
Print Assumptions C45_printable.

(** The server that is asked: the scheme is https exactly for HKP over HTTPS and http
    otherwise; the authority is the host name, unchanged, and the port in decimal. *)
Theorem C45_server : forall prt host port uid,
  Forall host_char host ->
  exists p, url_parts (url_string (fetch_url (mkServer prt host port) uid)) = Some p /\
            p_scheme p = (if (prt =? HKPS)%Z then str "https" else str "http") /\
            host_port (p_authority p) = Some (host, decZ port).
Proof.
  intros prt host port uid H. rewrite fetch_parts. eexists. split; [reflexivity|].
  cbn [sv_prt sv_host sv_port p_scheme p_authority]. split.
  - unfold protocol_string. destruct (prt =? HKP)%Z eqn:E; [|destruct (prt =? HKPS)%Z; reflexivity].
    apply Z.eqb_eq in E. subst. reflexivity.
  - rewrite host_escape_plain; [apply host_port_text|].
    apply forallb_forall. rewrite Forall_forall in H. intros x Hx. apply host_char_plain, H, Hx.
Qed.
Print Assumptions C45_server.

(** Of several protocol or port options the last one counts; the defaults are plain
    HTTP and port 11371. *)
Theorem C45_options : forall host l,
  server_new host l =
  mkServer (fold_left (fun a o => match o with WithProtocol p => p | _ => a end) l HKP)
           host
           (fold_left (fun a o => match o with WithPort p => p | _ => a end) l 11371%Z).
Proof.
  intros host l. unfold server_new. generalize HKP as a, 11371%Z as b.
  induction l as [|o l IH]; intros a b; cbn [fold_left]; [reflexivity|].
  destruct o; cbn [server_set sv_prt sv_host sv_port]; apply IH.
Qed.
Print Assumptions C45_options.

(** A user ID full of delimiters. *)
Example C45_example :
  url_string (fetch_url (server_new (str "keys.gnupg.net") []) (str "a b&op=x#?/+%")) =
  str "http://keys.gnupg.net:11371/pks/lookup?op=get&search=a+b%26op%3Dx%23%3F%2F%2B%25".
Proof. reflexivity. Qed.

Example C45_example_server : Forall host_char (str "keys.gnupg.net").
Proof.
  apply Forall_forall. intros b H. cbn in H.
  repeat (destruct H as [H|H]; [subst b; unfold host_char; vm_compute b2n; lia|]). destruct H.
Qed.

(** The vectors of hkp_test.go. *)
Example golden_server_1 : server_string (server_new (str "test.server") []) = str "http://test.server:11371".
Proof. reflexivity. Qed.
Example golden_server_2 :
  server_string (server_new (str "test.server") [WithPort 80; WithProtocol HKPS]) = str "https://test.server:80" /\
  server_string (server_new (str "test.server") [WithPort 80; WithProtocol 0]) = str "http://test.server:80".
Proof. split; reflexivity. Qed.
