(** Property C144: what "{:?}" tells about the keys of a socket's connections. *)
From Verif Require Import Base Utils Frame CipherSuite Secrets Connection Packet Routing Threads LogText DebugText
  Spec SpecPacket SpecRouting Tactics UtilsFacts PacketFacts ConnectionFacts RoutingFacts RoutingSafe CryptoInst SampleRuns PropConn PropRouting PropConnect.
From Coq Require Import Permutation DecimalString.

(** The text [x] occurs in [t]. *)
Definition occurs (x t : list ascii) : Prop := exists a b, t = a ++ x ++ b.

(** A list of bytes in decimal, as "{:?}" writes it. *)
Definition in_decimal (l : list N) : string :=
  "[" ++ String.concat ", " (map (fun b => NilEmpty.string_of_uint (N.to_uint b)) l) ++ "]".
(** The line contains the three keys of one direction. *)
Definition tells_keys (t : list ascii) (k : SpecPacket.keys) : Prop :=
  occurs (list_ascii_of_string ("hp: " ++ in_decimal (k_hp k) ++ ", iv: Some(" ++ in_decimal (k_iv k) ++ "), key: " ++ in_decimal (k_key k))) t.

(** [t] is what "{:?}" can print for the socket, or for a stream of it, in world
    [w]: the entries in any order, "<locked>" for locks that are not free. *)
Definition printed_for (w : world) (t : list ascii) : Prop :=
  exists os busy order,
    (forall l, busy l = true <-> ~ grantable w l Shared) /\ Permutation order (streams (w_sock w)) /\
    (t = quic_socket_text os busy (w_poisoned w) order (log_traffic (w_sock w)) \/
     exists id, t = quic_stream_text os busy (w_poisoned w) order (log_traffic (w_sock w)) id).

(** Full statement: printing a socket or a stream does not tell the keys of a
    connection. *)
Definition C144_statement : Prop := forall P oc tr w t id s sp k,
  prims_ok P -> execution P oc start tr w -> well_typed tr ->
  printed_for w t -> get (streams (w_sock w)) id = Some s ->
  local_keys P oc (q_conn s) sp k \/ remote_keys P oc (q_conn s) sp k -> ~ tells_keys t k.

Lemma occurs_refl x : occurs x x.
Proof. exists [], []. rewrite app_nil_r. reflexivity. Qed.
Lemma occurs_trans x y z : occurs x y -> occurs y z -> occurs x z.
Proof. intros [a [b ->]] [c [d ->]]. exists (c ++ a), (b ++ d). rewrite <- !app_assoc. reflexivity. Qed.
Lemma occurs_app x a b c : occurs x b -> occurs x (a ++ b ++ c).
Proof. intros H. eapply occurs_trans; [exact H|]. exists a, c. reflexivity. Qed.
Lemma occurs_join x : forall l, In x l -> occurs x (join l).
Proof.
  induction l as [|y l IH]; intros H; [destruct H|]. destruct H as [->|H].
  - destruct l as [|z l]; [apply occurs_refl|]. exists [], (chars ", " ++ join (z :: l)). reflexivity.
  - destruct l as [|z l]; [destruct H|]. eapply occurs_trans; [apply IH; exact H|].
    exists (y ++ chars ", "), []. rewrite app_nil_r, <- app_assoc. reflexivity.
Qed.
Lemma occurs_field name fields k v : In (k, v) fields -> occurs v (struct_text name fields).
Proof.
  intros H. unfold struct_text. rewrite app_assoc. apply occurs_app.
  eapply occurs_trans; [|apply occurs_join, in_map_iff; exists (k, v); split; [reflexivity|exact H]].
  exists (chars k ++ chars ": "), []. rewrite app_nil_r, <- app_assoc. reflexivity.
Qed.
Lemma occurs_rwlock p x : occurs x (rwlock_text false p x).
Proof. unfold rwlock_text. apply occurs_app, occurs_refl. Qed.

Lemma chars_app a b : chars (a ++ b)%string = chars a ++ chars b.
Proof. induction a as [|c a IH]; cbn; [reflexivity|]. f_equal. exact IH. Qed.
Lemma digits_std u : digits u = chars (NilEmpty.string_of_uint u).
Proof. induction u; cbn; f_equal; auto. Qed.
Lemma join_std l : join (map (fun b => render (DNum b)) l) = chars (String.concat ", " (map (fun b => NilEmpty.string_of_uint (N.to_uint b)) l)).
Proof.
  induction l as [|x [|y l] IH]; [reflexivity|cbn; apply digits_std|].
  change (map (fun b => render (DNum b)) (x :: y :: l)) with (number x :: map (fun b => render (DNum b)) (y :: l)).
  change (String.concat ", " (map (fun b => NilEmpty.string_of_uint (N.to_uint b)) (x :: y :: l))) with
    (NilEmpty.string_of_uint (N.to_uint x) ++ ", " ++ String.concat ", " (map (fun b => NilEmpty.string_of_uint (N.to_uint b)) (y :: l)))%string.
  rewrite !chars_app, <- IH, <- digits_std. reflexivity.
Qed.
Lemma bytes_std l : render (d_bytes l) = chars (in_decimal l).
Proof.
  unfold d_bytes, d_list, in_decimal. cbn [render]. rewrite map_map, !chars_app, <- join_std. reflexivity.
Qed.

Lemma secrets_tell P oc s k : secrets_keys P oc s k -> tells_keys (secrets_text s) k.
Proof.
  intros [_ [K [I [H _]]]]. unfold tells_keys, secrets_text, struct_text. rewrite K, I, H.
  change list_ascii_of_string with chars. rewrite !chars_app, <- !bytes_std.
  exists (chars "Secrets" ++ chars " { " ++ chars "cipher_suite: , "), (chars " }").
  cbn [map join d_option render]. unfold cipher_suite_text. rewrite <- !app_assoc. cbn [app chars list_ascii_of_string]. 
  rewrite <- ?app_assoc. cbn [app]. rewrite <- ?app_assoc. reflexivity.
Qed.
Definition space_secrets (c : connection) (sp : pn_space) (s : secrets) : Prop :=
  local_tls_secrets (borrow_pn_info c sp) = Some s \/ remote_tls_secrets (borrow_pn_info c sp) = Some s.
Lemma option_tell x t : x = Some t -> occurs t (option_text x).
Proof. intros ->. unfold option_text. apply occurs_app, occurs_refl. Qed.
Lemma pn_info_tell i s : local_tls_secrets i = Some s \/ remote_tls_secrets i = Some s -> occurs (secrets_text s) (pn_info_text i).
Proof.
  intros [H|H]; unfold pn_info_text.
  - eapply occurs_trans; [|eapply occurs_field with (k := "local_tls_secrets"%string); do 3 right; left; reflexivity].
    apply option_tell. rewrite H. reflexivity.
  - eapply occurs_trans; [|eapply occurs_field with (k := "remote_tls_secrets"%string); do 4 right; left; reflexivity].
    apply option_tell. rewrite H. reflexivity.
Qed.
Lemma connection_tell c sp s : space_secrets c sp s -> occurs (secrets_text s) (connection_text c).
Proof.
  intros H. apply pn_info_tell in H. eapply occurs_trans; [exact H|]. unfold connection_text.
  destruct sp; cbn [borrow_pn_info].
  - eapply occurs_field with (k := "initial_pn_info"%string). do 1 right. left. reflexivity.
  - eapply occurs_field with (k := "handshake_pn_info"%string). do 2 right. left. reflexivity.
  - eapply occurs_field with (k := "application_pn_info"%string). do 3 right. left. reflexivity.
Qed.
Lemma isocket_tell os busy poisoned order log id s : In (id, s) order -> busy LStreams = false -> busy (LConn id) = false ->
  occurs (connection_text (q_conn s)) (isocket_text os busy poisoned order log).
Proof.
  intros I BS BC. unfold isocket_text.
  eapply occurs_trans; [|eapply occurs_field with (k := "streams"%string); right; left; reflexivity].
  rewrite BS. eapply occurs_trans; [|apply occurs_rwlock]. unfold table_text.
  match goal with |- occurs _ (_ :: ?l) => change (occurs (connection_text (q_conn s)) (["{"%char] ++ l)) end. apply occurs_app.
  eapply occurs_trans; [|apply occurs_join, in_map_iff; exists (id, s); split; [reflexivity|exact I]].
  rewrite app_assoc. eapply occurs_trans; [|exists (render (d_u160 id) ++ chars ": "), []; rewrite app_nil_r; reflexivity].
  unfold qstream_text. eapply occurs_trans; [|eapply occurs_field with (k := "connection"%string); right; right; left; reflexivity].
  rewrite BC. apply occurs_rwlock.
Qed.

(** Whatever is printed for a socket, or for any of its streams, contains all
    keys of all its connections, in decimal; except at the moments at which a
    thread changes the table (or that connection). *)
Theorem C144_all_keys : forall P oc w t id s sp k,
  printed_for w t -> grantable w LStreams Shared -> grantable w (LConn id) Shared ->
  get (streams (w_sock w)) id = Some s ->
  local_keys P oc (q_conn s) sp k \/ remote_keys P oc (q_conn s) sp k -> tells_keys t k.
Proof.
  intros P oc w t id s sp k [os [busy [order [B [PM F]]]]] GS GC G K.
  assert (NB : forall l, grantable w l Shared -> busy l = false).
  { intros l H. destruct (busy l) eqn:E; auto. apply B in E. contradiction. }
  assert (S : exists x, space_secrets (q_conn s) sp x /\ secrets_keys P oc x k) by (destruct K as [[x [E H]]|[x [E H]]]; exists x; unfold space_secrets; auto).
  destruct S as [x [S H]]. apply secrets_tell in H. apply connection_tell in S.
  assert (I : In (id, s) order) by (eapply Permutation_in; [symmetry; exact PM|apply get_in; exact G]).
  pose proof (isocket_tell os busy (w_poisoned w) order (log_traffic (w_sock w)) id s I (NB _ GS) (NB _ GC)) as O.
  eapply occurs_trans; [exact H|]. eapply occurs_trans; [exact S|]. eapply occurs_trans; [exact O|].
  destruct F as [->|[i ->]]; eapply occurs_field with (k := "socket"%string); left; reflexivity.
Qed.
Print Assumptions C144_all_keys.

(** In particular the Initial keys of both directions of every connection. *)
Theorem C144_initial_keys : forall P oc tr w t id s, prims_ok P -> execution P oc start tr w -> well_typed tr ->
  printed_for w t -> grantable w LStreams Shared -> grantable w (LConn id) Shared ->
  get (streams (w_sock w)) id = Some s ->
  exists d ks kc, initial_keys P true d ks /\ initial_keys P false d kc /\ tells_keys t ks /\ tells_keys t kc.
Proof.
  intros P oc tr w t id s HP X T F GS GC G.
  destruct (C130_servers_only P oc tr w id s HP X T G) as [d [ks [kc [A [B [C D]]]]]]. exists d, ks, kc.
  split; [exact A|]. split; [exact B|]. split; eapply C144_all_keys; eauto.
Qed.
Print Assumptions C144_initial_keys.

(** While another thread changes the table, the text says nothing about any
    connection: it is the same for all tables. *)
Theorem C144_locked : forall os busy poisoned order order' log, busy LStreams = true ->
  quic_socket_text os busy poisoned order log = quic_socket_text os busy poisoned order' log.
Proof. intros os busy poisoned order order' log B. unfold quic_socket_text, isocket_text, rwlock_text. rewrite B. reflexivity. Qed.
Print Assumptions C144_locked.

(** Datagrams that wait in a queue are not printed. *)
Theorem C144_no_queue : forall os busy poisoned before id q q' c after log,
  quic_socket_text os busy poisoned (before ++ (id, QStream q c) :: after) log =
  quic_socket_text os busy poisoned (before ++ (id, QStream q' c) :: after) log.
Proof. intros. unfold quic_socket_text, isocket_text, table_text. rewrite !map_app. reflexivity. Qed.
Print Assumptions C144_no_queue.

Lemma alone_grantable w t : (forall t', th_held (w_threads w t') = []) -> forall l, grantable w l t.
Proof. intros H l t' m I. rewrite H in I. destruct I. Qed.

Example C144_case : exists tr w s t, execution real_prims true start tr w /\ well_typed tr /\
  get (streams (w_sock w)) (U160 0 77) = Some s /\ printed_for w t /\
  grantable w LStreams Shared /\ grantable w (LConn (U160 0 77)) Shared.
Proof.
  destruct two_routed as [tr [w [c0 [acts [[X [T [_ [E [D [A [AL F]]]]]]] _]]]]].
  assert (NH : forall t', th_held (w_threads w t') = []).
  { intros t'. destruct (N.eq_dec t' 0) as [->|N]; [|rewrite F by auto; reflexivity]. auto. }
  pose proof (alone_grantable w Shared NH) as GR.
  exists tr, w, (QStream [short_77; short_77b] (set_scid c0 (U160 0 77) 8)).
  exists (quic_socket_text (chars "Mutex { .. }") (fun _ => false) (w_poisoned w) (streams (w_sock w)) (log_traffic (w_sock w))).
  split; [exact X|]. split; [exact T|]. split; [rewrite E; reflexivity|].
  split; [|split; apply GR].
  exists (chars "Mutex { .. }"), (fun _ => false), (streams (w_sock w)). split; [|split; [apply Permutation_refl|left; reflexivity]].
  intros l. split; [discriminate|]. intros H. destruct (H (GR l)).
Qed.

Theorem C144_refuted : ~ C144_statement.
Proof.
  intros H. destruct C144_case as [tr [w [s [t [X [T [G [F [GS GC]]]]]]]]].
  destruct (C130_servers_only _ _ _ _ _ _ real_prims_ok X T G) as [d [ks [kc [_ [_ [L _]]]]]].
  apply (H real_prims true tr w t _ s SpInitial ks real_prims_ok X T F G (or_introl L)).
  eapply C144_all_keys; eauto.
Qed.
Print Assumptions C144_refuted.
