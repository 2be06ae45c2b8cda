(** C89 and C90: using a connection to send does not change what it receives, and
    sending a packet again sends the same bytes. *)
From Verif Require Import Base Utils Frame CipherSuite Secrets Connection Packet Histories Spec SpecPacket
  Tactics UtilsFacts ParserFacts FrameFacts SecretsFacts HeaderFacts PacketFacts ConnectionFacts CryptoInst PropPacket.

(** What calls leave alone. *)
Definition same_state (c c' : connection) : Prop :=
  forall sp, largest_remote_ack (borrow_pn_info c sp) = largest_remote_ack (borrow_pn_info c' sp) /\
             local_tls_secrets (borrow_pn_info c sp) = local_tls_secrets (borrow_pn_info c' sp) /\
             remote_tls_secrets (borrow_pn_info c sp) = remote_tls_secrets (borrow_pn_info c' sp).

Lemma same_refl c : same_state c c.
Proof. intros sp. auto. Qed.
Lemma same_trans a b c : same_state a b -> same_state b c -> same_state a c.
Proof. intros H1 H2 sp. destruct (H1 sp) as [? [? ?]], (H2 sp) as [? [? ?]]. repeat split; congruence. Qed.

Lemma get_next_pn_same oc c sp : same_state c (fst (get_next_pn oc c sp)).
Proof.
  unfold get_next_pn. destruct (add64 oc (next_pn (borrow_pn_info c sp)) 1); cbn [fst]; try apply same_refl.
  intros sp'. destruct sp, sp'; cbn; auto.
Qed.
Lemma call_same oc c x : same_state c (do_call oc c x).
Proof.
  destruct x as [id n|sp|fs t|fs].
  - intros []; cbn; auto.
  - apply get_next_pn_same.
  - rewrite (do_call_pn oc c _ SpInitial) by eauto 8. apply get_next_pn_same.
  - rewrite (do_call_pn oc c _ SpHandshake) by eauto 8. apply get_next_pn_same.
Qed.
Lemma run_same oc xs : forall c, same_state c (run oc c xs).
Proof.
  induction xs as [|x xs IH]; intros c; cbn [run]; [apply same_refl|].
  eapply same_trans; [apply call_same|apply IH].
Qed.

Lemma same_remote_secrets c c' sp : same_state c c' -> borrow_remote_tls_secrets c sp = borrow_remote_tls_secrets c' sp.
Proof. intros H. unfold borrow_remote_tls_secrets. destruct (H sp) as [_ [_ ->]]. reflexivity. Qed.
Lemma same_local_secrets c c' sp : same_state c c' -> borrow_local_tls_secrets c sp = borrow_local_tls_secrets c' sp.
Proof. intros H. unfold borrow_local_tls_secrets. destruct (H sp) as [_ [-> _]]. reflexivity. Qed.
Lemma same_remote_mask c c' sp : same_state c c' -> get_remote_hp_mask c sp = get_remote_hp_mask c' sp.
Proof. intros H. unfold get_remote_hp_mask. rewrite (same_remote_secrets c c' sp H). reflexivity. Qed.
Lemma same_decrypt c c' sp : same_state c c' -> decrypt_remote_payload c sp = decrypt_remote_payload c' sp.
Proof. intros H. unfold decrypt_remote_payload. rewrite (same_remote_secrets c c' sp H). reflexivity. Qed.
Lemma same_reconstruct oc c c' sp : same_state c c' -> reconstruct_remote_pn oc c sp = reconstruct_remote_pn oc c' sp.
Proof. intros H. unfold reconstruct_remote_pn. destruct (H sp) as [-> _]. reflexivity. Qed.
Lemma same_local_mask c c' sp : same_state c c' -> get_local_hp_mask c sp = get_local_hp_mask c' sp.
Proof. intros H. unfold get_local_hp_mask. rewrite (same_local_secrets c c' sp H). reflexivity. Qed.
Lemma same_encrypt c c' sp : same_state c c' -> encrypt_local_payload c sp = encrypt_local_payload c' sp.
Proof. intros H. unfold encrypt_local_payload. rewrite (same_local_secrets c c' sp H). reflexivity. Qed.
Lemma same_len oc c c' sp : same_state c c' ->
  get_local_protected_payload_len oc c sp = get_local_protected_payload_len oc c' sp.
Proof. intros H. unfold get_local_protected_payload_len. rewrite (same_local_secrets c c' sp H). reflexivity. Qed.

Ltac same H :=
  repeat first [ rewrite (same_remote_mask _ _ _ H) | rewrite (same_decrypt _ _ _ H) | rewrite (same_reconstruct _ _ _ _ H)
               | rewrite (same_local_mask _ _ _ H) | rewrite (same_encrypt _ _ _ H) | rewrite (same_len _ _ _ _ H) ].

Lemma same_decode_next oc c c' s : same_state c c' -> decode_next_packet oc c s = decode_next_packet oc c' s.
Proof.
  intros H. unfold decode_next_packet, one_rtt_from_stream, handshake_from_stream, initial_from_stream,
    zero_rtt_from_stream.
  same H. reflexivity.
Qed.
Lemma same_decode oc c c' s : same_state c c' -> decode_packets oc c s = decode_packets oc c' s.
Proof.
  intros H. unfold decode_packets. generalize (length s) as n. intros n. revert s.
  induction n as [|n IH]; intros s; cbn [decode_packets_loop]; destruct s as [|b s]; auto.
  rewrite (same_decode_next oc c c' _ H).
  destruct (decode_next_packet oc c' (b :: s)) as [[p r]| | |]; cbn [bind]; auto. rewrite IH. reflexivity.
Qed.

(** ** C89: whatever is done with a connection in between, a datagram is decoded
    to the same packets or refused with the same error. *)
Theorem C89_receiving_unaffected : forall oc c xs s, decode_packets oc (run oc c xs) s = decode_packets oc c s.
Proof. intros. symmetry. apply same_decode, run_same. Qed.
Print Assumptions C89_receiving_unaffected.
Example C89_case :
  (let? (c, s) := sample_pair true in
   let? p := snd (initial_new true sample_payload (Some [9; 9]) c) in
   let? wire := initial_serialize true p c in
   let s' := run true s [CNextPn SpInitial; CSetScid u160_zero 3; CHandshake [Ping]; CInitial [Ping] None] in
   let? ps := decode_packets true s' wire in
   Ok (len ps, next_pn (initial_pn_info s), next_pn (initial_pn_info s'))) = Ok (1, 0, 2).
Proof. vm_compute. reflexivity. Qed.

(** ** C90: a packet sent again is the same bytes, even if other packets were
    made, numbered or addressed differently in between. *)
Theorem C90_initial_resent : forall oc c xs p, initial_serialize oc p (run oc c xs) = initial_serialize oc p c.
Proof. intros. pose proof (run_same oc xs c) as H. unfold initial_serialize. same H. reflexivity. Qed.
Print Assumptions C90_initial_resent.
Theorem C90_handshake_resent : forall oc c xs p, handshake_serialize oc p (run oc c xs) = handshake_serialize oc p c.
Proof. intros. pose proof (run_same oc xs c) as H. unfold handshake_serialize. same H. reflexivity. Qed.
Print Assumptions C90_handshake_resent.
Example C90_handshake_case :
  (let? (c, s) := sample_pair true in
   let? a := from_secret (TLS13_AES_128_GCM_SHA256 real_prims true) (repeat 1 32) in
   let c := install c a a in
   let? p := snd (handshake_new true sample_payload c) in
   let? wire := handshake_serialize true p c in
   let? wire' := handshake_serialize true p (run true c [CHandshake [Ping]; CSetScid u160_zero 3]) in
   Ok (len wire, forallb (fun x => fst x =? snd x) (combine wire wire'), len wire')) = Ok (52, true, 52).
Proof. vm_compute. reflexivity. Qed.
Example C90_case :
  (let? (c, s) := sample_pair true in
   let? p := snd (initial_new true sample_payload (Some [9; 9]) c) in
   let c' := run true c [CInitial [Ping] None; CSetScid u160_zero 3] in
   let? wire := initial_serialize true p c in
   let? wire' := initial_serialize true p c' in
   Ok (len wire, forallb (fun x => fst x =? snd x) (combine wire wire'), len wire')) = Ok (55, true, 55).
Proof. vm_compute. reflexivity. Qed.
