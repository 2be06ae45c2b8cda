(** C137: the source id of a connection's packets stays the same. *)
From Verif Require Import Base Utils Frame Connection Packet Histories Spec SpecPacket Tactics UtilsFacts FrameFacts
  PacketFacts ConnectionFacts CryptoInst SendFacts PropPacket PropBuilt PropSend PropWire PropLimits.

(** RFC 9000 section 7.2: a client discards packets whose source id differs from
    the one of the first packet it read.  Full statement: whatever was called in
    between, two packets read on a connection have the same source id. *)
Definition C137_statement : Prop := forall P oc srv d l c s p rest xs s' q rest',
  prims_ok P -> reachable P oc srv d l c -> id_fits d l -> bytes_ok s -> bytes_ok s' ->
  decode_next_packet oc c s = Ok (PInitial p, rest) ->
  decode_next_packet oc (run oc c xs) s' = Ok (PInitial q, rest') ->
  lh_scid_len (pi_header q) = lh_scid_len (pi_header p) /\ lh_scid (pi_header q) = lh_scid (pi_header p).

(** Every source id will do, at any time, also for packets in one datagram. *)
Theorem C137_any_source : forall P oc srv d l c x m y n,
  prims_ok P -> reachable P oc srv d l c -> id_fits d l -> id_fits x m -> id_fits y n ->
  exists w w' p q, bytes_ok w /\ bytes_ok w' /\
    (forall rest, decode_next_packet oc c (w ++ rest) = Ok (PInitial p, rest)) /\
    (forall rest, decode_next_packet oc c (w' ++ rest) = Ok (PInitial q, rest)) /\
    decode_packets oc c (w ++ w') = Ok [PInitial p; PInitial q] /\
    lh_scid (pi_header p) = x /\ lh_scid_len (pi_header p) = m /\ lh_dcid (pi_header p) = d /\ lh_dcid_len (pi_header p) = l /\
    lh_scid (pi_header q) = y /\ lh_scid_len (pi_header q) = n /\ lh_dcid (pi_header q) = d /\ lh_dcid_len (pi_header q) = l.
Proof.
  intros P oc srv d l c x m y n HP R ID I1 I2.
  destruct (accepts P oc srv d l c 0xc3 1 d l x m [] 0 [Ping] [1]) as [k [w [_ [_ [B D]]]]]; auto;
    try reflexivity; try discriminate; try (repeat constructor).
  destruct (accepts P oc srv d l c 0xc3 1 d l y n [] 1 [Ping] [1]) as [k' [w' [_ [_ [B' D']]]]]; auto;
    try reflexivity; try discriminate; try (repeat constructor).
  eexists w, w', _, _. split; [exact B|]. split; [exact B'|]. split; [exact D|]. split; [exact D'|].
  split; [|repeat split].
  rewrite <- (app_nil_r w') at 1. change (w ++ w' ++ []) with (concat [w; w']).
  match goal with |- _ = Ok [PInitial ?p; PInitial ?q] => change [PInitial p; PInitial q] with (map PInitial [p; q]) end.
  apply coalesced. constructor; [split; [intros ->; specialize (D []); discriminate D|exact D]|].
  constructor; [split; [intros ->; specialize (D' []); discriminate D'|exact D']|constructor].
Qed.
Print Assumptions C137_any_source.

Theorem C137_source_refuted : ~ C137_statement.
Proof.
  intros H. destruct (sample_reachable true) as [c R].
  assert (ID : id_fits sample_id 8) by (repeat split; vm_compute; (reflexivity || discriminate)).
  assert (I4 : id_fits (U160 0 7) 4) by (repeat split; vm_compute; (reflexivity || discriminate)).
  destruct (C137_any_source real_prims true true sample_id 8 c sample_id 8 (U160 0 7) 4 real_prims_ok R ID ID I4)
    as [w [w' [p [q [B [B' [D [D' [_ [_ [L [_ [_ [_ [L' _]]]]]]]]]]]]]]].
  destruct (H _ _ _ _ _ _ _ _ _ [] _ _ _ real_prims_ok R ID B B' (eq_trans (f_equal _ (eq_sym (app_nil_r w))) (D [])) (eq_trans (f_equal _ (eq_sym (app_nil_r w'))) (D' []))) as [X _].
  rewrite L, L' in X. discriminate X.
Qed.
Print Assumptions C137_source_refuted.

(** A client reads a packet of the server, then one with another source id. *)
Example C137_case :
  (let? (c, s) := sample_pair true in
   let? w := send_initial true [Ping] None (set_scid s sample_id 8) in
   let? w' := send_initial true [Ping] None (set_scid s (U160 0 7) 4) in
   let? ps := decode_packets true c (w ++ w') in
   Ok (map (fun p => match p with PInitial p => lh_scid_len (pi_header p) | _ => 99 end) ps)) = Ok [8; 4].
Proof. vm_compute. reflexivity. Qed.
