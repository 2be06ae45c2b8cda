(** Property C147: 0-RTT packets at a client. *)
From Verif Require Import Base Utils Frame CipherSuite Secrets Connection Packet Histories Spec SpecPacket
  Tactics UtilsFacts ParserFacts FrameFacts SecretsFacts HeaderFacts PacketFacts ConnectionFacts SendFacts ProtectedInv
  CryptoInst PropPacket PropConn PropProtected PropKeys PropRepairsChecks.

(** A connection that was given secrets for application data. No function of the
    crate does this (see C28); it is what the fields of connection.rs lines 59-70
    are for. *)
Definition given_secrets (c : connection) (loc rem : secrets) : connection :=
  Connection (c_version c) (initial_pn_info c) (handshake_pn_info c)
    (PnInfo None None 0 (Some loc) (Some rem)) (c_dcid c) (c_scid c).

(** Full statement (RFC 9000 section 17.2.3, RFC 9001 section 5.6: only clients send
    0-RTT packets): a client connection reads no 0-RTT packet, before and after it
    is given the secrets for application data. *)
Definition C147_statement : Prop := forall P oc d l c loc rem s p rest,
  prims_ok P -> reachable P oc false d l c -> bytes_ok s ->
  decode_next_packet oc c s <> Ok (PZeroRtt p, rest) /\
  decode_next_packet oc (given_secrets c loc rem) s <> Ok (PZeroRtt p, rest).

(** Without the secrets it reads none, ... *)
Theorem C147_without_secrets : forall P oc srv d l c s p rest,
  prims_ok P -> reachable P oc srv d l c -> bytes_ok s ->
  decode_next_packet oc c s <> Ok (PZeroRtt p, rest).
Proof.
  intros P oc srv d l c s p rest HP R B D.
  exact (proj1 (C28_no_protected_packet_accepted _ _ _ _ _ _ _ HP R B) _ _ D).
Qed.
Print Assumptions C147_without_secrets.

(** ... with them a client reads each, just as a server does. *)
Theorem C147_any_role : forall P oc srv d l c loc rem k p pt w rest,
  prims_ok P -> reachable P oc srv d l c -> secrets_keys P oc rem k ->
  zero_rtt_wire P k p pt w -> pz_pn p < 256 ^ len (pz_pn_bytes p) -> len (pz_pn_bytes p) = 4 ->
  deserialize_frames oc pt = Ok (pz_payload p) ->
  decode_next_packet oc (given_secrets c loc rem) (w ++ rest) = Ok (PZeroRtt p, rest).
Proof.
  intros P oc srv d l c loc rem k p pt w rest HP _ K W N L D.
  eapply C61_zero_rtt_partial; eauto.
  - exists rem. split; [reflexivity|exact K].
  - reflexivity.
Qed.
Print Assumptions C147_any_role.

(** A client of the library, given the secrets its peer has for Initial packets,
    and a 0-RTT packet. *)
Example C147_case : exists c s k p w,
  reachable real_prims true false sample_id 8 c /\ secrets_keys real_prims true s k /\
  zero_rtt_wire real_prims k p [1; 1; 1] w /\ pz_pn p < 256 ^ len (pz_pn_bytes p) /\ len (pz_pn_bytes p) = 4 /\
  deserialize_frames true [1; 1; 1] = Ok (pz_payload p) /\ bytes_ok w /\
  decode_next_packet true (given_secrets c s s) w = Ok (PZeroRtt p, []).
Proof.
  destruct (sample_reachable false) as [c R].
  pose proof (reachable_inv _ _ _ _ _ _ real_prims_ok R) as I.
  destruct (ci_keys _ _ _ _ _ _ I) as [cid [kl [k [_ [_ [_ [_ [s [_ K]]]]]]]]].
  assert (KO : keys_ok k) by apply K.
  destruct (zero_rtt_exists k KO) as [p [w [W [N [L D]]]]].
  exists c, s, k, p, w. repeat (split; [assumption|]).
  split.
  - exact (proj2 (zero_rtt_bounded _ _ _ _ _ real_prims_ok KO W)).
  - rewrite <- (app_nil_r w). eapply C147_any_role; eauto using real_prims_ok.
Qed.

Theorem C147_refuted : ~ C147_statement.
Proof.
  intros H. destruct C147_case as [c [s [k [p [w [R [_ [_ [_ [_ [_ [B D]]]]]]]]]]]].
  exact (proj2 (H _ _ _ _ _ s s w p [] real_prims_ok R B) D).
Qed.
Print Assumptions C147_refuted.
