(** C95: the first packet of a datagram is read by the connection it is addressed to. *)
From Verif Require Import Base Utils Frame CipherSuite Secrets Connection Packet Routing Threads Histories
  Spec SpecPacket SpecRouting Tactics UtilsFacts ParserFacts FrameFacts HeaderFacts PacketFacts ConnectionFacts PacketInv DecodeFacts
  RoutingFacts RoutingSafe SoloFacts CryptoInst SampleRuns PropRouting PropPacket PropAccept PropIntake PropAtomic.

(** Two long headers with the same version and ids. *)
Definition same_ids (a b : long_header) : Prop :=
  lh_version a = lh_version b /\ lh_dcid a = lh_dcid b /\ lh_dcid_len a = lh_dcid_len b /\
  lh_scid a = lh_scid b /\ lh_scid_len a = lh_scid_len b.

(** The decoded packet has the type and carries the ids of header [h]. *)
Definition headed (p : packet) (h : packet_header) : Prop :=
  match p, h with
  | PVersionNegotiation q, HLong x => get_packet_type h = Ok TVersionNegotiation /\ vn_header q = x
  | PInitial q, HLong x => get_packet_type h = Ok TInitial /\ same_ids (pi_header q) x
  | PZeroRtt q, HLong x => get_packet_type h = Ok TZeroRtt /\ same_ids (pz_header q) x
  | PHandshake q, HLong x => get_packet_type h = Ok THandshake /\ same_ids (ph_header q) x
  | POneRtt q, HShort x => get_packet_type h = Ok TOneRtt /\ sh_dcid (po_header q) = sh_dcid x
  | _, _ => False
  end.

Lemma unprotect_ids h mask h' : long_remove_protection h mask = Ok h' -> same_ids h' h.
Proof.
  unfold long_remove_protection. destruct (lh_protected h).
  - intros H. inv_bind. injection H as <-. repeat split.
  - intros [= <-]. repeat split.
Qed.
Lemma unprotect_short_id h mask h' : short_remove_protection h mask = Ok h' -> sh_dcid h' = sh_dcid h.
Proof.
  unfold short_remove_protection. destruct (sh_protected h).
  - intros H. inv_bind. injection H as <-. reflexivity.
  - intros [= <-]. reflexivity.
Qed.

(** The header looked at to find the connection is the header of the packet decoded. *)
Theorem C95_header_is_packets : forall oc c s p rest, bytes_ok s ->
  decode_next_packet oc c s = Ok (p, rest) -> exists h, header_is s h /\ headed p h.
Proof.
  intros oc c s p rest B H. unfold decode_next_packet in H.
  destruct (next_header_cases s B) as [[e E]|[[b [s1 [x [r [-> [Hb [El E]]]]]]]|[b [s1 [x [r [-> [Hb [El E]]]]]]]]];
    rewrite E in H; cbn [unwrap bind] in H; [discriminate| |].
  - exists (HLong x). split; [exists r; exact E|].
    assert (U : u8_from_datagram (b :: s1) = Ok (b, s1)) by (apply u8_dec; lia).
    apply bind_ok in H as [t [TY H]]. destruct t; try discriminate; apply bind_ok in H as [[q r'] [D H]]; injection H as <- <-.
    all: cbn [headed]; unfold vn_from_stream, initial_from_stream, zero_rtt_from_stream, handshake_from_stream, retry_from_stream in D.
    all: try discriminate D; rewrite U in D; cbn [bind] in D; rewrite El in D; cbn [bind] in D.
    all: repeat match type of D with
         | bind _ _ = Ok _ => let v := fresh "v" in apply bind_ok in D as [v [? D]]; cbv beta iota in D;
             repeat match type of v with (_ * _)%type => destruct v as [v ?] end; cbv beta iota in D
         | (if ?b then _ else _) = Ok _ => destruct b; try discriminate D
         end.
    all: try (split; [exact TY|]; injection D as <- <-; cbn; first [reflexivity | eapply unprotect_ids; eassumption]).
  - exists (HShort x). split; [exists r; exact E|]. apply bind_ok in H as [[q r'] [D H]]. injection H as <- <-. cbn [headed].
    unfold one_rtt_from_stream in D. rewrite u8_dec in D by lia. cbn [bind] in D. rewrite El in D. cbn [bind] in D.
    repeat match type of D with
         | bind _ _ = Ok _ => let v := fresh "v" in apply bind_ok in D as [v [? D]]; cbv beta iota in D;
             repeat match type of v with (_ * _)%type => destruct v as [v ?] end; cbv beta iota in D
         end.
    split; [reflexivity|]. injection D as <- <-. cbn. eapply unprotect_short_id; eassumption.
Qed.
Print Assumptions C95_header_is_packets.

(** The destination id in the header of a decoded packet. *)
Definition addressed_to (p : packet) : option u160 :=
  match p with
  | PVersionNegotiation q => Some (lh_dcid (vn_header q))
  | PInitial q => Some (lh_dcid (pi_header q))
  | PZeroRtt q => Some (lh_dcid (pz_header q))
  | PHandshake q => Some (lh_dcid (ph_header q))
  | POneRtt q => Some (sh_dcid (po_header q))
  | PRetry _ => None
  end.

Lemma headed_to p h : headed p h -> addressed_to p = Some (get_destination_id h).
Proof. destruct p, h; cbn; try tauto; unfold same_ids; intuition congruence. Qed.
Lemma headed_vn p h : headed p h -> get_packet_type h = Ok TVersionNegotiation -> exists q, p = PVersionNegotiation q.
Proof. destruct p, h; cbn; try tauto; intros [E _] V; try congruence; eauto. Qed.

Lemma header_wire_dcid s h : bytes_ok s -> header_is s h -> exists i, wire_dcid s i.
Proof.
  intros B [r E]. destruct (header_announces s h r B E) as [b [s1 [-> K]]]. apply bytes_ok_cons in B as [_ B].
  destruct h as [x|x].
  - destruct K as [Hb [Es _]]. destruct (short_inv _ _ _ _ B Es) as [d [-> [[_ [_ [L _]]] _]]]. exists d. apply wd_short; auto.
  - destruct K as [Hb [_ [El _]]].
    destruct (long_inv _ _ _ _ B El) as [_ [[_ [_ [_ [bs [-> [v [d [sc [Fv [_ [Cd [_ [_ ->]]]]]]]]]]]]]|[_ [_ [v [d [sc [-> [Fv _]]]]]]]]].
    + exists d. destruct Cd as [_ [_ [L _]]]. rewrite <- L. rewrite <- app_assoc, <- app_comm_cons, <- app_assoc.
      apply wd_long; [lia|apply Fv].
    + exists d. apply wd_long; [lia|apply Fv].
Qed.

Lemma first_packet oc c s p ps : decode_packets oc c s = Ok (p :: ps) -> exists rest, decode_next_packet oc c s = Ok (p, rest).
Proof.
  unfold decode_packets. destruct s as [|b s]; [discriminate|]. cbn [length decode_packets_loop]. intros H.
  apply bind_ok in H as [[q r] [D H]]. apply bind_ok in H as [qs [_ H]]. injection H as -> _. eauto.
Qed.

(** A finished decoding call that returned packets: at some moment of the execution the first
    packet's destination id was registered, for a connection having it as its own id, and the
    packets are what that connection decodes.  Unless it is a version negotiation packet (see
    C45), it is the id on the wire. *)
Theorem C95_read_by_addressee : forall P oc tr w t d p ps, prims_ok P -> execution P oc start tr w -> well_typed tr -> public_run tr ->
  th_call (w_threads w t) = Some (CPackets d) -> th_prog (w_threads w t) = Done (RPackets (Ok (p :: ps))) ->
  exists tr1 tr2 w1 own s,
    tr = tr1 ++ tr2 /\ execution P oc start tr1 w1 /\ In (own, s) (streams (w_sock w1)) /\
    decode_packets oc (q_conn s) (d_data d) = Ok (p :: ps) /\
    get_scid (q_conn s) = Ok (own, 8) /\ addressed_to p = Some own /\
    ((forall q, p <> PVersionNegotiation q) -> exists i, wire_dcid (d_data d) i /\ be_val i = cid_val own).
Proof.
  intros P oc tr w t d p ps HP X T PR Ec Ed.
  assert (B : bytes_ok (d_data d)).
  { destruct (at_call P oc tr w t _ X Ec) as [a [w0 [w0' [b [E _]]]]]. apply (T t). rewrite E. apply in_elt. }
  destruct (C93_calls_atomic P oc tr w t _ _ HP X T PR Ec Ed) as [tr1 [w1 [a [w2 [tr2 [E [X1 [S [X2 [_ [O _]]]]]]]]]]]; [discriminate|].
  inversion O as [| | | |? ? ? h s x HH G _ D _| | | | | | | | |]; subst.
  assert (T1 : well_typed tr1) by (apply typed_app in T; tauto).
  assert (IN : In (get_destination_id h, s) (streams (w_sock w1))) by (apply get_in; exact G).
  exists tr1, ((t, a) :: tr2), w1, (get_destination_id h), s. split; [reflexivity|]. split; [exact X1|]. split; [exact IN|].
  split; [exact D|]. split; [apply (proj1 (C37_filed_under_own_id P oc tr1 w1 HP X1 T1)); exact IN|].
  destruct (first_packet _ _ _ _ _ D) as [rest N]. destruct (C95_header_is_packets _ _ _ _ _ B N) as [h' [[r' H'] K]].
  pose proof HH as [r HH']. rewrite HH' in H'. injection H' as <- _.
  split; [apply headed_to; exact K|]. intros NV. destruct (header_wire_dcid _ _ B HH) as [i W]. exists i. split; [exact W|].
  destruct (wire_dcid_header _ _ _ B HH W) as [[V _]|[_ [_ [_ [_ C]]]]]; [|exact C].
  destruct (headed_vn _ _ K V) as [q Q]. destruct (NV q Q).
Qed.
Print Assumptions C95_read_by_addressee.

(** The client's packet (see C72), when the new connection happens to get the id the client chose. *)
Example C95_case : exists tr w, execution real_prims true start tr w /\ well_typed tr /\ public_run tr /\
  th_call (w_threads w 0) = Some (CPackets (Datagram client_wire 5)) /\
  th_prog (w_threads w 0) = Done (RPackets (Ok [PInitial client_packet])) /\
  addressed_to (PInitial client_packet) = Some sample_id.
Proof.
  destruct (connection_new_ok real_prims true true sample_id 8 real_prims_ok ltac:(lia)) as [c0 EC].
  destruct (solo_opens real_prims true bind_socket client_wire 5 client_header c0 0x8394c8f03e515708 eq_refl client_wire_header
    eq_refl eq_refl EC eq_refl) as [acts [S [R [IN NR]]]].
  destruct (next_call real_prims true 0 [] start bind_socket CAccept acts _ _ (between_start _ _ _) I S) as [w1 [X [T [PR [EK [ET [A F]]]]]]].
  match type of EK with _ = ?kk => set (k1 := kk) in * end.
  assert (D : decode_packets true (set_scid c0 sample_id 8) client_wire = Ok [PInitial client_packet]).
  { assert (K : (let? c := connection_new real_prims true true V1 sample_id 8 in decode_packets true (set_scid c sample_id 8) client_wire) = Ok [PInitial client_packet]) by (vm_compute; reflexivity).
    rewrite EC in K. exact K. }
  assert (BW : between real_prims true 0 ([] ++ (0, ACall CAccept) :: map (pair 0) acts) w1 k1) by (eapply then_between; eauto).
  assert (S2 : exists a2, solo real_prims true k1 (entry true (CPackets (Datagram client_wire 5))) [] a2 k1
    (Done (RPackets (Ok [PInitial client_packet]))) []).
  { destruct client_wire_header as [r HH]. change (firstn (N.to_nat 4096) client_wire) with client_wire in HH.
    eexists. unfold entry, packets_from_datagram. cbn [d_data]. rewrite (parse_header_ok _ _ _ _ _ HH).
    apply so_acq; [intros m []|]. eapply so_data; [constructor|]. unfold k1 at 2. cbn [streams].
    rewrite get_insert. change (u160_eqb _ _) with true. cbv iota.
    apply so_acq; [intros m [H|[]]; discriminate H|]. cbn [q_conn]. change (u160_from_u64 _) with sample_id.
    rewrite (parse_packets_ok _ _ _ _ _ _ D). apply so_rel. apply so_rel. apply so_acq; [intros m []|].
    eapply so_data; [constructor|]. apply so_rel. apply so_nil. }
  destruct S2 as [a2 S2].
  assert (PC : plain_call (CPackets (Datagram client_wire 5))).
  { split; [apply bytes_ok_dec; vm_compute; reflexivity|vm_compute; reflexivity]. }
  destruct (next_call _ _ _ _ _ _ _ _ _ _ BW PC S2) as [w2 [X2 [T2 [PR2 [_ [ET2 _]]]]]].
  eexists _, w2. rewrite ET2. split; [exact X2|]. split; [exact T2|]. split; [exact PR2|]. split; [reflexivity|]. split; reflexivity.
Qed.
