(** Property C123: what a server reads through its socket was sent by the client that
    opened the connection. *)
From Verif Require Import Base Utils Frame CipherSuite Secrets Connection Packet Printing Routing Threads Histories
  Spec SpecPacket SpecRouting Tactics UtilsFacts FrameFacts HeaderFacts PacketFacts ConnectionFacts SendFacts PacketInv DecodeFacts
  RoutingFacts RoutingSafe SoloFacts LocalFacts
  CryptoInst SampleRuns PropFrame PropPacket PropDecode PropWire PropConn PropRouting PropThreads PropAtomic PropIntake PropRouteWire PropLinear PropLater PropTalk.
From Coq Require Import Lia ZifyN ZifyBool ZifyNat.
Open Scope N_scope.

(** [sent] lists the packets a client with the keys [k] has sent, with their bytes.
    Something opens under the key that none of them sealed. *)
Definition foreign (P : prims) (k : SpecPacket.keys) (sent : list (packet_initial * list N)) (nonce aad ct tag : list N) : Prop :=
  (exists pt, p_gcm_open P (SpecPacket.k_key k) nonce aad ct tag = Some pt) /\
  forall q wire, In (q, wire) sent -> ~ sealed P k q wire nonce aad ct tag.

Lemma in_sent (sent : list (packet_initial * list N)) (x : list N) :
  (exists q, In (q, x) sent) \/ forall q wire, In (q, wire) sent -> wire <> x.
Proof.
  induction sent as [|[q wire] sent IH]; [right; intros ? ? []|].
  destruct IH as [[q' H]|N]; [left; exists q'; right; auto|].
  destruct (list_eq_dec N.eq_dec wire x) as [->|NX]; [left; exists q; left; auto|].
  right. intros q' wire' [Q|H]; [injection Q as <- <-; auto|eauto].
Qed.

(** Packets a connection reads, against what the owner of its peer's keys has sent. *)
Lemma read_sent P oc srv d l c k s ps p sent : prims_ok P -> reachable P oc srv d l c -> remote_keys P oc c SpInitial k ->
  bytes_ok s -> len s < 2 ^ 63 -> decode_packets oc c s = Ok ps -> In p ps ->
  Forall (fun x => rfc_initial P k (fst x) (snd x)) sent ->
  (exists q, p = PVersionNegotiation q) \/ exists q, p = PInitial q /\
    exists before wire rest, s = before ++ wire ++ rest /\
      (In (q, wire) sent \/ exists nonce aad ct tag visible, wire = visible ++ ct ++ tag /\ foreign P k sent nonce aad ct tag).
Proof.
  intros HP R K Bs Ls E HI FS.
  apply (C56_packets_partition P oc srv d l c k s ps HP R K Bs Ls) in E.
  assert (X : exists before x rest, s = before ++ x ++ rest /\ decode_next_packet oc c (x ++ rest) = Ok (p, rest)).
  { clear Bs Ls. induction E as [|x s' p' ps' NE D E' IH]; [destruct HI|].
    destruct HI as [->|HI]; [exists [], x, s'; auto|].
    destruct (IH HI) as [be [x' [rest [-> D']]]]. exists (x ++ be), x', rest. rewrite <- app_assoc. auto. }
  destruct X as [before [x [rest [-> D]]]].
  apply bytes_ok_app in Bs as [_ Bs]. rewrite len_app in Ls.
  assert (Ls' : len (x ++ rest) < 2 ^ 63) by lia.
  pose proof (proj1 (C28_no_protected_packet_accepted P oc srv d l c _ HP R Bs) p rest D) as KD.
  destruct p as [v|p|p|p|p|p]; try contradiction; [left; eauto|right].
  exists p. split; [reflexivity|]. exists before, x, rest. split; [reflexivity|].
  pose proof (proj1 (ci_acks _ _ _ _ _ _ (reachable_inv _ _ _ _ _ _ HP R) SpInitial)) as NA.
  rewrite Forall_forall in FS.
  destruct (in_sent sent x) as [[q HS]|NS].
  - left. destruct (FS _ HS) as [pt [W [FE [L4 [Lp FA]]]]]. cbn [fst snd] in *.
    pose proof (initial_decodes P oc c k q pt x rest HP K NA W L4 Lp ltac:(apply frames_dec; auto)) as D'.
    rewrite D in D'. injection D' as <-. exact HS.
  - right.
    destruct (C25_accepted_is_authentic P oc srv d l c k _ p rest HP R K Bs Ls' D)
      as [b0 [fields [tl [ll [ppn [ct [tag [m0 [mask [more [nonce [pt [Es [L4 [Lt [HF [HT [HL [Me [Lm [Eb [Ln [Ep [_ [Hn [O Df]]]]]]]]]]]]]]]]]]]]]]]]]].
    exists nonce, (lh_byte (pi_header p) :: fields ++ tl ++ pi_token p ++ ll ++ pi_pn_bytes p), ct, tag,
      (b0 :: fields ++ tl ++ pi_token p ++ ll ++ ppn).
    split.
    { apply (app_inv_tail rest). rewrite Es. cbn [app]. rewrite <- !app_assoc. reflexivity. }
    split; [eauto|]. intros q wire HS SE. apply (NS q wire HS).
    destruct (FS _ HS) as [pt' [W [_ [Lq _]]]]. cbn [fst snd] in *.
    destruct K as [sec [_ [_ [_ [_ [_ HK]]]]]].
    pose proof (accepted_sealed P oc srv d l c k _ p rest q pt' wire nonce ct tag fields tl ll b0 ppn m0 mask more pt
      HP HK Es L4 Lt HF HT HL Me Lm Eb Ln Ep R O W Lq SE) as Z.
    apply app_inv_tail in Z. congruence.
Qed.

(** ** C123.  In any execution of the socket, with any threads and any network, a
    datagram was read as [ps].  Then a connection had been opened, and not closed, under the
    id [key] the datagram is addressed to, for some received datagram [data]; [d] is the id its sender chose in it and [k] the keys RFC 9001
    derives from that id.  Every packet read is a Version Negotiation packet (which carries no
    protection), or an Initial packet which the client has sent in exactly these bytes, or
    contains a text that opens under the key and that the client has not sealed, whatever it
    is the client has sent. *)
Theorem C123_read_was_sent : forall P oc tr w t dg ps, prims_ok P -> execution P oc start tr w -> well_typed tr -> public_run tr ->
  th_call (w_threads w t) = Some (CPackets dg) -> th_prog (w_threads w t) = Done (RPackets (Ok ps)) ->
  exists tr1 tr2 key data, tr = tr1 ++ tr2 /\ opened_for P oc tr1 key data /\ addressed (d_data dg) key /\
    (bytes_ok data -> exists d k, wire_dcid (firstn (N.to_nat 4096) data) d /\ initial_keys P false d k /\
      forall sent p, Forall (fun x => rfc_initial P k (fst x) (snd x)) sent -> In p ps ->
        (exists q, p = PVersionNegotiation q) \/
        exists q, p = PInitial q /\ exists before wire rest, d_data dg = before ++ wire ++ rest /\
          (In (q, wire) sent \/
           exists nonce aad ct tag visible, wire = visible ++ ct ++ tag /\ foreign P k sent nonce aad ct tag)).
Proof.
  intros P oc tr w t dg ps HP X T PR Ec Ed.
  assert (B : bytes_ok (d_data dg) /\ len (d_data dg) < 2 ^ 63).
  { destruct (at_call P oc tr w t _ X Ec) as [a [w0 [w0' [b [E _]]]]]. apply (T t). rewrite E. apply in_elt. }
  destruct (C93_calls_atomic P oc tr w t _ _ HP X T PR Ec Ed) as [tr1 [w1 [a [w2 [tr2 [E [X1 [S [X2 [_ [O _]]]]]]]]]]]; [discriminate|].
  inversion O as [| | | |? ? ? h s x HH G _ D _| | | | | | | | |]; subst.
  assert (T1 : well_typed tr1) by (apply typed_app in T; tauto).
  pose proof G as G0. apply (C38_queue_exact P oc tr1 w1 _ s HP X1 T1) in G0 as [bf [t0 [c0 [af [E1 [NR [_ Es]]]]]]].
  pose proof X1 as X1'. pose proof T1 as T1'. rewrite E1 in X1', T1'.
  change ((t0, AInsert (get_destination_id h) (QStream [] c0)) :: af) with ([(t0, AInsert (get_destination_id h) (QStream [] c0))] ++ af) in X1', T1'.
  rewrite app_assoc in X1', T1'.
  destruct (execution_split P oc start af w1 _ X1') as [wb [Xb Xw]].
  inversion Xb as [F|tr0 wx t1 b0 wy X5 ST F]; [destruct bf; discriminate F|]. subst wy.
  apply app_inj_tail in F as [-> [= -> ->]].
  assert (Tb : well_typed bf) by (apply typed_app in T1' as [T1' _]; apply typed_app in T1'; tauto).
  destruct (C73_only_initials_open P oc bf wx t0 _ _ wb HP X5 Tb ST) as [_ [_ [pre [data [addr [_ [_ [_ [_ [_ [R1 _]]]]]]]]]]].
  assert (OP : opened_for P oc tr1 (get_destination_id h) data).
  { exists bf, t0, (QStream [] c0), af, wx, pre, addr. auto. }
  exists tr1, ((t, a) :: tr2), (get_destination_id h), data. split; [reflexivity|]. split; [exact OP|].
  split; [apply header_addressed; [apply B|exact HH]|]. intros Bd.
  destruct (C103_keys_of_datagram P oc bf wx t0 _ _ wb pre data addr HP X5 Tb ST R1 Bd) as [d [ks [kc [_ [Dd [_ [Kc _]]]]]]].
  exists d, kc. split; [exact Dd|]. split; [exact Kc|]. intros sent p FS HI.
  destruct (opened_connection P oc tr1 w1 _ data d kc HP X1 T1 OP Bd Dd Kc) as [s' [d' [l [G' [R RK]]]]].
  rewrite G in G'. injection G' as <-.
  destruct B as [B1 B2]. eapply read_sent; eauto.
Qed.
Print Assumptions C123_read_was_sent.

(** The client of C111, which opens a connection with one packet and then sends another
    one twice in one datagram, and a listening program that reads it. *)
Example C123_case : exists tr w k, execution real_prims true start tr w /\ well_typed tr /\ public_run tr /\
  th_call (w_threads w 0) = Some (CPackets (Datagram (later_wire ++ later_wire) 5)) /\
  th_prog (w_threads w 0) = Done (RPackets (Ok [PInitial later_packet; PInitial later_packet])) /\
  initial_keys real_prims false (hex "8394c8f03e515708") k /\ rfc_initial real_prims k later_packet later_wire.
Proof.
  destruct C111_case as [tr1 [w1 [k [X1 [_ [_ [_ [K [F [H _]]]]]]]]]]. cbv zeta in H.
  destruct H as [tr2 [w2 [X2 [T [PR [_ [NC Dn]]]]]]].
  exists (tr1 ++ (0, ACall (CPackets (Datagram (later_wire ++ later_wire) 5))) :: tr2), w2, k.
  split; [eapply execution_app; eauto|]. split; [exact T|]. split; [exact PR|]. split; [|split; [exact Dn|split; [exact K|inversion F; auto]]].
  revert X2. generalize (CPackets (Datagram (later_wire ++ later_wire) 5)) as call. intros call X2. clear - X2 NC.
  change ((0, ACall call) :: tr2) with ([(0, ACall call)] ++ tr2) in X2.
  destruct (execution_split _ _ w1 tr2 w2 _ X2) as [wc [X3 X4]].
  rewrite (call_kept_run _ _ wc tr2 w2 0 X4 NC).
  inversion X3 as [Q|tr0 wx t0 b0 wy X5 ST Q]; subst. change [(0, ACall call)] with ([] ++ [(0, ACall call)]) in Q.
  apply app_inj_tail in Q as [-> [= -> ->]]. eapply step_call_set; eauto.
Qed.
