(** Property C125: what happens on a connection does not depend on other traffic. *)
From Verif Require Import Base Utils Frame CipherSuite Secrets Connection Packet Printing Routing Threads Histories
  Spec SpecPacket SpecRouting Tactics UtilsFacts FrameFacts HeaderFacts PacketFacts ConnectionFacts SendFacts PacketInv DecodeFacts
  RoutingFacts RoutingSafe SoloFacts LocalFacts
  CryptoInst SampleRuns PropFrame PropPacket PropDecode PropConn PropRouting PropThreads PropAtomic PropIntake PropRouteWire PropLinear PropLater.
From Coq Require Import Lia ZifyN ZifyBool ZifyNat.
Open Scope N_scope.

(** The connection opened for [data] under [key] is made from these two alone. *)
Lemma opened_made P oc tr w key data : prims_ok P -> execution P oc start tr w -> well_typed tr ->
  opened_for P oc tr key data ->
  exists s h c0, registered w key = Some s /\ header_is (firstn (N.to_nat 4096) data) h /\
    connection_new P oc true V1 (get_destination_id h) (get_destination_id_length h) = Ok c0 /\ q_conn s = set_scid c0 key 8.
Proof.
  intros HP X T [a [t0 [s0 [b [wa [pre [addr [-> [Xa [R NR]]]]]]]]]].
  change ((t0, AInsert key s0) :: b) with ([(t0, AInsert key s0)] ++ b) in X, T. rewrite app_assoc in X, T.
  destruct (execution_split P oc start b w _ X) as [wb [Xb Xw]].
  inversion Xb as [F|tr0 wx t1 b0 wy X5 ST F]; [destruct a; discriminate F|]. subst.
  apply app_inj_tail in F as [-> [= -> ->]]. pose proof (execution_det _ _ _ _ _ X5 _ Xa). subst wx.
  assert (Ta : well_typed a) by (apply typed_app in T as [T _]; apply typed_app in T; tauto).
  destruct (C73_only_initials_open P oc a wa t0 key s0 wb HP Xa Ta ST)
    as [_ [_ [pre' [data' [addr' [h [T0 [mr [c0 [v [E1 [E2 [_ [_ [_ [E6 [_ [_ Es]]]]]]]]]]]]]]]]]].
  rewrite R in E1. apply app_inj_tail in E1 as [_ [= <- _]].
  destruct (C40_insert_step P oc a wa t0 _ _ wb HP Xa Ta ST) as [_ [_ [G _]]].
  pose proof (C40_kept_until_dropped P oc _ wb b w key s0 HP Xb Xw T) as G2.
  eexists _, h, c0. split; [apply G2; auto|]. split; [exact E2|]. split; [exact E6|]. cbn [q_conn]. rewrite Es. reflexivity.
Qed.

(** ** Two programs, two networks.  In each a connection has been opened for the
    datagram [data] under [key]; everything else may differ. *)
Theorem C125_same_connection : forall P oc tr w tr' w' key data, prims_ok P ->
  execution P oc start tr w -> well_typed tr -> opened_for P oc tr key data ->
  execution P oc start tr' w' -> well_typed tr' -> opened_for P oc tr' key data ->
  exists s s', get (streams (w_sock w)) key = Some s /\ get (streams (w_sock w')) key = Some s' /\ q_conn s = q_conn s'.
Proof.
  intros P oc tr w tr' w' key data HP X T O X' T' O'.
  destruct (opened_made P oc tr w key data HP X T O) as [s [h [c0 [G [[r H] [E Q]]]]]].
  destruct (opened_made P oc tr' w' key data HP X' T' O') as [s' [h' [c0' [G' [[r' H'] [E' Q']]]]]].
  exists s, s'. split; [exact G|]. split; [exact G'|].
  rewrite H in H'. injection H' as <- <-. rewrite E in E'. injection E' as <-. congruence.
Qed.
Print Assumptions C125_same_connection.

(** A call that reads a datagram addressed to an open connection. *)
Lemma read_by P oc tr1 w1 key data dg t tr2 w2 r c : prims_ok P ->
  execution P oc start tr1 w1 -> opened_for P oc tr1 key data -> addressed (d_data dg) key ->
  execution P oc w1 ((t, ACall (CPackets dg)) :: tr2) w2 ->
  well_typed (tr1 ++ (t, ACall (CPackets dg)) :: tr2) -> public_run (tr1 ++ (t, ACall (CPackets dg)) :: tr2) ->
  (forall t', ~ In (t', ARemove key) tr2) -> (forall c, ~ In (t, ACall c) tr2) -> th_prog (w_threads w2 t) = Done r ->
  (forall s, registered w1 key = Some s -> q_conn s = c) ->
  let x := decode_packets oc c (d_data dg) in
  r = RPackets x /\ (forall e, x <> Panic e) \/
  (exists e, x = Panic e /\ r = RPanic e) \/
  r = RPanic "failed printing" /\ forall ps, x <> Ok ps.
Proof.
  intros HP X1 OP AD X2 T PR NR NC Dn Ec x.
  assert (T1 : well_typed tr1) by (apply typed_app in T; tauto).
  assert (B : bytes_ok (d_data dg)) by (apply (T t); apply in_elt).
  destruct (call_later P oc tr1 w1 t _ tr2 w2 r HP X1 X2 T PR NC Dn) as [xs [a [y [wa [wb [E [Xa [S [Xb O]]]]]]]]]; [discriminate|].
  destruct (opened_made P oc tr1 w1 key data HP X1 T1 OP) as [s [h0 [c0 [G _]]]].
  assert (Ta : well_typed (tr1 ++ xs)) by (rewrite E, app_assoc in T; apply typed_app in T; tauto).
  assert (NRx : forall t', ~ In (t', ARemove key) xs).
  { intros t' H. assert (IN : In (t', ARemove key) ((t, ACall (CPackets dg)) :: tr2)) by (rewrite E; apply in_or_app; auto).
    destruct IN as [IN|IN]; [discriminate IN|exact (NR t' IN)]. }
  pose proof (Ec s G) as Es.
  pose proof (C40_kept_until_dropped P oc tr1 w1 xs wa key s HP X1 Xa Ta G NRx) as G2.
  destruct (addressed_header _ _ B AD) as [h [[hr HH] EH]].
  assert (SAME : forall h', header_is (d_data dg) h' -> h' = h) by (intros h' [r' H']; congruence).
  inversion O as [| | | |? ? ? h' s' x' H' G' _ D' N'|? ? ? h' s' w' H' G' _ D'|? ? ? h' e H' G' _|? ? ? e H' _| |? ? ? H' _|? ? ? h' s' H' G' _ D'| | |]; subst;
    try (exfalso; eapply H'; exists hr; exact HH); apply SAME in H'; subst h'; unfold registered in G'; rewrite G2 in G';
    try discriminate G'; injection G' as <-; cbn [q_conn] in *; [left|right; left|right; right]; eauto.
Qed.

(** What is read from a datagram addressed to the connection is the same in both,
    whoever else is there and whatever has been received before; at most, the program may
    fail to print an error. *)
Theorem C125_same_packets : forall P oc key data dg tr1 w1 t tr2 w2 r tr1' w1' t' tr2' w2' r', prims_ok P -> addressed (d_data dg) key ->
  execution P oc start tr1 w1 -> opened_for P oc tr1 key data ->
  execution P oc w1 ((t, ACall (CPackets dg)) :: tr2) w2 ->
  well_typed (tr1 ++ (t, ACall (CPackets dg)) :: tr2) -> public_run (tr1 ++ (t, ACall (CPackets dg)) :: tr2) ->
  (forall u, ~ In (u, ARemove key) tr2) -> (forall c, ~ In (t, ACall c) tr2) -> th_prog (w_threads w2 t) = Done r ->
  execution P oc start tr1' w1' -> opened_for P oc tr1' key data ->
  execution P oc w1' ((t', ACall (CPackets dg)) :: tr2') w2' ->
  well_typed (tr1' ++ (t', ACall (CPackets dg)) :: tr2') -> public_run (tr1' ++ (t', ACall (CPackets dg)) :: tr2') ->
  (forall u, ~ In (u, ARemove key) tr2') -> (forall c, ~ In (t', ACall c) tr2') -> th_prog (w_threads w2' t') = Done r' ->
  (forall ps, r = RPackets (Ok ps) <-> r' = RPackets (Ok ps)) /\
  (r = r' \/ r = RPanic "failed printing" \/ r' = RPanic "failed printing").
Proof.
  intros P oc key data dg tr1 w1 t tr2 w2 r tr1' w1' t' tr2' w2' r' HP AD X1 O1 X2 T PR NR NC Dn X1' O1' X2' T' PR' NR' NC' Dn'.
  assert (Ta : well_typed tr1) by (apply typed_app in T; tauto). assert (Ta' : well_typed tr1') by (apply typed_app in T'; tauto).
  destruct (C125_same_connection P oc tr1 w1 tr1' w1' key data HP X1 Ta O1 X1' Ta' O1') as [s [s' [G [G' EQ]]]].
  pose proof (read_by P oc tr1 w1 key data dg t tr2 w2 r (q_conn s) HP X1 O1 AD X2 T PR NR NC Dn
    ltac:(intros s0 H0; unfold registered in H0; congruence)) as R.
  pose proof (read_by P oc tr1' w1' key data dg t' tr2' w2' r' (q_conn s) HP X1' O1' AD X2' T' PR' NR' NC' Dn'
    ltac:(intros s0 H0; unfold registered in H0; congruence)) as R'.
  cbv zeta in R, R'. remember (decode_packets oc (q_conn s) (d_data dg)) as x eqn:Ex. clear Ex.
  destruct R as [[-> N]|[[e [-> ->]]|[-> N]]]; destruct R' as [[-> N']|[[e' [E' ->]]|[-> N']]].
  - split; [intros ps; split; auto|auto].
  - exfalso. exact (N _ E').
  - split; [|auto]. intros ps. split; intros Q; [|discriminate Q]. injection Q as ->. destruct (N' _ eq_refl).
  - exfalso. exact (N' _ eq_refl).
  - injection E' as <-. split; [intros ps; split; auto|auto].
  - split; [intros ps; split; intros Q; discriminate Q|auto].
  - split; [|auto]. intros ps. split; intros Q; [discriminate Q|]. injection Q as ->. destruct (N _ eq_refl).
  - split; [intros ps; split; intros Q; discriminate Q|auto].
  - split; [intros ps; split; auto|auto].
Qed.
Print Assumptions C125_same_packets.

(** The same datagram read right after the connection was opened, and after another
    datagram has been put into the connection's queue. *)
Example C125_case : exists tr1 w1 tr2 w2 tr1' w1' tr2' w2', let key := U160 0 77 in let dg := Datagram (later_wire ++ later_wire) 5 in
  let res := RPackets (Ok [PInitial later_packet; PInitial later_packet]) in
  addressed (d_data dg) key /\ tr1 <> tr1' /\ w_sock w1 <> w_sock w1' /\
  (execution real_prims true start tr1 w1 /\ opened_for real_prims true tr1 key client_wire /\
   execution real_prims true w1 ((0, ACall (CPackets dg)) :: tr2) w2 /\
   well_typed (tr1 ++ (0, ACall (CPackets dg)) :: tr2) /\ public_run (tr1 ++ (0, ACall (CPackets dg)) :: tr2) /\
   (forall u, ~ In (u, ARemove key) tr2) /\ (forall c, ~ In (0, ACall c) tr2) /\ th_prog (w_threads w2 0) = Done res) /\
  (execution real_prims true start tr1' w1' /\ opened_for real_prims true tr1' key client_wire /\
   execution real_prims true w1' ((0, ACall (CPackets dg)) :: tr2') w2' /\
   well_typed (tr1' ++ (0, ACall (CPackets dg)) :: tr2') /\ public_run (tr1' ++ (0, ACall (CPackets dg)) :: tr2') /\
   (forall u, ~ In (u, ARemove key) tr2') /\ (forall c, ~ In (0, ACall c) tr2') /\ th_prog (w_threads w2' 0) = Done res).
Proof.
  destruct opened_sample as [tr1 [w1 [c0 [EC [B OP]]]]]. cbv zeta.
  set (dg := Datagram (later_wire ++ later_wire) 5).
  assert (D : decode_packets true (set_scid c0 (U160 0 77) 8) (later_wire ++ later_wire) = Ok [PInitial later_packet; PInitial later_packet]).
  { assert (Z : (let? c := connection_new real_prims true true V1 sample_id 8 in decode_packets true (set_scid c (U160 0 77) 8) (later_wire ++ later_wire)) = Ok [PInitial later_packet; PInitial later_packet]) by (vm_compute; reflexivity).
    rewrite EC in Z. exact Z. }
  assert (HH : exists h r, next_header_from_stream (d_data dg) = Ok (h, r) /\ get_destination_id h = U160 0 77) by (eexists _, _; split; [vm_compute; reflexivity|reflexivity]).
  destruct HH as [h [hr [HH HD]]].
  assert (READ : forall q tr w, between real_prims true 0 tr w (ISocket [(U160 0 77, QStream q (set_scid c0 (U160 0 77) 8))] false []) ->
    exists tr2 w2, execution real_prims true w ((0, ACall (CPackets dg)) :: tr2) w2 /\
      well_typed (tr ++ (0, ACall (CPackets dg)) :: tr2) /\ public_run (tr ++ (0, ACall (CPackets dg)) :: tr2) /\
      (forall u, ~ In (u, ARemove (U160 0 77)) tr2) /\ (forall c, ~ In (0, ACall c) tr2) /\
      th_prog (w_threads w2 0) = Done (RPackets (Ok [PInitial later_packet; PInitial later_packet]))).
  { intros q tr w Bq. set (kq := ISocket _ _ _) in Bq.
    assert (S2 : exists a2, solo real_prims true kq (entry true (CPackets dg)) [] a2 kq
      (Done (RPackets (Ok [PInitial later_packet; PInitial later_packet]))) [] /\ forall k, ~ In (ARemove k) a2).
    { eexists. split.
      - unfold entry, packets_from_datagram. rewrite (parse_header_ok _ _ _ _ _ HH).
        apply so_acq; [intros m []|]. eapply so_data; [constructor|]. unfold kq at 2. cbn [streams].
        rewrite HD. cbn [get]. change (u160_eqb _ _) with true. cbv iota.
        apply so_acq; [intros m [H|[]]; discriminate H|]. cbn [q_conn].
        rewrite (parse_packets_ok _ _ _ _ _ _ D). apply so_rel. apply so_rel. apply so_acq; [intros m []|].
        eapply so_data; [constructor|]. apply so_rel. apply so_nil.
      - intros k0 H. cbn in H. repeat (destruct H as [H|H]; [discriminate H|]). exact H. }
    destruct S2 as [acts [S NR]].
    assert (PC : plain_call (CPackets dg)) by (split; [apply bytes_ok_dec; vm_compute; reflexivity|vm_compute; reflexivity]).
    destruct (next_call _ _ _ _ _ _ _ _ _ _ Bq PC S) as [w2 [X [T [PR [_ [ET _]]]]]].
    destruct (execution_split _ _ _ _ _ _ X) as [w0 [X0 X2]]. pose proof (execution_det _ _ _ _ _ X0 _ (proj1 Bq)). subst w0.
    exists (map (pair 0) acts), w2. split; [exact X2|]. split; [exact T|]. split; [exact PR|]. split; [|split].
    - intros t' H. apply in_map_iff in H as [z [Ez Hz]]. injection Ez as _ ->. exact (NR _ Hz).
    - intros c' H. apply in_map_iff in H as [z [Ez Hz]]. injection Ez as ->. exact (solo_no_call _ _ _ _ _ _ _ _ _ S _ Hz).
    - rewrite ET. reflexivity. }
  assert (Q : exists tr1' w1' q, q <> [] /\ tr1 <> tr1' /\ opened_for real_prims true tr1' (U160 0 77) client_wire /\
    between real_prims true 0 tr1' w1' (ISocket [(U160 0 77, QStream q (set_scid c0 (U160 0 77) 8))] false [])).
  { assert (HL : exists h r, next_header_from_stream (d_data later) = Ok (h, r) /\ get_destination_id h = U160 0 77) by (eexists _, _; split; [vm_compute; reflexivity|reflexivity]).
    destruct HL as [h' [hr' [HL HE]]]. set (k1 := ISocket _ _ _) in B.
    assert (S2 : exists a2, solo real_prims true k1 (entry true (CRoute later)) [] a2
      (ISocket [(U160 0 77, QStream [later] (set_scid c0 (U160 0 77) 8))] false []) (Done (RUnit (Ok tt))) [] /\ forall k, ~ In (ARemove k) a2).
    { eexists. split.
      - unfold entry, route_datagram. rewrite (parse_header_ok _ _ _ _ _ HL). apply so_acq; [intros m []|]. eapply so_data; [constructor|].
        unfold k1 at 2. cbn [streams]. rewrite HE. cbn [get]. change (u160_eqb _ _) with true. cbv iota.
        eapply so_data; [eapply p_send; reflexivity|]. apply so_rel. apply so_nil.
      - intros k0 H. cbn in H. repeat (destruct H as [H|H]; [discriminate H|]). exact H. }
    destruct S2 as [acts [S NR]].
    destruct (next_call _ _ _ _ _ _ _ _ _ _ B (I : plain_call (CRoute later)) S) as [w2 [X [T [PR [EK [ET [A F]]]]]]].
    eexists _, w2, [later]. split; [discriminate|]. split; [|split; [|eapply then_between; eauto]].
    - intros E. apply (f_equal (@length _)) in E. rewrite app_length in E. cbn [length] in E. lia.
    - destruct OP as [a [t0 [s0 [b [wa [pre [addr [-> [Xa [R NR0]]]]]]]]]].
      exists a, t0, s0, (b ++ (0, ACall (CRoute later)) :: map (pair 0) acts), wa, pre, addr.
      split; [rewrite <- app_assoc; reflexivity|]. split; [exact Xa|]. split; [exact R|].
      intros t' H. apply in_app_or in H as [H|[H|H]]; [exact (NR0 _ H)|discriminate H|].
      apply in_map_iff in H as [z [Ez Hz]]. injection Ez as _ ->. exact (NR _ Hz). }
  destruct Q as [tr1' [w1' [q [Nq [NE [OP' B']]]]]].
  destruct (READ _ _ _ B) as [tr2 [w2 R2]]. destruct (READ _ _ _ B') as [tr2' [w2' R2']].
  exists tr1, w1, tr2, w2, tr1', w1', tr2', w2'.
  split; [rewrite <- HD; apply header_addressed; [apply bytes_ok_dec; vm_compute; reflexivity|exists hr; exact HH]|].
  split; [exact NE|]. split.
  { destruct B as [_ [_ [_ [-> _]]]]. destruct B' as [_ [_ [_ [-> _]]]]. intros E. injection E as E. congruence. }
  split; [split; [apply B|]; split; [exact OP|]; exact R2|split; [apply B'|]; split; [exact OP'|]; exact R2'].
Qed.
