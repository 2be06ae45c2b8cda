(** Accepting connections: C41-C46. *)
From Verif Require Import Base Utils Frame CipherSuite Secrets Connection Packet Routing Threads
  Spec SpecPacket SpecRouting Tactics UtilsFacts HeaderFacts PacketFacts DecodeFacts ConnectionFacts
  RoutingFacts RoutingSafe SoloFacts CryptoInst SampleRuns PropRouting.
From Verif Require Histories.

(** ** C41: accept returns a stream for a new client *)
Definition C41_statement : Prop := forall P oc tr w t c0 r,
  prims_ok P -> execution P oc start tr w -> well_typed tr -> public_run tr ->
  th_call (w_threads w t) = Some CAccept -> opened P oc (th_acts (w_threads w t)) c0 ->
  ~ In (ARand None) (th_acts (w_threads w t)) ->
  th_prog (w_threads w t) = Done r -> exists id, r = RId (IoOk id).

(** It never does: every call that ends fails or panics. *)
Theorem C41_never_returns : forall P oc tr w t r,
  prims_ok P -> execution P oc start tr w -> well_typed tr -> public_run tr ->
  th_call (w_threads w t) = Some CAccept -> th_prog (w_threads w t) = Done r ->
  (exists e, r = RId (IoErr e)) \/ (exists why, r = RPanic why).
Proof.
  intros P oc tr w t r HP X T PR Ec Ed. pose proof (finished P oc tr w t _ r HP X T PR Ec Ed) as H. cbn [contract] in H.
  destruct r as [| |[id|e]| |why]; try tauto; eauto.
Qed.
Print Assumptions C41_never_returns.

(** A finished accept call that met a new client. *)
Lemma sample_opened : exists tr w c0, execution real_prims true start tr w /\ well_typed tr /\ public_run tr /\
  th_call (w_threads w 0) = Some CAccept /\ opened real_prims true (th_acts (w_threads w 0)) c0 /\
  ~ In (ARand None) (th_acts (w_threads w 0)) /\ th_prog (w_threads w 0) = Done (RPanic "not yet implemented") /\
  recvs (th_acts (w_threads w 0)) = [NetDatagram client_initial 5] /\
  streams (w_sock w) = [(U160 0 77, QStream [] (set_scid c0 (U160 0 77) 8))].
Proof.
  destruct (sample_accept [] start bind_socket 77 (between_start _ _ _) eq_refl eq_refl eq_refl)
    as [acts [c0 [w' [EC [B [ET [R [IN NR]]]]]]]].
  destruct B as [X [T [PR [EK _]]]].
  assert (Ec : th_call (w_threads w' 0) = Some CAccept) by (rewrite ET; reflexivity).
  assert (Ed : th_prog (w_threads w' 0) = Done (RPanic "not yet implemented")) by (rewrite ET; reflexivity).
  pose proof (finished _ _ _ w' 0 _ _ real_prims_ok X T PR Ec Ed) as K.
  rewrite ET in K. cbn [contract th_acts] in K. rewrite IN in K. destruct K as [_ [[key [c1 [O EQ]]]|[[K _]|[K _]]]]; try discriminate K.
  assert (c1 = c0) as ->.
  { destruct O as [pre [data [addr [h [T0 [mr [E1 [E2 [E3 [E4 [E5 [E6 E7]]]]]]]]]]]]. rewrite R in E1.
    destruct pre as [|x [|y pre]]; [|discriminate E1|discriminate E1]. injection E1 as <- <-.
    destruct client_initial_header as [r1 Y1]. destruct E3 as [r2 Y2]. rewrite Y1 in Y2. injection Y2 as <- <-.
    cbn [get_destination_id get_destination_id_length initial_header lh_dcid lh_dcid_len] in E7. rewrite EC in E7. congruence. }
  exists ([] ++ (0, ACall CAccept) :: map (pair 0) acts), w', c0. rewrite ET, EK. cbn [th_call th_acts th_prog streams].
  repeat (split; auto).
Qed.

Theorem C41_accept_returns_refuted : ~ C41_statement.
Proof.
  intros H. destruct sample_opened as [tr [w [c0 [X [T [PR [Ec [O [NR [Ed _]]]]]]]]]].
  destruct (H _ _ tr w 0 c0 _ real_prims_ok X T PR Ec O NR Ed) as [id E]. discriminate.
Qed.
Print Assumptions C41_accept_returns_refuted.

(** What holds: the new client's connection has been registered, once, under a
    fresh id.  Missing: the stream is not returned, the call panics. *)
Theorem C41_accept_registers_partial : forall P oc tr w t c0 r,
  prims_ok P -> execution P oc start tr w -> well_typed tr -> public_run tr ->
  th_call (w_threads w t) = Some CAccept -> opened P oc (th_acts (w_threads w t)) c0 ->
  ~ In (ARand None) (th_acts (w_threads w t)) -> th_prog (w_threads w t) = Done r ->
  exists key, inserts (th_acts (w_threads w t)) = [(key, QStream [] (set_scid c0 key 8))] /\ exists why, r = RPanic why.
Proof.
  intros P oc tr w t c0 r HP X T PR Ec O NR Ed. pose proof (finished P oc tr w t _ r HP X T PR Ec Ed) as H. cbn [contract] in H.
  destruct O as [pre [data [addr [h [T0 [mr [E1 [E2 [[rest E3] [E4 [E5 [E6 E7]]]]]]]]]]]].
  destruct r as [| |[id|e]| |why]; try tauto.
  - destruct H as [_ [_ [pre' [R _]]]]. rewrite E1 in R. apply app_inj_tail in R as [_ R]. discriminate.
  - destruct H as [_ [[key [c1 [O IN]]]|[[_ [K _]]|[_ [pre' [data' [addr' [R [_ K]]]]]]]]].
    + destruct O as [pre' [data' [addr' [h' [T0' [mr' [F1 [F2 [[rest' F3] [F4 [F5 [F6 F7]]]]]]]]]]]].
      rewrite E1 in F1. apply app_inj_tail in F1 as [_ F1]. injection F1 as <- <-. rewrite E3 in F3. injection F3 as <- <-.
      rewrite E7 in F7. injection F7 as <-. exists key. split; [exact IN|]. eauto.
    + contradiction.
    + exfalso. rewrite E1 in R. apply app_inj_tail in R as [_ R]. injection R as <- <-.
      destruct K as [K|[h' [[rest' F3] K]]]; [apply (K h); exists rest; exact E3|].
      rewrite E3 in F3. injection F3 as <- <-. destruct K as [[K _]|[_ [T1 [T2 [L [K _]]]]]]; [contradiction|].
      rewrite E5 in L. injection L as -> _. contradiction.
Qed.
Print Assumptions C41_accept_registers_partial.
Example C41_case : exists tr w c0, execution real_prims true start tr w /\ well_typed tr /\ public_run tr /\
  th_call (w_threads w 0) = Some CAccept /\ opened real_prims true (th_acts (w_threads w 0)) c0 /\
  ~ In (ARand None) (th_acts (w_threads w 0)) /\ idle (w_threads w 0).
Proof.
  destruct sample_opened as [tr [w [c0 [X [T [PR [Ec [O [NR [Ed _]]]]]]]]]]. exists tr, w, c0. repeat (split; auto). eexists. exact Ed.
Qed.

(** ** C42: accept survives hostile datagrams *)
Definition C42_statement : Prop := forall P oc tr w t why,
  prims_ok P -> execution P oc start tr w -> well_typed tr -> public_run tr ->
  th_call (w_threads w t) = Some CAccept -> th_prog (w_threads w t) = Done (RPanic why) ->
  inserts (th_acts (w_threads w t)) = [] -> In (ARand None) (th_acts (w_threads w t)).

(** One datagram without a complete header suffices to end the call with a panic,
    whatever else happens. *)
Theorem C42_garbage_kills : forall P oc tr w t r data addr,
  prims_ok P -> execution P oc start tr w -> well_typed tr -> public_run tr ->
  th_call (w_threads w t) = Some CAccept -> th_prog (w_threads w t) = Done r ->
  In (NetDatagram data addr) (recvs (th_acts (w_threads w t))) ->
  (forall h, ~ header_is (firstn (N.to_nat 4096) data) h) ->
  exists why, r = RPanic why.
Proof.
  intros P oc tr w t r data addr HP X T PR Ec Ed IN NH. pose proof (finished P oc tr w t _ r HP X T PR Ec Ed) as H. cbn [contract] in H.
  destruct r as [| |[id|e]| |why]; try tauto; [|eauto]. exfalso.
  destruct H as [_ [_ [pre [R F]]]]. rewrite R in IN. apply in_app_or in IN as [IN|[IN|[]]]; [|discriminate].
  clear R. induction F as [|ev s pre ss Rt F IH]; [contradiction|]. destruct IN as [->|IN]; [|auto].
  destruct Rt as [h [HH _]]. exact (NH h HH).
Qed.
Print Assumptions C42_garbage_kills.

(** From any state where thread [t] can make progress alone, one lost datagram
    (no header, or a header naming no connection) kills its accept call. *)
Theorem C42_lost_datagram_kills : forall P oc t tr w k data addr,
  between P oc t tr w k -> log_traffic k = false -> lost (streams k) (firstn (N.to_nat 4096) data) ->
  exists tr' w' why, execution P oc start (tr ++ tr') w' /\ well_typed (tr ++ tr') /\ public_run (tr ++ tr') /\
    th_call (w_threads w' t) = Some CAccept /\
    recvs (th_acts (w_threads w' t)) = [NetDatagram data addr] /\ inserts (th_acts (w_threads w' t)) = [] /\
    ~ In (ARand None) (th_acts (w_threads w' t)) /\
    th_prog (w_threads w' t) = Done (RPanic why).
Proof.
  intros P oc t tr w k data addr B LG L.
  destruct (solo_crashes P oc k data addr LG L) as [acts [k' [why [S [_ [R [IN [_ NR]]]]]]]].
  destruct (next_call P oc t tr w k CAccept acts _ _ B I S) as [w' [X [T [PR [EK [ET [A F]]]]]]].
  exists ((t, ACall CAccept) :: map (pair t) acts), w', why. rewrite ET. cbn [th_call th_acts th_prog]. auto 10.
Qed.
Print Assumptions C42_lost_datagram_kills.
Example C42_garbage_case : exists tr w r, execution real_prims true start tr w /\ well_typed tr /\ public_run tr /\
  th_call (w_threads w 0) = Some CAccept /\ th_prog (w_threads w 0) = Done r /\
  In (NetDatagram [0x40; 1; 2] 9) (recvs (th_acts (w_threads w 0))) /\
  (forall h, ~ header_is (firstn (N.to_nat 4096) [0x40; 1; 2]) h).
Proof.
  assert (G : forall h, ~ header_is (firstn (N.to_nat 4096) [0x40; 1; 2]) h) by (intros h [r E]; vm_compute in E; discriminate E).
  destruct (C42_lost_datagram_kills real_prims true 0 _ _ _ [0x40; 1; 2] 9 (between_start _ _ _) eq_refl (or_introl G))
    as [tr [w [why [X [T [PR [Ec [R [_ [_ Ed]]]]]]]]]].
  exists tr, w, (RPanic why). repeat (split; auto). rewrite R. left. reflexivity.
Qed.

Theorem C42_survives_refuted : ~ C42_statement.
Proof.
  intros H.
  destruct (C42_lost_datagram_kills real_prims true 0 [] start bind_socket [] 5 (between_start _ _ _) eq_refl) as [tr [w [why [X [T [PR [Ec [_ [IN [NR Ed]]]]]]]]]].
  { left. intros h [rest E]. discriminate E. }
  exact (NR (H _ _ _ w 0 why real_prims_ok X T PR Ec Ed IN)).
Qed.
Print Assumptions C42_survives_refuted.

(** What holds: a call crashes before registering a connection only on such a
    datagram (or a failing random generator); all datagrams received before it
    were delivered to the connections they name.  Missing: the datagram should be
    ignored. *)
Theorem C42_survives_partial : forall P oc tr w t why,
  prims_ok P -> execution P oc start tr w -> well_typed tr -> public_run tr ->
  th_call (w_threads w t) = Some CAccept -> th_prog (w_threads w t) = Done (RPanic why) ->
  inserts (th_acts (w_threads w t)) = [] ->
  In (ARand None) (th_acts (w_threads w t)) \/
  exists pre data addr, recvs (th_acts (w_threads w t)) = pre ++ [NetDatagram data addr] /\
    Forall2 routed pre (sends (th_acts (w_threads w t))) /\ stray (th_acts (w_threads w t)) (firstn (N.to_nat 4096) data).
Proof.
  intros P oc tr w t why HP X T PR Ec Ed NI. pose proof (finished P oc tr w t _ _ HP X T PR Ec Ed) as H. cbn [contract] in H.
  destruct H as [_ [[key [c0 [_ E]]]|[[_ [H _]]|[_ H]]]]; auto. rewrite NI in E. discriminate.
Qed.
Print Assumptions C42_survives_partial.
Example C42_case : exists tr w why, execution real_prims true start tr w /\ well_typed tr /\ public_run tr /\
  th_call (w_threads w 0) = Some CAccept /\ th_prog (w_threads w 0) = Done (RPanic why) /\
  inserts (th_acts (w_threads w 0)) = [] /\ recvs (th_acts (w_threads w 0)) = [NetDatagram (short_for 78) 9].
Proof.
  destruct two_routed as [tr [w [c0 [acts [B _]]]]].
  destruct (C42_lost_datagram_kills real_prims true 0 _ _ _ (short_for 78) 9 B eq_refl) as [tr' [w' [why [X [T [PR [Ec [R [IN [_ Ed]]]]]]]]]].
  { right. exists (HShort (ShortHeader 0x40 (U160 0 78) true)). split; [exists [1; 2; 3]; vm_compute; reflexivity|split; [discriminate|reflexivity]]. }
  exists (tr ++ tr'), w', why. auto 10.
Qed.

(** A datagram for a registered connection is delivered and the wait goes on. *)
Theorem C42_routed_partial : forall P oc t tr w k data addr h s,
  between P oc t tr w k -> log_traffic k = false ->
  header_is (firstn (N.to_nat 4096) data) h -> get (streams k) (get_destination_id h) = Some s ->
  exists tr' w', execution P oc start (tr ++ tr') w' /\ th_call (w_threads w' t) = Some CAccept /\
    th_prog (w_threads w' t) = accept_prog /\ recvs (th_acts (w_threads w' t)) = [NetDatagram data addr] /\
    get (streams (w_sock w')) (get_destination_id h) = Some (QStream (q_queue s ++ [seen data addr]) (q_conn s)).
Proof.
  intros P oc t tr w k data addr h s B LG HH G.
  destruct (solo_routes P oc k data addr h s LG HH G) as [acts [S [R [SE _]]]].
  destruct (next_call P oc t tr w k CAccept acts _ _ B I S) as [w' [X [T [PR [EK [ET [A F]]]]]]].
  exists ((t, ACall CAccept) :: map (pair t) acts), w'. rewrite ET, EK. cbn [th_call th_acts th_prog streams].
  split; [exact X|]. split; [reflexivity|]. split; [reflexivity|]. split; [exact R|].
  rewrite get_send, u160_eqb_refl, G. reflexivity.
Qed.
Print Assumptions C42_routed_partial.
Example C42_routed_case : exists tr w k s, between real_prims true 0 tr w k /\ log_traffic k = false /\
  header_is (firstn (N.to_nat 4096) (short_for 77)) (HShort (ShortHeader 0x40 (U160 0 77) true)) /\
  get (streams k) (U160 0 77) = Some s.
Proof.
  destruct two_routed as [tr [w [c0 [acts [B _]]]]]. eexists tr, w, _, _. split; [exact B|]. split; [reflexivity|].
  split; [exists [1; 2; 3]; vm_compute; reflexivity|reflexivity].
Qed.

(** ** C43: the Initial datagram reaches the connection it opened *)
Definition C43_statement : Prop := forall P oc tr w t r key s pre data addr,
  prims_ok P -> execution P oc start tr w -> well_typed tr -> public_run tr ->
  th_call (w_threads w t) = Some CAccept -> th_prog (w_threads w t) = Done r ->
  inserts (th_acts (w_threads w t)) = [(key, s)] -> recvs (th_acts (w_threads w t)) = pre ++ [NetDatagram data addr] ->
  In (seen data addr) (q_queue s) \/ In (key, seen data addr) (sends (th_acts (w_threads w t))).

(** It never does: the connection starts with an empty queue, and what the call
    sent are exactly the datagrams received before the opening one. *)
Theorem C43_never_delivered : forall P oc tr w t r key s,
  prims_ok P -> execution P oc start tr w -> well_typed tr -> public_run tr ->
  th_call (w_threads w t) = Some CAccept -> th_prog (w_threads w t) = Done r ->
  inserts (th_acts (w_threads w t)) = [(key, s)] ->
  q_queue s = [] /\
  exists pre data addr, recvs (th_acts (w_threads w t)) = pre ++ [NetDatagram data addr] /\
    Forall2 routed pre (sends (th_acts (w_threads w t))).
Proof.
  intros P oc tr w t r key s HP X T PR Ec Ed IN. pose proof (finished P oc tr w t _ r HP X T PR Ec Ed) as H. cbn [contract] in H.
  rewrite IN in H. destruct r as [| |[id|e]| |why]; try tauto.
  - destruct H as [_ [H _]]. discriminate.
  - destruct H as [_ [[k [c0 [O E]]]|[[H _]|[H _]]]]; try discriminate. injection E as -> ->. split; [reflexivity|].
    destruct O as [pre [data [addr [h [T0 [mr [E1 [E2 _]]]]]]]]. eauto.
Qed.
Print Assumptions C43_never_delivered.

Theorem C43_initial_delivered_refuted : ~ C43_statement.
Proof.
  intros H. destruct sample_opened as [tr [w [c0 [X [T [PR [Ec [O [NR [Ed [R _]]]]]]]]]]].
  destruct (C41_accept_registers_partial _ _ _ w 0 c0 _ real_prims_ok X T PR Ec O NR Ed) as [key [IN _]].
  destruct (C43_never_delivered _ _ _ w 0 _ _ _ real_prims_ok X T PR Ec Ed IN) as [_ [pre [data [addr [R' F]]]]].
  rewrite R in R'. destruct pre as [|x [|y pre]]; [|discriminate R'|discriminate R'].
  assert (Y : sends (th_acts (w_threads w 0)) = []) by (inversion F; auto).
  destruct (H _ _ _ w 0 _ _ _ [] client_initial 5 real_prims_ok X T PR Ec Ed IN R) as [K|K]; [exact K|].
  rewrite Y in K. exact K.
Qed.
Print Assumptions C43_initial_delivered_refuted.
Example C43_case : exists tr w key s r, execution real_prims true start tr w /\ well_typed tr /\ public_run tr /\
  th_call (w_threads w 0) = Some CAccept /\ th_prog (w_threads w 0) = Done r /\ inserts (th_acts (w_threads w 0)) = [(key, s)].
Proof.
  destruct sample_opened as [tr [w [c0 [X [T [PR [Ec [O [NR [Ed _]]]]]]]]]].
  destruct (C41_accept_registers_partial _ _ _ w 0 c0 _ real_prims_ok X T PR Ec O NR Ed) as [key [IN _]].
  eexists tr, w, key, _, _. eauto 10.
Qed.

(** ** C44: a retransmitted Initial does not create a second connection *)
Definition C44_statement : Prop := forall P oc tr1 w1 t1 k1 s1 pre1 tr2 w2 t2 k2 s2 pre2 data addr,
  prims_ok P -> execution P oc start tr1 w1 -> execution P oc w1 tr2 w2 -> well_typed (tr1 ++ tr2) -> public_run (tr1 ++ tr2) ->
  (* a call accepted the datagram ... *)
  idle (w_threads w1 t1) -> th_call (w_threads w1 t1) = Some CAccept ->
  recvs (th_acts (w_threads w1 t1)) = pre1 ++ [NetDatagram data addr] -> inserts (th_acts (w_threads w1 t1)) = [(k1, s1)] ->
  (* ... the connection was not dropped, and a later call received it again *)
  (forall t, ~ In (t, ARemove k1) tr2) -> In (t2, ACall CAccept) tr2 ->
  idle (w_threads w2 t2) -> th_call (w_threads w2 t2) = Some CAccept ->
  recvs (th_acts (w_threads w2 t2)) = pre2 ++ [NetDatagram data addr] ->
  inserts (th_acts (w_threads w2 t2)) <> [(k2, s2)].

(** It always can: the connection is filed under a random id only, so any
    Initial can be accepted again and again. *)
Theorem C44_always_again : forall P oc t tr w k data addr h v1 v2,
  prims_ok P -> between P oc t tr w k -> log_traffic k = false ->
  header_is (firstn (N.to_nat 4096) data) h -> get_packet_type h = Ok TInitial ->
  get (streams k) (get_destination_id h) = None ->
  get (streams k) (u160_from_u64 v1) = None -> get (streams k) (u160_from_u64 v2) = None ->
  v1 <> v2 -> u160_from_u64 v1 <> get_destination_id h ->
  exists c0 tr1 w1 tr2 w2,
    execution P oc start (tr ++ tr1) w1 /\ execution P oc w1 tr2 w2 /\
    well_typed ((tr ++ tr1) ++ tr2) /\ public_run ((tr ++ tr1) ++ tr2) /\
    idle (w_threads w1 t) /\ th_call (w_threads w1 t) = Some CAccept /\ recvs (th_acts (w_threads w1 t)) = [NetDatagram data addr] /\
    inserts (th_acts (w_threads w1 t)) = [(u160_from_u64 v1, QStream [] (set_scid c0 (u160_from_u64 v1) 8))] /\
    (forall k' t', ~ In (t', ARemove k') tr2) /\ In (t, ACall CAccept) tr2 /\
    idle (w_threads w2 t) /\ th_call (w_threads w2 t) = Some CAccept /\ recvs (th_acts (w_threads w2 t)) = [NetDatagram data addr] /\
    inserts (th_acts (w_threads w2 t)) = [(u160_from_u64 v2, QStream [] (set_scid c0 (u160_from_u64 v2) 8))] /\
    get (streams (w_sock w2)) (u160_from_u64 v1) = Some (QStream [] (set_scid c0 (u160_from_u64 v1) 8)) /\
    get (streams (w_sock w2)) (u160_from_u64 v2) = Some (QStream [] (set_scid c0 (u160_from_u64 v2) 8)).
Proof.
  intros P oc t tr w k data addr h v1 v2 HP B LG HH HT G G1 G2 NV NH.
  assert (EC : exists c0, connection_new P oc true V1 (get_destination_id h) (get_destination_id_length h) = Ok c0).
  { destruct HH as [rest HH]. destruct (next_header_total (firstn (N.to_nat 4096) data)) as [[h' [r' [ty [E [Et L]]]]]|[e E]]; [|congruence].
    rewrite HH in E. injection E as <- <-. apply connection_new_ok; auto. apply L. congruence. }
  destruct EC as [c0 EC].
  assert (NK : u160_from_u64 v1 <> u160_from_u64 v2) by (unfold u160_from_u64; congruence).
  destruct (solo_opens P oc k data addr h c0 v1 LG HH HT G EC G1) as [acts1 [S1 [R1 [I1 N1]]]].
  destruct (next_call P oc t tr w k CAccept acts1 _ _ B I S1) as [w1 [X1 [T1 [PR1 [EK1 [ET1 [A1 F1]]]]]]].
  pose proof (then_between P oc t _ w1 _ _ _ _ X1 T1 PR1 EK1 ET1 A1 F1) as B1.
  match type of B1 with between _ _ _ _ _ ?kk => set (k1 := kk) in * end.
  assert (G1' : get (streams k1) (get_destination_id h) = None).
  { cbn [streams k1]. rewrite get_insert, G. destruct (u160_eqb (u160_from_u64 v1) (get_destination_id h)) eqn:Q; [|reflexivity].
    apply u160_eqb_eq in Q. contradiction. }
  assert (G2' : get (streams k1) (u160_from_u64 v2) = None).
  { cbn [streams k1]. rewrite get_insert, G2. destruct (u160_eqb (u160_from_u64 v1) (u160_from_u64 v2)) eqn:Q; [|reflexivity].
    apply u160_eqb_eq in Q. contradiction. }
  destruct (solo_opens P oc k1 data addr h c0 v2 eq_refl HH HT G1' EC G2') as [acts2 [S2 [R2 [I2 N2]]]].
  destruct B1 as [_ [_ [_ [_ [[r0 D0] [H0 _]]]]]].
  rewrite <- EK1 in S2.
  destruct (solo_call P oc w1 t CAccept r0 _ _ acts2 D0 H0 A1 S2) as [w2 [X2 [EK2 [ET2 [O2 A2]]]]].
  assert (NC : forall t' c', In (t', ACall c') (map (pair t) acts2) -> False).
  { intros t' c' Y. apply in_map_iff in Y as [a [E Y]]. injection E as _ ->. exact (solo_no_call _ _ _ _ _ _ _ _ _ S2 c' Y). }
  exists c0, ((t, ACall CAccept) :: map (pair t) acts1), w1, ((t, ACall CAccept) :: map (pair t) acts2), w2.
  rewrite ET1, ET2. cbn [th_call th_acts th_prog].
  split; [exact X1|]. split; [exact X2|].
  split. { apply typed_app. split; [exact T1|]. intros t' d [Y|Y]; [discriminate|]. exfalso. exact (NC _ _ Y). }
  split. { apply public_app. split; [exact PR1|]. intros t' [Y|Y]; [discriminate|]. exact (NC _ _ Y). }
  split; [eexists; reflexivity|]. split; [reflexivity|]. split; [exact R1|]. split; [exact I1|].
  assert (RM : removes acts2 = []).
  { assert (Ec : th_call (w_threads w2 t) = Some CAccept) by (rewrite ET2; reflexivity).
    assert (XX : execution P oc start ((tr ++ (t, ACall CAccept) :: map (pair t) acts1) ++ (t, ACall CAccept) :: map (pair t) acts2) w2)
      by (eapply execution_app; eauto).
    assert (TT : well_typed ((tr ++ (t, ACall CAccept) :: map (pair t) acts1) ++ (t, ACall CAccept) :: map (pair t) acts2)).
    { apply typed_app. split; [exact T1|]. intros t' d [Y|Y]; [discriminate|]. exfalso. exact (NC _ _ Y). }
    assert (PP : public_run ((tr ++ (t, ACall CAccept) :: map (pair t) acts1) ++ (t, ACall CAccept) :: map (pair t) acts2)).
    { apply public_app. split; [exact PR1|]. intros t' [Y|Y]; [discriminate|]. exact (NC _ _ Y). }
    pose proof (finished P oc _ w2 t _ _ HP XX TT PP Ec ltac:(rewrite ET2; reflexivity)) as K. rewrite ET2 in K. cbn in K. tauto. }
  split.
  { intros k' t' [Y|Y]; [discriminate|]. apply in_map_iff in Y as [a [E Y]]. injection E as _ ->.
    assert (Z : In k' (removes acts2)) by (apply in_flat_map; exists (ARemove k'); split; [exact Y|left; reflexivity]).
    rewrite RM in Z. exact Z. }
  split; [left; reflexivity|]. split; [eexists; reflexivity|]. split; [reflexivity|]. split; [exact R2|]. split; [exact I2|].
  rewrite EK2. cbn [streams]. rewrite EK1. rewrite !get_insert, u160_eqb_refl.
  split; [|reflexivity]. destruct (u160_eqb (u160_from_u64 v2) (u160_from_u64 v1)) eqn:Q; [apply u160_eqb_eq in Q; congruence|].
  cbn [streams k1]. rewrite get_insert, u160_eqb_refl. reflexivity.
Qed.
Print Assumptions C44_always_again.

Theorem C44_no_duplicate_refuted : ~ C44_statement.
Proof.
  intros H.
  destruct (C44_always_again real_prims true 0 [] start bind_socket client_initial 5 initial_header 77 78
    real_prims_ok (between_start _ _ _) eq_refl client_initial_header eq_refl eq_refl eq_refl eq_refl ltac:(discriminate) ltac:(discriminate))
    as [c0 [tr1 [w1 [tr2 [w2 [X1 [X2 [T [PR [D1 [C1 [R1 [I1 [NR [CA [D2 [C2 [R2 [I2 _]]]]]]]]]]]]]]]]]]].
  exact (H _ _ _ w1 0 _ _ [] tr2 w2 0 _ _ [] client_initial 5 real_prims_ok X1 X2 T PR D1 C1 R1 I1 (NR _) CA D2 C2 R2 I2).
Qed.
Print Assumptions C44_no_duplicate_refuted.
Example C44_case :
  between real_prims true 0 [] start bind_socket /\ log_traffic bind_socket = false /\
  header_is (firstn (N.to_nat 4096) client_initial) initial_header /\ get_packet_type initial_header = Ok TInitial /\
  get (streams bind_socket) (get_destination_id initial_header) = None /\
  u160_from_u64 77 <> get_destination_id initial_header /\
  (exists tr w s1 s2, execution real_prims true start tr w /\
     get (streams (w_sock w)) (U160 0 77) = Some s1 /\ get (streams (w_sock w)) (U160 0 78) = Some s2).
Proof.
  split; [apply between_start|]. split; [reflexivity|]. split; [exact client_initial_header|]. split; [reflexivity|].
  split; [reflexivity|]. split; [discriminate|].
  destruct (C44_always_again real_prims true 0 [] start bind_socket client_initial 5 initial_header 77 78
    real_prims_ok (between_start _ _ _) eq_refl client_initial_header eq_refl eq_refl eq_refl eq_refl ltac:(discriminate) ltac:(discriminate))
    as [c0 [tr1 [w1 [tr2 [w2 [X1 [X2 [_ [_ [_ [_ [_ [_ [_ [_ [_ [_ [_ [_ [G1 G2]]]]]]]]]]]]]]]]]]]].
  eexists _, w2, _, _. split; [exact (execution_app _ _ _ _ _ _ _ X1 X2)|]. split; [exact G1|exact G2].
Qed.

(** ** C45: distinct connection ids are routed apart *)
Definition C45_statement : Prop := forall P oc tr w t1 t2 k d1 d2 i1 i2,
  prims_ok P -> execution P oc start tr w -> well_typed tr -> public_run tr ->
  In (t1, ASend k d1) tr -> In (t2, ASend k d2) tr ->
  bytes_ok (d_data d1) -> bytes_ok (d_data d2) -> wire_dcid (d_data d1) i1 -> wire_dcid (d_data d2) i2 -> i1 = i2.

Lemma wire_dcid_header s h d : bytes_ok s -> header_is s h -> wire_dcid s d ->
  (get_packet_type h = Ok TVersionNegotiation /\ get_destination_id h = U160 0 0) \/
  (get_packet_type h <> Ok TVersionNegotiation /\ cid_enc (get_destination_id h) (len d) d).
Proof.
  intros B [rest E] D. destruct (header_announces s h rest B E) as [b [s1 [-> K]]]. apply bytes_ok_cons in B as [_ B].
  destruct h as [x|x]; cbn [get_packet_type get_destination_id].
  - destruct K as [Hb [Es _]]. destruct (short_inv _ _ _ _ B Es) as [d' [-> [C Ex]]].
    right. split; [unfold short_packet_type; destruct x; discriminate|].
    remember (b :: d' ++ rest) as s eqn:Q. destruct D as [b' v d rest' Hb' Hv|b' d rest' Hb' Hd]; injection Q as -> Q; [lia|].
    apply cons_app_inj in Q as [-> _]; [rewrite Hd; exact C|]. apply len_length. rewrite Hd. symmetry. apply C.
  - destruct K as [Hb [Eb [El _]]]. rewrite packet_type_cases.
    remember (b :: s1) as s eqn:Q. destruct D as [b' v d rest' Hb' Hv|b' d rest' Hb' Hd]; injection Q as -> Q; [|lia].
    destruct (long_inv _ _ _ _ B El) as [_ [[V [_ [_ [bs [-> F]]]]]|[V [_ [v' [d' [sc [-> [Fv [_ [_ [_ [_ Ex]]]]]]]]]]]]].
    + right. destruct (N.eqb_spec (lh_version x) 0) as [Z|Z]; [contradiction|]. split.
      { destruct ((lh_byte x / 16) mod 4) as [|[[]|[]|]]; discriminate. }
      destruct F as [v' [d' [sc [Fv [Ld [Fd [_ [_ ->]]]]]]]]. rewrite <- app_assoc in Q.
      apply cons_app_inj in Q as [-> Q]; [|apply len_length; rewrite Hv; symmetry; apply Fv].
      cbn in Q. injection Q as Q1 Q. rewrite <- app_assoc in Q.
      apply cons_app_inj in Q as [-> _]; [rewrite Q1; exact Fd|]. apply len_length. rewrite Q1. symmetry. apply Fd.
    + left. rewrite V. split; [reflexivity|]. rewrite Ex. reflexivity.
Qed.

Lemma cid_val_inj a b : cid_ok a -> cid_ok b -> cid_val a = cid_val b -> a = b.
Proof.
  intros [_ A] [_ B] E. unfold cid_val in E. destruct a as [x y], b as [x' y']. cbn in *.
  assert (Ex : x = x').
  { transitivity ((x * 2 ^ 128 + y) / 2 ^ 128).
    - apply (N.div_unique _ _ _ y A). ring.
    - symmetry. apply (N.div_unique _ _ _ y' B). rewrite E. ring. }
  subst. f_equal. lia.
Qed.

(** Exactly which ids are confused: leading zero bytes do not count. *)
Theorem C45_confusion_exact : forall s1 s2 h1 h2 i1 i2, bytes_ok s1 -> bytes_ok s2 ->
  header_is s1 h1 -> header_is s2 h2 -> wire_dcid s1 i1 -> wire_dcid s2 i2 ->
  get_packet_type h1 <> Ok TVersionNegotiation -> get_packet_type h2 <> Ok TVersionNegotiation ->
  get_destination_id h1 = get_destination_id h2 <-> be_val i1 = be_val i2.
Proof.
  intros s1 s2 h1 h2 i1 i2 B1 B2 H1 H2 D1 D2 N1 N2.
  destruct (wire_dcid_header _ _ _ B1 H1 D1) as [[V _]|[_ C1]]; [contradiction|].
  destruct (wire_dcid_header _ _ _ B2 H2 D2) as [[V _]|[_ C2]]; [contradiction|].
  destruct C1 as [O1 [_ [_ V1]]]. destruct C2 as [O2 [_ [_ V2]]]. split.
  - intros E. congruence.
  - intros E. apply cid_val_inj; auto. congruence.
Qed.
Print Assumptions C45_confusion_exact.
Example C45_confusion_case :
  header_is (short_for 77) (HShort (ShortHeader 0x40 (U160 0 77) true)) /\ wire_dcid (short_for 77) (be_bytes 8 77) /\
  header_is (d_data long_77) (HLong (LongHeader 0xe0 1 1 (U160 0 77) 0 u160_zero None true)) /\ wire_dcid (d_data long_77) [77] /\
  be_val (be_bytes 8 77) = be_val [77].
Proof.
  split; [exists [1; 2; 3]; vm_compute; reflexivity|].
  split; [exact (wd_short 0x40 (be_bytes 8 77) [1; 2; 3] ltac:(lia) eq_refl)|].
  split; [exists []; vm_compute; reflexivity|].
  split; [exact (wd_long 0xe0 [0; 0; 0; 1] [77] [0] ltac:(lia) eq_refl)|]. reflexivity.
Qed.

(** All version negotiation packets are routed to id zero, whatever their id. *)
Theorem C45_version_negotiation : forall s h i, bytes_ok s -> header_is s h -> wire_dcid s i ->
  get_packet_type h = Ok TVersionNegotiation -> get_destination_id h = U160 0 0.
Proof.
  intros s h i B H D V. destruct (wire_dcid_header _ _ _ B H D) as [[_ E]|[N _]]; [exact E|contradiction].
Qed.
Print Assumptions C45_version_negotiation.
Example C45_negotiation_case : let s := [0x80; 0; 0; 0; 0; 1; 77; 0; 0; 0; 0; 1] in
  exists h, header_is s h /\ wire_dcid s [77] /\ get_packet_type h = Ok TVersionNegotiation.
Proof.
  eexists. split; [eexists; vm_compute; reflexivity|]. split; [|reflexivity].
  exact (wd_long 0x80 [0; 0; 0; 0] [77] [0; 0; 0; 0; 1] ltac:(lia) eq_refl).
Qed.

(** What holds: ids of the same length are routed apart.  Missing: ids of
    different lengths; version negotiation. *)
Theorem C45_routed_apart_partial : forall P oc tr w t1 t2 k d1 d2 i1 i2 h1 h2,
  prims_ok P -> execution P oc start tr w -> well_typed tr ->
  In (t1, ASend k d1) tr -> In (t2, ASend k d2) tr ->
  bytes_ok (d_data d1) -> bytes_ok (d_data d2) -> wire_dcid (d_data d1) i1 -> wire_dcid (d_data d2) i2 ->
  header_is (d_data d1) h1 -> header_is (d_data d2) h2 ->
  get_packet_type h1 <> Ok TVersionNegotiation -> get_packet_type h2 <> Ok TVersionNegotiation ->
  len i1 = len i2 -> i1 = i2.
Proof.
  intros P oc tr w t1 t2 k d1 d2 i1 i2 h1 h2 HP X T S1 S2 B1 B2 D1 D2 H1 H2 N1 N2 L.
  assert (KEY : forall t d h, In (t, ASend k d) tr -> header_is (d_data d) h -> k = get_destination_id h).
  { clear - HP X T. intros t d h IN HH. induction X as [|tr w t' a w' X IH S]; [contradiction|].
    apply typed_app in T as [T _]. apply in_app_or in IN as [IN|[IN|[]]]; [auto|]. injection IN as -> ->.
    destruct (C38_send_step P oc tr w t k d w' HP X T S) as [_ [_ [[h' [[r' E'] ->]] _]]]. destruct HH as [r E].
    rewrite E in E'. injection E' as -> _. reflexivity. }
  pose proof (KEY _ _ _ S1 H1) as E1. pose proof (KEY _ _ _ S2 H2) as E2.
  assert (V : be_val i1 = be_val i2).
  { eapply C45_confusion_exact; [exact B1|exact B2|exact H1|exact H2|exact D1|exact D2|exact N1|exact N2|congruence]. }
  destruct (wire_dcid_header _ _ _ B1 H1 D1) as [[Y _]|[_ [_ [C1 _]]]]; [contradiction|].
  destruct (wire_dcid_header _ _ _ B2 H2 D2) as [[Y _]|[_ [_ [C2 _]]]]; [contradiction|].
  apply be_val_inj; auto. apply len_length. exact L.
Qed.
Print Assumptions C45_routed_apart_partial.

Theorem C45_routed_apart_refuted : ~ C45_statement.
Proof.
  intros H.
  destruct (sample_routed short_77 long_77 (HShort (ShortHeader 0x40 (U160 0 77) true)) (HLong (LongHeader 0xe0 1 1 (U160 0 77) 0 (U160 0 0) None true)))
    as [tr [w [c0 [acts [[X [T [PR _]]] [I1 [I2 _]]]]]]].
  - exists [1; 2; 3]. vm_compute. reflexivity.
  - exists []. vm_compute. reflexivity.
  - reflexivity.
  - reflexivity.
  - assert (E : be_bytes 8 77 = [77]); [|discriminate E].
    apply (H _ _ tr w 0 0 (U160 0 77) short_77 long_77 (be_bytes 8 77) [77] real_prims_ok X T PR I1 I2).
    + apply bytes_ok_dec. vm_compute. reflexivity.
    + apply bytes_ok_dec. vm_compute. reflexivity.
    + apply (wd_short 0x40 (be_bytes 8 77) [1; 2; 3]); reflexivity.
    + apply (wd_long 0xe0 [0; 0; 0; 1] [77] [0]); [discriminate|reflexivity].
Qed.
Print Assumptions C45_routed_apart_refuted.
Example C45_case : exists tr w k d1 d2,
  execution real_prims true start tr w /\ well_typed tr /\ In (0, ASend k d1) tr /\ In (0, ASend k d2) tr /\ d1 <> d2.
Proof.
  destruct (sample_routed short_77 (Datagram (0x7f :: be_bytes 8 77) 3) (HShort (ShortHeader 0x40 (U160 0 77) true)) (HShort (ShortHeader 0x7f (U160 0 77) true)))
    as [tr [w [c0 [acts [[X [T _]] [I1 [I2 _]]]]]]].
  - exists [1; 2; 3]. vm_compute. reflexivity.
  - exists []. vm_compute. reflexivity.
  - reflexivity.
  - reflexivity.
  - exists tr, w, (U160 0 77), short_77, (Datagram (0x7f :: be_bytes 8 77) 3). repeat (split; auto). discriminate.
Qed.

(** ** C46: replies are addressed to the client's source id *)
Definition C46_statement : Prop := forall P oc tr w t r key s pre data addr h fs token p,
  prims_ok P -> execution P oc start tr w -> well_typed tr -> public_run tr ->
  th_call (w_threads w t) = Some CAccept -> th_prog (w_threads w t) = Done r ->
  inserts (th_acts (w_threads w t)) = [(key, s)] ->
  recvs (th_acts (w_threads w t)) = pre ++ [NetDatagram data addr] -> header_is (firstn (N.to_nat 4096) data) (HLong h) ->
  snd (initial_new oc fs token (q_conn s)) = Ok p ->
  lh_dcid (pi_header p) = lh_scid h /\ lh_dcid_len (pi_header p) = lh_scid_len h.

(** They are addressed to the id the client chose for the server. *)
Theorem C46_addressed_to_original_id : forall P oc tr w t key s w' pre data addr h fs token p,
  prims_ok P -> execution P oc start tr w -> well_typed tr ->
  step P oc w t (AInsert key s) w' ->
  recvs (th_acts (w_threads w t)) = pre ++ [NetDatagram data addr] -> header_is (firstn (N.to_nat 4096) data) h ->
  snd (initial_new oc fs token (q_conn s)) = Ok p ->
  get_packet_type h = Ok TInitial /\
  lh_dcid (pi_header p) = get_destination_id h /\ lh_dcid_len (pi_header p) = get_destination_id_length h /\
  lh_scid (pi_header p) = key /\ lh_scid_len (pi_header p) = 8.
Proof.
  intros P oc tr w t key s w' pre data addr h fs token p HP X T S R [rest HH] EN.
  pose proof (inv_reached P oc tr w HP X T) as W. pose proof (step_effect _ _ _ _ _ _ _ _ w t _ w' W S) as [c [Ec [EF _]]].
  destruct EF as [_ [_ [c0 [v [O [_ [_ ->]]]]]]].
  destruct O as [pre' [data' [addr' [h' [T0 [mr [E1 [_ [[rest' E3] [E4 [_ [_ E7]]]]]]]]]]]].
  rewrite R in E1. apply app_inj_tail in E1 as [_ E1]. injection E1 as <- <-. rewrite HH in E3. injection E3 as <- <-.
  assert (L : get_destination_id_length h <= 20).
  { destruct (next_header_total (firstn (N.to_nat 4096) data)) as [[h' [r' [ty [E [Et L]]]]]|[e E]]; [|congruence].
    rewrite HH in E. injection E as <- <-. apply L. congruence. }
  assert (RC : Histories.reachable P oc true (get_destination_id h) (get_destination_id_length h) (set_scid c0 key 8))
    by (exists c0, [Histories.CSetScid key 8]; split; auto).
  pose proof (reachable_inv _ _ _ _ _ _ HP RC) as I. cbn [q_conn] in EN.
  destruct (initial_new oc fs token (set_scid c0 key 8)) as [c1 r] eqn:EI. cbn in EN. subst r.
  destruct (initial_new_inv _ _ _ _ _ _ _ _ _ _ I L EI) as [_ [s [sl [Es [Eh _]]]]]. cbn in Es. injection Es as <- <-.
  rewrite Eh. cbn. auto.
Qed.
Print Assumptions C46_addressed_to_original_id.

Lemma first_packet P oc d l c0 key fs : connection_new P oc true V1 d l = Ok c0 ->
  exists p, snd (initial_new oc fs None (set_scid c0 key 8)) = Ok p /\ lh_dcid (pi_header p) = d.
Proof.
  intros E. unfold connection_new in E. inv_bind. injection E as <-. cbn [set_scid c_version initial_pn_info handshake_pn_info application_pn_info c_dcid].
  unfold initial_new, get_next_pn. cbn [borrow_pn_info initial_pn_info next_pn largest_local_ack].
  replace (add64 oc 0 1) with (Ok 1) by (destruct oc; reflexivity).
  replace (truncate_pn 1 None) with (Ok [0; 0; 0; 1]) by reflexivity.
  eexists. split; reflexivity.
Qed.

Theorem C46_reply_address_refuted : ~ C46_statement.
Proof.
  intros H. destruct sample_opened as [tr [w [c0 [X [T [PR [Ec [O [NR [Ed [R _]]]]]]]]]]].
  destruct (C41_accept_registers_partial _ _ _ w 0 c0 _ real_prims_ok X T PR Ec O NR Ed) as [key [IN _]].
  destruct O as [pre [data [addr [h [T0 [mr [E1 [_ [[rest E3] [_ [_ [_ E7]]]]]]]]]]]].
  rewrite R in E1. destruct pre as [|x [|y pre]]; [|discriminate E1|discriminate E1]. injection E1 as <- <-.
  destruct client_initial_header as [r1 Y1]. rewrite Y1 in E3. injection E3 as <- <-.
  destruct (first_packet _ _ _ _ _ key [] E7) as [p [Ep Ehd]].
  destruct (H _ _ _ w 0 _ _ _ [] client_initial 5 (LongHeader 0xc0 1 8 (U160 0 0x0102030405060708) 1 (U160 0 9) None true) [] None p real_prims_ok X T PR Ec Ed IN R) as [K _].
  - exact client_initial_header.
  - exact Ep.
  - rewrite Ehd in K. discriminate K.
Qed.
Print Assumptions C46_reply_address_refuted.
