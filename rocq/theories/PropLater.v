(** Property C111: packets addressed to the id a server has issued reach the
    connection and are understood. *)
From Verif Require Import Base Utils Frame CipherSuite Secrets Connection Packet Printing Routing Threads Histories
  Spec SpecPacket SpecRouting Tactics UtilsFacts FrameFacts HeaderFacts PacketFacts ConnectionFacts SendFacts PacketInv DecodeFacts
  RoutingFacts RoutingSafe SoloFacts LocalFacts
  CryptoInst SampleRuns PropPacket PropConn PropRouting PropThreads PropAtomic PropIntake PropRouteWire PropLinear.
From Coq Require Import Lia ZifyN ZifyBool ZifyNat.
Open Scope N_scope.

(** In [tr], [accept] has opened a connection for the datagram [data] under [key],
    and nobody has closed it since. *)
Definition opened_for (P : prims) (oc : bool) (tr : list (N * action)) (key : u160) (data : list N) : Prop :=
  exists a t0 s0 b wa pre addr, tr = a ++ (t0, AInsert key s0) :: b /\ execution P oc start a wa /\
    recvs (th_acts (w_threads wa t0)) = pre ++ [NetDatagram data addr] /\ forall t', ~ In (t', ARemove key) b.

(** An Initial packet [p] of a client with keys [k], as RFC 9000 and 9001 require it, with a four byte
    packet number (see C23) and frames other than STREAM (see C08) and CRYPTO at a later offset (see C09). *)
Definition rfc_initial (P : prims) (k : SpecPacket.keys) (p : packet_initial) (wire : list N) : Prop :=
  exists pt, initial_wire P k p pt wire /\ frames_enc (pi_payload p) pt /\
    len (pi_pn_bytes p) = 4 /\ pi_pn p < 2 ^ 32 /\
    Forall (fun f => is_stream f = false /\ crypto_at_zero f) (pi_payload p).

(** ** The moment of a call that begins in a given state *)
Lemma call_later P oc tr1 w1 t c tr2 w2 r : prims_ok P -> execution P oc start tr1 w1 -> execution P oc w1 ((t, ACall c) :: tr2) w2 ->
  well_typed (tr1 ++ (t, ACall c) :: tr2) -> public_run (tr1 ++ (t, ACall c) :: tr2) ->
  (forall c', ~ In (t, ACall c') tr2) -> th_prog (w_threads w2 t) = Done r -> c <> CAccept ->
  exists x a y wa wb, (t, ACall c) :: tr2 = x ++ (t, a) :: y /\ execution P oc w1 x wa /\ step P oc wa t a wb /\
    execution P oc wb y w2 /\ one_call oc c (registered wa) (registered wb) r.
Proof.
  intros HP X1 X2 T PR NC Ed NA. pose proof (execution_app P oc _ _ _ _ _ X1 X2) as X.
  assert (Ec : th_call (w_threads w2 t) = Some c).
  { change ((t, ACall c) :: tr2) with ([(t, ACall c)] ++ tr2) in X2. destruct (execution_split P oc w1 tr2 w2 _ X2) as [wc [X3 X4]].
    rewrite (call_kept_run P oc wc tr2 w2 t X4 NC).
    inversion X3 as [F|tr0 wx t0 b0 wy X5 ST F]; subst. change [(t, ACall c)] with ([] ++ [(t, ACall c)]) in F.
    apply app_inj_tail in F as [-> [= -> ->]]. eapply step_call_set; eauto. }
  destruct (C93_calls_atomic P oc _ w2 t c r HP X T PR Ec Ed NA) as [x0 [wa [a0 [wb [y [E [Xa [S [Xb [_ [O [NC' _]]]]]]]]]]]].
  assert (Q : exists l, x0 = tr1 ++ l /\ (t, ACall c) :: tr2 = l ++ (t, a0) :: y).
  { apply app_eq_app in E as [l [[-> E]|[-> E]]]; [|exists l; auto].
    destruct l as [|z l]; cbn in E; [exists []; rewrite !app_nil_r; split; [reflexivity|symmetry; exact E]|]. injection E as <- E. exfalso. apply (NC' c). rewrite E. apply in_elt. }
  destruct Q as [l [-> E']]. exists l, a0, y, wa, wb. split; [exact E'|].
  destruct (execution_split P oc start l wa tr1 Xa) as [wm [Xm Xn]].
  pose proof (execution_det _ _ _ _ _ Xm _ X1). subst wm. auto.
Qed.

(** ** The connection found there *)
Lemma opened_connection P oc tr w key data d k : prims_ok P -> execution P oc start tr w -> well_typed tr ->
  opened_for P oc tr key data -> bytes_ok data -> wire_dcid (firstn (N.to_nat 4096) data) d -> initial_keys P false d k ->
  exists s d' l, registered w key = Some s /\ reachable P oc true d' l (q_conn s) /\ remote_keys P oc (q_conn s) SpInitial k.
Proof.
  intros HP X T [a [t0 [s0 [b [wa [pre [addr [-> [Xa [R NR]]]]]]]]]] B D K.
  change ((t0, AInsert key s0) :: b) with ([(t0, AInsert key s0)] ++ b) in X, T. rewrite app_assoc in X, T.
  destruct (execution_split P oc start b w _ X) as [wb [Xb Xw]].
  inversion Xb as [F|tr0 wx t1 b0 wy X5 ST F]; [destruct a; discriminate F|]. subst.
  apply app_inj_tail in F as [-> [= -> ->]]. pose proof (execution_det _ _ _ _ _ X5 _ Xa). subst wx.
  assert (Ta : well_typed a) by (apply typed_app in T as [T _]; apply typed_app in T; tauto).
  destruct (C103_keys_of_datagram P oc a wa t0 key s0 wb pre data addr HP Xa Ta ST R B)
    as [d1 [ks [kc [_ [D1 [_ [K1 [_ [RK _]]]]]]]]].
  rewrite (wire_dcid_fun _ _ _ D1 D) in K1. rewrite (C32_keys_determined _ _ _ _ _ K1 K) in RK.
  destruct (C73_only_initials_open P oc a wa t0 key s0 wb HP Xa Ta ST)
    as [_ [_ [pre' [data' [addr' [h [T0 [mr [c0 [v [_ [_ [_ [_ [_ [E6 [_ [_ Es]]]]]]]]]]]]]]]]]].
  destruct (C40_insert_step P oc a wa t0 _ _ wb HP Xa Ta ST) as [_ [_ [G _]]].
  pose proof (C40_kept_until_dropped P oc _ wb b w key s0 HP Xb Xw T) as G2.
  eexists _, _, _. split; [apply G2; auto|]. cbn [q_conn]. split; [|exact RK].
  rewrite Es. exists c0, [Histories.CSetScid key 8]. split; [exact E6|reflexivity].
Qed.
Lemma rfc_header P k p wire more : rfc_initial P k p wire ->
  exists h, header_is (wire ++ more) h /\ get_destination_id h = lh_dcid (pi_header p).
Proof.
  intros [pt [W _]]. destruct (initial_wire_cons _ _ _ _ _ W) as [b [fields [mr [-> [HF [Hb [Ht [Hv VN]]]]]]]].
  exists (HLong (with_byte (pi_header p) b (negb (retry_byte b)))). split; [|reflexivity].
  exists (mr ++ more). unfold next_header_from_stream. cbn [app next bind]. rewrite land_128 by lia.
  destruct (N.leb_spec 128 b); [|lia]. cbn [N.eqb]. rewrite <- app_assoc. rewrite (long_dec (pi_header p) fields) by auto. reflexivity.
Qed.

(** ** The theorems *)
(** [tr1] has opened a connection under [key] for [data], in which the client chose the id [d]
    and so the Initial keys [k].  A datagram of any number of its Initial packets, the first addressed to
    [key], is then given to the socket, while other threads do anything except close the connection. *)
Theorem C111_read : forall P oc tr1 w1 key data d k p ps wires dg t tr2 w2 r, prims_ok P ->
  execution P oc start tr1 w1 -> opened_for P oc tr1 key data -> bytes_ok data ->
  wire_dcid (firstn (N.to_nat 4096) data) d -> initial_keys P false d k ->
  Forall2 (rfc_initial P k) (p :: ps) wires -> lh_dcid (pi_header p) = key -> d_data dg = concat wires ->
  execution P oc w1 ((t, ACall (CPackets dg)) :: tr2) w2 ->
  well_typed (tr1 ++ (t, ACall (CPackets dg)) :: tr2) -> public_run (tr1 ++ (t, ACall (CPackets dg)) :: tr2) ->
  (forall t', ~ In (t', ARemove key) tr2) -> (forall c, ~ In (t, ACall c) tr2) -> th_prog (w_threads w2 t) = Done r ->
  r = RPackets (Ok (map PInitial (p :: ps))).
Proof.
  intros P oc tr1 w1 key data d k p ps wires dg t tr2 w2 r HP X1 OP B D K F EK ED X2 T PR NR NC Dn.
  assert (T1 : well_typed tr1) by (apply typed_app in T; tauto).
  destruct (call_later P oc tr1 w1 t _ tr2 w2 r HP X1 X2 T PR NC Dn) as [x [a [y [wa [wb [E [Xa [S [Xb O]]]]]]]]]; [discriminate|].
  destruct (opened_connection P oc tr1 w1 key data d k HP X1 T1 OP B D K) as [s [d' [l [G [R RK]]]]].
  assert (Ta : well_typed (tr1 ++ x)) by (rewrite E, app_assoc in T; apply typed_app in T; tauto).
  assert (NRx : forall t', ~ In (t', ARemove key) x).
  { intros t' H. assert (IN : In (t', ARemove key) ((t, ACall (CPackets dg)) :: tr2)) by (rewrite E; apply in_or_app; auto).
    destruct IN as [IN|IN]; [discriminate IN|exact (NR t' IN)]. }
  pose proof (C40_kept_until_dropped P oc tr1 w1 x wa key s HP X1 Xa Ta G NRx) as G2. fold (registered wa) in G2.
  assert (DEC : decode_packets oc (q_conn s) (d_data dg) = Ok (map PInitial (p :: ps))).
  { rewrite ED. eapply C22_conformant_coalesced; eauto. eapply Forall2_impl; [|exact F]. intros p0 w0 [pt [W [FE [L [L2 FA]]]]].
    exists pt. split; [exact W|]. split; [exact L|]. split; [exact L2|]. apply frames_dec; auto. }
  destruct wires as [|w0 wires]; [inversion F|].
  destruct (rfc_header P k p w0 (concat wires)) as [h [[hr HH] EH]]; [inversion F; auto|]. rewrite EK in EH.
  change (w0 ++ concat wires) with (concat (w0 :: wires)) in HH. rewrite <- ED in HH.
  assert (SAME : forall h', header_is (d_data dg) h' -> h' = h) by (intros h' [r' H']; congruence).
  inversion O as [| | | |? ? ? h' s' x' H' G' _ D' _|? ? ? h' s' w' H' G' _ D'|? ? ? h' e H' G' _|? ? ? e H' _| |? ? ? H' _|? ? ? h' s' H' G' _ D'| | |]; subst;
    try (apply SAME in H'; subst h'; rewrite EH in G'; fold (registered wa) in G'; unfold registered in G', G2; rewrite G2 in G'; injection G' as <-; cbn [q_conn] in *; rewrite DEC in *; congruence).
  all: try (exfalso; eapply H'; exists hr; exact HH).
  all: exfalso; apply SAME in H'; subst h'; unfold registered in G', G2; rewrite EH, G2 in G'; try discriminate G'; injection G' as <-; exact (D' _ DEC).
Qed.
Print Assumptions C111_read.

Theorem C111_delivered : forall P oc tr1 w1 key data k p ps wires dg t tr2 w2 r, prims_ok P ->
  execution P oc start tr1 w1 -> opened_for P oc tr1 key data ->
  Forall2 (rfc_initial P k) (p :: ps) wires -> lh_dcid (pi_header p) = key -> d_data dg = concat wires ->
  execution P oc w1 ((t, ACall (CRoute dg)) :: tr2) w2 ->
  well_typed (tr1 ++ (t, ACall (CRoute dg)) :: tr2) -> public_run (tr1 ++ (t, ACall (CRoute dg)) :: tr2) ->
  (forall t', ~ In (t', ARemove key) tr2) -> (forall c, ~ In (t, ACall c) tr2) -> th_prog (w_threads w2 t) = Done r ->
  r = RUnit (Ok tt) /\ exists s s', get (streams (w_sock w1)) key = Some s /\ get (streams (w_sock w2)) key = Some s' /\
    exists x y, q_queue s' = q_queue s ++ x ++ dg :: y.
Proof.
  intros P oc tr1 w1 key data k p ps wires dg t tr2 w2 r HP X1 OP F EK ED X2 T PR NR NC Dn.
  assert (T1 : well_typed tr1) by (apply typed_app in T; tauto).
  destruct (call_later P oc tr1 w1 t _ tr2 w2 r HP X1 X2 T PR NC Dn) as [x [a [y [wa [wb [E [Xa [S [Xb O]]]]]]]]]; [discriminate|].
  assert (G : exists s, registered w1 key = Some s).
  { clear EK ED F. destruct OP as [b [t0 [s0 [b' [wc [pre [addr [-> [Xc [R NR']]]]]]]]]].
    change ((t0, AInsert key s0) :: b') with ([(t0, AInsert key s0)] ++ b') in X1, T1. rewrite app_assoc in X1, T1.
    destruct (execution_split P oc start b' w1 _ X1) as [wd [Xd Xw]].
    inversion Xd as [Q|tr0 wx t1 b0 wy X5 ST Q]; [destruct b; discriminate Q|]. subst.
    apply app_inj_tail in Q as [-> [= -> ->]].
    assert (Tb : well_typed b) by (apply typed_app in T1 as [T1 _]; apply typed_app in T1; tauto).
    destruct (C40_insert_step P oc b wx t0 _ _ wd HP X5 Tb ST) as [_ [_ [G _]]].
    eexists. apply (C40_kept_until_dropped P oc _ wd b' w1 key s0 HP Xd Xw T1 G NR'). }
  destruct G as [s G].
  assert (Ta : well_typed (tr1 ++ x)) by (rewrite E, app_assoc in T; apply typed_app in T; tauto).
  assert (NRx : forall t', ~ In (t', ARemove key) (x ++ (t, a) :: y)).
  { intros t' H. rewrite <- E in H. destruct H as [H|H]; [discriminate H|exact (NR t' H)]. }
  assert (NR1 : forall t', ~ In (t', ARemove key) x) by (intros t' H; apply (NRx t'), in_or_app; auto).
  assert (NR2 : forall t', ~ In (t', ARemove key) y) by (intros t' H; apply (NRx t'), in_or_app; right; right; exact H).
  pose proof (C40_kept_until_dropped P oc tr1 w1 x wa key s HP X1 Xa Ta G NR1) as G2.
  destruct wires as [|w0 wires]; [inversion F|].
  destruct (rfc_header P k p w0 (concat wires)) as [h [[hr HH] EH]]; [inversion F; auto|]. rewrite EK in EH.
  change (w0 ++ concat wires) with (concat (w0 :: wires)) in HH. rewrite <- ED in HH.
  assert (SAME : forall h', header_is (d_data dg) h' -> h' = h) by (intros h' [r' H']; congruence).
  inversion O as [? ? ? h' s' H' G' [C1 _]|? ? ? h' e H' G' _|? ? ? e H' _| | | | | |? ? ? H' _| | | | |]; subst;
    try (exfalso; eapply H'; exists hr; exact HH).
  - apply SAME in H'. subst h'. rewrite EH in *. unfold registered in G', C1. rewrite G2 in G'. injection G' as <-. cbn [q_queue q_conn] in C1.
    split; [reflexivity|]. exists s.
    assert (Xab : execution P oc start (tr1 ++ x ++ [(t, a)]) wb) by (rewrite app_assoc; eapply ex_snoc; [eapply execution_app; eauto|exact S]).
    assert (Tab : well_typed ((tr1 ++ x ++ [(t, a)]) ++ y)) by (rewrite <- !app_assoc; cbn [app]; rewrite <- E; exact T).
    pose proof (C40_kept_until_dropped P oc _ wb y w2 _ _ HP Xab Xb Tab C1 NR2) as G3. cbn [q_queue q_conn] in G3.
    eexists. split; [exact G|]. split; [exact G3|]. cbn [q_queue].
    exists (sent_to (lh_dcid (pi_header p)) x), (sent_to (lh_dcid (pi_header p)) y). rewrite <- !app_assoc. reflexivity.
  - exfalso. apply SAME in H'. subst h'. rewrite EH in G'. unfold registered in G'. congruence.
Qed.
Print Assumptions C111_delivered.

(** ** A client that opens a connection and then writes to the id it was given *)
Definition later_packet : packet_initial :=
  PacketInitial (LongHeader 195 1 8 (U160 0 77) 8 (U160 0 0x0102030405060708) None false) [] 3 [0; 0; 0; 3] [Ping; Crypto (FrameCrypto 0 3 [7; 8; 9])].
Definition later_wire : list N :=
  [201; 0; 0; 0; 1; 8; 0; 0; 0; 0; 0; 0; 0; 77; 8; 1; 2; 3; 4; 5; 6; 7; 8; 0; 27; 56; 144; 169; 235; 29; 251; 138; 253; 31; 230; 48; 41;
   70; 126; 142; 230; 63; 210; 161; 143; 229; 36; 221; 90; 132; 212; 136].
Definition later : datagram := Datagram later_wire 5.

Lemma later_conformant : exists k, initial_keys real_prims false (hex "8394c8f03e515708") k /\ rfc_initial real_prims k later_packet later_wire.
Proof.
  destruct (C32_initial_keys real_prims true false sample_id 8 real_prims_ok) as [c [cid [kl [kr [EC [-> [K1 [_ [LK _]]]]]]]]]; [split; reflexivity|lia|].
  exists kl. split; [exact K1|].
  assert (ES : initial_serialize true later_packet c = Ok later_wire).
  { assert (K : (let? c := connection_new real_prims true false V1 sample_id 8 in initial_serialize true later_packet c) = Ok later_wire) by (vm_compute; reflexivity).
    rewrite EC in K. exact K. }
  assert (FW : Forall frame_wf (pi_payload later_packet)) by (repeat constructor; cbn; unfold v62; try lia; try (vm_compute; (reflexivity || discriminate))).
  destruct (initial_ser real_prims true c kl later_packet later_wire real_prims_ok LK) as [pt [EP W]]; auto.
  - assert (I1 : id_fits (U160 0 77) 8) by (repeat split; vm_compute; (reflexivity || discriminate)).
    assert (I2 : id_fits (U160 0 0x0102030405060708) 8) by (repeat split; vm_compute; (reflexivity || discriminate)).
    apply header_of; auto; (reflexivity || discriminate).
  - constructor.
  - split; [split; vm_compute; discriminate|]. split; [apply bytes_ok_dec; reflexivity|reflexivity].
  - reflexivity.
  - intros bs E. vm_compute in E. injection E as <-. reflexivity.
  - exists pt. split; [exact W|].
    destruct (serialize_frames_enc (pi_payload later_packet) false FW) as [pt' [E' F']]. assert (pt' = pt) as <- by congruence.
    split; [exact F'|]. split; [reflexivity|]. split; [reflexivity|]. repeat constructor.
Qed.

Lemma opened_sample : exists tr1 w1 c0, connection_new real_prims true true V1 sample_id 8 = Ok c0 /\
  between real_prims true 0 tr1 w1 (ISocket [(U160 0 77, QStream [] (set_scid c0 (U160 0 77) 8))] false []) /\
  opened_for real_prims true tr1 (U160 0 77) client_wire.
Proof.
  destruct (connection_new_ok real_prims true true sample_id 8 real_prims_ok ltac:(lia)) as [c0 EC].
  destruct (solo_opens real_prims true bind_socket client_wire 5 client_header c0 77 eq_refl client_wire_header
    eq_refl eq_refl EC eq_refl) as [acts [S [R [IN NR]]]].
  destruct (next_call real_prims true 0 [] start bind_socket CAccept acts _ _ (between_start _ _ _) I S) as [w1 [X [T [PR [EK [ET [A F]]]]]]].
  eexists _, w1, c0. split; [exact EC|]. split; [eapply then_between; eauto|].
  assert (ID : In (AInsert (U160 0 77) (QStream [] (set_scid c0 (U160 0 77) 8))) acts).
  { assert (I2 : In (U160 0 77, QStream [] (set_scid c0 (U160 0 77) 8)) (inserts acts)) by (rewrite IN; left; reflexivity).
    unfold inserts in I2. apply in_flat_map in I2 as [a [Ia I2]]. destruct a; try contradiction. destruct I2 as [I2|[]]. injection I2 as -> ->. exact Ia. }
  apply in_split in ID as [x [y EA]].
  destruct (PropAtomic.at_action real_prims true _ w1 0 CAccept x (AInsert (U160 0 77) (QStream [] (set_scid c0 (U160 0 77) 8))) y X) as [tra [wa [wb [trb [E [Xa [SA [Xb [Ca [Aa Nc]]]]]]]]]].
  { rewrite ET. reflexivity. }
  { rewrite ET. exact EA. }
  assert (Ta : well_typed tra) by (rewrite E in T; apply typed_app in T; tauto).
  destruct (C73_only_initials_open real_prims true tra wa 0 _ _ wb real_prims_ok Xa Ta SA) as [_ [_ [pre [data [addr [_ [_ [_ [_ [_ [E1 _]]]]]]]]]]].
  exists tra, 0, (QStream [] (set_scid c0 (U160 0 77) 8)), trb, wa, [], 5. split; [exact E|]. split; [exact Xa|]. split.
  - cbn [app]. eapply opening_recvs; [rewrite <- EA; exact R|rewrite <- Aa; exact E1|exact Aa].
  - intros t' H. assert (H' : In (t', ARemove (U160 0 77)) ([] ++ (0, ACall CAccept) :: map (pair 0) acts)) by (rewrite E; apply in_or_app; right; right; exact H).
    destruct (step_in _ _ _ _ _ _ _ X H') as [p [q [wc [wd [Ep [Xp [Sp _]]]]]]].
    assert (Tp : well_typed p) by (rewrite Ep in T; apply typed_app in T; tauto).
    destruct (C39_remove_step real_prims true p wc t' _ wd real_prims_ok Xp Tp Sp) as [Cd _].
    destruct (at_call real_prims true p wc t' _ Xp Cd) as [p1 [_ [_ [p2 [E2 _]]]]].
    assert (H2 : In (t', ACall (CDropStream (U160 0 77))) ([] ++ (0, ACall CAccept) :: map (pair 0) acts)).
    { rewrite Ep, E2. apply in_or_app. left. apply in_elt. }
    destruct H2 as [H2|H2]; [discriminate H2|]. apply in_map_iff in H2 as [z [Ez Hz]]. injection Ez as _ ->.
    exact (solo_no_call _ _ _ _ _ _ _ _ _ S _ Hz).
Qed.

Example C111_case : exists tr1 w1 k, execution real_prims true start tr1 w1 /\ opened_for real_prims true tr1 (U160 0 77) client_wire /\
  bytes_ok client_wire /\ wire_dcid (firstn (N.to_nat 4096) client_wire) (hex "8394c8f03e515708") /\
  initial_keys real_prims false (hex "8394c8f03e515708") k /\
  Forall2 (rfc_initial real_prims k) [later_packet; later_packet] [later_wire; later_wire] /\
  (let dg := Datagram (later_wire ++ later_wire) 5 in exists tr2 w2, execution real_prims true w1 ((0, ACall (CPackets dg)) :: tr2) w2 /\
    well_typed (tr1 ++ (0, ACall (CPackets dg)) :: tr2) /\ public_run (tr1 ++ (0, ACall (CPackets dg)) :: tr2) /\
    (forall t', ~ In (t', ARemove (U160 0 77)) tr2) /\ (forall c, ~ In (0, ACall c) tr2) /\
    th_prog (w_threads w2 0) = Done (RPackets (Ok [PInitial later_packet; PInitial later_packet]))) /\
  (exists tr2 w2, execution real_prims true w1 ((0, ACall (CRoute later)) :: tr2) w2 /\
    well_typed (tr1 ++ (0, ACall (CRoute later)) :: tr2) /\ public_run (tr1 ++ (0, ACall (CRoute later)) :: tr2) /\
    (forall t', ~ In (t', ARemove (U160 0 77)) tr2) /\ (forall c, ~ In (0, ACall c) tr2) /\
    th_prog (w_threads w2 0) = Done (RUnit (Ok tt))).
Proof.
  destruct opened_sample as [tr1 [w1 [c0 [EC [B OP]]]]]. destruct later_conformant as [k [K F]].
  exists tr1, w1, k. split; [apply B|]. split; [exact OP|]. split; [apply bytes_ok_dec; vm_compute; reflexivity|].
  split; [apply C103_case|]. split; [exact K|]. split; [auto|].
  set (k1 := ISocket _ _ _) in B.
  assert (LAST : forall c acts k' r, plain_call c -> solo real_prims true k1 (entry true c) [] acts k' (Done r) [] ->
    (forall k, ~ In (ARemove k) acts) ->
    exists tr2 w2, execution real_prims true w1 ((0, ACall c) :: tr2) w2 /\
    well_typed (tr1 ++ (0, ACall c) :: tr2) /\ public_run (tr1 ++ (0, ACall c) :: tr2) /\
    (forall t', ~ In (t', ARemove (U160 0 77)) tr2) /\ (forall c, ~ In (0, ACall c) tr2) /\ th_prog (w_threads w2 0) = Done r).
  { intros c acts k' r PC S NR. destruct (next_call _ _ _ _ _ _ _ _ _ _ B PC S) as [w2 [X [T [PR [_ [ET _]]]]]].
    destruct (execution_split _ _ _ _ _ _ X) as [w0 [X0 X2]]. pose proof (execution_det _ _ _ _ _ X0 _ (proj1 B)). subst w0.
    exists (map (pair 0) acts), w2. split; [exact X2|]. split; [exact T|]. split; [exact PR|]. split; [|split].
    - intros t' H. apply in_map_iff in H as [z [Ez Hz]]. injection Ez as _ ->. exact (NR _ Hz).
    - intros c' H. apply in_map_iff in H as [z [Ez Hz]]. injection Ez as ->. exact (solo_no_call _ _ _ _ _ _ _ _ _ S _ Hz).
    - rewrite ET. reflexivity. }
  split.
  - cbv zeta. set (dg := Datagram (later_wire ++ later_wire) 5).
    assert (D : decode_packets true (set_scid c0 (U160 0 77) 8) (later_wire ++ later_wire) = Ok [PInitial later_packet; PInitial later_packet]).
    { assert (Z : (let? c := connection_new real_prims true true V1 sample_id 8 in decode_packets true (set_scid c (U160 0 77) 8) (later_wire ++ later_wire)) = Ok [PInitial later_packet; PInitial later_packet]) by (vm_compute; reflexivity).
      rewrite EC in Z. exact Z. }
    assert (HH : exists h r, next_header_from_stream (d_data dg) = Ok (h, r) /\ get_destination_id h = U160 0 77) by (eexists _, _; split; [vm_compute; reflexivity|reflexivity]).
    destruct HH as [h [hr [HH HD]]].
    assert (S2 : exists a2, solo real_prims true k1 (entry true (CPackets dg)) [] a2 k1
      (Done (RPackets (Ok [PInitial later_packet; PInitial later_packet]))) [] /\ forall k, ~ In (ARemove k) a2).
    { eexists. split.
      - unfold entry, packets_from_datagram. rewrite (parse_header_ok _ _ _ _ _ HH).
        apply so_acq; [intros m []|]. eapply so_data; [constructor|]. unfold k1 at 2. cbn [streams].
        rewrite HD. cbn [get]. change (u160_eqb _ _) with true. cbv iota.
        apply so_acq; [intros m [H|[]]; discriminate H|]. cbn [q_conn].
        rewrite (parse_packets_ok _ _ _ _ _ _ D). apply so_rel. apply so_rel. apply so_acq; [intros m []|].
        eapply so_data; [constructor|]. apply so_rel. apply so_nil.
      - intros k0 H. cbn in H. repeat (destruct H as [H|H]; [discriminate H|]). exact H. }
    destruct S2 as [a2 [S2 N2]]. eapply LAST; eauto.
    split; [apply bytes_ok_dec; vm_compute; reflexivity|vm_compute; reflexivity].
  - assert (HH : exists h r, next_header_from_stream (d_data later) = Ok (h, r) /\ get_destination_id h = U160 0 77) by (eexists _, _; split; [vm_compute; reflexivity|reflexivity]).
    destruct HH as [h [hr [HH HD]]].
    assert (S2 : exists a2 k', solo real_prims true k1 (entry true (CRoute later)) [] a2 k' (Done (RUnit (Ok tt))) [] /\ forall k, ~ In (ARemove k) a2).
    { eexists _, _. split.
      - unfold entry, route_datagram. rewrite (parse_header_ok _ _ _ _ _ HH). apply so_acq; [intros m []|]. eapply so_data; [constructor|].
        unfold k1 at 2. cbn [streams]. rewrite HD. cbn [get]. change (u160_eqb _ _) with true. cbv iota.
        eapply so_data; [eapply p_send; reflexivity|]. apply so_rel. apply so_nil.
      - intros k0 H. cbn in H. repeat (destruct H as [H|H]; [discriminate H|]). exact H. }
    destruct S2 as [a2 [k' [S2 N2]]]. eapply LAST; [exact I|exact S2|exact N2].
Qed.
