(** Building executions in which one thread makes one call after another. *)
From Verif Require Import Base Utils Frame CipherSuite Secrets Connection Packet Routing Threads
  Spec SpecPacket SpecRouting Tactics UtilsFacts HeaderFacts ConnectionFacts RoutingFacts RoutingSafe SoloFacts CryptoInst.

Lemma solo_no_call P oc k p h acts k2 p2 h2 : solo P oc k p h acts k2 p2 h2 -> forall c, ~ In (ACall c) acts.
Proof.
  intros S. induction S as [|k p held a k1 p1 acts k2 p2 held2 PS S IH| | |]; intros cc Hc; cbn in Hc.
  - contradiction.
  - destruct Hc as [->|Hc]; [inversion PS|exact (IH cc Hc)].
  - destruct Hc as [Hc|Hc]; [discriminate|eapply IHS; exact Hc].
  - destruct Hc as [Hc|Hc]; [discriminate|eapply IHS; exact Hc].
  - destruct Hc as [Hc|[]]. discriminate.
Qed.

(** Thread [t] is between calls, nobody else is in the way. *)
Definition between (P : prims) (oc : bool) (t : N) (tr : list (N * action)) (w : world) (k : isocket) : Prop :=
  execution P oc start tr w /\ well_typed tr /\ public_run tr /\ w_sock w = k /\
  (exists r, th_prog (w_threads w t) = Done r) /\ th_held (w_threads w t) = [] /\ alone t w /\
  (forall t', t' <> t -> w_threads w t' = fresh_thread).

Lemma between_start P oc t : between P oc t [] start bind_socket.
Proof.
  split; [constructor|]. split; [intros a b []|]. split; [intros a []|]. split; [reflexivity|].
  split; [eexists; reflexivity|]. split; [reflexivity|]. split; [split; reflexivity|]. reflexivity.
Qed.

Definition plain_call (c : scall) : Prop :=
  match c with CPackets d => bytes_ok (d_data d) /\ len (d_data d) < 2 ^ 63 | CSetLog b => b = false | _ => True end.

Lemma next_call P oc t tr w k c acts k' p : between P oc t tr w k -> plain_call c ->
  solo P oc k (entry oc c) [] acts k' p [] ->
  exists w', execution P oc start (tr ++ (t, ACall c) :: map (pair t) acts) w' /\
    well_typed (tr ++ (t, ACall c) :: map (pair t) acts) /\ public_run (tr ++ (t, ACall c) :: map (pair t) acts) /\
    w_sock w' = k' /\ w_threads w' t = Thread p [] (Some c) acts /\ alone t w' /\
    (forall t', t' <> t -> w_threads w' t' = fresh_thread).
Proof.
  intros [X [T [PR [EK [[r0 D] [EH [A F]]]]]]] PC S. subst k.
  destruct (solo_call P oc w t c r0 k' p acts D EH A S) as [w' [X' [EK [ET [O A']]]]].
  assert (NC : forall t' c', In (t', ACall c') (map (pair t) acts) -> False).
  { intros t' c' H. apply in_map_iff in H as [a [E H]]. injection E as _ ->. exact (solo_no_call _ _ _ _ _ _ _ _ _ S c' H). }
  exists w'. split; [eapply execution_app; eauto|].
  split.
  { intros t' d H. apply in_app_or in H as [H|[H|H]]; [exact (T t' d H)| |exfalso; exact (NC _ _ H)].
    injection H as _ ->. exact PC. }
  split.
  { intros t' H. apply in_app_or in H as [H|[H|H]]; [exact (PR t' H)| |exact (NC _ _ H)].
    injection H as _ ->. discriminate PC. }
  split; [exact EK|]. split; [exact ET|]. split; [exact A'|]. intros t' N. rewrite O by auto. auto.
Qed.

Lemma then_between P oc t tr w k c acts r : execution P oc start tr w -> well_typed tr -> public_run tr ->
  w_sock w = k -> w_threads w t = Thread (Done r) [] (Some c) acts -> alone t w ->
  (forall t', t' <> t -> w_threads w t' = fresh_thread) -> between P oc t tr w k.
Proof. intros X T PR EK ET A F. unfold between. rewrite ET. cbn [th_prog th_held]. split; [exact X|]. split; [exact T|]. split; [exact PR|]. split; [exact EK|]. eauto. Qed.

(** A client's Initial datagram (the payload does not matter), and a short-header
    datagram for connection [id]. *)
Definition client_initial : list N := [0xc0; 0; 0; 0; 1; 8; 1; 2; 3; 4; 5; 6; 7; 8; 1; 9; 0; 0].
Definition short_for (id : N) : list N := 0x40 :: be_bytes 8 id ++ [1; 2; 3].

Definition initial_header : packet_header :=
  HLong (LongHeader 0xc0 1 8 (U160 0 0x0102030405060708) 1 (U160 0 9) None true).
Lemma client_initial_header : header_is (firstn (N.to_nat 4096) client_initial) initial_header.
Proof. exists [0; 0]. vm_compute. reflexivity. Qed.

(** Accepting it registers a connection. *)
Lemma sample_accept tr w k v : between real_prims true 0 tr w k -> log_traffic k = false ->
  get (streams k) (U160 0 0x0102030405060708) = None -> get (streams k) (u160_from_u64 v) = None ->
  exists acts c0 w', connection_new real_prims true true V1 (U160 0 0x0102030405060708) 8 = Ok c0 /\
    let tr' := tr ++ (0, ACall CAccept) :: map (pair 0) acts in
    let k' := ISocket (insert_key (streams k) (u160_from_u64 v) (QStream [] (set_scid c0 (u160_from_u64 v) 8))) false (printed k) in
    between real_prims true 0 tr' w' k' /\ w_threads w' 0 = Thread (Done (RPanic "not yet implemented")) [] (Some CAccept) acts /\
    recvs acts = [NetDatagram client_initial 5] /\ inserts acts = [(u160_from_u64 v, QStream [] (set_scid c0 (u160_from_u64 v) 8))] /\
    ~ In (ARand None) acts.
Proof.
  intros B LG G1 G2.
  destruct (connection_new_ok real_prims true true (U160 0 0x0102030405060708) 8 real_prims_ok ltac:(lia)) as [c0 EC].
  destruct (solo_opens real_prims true k client_initial 5 initial_header c0 v LG client_initial_header eq_refl G1 EC G2)
    as [acts [S [R [IN NR]]]].
  destruct (next_call real_prims true 0 tr w k CAccept acts _ _ B I S) as [w' [X [T [PR [EK [ET [A F]]]]]]].
  exists acts, c0, w'. split; [exact EC|]. cbv zeta. split; [eapply then_between; eauto|]. auto.
Qed.

(** A run that accepts a client under id 77 and routes two datagrams. *)
Lemma sample_routed d1 d2 h1 h2 : header_is (d_data d1) h1 -> header_is (d_data d2) h2 ->
  get_destination_id h1 = U160 0 77 -> get_destination_id h2 = U160 0 77 ->
  exists tr w c0 acts, between real_prims true 0 tr w
      (ISocket [(U160 0 77, QStream [d1; d2] (set_scid c0 (U160 0 77) 8))] false []) /\
    In (0, ASend (U160 0 77) d1) tr /\ In (0, ASend (U160 0 77) d2) tr /\
    w_threads w 0 = Thread (Done (RUnit (Ok tt))) [] (Some (CRoute d2)) acts.
Proof.
  intros H1 H2 E1 E2.
  destruct (sample_accept [] start bind_socket 77 (between_start _ _ _) eq_refl eq_refl eq_refl)
    as [acts [c0 [w' [EC [B [ET [R [IN NR]]]]]]]]. cbv zeta in B.
  match type of B with between _ _ _ ?trr _ ?kk => set (tr1 := trr) in *; set (k1 := kk) in * end.
  destruct (solo_route_call real_prims true k1 d1 h1 (QStream [] (set_scid c0 (U160 0 77) 8)) H1) as [a1 [S1 Z1]]; [rewrite E1; reflexivity|].
  destruct (next_call real_prims true 0 tr1 w' k1 (CRoute d1) a1 _ _ B I S1) as [w2 [X2 [T2 [P2 [K2 [Y2 [A2 F2]]]]]]].
  pose proof (then_between _ _ _ _ _ _ _ _ _ X2 T2 P2 K2 Y2 A2 F2) as B2. rewrite E1 in B2.
  match type of B2 with between _ _ _ ?trr _ ?kk => set (tr2 := trr) in *; set (k2 := kk) in * end.
  destruct (solo_route_call real_prims true k2 d2 h2 (QStream [d1] (set_scid c0 (U160 0 77) 8)) H2) as [a2 [S2 Z2]]; [rewrite E2; reflexivity|].
  destruct (next_call real_prims true 0 tr2 w2 k2 (CRoute d2) a2 _ _ B2 I S2) as [w3 [X3 [T3 [P3 [K3 [Y3 [A3 F3]]]]]]].
  pose proof (then_between _ _ _ _ _ _ _ _ _ X3 T3 P3 K3 Y3 A3 F3) as B3. rewrite E2 in B3.
  assert (SN : forall key d acts0, sends acts0 = [(key, d)] -> In (0, ASend key d) (map (pair 0) acts0)).
  { intros key d acts0 E. apply in_map. assert (Y : In (key, d) (sends acts0)) by (rewrite E; left; reflexivity).
    apply in_flat_map in Y as [a [Ia Y]]. destruct a; try contradiction. destruct Y as [Y|[]]. injection Y as -> ->. exact Ia. }
  rewrite E1 in Z1. rewrite E2 in Z2.
  eexists _, w3, c0, a2. split; [exact B3|]. split; [|split; [|exact Y3]].
  - apply in_or_app. left. unfold tr2. apply in_or_app. right. right. apply SN. exact Z1.
  - apply in_or_app. right. right. apply SN. exact Z2.
Qed.

Definition short_77 : datagram := Datagram (short_for 77) 1.
Definition long_77 : datagram := Datagram [0xe0; 0; 0; 0; 1; 1; 77; 0] 2.

(** A step inside an execution. *)
Lemma execution_split P oc w0 b : forall w2 a, execution P oc w0 (a ++ b) w2 ->
  exists w1, execution P oc w0 a w1 /\ execution P oc w1 b w2.
Proof.
  induction b as [|x b IH] using rev_ind; intros w2 a X.
  - rewrite app_nil_r in X. exists w2. split; [exact X|constructor].
  - rewrite app_assoc in X. inversion X as [E|tr w1 t y w3 X1 S E]; subst.
    { symmetry in E. apply app_eq_nil in E as [_ E]. discriminate E. }
    apply app_inj_tail in E as [-> <-]. destruct (IH _ _ X1) as [w4 [A B]]. exists w4. split; [exact A|]. eapply ex_snoc; eauto.
Qed.
Lemma step_in P oc w0 tr w2 t a : execution P oc w0 tr w2 -> In (t, a) tr ->
  exists tr1 tr2 w w', tr = tr1 ++ (t, a) :: tr2 /\ execution P oc w0 tr1 w /\ step P oc w t a w' /\ execution P oc w' tr2 w2.
Proof.
  intros X H. apply in_split in H as [tr1 [tr2 ->]]. change ((t, a) :: tr2) with ([(t, a)] ++ tr2) in X. rewrite app_assoc in X.
  destruct (execution_split _ _ _ _ _ _ X) as [w' [X1 X2]].
  inversion X1 as [E|tr w1 t' y w3 X0 S E]; subst.
  { symmetry in E. apply app_eq_nil in E as [_ E]. discriminate E. }
  apply app_inj_tail in E as [-> E]. injection E as -> ->. exists tr1, tr2, w1, w'. auto.
Qed.

(** A run that accepts a client under id 77, drops the connection and is then
    given a datagram for it. *)
Definition drop_acts : list (N * action) := map (pair 0) [AAcq LStreams Exclusive; ARemove (U160 0 77); ARel LStreams].
Lemma sample_dropped : exists tr1 w1 w2 c0 acts,
  between real_prims true 0 tr1 w1 (ISocket [(U160 0 77, QStream [] (set_scid c0 (U160 0 77) 8))] false []) /\
  In (0, AInsert (U160 0 77) (QStream [] (set_scid c0 (U160 0 77) 8))) tr1 /\
  between real_prims true 0 (tr1 ++ (0, ACall (CDropStream (U160 0 77))) :: drop_acts) w2 (ISocket [] false []) /\
  execution real_prims true w1 ((0, ACall (CDropStream (U160 0 77))) :: drop_acts) w2 /\
  w_threads w2 0 = Thread (Done RNothing) [] (Some (CDropStream (U160 0 77))) acts /\
  exists tr3 w3 acts3, execution real_prims true w2 ((0, ACall (CRoute short_77)) :: tr3) w3 /\
    between real_prims true 0 ((tr1 ++ (0, ACall (CDropStream (U160 0 77))) :: drop_acts) ++ (0, ACall (CRoute short_77)) :: tr3) w3 (ISocket [] false []) /\
    (forall t s, ~ In (t, AInsert (U160 0 77) s) tr3) /\ (forall c, ~ In (0, ACall c) tr3) /\
    w_threads w3 0 = Thread (Done (RUnit (Err (InternalError "missing connection")))) [] (Some (CRoute short_77)) acts3.
Proof.
  destruct (sample_accept [] start bind_socket 77 (between_start _ _ _) eq_refl eq_refl eq_refl)
    as [acts [c0 [w' [EC [B [ET [R [IN NR]]]]]]]]. cbv zeta in B.
  match type of B with between _ _ _ ?trr _ ?kk => set (tr1 := trr) in *; set (k1 := kk) in * end.
  assert (S : solo real_prims true k1 (entry true (CDropStream (U160 0 77))) []
     [AAcq LStreams Exclusive; ARemove (U160 0 77); ARel LStreams] (ISocket [] false []) (Done RNothing) []).
  { unfold entry, drop_prog. apply so_acq; [intros m []|]. eapply so_data; [apply p_remove|]. apply so_rel. apply so_nil. }
  assert (B' := B). destruct B' as [_ [_ [_ [EK1 [[r0 D1] [H1 [A1 F1]]]]]]].
  rewrite <- EK1 in S. destruct (solo_call real_prims true w' 0 _ r0 _ _ _ D1 H1 A1 S) as [w2 [X2 [K2 [Y2 [O2 A2]]]]].
  assert (X : execution real_prims true start (tr1 ++ (0, ACall (CDropStream (U160 0 77))) :: map (pair 0) [AAcq LStreams Exclusive; ARemove (U160 0 77); ARel LStreams]) w2).
  { eapply execution_app; [apply B|exact X2]. }
  match type of X with execution _ _ _ ?trr _ => set (tr2 := trr) in * end.
  assert (NS : forall t' c, In (t', ACall c) tr2 -> In (t', ACall c) tr1 \/ c = CDropStream (U160 0 77)).
  { intros t' c H. apply in_app_or in H as [H|H]; [left; exact H|]. right. cbn in H.
    destruct H as [H|[H|[H|[H|[]]]]]; try discriminate H. injection H as _ <-. reflexivity. }
  assert (B2 : between real_prims true 0 tr2 w2 (ISocket [] false [])).
  { eapply then_between; eauto.
    - intros t d H. apply NS in H as [H|H]; [|discriminate H]. eapply (proj1 (proj2 B)); eauto.
    - intros t H. apply NS in H as [H|H]; [|discriminate H]. exact (proj1 (proj2 (proj2 B)) t H).
    - intros t' N. rewrite O2 by exact N. auto. }
  assert (S3 : solo real_prims true (ISocket [] false []) (entry true (CRoute short_77)) []
     [AAcq LStreams Shared; ALook []; ARel LStreams] (ISocket [] false []) (Done (RUnit (Err (InternalError "missing connection")))) []).
  { assert (HH : next_header_from_stream (d_data short_77) = Ok (HShort (ShortHeader 0x40 (U160 0 77) true), [1; 2; 3])) by (vm_compute; reflexivity).
    unfold entry, route_datagram. rewrite (parse_header_ok _ _ _ _ _ HH). apply so_acq; [intros m []|]. eapply so_data; [apply p_look|].
    cbn [streams get]. apply so_rel. apply so_nil. }
  assert (B' := B2). destruct B' as [_ [_ [_ [EK3 [[r3 D3] [H3 [A3 F3]]]]]]].
  rewrite <- EK3 in S3 at 1. destruct (solo_call real_prims true w2 0 _ r3 _ _ _ D3 H3 A3 S3) as [w3 [X3 [K3 [Y3 [O3 A4]]]]].
  exists tr1, w', w2, c0, [AAcq LStreams Exclusive; ARemove (U160 0 77); ARel LStreams].
  split; [exact B|]. split.
  { unfold tr1. apply in_or_app. right. right. apply in_map.
    assert (Y : In (U160 0 77, QStream [] (set_scid c0 (U160 0 77) 8)) (inserts acts)) by (rewrite IN; left; reflexivity).
    apply in_flat_map in Y as [a [Ia Y]]. destruct a; try contradiction. destruct Y as [Y|[]]. injection Y as -> ->. exact Ia. }
  split; [exact B2|]. split; [exact X2|]. split; [exact Y2|].
  exists (map (pair 0) [AAcq LStreams Shared; ALook []; ARel LStreams]), w3, [AAcq LStreams Shared; ALook []; ARel LStreams].
  split; [exact X3|]. split.
  { assert (X4 : execution real_prims true start (tr2 ++ (0, ACall (CRoute short_77)) :: map (pair 0) [AAcq LStreams Shared; ALook []; ARel LStreams]) w3)
      by (eapply execution_app; [apply B2|exact X3]).
    assert (NS3 : forall t' c, In (t', ACall c) (tr2 ++ (0, ACall (CRoute short_77)) :: map (pair 0) [AAcq LStreams Shared; ALook []; ARel LStreams]) -> In (t', ACall c) tr2 \/ c = CRoute short_77).
    { intros t' c H. apply in_app_or in H as [H|H]; [left; exact H|]. right. cbn in H.
      destruct H as [H|[H|[H|[H|[]]]]]; try discriminate H. injection H as _ <-. reflexivity. }
    eapply then_between; eauto.
    - intros t d H. apply NS3 in H as [H|H]; [|discriminate H]. eapply (proj1 (proj2 B2)); eauto.
    - intros t H. apply NS3 in H as [H|H]; [|discriminate H]. exact (proj1 (proj2 (proj2 B2)) t H).
    - intros t' N. rewrite O3 by exact N. auto. }
  split; [intros t s H; cbn in H; destruct H as [H|[H|[H|[]]]]; discriminate H|].
  split; [intros c H; cbn in H; destruct H as [H|[H|[H|[]]]]; discriminate H|exact Y3].
Qed.
