(** What happens to the datagrams a socket receives: C72, C75, C76. *)
From Verif Require Import Base Utils Frame CipherSuite Secrets Connection Packet Routing Threads
  Spec SpecPacket SpecRouting Tactics UtilsFacts HeaderFacts PacketFacts ConnectionFacts SendFacts
  RoutingFacts RoutingSafe SoloFacts CryptoInst SampleRuns PropFrame PropPacket PropRouting PropThreads.
From Verif Require Histories.

(** The moment before an action of a call made by a thread on its own. *)
Lemma acts_of_own t acts : acts_of t (map (pair t) acts) = acts.
Proof. unfold acts_of. induction acts as [|a l IH]; [reflexivity|]. cbn [map filter fst]. rewrite N.eqb_refl. cbn [map snd]. f_equal. exact IH. Qed.
Lemma at_action P oc t tr w k c acts k' p a : between P oc t tr w k -> plain_call c ->
  solo P oc k (entry oc c) [] acts k' p [] -> In a acts ->
  exists tr' w1 w2 acts1 acts2, acts = acts1 ++ a :: acts2 /\ execution P oc start tr' w1 /\ well_typed tr' /\ public_run tr' /\
    th_call (w_threads w1 t) = Some c /\ th_acts (w_threads w1 t) = acts1 /\ step P oc w1 t a w2.
Proof.
  intros B PC S IN. destruct (next_call P oc t tr w k c acts k' p B PC S) as [w3 [X [T [PR _]]]].
  apply in_split in IN as [acts1 [acts2 Ea]].
  assert (E : tr ++ (t, ACall c) :: map (pair t) acts = ((tr ++ [(t, ACall c)]) ++ map (pair t) acts1) ++ (t, a) :: map (pair t) acts2).
  { rewrite Ea, map_app, <- !app_assoc. reflexivity. }
  rewrite E in X, T, PR. destruct (execution_split _ _ _ _ _ _ X) as [w1 [X1 X2]].
  assert (S1 : exists w2, step P oc w1 t a w2).
  { change ((t, a) :: map (pair t) acts2) with ([(t, a)] ++ map (pair t) acts2) in X2. destruct (execution_split _ _ _ _ _ _ X2) as [w2 [Z _]].
    inversion Z as [|tr0 wa t0 b wb Xa Sa E0]; subst. apply (app_inj_tail tr0 []) in E0 as [-> [= -> ->]]. inversion Xa as [Ew|? ? ? ? ? ? ? E1]; subst; [eauto|].
    destruct tr0; discriminate E1. }
  destruct S1 as [w2 S1]. exists ((tr ++ [(t, ACall c)]) ++ map (pair t) acts1), w1, w2, acts1, acts2.
  split; [exact Ea|]. split; [exact X1|]. apply typed_app in T as [T _]. apply public_app in PR as [PR _].
  split; [exact T|]. split; [exact PR|].
  destruct (execution_split _ _ _ _ _ _ X1) as [w0 [X0 XA]].
  assert (F : th_call (w_threads w0 t) = Some c /\ th_acts (w_threads w0 t) = []).
  { inversion X0 as [E0|tr0 wa t0 b wb Xa Sa E0]; [symmetry in E0; apply app_eq_nil in E0 as [_ E0]; discriminate E0|]. subst.
    apply app_inj_tail in E0 as [_ [= -> ->]]. inversion Sa as [c0 r Ep|q b k0 q' Ep PS| | | |]; subst; cbn [w_threads]; rewrite ?set_thread_same; cbn; auto.
    inversion PS. }
  destruct F as [F1 F2].
  destruct (acts_since P oc w0 t c _ w1 XA F1 F2) as [G1 G2].
  { intros c' H. apply in_map_iff in H as [y [Ey H]]. injection Ey as ->. eapply (solo_no_call _ _ _ _ _ _ _ _ _ S c').
    rewrite Ea. apply in_or_app. left. exact H. }
  rewrite acts_of_own in G2. auto.
Qed.

Lemma opening_recvs acts1 acts2 a x pre y w t : recvs (acts1 ++ a :: acts2) = [x] -> recvs acts1 = pre ++ [y] ->
  th_acts (w_threads w t) = acts1 -> recvs (th_acts (w_threads w t)) = [x].
Proof.
  intros R E <-. rewrite recvs_app, E in R. rewrite E. destruct pre as [|z pre].
  - cbn [app] in R |- *. injection R as -> _. reflexivity.
  - exfalso. apply (f_equal (@List.length net_event)) in R. rewrite !app_length in R. cbn [List.length] in R. lia.
Qed.

(** ** C72: the packet that opens a connection can be read by it *)
Lemma opening_header P oc d l c1 c2 fs tok p wire more : prims_ok P ->
  Histories.reachable P oc false d l c1 -> Histories.reachable P oc false d l c2 ->
  id_fits d l -> scid_fits c1 -> bytes_ok (token_bytes tok) -> frames_survive oc fs ->
  snd (initial_new oc fs tok c1) = Ok p -> initial_serialize oc p c2 = Ok wire ->
  exists h, header_is (wire ++ more) h /\ get_packet_type h = Ok TInitial /\
    get_destination_id h = d /\ get_destination_id_length h = l.
Proof.
  intros HP R1 R2 ID SF BT [FW FS] EN ES.
  destruct (built_initial _ _ _ _ _ _ _ _ _ HP R1 ID SF EN) as [HR [PF [Lp [L4 [Ef [Et [_ [Ed [El _]]]]]]]]].
  destruct (connection_new_ok P oc true d l HP) as [s Es]; [apply ID|].
  destruct (peer_keys P oc false d l c2 s HP R2) as [k [K1 _]]; [exists s, []; split; [exact Es|reflexivity]|].
  destruct (initial_ser P oc c2 k p wire HP K1 HR) as [pt [_ W]]; auto; [rewrite Et; auto|pows; lia|rewrite Ef; auto| |].
  { intros bs E. rewrite Ef in E. apply FS. exact E. }
  destruct (initial_wire_cons _ _ _ _ _ W) as [b [fields [mr [-> [HF [Hb [Ht [Hv VN]]]]]]]].
  exists (HLong (with_byte (pi_header p) b (negb (retry_byte b)))). split; [|split; [|split]].
  - exists (mr ++ more). unfold next_header_from_stream. cbn [app next bind]. rewrite land_128 by lia.
    destruct (N.leb_spec 128 b); [|lia]. cbn [N.eqb]. rewrite <- app_assoc. rewrite (long_dec (pi_header p) fields) by auto. reflexivity.
  - cbn [get_packet_type]. rewrite packet_type_cases. unfold with_byte. cbn [lh_version lh_byte].
    destruct (N.eqb_spec (lh_version (pi_header p)) 0); [contradiction|]. rewrite Ht. reflexivity.
  - exact Ed.
  - exact El.
Qed.

(** Whatever the threads do: if [accept] opens a connection for a datagram that
    starts with a packet built by a client of this library, the connection it
    registers decodes that packet. *)
Theorem C72_opening_understood_partial : forall P oc tr w t key s w' d l c1 c2 fs tok p wire more pre addr,
  prims_ok P -> execution P oc start tr w -> well_typed tr -> step P oc w t (AInsert key s) w' ->
  Histories.reachable P oc false d l c1 -> Histories.reachable P oc false d l c2 ->
  id_fits d l -> scid_fits c1 -> bytes_ok (token_bytes tok) -> frames_survive oc fs ->
  snd (initial_new oc fs tok c1) = Ok p -> initial_serialize oc p c2 = Ok wire ->
  recvs (th_acts (w_threads w t)) = pre ++ [NetDatagram (wire ++ more) addr] -> len (wire ++ more) <= 4096 ->
  decode_next_packet oc (q_conn s) (wire ++ more) = Ok (PInitial p, more) /\ pi_payload p = fs /\ pi_token p = token_bytes tok.
Proof.
  intros P oc tr w t key s w' d l c1 c2 fs tok p wire more pre addr HP X T S R1 R2 ID SF BT FS EN ES ER L.
  destruct (C73_only_initials_open P oc tr w t key s w' HP X T S)
    as [_ [_ [pre' [data [addr' [h [T0 [mr [c0 [v [E1 [[r E2] [_ [_ [_ [E6 [_ [_ Es]]]]]]]]]]]]]]]]]].
  rewrite ER in E1. apply app_inj_tail in E1 as [_ E1]. injection E1 as <- <-.
  rewrite firstn_all2 in E2 by (unfold len in L; lia).
  destruct (opening_header P oc d l c1 c2 fs tok p wire more HP R1 R2 ID SF BT FS EN ES) as [h' [[r' E2'] [_ [Ed El]]]].
  rewrite E2 in E2'. injection E2' as <- <-. rewrite Ed, El in E6.
  assert (RS : Histories.reachable P oc true d l (q_conn s)).
  { rewrite Es. exists c0, [Histories.CSetScid key 8]. split; [exact E6|reflexivity]. }
  destruct (C20_initial_travels P oc false d l c1 c2 (q_conn s) fs tok p wire more HP R1 R2 RS ID SF BT FS EN ES) as [D [Ef [Et _]]].
  auto.
Qed.
Print Assumptions C72_opening_understood_partial.

(** Once the connection is there, the datagram it was opened for is decoded with it. *)
Definition C72_statement : Prop := forall P oc tr w t key s pre data addr ps tr2 w2 r,
  prims_ok P -> execution P oc start tr w -> well_typed tr -> public_run tr ->
  In (t, AInsert key s) tr -> recvs (acts_of t tr) = pre ++ [NetDatagram data addr] ->
  get (streams (w_sock w)) key = Some s -> decode_packets oc (q_conn s) (d_data (seen data addr)) = Ok ps ->
  execution P oc w ((t, ACall (CPackets (seen data addr))) :: tr2) w2 -> (forall c, ~ In (t, ACall c) tr2) ->
  th_prog (w_threads w2 t) = Done (RPackets r) -> r = Ok ps.

(** The library files the connection under its own id only, so the opening
    datagram, which carries the id the client chose, finds no connection. *)
Theorem C72_not_found : forall P oc t tr w k data addr h c0 v,
  between P oc t tr w k -> log_traffic k = false ->
  header_is (firstn (N.to_nat 4096) data) h -> get_packet_type h = Ok TInitial ->
  get (streams k) (get_destination_id h) = None -> get (streams k) (u160_from_u64 v) = None ->
  get_destination_id h <> u160_from_u64 v ->
  connection_new P oc true V1 (get_destination_id h) (get_destination_id_length h) = Ok c0 ->
  exists tr1 w1 tr2 w2,
    execution P oc start (tr ++ (t, ACall CAccept) :: map (pair t) tr1) w1 /\
    well_typed (tr ++ (t, ACall CAccept) :: map (pair t) tr1) /\ public_run (tr ++ (t, ACall CAccept) :: map (pair t) tr1) /\
    recvs tr1 = [NetDatagram data addr] /\
    inserts tr1 = [(u160_from_u64 v, QStream [] (set_scid c0 (u160_from_u64 v) 8))] /\
    get (streams (w_sock w1)) (u160_from_u64 v) = Some (QStream [] (set_scid c0 (u160_from_u64 v) 8)) /\
    execution P oc w1 ((t, ACall (CPackets (seen data addr))) :: map (pair t) tr2) w2 /\
    (forall c, ~ In (t, ACall c) (map (pair t) tr2)) /\
    th_prog (w_threads w2 t) = Done (RPackets (Err (InternalError "connection not found"))).
Proof.
  intros P oc t tr w k data addr h c0 v B LG HH HT G1 G2 NE EC.
  destruct (solo_opens P oc k data addr h c0 v LG HH HT G1 EC G2) as [acts [S [R [IN NR]]]].
  destruct (next_call P oc t tr w k CAccept acts _ _ B I S) as [w1 [X [T [PR [EK [ET [A F]]]]]]].
  match type of EK with _ = ?kk => set (k1 := kk) in * end.
  assert (G : get (streams k1) (get_destination_id h) = None).
  { unfold k1. cbn [streams]. rewrite get_insert. destruct (u160_eqb _ _) eqn:Q; [|exact G1]. apply u160_eqb_eq in Q. congruence. }
  assert (S2 : solo P oc k1 (entry oc (CPackets (seen data addr))) [] [AAcq LStreams Shared; ALook (streams k1); ARel LStreams] k1
    (Done (RPackets (Err (InternalError "connection not found")))) []).
  { destruct HH as [r HH]. unfold entry, packets_from_datagram. cbn [d_data seen]. rewrite (parse_header_ok _ _ _ _ _ HH).
    apply so_acq; [intros m []|]. eapply so_data; [constructor|]. rewrite G. apply so_rel. apply so_nil. }
  rewrite <- EK in S2 at 1.
  assert (D1 : th_prog (w_threads w1 t) = Done (RPanic "not yet implemented") /\ th_held (w_threads w1 t) = []) by (rewrite ET; auto).
  destruct D1 as [D1 D2]. destruct (solo_call P oc w1 t _ _ _ _ _ D1 D2 A S2) as [w2 [X2 [_ [ET2 _]]]].
  exists acts, w1, [AAcq LStreams Shared; ALook (streams k1); ARel LStreams], w2. rewrite EK, ET2.
  split; [exact X|]. split; [exact T|]. split; [exact PR|]. split; [exact R|]. split; [exact IN|].
  split; [unfold k1; cbn [streams]; rewrite get_insert, u160_eqb_refl; reflexivity|]. split; [exact X2|].
  split; [|reflexivity]. intros c H. cbn in H. intuition discriminate.
Qed.
Print Assumptions C72_not_found.

(** A client's Initial packet as this library sends it (see C20_case). *)
Definition client_wire : list N :=
  [192; 0; 0; 0; 1; 8; 131; 148; 200; 240; 62; 81; 87; 8; 8; 1; 2; 3; 4; 5; 6; 7; 8; 2; 9; 9; 28; 163; 177; 22; 73; 214;
   183; 137; 127; 215; 106; 156; 85; 59; 36; 184; 218; 236; 79; 198; 61; 168; 123; 233; 50; 102; 220; 143; 122].
Definition client_header : packet_header := HLong (LongHeader 192 1 8 sample_id 8 (U160 0 0x0102030405060708) None true).
Definition client_packet : packet_initial :=
  PacketInitial (LongHeader 195 1 8 sample_id 8 (U160 0 0x0102030405060708) None false) [9; 9] 2 [0; 0; 0; 2] sample_payload.

Lemma client_wire_header : header_is (firstn (N.to_nat 4096) client_wire) client_header.
Proof. eexists. vm_compute. reflexivity. Qed.
Lemma client_wire_sent : exists c1, Histories.reachable real_prims true false sample_id 8 c1 /\ scid_fits c1 /\
  snd (initial_new true sample_payload (Some [9; 9]) c1) = Ok client_packet /\ initial_serialize true client_packet c1 = Ok client_wire.
Proof.
  destruct (connection_new_ok real_prims true false sample_id 8 real_prims_ok ltac:(lia)) as [c E].
  exists (Histories.run true c [Histories.CSetScid (U160 0 0x0102030405060708) 8; Histories.CNextPn SpInitial]).
  assert (H : forall (A : Type) (f : connection -> A) r, (let? c := connection_new real_prims true false V1 sample_id 8 in Ok (f c)) = Ok r -> f c = r).
  { intros A f r H. rewrite E in H. cbn [bind] in H. congruence. }
  split; [eexists c, _; split; [exact E|reflexivity]|]. split; [|split].
  - unfold scid_fits. erewrite (H _ (fun c => c_scid (Histories.run true c _))) by (vm_compute; reflexivity).
    repeat split; vm_compute; (reflexivity || discriminate).
  - apply (H _ (fun c => snd (initial_new true sample_payload (Some [9; 9]) (Histories.run true c _)))). vm_compute. reflexivity.
  - apply (H _ (fun c => initial_serialize true client_packet (Histories.run true c _))). vm_compute. reflexivity.
Qed.

Theorem C72_decoded_refuted : ~ C72_statement.
Proof.
  intros H. destruct (connection_new_ok real_prims true true sample_id 8 real_prims_ok ltac:(lia)) as [c0 EC].
  destruct (C72_not_found real_prims true 0 [] start bind_socket client_wire 5 client_header c0 77
    (between_start _ _ _) eq_refl client_wire_header eq_refl eq_refl eq_refl) as [tr1 [w1 [tr2 [w2 [X1 [T1 [PR1 [R1 [I1 [G1 [X2 [NC Ed]]]]]]]]]]]].
  { discriminate. }
  { exact EC. }
  assert (AC : acts_of 0 ([] ++ (0, ACall CAccept) :: map (pair 0) tr1) = ACall CAccept :: tr1).
  { cbn [app]. change (acts_of 0 ((0, ACall CAccept) :: map (pair 0) tr1)) with (acts_of 0 (map (pair 0) (ACall CAccept :: tr1))). apply acts_of_own. }
  assert (D : decode_packets true (set_scid c0 (u160_from_u64 77) 8) (d_data (seen client_wire 5)) = Ok [PInitial client_packet]).
  { assert (K : (let? c := connection_new real_prims true true V1 sample_id 8 in decode_packets true (set_scid c (u160_from_u64 77) 8) (d_data (seen client_wire 5))) = Ok [PInitial client_packet]) by (vm_compute; reflexivity).
    rewrite EC in K. exact K. }
  specialize (H real_prims true _ w1 0 (u160_from_u64 77) (QStream [] (set_scid c0 (u160_from_u64 77) 8)) [] client_wire 5 [PInitial client_packet] (map (pair 0) tr2) w2 (Err (InternalError "connection not found")) real_prims_ok X1 T1 PR1).
  assert (IN : In (u160_from_u64 77, QStream [] (set_scid c0 (u160_from_u64 77) 8)) (inserts tr1)) by (rewrite I1; left; reflexivity).
  unfold inserts in IN. apply in_flat_map in IN as [a [Ia IN]]. destruct a; try contradiction. destruct IN as [IN|[]]. injection IN as -> ->.
  assert (IN : In (0, AInsert (u160_from_u64 77) (QStream [] (set_scid c0 (u160_from_u64 77) 8))) ([] ++ (0, ACall CAccept) :: map (pair 0) tr1)).
  { right. apply in_map_iff. eauto. }
  specialize (H IN). rewrite AC in H. specialize (H R1 G1 D X2 NC Ed). discriminate H.
Qed.
Print Assumptions C72_decoded_refuted.

Example C72_case : exists tr w s w' c1,
  execution real_prims true start tr w /\ well_typed tr /\ step real_prims true w 0 (AInsert (U160 0 77) s) w' /\
  Histories.reachable real_prims true false sample_id 8 c1 /\ id_fits sample_id 8 /\ scid_fits c1 /\
  bytes_ok (token_bytes (Some [9; 9])) /\ frames_survive true sample_payload /\
  snd (initial_new true sample_payload (Some [9; 9]) c1) = Ok client_packet /\ initial_serialize true client_packet c1 = Ok client_wire /\
  recvs (th_acts (w_threads w 0)) = [NetDatagram (client_wire ++ []) 5] /\ len (client_wire ++ []) <= 4096.
Proof.
  destruct (connection_new_ok real_prims true true sample_id 8 real_prims_ok ltac:(lia)) as [c0 EC].
  destruct (solo_opens real_prims true bind_socket client_wire 5 client_header c0 77 eq_refl client_wire_header eq_refl eq_refl EC eq_refl) as [acts [S [R [IN _]]]].
  destruct client_wire_sent as [c1 [R1 [SF [EN ES]]]].
  assert (ID : In (AInsert (U160 0 77) (QStream [] (set_scid c0 (U160 0 77) 8))) acts).
  { assert (I2 : In (U160 0 77, QStream [] (set_scid c0 (U160 0 77) 8)) (inserts acts)) by (rewrite IN; left; reflexivity).
    unfold inserts in I2. apply in_flat_map in I2 as [a [Ia I2]]. destruct a; try contradiction. destruct I2 as [I2|[]]. injection I2 as -> ->. exact Ia. }
  destruct (at_action real_prims true 0 [] start bind_socket CAccept acts _ _ _ (between_start _ _ _) I S ID) as [tr [w [w' [acts1 [acts2 [Ea [X1 [T [_ [_ [EA S1]]]]]]]]]]].
  exists tr, w. eexists. exists w', c1. split; [exact X1|]. split; [exact T|]. split; [exact S1|]. split; [exact R1|].
  split; [repeat split; vm_compute; (reflexivity || discriminate)|]. split; [exact SF|]. split; [apply bytes_ok_dec; reflexivity|].
  split.
  { split.
    - repeat constructor; cbn; unfold v62; try lia; try (vm_compute; (reflexivity || discriminate)).
    - intros pt E. vm_compute in E. injection E as <-. split; vm_compute; reflexivity. }
  split; [exact EN|]. split; [exact ES|]. split; [|vm_compute; discriminate].
  destruct (C73_only_initials_open real_prims true tr w 0 _ _ w' real_prims_ok X1 T S1) as [_ [_ [pre [data [addr [_ [_ [_ [_ [_ [E1 _]]]]]]]]]]].
  rewrite app_nil_r. eapply opening_recvs; [rewrite <- Ea; exact R|rewrite <- EA; exact E1|exact EA].
Qed.

(** ** C75: datagrams are delivered whole *)
(** What [accept] passes on to a connection is the datagram it just received. *)
Definition C75_statement : Prop := forall P oc tr w t k d w' pre data addr,
  prims_ok P -> execution P oc start tr w -> well_typed tr -> public_run tr ->
  th_call (w_threads w t) = Some CAccept -> recvs (th_acts (w_threads w t)) = pre ++ [NetDatagram data addr] ->
  step P oc w t (ASend k d) w' -> d = Datagram data addr.

(** It is its first 4096 bytes. *)
Theorem C75_first_4096 : forall P oc tr w t k d w' pre data addr,
  prims_ok P -> execution P oc start tr w -> well_typed tr ->
  th_call (w_threads w t) = Some CAccept -> recvs (th_acts (w_threads w t)) = pre ++ [NetDatagram data addr] ->
  step P oc w t (ASend k d) w' ->
  d_addr d = addr /\ (exists lost, data = d_data d ++ lost /\ len (d_data d) = N.min (len data) 4096) /\
  (len data <= 4096 <-> d = Datagram data addr).
Proof.
  intros P oc tr w t k d w' pre data addr HP X T EC ER S. pose proof (inv_reached P oc tr w HP X T) as W.
  pose proof (step_effect _ _ _ _ _ _ _ _ w t _ w' W S) as [c [Ec [[_ [[-> _]|[-> [pre' [data' [addr' [R [-> _]]]]]]]] _]]]; [congruence|].
  rewrite ER in R. apply app_inj_tail in R as [_ R]. injection R as <- <-. unfold seen. cbn [d_addr d_data].
  assert (L : len (firstn (N.to_nat 4096) data) = N.min (len data) 4096) by (unfold len; rewrite firstn_length; lia).
  split; [reflexivity|]. split.
  - exists (skipn (N.to_nat 4096) data). split; [symmetry; apply firstn_skipn|exact L].
  - split; intros H.
    + rewrite firstn_all2 by (unfold len in H; lia). reflexivity.
    + apply (f_equal (fun d => len (d_data d))) in H. cbn [d_data] in H. lia.
Qed.
Print Assumptions C75_first_4096.

(** A datagram of 4097 bytes loses its last one. *)
Definition big_datagram : list N := 0x40 :: be_bytes 8 77 ++ repeat 1 (N.to_nat 4088).
Lemma sample_sends data h : header_is (firstn (N.to_nat 4096) data) h -> get_destination_id h = U160 0 77 ->
  exists tr w w', execution real_prims true start tr w /\ well_typed tr /\ public_run tr /\
    th_call (w_threads w 0) = Some CAccept /\ recvs (th_acts (w_threads w 0)) = [NetDatagram data 9] /\
    step real_prims true w 0 (ASend (U160 0 77) (seen data 9)) w'.
Proof.
  intros HH Ed. destruct two_routed as [tr [w [c0 [acts [B _]]]]].
  match type of B with between _ _ _ _ _ ?kk => set (k := kk) in * end.
  destruct (solo_routes real_prims true k data 9 h (QStream [short_77; short_77b] (set_scid c0 (U160 0 77) 8)) eq_refl HH) as [a [S [R [SE _]]]].
  { rewrite Ed. reflexivity. }
  assert (ID : In (ASend (U160 0 77) (seen data 9)) a).
  { assert (I2 : In (get_destination_id h, seen data 9) (sends a)) by (rewrite SE; left; reflexivity).
    unfold sends in I2. apply in_flat_map in I2 as [x [Ix I2]]. destruct x; try contradiction. destruct I2 as [I2|[]]. injection I2 as -> ->. rewrite <- Ed. exact Ix. }
  destruct (at_action real_prims true 0 tr w k CAccept a _ _ _ B I S ID) as [tr' [w1 [w' [a1 [a2 [Ea [X1 [T [PR [EC [EA S1]]]]]]]]]]].
  exists tr', w1, w'. split; [exact X1|]. split; [exact T|]. split; [exact PR|]. split; [exact EC|]. split; [|exact S1].
  pose proof (inv_reached _ _ tr' w1 real_prims_ok X1 T) as W.
  pose proof (step_effect _ _ _ _ _ _ _ _ w1 0 _ w' W S1) as [c [Ec [[_ [[-> _]|[-> [pre' [data' [addr' [R' [_ _]]]]]]]] _]]]; [congruence|].
  eapply opening_recvs; [rewrite <- Ea; exact R|rewrite <- EA; exact R'|exact EA].
Qed.
Lemma big_datagram_header : header_is (firstn (N.to_nat 4096) big_datagram) (HShort (ShortHeader 0x40 (U160 0 77) true)).
Proof. eexists. vm_compute. reflexivity. Qed.

Theorem C75_whole_refuted : ~ C75_statement.
Proof.
  intros H. destruct (sample_sends big_datagram _ big_datagram_header eq_refl) as [tr [w [w' [X [T [PR [EC [R S]]]]]]]].
  specialize (H _ _ tr w 0 _ _ w' [] big_datagram 9 real_prims_ok X T PR EC R S). apply (f_equal (fun d => len (d_data d))) in H. vm_compute in H. discriminate H.
Qed.
Print Assumptions C75_whole_refuted.

(** What holds: up to 4096 bytes. *)
Theorem C75_whole_partial : forall P oc tr w t k d w' pre data addr,
  prims_ok P -> execution P oc start tr w -> well_typed tr ->
  th_call (w_threads w t) = Some CAccept -> recvs (th_acts (w_threads w t)) = pre ++ [NetDatagram data addr] ->
  step P oc w t (ASend k d) w' -> len data <= 4096 -> d = Datagram data addr.
Proof. intros P oc tr w t k d w' pre data addr HP X T EC ER S L. destruct (C75_first_4096 P oc tr w t k d w' pre data addr HP X T EC ER S) as [_ [_ H]]. apply H. exact L. Qed.
Print Assumptions C75_whole_partial.
Example C75_case : exists tr w w', execution real_prims true start tr w /\ well_typed tr /\
  th_call (w_threads w 0) = Some CAccept /\ recvs (th_acts (w_threads w 0)) = [NetDatagram (short_for 77) 9] /\
  step real_prims true w 0 (ASend (U160 0 77) (seen (short_for 77) 9)) w' /\ len (short_for 77) <= 4096.
Proof.
  destruct (sample_sends (short_for 77) (HShort (ShortHeader 0x40 (U160 0 77) true))) as [tr [w [w' [X [T [_ [EC [R S]]]]]]]].
  - exists [1; 2; 3]. vm_compute. reflexivity.
  - reflexivity.
  - exists tr, w, w'. repeat (split; [assumption|]). vm_compute. discriminate.
Qed.

(** ** C76, C80: which Initial packets open a connection *)
(** RFC 9000 section 14.1: a server discards an Initial packet in a datagram of
    fewer than 1200 bytes. *)
Definition C76_statement : Prop := forall P oc tr w t k s w' pre data addr,
  prims_ok P -> execution P oc start tr w -> well_typed tr -> public_run tr -> step P oc w t (AInsert k s) w' ->
  recvs (th_acts (w_threads w t)) = pre ++ [NetDatagram data addr] -> 1200 <= len data.
(** RFC 9000 section 7.2: the id the client chooses has at least 8 bytes. *)
Definition C80_statement : Prop := forall P oc tr w t k s w' pre data addr h,
  prims_ok P -> execution P oc start tr w -> well_typed tr -> public_run tr -> step P oc w t (AInsert k s) w' ->
  recvs (th_acts (w_threads w t)) = pre ++ [NetDatagram data addr] ->
  header_is (firstn (N.to_nat 4096) data) h -> 8 <= get_destination_id_length h.

(** Neither is checked: on its own, [accept] opens a connection for every datagram
    whose header reads as an Initial with an unknown destination. *)
Theorem C76_any_initial_opens : forall P oc t tr w k data addr h v, prims_ok P ->
  between P oc t tr w k -> log_traffic k = false ->
  header_is (firstn (N.to_nat 4096) data) h -> get_packet_type h = Ok TInitial ->
  get (streams k) (get_destination_id h) = None -> get (streams k) (u160_from_u64 v) = None ->
  exists tr' w1 s w2, execution P oc start tr' w1 /\ well_typed tr' /\ public_run tr' /\
    recvs (th_acts (w_threads w1 t)) = [NetDatagram data addr] /\ step P oc w1 t (AInsert (u160_from_u64 v) s) w2.
Proof.
  intros P oc t tr w k data addr h v HP B LG HH HT G1 G2.
  assert (EC : exists c0, connection_new P oc true V1 (get_destination_id h) (get_destination_id_length h) = Ok c0).
  { destruct HH as [rest HH]. destruct (next_header_total (firstn (N.to_nat 4096) data)) as [[h' [r' [ty [E [HT' L]]]]]|[e E]]; [|congruence].
    rewrite HH in E. injection E as <- <-. apply connection_new_ok; auto. apply L. congruence. }
  destruct EC as [c0 EC].
  destruct (solo_opens P oc k data addr h c0 v LG HH HT G1 EC G2) as [acts [S [R [IN _]]]].
  assert (ID : In (AInsert (u160_from_u64 v) (QStream [] (set_scid c0 (u160_from_u64 v) 8))) acts).
  { assert (I2 : In (u160_from_u64 v, QStream [] (set_scid c0 (u160_from_u64 v) 8)) (inserts acts)) by (rewrite IN; left; reflexivity).
    unfold inserts in I2. apply in_flat_map in I2 as [a [Ia I2]]. destruct a; try contradiction. destruct I2 as [I2|[]]. injection I2 as -> ->. exact Ia. }
  destruct (at_action P oc t tr w k CAccept acts _ _ _ B I S ID) as [tr' [w1 [w' [a1 [a2 [Ea [X1 [T [PR [_ [EA S1]]]]]]]]]]].
  exists tr', w1. eexists. exists w'. split; [exact X1|]. split; [exact T|]. split; [exact PR|]. split; [|exact S1].
  destruct (C73_only_initials_open P oc tr' w1 t _ _ w' HP X1 T S1) as [_ [_ [pre [data' [addr' [_ [_ [_ [_ [_ [E1 _]]]]]]]]]]].
  eapply opening_recvs; [rewrite <- Ea; exact R|rewrite <- EA; exact E1|exact EA].
Qed.
Print Assumptions C76_any_initial_opens.

(** Seven bytes suffice: an Initial header with two empty ids and nothing else. *)
Definition tiny_initial : list N := [0xc0; 0; 0; 0; 1; 0; 0].
Lemma tiny_header : header_is (firstn (N.to_nat 4096) tiny_initial) (HLong (LongHeader 0xc0 1 0 (U160 0 0) 0 (U160 0 0) None true)).
Proof. exists []. vm_compute. reflexivity. Qed.

Theorem C76_size_refuted : ~ C76_statement.
Proof.
  intros H. destruct (C76_any_initial_opens real_prims true 0 [] start bind_socket tiny_initial 5 _ 77 real_prims_ok (between_start _ _ _) eq_refl tiny_header eq_refl eq_refl eq_refl)
    as [tr [w [s [w' [X [T [PR [R S]]]]]]]].
  specialize (H _ _ tr w 0 _ _ w' [] tiny_initial 5 real_prims_ok X T PR S R). vm_compute in H. apply H. reflexivity.
Qed.
Print Assumptions C76_size_refuted.
Theorem C80_id_length_refuted : ~ C80_statement.
Proof.
  intros H. destruct (C76_any_initial_opens real_prims true 0 [] start bind_socket tiny_initial 5 _ 77 real_prims_ok (between_start _ _ _) eq_refl tiny_header eq_refl eq_refl eq_refl)
    as [tr [w [s [w' [X [T [PR [R S]]]]]]]].
  specialize (H _ _ tr w 0 _ _ w' [] tiny_initial 5 _ real_prims_ok X T PR S R tiny_header). vm_compute in H. apply H. reflexivity.
Qed.
Print Assumptions C80_id_length_refuted.

(** What holds: the datagram contains a whole Initial header, so it is at least 7
    bytes long and the ids are at most 20 bytes. *)
Theorem C76_whole_header_partial : forall P oc tr w t k s w' pre data addr,
  prims_ok P -> execution P oc start tr w -> well_typed tr -> step P oc w t (AInsert k s) w' ->
  recvs (th_acts (w_threads w t)) = pre ++ [NetDatagram data addr] -> bytes_ok data ->
  exists b fields rest h, data = b :: fields ++ rest /\ 128 <= b < 256 /\ (b / 16) mod 4 = 0 /\ lh_version h <> 0 /\
    long_fields h fields /\ lh_dcid_len h <= 20 /\ lh_scid_len h <= 20 /\
    7 + lh_dcid_len h + lh_scid_len h <= len data.
Proof.
  intros P oc tr w t k s w' pre data addr HP X T S ER BO.
  destruct (C73_only_initials_open P oc tr w t k s w' HP X T S) as [_ [_ [pre' [data' [addr' [h [T0 [mr [c0 [v [E1 [[r E2] [E3 _]]]]]]]]]]]]].
  rewrite ER in E1. apply app_inj_tail in E1 as [_ E1]. injection E1 as <- <-.
  pose proof (firstn_skipn (N.to_nat 4096) data) as FS. pose proof (bytes_ok_firstn (N.to_nat 4096) data BO) as BF.
  destruct (firstn (N.to_nat 4096) data) as [|b s1] eqn:EF; [discriminate E2|].
  apply bytes_ok_cons in BF as [Hb BF]. unfold next_header_from_stream in E2. cbn [next bind] in E2. rewrite land_128 in E2 by exact Hb.
  destruct (N.leb_spec 128 b) as [Lb|Lb].
  - cbn [N.eqb] in E2. change (128 =? 128) with true in E2. destruct (long_from_stream b s1) as [[x r1]| | |] eqn:EL; try discriminate E2. cbn [bind] in E2.
    injection E2 as <- <-. cbn [get_packet_type] in E3. rewrite packet_type_cases in E3.
    destruct (long_inv _ _ _ _ BF EL) as [Eb [[NV [VN [_ [fields [Es1 HF]]]]]|[V0 _]]].
    2:{ rewrite V0 in E3. discriminate E3. }
    destruct (N.eqb_spec (lh_version x) 0) as [|_]; [contradiction|]. rewrite Eb in E3.
    exists b, fields, (r1 ++ skipn (N.to_nat 4096) data), x.
    assert (ED : data = b :: fields ++ r1 ++ skipn (N.to_nat 4096) data) by (rewrite <- FS, Es1 at 1; cbn [app]; rewrite <- app_assoc; reflexivity).
    split; [exact ED|]. split; [lia|]. split; [destruct ((b / 16) mod 4) as [|[|[]|]]; (reflexivity || discriminate E3)|].
    split; [exact NV|]. split; [exact HF|]. destruct HF as [vv [dd [ss [[_ [Lv _]] [L1 [[_ [_ [Ld _]]] [L2 [[_ [_ [Ls _]]] ->]]]]]]]].
    split; [exact L1|]. split; [exact L2|]. rewrite ED. unfold len in *. cbn [List.length]. rewrite !app_length. cbn [List.length]. rewrite app_length. cbn [List.length]. lia.
  - cbn in E2. destruct (short_from_stream b s1) as [[x r1]| | |]; try discriminate E2. injection E2 as <- <-. discriminate E3.
Qed.
Print Assumptions C76_whole_header_partial.
Example C76_case : exists tr w s w', execution real_prims true start tr w /\ well_typed tr /\ step real_prims true w 0 (AInsert (U160 0 77) s) w' /\
  recvs (th_acts (w_threads w 0)) = [NetDatagram tiny_initial 5] /\ bytes_ok tiny_initial /\ len tiny_initial = 7.
Proof.
  destruct (C76_any_initial_opens real_prims true 0 [] start bind_socket tiny_initial 5 _ 77 real_prims_ok (between_start _ _ _) eq_refl tiny_header eq_refl eq_refl eq_refl)
    as [tr [w [s [w' [X [T [PR [R S]]]]]]]].
  exists tr, w, s, w'. repeat (split; [assumption|]). split; [apply bytes_ok_dec; reflexivity|reflexivity].
Qed.
