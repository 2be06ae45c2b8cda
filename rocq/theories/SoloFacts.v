(** Executions in which one thread runs and the others hold no lock. *)
From Verif Require Import Base Utils Frame CipherSuite Secrets Connection Packet Routing Threads
  Spec SpecPacket SpecRouting Tactics UtilsFacts HeaderFacts ConnectionFacts Printing RoutingFacts RoutingSafe.

Section Solo.
Variables (P : prims) (oc : bool).

(** Program and guards before; what was done; program and guards after. *)
Inductive solo : isocket -> prog -> list (lock * mode) -> list action ->
                 isocket -> prog -> list (lock * mode) -> Prop :=
| so_nil : forall k p held, solo k p held [] k p held
| so_data : forall k p held a k1 p1 acts k2 p2 held2,
    pstep P oc k p a k1 p1 -> solo k1 p1 held acts k2 p2 held2 -> solo k p held (a :: acts) k2 p2 held2
| so_acq : forall k l m p held acts k2 p2 held2,
    (forall m', ~ In (l, m') held) -> solo k p ((l, m) :: held) acts k2 p2 held2 ->
    solo k (Acq l m p) held (AAcq l m :: acts) k2 p2 held2
| so_rel : forall k l m p held acts k2 p2 held2,
    solo k p held acts k2 p2 held2 -> solo k (Rel l p) ((l, m) :: held) (ARel l :: acts) k2 p2 held2
| so_panic : forall k why held, no_excl held ->
    solo k (Crash why) held [APanic why] k (Done (RPanic why)) [].

Lemma solo_app k p h a k1 p1 h1 b k2 p2 h2 :
  solo k p h a k1 p1 h1 -> solo k1 p1 h1 b k2 p2 h2 -> b = [] \/ (forall r, p1 <> Done r) ->
  solo k p h (a ++ b) k2 p2 h2.
Proof.
  intros S S2 N. revert S2 N. induction S; intros S2 N; cbn [app]; auto.
  - eapply so_data; eauto.
  - apply so_acq; eauto.
  - apply so_rel; eauto.
  - destruct N as [->|N]; [inversion S2; subst; constructor; auto|]. exfalso. eapply N. reflexivity.
Qed.

Lemma execution_app w a w1 b w2 : execution P oc w a w1 -> execution P oc w1 b w2 -> execution P oc w (a ++ b) w2.
Proof.
  intros A B. induction B as [|tr w3 t x w4 B IH S]; [rewrite app_nil_r; exact A|].
  rewrite app_assoc. eapply ex_snoc; eauto.
Qed.
Lemma execution_one w t a w1 : step P oc w t a w1 -> execution P oc w [(t, a)] w1.
Proof. intros S. apply (ex_snoc P oc w [] w t a w1 (ex_nil P oc w) S). Qed.
Lemma execution_cons w t a w1 tr w2 : step P oc w t a w1 -> execution P oc w1 tr w2 -> execution P oc w ((t, a) :: tr) w2.
Proof. intros S X. apply (execution_app w [(t, a)] w1 tr w2); auto. apply execution_one. exact S. Qed.

(** Nobody else holds a lock, nothing is poisoned. *)
Definition alone (t : N) (w : world) : Prop :=
  (forall t', t' <> t -> th_held (w_threads w t') = []) /\ (forall l, w_poisoned w l = false).

Lemma solo_execution k p h acts k2 p2 h2 : solo k p h acts k2 p2 h2 ->
  forall w t c acts0, w_sock w = k -> w_threads w t = Thread p h c acts0 -> alone t w ->
  exists w', execution P oc w (map (pair t) acts) w' /\ w_sock w' = k2 /\
    w_threads w' t = Thread p2 h2 c (acts0 ++ acts) /\ (forall t', t' <> t -> w_threads w' t' = w_threads w t') /\ alone t w'.
Proof.
  intros S. induction S as [k p held|k p held a k1 p1 acts k2 p2 held2 PS S IH|k l m p held acts k2 p2 held2 NI S IH
    |k l m p held acts k2 p2 held2 S IH|k why held NE]; intros w t c acts0 EK ET A.
  - exists w. rewrite app_nil_r. split; [constructor|auto].
  - subst k. pose proof (s_data P oc w t p a k1 p1) as ST. rewrite ET in ST. cbn [th_prog th_held th_call th_acts] in ST.
    specialize (ST eq_refl PS).
    destruct (IH (World k1 (set_thread (w_threads w) t (Thread p1 held c (acts0 ++ [a]))) (w_poisoned w)) t c (acts0 ++ [a]))
      as [w' [X [EK' [ET' [O A']]]]].
    + reflexivity.
    + apply set_thread_same.
    + split; [|apply A]. intros t' N. cbn [w_threads]. rewrite set_thread_other by auto. apply A. exact N.
    + exists w'. split; [eapply execution_cons; eauto|]. split; [exact EK'|]. split; [rewrite ET', <- app_assoc; reflexivity|].
      split; [|exact A']. intros t' N. rewrite O by auto. cbn [w_threads]. apply set_thread_other. exact N.
  - subst k. pose proof (s_acq P oc w t l m p) as ST. rewrite ET in ST. cbn [th_prog th_held th_call th_acts] in ST.
    specialize (ST eq_refl (proj2 A l)).
    assert (G : grantable w l m).
    { intros t' m' H. destruct (N.eq_dec t' t) as [->|N].
      - rewrite ET in H. cbn in H. exfalso. exact (NI m' H).
      - rewrite (proj1 A t' N) in H. contradiction. }
    specialize (ST G).
    destruct (IH (World (w_sock w) (set_thread (w_threads w) t (Thread p ((l, m) :: held) c (acts0 ++ [AAcq l m]))) (w_poisoned w))
      t c (acts0 ++ [AAcq l m])) as [w' [X [EK' [ET' [O A']]]]].
    + reflexivity.
    + apply set_thread_same.
    + split; [|apply A]. intros t' N. cbn [w_threads]. rewrite set_thread_other by auto. apply A. exact N.
    + exists w'. split; [eapply execution_cons; eauto|]. split; [exact EK'|]. split; [rewrite ET', <- app_assoc; reflexivity|].
      split; [|exact A']. intros t' N. rewrite O by auto. cbn [w_threads]. apply set_thread_other. exact N.
  - subst k. pose proof (s_rel P oc w t l m p held) as ST. rewrite ET in ST. cbn [th_prog th_held th_call th_acts] in ST.
    specialize (ST eq_refl eq_refl).
    destruct (IH (World (w_sock w) (set_thread (w_threads w) t (Thread p held c (acts0 ++ [ARel l]))) (w_poisoned w))
      t c (acts0 ++ [ARel l])) as [w' [X [EK' [ET' [O A']]]]].
    + reflexivity.
    + apply set_thread_same.
    + split; [|apply A]. intros t' N. cbn [w_threads]. rewrite set_thread_other by auto. apply A. exact N.
    + exists w'. split; [eapply execution_cons; eauto|]. split; [exact EK'|]. split; [rewrite ET', <- app_assoc; reflexivity|].
      split; [|exact A']. intros t' N. rewrite O by auto. cbn [w_threads]. apply set_thread_other. exact N.
  - subst k. pose proof (s_panic P oc w t why) as ST. rewrite ET in ST. cbn [th_prog th_held th_call th_acts] in ST.
    specialize (ST eq_refl). eexists. split; [apply execution_one; exact ST|]. split; [reflexivity|].
    split; [apply set_thread_same|]. split; [intros t' N; apply set_thread_other; exact N|].
    split.
    + intros t' N. cbn [w_threads]. rewrite set_thread_other by auto. apply A. exact N.
    + intros l. cbn [w_poisoned]. unfold poison. rewrite (proj2 A l). cbn.
      destruct (existsb _ _) eqn:E; [|reflexivity]. exfalso. apply existsb_exists in E as [[l' m'] [Hin E]].
      cbn in E. destruct m'; [discriminate|]. apply (NE l'). exact Hin.
Qed.

(** A whole call of thread [t], made while it is alone. *)
Lemma solo_call w t c r0 k p acts : th_prog (w_threads w t) = Done r0 -> th_held (w_threads w t) = [] -> alone t w ->
  solo (w_sock w) (entry oc c) [] acts k p [] ->
  exists w', execution P oc w ((t, ACall c) :: map (pair t) acts) w' /\ w_sock w' = k /\
    w_threads w' t = Thread p [] (Some c) acts /\ (forall t', t' <> t -> w_threads w' t' = w_threads w t') /\ alone t w'.
Proof.
  intros D H A S.
  pose proof (s_call P oc w t c r0 D) as ST. rewrite H in ST.
  destruct (solo_execution _ _ _ _ _ _ _ S
    (World (w_sock w) (set_thread (w_threads w) t (Thread (entry oc c) [] (Some c) [])) (w_poisoned w)) t (Some c) [])
    as [w' [X [EK [ET [O A']]]]].
  - reflexivity.
  - apply set_thread_same.
  - split; [|apply A]. intros t' N. cbn [w_threads]. rewrite set_thread_other by auto. apply A. exact N.
  - exists w'. split; [eapply execution_cons; eauto|]. split; [exact EK|]. split; [exact ET|]. split; [|exact A'].
    intros t' N. rewrite O by auto. cbn [w_threads]. apply set_thread_other. exact N.
Qed.

Ltac data := eapply so_data; [constructor|].
Ltac fresh_lock := intros ? X; cbn in X; repeat (destruct X as [X|X]; [discriminate|]); contradiction.

(** Accept, when a new client's Initial arrives, registers it and panics. *)
Lemma solo_opens k data addr h c0 v : log_traffic k = false ->
  header_is (firstn (N.to_nat 4096) data) h -> get_packet_type h = Ok TInitial ->
  get (streams k) (get_destination_id h) = None ->
  connection_new P oc true V1 (get_destination_id h) (get_destination_id_length h) = Ok c0 ->
  get (streams k) (u160_from_u64 v) = None ->
  exists acts,
    solo k (Goto LpReceive) [] acts
      (ISocket (insert_key (streams k) (u160_from_u64 v) (QStream [] (set_scid c0 (u160_from_u64 v) 8))) false (printed k))
      (Done (RPanic "not yet implemented")) [] /\
    recvs acts = [NetDatagram data addr] /\ inserts acts = [(u160_from_u64 v, QStream [] (set_scid c0 (u160_from_u64 v) 8))] /\
    ~ In (ARand None) acts.
Proof.
  intros LG [rest HH] HT G HC GV. eexists. split.
  - data. unfold code, recv_new_initial_datagram, recv_datagram.
    apply so_acq; [fresh_lock|]. eapply so_data; [apply (p_recv P oc k _ (NetDatagram data addr))|]. cbv beta iota zeta.
    apply so_acq; [fresh_lock|]. data. rewrite LG. apply so_rel. apply so_rel. cbn [d_data].
    unfold RECV_BUFFER. rewrite (parse_header_ok _ _ _ _ _ HH). unfold unwrap_or_crash at 1. rewrite HT. cbn [lift].
    apply so_acq; [fresh_lock|]. data. apply so_rel.
    unfold contains_key at 1. rewrite G. cbn [negb]. unfold accept_with. cbn [d_data]. rewrite (parse_header_ok _ _ _ _ _ HH).
    unfold unwrap_or_crash at 1. rewrite HC. cbn [lift]. data. unfold code, choose_key, get_connection_id.
    eapply so_data; [apply (p_rand P oc k _ (Some v))|]. cbv beta iota zeta.
    apply so_acq; [fresh_lock|]. data. unfold contains_key at 1. rewrite GV. cbn [negb].
    apply so_acq; [fresh_lock|]. apply so_rel. unfold from_connection. cbn [q_queue q_conn].
    data. cbn [streams log_traffic printed]. rewrite LG. apply so_rel. apply so_acq; [fresh_lock|]. data. cbn [streams].
    rewrite get_insert, u160_eqb_refl. apply so_rel. apply so_panic. intros l [].
  - split; [reflexivity|]. split; [reflexivity|]. cbn. intuition discriminate.
Qed.

(** Accept, when a datagram for a registered connection arrives, queues it. *)
Lemma solo_routes k data addr h s : log_traffic k = false ->
  header_is (firstn (N.to_nat 4096) data) h -> get (streams k) (get_destination_id h) = Some s ->
  exists acts,
    solo k (Goto LpReceive) [] acts
      (ISocket (send_key (streams k) (get_destination_id h) (seen data addr)) false (printed k)) (Goto LpReceive) [] /\
    recvs acts = [NetDatagram data addr] /\ sends acts = [(get_destination_id h, seen data addr)] /\
    inserts acts = [] /\ removes acts = [].
Proof.
  intros LG [rest HH] G.
  destruct (next_header_total (firstn (N.to_nat 4096) data)) as [[h' [rest' [ty [E [HT _]]]]]|[e E]]; [|congruence].
  rewrite HH in E. injection E as <- <-.
  assert (RT : exists acts, solo k (route_datagram (Datagram (firstn (N.to_nat 4096) data) addr)
      (fun r => unwrap_or_crash r (fun _ => Goto LpReceive))) [] acts
      (ISocket (send_key (streams k) (get_destination_id h) (seen data addr)) false (printed k)) (Goto LpReceive) [] /\
      recvs acts = [] /\ sends acts = [(get_destination_id h, seen data addr)] /\ inserts acts = [] /\ removes acts = []).
  { eexists. split.
    - unfold route_datagram. cbn [d_data]. rewrite (parse_header_ok _ _ _ _ _ HH). apply so_acq; [fresh_lock|]. data. rewrite G.
      eapply so_data; [eapply p_send; exact G|]. rewrite LG. apply so_rel. cbn [unwrap_or_crash lift]. apply so_nil.
    - repeat split. }
  destruct RT as [acts0 [RT [R1 [R2 [R3 R4]]]]].
  assert (PRE : forall p acts2, solo k p [] acts2 (ISocket (send_key (streams k) (get_destination_id h) (seen data addr)) false (printed k)) (Goto LpReceive) [] ->
     p = (unwrap_or_crash (get_packet_type h) (fun packet_type =>
             match packet_type with
             | TInitial =>
                 Acq LStreams Shared (LookTable (fun T =>
                   Rel LStreams (if (negb (contains_key T (get_destination_id h))) then accept_with P oc (IoOk (Datagram (firstn (N.to_nat 4096) data) addr))
                     else route_datagram (Datagram (firstn (N.to_nat 4096) data) addr) (fun r => unwrap_or_crash r (fun _ => Goto LpReceive)))))
             | _ => route_datagram (Datagram (firstn (N.to_nat 4096) data) addr) (fun r => unwrap_or_crash r (fun _ => Goto LpReceive))
             end)) ->
     solo k (Goto LpReceive) [] (AGoto LpReceive :: AAcq LSocket Exclusive :: ARecv (NetDatagram data addr) :: AAcq LLog Shared ::
       ALookLog (log_traffic k) :: ARel LLog :: ARel LSocket :: acts2)
       (ISocket (send_key (streams k) (get_destination_id h) (seen data addr)) false (printed k)) (Goto LpReceive) []).
  { intros p acts2 S ->. data. unfold code, recv_new_initial_datagram, recv_datagram.
    apply so_acq; [fresh_lock|]. eapply so_data; [apply (p_recv P oc k _ (NetDatagram data addr))|]. cbv beta iota zeta.
    apply so_acq; [fresh_lock|]. data. rewrite LG. apply so_rel. apply so_rel. cbn [d_data].
    unfold RECV_BUFFER. rewrite (parse_header_ok _ _ _ _ _ HH). exact S. }
  assert (D : ty = TInitial \/ ty <> TInitial) by (destruct ty; auto; right; discriminate). destruct D as [->|D].
  - eexists. split; [eapply PRE; [|reflexivity]|].
    + unfold unwrap_or_crash at 1. rewrite HT. cbn [lift]. apply so_acq; [fresh_lock|]. data. apply so_rel.
      unfold contains_key. rewrite G. cbn [negb]. exact RT.
    + cbn [recvs sends inserts removes flat_map app]. fold (recvs acts0) (sends acts0) (inserts acts0) (removes acts0).
      rewrite R1, R2, R3, R4. auto.
  - eexists. split; [eapply PRE; [|reflexivity]|].
    + unfold unwrap_or_crash at 1. rewrite HT. cbn [lift]. destruct ty; try contradiction; exact RT.
    + cbn [recvs sends inserts removes flat_map app]. fold (recvs acts0) (sends acts0) (inserts acts0) (removes acts0).
      rewrite R1, R2, R3, R4. auto.
Qed.

(** Accept, when a datagram arrives that is neither, panics. *)
Definition lost (T : table) (data : list N) : Prop :=
  (forall h, ~ header_is data h) \/
  (exists h, header_is data h /\ get_packet_type h <> Ok TInitial /\ get T (get_destination_id h) = None).

Lemma solo_crashes k data addr : log_traffic k = false -> lost (streams k) (firstn (N.to_nat 4096) data) ->
  exists acts k' why, solo k (Goto LpReceive) [] acts k' (Done (RPanic why)) [] /\ streams k' = streams k /\
    recvs acts = [NetDatagram data addr] /\ inserts acts = [] /\ sends acts = [] /\ ~ In (ARand None) acts.
Proof.
  intros LG U.
  assert (PRE : forall p acts2 k2 r,
     parse (next_header_said (firstn (N.to_nat 4096) data))
          (fun e => Print (LogError e) (route_datagram (Datagram (firstn (N.to_nat 4096) data) addr) (fun r => unwrap_or_crash r (fun _ => Goto LpReceive))))
          (fun '(h, _) => unwrap_or_crash (get_packet_type h) (fun packet_type =>
             match packet_type with
             | TInitial =>
                 Acq LStreams Shared (LookTable (fun T =>
                   Rel LStreams (if (negb (contains_key T (get_destination_id h))) then accept_with P oc (IoOk (Datagram (firstn (N.to_nat 4096) data) addr))
                     else route_datagram (Datagram (firstn (N.to_nat 4096) data) addr) (fun r => unwrap_or_crash r (fun _ => Goto LpReceive)))))
             | _ => route_datagram (Datagram (firstn (N.to_nat 4096) data) addr) (fun r => unwrap_or_crash r (fun _ => Goto LpReceive))
             end)) = p ->
     solo k p [] acts2 k2 r [] ->
     solo k (Goto LpReceive) [] (AGoto LpReceive :: AAcq LSocket Exclusive :: ARecv (NetDatagram data addr) :: AAcq LLog Shared ::
       ALookLog (log_traffic k) :: ARel LLog :: ARel LSocket :: acts2) k2 r []).
  { intros p acts2 k2 r <- S. data. unfold code, recv_new_initial_datagram, recv_datagram.
    apply so_acq; [fresh_lock|]. eapply so_data; [apply (p_recv P oc k _ (NetDatagram data addr))|]. cbv beta iota zeta.
    apply so_acq; [fresh_lock|]. data. rewrite LG. apply so_rel. apply so_rel. cbn [d_data]. exact S. }
  destruct (next_header_total (firstn (N.to_nat 4096) data)) as [[h [rest [ty [E [HT _]]]]]|[e E]].
  - destruct U as [U|[h' [[r' H'] [NT G]]]]; [exfalso; apply (U h); exists rest; exact E|].
    rewrite E in H'. injection H' as <- <-.
    do 3 eexists. split; [eapply PRE; [rewrite (parse_header_ok _ _ _ _ _ E); unfold unwrap_or_crash at 1; rewrite HT; cbn [lift]; reflexivity|]|].
    + instantiate (1 := "unwrap on Err"%string). instantiate (1 := k).
      instantiate (1 := [AAcq LStreams Shared; ALook (streams k); ARel LStreams; APanic "unwrap on Err"]).
      destruct ty; try congruence; unfold route_datagram; cbn [d_data]; rewrite (parse_header_ok _ _ _ _ _ E);
        (apply so_acq; [fresh_lock|]; data; rewrite G; apply so_rel; cbn [unwrap_or_crash lift]; apply so_panic; intros l []).
    + repeat split. cbn. intuition discriminate.
  - match type of PRE with forall p _ _ _, parse ?m ?oe ?kk = p -> _ => pose proof (parse_header (firstn (N.to_nat 4096) data) oe kk) as PH end.
    assert (RT : forall k0, exists acts k' why, solo k0 (route_datagram (Datagram (firstn (N.to_nat 4096) data) addr)
        (fun r => unwrap_or_crash r (fun _ => Goto LpReceive))) [] acts k' (Done (RPanic why)) [] /\ streams k' = streams k0 /\
      recvs acts = [] /\ inserts acts = [] /\ sends acts = [] /\ ~ In (ARand None) acts).
    { intros k0. unfold route_datagram. cbn [d_data].
      match goal with |- context [parse (next_header_said ?s) ?oe ?kk] =>
        destruct (parse_header s oe kk) as [[h [r [t [E' _]]]]|[e' [E' [X|[i X]]]]]; [congruence|rewrite X..] end;
      cbn [unwrap_or_crash lift].
      - do 3 eexists. split; [apply so_panic; intros l []|]. repeat split. cbn. intuition discriminate.
      - do 3 eexists. split; [data; apply so_panic; intros l []|]. repeat split. cbn. intuition discriminate. }
    destruct PH as [[h [r [t [E' _]]]]|[e' [E' [X|[i X]]]]]; [congruence| |].
    + destruct (RT (ISocket (streams k) (log_traffic k) (printed k ++ [LogError e']))) as [acts [k' [why [S [S1 [S2 [S3 [S4 S5]]]]]]]].
      do 3 eexists. split; [eapply PRE; [exact X|]; data; exact S|]. split; [exact S1|].
      cbn [recvs inserts sends flat_map app]. fold (recvs acts) (inserts acts) (sends acts). rewrite S2, S3, S4.
      repeat split. cbn. intuition discriminate.
    + destruct (RT (ISocket (streams k) (log_traffic k) ((printed k ++ [LogShort i]) ++ [LogError e']))) as [acts [k' [why [S [S1 [S2 [S3 [S4 S5]]]]]]]].
      do 3 eexists. split; [eapply PRE; [exact X|]; data; data; exact S|]. split; [exact S1|].
      cbn [recvs inserts sends flat_map app]. fold (recvs acts) (inserts acts) (sends acts). rewrite S2, S3, S4.
      repeat split. cbn. intuition discriminate.
Qed.

(** Routing a datagram. *)
Lemma solo_route_call k d h s : header_is (d_data d) h -> get (streams k) (get_destination_id h) = Some s ->
  exists acts, solo k (entry oc (CRoute d)) [] acts
    (ISocket (send_key (streams k) (get_destination_id h) d) (log_traffic k) (printed k)) (Done (RUnit (Ok tt))) [] /\
    sends acts = [(get_destination_id h, d)].
Proof.
  intros [rest HH] G. eexists. split.
  - unfold entry, route_datagram. rewrite (parse_header_ok _ _ _ _ _ HH). apply so_acq; [fresh_lock|]. data. rewrite G.
    eapply so_data; [eapply p_send; exact G|]. apply so_rel. apply so_nil.
  - reflexivity.
Qed.

(** Dropping a stream. *)
Lemma solo_drops k cid : exists acts,
  solo k (drop_prog cid) [] acts (ISocket (remove_key (streams k) cid) (log_traffic k) (printed k)) (Done RNothing) [].
Proof.
  eexists. unfold drop_prog. apply so_acq; [fresh_lock|]. data. apply so_rel. apply so_nil.
Qed.

End Solo.
