(** Property C109: the ids of new connections. *)
From Verif Require Import Base Utils Frame CipherSuite Secrets Connection Packet Printing Routing Threads
  Spec SpecPacket SpecRouting Tactics UtilsFacts HeaderFacts PacketFacts ConnectionFacts DecodeFacts PrintingFacts
  RoutingFacts RoutingSafe SoloFacts LocalFacts CryptoInst SampleRuns PropRouting PropThreads PropRouteWire PropIntake.

(** What is known of the last number drawn. *)
Inductive draw := NoDraw | Drawn (v : N) | NotDrawn.

(** [p] registers connections only under the number drawn last, and draws again
    only after a look at a table that has a connection under that number. *)
Fixpoint drawing (p : prog) (st : draw) : Prop :=
  match p with
  | Done _ | Crash _ | Hang => True
  | Acq _ _ p | Rel _ p | Remove _ p | Send _ _ p | SetLog _ p | Print _ p => drawing p st
  | Insert key _ p => (exists v, st = Drawn v /\ key = u160_from_u64 v) /\ drawing p st
  | LookTable f => forall T, drawing (f T)
      (match st with Drawn v => if contains_key T (u160_from_u64 v) then NoDraw else st | _ => st end)
  | LookLog f => forall b, drawing (f b) st
  | RecvFrom f => forall ev, drawing (f ev) st
  | Rand f => st = NoDraw /\ forall r, drawing (f r) (match r with Some v => Drawn v | None => NotDrawn end)
  | Goto _ => st = NoDraw
  end.

Lemma route_drawing d k : (forall r, drawing (k r) NoDraw) -> drawing (route_datagram d k) NoDraw.
Proof.
  intros K. unfold route_datagram. header_cases h r EH; cbn; auto.
  intros T. destruct (get T (get_destination_id h)); cbn; auto.
Qed.
Lemma loop_drawing P oc l : drawing (code P oc l) NoDraw.
Proof.
  assert (ROUTE : forall d, drawing (route_datagram d (fun r => unwrap_or_crash r (fun _ => Goto LpReceive))) NoDraw).
  { intros d. apply route_drawing. intros [x|e|w|]; cbn; auto. }
  destruct l; cbn [code].
  - unfold recv_new_initial_datagram, recv_datagram. cbn [drawing].
    intros [sent addr|e]; cbn [drawing accept_with]; auto. intros flag.
    assert (R : drawing (let after ret := if ret : bool then accept_with P oc (IoOk (Datagram (firstn (N.to_nat RECV_BUFFER) sent) addr))
         else route_datagram (Datagram (firstn (N.to_nat RECV_BUFFER) sent) addr) (fun r => unwrap_or_crash r (fun _ => Goto LpReceive)) in
       parse (next_header_said (firstn (N.to_nat RECV_BUFFER) sent))
          (fun e => Print (LogError e) (after false))
          (fun '(x, _) => unwrap_or_crash (get_packet_type x) (fun packet_type =>
             match packet_type with
             | TInitial =>
                 Acq LStreams Shared (LookTable (fun T =>
                   Rel LStreams (after (negb (contains_key T (get_destination_id x))))))
             | _ => after false
             end))) NoDraw).
    { cbv zeta. header_cases x r EH; cbn [drawing]; auto.
      unfold unwrap_or_crash; rewrite ET; cbn [lift drawing]; auto.
      destruct t; auto. cbn [drawing]. intros T.
      destruct (negb _); auto. unfold accept_with. cbn [d_data]. rewrite (parse_header_ok _ _ _ _ _ EH). unfold unwrap_or_crash. cbn [lift].
      destruct (connection_new _ _ _ _ _ _); cbn; auto. }
    destruct flag; cbn [drawing]; [log_cases EN; cbn [drawing]|]; exact R.
  - unfold choose_key, get_connection_id. cbn [drawing]. split; [reflexivity|]. intros [v|]; cbn [drawing]; auto. intros T.
    destruct (contains_key T (u160_from_u64 v)); cbn [negb drawing]; auto.
    split; [eauto|]. intros T'. destruct (get T' _); cbn; auto.
Qed.
Lemma entry_drawing oc c : drawing (entry oc c) NoDraw.
Proof.
  destruct c; cbn [entry accept_prog connect_prog drop_prog set_log_prog drawing]; auto.
  - apply route_drawing. intros r. exact I.
  - unfold packets_from_datagram. header_cases h r EH; cbn [drawing]; auto.
    intros T. destruct (get T (get_destination_id h)); cbn [drawing]; auto.
    packets_cases; (destruct (decode_packets oc _ _); cbn [lift drawing]; auto; intros [|]; cbn; auto).
Qed.

(** What a thread did since its call began: every draw but the last was found
    in a table it looked at later. *)
Definition taken (r : option N) (b : list action) : Prop :=
  exists v T, r = Some v /\ In (ALook T) b /\ get T (u160_from_u64 v) <> None.
Definition settled (acts : list action) (st : draw) : Prop :=
  (forall a r b, acts = a ++ ARand r :: b ->
     (rands b = [] /\ st = match r with Some v => Drawn v | None => NotDrawn end) \/ taken r b) /\
  match st with Drawn v => exists pre, rands acts = pre ++ [Some v] | _ => True end.

Lemma snoc_split {A} (acts : list A) x a r b : acts ++ [x] = a ++ r :: b ->
  (b = [] /\ x = r /\ acts = a) \/ exists b', b = b' ++ [x] /\ acts = a ++ r :: b'.
Proof.
  intros E. destruct (exists_last (l := r :: b)) as [b' [y Eb]]; [discriminate|].
  rewrite Eb, app_assoc in E. apply app_inj_tail in E as [-> ->]. destruct b' as [|z b'].
  - injection Eb as -> ->. left. rewrite app_nil_r. auto.
  - injection Eb as -> ->. right. exists b'. auto.
Qed.

Lemma settled_quiet acts st x : (forall r, x <> ARand r) -> settled acts st -> settled (acts ++ [x]) st.
Proof.
  intros N [S R]. split.
  - intros a r b E. apply snoc_split in E as [[-> [-> ->]]|[b' [-> ->]]]; [exfalso; eapply N; reflexivity|].
    destruct (S _ _ _ eq_refl) as [[E1 E2]|[v [T [E1 [E2 E3]]]]].
    + left. split; [|exact E2]. rewrite rands_app, E1. destruct x; try reflexivity. exfalso. eapply N. reflexivity.
    + right. exists v, T. split; [exact E1|]. split; [apply in_or_app; auto|exact E3].
  - destruct st; auto. destruct R as [pre E]. exists pre. rewrite rands_app, E. destruct x; try (cbn; apply app_nil_r).
    exfalso. eapply N. reflexivity.
Qed.

Lemma drawing_inv P oc tr w t c : prims_ok P -> execution P oc start tr w -> well_typed tr -> th_call (w_threads w t) = Some c ->
  exists st, drawing (th_prog (w_threads w t)) st /\ settled (th_acts (w_threads w t)) st.
Proof.
  intros HP X T. revert t c.
  apply (local_inv P oc (fun c p held acts => exists st, drawing p st /\ settled acts st)
    (fun _ _ => True)) with (tr := tr); auto.
  - intros c. exists NoDraw. split; [apply entry_drawing|]. split; [|exact I]. intros a r b E. destruct a; discriminate E.
  - intros c k p held acts a k' p' PS [st [D S]].
    destruct PS; cbn [drawing] in D;
      try (exists st; split; [solve [apply D|exact I|auto]|apply settled_quiet; [discriminate|exact S]]).
    + (* look *) eexists. split; [apply D|]. destruct st as [|v|]; try (apply settled_quiet; [discriminate|exact S]).
      destruct (contains_key (streams k) (u160_from_u64 v)) eqn:EC; [|apply settled_quiet; [discriminate|exact S]].
      split; [|exact I]. intros a r b E. apply snoc_split in E as [[_ [E _]]|[b' [-> ->]]]; [discriminate E|].
      right. destruct S as [S _]. destruct (S _ _ _ eq_refl) as [[E1 E2]|[v' [T' [E1 [E2 E3]]]]].
      * destruct r as [v'|]; [|discriminate E2]. injection E2 as <-. exists v, (streams k).
        split; [reflexivity|]. split; [apply in_or_app; right; left; reflexivity|].
        unfold contains_key in EC. destruct (get (streams k) (u160_from_u64 v)); [discriminate|discriminate EC].
      * exists v', T'. split; [exact E1|]. split; [apply in_or_app; auto|exact E3].
    + (* draw *) destruct D as [-> D]. eexists. split; [apply D|]. destruct S as [S _]. split.
      * intros a r0 b E. apply snoc_split in E as [[-> [E ->]]|[b' [-> ->]]].
        -- injection E as <-. left. split; reflexivity.
        -- destruct (S _ _ _ eq_refl) as [[_ E]|[v' [T' [E1 [E2 E3]]]]].
           ++ destruct r0; discriminate E.
           ++ right. exists v', T'. split; [exact E1|]. split; [apply in_or_app; auto|exact E3].
      * destruct r as [v|]; [|exact I]. exists (rands acts). apply rands_app.
    + (* loop *) subst st. exists NoDraw. split; [apply loop_drawing|]. apply settled_quiet; [discriminate|exact S].
  - intros c l m p held acts [st [D S]]. exists st. split; [exact D|]. apply settled_quiet; [discriminate|exact S].
  - intros c l m p held acts acts' [st [D S]] _. exists st. split; [exact I|]. apply settled_quiet; [discriminate|exact S].
  - intros c l m p held acts [st [D S]]. exists st. split; [exact D|]. apply settled_quiet; [discriminate|exact S].
  - intros c why held acts [st [D S]]. split; [|auto]. exists st. split; [exact I|]. apply settled_quiet; [discriminate|exact S].
Qed.

(** A connection is registered under the number drawn last, as it is; every
    number drawn before was in use when [accept] looked. *)
Theorem C109_drawn : forall P oc tr w t k s w', prims_ok P -> execution P oc start tr w -> well_typed tr ->
  step P oc w t (AInsert k s) w' ->
  let acts := th_acts (w_threads w t) in
  (exists pre v, rands acts = pre ++ [Some v] /\ k = u160_from_u64 v /\ get_scid (q_conn s) = Ok (k, 8)) /\
  (forall a r b, acts = a ++ ARand r :: b -> rands b <> [] -> taken r b).
Proof.
  intros P oc tr w t k s w' HP X T S acts.
  destruct (C73_only_initials_open P oc tr w t k s w' HP X T S)
    as [Ec [_ [pre' [data [addr' [h [T0 [mr [c0 [v' [_ [_ [_ [_ [_ [_ [_ [_ Es]]]]]]]]]]]]]]]]]].
  destruct (drawing_inv P oc tr w t CAccept HP X T Ec) as [st [D SE]].
  assert (EP : exists p, th_prog (w_threads w t) = Insert k s p).
  { inversion S as [|p a k1 p' Ep PS| | | |]; subst. inversion PS; subst. eauto. }
  destruct EP as [p Ep]. rewrite Ep in D. destruct D as [[v [-> Ek]] _]. destruct SE as [SA [pre R]].
  split; [exists pre, v; subst s; auto|].
  intros a r b E N. destruct (SA _ _ _ E) as [[E1 _]|E1]; [congruence|exact E1].
Qed.
Print Assumptions C109_drawn.

Ltac data := eapply so_data; [constructor|].
Ltac fresh_lock := intros ? X; cbn in X; repeat (destruct X as [X|X]; [discriminate|]); contradiction.

(** Whatever taken numbers are drawn first, [accept] draws again and registers
    the connection under the first free one. *)
Lemma solo_skips P oc k s v : get (streams k) (u160_from_u64 v) <> None ->
  exists acts, solo P oc k (Goto (LpChooseKey s)) [] acts k (Goto (LpChooseKey s)) [] /\
    rands acts = [Some v] /\ recvs acts = [] /\ inserts acts = [].
Proof.
  intros G. eexists. split.
  - data. unfold code, choose_key, get_connection_id.
    eapply so_data; [apply (p_rand P oc k _ (Some v))|]. cbv beta iota zeta.
    apply so_acq; [fresh_lock|]. data. unfold contains_key at 1. destruct (get (streams k) (u160_from_u64 v)); [|contradiction].
    cbn [negb]. apply so_rel. constructor.
  - split; [|split]; reflexivity.
Qed.
Lemma solo_skip_all P oc k s vs : Forall (fun v => get (streams k) (u160_from_u64 v) <> None) vs ->
  exists acts, solo P oc k (Goto (LpChooseKey s)) [] acts k (Goto (LpChooseKey s)) [] /\
    rands acts = map Some vs /\ recvs acts = [] /\ inserts acts = [].
Proof.
  induction 1 as [|v vs G _ [acts [S [R [V IN]]]]].
  - exists []. split; [constructor|]. auto.
  - destruct (solo_skips P oc k s v G) as [a [S1 [R1 [V1 I1]]]]. exists (a ++ acts).
    split; [eapply solo_app; [exact S1|exact S|right; discriminate]|].
    rewrite rands_app, recvs_app, R, R1, V, V1. unfold inserts in *. rewrite flat_map_app, IN, I1. auto.
Qed.
Lemma solo_registers P oc k c0 v : log_traffic k = false -> get (streams k) (u160_from_u64 v) = None ->
  exists acts, solo P oc k (Goto (LpChooseKey (from_connection c0))) [] acts
      (ISocket (insert_key (streams k) (u160_from_u64 v) (QStream [] (set_scid c0 (u160_from_u64 v) 8))) false (printed k))
      (Done (RPanic "not yet implemented")) [] /\
    rands acts = [Some v] /\ recvs acts = [] /\ inserts acts = [(u160_from_u64 v, QStream [] (set_scid c0 (u160_from_u64 v) 8))].
Proof.
  intros LG GV. eexists. split.
  - data. unfold code, choose_key, get_connection_id.
    eapply so_data; [apply (p_rand P oc k _ (Some v))|]. cbv beta iota zeta.
    apply so_acq; [fresh_lock|]. data. unfold contains_key at 1. rewrite GV. cbn [negb].
    apply so_acq; [fresh_lock|]. apply so_rel. unfold from_connection. cbn [q_queue q_conn].
    data. cbn [streams log_traffic printed]. rewrite LG. apply so_rel. apply so_acq; [fresh_lock|]. data. cbn [streams].
    rewrite get_insert, u160_eqb_refl. apply so_rel. apply so_panic. intros l [].
  - split; [|split]; reflexivity.
Qed.
Lemma solo_receives P oc k data addr h c0 : log_traffic k = false ->
  header_is (firstn (N.to_nat 4096) data) h -> get_packet_type h = Ok TInitial ->
  get (streams k) (get_destination_id h) = None ->
  connection_new P oc true V1 (get_destination_id h) (get_destination_id_length h) = Ok c0 ->
  exists acts, solo P oc k (Goto LpReceive) [] acts k (Goto (LpChooseKey (from_connection c0))) [] /\
    rands acts = [] /\ recvs acts = [NetDatagram data addr] /\ inserts acts = [].
Proof.
  intros LG [rest HH] HT G HC. eexists. split.
  - data. unfold code, recv_new_initial_datagram, recv_datagram.
    apply so_acq; [fresh_lock|]. eapply so_data; [apply (p_recv P oc k _ (NetDatagram data addr))|]. cbv beta iota zeta.
    apply so_acq; [fresh_lock|]. data. rewrite LG. apply so_rel. apply so_rel. cbn [d_data].
    unfold RECV_BUFFER. rewrite (parse_header_ok _ _ _ _ _ HH). unfold unwrap_or_crash at 1. rewrite HT. cbn [lift].
    apply so_acq; [fresh_lock|]. data. apply so_rel.
    unfold contains_key at 1. rewrite G. cbn [negb]. unfold accept_with. cbn [d_data]. rewrite (parse_header_ok _ _ _ _ _ HH).
    unfold unwrap_or_crash at 1. rewrite HC. cbn [lift]. constructor.
  - split; [|split]; reflexivity.
Qed.

Theorem C109_first_free : forall P oc t tr w k data addr h c0 vs v,
  between P oc t tr w k -> log_traffic k = false ->
  header_is (firstn (N.to_nat 4096) data) h -> get_packet_type h = Ok TInitial -> get (streams k) (get_destination_id h) = None ->
  connection_new P oc true V1 (get_destination_id h) (get_destination_id_length h) = Ok c0 ->
  Forall (fun x => get (streams k) (u160_from_u64 x) <> None) vs -> get (streams k) (u160_from_u64 v) = None ->
  exists acts w', execution P oc start (tr ++ (t, ACall CAccept) :: map (pair t) acts) w' /\
    recvs acts = [NetDatagram data addr] /\ rands acts = map Some vs ++ [Some v] /\
    inserts acts = [(u160_from_u64 v, QStream [] (set_scid c0 (u160_from_u64 v) 8))].
Proof.
  intros P oc t tr w k data addr h c0 vs v B LG HH HT G HC TK GV.
  destruct (solo_receives P oc k data addr h c0 LG HH HT G HC) as [a1 [S1 [R1 [V1 I1]]]].
  destruct (solo_skip_all P oc k (from_connection c0) vs TK) as [a2 [S2 [R2 [V2 I2]]]].
  destruct (solo_registers P oc k c0 v LG GV) as [a3 [S3 [R3 [V3 I3]]]].
  assert (ND : forall l r, Goto l <> Done r) by (intros l r Q; discriminate Q).
  pose proof (solo_app P oc _ _ _ _ _ _ _ _ _ _ _ S2 S3 (or_intror (ND _))) as S23.
  pose proof (solo_app P oc _ _ _ _ _ _ _ _ _ _ _ S1 S23 (or_intror (ND _))) as S.
  destruct (next_call P oc t tr w k CAccept _ _ _ B I S) as [w' [X _]].
  exists (a1 ++ a2 ++ a3), w'. split; [exact X|].
  rewrite !rands_app, !recvs_app, R1, R2, R3, V1, V2, V3. unfold inserts in *. rewrite !flat_map_app, I1, I2, I3. auto.
Qed.
Print Assumptions C109_first_free.

(** Every registered connection has an id of 8 bytes; 1-RTT packets that carry
    these bytes, and no others that carry 8 bytes, are addressed to it. *)
Theorem C109_short_header : forall P oc tr w k s, prims_ok P -> execution P oc start tr w -> well_typed tr ->
  (* random numbers are 8 bytes *)
  (forall t v, In (t, ARand (Some v)) tr -> v < 2 ^ 64) ->
  get (streams (w_sock w)) k = Some s ->
  exists d, get_scid (q_conn s) = Ok (k, 8) /\ cid_enc k 8 d /\
    forall b d' rest, b < 128 -> bytes_ok d' -> len d' = 8 -> (addressed (b :: d' ++ rest) k <-> d' = d).
Proof.
  intros P oc tr w k s HP X T RV G.
  apply (C38_queue_exact P oc tr w k s HP X T) in G as [before [t [c0 [after [Et [_ [_ Es]]]]]]].
  rewrite Et in X, T. change ((t, AInsert k (QStream [] c0)) :: after) with ([(t, AInsert k (QStream [] c0))] ++ after) in X.
  rewrite app_assoc in X. destruct (execution_split _ _ _ _ _ _ X) as [w2 [X0 _]].
  inversion X0 as [E|tr0 w1 t' y w3 X1 S1 E]; subst; [destruct before; discriminate|].
  apply app_inj_tail in E as [-> [= -> ->]]. apply typed_app in T as [T1 _].
  destruct (C109_drawn P oc before w1 t k _ w2 HP X1 T1 S1) as [[pre [v [R [-> GS]]]] _]. cbn [q_conn] in GS.
  assert (V : v < 2 ^ 64).
  { apply (RV t). apply in_or_app. left. eapply acts_in; [exact X1|].
    assert (In (Some v) (rands (th_acts (w_threads w1 t)))) as H by (rewrite R; apply in_or_app; right; left; reflexivity).
    unfold rands in H. apply in_flat_map in H as [a [Ha H]]. destruct a; try contradiction. destruct H as [<-|[]]. exact Ha. }
  exists (be_bytes 8 v). split; [exact GS|]. split.
  - split; [|split; [apply be_bytes_ok|split; [apply be_bytes_len|]]].
    + split; cbn [u160_from_u64 idx0 idx1]; [reflexivity|]. pows. lia.
    + rewrite be_val_be_bytes_small by (pows; exact V). cbn. reflexivity.
  - assert (CV : cid_val (u160_from_u64 v) = v) by reflexivity.
    intros b d' rest Hb Bd Ld. split.
    + intros [ty [d1 [A [W [_ E]]]]].
      assert (d1 = d') as -> by (eapply wire_dcid_fun; [exact W|constructor; auto]).
      rewrite (announces_fun _ _ TOneRtt A) in E by (constructor; auto).
      apply be_val_inj; [exact Bd|apply be_bytes_ok|unfold len in Ld; rewrite be_bytes_length; lia|].
      rewrite be_val_be_bytes_small by (pows; exact V). congruence.
    + intros ->. exists TOneRtt, (be_bytes 8 v). split; [constructor; auto|]. split; [constructor; auto|].
      split; [split; cbn [u160_from_u64 idx0 idx1]; [reflexivity|pows; lia]|].
      rewrite be_val_be_bytes_small by (pows; exact V). exact CV.
Qed.
Print Assumptions C109_short_header.

(** A run in which 77 is drawn twice: the second client gets 78. *)
Example C109_case : exists tr w s w', execution real_prims true start tr w /\ well_typed tr /\
  step real_prims true w 0 (AInsert (U160 0 78) s) w' /\
  rands (th_acts (w_threads w 0)) = [Some 77; Some 77; Some 78].
Proof.
  destruct (sample_accept [] start bind_socket 77 (between_start _ _ _) eq_refl eq_refl eq_refl)
    as [acts [c0 [w' [EC [B [ET [R [IN NR]]]]]]]]. cbv zeta in B.
  match type of B with between _ _ _ ?trr _ ?kk => set (tr1 := trr) in *; set (k1 := kk) in * end.
  destruct (solo_receives real_prims true k1 client_initial 5 initial_header c0 eq_refl client_initial_header eq_refl eq_refl EC)
    as [a1 [S1 [R1 [V1 I1]]]].
  destruct (solo_skip_all real_prims true k1 (from_connection c0) [77; 77]) as [a2 [S2 [R2 [V2 I2]]]].
  { repeat constructor; discriminate. }
  destruct (solo_registers real_prims true k1 c0 78 eq_refl eq_refl) as [a3 [S3 [R3 [V3 I3]]]].
  assert (ND : forall l r, Goto l <> Done r) by (intros l r Q; discriminate Q).
  pose proof (solo_app _ _ _ _ _ _ _ _ _ _ _ _ _ S2 S3 (or_intror (ND _))) as S23.
  pose proof (solo_app _ _ _ _ _ _ _ _ _ _ _ _ _ S1 S23 (or_intror (ND _))) as S.
  destruct (at_action real_prims true 0 tr1 w' k1 CAccept _ _ _ (AInsert (U160 0 78) (QStream [] (set_scid c0 (U160 0 78) 8))) B I S)
    as [tr' [w1 [w2 [b1 [b2 [Ea [X [T [_ [Ec [Eb ST]]]]]]]]]]].
  { apply in_or_app. right. apply in_or_app. right.
    assert (Y : In (U160 0 78, QStream [] (set_scid c0 (U160 0 78) 8)) (inserts a3)) by (rewrite I3; left; reflexivity).
    unfold inserts in Y. apply in_flat_map in Y as [a [Ia Y]]. destruct a; try contradiction. destruct Y as [Y|[]]. injection Y as -> ->. exact Ia. }
  exists tr', w1, (QStream [] (set_scid c0 (U160 0 78) 8)), w2. split; [exact X|]. split; [exact T|]. split; [exact ST|].
  destruct (C109_drawn real_prims true tr' w1 0 _ _ w2 real_prims_ok X T ST) as [[pre [v [Er [Ev _]]]] _].
  injection Ev as <-. rewrite Eb in *. apply (f_equal rands) in Ea. rewrite !rands_app, R1, R2, R3, Er in Ea. rewrite Er.
  destruct pre as [|x [|y [|z pre]]]; cbn in Ea; try discriminate Ea.
  - injection Ea as <- <- _. reflexivity.
  - exfalso. injection Ea as _ _ _ Ea. destruct pre; discriminate Ea.
Qed.

(** Bytes for connection 77, and others.  (C38_queue_case has a run with this
    connection.) *)
Example C109_short_case : addressed (0x40 :: [0; 0; 0; 0; 0; 0; 0; 77] ++ [1; 2; 3]) (u160_from_u64 77) /\
  ~ addressed (0x40 :: [0; 0; 0; 0; 0; 0; 1; 77] ++ [1; 2; 3]) (u160_from_u64 77).
Proof.
  split.
  - exists TOneRtt, [0; 0; 0; 0; 0; 0; 0; 77]. split; [constructor; [lia|reflexivity]|]. split; [constructor; [lia|reflexivity]|].
    split; [split; reflexivity|reflexivity].
  - intros [t [d [A [W [_ E]]]]].
    rewrite (announces_fun _ _ TOneRtt A) in E by (constructor; [lia|reflexivity]).
    assert (W' : wire_dcid (0x40 :: [0; 0; 0; 0; 0; 0; 1; 77] ++ [1; 2; 3]) [0; 0; 0; 0; 0; 0; 1; 77]) by (constructor; [lia|reflexivity]).
    rewrite (wire_dcid_fun _ _ _ W W') in E. discriminate E.
Qed.
