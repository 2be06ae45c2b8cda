(** Threads using one socket: C73, C74, C77-C79. *)
From Verif Require Import Base Utils Frame CipherSuite Secrets Connection Packet Routing Threads
  Spec SpecPacket SpecRouting Tactics UtilsFacts HeaderFacts ConnectionFacts RoutingFacts RoutingSafe SoloFacts CryptoInst
  SampleRuns Printing PropRouting LocalFacts.

(** ** C78: calls do a bounded amount of work *)
(** Random numbers drawn. *)
Definition rands (acts : list action) : list (option N) :=
  flat_map (fun a => match a with ARand r => [r] | _ => [] end) acts.
Lemma rands_app a b : rands (a ++ b) = rands a ++ rands b. Proof. apply flat_map_app. Qed.

(** [p] ends within [n] steps, if each input grants 16 more. *)
Fixpoint within (n : nat) (p : prog) : Prop :=
  match p with
  | Done _ | Hang => True
  | _ => match n with O => False | S n' =>
    match p with
    | Done _ | Hang | Crash _ => True
    | Acq _ _ p => (1 <= n')%nat /\ within n' p
    | Rel _ p | Insert _ _ p | Remove _ p | Send _ _ p | SetLog _ p => within n' p
    | Print _ p => (1 <= n')%nat /\ within n' p
    | LookTable f => forall T, within n' (f T)
    | LookLog f => forall b, within n' (f b)
    | RecvFrom f => forall ev, within (n' + 16) (f ev)
    | Rand f => forall r, within (n' + 16) (f r)
    | Goto _ => (3 <= n')%nat
    end end
  end.

Lemma within_mono p : forall n m, within n p -> (n <= m)%nat -> within m p.
Proof.
  induction p as [| | |l md p IH|l p IH|f IH|k s p IH|k p IH|k d p IH|f IH|b p IH|x p IH|f IH|f IH|]; intros n m W L;
    destruct n; destruct m; cbn in *; auto; try lia; try contradiction.
  all: try (destruct W as [W1 W2]; split; [lia|]; eapply IH; eauto; lia).
  all: try (eapply IH; eauto; lia).
  all: intros y; eapply IH; [apply W|lia].
Qed.

Lemma loop_within P oc l : within 3 (code P oc l).
Proof.
  assert (ROUTE : forall d, within 8 (route_datagram d (fun r => unwrap_or_crash r (fun _ => Goto LpReceive)))).
  { intros d. unfold route_datagram.
    header_cases h r EH; cbn; auto; [split; [lia|]|lia].
    intros T. destruct (get T (get_destination_id h)); cbn; auto. }
  destruct l; cbn [code].
  - unfold recv_new_initial_datagram, recv_datagram. cbn [within]. split; [lia|]. intros [sent addr|e]; cbn [plus within accept_with]; auto.
    split; [lia|]. intros flag.
    assert (R : within 11 (let after ret := if ret : bool then accept_with P oc (IoOk (Datagram (firstn (N.to_nat RECV_BUFFER) sent) addr))
         else route_datagram (Datagram (firstn (N.to_nat RECV_BUFFER) sent) addr) (fun r => unwrap_or_crash r (fun _ => Goto LpReceive)) in
       parse (next_header_said (firstn (N.to_nat RECV_BUFFER) sent))
          (fun e => Print (LogError e) (after false))
          (fun '(x, _) => unwrap_or_crash (get_packet_type x) (fun packet_type =>
             match packet_type with
             | TInitial =>
                 Acq LStreams Shared (LookTable (fun T =>
                   Rel LStreams (after (negb (contains_key T (get_destination_id x))))))
             | _ => after false
             end)))).
    { cbv zeta. header_cases x r EH; cbn [within]; auto.
      2:{ split; [lia|]. eapply within_mono; [apply ROUTE|lia]. }
      2:{ split; [lia|]. split; [lia|]. eapply within_mono; [apply ROUTE|lia]. }
      unfold unwrap_or_crash; rewrite ET; cbn [lift within]; auto.
      destruct t; try (eapply within_mono; [apply ROUTE|lia]). cbn [within]. split; [lia|]. intros T.
      destruct (negb _); [|eapply within_mono; [apply ROUTE|lia]].
      unfold accept_with. cbn [d_data]. rewrite (parse_header_ok _ _ _ _ _ EH). unfold unwrap_or_crash. cbn [lift].
      destruct (connection_new _ _ _ _ _ _); cbn; auto. }
    destruct flag; cbn [within]; [log_cases EN; cbn [within]; repeat (split; [lia|])|]; (eapply within_mono; [exact R|lia]).
  - unfold choose_key, get_connection_id. cbn [within plus]. intros [v|]; cbn [within]; auto. split; [lia|]. intros T.
    destruct (negb _); cbn [within]; [|lia]. split; [lia|]. split; [lia|]. intros T'. destruct (get T' _); cbn; auto.
Qed.

Lemma entry_within oc c : within 16 (entry oc c).
Proof.
  destruct c; cbn [entry accept_prog connect_prog drop_prog set_log_prog within]; auto; try lia.
  - unfold route_datagram. header_cases h r EH; cbn; auto; [split; [lia|]|lia].
    intros T. destruct (get T (get_destination_id h)); cbn; auto.
  - unfold packets_from_datagram. header_cases h r EH; cbn [within]; auto; [split; [lia|]|lia].
    intros T. destruct (get T (get_destination_id h)); cbn [within]; auto. split; [lia|].
    packets_cases; (destruct (decode_packets oc _ _); cbn [lift within]; repeat (split; [lia|]); auto; intros [|]; cbn; auto; lia).
Qed.

Definition work_ok (c : scall) (p : prog) (held : list (lock * mode)) (acts : list action) : Prop :=
  exists n, within n p /\ (length acts + n <= 16 * (1 + length (recvs acts) + length (rands acts)))%nat.

Theorem C78_bounded_work : forall P oc tr w t, prims_ok P -> execution P oc start tr w -> well_typed tr ->
  let acts := th_acts (w_threads w t) in
  len acts <= 16 * (1 + len (recvs acts) + len (rands acts)).
Proof.
  intros P oc tr w t HP X T acts.
  assert (A1 : forall acts a, length (acts ++ [a : action]) = S (length acts)) by (intros; rewrite app_length; cbn; lia).
  assert (RB : forall acts a, (length (recvs acts) <= length (recvs (acts ++ [a])))%nat) by (intros; rewrite recvs_app, app_length; lia).
  assert (RR : forall acts a, (length (rands acts) <= length (rands (acts ++ [a])))%nat) by (intros; rewrite rands_app, app_length; lia).
  destruct (local_inv P oc work_ok (fun _ _ => True)) with (tr := tr) (w := w) as [L _]; auto.
  - intros c. exists 16%nat. split; [apply entry_within|]. cbn. lia.
  - intros c k p held acts0 a k' p' PS [n [W B]].
    pose proof (A1 acts0 a). pose proof (RB acts0 a). pose proof (RR acts0 a).
    destruct n as [|n]; [destruct PS; contradiction|].
    destruct PS; cbn [within] in W; try (exists n; split; [solve [auto|apply W]|lia]).
    + exists 1%nat. split; [exact I|]. destruct W as [W _]. lia.
    + exists (n + 16)%nat. split; [auto|].
      assert (length (recvs (acts0 ++ [ARecv ev])) = S (length (recvs acts0))) by (rewrite recvs_app, app_length; cbn; lia). lia.
    + exists (n + 16)%nat. split; [auto|].
      assert (length (rands (acts0 ++ [ARand r])) = S (length (rands acts0))) by (rewrite rands_app, app_length; cbn; lia). lia.
    + exists 3%nat. split; [apply loop_within|lia].
  - intros c l m p held acts0 [n [W B]]. pose proof (A1 acts0 (AAcq l m)). pose proof (RB acts0 (AAcq l m)). pose proof (RR acts0 (AAcq l m)).
    destruct n as [|n]; [contradiction|]. exists n. split; [apply W|lia].
  - intros c l m p held acts0 acts' [n [W B]] _. pose proof (A1 acts0 (APoisoned l)). pose proof (RB acts0 (APoisoned l)). pose proof (RR acts0 (APoisoned l)).
    destruct n as [|n]; [contradiction|]. exists 1%nat. split; [exact I|]. destruct W as [W _]. lia.
  - intros c l m p held acts0 [n [W B]]. pose proof (A1 acts0 (ARel l)). pose proof (RB acts0 (ARel l)). pose proof (RR acts0 (ARel l)).
    destruct n as [|n]; [contradiction|]. exists n. split; [apply W|lia].
  - intros c why held acts0 [n [W B]]. split; [|auto]. pose proof (A1 acts0 (APanic why)). pose proof (RB acts0 (APanic why)). pose proof (RR acts0 (APanic why)).
    destruct n as [|n]; [contradiction|]. exists 0%nat. split; [exact I|lia].
  - unfold acts, len. destruct (th_call (w_threads w t)) as [c|] eqn:E.
    + destruct (L t c E) as [n [_ B]]. lia.
    + pose proof (wi_thread _ _ _ _ _ _ w (inv_reached P oc tr w HP X T) t) as TH. unfold thread_ok in TH. rewrite E in TH. rewrite TH. cbn. lia.
Qed.
Print Assumptions C78_bounded_work.

(** ** C79: only accept waits for the network *)
(** [p] reads the network only with the socket's mutex as its only guard; if
    [off], it takes no input at all. *)
Fixpoint net (off : bool) (p : prog) (held : list (lock * mode)) : Prop :=
  match p with
  | Done _ | Crash _ | Hang => True
  | Acq l m p => (off = true -> l <> LSocket) /\ net off p ((l, m) :: held)
  | Rel l p => match held with _ :: held => net off p held | [] => False end
  | Insert _ _ p | Remove _ p | Send _ _ p | SetLog _ p | Print _ p => net off p held
  | LookTable f => forall T, net off (f T) held
  | LookLog f => forall b, net off (f b) held
  | RecvFrom f => off = false /\ held = [(LSocket, Exclusive)] /\ forall ev, net off (f ev) held
  | Rand f => off = false /\ forall r, net off (f r) held
  | Goto _ => off = false /\ held = []
  end.
Definition is_accept (c : scall) : bool := match c with CAccept => true | _ => false end.

Lemma route_net off d k held : (forall r, net off (k r) held) -> net off (route_datagram d k) held.
Proof.
  intros K. unfold route_datagram. header_cases h r EH; cbn; auto.
  split; [discriminate|]. intros T. destruct (get T (get_destination_id h)); cbn; auto.
Qed.
Lemma loop_net P oc l : net false (code P oc l) [].
Proof.
  assert (ROUTE : forall d, net false (route_datagram d (fun r => unwrap_or_crash r (fun _ => Goto LpReceive))) []).
  { intros d. apply route_net. intros [x|e|w|]; cbn; auto. }
  destruct l; cbn [code].
  - unfold recv_new_initial_datagram, recv_datagram. cbn [net]. split; [discriminate|]. split; [reflexivity|]. split; [reflexivity|].
    intros [sent addr|e]; cbn [net accept_with]; auto. split; [discriminate|]. intros flag.
    assert (R : net false (let after ret := if ret : bool then accept_with P oc (IoOk (Datagram (firstn (N.to_nat RECV_BUFFER) sent) addr))
         else route_datagram (Datagram (firstn (N.to_nat RECV_BUFFER) sent) addr) (fun r => unwrap_or_crash r (fun _ => Goto LpReceive)) in
       parse (next_header_said (firstn (N.to_nat RECV_BUFFER) sent))
          (fun e => Print (LogError e) (after false))
          (fun '(x, _) => unwrap_or_crash (get_packet_type x) (fun packet_type =>
             match packet_type with
             | TInitial =>
                 Acq LStreams Shared (LookTable (fun T =>
                   Rel LStreams (after (negb (contains_key T (get_destination_id x))))))
             | _ => after false
             end))) []).
    { cbv zeta. header_cases x r EH; cbn [net]; auto.
      unfold unwrap_or_crash; rewrite ET; cbn [lift net]; auto.
      destruct t; auto. cbn [net]. split; [discriminate|]. intros T.
      destruct (negb _); auto. unfold accept_with. cbn [d_data]. rewrite (parse_header_ok _ _ _ _ _ EH). unfold unwrap_or_crash. cbn [lift].
      destruct (connection_new _ _ _ _ _ _); cbn; auto. }
    destruct flag; cbn [net]; [log_cases EN; cbn [net]|]; exact R.
  - unfold choose_key, get_connection_id. cbn [net]. split; [reflexivity|]. intros [v|]; cbn [net]; auto. split; [discriminate|]. intros T.
    destruct (negb _); cbn [net]; [|auto]. split; [discriminate|]. split; [discriminate|]. intros T'. destruct (get T' _); cbn; auto.
Qed.
Lemma entry_net oc c : net (negb (is_accept c)) (entry oc c) [].
Proof.
  destruct c; cbn [entry accept_prog connect_prog drop_prog set_log_prog net is_accept negb]; auto; try (repeat split; discriminate).
  - apply route_net. intros r. exact I.
  - unfold packets_from_datagram. header_cases h r EH; cbn [net]; auto. split; [discriminate|].
    intros T. destruct (get T (get_destination_id h)); cbn [net]; auto. split; [discriminate|].
    packets_cases; (destruct (decode_packets oc _ _); cbn [lift net]; auto; split; [discriminate|]; intros [|]; cbn; auto).
Qed.

Lemma net_inv P oc tr w t c : prims_ok P -> execution P oc start tr w -> well_typed tr -> th_call (w_threads w t) = Some c ->
  net (negb (is_accept c)) (th_prog (w_threads w t)) (th_held (w_threads w t)) /\
  (is_accept c = false -> recvs (th_acts (w_threads w t)) = [] /\ rands (th_acts (w_threads w t)) = []).
Proof.
  intros HP X T. revert t c.
  apply (local_inv P oc (fun c p held acts => net (negb (is_accept c)) p held /\ (is_accept c = false -> recvs acts = [] /\ rands acts = []))
    (fun _ _ => True)) with (tr := tr); auto.
  - intros c. split; [apply entry_net|]. auto.
  - intros c k p held acts a k' p' PS [N R]. split.
    + destruct PS; cbn [net] in N; auto; try apply N; try exact I. destruct N as [E ->]. rewrite E. apply loop_net.
    + intros E. rewrite recvs_app, rands_app. destruct (R E) as [-> ->].
      destruct PS; cbn [net] in N; try (split; reflexivity); destruct N as [N _]; rewrite E in N; discriminate N.
  - intros c l m p held acts [[_ N] R]. rewrite recvs_app, rands_app, !app_nil_r. auto.
  - intros c l m p held acts acts' [_ R] _. rewrite recvs_app, rands_app, !app_nil_r. split; [exact I|auto].
  - intros c l m p held acts [N R]. rewrite recvs_app, rands_app, !app_nil_r. auto.
  - intros c why held acts [_ R]. rewrite recvs_app, rands_app, !app_nil_r. split; [split; [exact I|auto]|auto].
Qed.

(** Calls other than [accept] take no input from the network or the random
    number generator: 16 steps at most. *)
Theorem C78_bounded_other_calls : forall P oc tr w t c, prims_ok P -> execution P oc start tr w -> well_typed tr ->
  th_call (w_threads w t) = Some c -> c <> CAccept ->
  recvs (th_acts (w_threads w t)) = [] /\ rands (th_acts (w_threads w t)) = [] /\ len (th_acts (w_threads w t)) <= 16.
Proof.
  intros P oc tr w t c HP X T Ec NA. pose proof (C78_bounded_work P oc tr w t HP X T) as B. cbv zeta in B.
  destruct (net_inv P oc tr w t c HP X T Ec) as [_ R]. destruct R as [R1 R2]; [destruct c; auto; contradiction|].
  split; [exact R1|]. split; [exact R2|]. rewrite R1, R2 in B. change (len (@nil net_event)) with 0 in B. change (len (@nil (option N))) with 0 in B. lia.
Qed.
Print Assumptions C78_bounded_other_calls.

(** Some thread can take a step that neither begins a call nor needs input from
    the network. *)
Definition offline_progress P oc (w : world) : Prop :=
  exists t a w', step P oc w t a w' /\ (forall c, a <> ACall c) /\ (forall ev, a <> ARecv ev) /\
    (forall l, a = AAcq l Shared -> forall t', ~ wants_exclusive w t' l).

Lemma offline_moves P oc w t : inv P oc w -> ~ idle (w_threads w t) ->
  offline_progress P oc w \/ (exists l m p, th_prog (w_threads w t) = Acq l m p) \/ (exists f, th_prog (w_threads w t) = RecvFrom f).
Proof.
  intros W NI. destruct (has_call _ _ _ _ _ _ w t W) as [c Ec]; [intros r E; apply NI; exists r; exact E|].
  destruct (step_thread_call _ _ _ _ _ _ w t c W Ec) as [kn [K S]].
  assert (DATA : forall a k p', pstep P oc (w_sock w) (th_prog (w_threads w t)) a k p' -> (forall ev, a <> ARecv ev) -> offline_progress P oc w).
  { intros a k p' PS NR. exists t, a. eexists. split; [eapply s_data; [reflexivity|exact PS]|].
    split; [intros c' ->; inversion PS|]. split; [exact NR|]. intros l ->. inversion PS. }
  destruct (th_prog (w_threads w t)) eqn:Ep; cbn [safe] in S; eauto.
  - exfalso. apply NI. exists r. exact Ep.
  - left. do 3 eexists. split; [apply s_panic; exact Ep|]. split; [congruence|]. split; congruence.
  - contradiction.
  - right. left. eauto.
  - left. destruct (th_held (w_threads w t)) as [|[l' m'] held] eqn:Eh; [contradiction|]. destruct S as [-> _].
    do 3 eexists. split; [eapply s_rel; eauto|]. split; [congruence|]. split; congruence.
  - left. eapply DATA; [constructor|discriminate].
  - left. eapply DATA; [constructor|discriminate].
  - left. eapply DATA; [constructor|discriminate].
  - left. destruct kn as [ks|]; [|contradiction]. destruct S as [Hk _]. destruct K as [_ <-].
    apply get_some in Hk as [s G]. eapply DATA; [econstructor; exact G|discriminate].
  - left. eapply DATA; [constructor|discriminate].
  - left. eapply DATA; [constructor|discriminate].
  - left. eapply DATA; [constructor|discriminate].
  - left. eapply DATA; [apply (p_rand P oc _ _ None)|discriminate].
  - left. eapply DATA; [constructor|discriminate].
Qed.

Lemma offline_waiting P oc tr w : prims_ok P -> execution P oc start tr w -> well_typed tr ->
  forall n l t m p, (3 - rank l < n)%nat -> (1 <= rank l)%nat -> th_prog (w_threads w t) = Acq l m p -> offline_progress P oc w.
Proof.
  intros HP X T. pose proof (inv_reached P oc tr w HP X T) as W. intros n. induction n as [|n IH]; intros l t m p L L1 Ep; [lia|].
  assert (HOLD : forall t' m', In (l, m') (th_held (w_threads w t')) -> offline_progress P oc w).
  { intros t' m' Hin. pose proof (holder_busy P oc w t' _ W Hin) as BZ.
    destruct (offline_moves P oc w t' W BZ) as [Y|[[l2 [m2 [p2 E2]]]|[f E2]]]; [exact Y| |].
    - destruct (has_call _ _ _ _ _ _ w t' W) as [c Ec]; [congruence|].
      destruct (step_thread_call _ _ _ _ _ _ w t' c W Ec) as [kn [K S]]. rewrite E2 in S. cbn [safe] in S. destruct S as [R _].
      specialize (R _ Hin). cbn in R. apply (IH l2 t' m2 p2); [|lia|exact E2]. assert (rank l2 <= 3)%nat by (destruct l2; cbn; lia). lia.
    - destruct (has_call _ _ _ _ _ _ w t' W) as [c Ec]; [congruence|]. pose proof (net_inv P oc tr w t' c HP X T Ec) as [NT _].
      rewrite E2 in NT. destruct NT as [_ [NT _]]. rewrite NT in Hin. destruct Hin as [Hin|[]]. injection Hin as <- _. cbn in L1. lia. }
  destruct (w_poisoned w l) eqn:PZ.
  { do 3 eexists. split; [eapply s_poisoned; eauto|]. split; [congruence|]. split; congruence. }
  destruct (grantable_dec P oc tr w l m X) as [G|[t' [m' H]]]; [|eauto].
  destruct (writer_dec P oc tr w l X) as [[t2 [p2 E2]]|NW].
  - destruct (grantable_dec P oc tr w l Exclusive X) as [G2|[t' [m' H]]]; [|eauto].
    do 3 eexists. split; [eapply s_acq; eauto|]. split; [congruence|]. split; congruence.
  - do 3 eexists. split; [eapply s_acq; eauto|]. split; [congruence|]. split; [congruence|]. intros l0 [= <- _]. exact NW.
Qed.

Theorem C79_only_accept_waits : forall P oc tr w t c, prims_ok P -> execution P oc start tr w -> well_typed tr ->
  th_call (w_threads w t) = Some c -> c <> CAccept -> ~ idle (w_threads w t) ->
  exists t' a w', step P oc w t' a w' /\ (forall c', a <> ACall c') /\ (forall ev, a <> ARecv ev) /\
    (forall l, a = AAcq l Shared -> forall t'', ~ wants_exclusive w t'' l).
Proof.
  intros P oc tr w t c HP X T Ec NA NI. pose proof (inv_reached P oc tr w HP X T) as W.
  assert (OFF : negb (is_accept c) = true) by (destruct c; auto; contradiction).
  pose proof (net_inv P oc tr w t c HP X T Ec) as [NT _]. rewrite OFF in NT.
  destruct (offline_moves P oc w t W NI) as [Y|[[l [m [p E]]]|[f E]]]; [exact Y| |].
  - rewrite E in NT. destruct NT as [NL _]. apply (offline_waiting P oc tr w HP X T (S (3 - rank l)) l t m p); [lia| |exact E].
    destruct l; cbn; try lia. exfalso. apply NL; reflexivity.
  - rewrite E in NT. destruct NT as [NT _]. discriminate NT.
Qed.
Print Assumptions C79_only_accept_waits.

(** Thread 0 waits for the network in [accept] while thread 1 drops a stream. *)
Example C79_case : exists tr w, execution real_prims true start tr w /\ well_typed tr /\
  (exists f, th_prog (w_threads w 0) = RecvFrom f) /\
  th_call (w_threads w 1) = Some (CDropStream (U160 0 77)) /\ ~ idle (w_threads w 1).
Proof.
  eexists _, _. split.
  { eapply (execution_cons _ _ _ 0); [eapply (s_call _ _ _ _ CAccept); reflexivity|].
    eapply (execution_cons _ _ _ 1); [eapply (s_call _ _ _ _ (CDropStream (U160 0 77))); reflexivity|].
    eapply (execution_cons _ _ _ 0); [eapply s_data; [reflexivity|apply p_goto]|].
    eapply (execution_cons _ _ _ 0); [eapply s_acq; [reflexivity|reflexivity|]|].
    { intros t m H. exfalso. cbn [w_threads set_thread] in H. unfold set_thread in H.
      repeat match type of H with context [if ?b then _ else _] => destruct b end; destruct H. }
    apply ex_nil. }
  split; [intros t d H; cbn in H; repeat (destruct H as [H|H]; [discriminate H|]); destruct H|].
  split; [eexists; reflexivity|]. split; [reflexivity|]. intros [r E]. discriminate E.
Qed.
(** One thread waits in [accept] after two steps, another dropped a stream in three. *)
Example C78_case : exists tr w, execution real_prims true start tr w /\ well_typed tr /\
  th_call (w_threads w 1) = Some (CDropStream (U160 0 77)) /\ len (th_acts (w_threads w 0)) = 2 /\ len (th_acts (w_threads w 1)) = 3 /\
  recvs (th_acts (w_threads w 0)) = [].
Proof.
  eexists _, _. split.
  { eapply (execution_cons _ _ _ 0); [eapply (s_call _ _ _ _ CAccept); reflexivity|].
    eapply (execution_cons _ _ _ 1); [eapply (s_call _ _ _ _ (CDropStream (U160 0 77))); reflexivity|].
    eapply (execution_cons _ _ _ 0); [eapply s_data; [reflexivity|apply p_goto]|].
    eapply (execution_cons _ _ _ 0); [eapply s_acq; [reflexivity|reflexivity|]|].
    { intros t m H. exfalso. cbn [w_threads set_thread] in H. unfold set_thread in H.
      repeat match type of H with context [if ?b then _ else _] => destruct b end; destruct H. }
    eapply (execution_cons _ _ _ 1); [eapply s_acq; [reflexivity|reflexivity|]|].
    { intros t m H. exfalso. cbn [w_threads set_thread] in H. unfold set_thread in H.
      repeat match type of H with context [if ?b then _ else _] => destruct b end; cbn in H;
        try contradiction; destruct H as [H|[]]; discriminate H. }
    eapply (execution_cons _ _ _ 1); [eapply s_data; [reflexivity|apply p_remove]|].
    eapply (execution_cons _ _ _ 1); [eapply s_rel; reflexivity|].
    apply ex_nil. }
  split; [intros t d H; cbn in H; repeat (destruct H as [H|H]; [discriminate H|]); destruct H|].
  repeat split.
Qed.

(** ** C77: what can poison a lock *)
(** The lines printed while a datagram's header is logged: the header, or that it was cut short. *)
Definition of_header (x : line) : Prop :=
  match x with LogHeader _ | LogShort _ => True | _ => False end.
(** Exclusive guards at a panic: none, or the socket's mutex at a line of the log. *)
Fixpoint careful (p : prog) (held : list (lock * mode)) : Prop :=
  match p with
  | Done _ | Hang => True
  | Crash _ => no_excl held
  | Acq l m p => (l = LSocket -> held = []) /\ careful p ((l, m) :: held)
  | Rel l p => match held with _ :: held => careful p held | [] => False end
  | Insert _ _ p | Remove _ p | Send _ _ p | SetLog _ p => careful p held
  | Print x p => (no_excl held \/ (held = [(LSocket, Exclusive)] /\ of_header x)) /\ careful p held
  | LookTable f => forall T, careful (f T) held
  | LookLog f => forall b, careful (f b) held
  | RecvFrom f => forall ev, careful (f ev) held
  | Rand f => forall r, careful (f r) held
  | Goto _ => held = []
  end.
Ltac noexcl := intros ? Hin; cbn in Hin; repeat (destruct Hin as [Hin|Hin]; [discriminate Hin|]); contradiction.

Lemma route_careful d k : (forall r, careful (k r) []) -> careful (route_datagram d k) [].
Proof.
  intros K. unfold route_datagram. header_cases h r EH; cbn; auto; [|split; [left; noexcl|auto]].
  split; [discriminate|]. intros T. destruct (get T (get_destination_id h)); cbn; auto.
Qed.
Lemma loop_careful P oc l : careful (code P oc l) [].
Proof.
  assert (ROUTE : forall d, careful (route_datagram d (fun r => unwrap_or_crash r (fun _ => Goto LpReceive))) []).
  { intros d. apply route_careful. intros [x|e|w|]; cbn; auto; noexcl. }
  destruct l; cbn [code].
  - unfold recv_new_initial_datagram, recv_datagram. cbn [careful]. split; [reflexivity|].
    intros [sent addr|e]; cbn [careful accept_with]; auto. split; [discriminate|]. intros flag.
    assert (R : careful (let after ret := if ret : bool then accept_with P oc (IoOk (Datagram (firstn (N.to_nat RECV_BUFFER) sent) addr))
         else route_datagram (Datagram (firstn (N.to_nat RECV_BUFFER) sent) addr) (fun r => unwrap_or_crash r (fun _ => Goto LpReceive)) in
       parse (next_header_said (firstn (N.to_nat RECV_BUFFER) sent))
          (fun e => Print (LogError e) (after false))
          (fun '(x, _) => unwrap_or_crash (get_packet_type x) (fun packet_type =>
             match packet_type with
             | TInitial =>
                 Acq LStreams Shared (LookTable (fun T =>
                   Rel LStreams (after (negb (contains_key T (get_destination_id x))))))
             | _ => after false
             end))) []).
    { cbv zeta. header_cases x r EH; cbn [careful]; auto; try noexcl.
      2:{ split; [left; noexcl|]. apply ROUTE. }
      2:{ split; [left; noexcl|]. split; [left; noexcl|]. apply ROUTE. }
      unfold unwrap_or_crash; rewrite ET; cbn [lift careful]; auto; try noexcl.
      destruct t; auto. cbn [careful]. split; [discriminate|]. intros T.
      destruct (negb _); auto. unfold accept_with. cbn [d_data]. rewrite (parse_header_ok _ _ _ _ _ EH). unfold unwrap_or_crash. cbn [lift].
      destruct (connection_new _ _ _ _ _ _); cbn; auto; noexcl. }
    destruct flag; cbn [careful]; [|exact R]. log_cases EN; cbn [careful]; repeat (split; [right; split; [reflexivity|exact I]|]); exact R.
  - unfold choose_key, get_connection_id. cbn [careful]. intros [v|]; cbn [careful]; auto; [|noexcl]. split; [discriminate|]. intros T.
    destruct (negb _); cbn [careful]; [|auto]. split; [discriminate|]. split; [discriminate|]. intros T'. destruct (get T' _); cbn; auto; noexcl.
Qed.
Lemma entry_careful oc c : careful (entry oc c) [].
Proof.
  destruct c; cbn [entry accept_prog connect_prog drop_prog set_log_prog careful]; auto; try (repeat split; discriminate); try noexcl.
  - apply route_careful. intros r. exact I.
  - unfold packets_from_datagram. header_cases h r EH; cbn [careful]; auto; [|split; [left; noexcl|auto]].
    split; [discriminate|]. intros T. destruct (get T (get_destination_id h)); cbn [careful]; auto. split; [discriminate|].
    packets_cases; [|split; [left; noexcl|]];
      (destruct (decode_packets oc _ _); cbn [lift careful]; auto; [|noexcl]; split; [discriminate|]; intros [|]; cbn; auto; split; [left; noexcl|auto]).
Qed.

Definition careful_inv (c : scall) (p : prog) (held : list (lock * mode)) (acts : list action) : Prop :=
  careful p held \/
  (exists why x, p = Crash why /\ held = [(LSocket, Exclusive)] /\ of_header x /\ In (APrintFailed x) acts).

Lemma public_dec tr : public_run tr \/ exists t, In (t, ACall (CSetLog true)) tr.
Proof.
  induction tr as [|[t a] tr IH]; [left; intros t []|].
  assert (D : {a = ACall (CSetLog true)} + {a <> ACall (CSetLog true)}).
  { destruct a as [[| | | | | |[|]]| | | | | | | | | | | | | | |]; try (right; discriminate). left. reflexivity. }
  destruct D as [->|D]; [right; exists t; left; reflexivity|].
  destruct IH as [IH|[t' IH]]; [|right; exists t'; right; exact IH].
  left. intros t' [H|H]; [congruence|exact (IH t' H)].
Qed.

(** A lock is poisoned only if it is the socket's mutex, logging had been turned
    on, and printing a line about a datagram's header failed. *)
Theorem C77_poison_cause : forall P oc tr w l, prims_ok P -> execution P oc start tr w -> well_typed tr ->
  w_poisoned w l = true ->
  l = LSocket /\ (exists t, In (t, ACall (CSetLog true)) tr) /\
  (exists t x, of_header x /\ In (t, APrintFailed x) tr).
Proof.
  intros P oc tr w l HP X T PZ.
  destruct (local_inv P oc careful_inv (fun l acts => l = LSocket /\ exists x, of_header x /\ In (APrintFailed x) acts)) with (tr := tr) (w := w) as [_ L]; auto.
  - intros c. left. apply entry_careful.
  - intros c k p held acts a k' p' PS [C|[why [r [-> _]]]]; [|inversion PS].
    destruct PS; cbn [careful] in C; try (left; solve [auto|apply C]).
    + destruct C as [[C|[-> OH]] _]; [left; exact C|]. right. exists "failed printing"%string, x. repeat split; [exact OH|].
      apply in_or_app. right. left. reflexivity.
    + left. rewrite C. apply loop_careful.
  - intros c l0 m p held acts [[_ C]|[why [r [E _]]]]; [left; exact C|discriminate E].
  - intros c l0 m p held acts acts' [[C _]|[why [r [E _]]]] [-> _]; [|discriminate E]. left. rewrite (C eq_refl). intros l1 [].
  - intros c l0 m p held acts [C|[why [r [E _]]]]; [left; exact C|discriminate E].
  - intros c why held acts [C|[why' [r [E [-> [OH HI]]]]]]; (split; [left; exact I|]); intros l0 H.
    + exfalso. exact (C l0 H).
    + destruct H as [H|[]]. injection H as <-. eauto.
  - destruct (L l PZ) as [t [acts [[-> [r [OH HI]]] IN]]]. split; [reflexivity|]. split; [|eauto].
    destruct (public_dec tr) as [PR|Y]; [|exact Y]. destruct (C47_no_poison P oc tr w HP X T PR) as [NP _]. rewrite NP in PZ. discriminate PZ.
Qed.
Print Assumptions C77_poison_cause.
Example C77_case : exists tr w, execution real_prims true start tr w /\ well_typed tr /\ w_poisoned w LSocket = true.
Proof. destruct (C47_logging_poisons real_prims true) as [tr [w [X [T [PZ _]]]]]. eauto. Qed.

(** ** C73: one connection per accept *)
(** A connection is registered only by [accept], for an Initial packet it received
    last and whose destination id was unknown, under a fresh random id. *)
Theorem C73_only_initials_open : forall P oc tr w t k s w', prims_ok P -> execution P oc start tr w -> well_typed tr ->
  step P oc w t (AInsert k s) w' ->
  th_call (w_threads w t) = Some CAccept /\ inserts (th_acts (w_threads w t)) = [] /\
  exists pre data addr h T more c0 v,
    recvs (th_acts (w_threads w t)) = pre ++ [NetDatagram data addr] /\
    header_is (firstn (N.to_nat 4096) data) h /\ get_packet_type h = Ok TInitial /\
    looks (th_acts (w_threads w t)) = T :: more /\ get T (get_destination_id h) = None /\
    connection_new P oc true V1 (get_destination_id h) (get_destination_id_length h) = Ok c0 /\
    In (ARand (Some v)) (th_acts (w_threads w t)) /\ k = u160_from_u64 v /\ s = QStream [] (set_scid c0 k 8).
Proof.
  intros P oc tr w t k s w' HP X T S. pose proof (inv_reached P oc tr w HP X T) as W.
  pose proof (step_effect _ _ _ _ _ _ _ _ w t _ w' W S) as [c [Ec [[-> [I0 [c0 [v [O [R [Ek Es]]]]]]] _]]].
  split; [exact Ec|]. split; [exact I0|]. destruct O as [pre [data [addr [h [T0 [more [H1 [_ [H3 [H4 [H5 [H6 H7]]]]]]]]]]]].
  exists pre, data, addr, h, T0, more, c0, v. auto 12.
Qed.
Print Assumptions C73_only_initials_open.
Example C73_only_case : exists tr w s w', execution real_prims true start tr w /\ well_typed tr /\
  step real_prims true w 0 (AInsert (U160 0 77) s) w'.
Proof. exact C40_insert_case. Qed.

(** How many of the actions are calls of [accept]. *)
Definition accept_calls (acts : list action) : nat :=
  List.length (filter (fun a => match a with ACall CAccept => true | _ => false end) acts).

Lemma accept_calls_app a b : accept_calls (a ++ b) = (accept_calls a + accept_calls b)%nat.
Proof. unfold accept_calls. rewrite filter_app, app_length. reflexivity. Qed.
Lemma inserts_app a b : inserts (a ++ b) = inserts a ++ inserts b.
Proof. apply flat_map_app. Qed.
Lemma acts_of_snoc t tr t' a : acts_of t (tr ++ [(t', a)]) = acts_of t tr ++ (if t' =? t then [a] else []).
Proof. unfold acts_of. rewrite filter_app, map_app. cbn. destruct (t' =? t); reflexivity. Qed.

(** A registration the current call may still make. *)
Definition allowance (th : thread) : nat :=
  match th_call th with Some CAccept => 1 - List.length (inserts (th_acts th)) | _ => 0 end.

Lemma counted P oc tr w t : prims_ok P -> execution P oc start tr w -> well_typed tr ->
  (List.length (inserts (acts_of t tr)) + allowance (w_threads w t) <= accept_calls (acts_of t tr))%nat.
Proof.
  intros HP X. induction X as [|tr w t' a w' X IH S]; intros T; [cbn; lia|].
  apply typed_app in T as [T _]. specialize (IH T). rewrite acts_of_snoc, inserts_app, accept_calls_app, app_length.
  destruct (t' =? t) eqn:Et.
  2:{ apply N.eqb_neq in Et. assert (O : w_threads w' t = w_threads w t).
      { inversion S; subst; cbn [w_threads]; apply set_thread_other; auto. }
      rewrite O. cbn. lia. }
  apply N.eqb_eq in Et. subst t'.
  assert (K : forall k s, a = AInsert k s -> th_call (w_threads w t) = Some CAccept /\ inserts (th_acts (w_threads w t)) = []).
  { intros k s ->. destruct (C73_only_initials_open P oc tr w t k s w' HP X T S) as [A [B _]]. auto. }
  assert (D : (exists k s, a = AInsert k s) \/ inserts [a] = []).
  { destruct a; cbn; auto. left. eauto. }
  assert (G : (List.length (inserts (acts_of t tr)) + List.length (inserts [a]) +
      match th_call (w_threads w t) with Some CAccept => 1 - List.length (inserts (th_acts (w_threads w t) ++ [a])) | _ => 0 end
    <= accept_calls (acts_of t tr) + accept_calls [a])%nat).
  { rewrite inserts_app, app_length. unfold allowance in IH. destruct D as [[k0 [s0 D]]|D].
    - destruct (K _ _ D) as [E1 E2]. rewrite E1, E2 in *. subst a. cbn in *. lia.
    - rewrite D. cbn [List.length]. destruct (th_call (w_threads w t)) as [[]|]; lia. }
  unfold allowance in *. inversion S; subst; cbn [w_threads]; rewrite set_thread_same; cbn [th_call th_acts]; try exact G.
  destruct c; cbn; try lia; destruct (th_call (w_threads w t)) as [[]|]; lia.
Qed.

Lemma filtered {A} (f : A -> bool) l : (List.length (filter f l) <= List.length l)%nat.
Proof. induction l as [|x l IH]; cbn; [lia|]. destruct (f x); cbn; lia. Qed.

(** A comparison of counts that holds for every thread holds for the whole. *)
Lemma summed (f g : list action -> nat) tr :
  f [] = O -> (forall a l, f (a :: l) = f [a] + f l)%nat -> (forall a l, g (a :: l) = g [a] + g l)%nat ->
  (forall t, (f (acts_of t tr) <= g (acts_of t tr))%nat) -> (f (map snd tr) <= g (map snd tr))%nat.
Proof.
  intros F0 Fc Gc. remember (List.length tr) as n eqn:En. revert tr En.
  induction n as [n IH] using lt_wf_ind. intros tr -> H. destruct tr as [|[t a] tr]; [cbn; lia|].
  set (tr0 := (t, a) :: tr) in *. set (rest := filter (fun x => negb (fst x =? t)) tr0).
  assert (SPLIT : forall (m : list action -> nat), (forall b l, m (b :: l) = m [b] + m l)%nat -> forall l : list (N * action),
    m [] = O -> m (map snd l) = (m (acts_of t l) + m (map snd (filter (fun x => negb (fst x =? t)%N) l)))%nat).
  { intros m Mc l M0. induction l as [|[t' b] l IHl]; [cbn; rewrite M0; reflexivity|].
    cbn [map snd]. rewrite Mc, IHl. unfold acts_of. cbn [filter fst map]. destruct (t' =? t); cbn [negb map snd]; [rewrite (Mc b (map snd (filter _ _)))|rewrite (Mc b (map snd (filter (fun x => negb _) _)))]; lia. }
  assert (G0 : g [] = O) by (pose proof (Gc a []); lia).
  rewrite (SPLIT f Fc tr0 F0), (SPLIT g Gc tr0 G0). fold rest.
  assert (L : (List.length rest < List.length tr0)%nat).
  { unfold rest, tr0. cbn [filter fst]. rewrite N.eqb_refl. cbn [negb]. pose proof (filtered (fun x : N * action => negb (fst x =? t)) tr). cbn. lia. }
  assert (R : forall t', (f (acts_of t' rest) <= g (acts_of t' rest))%nat).
  { intros t'. destruct (N.eq_dec t' t) as [->|N].
    - assert (E : acts_of t rest = []).
      { unfold acts_of, rest. clear. induction tr0 as [|[t' b] l IHl]; [reflexivity|]. cbn [filter fst]. destruct (t' =? t) eqn:E; cbn [negb filter fst]; [exact IHl|rewrite E; exact IHl]. }
      rewrite E. lia.
    - assert (E : acts_of t' rest = acts_of t' tr0).
      { unfold acts_of, rest. clear - N. induction tr0 as [|[u b] l IHl]; [reflexivity|]. cbn [filter fst].
        destruct (u =? t) eqn:E; cbn [negb filter fst]; destruct (u =? t') eqn:E'; cbn [map snd]; try (rewrite IHl; reflexivity).
        apply N.eqb_eq in E, E'. congruence. }
      rewrite E. apply H. }
  specialize (IH _ L rest eq_refl R). specialize (H t). lia.
Qed.

(** No more connections were opened than [accept] was called, by any thread and
    in total. *)
Theorem C73_one_per_accept : forall P oc tr w, prims_ok P -> execution P oc start tr w -> well_typed tr ->
  (forall t, (List.length (inserts (acts_of t tr)) <= accept_calls (acts_of t tr))%nat) /\
  (List.length (inserts (map snd tr)) <= accept_calls (map snd tr))%nat.
Proof.
  intros P oc tr w HP X T.
  assert (EACH : forall t, (List.length (inserts (acts_of t tr)) <= accept_calls (acts_of t tr))%nat).
  { intros t. pose proof (counted P oc tr w t HP X T). lia. }
  split; [exact EACH|].
  apply (summed (fun l => List.length (inserts l)) accept_calls); auto.
  - intros a l. change (a :: l) with ([a] ++ l). rewrite inserts_app, app_length. reflexivity.
  - intros a l. change (a :: l) with ([a] ++ l). rewrite accept_calls_app. reflexivity.
Qed.
Print Assumptions C73_one_per_accept.
Example C73_case : exists tr w, execution real_prims true start tr w /\ well_typed tr /\ inserts (map snd tr) <> [].
Proof.
  destruct sample_dropped as [tr1 [w1 [w2 [c0 [acts [[X [T _]] [I1 _]]]]]]].
  exists tr1, w1. split; [exact X|]. split; [exact T|]. intros E.
  assert (H : In (U160 0 77, QStream [] (set_scid c0 (U160 0 77) 8)) (inserts (map snd tr1))).
  { unfold inserts. apply in_flat_map. eexists. split; [apply in_map_iff; eexists; split; [|exact I1]; reflexivity|]. left. reflexivity. }
  rewrite E in H. exact H.
Qed.

(** ** C74: no datagram is lost on the way through accept *)
(** Between a receive and the next, exactly the received datagram is routed. *)
Fixpoint conserving (p : prog) (last : list net_event) : Prop :=
  match p with
  | Done _ | Crash _ | Hang => True
  | Acq _ _ p | Rel _ p | Insert _ _ p | Remove _ p | SetLog _ p | Print _ p => conserving p last
  | Send k d p => exists ev, last = [ev] /\ routed ev (k, d) /\ conserving p []
  | LookTable f => forall T, conserving (f T) last
  | LookLog f => forall b, conserving (f b) last
  | RecvFrom f => last = [] /\ forall ev, conserving (f ev) [ev]
  | Rand f => forall r, conserving (f r) last
  | Goto LpReceive => last = []
  | Goto (LpChooseKey _) => True
  end.

Lemma loop_conserving P oc l last : conserving (Goto l) last -> conserving (code P oc l) last.
Proof.
  destruct l; cbn [code]; intros HL.
  - cbn in HL. subst last. unfold recv_new_initial_datagram, recv_datagram. cbn [conserving]. split; [reflexivity|].
    intros [sent addr|e]; cbn [conserving accept_with]; auto. intros flag.
    assert (ROUTE : conserving (route_datagram (Datagram (firstn (N.to_nat RECV_BUFFER) sent) addr) (fun r => unwrap_or_crash r (fun _ => Goto LpReceive))) [NetDatagram sent addr]).
    { unfold route_datagram. cbn [d_data]. header_cases h r EH; cbn; auto.
      intros T. destruct (get T (get_destination_id h)); cbn; auto. eexists. split; [reflexivity|]. split; [|reflexivity].
      exists h. split; [exists r; exact EH|reflexivity]. }
    assert (R : conserving (let after ret := if ret : bool then accept_with P oc (IoOk (Datagram (firstn (N.to_nat RECV_BUFFER) sent) addr))
         else route_datagram (Datagram (firstn (N.to_nat RECV_BUFFER) sent) addr) (fun r => unwrap_or_crash r (fun _ => Goto LpReceive)) in
       parse (next_header_said (firstn (N.to_nat RECV_BUFFER) sent))
          (fun e => Print (LogError e) (after false))
          (fun '(x, _) => unwrap_or_crash (get_packet_type x) (fun packet_type =>
             match packet_type with
             | TInitial =>
                 Acq LStreams Shared (LookTable (fun T =>
                   Rel LStreams (after (negb (contains_key T (get_destination_id x))))))
             | _ => after false
             end))) [NetDatagram sent addr]).
    { cbv zeta. header_cases x r EH; cbn [conserving]; auto.
      unfold unwrap_or_crash; rewrite ET; cbn [lift conserving]; auto.
      destruct t; auto. cbn [conserving]. intros T. destruct (negb _); auto.
      unfold accept_with. cbn [d_data]. rewrite (parse_header_ok _ _ _ _ _ EH). unfold unwrap_or_crash. cbn [lift]. destruct (connection_new _ _ _ _ _ _); cbn; auto. }
    destruct flag; cbn [conserving]; [log_cases EN; cbn [conserving]|]; exact R.
  - unfold choose_key, get_connection_id. cbn [conserving]. intros [v|]; cbn [conserving]; auto. intros T.
    destruct (negb _); cbn [conserving]; auto. intros T'. destruct (get T' _); cbn; auto.
Qed.

(** While [accept] runs, every datagram it has received so far has been put, whole
    and in order, in the queue of the connection its header names, except possibly
    the last one. *)
Theorem C74_conserved : forall P oc tr w t, prims_ok P -> execution P oc start tr w -> well_typed tr ->
  th_call (w_threads w t) = Some CAccept ->
  exists pre last, recvs (th_acts (w_threads w t)) = pre ++ last /\ (List.length last <= 1)%nat /\
    Forall2 routed pre (sends (th_acts (w_threads w t))).
Proof.
  intros P oc tr w t HP X T EC.
  destruct (local_inv P oc
    (fun c p _ acts => c = CAccept -> exists pre last, recvs acts = pre ++ last /\ (List.length last <= 1)%nat /\
       Forall2 routed pre (sends acts) /\ conserving p last) (fun _ _ => True)) with (tr := tr) (w := w) as [L _]; auto.
  - intros c ->. exists [], []. cbn. repeat split; auto.
  - intros c k p held acts a k' p' PS H Ec. destruct (H Ec) as [pre [last [R [LL [FA C]]]]].
    assert (SAME : recvs [a] = [] -> sends [a] = [] -> conserving p' last ->
      exists pre0 last0, recvs (acts ++ [a]) = pre0 ++ last0 /\ (List.length last0 <= 1)%nat /\ Forall2 routed pre0 (sends (acts ++ [a])) /\ conserving p' last0).
    { intros E1 E2 CC. exists pre, last. rewrite recvs_app, sends_app, E1, E2, !app_nil_r. auto. }
    destruct PS; cbn [conserving] in C; try (apply SAME; [reflexivity|reflexivity|solve [auto|exact I]]).
    + destruct C as [ev [-> [RT C]]]. exists (pre ++ [ev]), []. rewrite recvs_app, sends_app. cbn. rewrite !app_nil_r.
      repeat split; auto. apply Forall2_app; [exact FA|constructor; auto].
    + destruct C as [-> C]. exists pre, [ev]. rewrite recvs_app, sends_app. cbn. rewrite app_nil_r in *. rewrite R. auto.
    + apply SAME; [reflexivity|reflexivity|]. apply loop_conserving. exact C.
  - intros c l m p held acts H Ec. destruct (H Ec) as [pre [last [R [LL [FA C]]]]]. exists pre, last. rewrite recvs_app, sends_app. cbn. rewrite !app_nil_r. auto.
  - intros c l m p held acts acts' H _ Ec. destruct (H Ec) as [pre [last [R [LL [FA C]]]]]. exists pre, last. rewrite recvs_app, sends_app. cbn. rewrite !app_nil_r. auto.
  - intros c l m p held acts H Ec. destruct (H Ec) as [pre [last [R [LL [FA C]]]]]. exists pre, last. rewrite recvs_app, sends_app. cbn. rewrite !app_nil_r. auto.
  - intros c why held acts H. split; [|auto]. intros Ec. destruct (H Ec) as [pre [last [R [LL [FA C]]]]]. exists pre, last. rewrite recvs_app, sends_app. cbn. rewrite !app_nil_r. auto.
  - destruct (L t CAccept EC eq_refl) as [pre [last [R [LL [FA _]]]]]. eauto.
Qed.
Print Assumptions C74_conserved.
Example C74_case : exists tr w d, execution real_prims true start tr w /\ well_typed tr /\
  th_call (w_threads w 0) = Some CAccept /\ sends (th_acts (w_threads w 0)) = [(U160 0 77, d)].
Proof.
  destruct two_routed as [tr [w [c0 [acts [B _]]]]].
  destruct (solo_routes real_prims true _ (short_for 77) 9 (HShort (ShortHeader 0x40 (U160 0 77) true)) (QStream [short_77; short_77b] (set_scid c0 (U160 0 77) 8)) (eq_refl : log_traffic (ISocket [(U160 0 77, QStream [short_77; short_77b] (set_scid c0 (U160 0 77) 8))] false []) = false)) as [a [S [_ [SE _]]]].
  { exists [1; 2; 3]. vm_compute. reflexivity. }
  { reflexivity. }
  destruct (next_call real_prims true 0 tr w _ CAccept a _ _ B I S) as [w' [X [T [_ [_ [ET _]]]]]].
  eexists _, w', _. split; [exact X|]. split; [exact T|]. rewrite ET. split; [reflexivity|]. exact SE.
Qed.
