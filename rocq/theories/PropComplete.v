(** Calls in progress complete: C102. *)
From Verif Require Import Base Utils Frame CipherSuite Secrets Connection Packet Routing Threads
  Spec SpecPacket SpecRouting Tactics UtilsFacts HeaderFacts ConnectionFacts RoutingFacts RoutingSafe SoloFacts CryptoInst
  SampleRuns Printing PropRouting LocalFacts PropThreads.

(** Steps that take input: from the network or the random number generator. *)
Definition inputs (tr : list (N * action)) : list (N * action) :=
  filter (fun x => match snd x with ARecv _ | ARand _ => true | _ => false end) tr.
Definition no_call (tr : list (N * action)) : Prop := forall t c, ~ In (t, ACall c) tr.

(** [p] ends within [n] steps if the network and the random number generator
    fail, and within 16 steps of any other input. *)
Fixpoint fin (n : nat) (p : prog) : Prop :=
  match p with
  | Done _ | Hang => True
  | _ => match n with O => False | S n' =>
    match p with
    | Done _ | Hang | Crash _ => True
    | Acq _ _ p => (1 <= n')%nat /\ fin n' p
    | Rel _ p | Insert _ _ p | Remove _ p | Send _ _ p | SetLog _ p => fin n' p
    | Print _ p => (1 <= n')%nat /\ fin n' p
    | LookTable f => forall T, fin n' (f T)
    | LookLog f => forall b, fin n' (f b)
    | RecvFrom f => fin n' (f (NetError 0)) /\ forall ev, fin 16 (f ev)
    | Rand f => fin n' (f None) /\ forall r, fin 16 (f r)
    | Goto _ => (3 <= n')%nat
    end end
  end.

Lemma fin_mono p : forall n m, fin n p -> (n <= m)%nat -> fin m p.
Proof.
  induction p as [| | |l md p IH|l p IH|f IH|k s p IH|k p IH|k d p IH|f IH|b p IH|x p IH|f IH|f IH|]; intros n m W L;
    destruct n; destruct m; cbn in *; auto; try lia; try contradiction.
  all: try (destruct W as [W1 W2]; split; [lia|]; eapply IH; eauto; lia).
  all: try (eapply IH; eauto; lia).
  all: try (intros y; eapply IH; [apply W|lia]).
  all: destruct W as [W1 W2]; split; [eapply IH; eauto; lia|exact W2].
Qed.

Lemma loop_fin P oc l : fin 3 (code P oc l).
Proof.
  assert (ROUTE : forall d, fin 8 (route_datagram d (fun r => unwrap_or_crash r (fun _ => Goto LpReceive)))).
  { intros d. unfold route_datagram.
    header_cases h r EH; cbn; auto; [split; [lia|]|lia].
    intros T. destruct (get T (get_destination_id h)); cbn; auto. }
  assert (REFUSED : forall d e, next_header_from_stream (d_data d) = Err e ->
    fin 3 (route_datagram d (fun r => unwrap_or_crash r (fun _ => Goto LpReceive)))).
  { intros d e E. unfold route_datagram. header_cases h r EH; [congruence| |]; cbn; auto. }
  destruct l; cbn [code].
  - unfold recv_new_initial_datagram, recv_datagram. cbn [fin accept_with]. split; [lia|]. split; [exact I|].
    intros [sent addr|e]; cbn [fin accept_with]; auto.
    split; [lia|]. intros flag.
    assert (R : fin (match next_header_from_stream (firstn (N.to_nat RECV_BUFFER) sent) with Ok _ => 11 | _ => 8 end) (let after ret := if ret : bool then accept_with P oc (IoOk (Datagram (firstn (N.to_nat RECV_BUFFER) sent) addr))
         else route_datagram (Datagram (firstn (N.to_nat RECV_BUFFER) sent) addr) (fun r => unwrap_or_crash r (fun _ => Goto LpReceive)) in
       parse (next_header_said (firstn (N.to_nat RECV_BUFFER) sent))
          (fun e => Print (LogError e) (after false))
          (fun '(x, _) => unwrap_or_crash (get_packet_type x) (fun packet_type =>
             match packet_type with
             | TInitial =>
                 Acq LStreams Shared (LookTable (fun T =>
                   Rel LStreams (after (negb (contains_key T (get_destination_id x))))))
             | _ => after false
             end)))).
    { cbv zeta. header_cases x r EH; rewrite EH; cbn [fin]; auto.
      2:{ split; [lia|]. eapply fin_mono; [eapply REFUSED; exact EH|lia]. }
      2:{ split; [lia|]. split; [lia|]. eapply fin_mono; [eapply REFUSED; exact EH|lia]. }
      unfold unwrap_or_crash; rewrite ET; cbn [lift fin]; auto.
      destruct t; try (eapply fin_mono; [apply ROUTE|lia]). cbn [fin]. split; [lia|]. intros T.
      destruct (negb _); [|eapply fin_mono; [apply ROUTE|lia]].
      unfold accept_with. cbn [d_data]. rewrite (parse_header_ok _ _ _ _ _ EH). unfold unwrap_or_crash. cbn [lift].
      destruct (connection_new _ _ _ _ _ _); cbn; auto. }
    assert (LE : (match next_header_from_stream (firstn (N.to_nat RECV_BUFFER) sent) with Ok _ => 11 | _ => 8 end <= 11)%nat)
      by (destruct (next_header_from_stream _); lia).
    destruct flag; cbn [fin]; [log_cases EN; cbn [fin]; repeat (split; [lia|])|]; (eapply fin_mono; [exact R|]); try lia.
    destruct (next_header_from_stream _) as [x| | |] eqn:EH; try lia. destruct (EN x eq_refl).
  - unfold choose_key, get_connection_id. cbn [fin]. split; [exact I|]. intros [v|]; cbn [fin]; auto. split; [lia|]. intros T.
    destruct (negb _); cbn [fin]; [|lia]. split; [lia|]. split; [lia|]. intros T'. destruct (get T' _); cbn; auto.
Qed.

Lemma entry_fin oc c : fin 16 (entry oc c).
Proof.
  destruct c; cbn [entry accept_prog connect_prog drop_prog set_log_prog fin]; auto; try lia.
  - unfold route_datagram. header_cases h r EH; cbn; auto; [split; [lia|]|lia].
    intros T. destruct (get T (get_destination_id h)); cbn; auto.
  - unfold packets_from_datagram. header_cases h r EH; cbn [fin]; auto; [split; [lia|]|lia].
    intros T. destruct (get T (get_destination_id h)); cbn [fin]; auto. split; [lia|].
    packets_cases; (destruct (decode_packets oc _ _); cbn [lift fin]; repeat (split; [lia|]); auto; intros [|]; cbn; auto; lia).
Qed.

(** A step that begins no call: the bound goes down, unless input is taken. *)
Lemma fin_step P oc w t a w' n : step P oc w t a w' -> (forall c, a <> ACall c) -> fin n (th_prog (w_threads w t)) ->
  exists n', n = S n' /\
    fin (match a with ARecv _ | ARand _ => 16 | _ => n' end) (th_prog (w_threads w' t)) /\
    ((forall ev, a = ARecv ev -> ev = NetError 0) -> (forall r, a = ARand r -> r = None) -> fin n' (th_prog (w_threads w' t))).
Proof.
  intros S NC F. destruct n as [|n].
  { exfalso. inversion S as [c r Ep|p a' k p' Ep PS|l m p Ep Np G|l m p Ep Np|l m p held Ep Eh|why Ep]; subst;
      try (rewrite Ep in F; exact F); [exact (NC c eq_refl)|].
    inversion PS as [f E|k0 s p0 E|k0 p0 E|k0 d p0 q G E|f E|b p0 E|x p0 E|x p0 E|f ev E|f r E|l E]; rewrite <- E in F; exact F. }
  exists n. split; [reflexivity|].
  inversion S as [c r Ep|p a' k p' Ep PS|l m p Ep Np G|l m p Ep Np|l m p held Ep Eh|why Ep]; subst;
    cbn [w_threads]; rewrite set_thread_same; cbn [th_prog]; try (rewrite Ep in F; cbn [fin] in F).
  - destruct (NC c eq_refl).
  - inversion PS as [f E|k0 s p0 E|k0 p0 E|k0 d p0 q G E|f E|b p0 E|x p0 E|x p0 E|f ev E|f r E|l E]; subst;
      rewrite <- E in F; cbn [fin] in F; try (split; [apply F|intros; apply F]).
    + destruct F as [L _]. destruct n; [lia|]. split; intros; exact I.
    + split; [apply F|]. intros H _. rewrite (H ev eq_refl). apply F.
    + split; [apply F|]. intros _ H. rewrite (H r eq_refl). apply F.
    + split; [|intros _ _]; (eapply fin_mono; [apply loop_fin|exact F]).
  - split; [|intros _ _]; apply F.
  - destruct F as [L _]. destruct n; [lia|]. split; intros; exact I.
  - split; [|intros _ _]; apply F.
  - split; intros; exact I.
Qed.

(** In every state, every thread ends within 16 steps in that sense. *)
Lemma fin_reached P oc tr w t : prims_ok P -> execution P oc start tr w -> well_typed tr -> fin 16 (th_prog (w_threads w t)).
Proof.
  intros HP X. revert t. induction X as [|tr w t0 a w' X IH S]; intros t T; [exact I|].
  apply typed_app in T as [T _]. specialize (fun t => IH t T).
  destruct (N.eq_dec t t0) as [->|N].
  - destruct a; try (destruct (fin_step P oc w t0 _ w' 16 S ltac:(discriminate) (IH t0)) as [n' [E [F _]]];
      injection E as <-; solve [exact F | eapply fin_mono; [exact F|lia]]).
    inversion S as [c' r Ep|p a' k p' Ep PS| | | | ]; subst; [|inversion PS].
    cbn [w_threads]. rewrite set_thread_same. apply entry_fin.
  - inversion S; subst; cbn [w_threads]; rewrite set_thread_other by exact N; apply IH.
Qed.

(** Steps other than calls leave other threads, and the call in progress. *)
Lemma step_others P oc w t a w' t' : step P oc w t a w' -> t' <> t -> w_threads w' t' = w_threads w t'.
Proof. intros S N. inversion S; subst; cbn [w_threads]; apply set_thread_other; exact N. Qed.
Lemma step_same_call P oc w t a w' t' : step P oc w t a w' -> (forall c, a <> ACall c) ->
  th_call (w_threads w' t') = th_call (w_threads w t').
Proof.
  intros S NC. destruct (N.eq_dec t' t) as [->|N]; [|rewrite (step_others P oc w t a w' t' S N); reflexivity].
  inversion S as [c r Ep|p a' k p' Ep PS| | | | ]; subst; cbn [w_threads]; rewrite set_thread_same; try reflexivity.
  destruct (NC c eq_refl).
Qed.
Lemma idle_stays P oc w t a w' : step P oc w t a w' -> (forall c, a <> ACall c) -> ~ idle (w_threads w t).
Proof.
  intros S NC [r E]. inversion S as [c r' Ep|p a' k p' Ep PS| | | | ]; subst; try congruence.
  rewrite E in PS. inversion PS.
Qed.
Lemma idle_dec th : idle th \/ ~ idle th.
Proof. unfold idle. destruct (th_prog th); try (right; intros [r' E]; discriminate E). left. eauto. Qed.

(** Sums over threads. *)
Definition total (pot : N -> nat) (ts : list N) : nat := fold_right (fun t s => (pot t + s)%nat) 0%nat ts.
Definition upd (pot : N -> nat) (t : N) (v : nat) : N -> nat := fun t' => if t' =? t then v else pot t'.
Lemma total_upd_out pot t v ts : ~ In t ts -> total (upd pot t v) ts = total pot ts.
Proof.
  induction ts as [|a ts IH]; intros H; [reflexivity|]. cbn [total fold_right]. unfold total in IH. rewrite IH by (intros Y; apply H; right; exact Y).
  unfold upd at 1. destruct (N.eqb_spec a t) as [->|_]; [destruct H; left; reflexivity|reflexivity].
Qed.
Lemma total_upd pot t v ts : NoDup ts -> In t ts -> (total (upd pot t v) ts + pot t = total pot ts + v)%nat.
Proof.
  induction ts as [|a ts IH]; intros ND H; [contradiction|]. apply NoDup_cons_iff in ND as [NI ND].
  cbn [total fold_right]. fold (total (upd pot t v) ts). fold (total pot ts).
  destruct (N.eq_dec a t) as [->|N].
  - rewrite total_upd_out by exact NI. unfold upd. rewrite N.eqb_refl. lia.
  - destruct H as [H|H]; [contradiction|]. specialize (IH ND H). unfold upd at 1. destruct (N.eqb_spec a t) as [E|_]; [contradiction|]. lia.
Qed.
Lemma total_const ts n : total (fun _ => n) ts = (n * length ts)%nat.
Proof. induction ts as [|a ts IH]; cbn; [lia|]. unfold total in IH. rewrite IH. lia. Qed.

Lemma inputs_app a b : inputs (a ++ b) = inputs a ++ inputs b. Proof. apply filter_app. Qed.
Lemma no_call_app a b : no_call (a ++ b) -> no_call a /\ no_call b.
Proof. intros H. split; intros t c Y; apply (H t c); apply in_or_app; auto. Qed.
Lemma no_call_check tr : forallb (fun x => match snd x with ACall _ => false | _ => true end) tr = true -> no_call tr.
Proof. intros H t c Hin. rewrite forallb_forall in H. specialize (H _ Hin). discriminate H. Qed.
Lemma typed_no_call tr tr' : well_typed tr -> no_call tr' -> well_typed (tr ++ tr').
Proof. intros T NC t d H. apply in_app_or in H as [H|H]; [exact (T t d H)|]. destruct (NC t (CPackets d) H). Qed.

Lemma potentials P oc tr w tr' w' ts : prims_ok P -> execution P oc start tr w -> well_typed tr ->
  execution P oc w tr' w' -> no_call tr' -> NoDup ts -> (forall t, ~ idle (w_threads w t) -> In t ts) ->
  exists pot, (forall t, fin (pot t) (th_prog (w_threads w' t))) /\
    (forall t, ~ idle (w_threads w' t) -> In t ts) /\
    (total pot ts + length tr' <= 16 * (length ts + length (inputs tr')))%nat.
Proof.
  intros HP X T X'. induction X' as [|tr' w1 t a w2 X' IH S]; intros NC ND BZ.
  { exists (fun _ => 16%nat). split; [intros t; eapply fin_reached; eauto|]. split; [exact BZ|]. rewrite total_const. cbn. lia. }
  apply no_call_app in NC as [NC NC1]. destruct (IH NC ND BZ) as [pot [F [BZ1 L]]].
  assert (NA : forall c, a <> ACall c) by (intros c ->; apply (NC1 t c); left; reflexivity).
  pose proof (BZ1 t (idle_stays P oc w1 t a w2 S NA)) as Hin.
  destruct (fin_step P oc w1 t a w2 (pot t) S NA (F t)) as [n' [En [F' _]]].
  set (v := match a with ARecv _ | ARand _ => 16%nat | _ => n' end) in *.
  exists (upd pot t v). split; [|split].
  - intros t'. unfold upd. destruct (N.eqb_spec t' t) as [->|N]; [exact F'|]. rewrite (step_others P oc w1 t a w2 t' S N). apply F.
  - intros t' NI. destruct (N.eq_dec t' t) as [->|N]; [exact Hin|]. apply BZ1. rewrite <- (step_others P oc w1 t a w2 t' S N). exact NI.
  - pose proof (total_upd pot t v ts ND Hin) as TU. rewrite app_length, inputs_app, app_length.
    destruct a; cbn [inputs filter snd length] in *; unfold v in *; lia.
Qed.

(** Without new calls, threads take at most 16 steps for each call in progress
    and each input, however they are scheduled. *)
Theorem C102_runs_end : forall P oc tr w tr' w' ts, prims_ok P -> execution P oc start tr w -> well_typed tr ->
  (forall t, ~ idle (w_threads w t) -> In t ts) ->
  execution P oc w tr' w' -> no_call tr' ->
  len tr' <= 16 * (len ts + len (inputs tr')).
Proof.
  intros P oc tr w tr' w' ts HP X T BZ X' NC.
  destruct (potentials P oc tr w tr' w' (nodup N.eq_dec ts) HP X T X' NC (NoDup_nodup _ _)) as [pot [_ [_ L]]].
  { intros t NI. apply nodup_In. auto. }
  pose proof (NoDup_incl_length (NoDup_nodup N.eq_dec ts) (l' := ts) ltac:(intros t; apply nodup_In)). unfold len. lia.
Qed.
Print Assumptions C102_runs_end.

(** Inputs are taken by [accept] only. *)
Theorem C102_inputs_accept : forall P oc tr w tr' w' t a, prims_ok P -> execution P oc start tr w -> well_typed tr ->
  execution P oc w tr' w' -> no_call tr' -> In (t, a) (inputs tr') -> th_call (w_threads w t) = Some CAccept.
Proof.
  intros P oc tr w tr' w' t a HP X T X'. revert t a. induction X' as [|tr' w1 t0 b w2 X' IH S]; intros t a NC H; [contradiction|].
  apply no_call_app in NC as [NC NC1]. rewrite inputs_app in H. apply in_app_or in H as [H|H]; [eauto|].
  assert (SAME : th_call (w_threads w1 t) = th_call (w_threads w t)).
  { clear -X' NC. revert NC. induction X' as [|tr' w1 t0 b w2 X' IH S]; intros NC; [reflexivity|].
    apply no_call_app in NC as [NC NC1]. rewrite <- (IH NC). apply (step_same_call P oc w1 t0 b w2 t S).
    intros c ->. apply (NC1 t0 c). left. reflexivity. }
  rewrite <- SAME. apply filter_In in H as [H0 H]. destruct H0 as [H0|[]]. injection H0 as -> ->.
  pose proof (execution_app _ _ _ _ _ _ _ X X') as X1. pose proof (typed_no_call _ _ T NC) as T1.
  assert (NI : ~ idle (w_threads w1 t)) by (eapply idle_stays; [exact S|intros c ->; apply (NC1 t c); left; reflexivity]).
  destruct (has_call _ _ _ _ _ _ w1 t (inv_reached P oc _ w1 HP X1 T1)) as [c Ec]; [intros r E; apply NI; exists r; exact E|].
  pose proof (net_inv P oc _ w1 t c HP X1 T1 Ec) as [NT _]. rewrite Ec.
  destruct c; try reflexivity; exfalso; cbn [is_accept negb] in NT;
    (inversion S as [c r Ep|p a' k p' Ep PS| | | | ]; subst; try discriminate H;
     inversion PS as [f E|k0 s p0 E|k0 p0 E|k0 d0 p0 q G E|f E|b0 p0 E|x p0 E|x p0 E|f ev E|f r E|l E]; subst; try discriminate H;
     rewrite <- E in NT; cbn [net] in NT; destruct NT as [NT _]; discriminate NT).
Qed.
Print Assumptions C102_inputs_accept.

(** Choose the inputs of a step. *)
Lemma steer P oc w t a w' : step P oc w t a w' -> (forall c, a <> ACall c) ->
  exists a' w2, step P oc w t a' w2 /\ (forall c, a' <> ACall c) /\
    (forall ev, a' = ARecv ev -> ev = NetError 0) /\ (forall r, a' = ARand r -> r = None).
Proof.
  intros S NC.
  destruct a; try (do 2 eexists; split; [exact S|]; split; [exact NC|]; split; [intros ? H|intros ? H]; discriminate H).
  - inversion S as [c r Ep|p a' k p' Ep PS| | | | ]; subst. inversion PS as [| | | | | | | |f ev' E| |]; subst.
    do 2 eexists. split; [eapply s_data; [reflexivity|rewrite <- E; apply (p_recv P oc _ f (NetError 0))]|].
    split; [discriminate|]. split; [intros ? [= <-]; reflexivity|discriminate].
  - inversion S as [c r' Ep|p a' k p' Ep PS| | | | ]; subst. inversion PS as [| | | | | | | | |f r' E|]; subst.
    do 2 eexists. split; [eapply s_data; [reflexivity|rewrite <- E; apply (p_rand P oc _ f None)]|].
    split; [discriminate|]. split; [discriminate|intros ? [= <-]; reflexivity].
Qed.

Lemma all_idle_dec w ts : (forall t, In t ts -> idle (w_threads w t)) \/ exists t, In t ts /\ ~ idle (w_threads w t).
Proof.
  induction ts as [|t ts [IH|[t' [A B]]]]; [left; intros t []| |right; exists t'; split; [right; exact A|exact B]].
  destruct (idle_dec (w_threads w t)) as [Y|Y]; [|right; exists t; split; [left; reflexivity|exact Y]].
  left. intros t' [<-|A]; auto.
Qed.

Lemma completes P oc ts n : prims_ok P -> NoDup ts ->
  forall tr w pot, execution P oc start tr w -> well_typed tr -> (forall t, ~ idle (w_threads w t) -> In t ts) ->
  (forall t, fin (pot t) (th_prog (w_threads w t))) -> (total pot ts <= n)%nat ->
  exists tr' w', execution P oc w tr' w' /\ no_call tr' /\ forall t, idle (w_threads w' t).
Proof.
  intros HP ND. induction n as [|n IH]; intros tr w pot X T BZ F L.
  all: destruct (all_idle_dec w ts) as [AI|[t [Hin NI]]];
    [exists [], w; split; [apply ex_nil|]; split; [intros t c []|]; intros t; destruct (idle_dec (w_threads w t)) as [Y|Y]; auto|].
  all: destruct (C47_no_deadlock P oc tr w t HP X T NI) as [t1 [a [w1 [S [NC _]]]]];
    destruct (steer P oc w t1 a w1 S NC) as [a' [w2 [S' [NC' [HR HD]]]]]; clear S NC a w1;
    pose proof (BZ t1 (idle_stays P oc w t1 a' w2 S' NC')) as Hin1;
    destruct (fin_step P oc w t1 a' w2 (pot t1) S' NC' (F t1)) as [n' [En [_ F']]]; specialize (F' HR HD);
    pose proof (total_upd pot t1 n' ts ND Hin1) as TU; try (exfalso; lia).
  assert (NC1 : no_call [(t1, a')]) by (intros t2 c [[= -> ->]|[]]; exact (NC' c eq_refl)).
  destruct (IH (tr ++ [(t1, a')]) w2 (upd pot t1 n')) as [tr' [w' [X' [NC2 I']]]].
  - eapply ex_snoc; eauto.
  - apply typed_no_call; assumption.
  - intros t' NI'. destruct (N.eq_dec t' t1) as [->|N]; [exact Hin1|]. apply BZ. rewrite <- (step_others P oc w t1 a' w2 t' S' N). exact NI'.
  - intros t'. unfold upd. destruct (N.eqb_spec t' t1) as [->|N]; [exact F'|]. rewrite (step_others P oc w t1 a' w2 t' S' N). apply F.
  - lia.
  - exists ((t1, a') :: tr'), w'. split; [eapply execution_cons; eauto|]. split; [|exact I'].
    intros t2 c [[= -> ->]|H]; [exact (NC' c eq_refl)|exact (NC2 t2 c H)].
Qed.

(** From every state, the calls in progress can be completed. *)
Theorem C102_completable : forall P oc tr w, prims_ok P -> execution P oc start tr w -> well_typed tr ->
  exists tr' w', execution P oc w tr' w' /\ no_call tr' /\ forall t, idle (w_threads w' t).
Proof.
  intros P oc tr w HP X T.
  apply (completes P oc (nodup N.eq_dec (map fst tr)) _ HP (NoDup_nodup _ _) tr w (fun _ => 16%nat) X T) with (3 := Nat.le_refl _).
  - intros t NI. apply nodup_In. destruct (in_dec N.eq_dec t (map fst tr)) as [Y|Y]; [exact Y|].
    destruct NI. rewrite (untouched P oc tr w t X Y). eexists. reflexivity.
  - intros t. eapply fin_reached; eauto.
Qed.
Print Assumptions C102_completable.

(** If no [accept] is in progress, every way of scheduling the calls in progress
    completes them: it ends, and it ends only when all are done. *)
Theorem C102_every_schedule : forall P oc tr w tr' w' ts, prims_ok P -> execution P oc start tr w -> well_typed tr ->
  (forall t, ~ idle (w_threads w t) -> In t ts /\ th_call (w_threads w t) <> Some CAccept) ->
  execution P oc w tr' w' -> no_call tr' ->
  len tr' <= 16 * len ts /\
  ((forall t a w2, step P oc w' t a w2 -> exists c, a = ACall c) -> forall t, idle (w_threads w' t)).
Proof.
  intros P oc tr w tr' w' ts HP X T BZ X' NC. split.
  - pose proof (C102_runs_end P oc tr w tr' w' ts HP X T (fun t NI => proj1 (BZ t NI)) X' NC) as L.
    destruct (inputs tr') as [|[t a] rest] eqn:E; [unfold len in *; cbn in L; lia|]. exfalso.
    assert (Hin : In (t, a) (inputs tr')) by (rewrite E; left; reflexivity).
    assert (W : forall t, In t (map fst tr') -> ~ idle (w_threads w t)).
    { clear -X' NC. revert NC. induction X' as [|tr' w1 t0 b w2 X' IH S]; intros NC t H; [contradiction|].
      apply no_call_app in NC as [NC NC1].
      assert (NB : forall c, b <> ACall c) by (intros c ->; apply (NC1 t0 c); left; reflexivity).
      rewrite map_app in H. apply in_app_or in H as [H|[<-|[]]]; [exact (IH NC t H)|]. cbn [fst].
      intros Y. apply (idle_stays P oc w1 t0 b w2 S NB).
      assert (KEEP : forall tr' w1, execution P oc w tr' w1 -> no_call tr' -> idle (w_threads w1 t0)).
      { intros tr'' w'' X''. induction X'' as [|tr'' w3 t3 b3 w4 X'' IH'' S'']; intros NC''; [exact Y|].
        apply no_call_app in NC'' as [NC'' NC3]. specialize (IH'' NC'').
        destruct (N.eq_dec t0 t3) as [<-|N]; [|rewrite (step_others P oc w3 t3 b3 w4 t0 S'' N); exact IH''].
        exfalso. apply (idle_stays P oc w3 t0 b3 w4 S''); [intros c ->; apply (NC3 t0 c); left; reflexivity|exact IH'']. }
      eapply KEEP; eauto. }
    assert (Hm : In t (map fst tr')) by (pose proof Hin as Hin2; apply filter_In in Hin2 as [Hin2 _]; apply (in_map fst) in Hin2; exact Hin2).
    apply (proj2 (BZ t (W t Hm))). eapply C102_inputs_accept; eauto.
  - intros STUCK t. destruct (idle_dec (w_threads w' t)) as [Y|NI]; [exact Y|]. exfalso.
    destruct (C47_no_deadlock P oc (tr ++ tr') w' t HP (execution_app _ _ _ _ _ _ _ X X') (typed_no_call _ _ T NC) NI) as [t1 [a [w1 [S [NA _]]]]].
    destruct (STUCK t1 a w1 S) as [c E]. exact (NA c E).
Qed.
Print Assumptions C102_every_schedule.

(** One thread about to drop a stream, one about to change the log switch, one
    waiting for the network in [accept]. *)
Example C102_case : exists tr w, execution real_prims true start tr w /\ well_typed tr /\
  (forall t, ~ idle (w_threads w t) -> In t [0; 1; 2]) /\ ~ idle (w_threads w 0) /\ ~ idle (w_threads w 1) /\ ~ idle (w_threads w 2) /\
  th_call (w_threads w 0) = Some CAccept.
Proof.
  eexists _, _. split.
  { eapply (execution_cons _ _ _ 0); [eapply (s_call _ _ _ _ CAccept); reflexivity|].
    eapply (execution_cons _ _ _ 1); [eapply (s_call _ _ _ _ (CDropStream (U160 0 77))); reflexivity|].
    eapply (execution_cons _ _ _ 2); [eapply (s_call _ _ _ _ (CSetLog true)); reflexivity|].
    eapply (execution_cons _ _ _ 0); [eapply s_data; [reflexivity|apply p_goto]|].
    apply ex_nil. }
  split; [intros t d H; cbn in H; repeat (destruct H as [H|H]; [discriminate H|]); destruct H|].
  split.
  { intros t NI. destruct (N.eq_dec t 0) as [->|N0]; [left; reflexivity|]. destruct (N.eq_dec t 1) as [->|N1]; [right; left; reflexivity|].
    destruct (N.eq_dec t 2) as [->|N2]; [right; right; left; reflexivity|]. destruct NI. cbn [w_threads].
    rewrite !set_thread_other by assumption. eexists. reflexivity. }
  split; [intros [r E]; discriminate E|]. split; [intros [r E]; discriminate E|]. split; [intros [r E]; discriminate E|]. reflexivity.
Qed.
(** A drop and a change of the log switch in progress: the drop takes its three steps. *)
Example C102_schedule_case : exists tr w tr' w', execution real_prims true start tr w /\ well_typed tr /\
  (forall t, ~ idle (w_threads w t) -> In t [1; 2] /\ th_call (w_threads w t) <> Some CAccept) /\
  ~ idle (w_threads w 1) /\ ~ idle (w_threads w 2) /\
  execution real_prims true w tr' w' /\ no_call tr' /\ len tr' = 3 /\ idle (w_threads w' 1) /\ ~ idle (w_threads w' 2).
Proof.
  eexists _, _, _, _. split.
  { eapply (execution_cons _ _ _ 1); [eapply (s_call _ _ _ _ (CDropStream (U160 0 77))); reflexivity|].
    eapply (execution_cons _ _ _ 2); [eapply (s_call _ _ _ _ (CSetLog true)); reflexivity|].
    apply ex_nil. }
  split; [intros t d H; cbn in H; repeat (destruct H as [H|H]; [discriminate H|]); destruct H|].
  split.
  { intros t NI. destruct (N.eq_dec t 1) as [->|N1]; [split; [left; reflexivity|discriminate]|].
    destruct (N.eq_dec t 2) as [->|N2]; [split; [right; left; reflexivity|discriminate]|]. destruct NI. cbn [w_threads].
    rewrite !set_thread_other by assumption. eexists. reflexivity. }
  split; [intros [r E]; discriminate E|]. split; [intros [r E]; discriminate E|].
  split.
  { eapply (execution_cons _ _ _ 1); [eapply s_acq; [reflexivity|reflexivity|]|].
    { intros t m H. exfalso. cbn [w_threads set_thread] in H. unfold set_thread in H.
      repeat match type of H with context [if ?b then _ else _] => destruct b end; destruct H. }
    eapply (execution_cons _ _ _ 1); [eapply s_data; [reflexivity|apply p_remove]|].
    eapply (execution_cons _ _ _ 1); [eapply s_rel; reflexivity|].
    apply ex_nil. }
  split; [apply no_call_check; reflexivity|].
  split; [reflexivity|]. split; [eexists; reflexivity|]. intros [r E]. discriminate E.
Qed.
