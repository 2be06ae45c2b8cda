(** C96-C98: what the socket keeps for connections. *)
From Verif Require Import Base Utils Frame CipherSuite Secrets Connection Packet Routing Threads
  Spec SpecPacket SpecRouting Tactics UtilsFacts HeaderFacts ConnectionFacts RoutingFacts RoutingSafe SoloFacts CryptoInst
  SampleRuns PropRouting PropIntake PropAtomic.

(** Some call has returned a stream with id [k] to the user. *)
Definition returned (P : prims) (oc : bool) (tr : list (N * action)) (k : u160) : Prop :=
  exists tr1 tr2 w t c, tr = tr1 ++ tr2 /\ execution P oc start tr1 w /\
    th_call (w_threads w t) = Some c /\ (c = CAccept \/ c = CConnect) /\ th_prog (w_threads w t) = Done (RId (IoOk k)).

(** What a program using the crate can do: accept, connect, flip the logging switch, drop streams
    it was given. *)
Definition user_run (P : prims) (oc : bool) (tr : list (N * action)) : Prop :=
  forall tr1 t c tr2, tr = tr1 ++ (t, ACall c) :: tr2 ->
    match c with
    | CAccept | CConnect | CSwitchLog _ => True
    | CDropStream k => returned P oc tr1 k
    | CRoute _ | CPackets _ | CSetLog _ => False
    end.

Lemma user_app P oc a b : user_run P oc (a ++ b) -> user_run P oc a.
Proof. intros U tr1 t c tr2 ->. apply (U tr1 t c (tr2 ++ b)). rewrite <- app_assoc. reflexivity. Qed.
Lemma user_public P oc tr : user_run P oc tr -> public_run tr /\ well_typed tr.
Proof.
  intros U. split; [intros t H | intros t d H]; apply in_split in H as [a [b E]]; destruct (U _ _ _ _ E).
Qed.

(** Nothing is ever returned, so no connection is ever dropped. *)
Lemma none_returned P oc tr k : prims_ok P -> user_run P oc tr -> ~ returned P oc tr k.
Proof.
  intros HP U (tr1 & tr2 & w & t & c & -> & X & Ec & D & Ed). apply user_app in U. destruct (user_public _ _ _ U) as [PR T].
  pose proof (finished P oc tr1 w t c _ HP X T PR Ec Ed) as K. destruct D as [-> | ->]; cbn in K.
  - destruct K as [_ []].
  - destruct K as [K _]. discriminate K.
Qed.
Lemma none_dropped P oc tr t k : prims_ok P -> user_run P oc tr -> ~ In (t, ACall (CDropStream k)) tr.
Proof.
  intros HP U H. apply in_split in H as [a [b ->]]. pose proof (U a t _ b eq_refl) as R. cbn in R.
  revert R. apply none_returned; auto. eapply user_app; eauto.
Qed.

Lemma kept_step P oc tr w t a w' k s : prims_ok P -> execution P oc start tr w -> user_run P oc tr -> step P oc w t a w' ->
  registered w k = Some s -> exists more, registered w' k = Some (QStream (q_queue s ++ more) (q_conn s)).
Proof.
  intros HP X U S G. destruct (user_public _ _ _ U) as [PR T].
  assert (SAME : same_view (registered w) (registered w') -> exists more, registered w' k = Some (QStream (q_queue s ++ more) (q_conn s))).
  { intros V. exists []. rewrite V, app_nil_r, G. destruct s; reflexivity. }
  pose proof (C93_changes_atomic P oc tr w t a w' HP X T S) as K. destruct a; auto.
  - destruct K as [_ K]. auto.
  - destruct K as [N [[_ K] _]]. exists []. rewrite app_nil_r. rewrite K; [rewrite G; destruct s; reflexivity|].
    intros ->. congruence.
  - destruct K as [_ Ec]. destruct (at_call P oc tr w t _ X Ec) as [a [w0 [w0' [b [-> _]]]]].
    exfalso. eapply none_dropped; [exact HP|exact U|]. apply in_elt.
  - destruct K as [O _]. inversion O as [? ? ? h s' HH G' [C1 C2]| | | | | | | | | | | | |]; subst.
    destruct (same_id (get_destination_id h) k) as [<-|N].
    + rewrite G in G'. injection G' as <-. exists [d]. exact C1.
    + exists []. rewrite app_nil_r, C2, G; [destruct s; reflexivity|congruence].
Qed.

(** ** C96: connections can be closed *)
Definition C96_statement : Prop := forall P oc tr w k s, prims_ok P -> execution P oc start tr w -> user_run P oc tr ->
  registered w k = Some s ->
  exists tr2 w2, execution P oc w tr2 w2 /\ user_run P oc (tr ++ tr2) /\ registered w2 k = None.

(** They stay for ever, with all datagrams delivered to them. *)
Theorem C96_never_closed : forall P oc tr w k s tr2 w2, prims_ok P -> execution P oc start tr w ->
  execution P oc w tr2 w2 -> user_run P oc (tr ++ tr2) -> registered w k = Some s ->
  exists more, registered w2 k = Some (QStream (q_queue s ++ more) (q_conn s)).
Proof.
  intros P oc tr w k s tr2 w2 HP X X2 U G. revert U. induction X2 as [|tr2 w2 t a w3 X2 IH S]; intros U.
  - exists []. rewrite app_nil_r, G. destruct s; reflexivity.
  - rewrite app_assoc in U. pose proof (user_app _ _ _ _ U) as U1. destruct (IH U1) as [more1 G1].
    destruct (kept_step P oc (tr ++ tr2) w2 t a w3 k _ HP (execution_app _ _ _ _ _ _ _ X X2) U1 S G1) as [more2 G2].
    exists (more1 ++ more2). rewrite app_assoc. exact G2.
Qed.
Print Assumptions C96_never_closed.

(** ** Runs made of accepts *)
Definition only_accepts (tr : list (N * action)) : Prop := forall t c, In (t, ACall c) tr -> c = CAccept.
Lemma accepts_user P oc tr : only_accepts tr -> user_run P oc tr.
Proof. intros A tr1 t c tr2 ->. rewrite (A t c) by apply in_elt. exact I. Qed.
Lemma accepts_app a b : only_accepts a -> only_accepts b -> only_accepts (a ++ b).
Proof. intros A B t c H. apply in_app_or in H as [H|H]; eauto. Qed.
Lemma accepts_solo P oc t k h acts k' p h' p0 : solo P oc k p0 h acts k' p h' -> only_accepts ((t, ACall CAccept) :: map (pair t) acts).
Proof.
  intros S t' c [H|H]; [congruence|]. apply in_map_iff in H as [a [E H]]. injection E as _ ->.
  destruct (solo_no_call _ _ _ _ _ _ _ _ _ S c H).
Qed.

Theorem C96_closed_refuted : ~ C96_statement.
Proof.
  intros H. destruct (connection_new_ok real_prims true true (U160 0 0x0102030405060708) 8 real_prims_ok ltac:(lia)) as [c0 EC].
  destruct (solo_opens real_prims true bind_socket client_initial 5 initial_header c0 77 eq_refl client_initial_header eq_refl eq_refl EC eq_refl)
    as [acts [S _]].
  destruct (next_call real_prims true 0 [] start bind_socket CAccept acts _ _ (between_start _ _ _) I S) as [w [X [_ [_ [EK _]]]]].
  assert (A : only_accepts ([] ++ (0, ACall CAccept) :: map (pair 0) acts)) by (eapply accepts_solo; exact S).
  assert (G : registered w (U160 0 77) = Some (QStream [] (set_scid c0 (U160 0 77) 8))) by (unfold registered; rewrite EK; reflexivity).
  destruct (H real_prims true _ w _ _ real_prims_ok X (accepts_user _ _ _ A) G) as [tr2 [w2 [X2 [U N]]]].
  destruct (C96_never_closed real_prims true _ w _ _ tr2 w2 real_prims_ok X X2 U G) as [more K]. congruence.
Qed.
Print Assumptions C96_closed_refuted.
Example C96_case : exists tr w s tr2 w2, execution real_prims true start tr w /\ execution real_prims true w tr2 w2 /\
  user_run real_prims true (tr ++ tr2) /\ registered w (U160 0 77) = Some s /\ In (0, ACall CAccept) tr2.
Proof.
  destruct (connection_new_ok real_prims true true (U160 0 0x0102030405060708) 8 real_prims_ok ltac:(lia)) as [c0 EC].
  destruct (solo_opens real_prims true bind_socket client_initial 5 initial_header c0 77 eq_refl client_initial_header eq_refl eq_refl EC eq_refl)
    as [acts [S _]].
  destruct (next_call real_prims true 0 [] start bind_socket CAccept acts _ _ (between_start _ _ _) I S) as [w [X [T [PR [EK [ET [A F]]]]]]].
  assert (OA : only_accepts ([] ++ (0, ACall CAccept) :: map (pair 0) acts)) by (eapply accepts_solo; exact S).
  pose proof (s_call real_prims true w 0 CAccept (RPanic "not yet implemented")) as S2. rewrite ET in S2. specialize (S2 eq_refl).
  eexists _, w, _, [(0, ACall CAccept)], _. split; [exact X|]. split; [eapply (ex_snoc _ _ _ []); [constructor|exact S2]|].
  split; [|split; [unfold registered; rewrite EK; reflexivity|left; reflexivity]].
  apply accepts_user. apply accepts_app; [exact OA|]. intros t c [H|[]]. congruence.
Qed.

(** ** C97: the socket keeps only connections the program holds *)
Definition C97_statement : Prop := forall P oc tr w k s, prims_ok P -> execution P oc start tr w -> user_run P oc tr ->
  registered w k = Some s ->
  returned P oc tr k \/
  exists t, th_call (w_threads w t) = Some CAccept /\ In (k, s) (inserts (th_acts (w_threads w t))) /\ ~ idle (w_threads w t).

(** It keeps every connection ever opened. *)
Definition opened_ids (tr : list (N * action)) : list u160 := map fst (inserts (map snd tr)).

Theorem C97_all_kept : forall P oc tr w, prims_ok P -> execution P oc start tr w -> user_run P oc tr ->
  map fst (streams (w_sock w)) = rev (opened_ids tr).
Proof.
  intros P oc tr w HP X. induction X as [|tr w t a w' X IH S]; intros U; [reflexivity|].
  pose proof (user_app _ _ _ _ U) as U1. specialize (IH U1). destruct (user_public _ _ _ U1) as [PR T].
  assert (E : opened_ids (tr ++ [(t, a)]) = opened_ids tr ++ map fst (inserts [a])).
  { unfold opened_ids. rewrite map_app, inserts_app, map_app. reflexivity. }
  rewrite E, rev_app_distr, <- IH. pose proof (step_table P oc w t a w' S) as ST.
  pose proof (C93_changes_atomic P oc tr w t a w' HP X T S) as K.
  destruct a; try (rewrite ST; reflexivity).
  - destruct K as [N _]. rewrite ST. cbn. unfold insert_key. rewrite remove_absent; [reflexivity|]. apply get_none. exact N.
  - destruct K as [_ Ec]. destruct (at_call P oc tr w t _ X Ec) as [a [w0 [w0' [b [-> _]]]]].
    exfalso. eapply none_dropped; [exact HP|exact U1|]. apply in_elt.
  - destruct ST as [ST _]. rewrite ST. cbn. apply keys_send.
Qed.
Print Assumptions C97_all_kept.

(** A client sending the same Initial datagram [n] times makes a program that keeps
    accepting hold [n] connections. *)
Theorem C97_unbounded : forall n, n <= 2 ^ 56 ->
  exists tr w, execution real_prims true start tr w /\ user_run real_prims true tr /\
    recvs (acts_of 0 tr) = repeat (NetDatagram client_initial 5) (N.to_nat n) /\ len (streams (w_sock w)) = n /\
    idle (w_threads w 0) /\ (forall t, t <> 0 -> w_threads w t = fresh_thread).
Proof.
  destruct (connection_new_ok real_prims true true (U160 0 0x0102030405060708) 8 real_prims_ok ltac:(lia)) as [c0 EC].
  assert (H : forall m : nat, N.of_nat m <= 2 ^ 56 -> exists tr w k, between real_prims true 0 tr w k /\ only_accepts tr /\
    recvs (acts_of 0 tr) = repeat (NetDatagram client_initial 5) m /\ len (streams k) = N.of_nat m /\ log_traffic k = false /\
    (forall x s, get (streams k) x = Some s -> exists v, x = U160 0 v /\ v < N.of_nat m)).
  { induction m as [|m IH]; intros L.
    - exists [], start, bind_socket. split; [apply between_start|]. split; [intros t c []|].
      split; [reflexivity|]. split; [reflexivity|]. split; [reflexivity|]. discriminate.
    - destruct IH as [tr [w [k [B [OA [R [LK [LG G]]]]]]]]; [lia|].
      assert (G1 : get (streams k) (get_destination_id initial_header) = None).
      { destruct (get (streams k) _) eqn:Q; [|reflexivity]. apply G in Q as [v [Q1 Q2]]. cbn in Q1. injection Q1 as <-.
        change (2 ^ 56) with 72057594037927936 in L. lia. }
      assert (G2 : get (streams k) (u160_from_u64 (N.of_nat m)) = None).
      { destruct (get (streams k) (u160_from_u64 (N.of_nat m))) eqn:Q; [|reflexivity]. apply G in Q as [v [Q1 Q2]]. injection Q1 as <-. lia. }
      destruct (solo_opens real_prims true k client_initial 5 initial_header c0 (N.of_nat m) LG client_initial_header eq_refl G1 EC G2)
        as [acts [S [RC _]]].
      destruct (next_call real_prims true 0 tr w k CAccept acts _ _ B I S) as [w' [X [T [PR [EK [ET [A F]]]]]]].
      eexists _, w', _. split; [eapply then_between; eauto|].
      split; [apply accepts_app; [exact OA|eapply accepts_solo; exact S]|].
      split.
      { unfold acts_of. rewrite filter_app, map_app. fold (acts_of 0 tr).
        change (map snd (filter _ ((0, ACall CAccept) :: map (pair 0) acts))) with (acts_of 0 (map (pair 0) (ACall CAccept :: acts))).
        rewrite acts_of_own. unfold recvs. rewrite flat_map_app. fold (recvs (acts_of 0 tr)).
        change (flat_map _ (ACall CAccept :: acts)) with (recvs acts). rewrite R, RC.
        rewrite <- repeat_cons. reflexivity. }
      cbn [streams log_traffic]. split; [|split; [reflexivity|]].
      + unfold insert_key. rewrite remove_absent by (apply get_none; exact G2). rewrite len_cons, LK. lia.
      + intros x s. rewrite get_insert. destruct (u160_eqb _ x) eqn:Q.
        * intros _. apply u160_eqb_eq in Q. exists (N.of_nat m). split; [symmetry; exact Q|lia].
        * intros H. apply G in H as [v [H1 H2]]. exists v. split; [exact H1|lia]. }
  intros n L. destruct (H (N.to_nat n)) as [tr [w [k [B [OA [R [LK _]]]]]]]; [rewrite N2Nat.id; exact L|].
  destruct B as [X [T [PR [EK [D [_ [_ F]]]]]]].
  exists tr, w. split; [exact X|]. split; [apply accepts_user; exact OA|]. split; [exact R|]. rewrite EK, LK, N2Nat.id. split; [reflexivity|]. split; [exact D|exact F].
Qed.
Print Assumptions C97_unbounded.

Theorem C97_held_refuted : ~ C97_statement.
Proof.
  intros H. destruct (C97_unbounded 1 ltac:(discriminate)) as [tr [w [X [U [_ [L [D F]]]]]]].
  destruct (streams (w_sock w)) as [|[k s] T] eqn:E; [discriminate L|].
  assert (G : registered w k = Some s) by (unfold registered; rewrite E; cbn; rewrite u160_eqb_refl; reflexivity).
  destruct (H real_prims true tr w k s real_prims_ok X U G) as [R|[t [Ec [IN ND]]]].
  - exact (none_returned _ _ _ _ real_prims_ok U R).
  - destruct (N.eq_dec t 0) as [->|N]; [exact (ND D)|]. rewrite F in Ec by exact N. discriminate Ec.
Qed.
Print Assumptions C97_held_refuted.
Example C97_case : exists tr w, execution real_prims true start tr w /\ user_run real_prims true tr /\
  len (opened_ids tr) = 3 /\ len (streams (w_sock w)) = 3.
Proof.
  destruct (C97_unbounded 3 ltac:(vm_compute; discriminate)) as [tr [w [X [U [_ [L _]]]]]].
  exists tr, w. split; [exact X|]. split; [exact U|]. split; [|exact L].
  pose proof (C97_all_kept _ _ _ _ real_prims_ok X U) as E. apply (f_equal len) in E.
  unfold len in *. rewrite rev_length, map_length in E. lia.
Qed.

(** ** C98: datagrams waiting for a connection are limited *)
Definition C98_statement : Prop := exists limit, forall P oc tr w k s, prims_ok P -> execution P oc start tr w -> user_run P oc tr ->
  registered w k = Some s -> len (q_queue s) <= limit.

(** Every datagram ever delivered is kept. *)
Lemma waiting P oc tr w k : prims_ok P -> execution P oc start tr w -> user_run P oc tr ->
  match registered w k with Some s => q_queue s = sent_to k tr | None => sent_to k tr = [] end.
Proof.
  intros HP X. induction X as [|tr w t a w' X IH S]; intros U; [reflexivity|].
  pose proof (user_app _ _ _ _ U) as U1. destruct (user_public _ _ _ U1) as [PR T]. specialize (IH U1).
  assert (E : sent_to k (tr ++ [(t, a)]) = sent_to k tr ++ sent_to k [(t, a)]) by apply flat_map_app.
  rewrite E.
  assert (OTHER : registered w' k = registered w k -> sent_to k [(t, a)] = [] ->
    match registered w' k with Some s => q_queue s = sent_to k tr ++ sent_to k [(t, a)] | None => sent_to k tr ++ sent_to k [(t, a)] = [] end).
  { intros -> ->. rewrite app_nil_r. exact IH. }
  pose proof (C93_changes_atomic P oc tr w t a w' HP X T S) as K. destruct a; try solve [refine (OTHER _ eq_refl); apply K].
  - destruct K as [N [[C1 C2] [Q _]]]. destruct (same_id key k) as [->|NE]; [|refine (OTHER _ eq_refl); apply C2; congruence].
    rewrite C1, Q. rewrite N in IH. rewrite IH. reflexivity.
  - destruct K as [_ Ec]. destruct (at_call P oc tr w t _ X Ec) as [a [w0 [w0' [b [-> _]]]]].
    exfalso. eapply none_dropped; [exact HP|exact U1|]. apply in_elt.
  - destruct (user_public _ _ _ U) as [_ T']. destruct (C38_send_step P oc tr w t key d w' HP X T S) as [A1 A2].
    pose proof (step_table P oc w t _ w' S) as [ST [q GQ]]. unfold registered in *. rewrite ST, get_send.
    cbn [sent_to flat_map snd]. rewrite app_nil_r. destruct (same_id key k) as [->|NE].
    + rewrite u160_eqb_refl. rewrite GQ in *. cbn [option_map q_queue]. rewrite IH. reflexivity.
    + destruct (u160_eqb key k) eqn:Q; [apply u160_eqb_eq in Q; congruence|]. rewrite app_nil_r. exact IH.
Qed.
Theorem C98_all_waiting : forall P oc tr w k s, prims_ok P -> execution P oc start tr w -> user_run P oc tr ->
  registered w k = Some s -> q_queue s = sent_to k tr.
Proof. intros P oc tr w k s HP X U G. pose proof (waiting P oc tr w k HP X U) as W. rewrite G in W. exact W. Qed.
Print Assumptions C98_all_waiting.

Lemma solo_routes_all P oc key ds : forall k s, log_traffic k = false -> get (streams k) key = Some s ->
  Forall (fun d => exists h, header_is (firstn (N.to_nat 4096) (fst d)) h /\ get_destination_id h = key) ds ->
  exists acts k', solo P oc k (Goto LpReceive) [] acts k' (Goto LpReceive) [] /\
    recvs acts = map (fun d => NetDatagram (fst d) (snd d)) ds /\
    get (streams k') key = Some (QStream (q_queue s ++ map (fun d => seen (fst d) (snd d)) ds) (q_conn s)).
Proof.
  induction ds as [|[data addr] ds IH]; intros k s LG G F.
  - exists [], k. split; [constructor|]. split; [reflexivity|]. rewrite G. cbn [map]. rewrite app_nil_r. destruct s; reflexivity.
  - inversion F as [|? ? [h [HH HK]] F']; subst. cbn [fst] in HH.
    destruct (solo_routes P oc k data addr h s LG HH G) as [a1 [S1 [R1 _]]].
    match type of S1 with solo _ _ _ _ _ _ ?kk _ _ => set (k1 := kk) in * end.
    destruct (IH k1 (QStream (q_queue s ++ [seen data addr]) (q_conn s))) as [a2 [k2 [S2 [R2 G2]]]]; [reflexivity| |exact F'|].
    { unfold k1. cbn [streams]. rewrite get_send, u160_eqb_refl, G. reflexivity. }
    exists (a1 ++ a2), k2. split; [eapply solo_app; [exact S1|exact S2|right; discriminate]|].
    split.
    + unfold recvs. rewrite flat_map_app. fold (recvs a1) (recvs a2). rewrite R1, R2. reflexivity.
    + rewrite G2. cbn [q_queue q_conn map]. rewrite <- app_assoc. reflexivity.
Qed.

(** Whatever a client sends to its connection, datagram after datagram, is kept: there is no limit. *)
Theorem C98_unbounded : forall P oc ds, prims_ok P ->
  Forall (fun d => exists h, header_is (firstn (N.to_nat 4096) (fst d)) h /\ get_destination_id h = U160 0 77) ds ->
  exists tr w s, execution P oc start tr w /\ user_run P oc tr /\
    recvs (acts_of 0 tr) = NetDatagram client_initial 5 :: map (fun d => NetDatagram (fst d) (snd d)) ds /\
    registered w (U160 0 77) = Some s /\ q_queue s = map (fun d => seen (fst d) (snd d)) ds.
Proof.
  intros P oc ds HP F.
  destruct (connection_new_ok P oc true (U160 0 0x0102030405060708) 8 HP ltac:(lia)) as [c0 EC].
  destruct (solo_opens P oc bind_socket client_initial 5 initial_header c0 77 eq_refl client_initial_header eq_refl eq_refl EC eq_refl)
    as [a1 [S1 [R1 _]]].
  destruct (next_call P oc 0 [] start bind_socket CAccept a1 _ _ (between_start _ _ _) I S1) as [w [X [T [PR [EK [ET [A N]]]]]]].
  match type of EK with _ = ?kk => set (k1 := kk) in * end.
  assert (B : between P oc 0 ([] ++ (0, ACall CAccept) :: map (pair 0) a1) w k1) by (eapply then_between; eauto).
  destruct (solo_routes_all P oc (U160 0 77) ds k1 (QStream [] (set_scid c0 (U160 0 77) 8)) eq_refl eq_refl F) as [a2 [k2 [S2 [R2 G2]]]].
  destruct (next_call _ _ _ _ _ _ CAccept _ _ _ B I S2) as [w2 [X2 [_ [_ [EK2 _]]]]].
  eexists _, w2, _. split; [exact X2|].
  split; [apply accepts_user; apply accepts_app; [|eapply accepts_solo; exact S2]; eapply accepts_solo; exact S1|].
  split; [|split; [unfold registered; rewrite EK2; exact G2|reflexivity]].
  match goal with |- recvs (acts_of 0 ?l) = _ => replace l with (map (pair 0) ((ACall CAccept :: a1) ++ ACall CAccept :: a2)) by (rewrite map_app; reflexivity) end.
  rewrite acts_of_own. unfold recvs in *. rewrite flat_map_app. cbn [flat_map app]. rewrite R1, R2. reflexivity.
Qed.
Print Assumptions C98_unbounded.

Lemma short_77_header : header_is (firstn (N.to_nat 4096) (short_for 77)) (HShort (ShortHeader 0x40 (U160 0 77) true)).
Proof. exists [1; 2; 3]. vm_compute. reflexivity. Qed.

Theorem C98_limited_refuted : ~ C98_statement.
Proof.
  intros [limit H].
  destruct (C98_unbounded real_prims true (repeat (short_for 77, 5) (S (N.to_nat limit))) real_prims_ok) as [tr [w [s [X [U [_ [G Q]]]]]]].
  - apply Forall_forall. intros d D. apply repeat_spec in D as ->. eexists. split; [exact short_77_header|reflexivity].
  - pose proof (H real_prims true tr w _ s real_prims_ok X U G) as L. rewrite Q in L. unfold len in L.
    rewrite map_length, repeat_length in L. lia.
Qed.
Print Assumptions C98_limited_refuted.
Example C98_case : exists tr w s, execution real_prims true start tr w /\ user_run real_prims true tr /\
  registered w (U160 0 77) = Some s /\ q_queue s = [Datagram (short_for 77) 5; Datagram (short_for 77) 6].
Proof.
  destruct (C98_unbounded real_prims true [(short_for 77, 5); (short_for 77, 6)] real_prims_ok) as [tr [w [s [X [U [_ [G Q]]]]]]].
  - repeat constructor; eexists; (split; [exact short_77_header|reflexivity]).
  - exists tr, w, s. split; [exact X|]. split; [exact U|]. split; [exact G|exact Q].
Qed.
