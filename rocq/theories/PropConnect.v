(** C130: opening a connection as a client. *)
From Verif Require Import Base Utils Frame CipherSuite Secrets Connection Packet Routing Threads
  Spec SpecPacket SpecRouting Tactics UtilsFacts PacketFacts ConnectionFacts RoutingFacts RoutingSafe CryptoInst SampleRuns PropConn PropRouting.
From Verif Require Histories.

(** Full statement: [connect] returns a stream or an error of the operating system. *)
Definition C130_statement : Prop := forall P oc tr w t r,
  prims_ok P -> execution P oc start tr w -> well_typed tr -> public_run tr ->
  th_call (w_threads w t) = Some CConnect -> th_prog (w_threads w t) = Done r -> exists x, r = RId x.

Lemma connect_state P oc tr w : execution P oc start tr w -> forall t, th_call (w_threads w t) = Some CConnect ->
  (th_prog (w_threads w t) = Crash "not implemented" /\ th_acts (w_threads w t) = []) \/
  (th_prog (w_threads w t) = Done (RPanic "not implemented") /\ th_acts (w_threads w t) = [APanic "not implemented"]).
Proof.
  intros X. induction X as [|tr w1 t a w2 X IH S]; [discriminate|].
  intros t' E.
  destruct (N.eqb_spec t' t) as [->|NE].
  - inversion S as [c r Ed|p a' k p' Ep PS|l m p Ep|l m p Ep|l m p held Ep|why Ep]; subst;
      cbn [w_threads] in E |- *; unfold set_thread in *; rewrite N.eqb_refl in *; cbn [th_call th_prog th_acts] in *.
    + injection E as ->. left. auto.
    + destruct (IH t E) as [[Q _]|[Q _]]; rewrite Q in PS; inversion PS.
    + destruct (IH t E) as [[Q _]|[Q _]]; rewrite Q in Ep; discriminate Ep.
    + destruct (IH t E) as [[Q _]|[Q _]]; rewrite Q in Ep; discriminate Ep.
    + destruct (IH t E) as [[Q _]|[Q _]]; rewrite Q in Ep; discriminate Ep.
    + destruct (IH t E) as [[Q A]|[Q _]]; rewrite Q in Ep; [|discriminate Ep]. injection Ep as <-. right. rewrite A. auto.
  - assert (Eq : w_threads w2 t' = w_threads w1 t').
    { inversion S; subst; cbn [w_threads]; unfold set_thread; destruct (N.eqb_spec t' t); congruence. }
    rewrite Eq in *. apply IH, E.
Qed.

Lemma connect_held P oc tr w : prims_ok P -> execution P oc start tr w -> well_typed tr ->
  forall t, th_call (w_threads w t) = Some CConnect -> th_held (w_threads w t) = [].
Proof.
  intros HP X. induction X as [|tr w1 t a w2 X IH S]; [discriminate|].
  intros T t' E. apply typed_app in T as T'. destruct T' as [T1 _]. specialize (IH T1).
  destruct (N.eqb_spec t' t) as [->|NE].
  - pose proof (connect_state P oc tr w1 X t) as C.
    inversion S as [c r Ed|p a' k p' Ep PS|l m p Ep|l m p Ep|l m p held Ep|why Ep]; subst;
      cbn [w_threads] in E |- *; unfold set_thread in *; rewrite N.eqb_refl in *; cbn [th_call th_prog th_held] in *.
    + apply (C47_no_leaked_guard P oc tr w1 t HP X T1). eexists. exact Ed.
    + apply IH, E.
    + destruct (C E) as [[Q _]|[Q _]]; rewrite Q in Ep; discriminate Ep.
    + apply IH, E.
    + destruct (C E) as [[Q _]|[Q _]]; rewrite Q in Ep; discriminate Ep.
    + reflexivity.
  - assert (Eq : w_threads w2 t' = w_threads w1 t').
    { inversion S; subst; cbn [w_threads]; unfold set_thread; destruct (N.eqb_spec t' t); congruence. }
    rewrite Eq in *. apply IH, E.
Qed.

(** [connect] panics at once, whatever the address, and leaves everything else as it was. *)
Theorem C130_connect_panics : forall P oc tr w t, prims_ok P -> execution P oc start tr w -> well_typed tr ->
  th_call (w_threads w t) = Some CConnect ->
  (forall r, th_prog (w_threads w t) = Done r -> r = RPanic "not implemented") /\
  (forall a w', step P oc w t a w' -> (forall c, a <> ACall c) ->
     a = APanic "not implemented" /\ idle (w_threads w' t) /\ w_sock w' = w_sock w /\
     (forall l, w_poisoned w' l = w_poisoned w l) /\ (forall t', t' <> t -> w_threads w' t' = w_threads w t')) /\
  (~ idle (w_threads w t) -> exists w', step P oc w t (APanic "not implemented") w').
Proof.
  intros P oc tr w t HP X T E. pose proof (connect_state P oc tr w X t E) as C.
  pose proof (connect_held P oc tr w HP X T t E) as H.
  split; [|split].
  - intros r Ed. destruct C as [[Q _]|[Q _]]; rewrite Q in Ed; congruence.
  - intros a w' S NC.
    assert (H0 : th_prog (w_threads w t) = Crash "not implemented").
    { destruct C as [[Q _]|[Q _]]; [exact Q|]. exfalso.
      inversion S as [c0 r Ed|p a' k p' Ep PS|l m p Ep|l m p Ep|l m p held Ep|why Ep]; subst; try congruence.
      rewrite Q in PS. inversion PS. }
    inversion S as [c0 r Ed|p a' k p' Ep PS|l m p Ep|l m p Ep|l m p held Ep|why Ep]; subst; try congruence.
    { rewrite H0 in PS. inversion PS. }
    assert (why = "not implemented"%string) by congruence. subst why. split; [reflexivity|].
    split; [cbn [w_threads]; unfold set_thread; rewrite N.eqb_refl; eexists; reflexivity|]. split; [reflexivity|].
    split.
    + intros l. cbn [w_poisoned]. unfold poison. rewrite H. cbn. apply orb_false_r.
    + intros t' NE. cbn [w_threads]. unfold set_thread. destruct (N.eqb_spec t' t); congruence.
  - intros NI. destruct C as [[Q _]|[Q _]]; [|exfalso; apply NI; eexists; exact Q].
    eexists. apply s_panic. exact Q.
Qed.
Print Assumptions C130_connect_panics.

Theorem C130_connect_refuted : ~ C130_statement.
Proof.
  intros H.
  assert (S1 : exists w1, step real_prims true start 0 (ACall CConnect) w1 /\ th_prog (w_threads w1 0) = Crash "not implemented" /\ th_call (w_threads w1 0) = Some CConnect).
  { eexists. split; [eapply s_call; reflexivity|]. split; reflexivity. }
  destruct S1 as [w1 [S1 [E1 C1]]].
  pose proof (s_panic real_prims true w1 0 _ E1) as S2.
  match type of S2 with step _ _ _ _ _ ?w => set (w2 := w) in S2 end.
  assert (X : execution real_prims true start [(0, ACall CConnect); (0, APanic "not implemented")] w2).
  { apply (ex_snoc _ _ _ [(0, ACall CConnect)] w1); [apply (ex_snoc _ _ _ [] start); [constructor|exact S1]|exact S2]. }
  destruct (H real_prims true _ w2 0 (RPanic "not implemented") real_prims_ok X) as [x Q].
  - intros t d [I|[I|[]]]; discriminate I.
  - intros t [I|[I|[]]]; discriminate I.
  - exact C1.
  - reflexivity.
  - discriminate Q.
Qed.
Print Assumptions C130_connect_refuted.

(** So the socket never holds a client's connection: every registered connection
    sends with a server's Initial keys and reads with a client's. *)
Theorem C130_servers_only : forall P oc tr w id s, prims_ok P -> execution P oc start tr w -> well_typed tr ->
  get (streams (w_sock w)) id = Some s ->
  exists d ks kc, initial_keys P true d ks /\ initial_keys P false d kc /\
    local_keys P oc (q_conn s) SpInitial ks /\ remote_keys P oc (q_conn s) SpInitial kc.
Proof.
  intros P oc tr w id s HP X T G. pose proof (inv_reached P oc tr w HP X T) as W.
  apply get_in in G. pose proof (wi_entry _ _ _ _ _ _ _ W id s G) as [d [l [c0 [E ->]]]].
  assert (R : Histories.reachable P oc true d l (set_scid c0 id 8)) by (exists c0, [Histories.CSetScid id 8]; split; auto).
  pose proof (reachable_inv _ _ _ _ _ _ HP R) as I. destruct (ci_keys _ _ _ _ _ _ I) as [cid [kl [kr [_ [A [B [C D]]]]]]].
  exists cid, kl, kr. auto.
Qed.
Print Assumptions C130_servers_only.
Example C130_case : exists tr w s, execution real_prims true start tr w /\ well_typed tr /\
  get (streams (w_sock w)) (U160 0 77) = Some s /\
  exists w1 w2, step real_prims true w 1 (ACall CConnect) w1 /\ th_call (w_threads w1 1) = Some CConnect /\ ~ idle (w_threads w1 1) /\
    step real_prims true w1 1 (APanic "not implemented") w2 /\ get (streams (w_sock w2)) (U160 0 77) = Some s.
Proof.
  destruct two_routed as [tr [w [c0 [acts [[X [T [_ [E [_ [_ [_ F]]]]]]] _]]]]].
  exists tr, w, (QStream [short_77; short_77b] (set_scid c0 (U160 0 77) 8)). split; [exact X|]. split; [exact T|].
  split; [rewrite E; reflexivity|].
  eexists _, _. split; [apply (s_call _ _ w 1 CConnect RNothing); rewrite F by discriminate; reflexivity|].
  split; [reflexivity|]. split; [intros [r Q]; discriminate Q|].
  split; [apply s_panic; reflexivity|]. cbn [w_sock]. rewrite E. reflexivity.
Qed.
