(** Properties of a single thread (its program, guards and what it did) that
    hold in all executions. *)
From Verif Require Import Base Utils Frame CipherSuite Secrets Connection Packet Routing Threads
  Spec SpecPacket SpecRouting Tactics RoutingFacts RoutingSafe PropRouting.

Section Local.
Variables (P : prims) (oc : bool).
Variable F : scall -> prog -> list (lock * mode) -> list action -> Prop.
(* what is known of a poisoned lock: the actions of the call that poisoned it *)
Variable Z : lock -> list action -> Prop.

Hypothesis l_entry : forall c, F c (entry oc c) [] [].
Hypothesis l_data : forall c k p held acts a k' p', pstep P oc k p a k' p' ->
  F c p held acts -> F c p' held (acts ++ [a]).
Hypothesis l_acq : forall c l m p held acts, F c (Acq l m p) held acts -> F c p ((l, m) :: held) (acts ++ [AAcq l m]).
Hypothesis l_poisoned : forall c l m p held acts acts', F c (Acq l m p) held acts -> Z l acts' ->
  F c (Crash "PoisonError") held (acts ++ [APoisoned l]).
Hypothesis l_rel : forall c l m p held acts, F c (Rel l p) ((l, m) :: held) acts -> F c p held (acts ++ [ARel l]).
Hypothesis l_panic : forall c why held acts, F c (Crash why) held acts ->
  F c (Done (RPanic why)) [] (acts ++ [APanic why]) /\ forall l, In (l, Exclusive) held -> Z l acts.

(** What a thread did is in the execution. *)
Lemma acts_in tr w t a : execution P oc start tr w -> In a (th_acts (w_threads w t)) -> In (t, a) tr.
Proof.
  intros X. induction X as [|tr w t' b w' X IH S]; [intros []|]. intros H. apply in_or_app.
  destruct (N.eq_dec t t') as [<-|N].
  - inversion S; subst; cbn [w_threads] in H; rewrite set_thread_same in H; cbn [th_acts] in H; [contradiction| ..];
      apply in_app_or in H as [H|[<-|[]]]; auto; right; left; reflexivity.
  - left. apply IH. inversion S; subst; cbn [w_threads] in H; rewrite set_thread_other in H by exact N; exact H.
Qed.

Lemma lock_eqb_true a b : lock_eqb a b = true -> a = b.
Proof. destruct a, b; cbn; try discriminate; auto. intros H. apply u160_eqb_eq in H. congruence. Qed.

Theorem local_inv tr w : prims_ok P -> execution P oc start tr w -> well_typed tr ->
  (forall t c, th_call (w_threads w t) = Some c -> F c (th_prog (w_threads w t)) (th_held (w_threads w t)) (th_acts (w_threads w t))) /\
  (forall l, w_poisoned w l = true -> exists t acts, Z l acts /\ forall a, In a acts -> In (t, a) tr).
Proof.
  intros HP X. induction X as [|tr w t a w' X IH S]; intros T.
  { split; [discriminate|]. cbn. discriminate. }
  apply typed_app in T as [T _]. destruct (IH T) as [IT IP]. clear IH.
  assert (OLD : forall l, w_poisoned w l = true -> exists t0 acts, Z l acts /\ forall a0, In a0 acts -> In (t0, a0) (tr ++ [(t, a)])).
  { intros l H. destruct (IP l H) as [t0 [acts [HZ HI]]]. exists t0, acts. split; [exact HZ|]. intros a0 H0. apply in_or_app. auto. }
  pose proof (inv_reached P oc tr w HP X T) as W.
  assert (UPD : forall th t0 c, (th_call th = Some c -> F c (th_prog th) (th_held th) (th_acts th)) ->
    th_call (set_thread (w_threads w) t th t0) = Some c ->
    F c (th_prog (set_thread (w_threads w) t th t0)) (th_held (set_thread (w_threads w) t th t0)) (th_acts (set_thread (w_threads w) t th t0))).
  { intros th t0 c H E. destruct (N.eq_dec t0 t) as [->|N].
    - rewrite set_thread_same in *. auto.
    - rewrite set_thread_other in * by exact N. auto. }
  assert (CALL : (forall r, th_prog (w_threads w t) <> Done r) -> exists c, th_call (w_threads w t) = Some c).
  { intros N. eapply has_call; eauto. }
  inversion S as [c r Ep|p a' k p' Ep PS|l m p Ep Np G|l m p Ep Np|l m p held Ep Eh|why Ep]; subst; cbn [w_threads w_poisoned].
  - split; [|exact OLD]. intros t0 c0. apply UPD. cbn [th_call th_prog th_held th_acts]. intros [= <-].
    rewrite (C47_no_leaked_guard P oc tr w t HP X T) by (exists r; exact Ep). apply l_entry.
  - split; [|exact OLD]. intros t0 c0. apply UPD. cbn [th_call th_prog th_held th_acts]. intros E. eapply l_data; [exact PS|auto].
  - split; [|exact OLD]. intros t0 c0. apply UPD. cbn [th_call th_prog th_held th_acts]. intros E. apply l_acq. rewrite <- Ep. auto.
  - split; [|exact OLD]. intros t0 c0. apply UPD. cbn [th_call th_prog th_held th_acts]. intros E.
    destruct (IP l Np) as [t1 [acts [HZ _]]]. eapply l_poisoned; [|exact HZ]. rewrite <- Ep. auto.
  - split; [|exact OLD]. intros t0 c0. apply UPD. cbn [th_call th_prog th_held th_acts]. intros E. eapply l_rel. rewrite <- Ep, <- Eh. auto.
  - destruct CALL as [c Ec]; [congruence|]. pose proof (IT t c Ec) as FC. rewrite Ep in FC. apply l_panic in FC as [FD FZ].
    split.
    + intros t0 c0. apply UPD. cbn [th_call th_prog th_held th_acts]. intros E. rewrite E in Ec. injection Ec as <-. exact FD.
    + intros l H. unfold poison in H. apply orb_prop in H as [H|H]; [auto|].
      apply existsb_exists in H as [[l' m'] [Hin H]]. cbn in H. destruct m'; [discriminate|]. apply lock_eqb_true in H. subst l'.
      exists t, (th_acts (w_threads w t)). split; [auto|]. intros a0 H0. apply in_or_app. left. eapply acts_in; eauto.
Qed.
End Local.
