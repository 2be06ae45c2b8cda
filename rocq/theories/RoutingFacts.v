(** Reasoning about programs run by threads: a weakest-precondition predicate,
    and the invariant it gives for all interleavings. *)
From Verif Require Import Base Utils Frame CipherSuite Secrets Connection Packet Routing Threads Tactics.

(** ** Tables *)
Definition keys (T : table) : list u160 := map fst T.

Lemma u160_eqb_eq a b : u160_eqb a b = true <-> a = b.
Proof.
  unfold u160_eqb. rewrite andb_true_iff, !N.eqb_eq. destruct a, b; cbn. split; [intros [-> ->]; auto|intros [= -> ->]; auto].
Qed.
Lemma u160_eqb_refl a : u160_eqb a a = true.
Proof. apply u160_eqb_eq. reflexivity. Qed.
Lemma u160_eqb_neq a b : u160_eqb a b = false <-> a <> b.
Proof. rewrite <- u160_eqb_eq. destruct (u160_eqb a b); split; congruence. Qed.

Lemma get_none T k : get T k = None <-> ~ In k (keys T).
Proof.
  induction T as [|[k' s] T IH]; cbn [get keys map fst In]; [tauto|].
  destruct (u160_eqb k' k) eqn:E.
  - apply u160_eqb_eq in E. split; [discriminate|tauto].
  - apply u160_eqb_neq in E. unfold keys in IH. tauto.
Qed.
Lemma get_some T k : (exists s, get T k = Some s) <-> In k (keys T).
Proof.
  destruct (get T k) eqn:E.
  - split; [|eauto]. intros _. destruct (In_dec (fun a b => ltac:(destruct (u160_eqb a b) eqn:X;
      [left; apply u160_eqb_eq; exact X|right; apply u160_eqb_neq; exact X])) k (keys T)) as [|n]; auto.
    apply get_none in n. congruence.
  - apply get_none in E. split; [intros [s X]; discriminate|tauto].
Qed.
Lemma contains_key_in T k : contains_key T k = true <-> In k (keys T).
Proof. unfold contains_key. rewrite <- get_some. destruct (get T k); split; eauto; try discriminate. intros [s X]; discriminate. Qed.
Lemma contains_key_out T k : contains_key T k = false <-> ~ In k (keys T).
Proof. rewrite <- contains_key_in. destruct (contains_key T k); split; congruence. Qed.

Lemma get_in T k s : get T k = Some s -> In (k, s) T.
Proof.
  induction T as [|[k' s'] T IH]; cbn [get]; [discriminate|]. destruct (u160_eqb k' k) eqn:E; [|right; auto].
  apply u160_eqb_eq in E. intros [= ->]. left. congruence.
Qed.
Lemma in_get T k s : NoDup (keys T) -> In (k, s) T -> get T k = Some s.
Proof.
  induction T as [|[k' s'] T IH]; cbn [get keys map fst]; [contradiction|]. intros ND [E|H].
  - injection E as -> ->. rewrite u160_eqb_refl. reflexivity.
  - inversion ND as [|? ? NI ND']; subst. destruct (u160_eqb k' k) eqn:E; [|apply IH; auto].
    apply u160_eqb_eq in E. subst k'. exfalso. apply NI. apply in_map_iff. exists (k, s). auto.
Qed.

Lemma keys_remove T k : keys (remove_key T k) = filter (fun x => negb (u160_eqb x k)) (keys T).
Proof.
  induction T as [|[k' s] T IH]; cbn [remove_key keys map fst filter]; [reflexivity|].
  destruct (u160_eqb k' k); cbn [negb keys map fst]; unfold keys in IH; rewrite <- IH; reflexivity.
Qed.
Lemma keys_send T k d : keys (send_key T k d) = keys T.
Proof.
  induction T as [|[k' s] T IH]; cbn [send_key keys map fst]; [reflexivity|].
  destruct (u160_eqb k' k); cbn [keys map fst]; [reflexivity|]. unfold keys in IH. rewrite IH. reflexivity.
Qed.
Lemma remove_absent T k : ~ In k (keys T) -> remove_key T k = T.
Proof.
  induction T as [|[k' s] T IH]; cbn [remove_key keys map fst In]; [reflexivity|]. intros H.
  destruct (u160_eqb k' k) eqn:E; [apply u160_eqb_eq in E; tauto|]. rewrite IH; auto. 
Qed.
Lemma keys_insert T k s : ~ In k (keys T) -> keys (insert_key T k s) = k :: keys T.
Proof. intros H. unfold insert_key. rewrite remove_absent by auto. reflexivity. Qed.

Lemma get_remove T k x : get (remove_key T k) x = if u160_eqb k x then None else get T x.
Proof.
  induction T as [|[k' s] T IH]; cbn [remove_key get]; [destruct (u160_eqb k x); reflexivity|].
  destruct (u160_eqb k' k) eqn:E.
  - apply u160_eqb_eq in E. subst k'. rewrite IH. destruct (u160_eqb k x); reflexivity.
  - cbn [get]. rewrite IH. destruct (u160_eqb k' x) eqn:E'; [|reflexivity].
    apply u160_eqb_eq in E'. subst k'. destruct (u160_eqb k x) eqn:E2; [|reflexivity].
    apply u160_eqb_eq in E2. subst. rewrite u160_eqb_refl in E. discriminate.
Qed.
Lemma get_insert T k s x : get (insert_key T k s) x = if u160_eqb k x then Some s else get T x.
Proof. unfold insert_key. cbn [get]. rewrite get_remove. destruct (u160_eqb k x); reflexivity. Qed.
Lemma get_send T k d x : get (send_key T k d) x =
  if u160_eqb k x then option_map (fun s => QStream (q_queue s ++ [d]) (q_conn s)) (get T x) else get T x.
Proof.
  induction T as [|[k' s] T IH]; cbn [send_key get]; [destruct (u160_eqb k x); reflexivity|].
  destruct (u160_eqb k' k) eqn:E; cbn [get].
  - apply u160_eqb_eq in E. subst k'. destruct (u160_eqb k x); reflexivity.
  - destruct (u160_eqb k' x) eqn:E'; [|exact IH]. apply u160_eqb_eq in E'. subst k'.
    destruct (u160_eqb k x) eqn:E2; [|reflexivity]. apply u160_eqb_eq in E2. subst. rewrite u160_eqb_refl in E. discriminate.
Qed.

Lemma in_remove T k x : In x (remove_key T k) -> In x T.
Proof.
  induction T as [|[k' s] T IH]; cbn [remove_key]; [auto|]. destruct (u160_eqb k' k); cbn; tauto.
Qed.
Lemma in_send T k d x s : In (x, s) (send_key T k d) ->
  In (x, s) T \/ exists s0, In (x, s0) T /\ s = QStream (q_queue s0 ++ [d]) (q_conn s0).
Proof.
  induction T as [|[k' s'] T IH]; cbn [send_key]; [auto|]. destruct (u160_eqb k' k); cbn [In].
  - intros [X|X]; [|auto]. injection X as <- <-. right. exists s'. auto.
  - intros [X|X]; [auto|]. destruct (IH X) as [Y|[s0 [Y ->]]]; eauto.
Qed.

Lemma nodup_filter {A} (f : A -> bool) l : NoDup l -> NoDup (filter f l).
Proof.
  induction 1 as [|x l NI ND IH]; cbn; [constructor|]. destruct (f x); auto. constructor; auto.
  intros H. apply filter_In in H. tauto.
Qed.

(** ** Weakest preconditions *)
Definition rank (l : lock) : nat :=
  match l with LSocket => 0 | LStreams => 1 | LLog => 2 | LConn _ => 3 end.
Definition no_excl (held : list (lock * mode)) : Prop := forall l, ~ In (l, Exclusive) held.

Section Safe.
Variables (P : prims) (oc : bool).
(* logging may be on; no lock may be poisoned *)
Variables (lg np : bool).
(* required of a finished call, of a loop head, of an effect *)
Variable Q : list action -> result -> Prop.
Variable J : label -> list action -> Prop.
Variable I : list action -> action -> Prop.
(* true of every entry of the table *)
Variable E : u160 -> qstream -> Prop.

(** [safe p held kn acts]: executing [p] with guards [held], among other threads
    that respect the locks, is safe; [kn] are the keys of the table if [streams]
    is held. *)
Fixpoint safe (p : prog) (held : list (lock * mode)) (kn : option (list u160)) (acts : list action) : Prop :=
  match p with
  | Done r => held = [] /\ Q acts r
  | Crash w => (np = true -> no_excl held) /\ Q (acts ++ [APanic w]) (RPanic w)
  | Hang => False
  | Acq l m p =>
      (forall h, In h held -> (rank (fst h) < rank l)%nat) /\
      (np = false -> Q ((acts ++ [APoisoned l]) ++ [APanic "PoisonError"]) (RPanic "PoisonError")) /\
      match l with
      | LStreams => forall ks, NoDup ks -> safe p ((l, m) :: held) (Some ks) (acts ++ [AAcq l m])
      | _ => safe p ((l, m) :: held) kn (acts ++ [AAcq l m])
      end
  | Rel l p =>
      match held with
      | (l', _) :: rest => l' = l /\
          safe p rest (match l with LStreams => None | _ => kn end) (acts ++ [ARel l])
      | [] => False
      end
  | LookTable f => match kn with None => False | Some ks =>
      forall T, keys T = ks -> (forall k s, In (k, s) T -> E k s) -> safe (f T) held kn (acts ++ [ALook T]) end
  | Insert key s p => match kn with None => False | Some ks =>
      In (LStreams, Exclusive) held /\ ~ In key ks /\ I acts (AInsert key s) /\
      safe p held (Some (key :: ks)) (acts ++ [AInsert key s]) end
  | Remove key p => match kn with None => False | Some ks =>
      In (LStreams, Exclusive) held /\ I acts (ARemove key) /\
      safe p held (Some (filter (fun x => negb (u160_eqb x key)) ks)) (acts ++ [ARemove key]) end
  | Send key d p => match kn with None => False | Some ks =>
      In key ks /\ I acts (ASend key d) /\ safe p held kn (acts ++ [ASend key d]) end
  | LookLog f => (exists m, In (LLog, m) held) /\
      forall b, (b = true -> lg = true) -> safe (f b) held kn (acts ++ [ALookLog b])
  | SetLog b p => In (LLog, Exclusive) held /\ (b = true -> lg = true) /\ safe p held kn (acts ++ [ASetLog b])
  | Print x p => I acts (APrint x) /\ safe p held kn (acts ++ [APrint x]) /\
      (np = true -> no_excl held) /\
      Q ((acts ++ [APrintFailed x]) ++ [APanic "failed printing"]) (RPanic "failed printing")
  | RecvFrom f => In (LSocket, Exclusive) held /\ forall ev, safe (f ev) held kn (acts ++ [ARecv ev])
  | Rand f => forall r, safe (f r) held kn (acts ++ [ARand r])
  | Goto l => held = [] /\ J l acts
  end.
End Safe.

(** ** The invariant of all executions *)
Section Invariant.
Variables (P : prims) (oc : bool) (lg np : bool).
Variable allowed : scall -> Prop.
Variable Q : scall -> list action -> result -> Prop.
Variable J : scall -> label -> list action -> Prop.
Variable I : scall -> list action -> action -> Prop.
Variable Ent : u160 -> qstream -> Prop.

Definition knows (w : world) (held : list (lock * mode)) (kn : option (list u160)) : Prop :=
  match kn with
  | Some ks => (exists m, In (LStreams, m) held) /\ keys (streams (w_sock w)) = ks
  | None => True
  end.

Definition thread_ok (w : world) (th : thread) : Prop :=
  match th_call th with
  | None => th = fresh_thread
  | Some c => exists kn, knows w (th_held th) kn /\
      safe lg np (Q c) (J c) (I c) Ent (th_prog th) (th_held th) kn (th_acts th)
  end.

Record winv (w : world) : Prop := {
  wi_excl : forall t t' l m m', t <> t' ->
    In (l, m) (th_held (w_threads w t)) -> In (l, m') (th_held (w_threads w t')) -> m = Shared /\ m' = Shared;
  wi_thread : forall t, thread_ok w (w_threads w t);
  wi_keys : NoDup (keys (streams (w_sock w)));
  wi_entry : forall k s, In (k, s) (streams (w_sock w)) -> Ent k s;
  wi_poison : np = true -> forall l, w_poisoned w l = false;
  wi_log : log_traffic (w_sock w) = true -> lg = true }.

Hypothesis entries : forall c, allowed c -> safe lg np (Q c) (J c) (I c) Ent (entry oc c) [] None [].
Hypothesis loops : forall c l acts, J c l acts ->
  safe lg np (Q c) (J c) (I c) Ent (code P oc l) [] None (acts ++ [AGoto l]).

Hypothesis insert_entry : forall c acts k s, I c acts (AInsert k s) -> Ent k s.
Hypothesis send_entry : forall k s d, Ent k s -> Ent k (QStream (q_queue s ++ [d]) (q_conn s)).

Lemma winv_start : winv start.
Proof.
  constructor; cbn.
  - contradiction.
  - intros t. reflexivity.
  - constructor.
  - contradiction.
  - auto.
  - discriminate.
Qed.

Lemma set_thread_same f t x : set_thread f t x t = x.
Proof. unfold set_thread. rewrite N.eqb_refl. reflexivity. Qed.
Lemma set_thread_other f t x t' : t' <> t -> set_thread f t x t' = f t'.
Proof. unfold set_thread. intros H. destruct (N.eqb_spec t' t); [contradiction|reflexivity]. Qed.

(** Other threads keep what they know unless the keys change; then they do not
    hold the table lock. *)
Lemma others_ok w k pz th t t' : winv w -> t' <> t ->
  (keys (streams k) = keys (streams (w_sock w)) \/ In (LStreams, Exclusive) (th_held (w_threads w t))) ->
  thread_ok (World k (set_thread (w_threads w) t th) pz) (set_thread (w_threads w) t th t').
Proof.
  intros W N K. rewrite set_thread_other by auto. pose proof (wi_thread w W t') as T. unfold thread_ok in *.
  destruct (th_call (w_threads w t')); auto. destruct T as [kn [Kn S]]. exists kn. split; [|exact S].
  destruct kn as [ks|]; [|exact Coq.Init.Logic.I]. destruct Kn as [[m Hm] Ek]. cbn. split; [eauto|].
  destruct K as [K|K]; [congruence|].
  destruct (wi_excl w W t t' LStreams Exclusive m) as [X _]; auto. discriminate.
Qed.

Lemma step_thread_call w t c : winv w -> th_call (w_threads w t) = Some c ->
  exists kn, knows w (th_held (w_threads w t)) kn /\
    safe lg np (Q c) (J c) (I c) Ent (th_prog (w_threads w t)) (th_held (w_threads w t)) kn (th_acts (w_threads w t)).
Proof. intros W E. pose proof (wi_thread w W t) as T. unfold thread_ok in T. rewrite E in T. exact T. Qed.

Lemma has_call w t : winv w -> (forall r, th_prog (w_threads w t) <> Done r) -> exists c, th_call (w_threads w t) = Some c.
Proof.
  intros W N. pose proof (wi_thread w W t) as T. unfold thread_ok in T.
  destruct (th_call (w_threads w t)) as [c|]; [eauto|]. exfalso. apply (N RNothing). rewrite T. reflexivity.
Qed.

Lemma held_of_subset w t th :
  winv w -> (forall x, In x (th_held th) -> In x (th_held (w_threads w t))) ->
  forall t1 t2 l m m', t1 <> t2 ->
    In (l, m) (th_held (set_thread (w_threads w) t th t1)) ->
    In (l, m') (th_held (set_thread (w_threads w) t th t2)) -> m = Shared /\ m' = Shared.
Proof.
  intros W S t1 t2 l m m' N H1 H2.
  assert (G : forall t0 x, In x (th_held (set_thread (w_threads w) t th t0)) -> In x (th_held (w_threads w t0))).
  { intros t0 x. unfold set_thread. destruct (N.eqb_spec t0 t); [subst; auto|auto]. }
  apply (wi_excl w W t1 t2 l m m'); auto.
Qed.

Theorem step_winv w t a w' : winv w -> (forall c, a = ACall c -> allowed c) -> step P oc w t a w' -> winv w'.
Proof.
  intros W A S. inversion S as [c r Ep|p a' k p' Ep PS|l m p Ep Np G|l m p Ep Np|l m p held Ep Eh|why Ep]; subst.
  - (* call *)
    assert (H0 : th_held (w_threads w t) = []).
    { pose proof (wi_thread w W t) as T. unfold thread_ok in T. destruct (th_call (w_threads w t)).
      - destruct T as [kn [_ T]]. rewrite Ep in T. cbn in T. tauto.
      - rewrite T. reflexivity. }
    constructor; cbn [w_sock w_threads w_poisoned]; try apply W.
    + apply held_of_subset; auto.
    + intros t'. destruct (N.eq_dec t' t) as [->|N].
      * rewrite set_thread_same. unfold thread_ok. cbn [th_call th_held th_prog th_acts]. exists None.
        split; [exact Coq.Init.Logic.I|]. rewrite H0. apply entries. apply A. reflexivity.
      * apply others_ok; auto.
  - (* data *)
    remember (th_prog (w_threads w t)) as p eqn:Ep.
    destruct (has_call w t W) as [c Ec]. { intros r E. rewrite E in Ep. subst p. inversion PS. }
    destruct (step_thread_call w t c W Ec) as [kn [K S0]]. rewrite <- Ep in S0.
    assert (DATA : forall kn',
      NoDup (keys (streams k)) -> (forall x s, In (x, s) (streams k) -> Ent x s) -> (log_traffic k = true -> lg = true) ->
      (keys (streams k) = keys (streams (w_sock w)) \/ In (LStreams, Exclusive) (th_held (w_threads w t))) ->
      (match kn' with Some ks => (exists m, In (LStreams, m) (th_held (w_threads w t))) /\ keys (streams k) = ks | None => True end) ->
      safe lg np (Q c) (J c) (I c) Ent p' (th_held (w_threads w t)) kn' (th_acts (w_threads w t) ++ [a]) ->
      winv (World k (set_thread (w_threads w) t
        (Thread p' (th_held (w_threads w t)) (th_call (w_threads w t)) (th_acts (w_threads w t) ++ [a]))) (w_poisoned w))).
    { intros kn' D1 D0 D2 D3 D4 D5. constructor; cbn [w_sock w_threads w_poisoned]; auto; try apply W.
      - apply held_of_subset; auto.
      - intros t'. destruct (N.eq_dec t' t) as [->|N].
        + rewrite set_thread_same. unfold thread_ok. cbn [th_call th_held th_prog th_acts]. rewrite Ec.
          exists kn'. split; [exact D4|exact D5].
        + apply others_ok; auto. }
    pose proof (wi_keys w W) as ND. pose proof (wi_log w W) as LG. pose proof (wi_entry w W) as EN.
    clear Ep. destruct PS; cbn [safe] in S0.
    + destruct kn as [ks|]; [|contradiction]. destruct K as [Hm Ek]. subst ks.
      apply (DATA (Some (keys (streams (w_sock w))))); auto.
    + destruct kn as [ks|]; [|contradiction]. destruct K as [Hm Ek]. subst ks. destruct S0 as [HE [NI [HI S0]]].
      apply (DATA (Some (key :: keys (streams (w_sock w))))); cbn [streams log_traffic]; auto.
      * rewrite keys_insert by auto. constructor; auto.
      * unfold insert_key. rewrite remove_absent by auto. intros x s0 [X|X]; [|auto]. injection X as <- <-. eauto.
      * split; [exact Hm|]. apply keys_insert. exact NI.
    + destruct kn as [ks|]; [|contradiction]. destruct K as [Hm Ek]. subst ks. destruct S0 as [HE [_ S0]].
      apply (DATA (Some (filter (fun x => negb (u160_eqb x key)) (keys (streams (w_sock w)))))); cbn [streams log_traffic]; auto.
      * rewrite keys_remove. apply nodup_filter. exact ND.
      * intros x s X. apply in_remove in X. auto.
      * split; [exact Hm|]. apply keys_remove.
    + destruct kn as [ks|]; [|contradiction]. destruct K as [Hm Ek]. subst ks. destruct S0 as [HI [_ S0]].
      apply (DATA (Some (keys (streams (w_sock w))))); cbn [streams log_traffic]; rewrite ?keys_send; auto.
      intros x s X. apply in_send in X as [X|[s0 [X ->]]]; auto.
    + destruct S0 as [_ S0]. apply (DATA kn); auto.
    + destruct S0 as [_ [Hb S0]]. apply (DATA kn); cbn [streams log_traffic]; auto.
    + destruct S0 as [_ [S0 _]]. apply (DATA kn); cbn [streams log_traffic]; auto.
    + destruct S0 as [_ [_ [S1 S2]]]. apply (DATA kn); auto. cbn [safe]. split; auto.
    + destruct S0 as [_ S0]. apply (DATA kn); auto.
    + apply (DATA kn); auto.
    + destruct S0 as [H0 S0]. apply (DATA None); auto. rewrite H0. apply loops. exact S0.
  - (* acquire *)
    destruct (has_call w t W) as [c Ec]; [congruence|].
    destruct (step_thread_call w t c W Ec) as [kn [K S0]]. rewrite Ep in S0. cbn [safe] in S0.
    destruct S0 as [R [_ S0]].
    constructor; cbn [w_sock w_threads w_poisoned]; try apply W.
    + intros t1 t2 l0 m1 m2 N H1 H2.
      destruct (N.eq_dec t1 t) as [->|N1]; destruct (N.eq_dec t2 t) as [->|N2]; try contradiction.
      * rewrite set_thread_same in H1. rewrite set_thread_other in H2 by auto. cbn in H1. destruct H1 as [H1|H1].
        { injection H1 as <- <-. apply (G t2 m2). exact H2. }
        { apply (wi_excl w W t t2 l0 m1 m2); auto. }
      * rewrite set_thread_same in H2. rewrite set_thread_other in H1 by auto. cbn in H2. destruct H2 as [H2|H2].
        { injection H2 as <- <-. destruct (G t1 m1 H1). auto. }
        { apply (wi_excl w W t1 t l0 m1 m2); auto. }
      * rewrite set_thread_other in H1, H2 by auto. apply (wi_excl w W t1 t2 l0 m1 m2); auto.
    + intros t'. destruct (N.eq_dec t' t) as [->|N].
      * rewrite set_thread_same. unfold thread_ok. cbn [th_call th_held th_prog th_acts]. rewrite Ec.
        assert (KN : knows w ((l, m) :: th_held (w_threads w t)) kn).
        { destruct kn as [ks|]; [|exact Coq.Init.Logic.I]. destruct K as [[m' Hm] Ek]. split; [exists m'; right; auto|auto]. }
        destruct l; try (exists kn; split; [exact KN|exact S0]).
        exists (Some (keys (streams (w_sock w)))). split.
        { split; [exists m; left; reflexivity|reflexivity]. }
        { apply S0. apply W. }
      * apply others_ok; auto.
  - (* poisoned *)
    destruct (has_call w t W) as [c Ec]; [congruence|].
    destruct (step_thread_call w t c W Ec) as [kn [K S0]]. rewrite Ep in S0. cbn [safe] in S0.
    destruct S0 as [R [S0 _]].
    assert (NP : np = false).
    { destruct np eqn:X; auto. rewrite (wi_poison w W X l) in Np. discriminate. }
    constructor; cbn [w_sock w_threads w_poisoned]; try apply W.
    + apply held_of_subset; auto.
    + intros t'. destruct (N.eq_dec t' t) as [->|N].
      * rewrite set_thread_same. unfold thread_ok. cbn [th_call th_held th_prog th_acts]. rewrite Ec.
        exists kn. split; [exact K|]. cbn [safe]. split; [congruence|]. auto.
      * apply others_ok; auto.
  - (* release *)
    destruct (has_call w t W) as [c Ec]; [congruence|].
    destruct (step_thread_call w t c W Ec) as [kn [K S0]]. rewrite Ep in S0. cbn [safe] in S0.
    rewrite Eh in S0. destruct S0 as [_ S0].
    assert (RK : forall ks, kn = Some ks -> l <> LStreams -> exists m', In (LStreams, m') held).
    { intros ks -> NE. destruct K as [[m' Hm] _]. rewrite Eh in Hm. destruct Hm as [Hm|Hm]; [congruence|eauto]. }
    constructor; cbn [w_sock w_threads w_poisoned]; try apply W.
    + apply held_of_subset; auto. cbn [th_held]. intros x Hx. rewrite Eh. right. exact Hx.
    + intros t'. destruct (N.eq_dec t' t) as [->|N].
      * rewrite set_thread_same. unfold thread_ok. cbn [th_call th_held th_prog th_acts]. rewrite Ec.
        exists (match l with LStreams => None | _ => kn end). split; [|exact S0].
        assert (KN : l <> LStreams -> knows w held kn).
        { intros NE. destruct kn as [ks|]; [|exact Coq.Init.Logic.I]. split; [apply (RK ks); auto|apply K]. }
        destruct l; try (apply KN; discriminate). exact Coq.Init.Logic.I.
      * apply others_ok; auto.
  - (* panic *)
    destruct (has_call w t W) as [c Ec]; [congruence|].
    destruct (step_thread_call w t c W Ec) as [kn [K S0]]. rewrite Ep in S0. cbn [safe] in S0.
    destruct S0 as [NE S0].
    constructor; cbn [w_sock w_threads w_poisoned]; try apply W.
    + apply held_of_subset; auto. cbn. contradiction.
    + intros t'. destruct (N.eq_dec t' t) as [->|N].
      * rewrite set_thread_same. unfold thread_ok. cbn [th_call th_held th_prog th_acts]. rewrite Ec.
        exists None. split; [exact Coq.Init.Logic.I|]. cbn [safe]. auto.
      * apply others_ok; auto.
    + intros X l. specialize (NE X). unfold poison. rewrite (wi_poison w W X l). cbn.
      destruct (existsb _ _) eqn:E; [|reflexivity]. exfalso. apply existsb_exists in E as [[l' m'] [Hin E]].
      cbn in E. destruct m'; [discriminate|]. apply (NE l'). exact Hin.
Qed.

Definition calls_ok (tr : list (N * action)) : Prop := forall t c, In (t, ACall c) tr -> allowed c.

Theorem run_winv tr w : execution P oc start tr w -> calls_ok tr -> winv w.
Proof.
  induction 1 as [|tr w1 t a w2 R IH S]; intros C; [apply winv_start|].
  eapply step_winv; [apply IH| |exact S].
  - intros t' c H. apply (C t' c). apply in_or_app. auto.
  - intros c ->. apply (C t c). apply in_or_app. right. left. reflexivity.
Qed.

(** Effects are guaranteed. *)
Theorem step_effect w t a w' : winv w -> step P oc w t a w' ->
  match a with
  | AInsert _ _ | ARemove _ | ASend _ _ | APrint _ =>
      exists c, th_call (w_threads w t) = Some c /\ I c (th_acts (w_threads w t)) a /\
        match a with AInsert k _ => get (streams (w_sock w)) k = None | _ => True end
  | _ => True
  end.
Proof.
  intros W S. inversion S as [c r Ep|p a' k p' Ep PS|l m p Ep Np G|l m p Ep Np|l m p held Ep Eh|why Ep]; subst; auto.
  remember (th_prog (w_threads w t)) as p eqn:Ep.
  destruct (has_call w t W) as [c Ec]. { intros r E. rewrite E in Ep. subst p. inversion PS. }
  destruct (step_thread_call w t c W Ec) as [kn [K S0]]. rewrite <- Ep in S0.
  clear Ep S. destruct PS; cbn [safe] in S0; auto; exists c; (split; [exact Ec|]).
  - destruct kn as [ks|]; [|contradiction]. destruct K as [Hm Ek]. subst ks. destruct S0 as [HE [NI [HI S0]]].
    split; auto. apply get_none. exact NI.
  - destruct kn as [ks|]; [|contradiction]. tauto.
  - destruct kn as [ks|]; [|contradiction]. tauto.
  - tauto.
Qed.

End Invariant.
