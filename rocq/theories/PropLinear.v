(** Property C110: the calls on a socket are linearizable. *)
From Verif Require Import Base Utils Frame CipherSuite Secrets Connection Packet Printing Routing Threads
  Spec SpecPacket SpecRouting Tactics UtilsFacts HeaderFacts ConnectionFacts PrintingFacts RoutingFacts RoutingSafe SoloFacts LocalFacts
  CryptoInst SampleRuns PropRouting PropThreads PropAtomic.

(** The events of a sequential history: a call of thread [t] other than [accept]
    and its result; a delivery and a registration made by [accept]. *)
Inductive item :=
| ICall (t : N) (c : scall) (r : result)
| IDeliver (t : N) (d : datagram)
| IRegister (t : N) (k : u160) (s : qstream).
Definition item_thread (i : item) : N := match i with ICall t _ _ | IDeliver t _ | IRegister t _ _ => t end.
Definition item_call (i : item) : scall := match i with ICall _ c _ => c | _ => CAccept end.

(** What an event does to the registered connections. *)
Inductive legal (oc : bool) : item -> view -> view -> Prop :=
| lg_call : forall t c r A B, one_call oc c A B r -> legal oc (ICall t c r) A B
| lg_deliver : forall t d A B, one_call oc (CRoute d) A B (RUnit (Ok tt)) -> legal oc (IDeliver t d) A B
| lg_register : forall t k s A B, A k = None -> changed_at k (Some s) A B -> q_queue s = [] -> legal oc (IRegister t k s) A B.
(** Events one after the other. *)
Inductive sequential (oc : bool) (A : view) : list item -> view -> Prop :=
| sq_none : sequential oc A [] A
| sq_then : forall l B i C, sequential oc A l B -> legal oc i B C -> sequential oc A (l ++ [i]) C.

(** The events of [H], which assigns events to the first [n] steps of an execution. *)
Definition history (H : nat -> option item) (n : nat) : list item :=
  flat_map (fun p => match H p with Some i => [i] | None => [] end) (seq 0 n).

(** ** Steps are deterministic *)
Lemma pstep_det P oc k p a k1 p1 k2 p2 : pstep P oc k p a k1 p1 -> pstep P oc k p a k2 p2 -> k1 = k2 /\ p1 = p2.
Proof. intros A B. inversion A; subst; inversion B; subst; auto. Qed.
Lemma step_det P oc w t a w1 w2 : step P oc w t a w1 -> step P oc w t a w2 -> w1 = w2.
Proof.
  intros A B.
  inversion A as [c r Ep|p a' k p' Ep PS|l m p Ep Np G|l m p Ep Np|l m p held Ep Eh|why Ep]; subst;
    inversion B as [c' r' Ep'|p2 a2 k2 p2' Ep' PS'|l2 m2 p2 Ep' Np' G'|l2 m2 p2 Ep' Np'|l2 m2 p2 held' Ep' Eh'|why' Ep']; subst;
    try reflexivity; try solve [inversion PS]; try solve [inversion PS'].
  - destruct (pstep_det _ _ _ _ _ _ _ _ _ PS PS') as [-> ->]. reflexivity.
  - rewrite Ep in Ep'. injection Ep' as ->. reflexivity.
  - rewrite Ep in Ep'. injection Ep' as ->. rewrite Eh in Eh'. injection Eh' as -> ->. reflexivity.
Qed.
Lemma execution_det P oc w0 tr w1 : execution P oc w0 tr w1 -> forall w2, execution P oc w0 tr w2 -> w1 = w2.
Proof.
  induction 1 as [|tr w t a w' X IH S]; intros w2 X2.
  - inversion X2 as [|? ? ? ? ? ? ? E]; subst; [reflexivity|]. destruct tr; discriminate E.
  - inversion X2 as [E|tr2 wa t2 b wb Xa Sa E]; subst; [destruct tr; discriminate E|].
    apply app_inj_tail in E as [-> [= -> ->]]. rewrite (IH _ Xa) in S. eapply step_det; eauto.
Qed.

(** ** Programs that change the table at most once *)
Fixpoint calm (p : prog) : Prop :=
  match p with
  | Done _ | Crash _ | Hang => True
  | Acq _ _ p | Rel _ p | SetLog _ p | Print _ p => calm p
  | Insert _ _ _ | Remove _ _ | Send _ _ _ | Goto _ => False
  | LookTable f => forall T, calm (f T)
  | LookLog f => forall b, calm (f b)
  | RecvFrom f => forall ev, calm (f ev)
  | Rand f => forall r, calm (f r)
  end.
Fixpoint once (p : prog) : Prop :=
  match p with
  | Done _ | Crash _ | Hang => True
  | Acq _ _ p | Rel _ p | SetLog _ p | Print _ p => once p
  | Insert _ _ p | Remove _ p | Send _ _ p => calm p
  | Goto _ => False
  | LookTable f => forall T, once (f T)
  | LookLog f => forall b, once (f b)
  | RecvFrom f => forall ev, once (f ev)
  | Rand f => forall r, once (f r)
  end.
Lemma calm_once p : calm p -> once p.
Proof. induction p; cbn; intros C; auto; contradiction. Qed.
Lemma calm_step P oc k p a k' p' : pstep P oc k p a k' p' -> calm p -> calm p'.
Proof. intros S C. destruct S; cbn in C |- *; auto; contradiction. Qed.

Lemma entry_once oc c : c <> CAccept -> once (entry oc c).
Proof.
  intros NA. destruct c; cbn [entry connect_prog drop_prog set_log_prog once calm]; auto; try contradiction.
  - unfold route_datagram. header_cases h r EH; cbn; auto. intros T. destruct (get T (get_destination_id h)); cbn; auto.
  - unfold packets_from_datagram. header_cases h r EH; cbn [once]; auto.
    intros T. destruct (get T (get_destination_id h)); cbn [once]; auto.
    packets_cases; (destruct (decode_packets oc _ _); cbn [lift once]; auto; intros [|]; cbn; auto).
Qed.
Lemma once_inv P oc tr w t c : prims_ok P -> execution P oc start tr w -> well_typed tr -> th_call (w_threads w t) = Some c ->
  c = CAccept \/ once (th_prog (w_threads w t)).
Proof.
  intros HP X T. revert t c.
  apply (local_inv P oc (fun c p held acts => c = CAccept \/ once p) (fun _ _ => True)) with (tr := tr); auto.
  - intros c. destruct c; auto; right; apply entry_once; discriminate.
  - intros c k p held acts a k' p' PS [->|O]; [auto|]. right. destruct PS; cbn in O |- *; auto using calm_once; contradiction.
Qed.

(** ** Positions in a trace *)
Definition fits (oc : bool) (o : option item) (t : N) (w1 w2 : world) : Prop :=
  match o with
  | None => registered w2 = registered w1
  | Some i => legal oc i (registered w1) (registered w2) /\ item_thread i = t /\ th_call (w_threads w2 t) = Some (item_call i)
  end.
Definition no_call_after (t : N) (p : nat) (tr : list (N * action)) : Prop :=
  forall q c, (p < q)%nat -> nth_error tr q <> Some (t, ACall c).


Lemma nth_error_skipn {A} (l : list A) : forall n q, nth_error (skipn n l) q = nth_error l (n + q).
Proof. induction l as [|x l IH]; intros [|n] q; cbn; auto. destruct q; reflexivity. Qed.
Definition is_call (t : N) (x : N * action) : bool :=
  match x with (t', ACall _) => t' =? t | _ => false end.
Lemma call_after_dec t p tr : (exists q c, (p < q)%nat /\ nth_error tr q = Some (t, ACall c)) \/ no_call_after t p tr.
Proof.
  destruct (existsb (is_call t) (skipn (S p) tr)) eqn:E.
  - left. apply existsb_exists in E as [[t' a] [IN E]]. destruct a; try discriminate E. cbn in E. apply N.eqb_eq in E as ->.
    apply In_nth_error in IN as [q Hq]. rewrite nth_error_skipn in Hq. exists (S p + q)%nat, c. split; [lia|exact Hq].
  - right. intros q c L Hq.
    assert (IN : In (t, ACall c) (skipn (S p) tr)).
    { apply (nth_error_In _ (q - S p)). rewrite nth_error_skipn. replace (S p + (q - S p))%nat with q by lia. exact Hq. }
    assert (Q : existsb (is_call t) (skipn (S p) tr) = true); [|congruence].
    apply existsb_exists. exists (t, ACall c). split; [exact IN|]. cbn. apply N.eqb_refl.
Qed.
Lemma nth_snoc {A} (l : list A) x q y : nth_error (l ++ [x]) q = Some y -> (nth_error l q = Some y /\ (q < length l)%nat) \/ (q = length l /\ y = x).
Proof.
  intros E. destruct (Nat.lt_ge_cases q (length l)) as [L|L].
  - rewrite nth_error_app1 in E by exact L. auto.
  - rewrite nth_error_app2 in E by exact L. destruct (q - length l)%nat eqn:D; cbn in E.
    + injection E as ->. right. split; [lia|reflexivity].
    + destruct n; discriminate E.
Qed.
Lemma nth_old {A} (l : list A) x q y : nth_error l q = Some y -> nth_error (l ++ [x]) q = Some y.
Proof. intros E. rewrite nth_error_app1; auto. apply nth_error_Some. congruence. Qed.
Lemma nth_last {A} (l : list A) x : nth_error (l ++ [x]) (length l) = Some x.
Proof. rewrite nth_error_app2 by lia. rewrite Nat.sub_diag. reflexivity. Qed.

(** ** The thread that steps, and the others *)
Lemma step_other P oc w t a w' t' : step P oc w t a w' -> t' <> t -> w_threads w' t' = w_threads w t'.
Proof. intros S N. inversion S; subst; cbn [w_threads]; apply set_thread_other; auto. Qed.
Lemma step_call_kept P oc w t a w' : step P oc w t a w' -> (forall c, a <> ACall c) -> th_call (w_threads w' t) = th_call (w_threads w t).
Proof. intros S N. inversion S; subst; cbn [w_threads]; rewrite set_thread_same; cbn [th_call]; auto. exfalso. exact (N c eq_refl). Qed.
Lemma step_call_set P oc w t c w' : step P oc w t (ACall c) w' -> th_call (w_threads w' t) = Some c.
Proof.
  intros S. inversion S; subst; cbn [w_threads]; rewrite set_thread_same; cbn [th_call]; auto.
  match goal with H : pstep _ _ _ _ _ _ _ |- _ => inversion H end.
Qed.
Lemma step_from_done P oc w t a w' r : step P oc w t a w' -> th_prog (w_threads w t) = Done r -> exists c, a = ACall c.
Proof. intros S D. inversion S; subst; eauto; try congruence. rewrite D in *. match goal with H : pstep _ _ _ _ _ _ _ |- _ => inversion H end. Qed.
Lemma step_calm P oc w t a w' : step P oc w t a w' -> calm (th_prog (w_threads w t)) -> (forall c, a <> ACall c) ->
  quiet a /\ calm (th_prog (w_threads w' t)).
Proof.
  intros S C N. inversion S as [c r Ep|p a' k p' Ep PS|l m p Ep Np G|l m p Ep Np|l m p held Ep Eh|why Ep]; subst;
    cbn [w_threads]; rewrite set_thread_same; cbn [th_prog].
  - exfalso. exact (N c eq_refl).
  - split; [|eapply calm_step; eauto]. destruct PS; cbn in C |- *; auto.
  - rewrite Ep in C. split; [exact I|exact C].
  - split; exact I.
  - rewrite Ep in C. split; [exact I|exact C].
  - split; exact I.
Qed.
Lemma step_once P oc w t a w' : step P oc w t a w' -> once (th_prog (w_threads w t)) -> ~ quiet a -> calm (th_prog (w_threads w' t)).
Proof.
  intros S C N. inversion S as [c r Ep|p a' k p' Ep PS|l m p Ep Np G|l m p Ep Np|l m p held Ep Eh|why Ep]; subst;
    cbn [w_threads]; rewrite set_thread_same; cbn [th_prog]; try (exfalso; apply N; exact I).
  destruct PS; cbn in C |- *; auto; exfalso; apply N; exact I.
Qed.
Lemma done_stays P oc w1 b w2 t r : execution P oc w1 b w2 -> th_prog (w_threads w1 t) = Done r -> (forall c, ~ In (t, ACall c) b) ->
  w_threads w2 t = w_threads w1 t.
Proof.
  intros X D. induction X as [|tr w t' a w' X IH S]; intros NC; [reflexivity|].
  assert (E : w_threads w t = w_threads w1 t) by (apply IH; intros c H; apply (NC c); apply in_or_app; auto).
  rewrite <- E. apply (step_other _ _ _ _ _ _ _ S). intros ->. destruct (step_from_done _ _ _ _ _ _ r S) as [c ->]; [congruence|].
  apply (NC c). apply in_or_app. right. left. reflexivity.
Qed.

Lemma call_kept_run P oc w1 b w2 t : execution P oc w1 b w2 -> (forall c, ~ In (t, ACall c) b) ->
  th_call (w_threads w2 t) = th_call (w_threads w1 t).
Proof.
  intros X. induction X as [|tr w t' a w' X IH S]; intros NC; [reflexivity|].
  rewrite <- IH by (intros c H; apply (NC c); apply in_or_app; auto).
  destruct (N.eq_dec t t') as [<-|N]; [|rewrite (step_other _ _ _ _ _ _ _ S N); reflexivity].
  apply (step_call_kept _ _ _ _ _ _ S). intros c ->. apply (NC c). apply in_or_app. right. left. reflexivity.
Qed.

(** ** The invariant *)
Record lin (P : prims) (oc : bool) (tr : list (N * action)) (w : world) (D : nat) (H : nat -> option item) : Prop := Lin {
  l_out : forall p, (length tr <= p)%nat -> H p = None;
  l_fits : forall p t a w1 w2, nth_error tr p = Some (t, a) -> execution P oc start (firstn p tr) w1 -> step P oc w1 t a w2 ->
    fits oc (H p) t w1 w2;
  l_done : forall tr1 tr2 w1 t c r, tr = tr1 ++ tr2 -> (length tr1 < D)%nat -> execution P oc start tr1 w1 ->
    th_call (w_threads w1 t) = Some c -> th_prog (w_threads w1 t) = Done r -> c <> CAccept ->
    exists p, H p = Some (ICall t c r) /\ (p < length tr1)%nat /\ (forall q c', nth_error tr1 q = Some (t, ACall c') -> (q <= p)%nat);
  l_once : forall p p' t c r c' r', (p < p')%nat -> H p = Some (ICall t c r) -> H p' = Some (ICall t c' r') ->
    exists q c0, (p < q <= p')%nat /\ nth_error tr q = Some (t, ACall c0);
  l_now : forall p t c r, H p = Some (ICall t c r) -> no_call_after t p tr ->
    calm (th_prog (w_threads w t)) /\
    ((exists r', th_prog (w_threads w t) = Done r') \/ exists a, nth_error tr p = Some (t, a) /\ ~ quiet a) }.

(** The event of a step that changes the table. *)
Definition base (o : option scall) (t : N) (a : action) : option item :=
  match a with
  | ASend k d => match o with Some (CRoute _) => Some (ICall t (CRoute d) (RUnit (Ok tt))) | _ => Some (IDeliver t d) end
  | ARemove k => Some (ICall t (CDropStream k) RNothing)
  | AInsert k s => Some (IRegister t k s)
  | _ => None
  end.
Definition put (H : nat -> option item) (n : nat) (o : option item) (p : nat) : option item := if Nat.eqb p n then o else H p.
Lemma put_same H n o : put H n o n = o. Proof. unfold put. rewrite Nat.eqb_refl. reflexivity. Qed.
Lemma put_other H n o p : p <> n -> put H n o p = H p.
Proof. intros N. unfold put. apply Nat.eqb_neq in N. rewrite N. reflexivity. Qed.

Lemma base_fits P oc tr w t a w' : prims_ok P -> execution P oc start tr w -> well_typed tr -> step P oc w t a w' ->
  fits oc (base (th_call (w_threads w t)) t a) t w w'.
Proof.
  intros HP X T S. pose proof (C93_changes_atomic P oc tr w t a w' HP X T S) as K.
  assert (KEPT : ~ quiet a -> th_call (w_threads w' t) = th_call (w_threads w t))
    by (intros Q; apply (step_call_kept _ _ _ _ _ _ S); intros c ->; apply Q; exact I).
  destruct a; cbn [base fits]; try (apply (quiet_step _ _ _ _ _ _ S); reflexivity).
  - destruct K as [K1 [K2 [K3 [K4 _]]]]. rewrite KEPT by (intros []). split; [constructor; auto|]. split; auto.
  - destruct K as [K1 K2]. rewrite KEPT by (intros []). split; [constructor; auto|]. split; auto.
  - destruct K as [K1 [K2|[K2 _]]]; rewrite K2; cbn [fits]; rewrite KEPT by (intros []); (split; [constructor; auto|]; split; auto).
Qed.
Lemma base_call t o a t' c r : base o t a = Some (ICall t' c r) -> t' = t /\ ~ quiet a /\ c <> CAccept.
Proof.
  destruct a; cbn; intros E; try discriminate E.
  - injection E as <- <- <-. repeat split; auto. discriminate.
  - destruct o as [[]|]; try discriminate E. injection E as <- <- <-. repeat split; auto. discriminate.
Qed.

Lemma lin_base P oc tr w t a w' H : prims_ok P -> execution P oc start tr w -> well_typed tr -> step P oc w t a w' ->
  lin P oc tr w (S (length tr)) H ->
  lin P oc (tr ++ [(t, a)]) w' (length (tr ++ [(t, a)])) (put H (length tr) (base (th_call (w_threads w t)) t a)).
Proof.
  intros HP X T S L. set (n := length tr). set (o := th_call (w_threads w t)).
  assert (LEN : length (tr ++ [(t, a)]) = Datatypes.S n) by (rewrite app_length; cbn; fold n; lia).
  assert (OLD : forall p, (p < n)%nat -> put H n (base o t a) p = H p) by (intros p Lp; apply put_other; lia).
  assert (AT : forall p i, put H n (base o t a) p = Some i -> (p < n /\ H p = Some i \/ p = n /\ base o t a = Some i)%nat).
  { intros p i E. destruct (Nat.eq_dec p n) as [->|N].
    - rewrite put_same in E. auto.
    - rewrite put_other in E by exact N. left. split; [|exact E].
      destruct (Nat.lt_ge_cases p n) as [|G]; [assumption|]. rewrite (l_out _ _ _ _ _ _ L p G) in E. discriminate E. }
  split.
  - intros p Lp. rewrite LEN in Lp. rewrite put_other by lia. apply (l_out _ _ _ _ _ _ L). fold n. lia.
  - intros p t1 a1 w1 w2 E X1 S1. apply nth_snoc in E as [[E Lp]|[-> [= -> ->]]].
    + rewrite OLD by exact Lp. apply (l_fits _ _ _ _ _ _ L p t1 a1); auto.
      rewrite firstn_app in X1. replace (p - length tr)%nat with 0%nat in X1 by lia. cbn [firstn] in X1. rewrite app_nil_r in X1. exact X1.
    + fold n. rewrite put_same. rewrite firstn_app, Nat.sub_diag, firstn_all in X1. cbn [firstn] in X1. rewrite app_nil_r in X1.
      pose proof (execution_det _ _ _ _ _ X1 _ X). subst w1. pose proof (step_det _ _ _ _ _ _ _ S1 S). subst w2. eapply base_fits; eauto.
  - intros tr1 tr2 w1 t1 c r E Ll X1 Ec Ed NA. destruct tr2 as [|x tr2] using rev_ind.
    { rewrite app_nil_r in E. subst tr1. lia. }
    clear IHtr2. rewrite app_assoc in E. apply app_inj_tail in E as [E _].
    destruct (l_done _ _ _ _ _ _ L tr1 tr2 w1 t1 c r E) as [p [P1 [P2 P3]]]; auto.
    { rewrite LEN in Ll. exact Ll. }
    exists p. split; [|auto]. rewrite put_other; [exact P1|]. rewrite LEN in Ll. lia.
  - intros p p' t1 c r c' r' Lp E E'.
    apply AT in E as [[G E]|[-> E]].
    + apply AT in E' as [[G' E']|[-> E']].
      * destruct (l_once _ _ _ _ _ _ L p p' t1 c r c' r' Lp E E') as [q [c0 [Q1 Q2]]]. exists q, c0. split; [exact Q1|apply nth_old; exact Q2].
      * apply base_call in E' as [-> [NQ _]].
        destruct (call_after_dec t p tr) as [[q [c0 [Q1 Q2]]]|NC].
        { exists q, c0. split; [|apply nth_old; exact Q2]. assert (Q : (q < length tr)%nat) by (apply nth_error_Some; congruence). fold n in Q. lia. }
        destruct (l_now _ _ _ _ _ _ L p t c r E NC) as [CA _]. exfalso. apply NQ.
        apply (step_calm P oc w t a w' S CA). intros c0 ->. exact (NQ I).
    + apply AT in E' as [[G' E']|[-> E']]; lia.
  - intros p t1 c r E NC.
    assert (NC' : no_call_after t1 p tr) by (intros q c0 Q1 Q2; apply (NC q c0 Q1), nth_old, Q2).
    apply AT in E as [[G E]|[-> E]].
    + destruct (l_now _ _ _ _ _ _ L p t1 c r E NC') as [CA O].
      destruct (N.eq_dec t1 t) as [->|Nt].
      * assert (NA : forall c0, a <> ACall c0).
        { intros c0 ->. apply (NC n c0); [exact G|]. apply nth_last. }
        destruct (step_calm P oc w t a w' S CA NA) as [_ CA']. split; [exact CA'|].
        destruct O as [[r' D]|[b [B1 B2]]].
        -- destruct (step_from_done _ _ _ _ _ _ _ S D) as [c0 ->]. exfalso. exact (NA c0 eq_refl).
        -- right. exists b. split; [apply nth_old; exact B1|exact B2].
      * rewrite (step_other _ _ _ _ _ _ t1 S Nt). split; [exact CA|].
        destruct O as [O|[b [B1 B2]]]; [left; exact O|]. right. exists b. split; [apply nth_old; exact B1|exact B2].
    + pose proof (base_fits P oc tr w t a w' HP X T S) as F. fold o in F. rewrite E in F. cbn [fits item_thread item_call] in F.
      destruct F as [_ [-> Ec]]. apply base_call in E as [_ [NQ NAc]].
      rewrite (step_call_kept _ _ _ _ _ _ S) in Ec by (intros c0 ->; exact (NQ I)).
      destruct (once_inv P oc tr w t c HP X T Ec) as [->|O]; [exfalso; exact (NAc eq_refl)|].
      split; [eapply step_once; eauto|]. right. exists a. split; [apply nth_last|exact NQ].
Qed.

Lemma in_quiet_acts t p tr1 a0 b tr2 : nth_error (tr1 ++ (t, a0) :: tr2) p = Some (t, b) -> (length tr1 < p)%nat ->
  Forall quiet (acts_of t tr2) -> quiet b.
Proof.
  intros E L F. rewrite nth_error_app2 in E by lia. destruct (p - length tr1)%nat as [|q] eqn:D; [lia|]. cbn in E.
  apply (proj1 (Forall_forall _ _) F). unfold acts_of. apply in_map_iff. exists (t, b). split; [reflexivity|].
  apply filter_In. split; [eapply nth_error_In; eauto|]. cbn. apply N.eqb_refl.
Qed.
(** What a thread did since a position is among the actions of its call. *)
Lemma done_since P oc tr w t p b : execution P oc start tr w -> nth_error tr p = Some (t, b) -> ~ quiet b -> no_call_after t p tr ->
  In b (th_acts (w_threads w t)).
Proof.
  intros X E NQ NC. destruct (nth_error_split _ _ E) as [l1 [l2 [-> L]]].
  destruct (execution_split P oc start ((t, b) :: l2) w l1 X) as [w1 [X1 X2]].
  change ((t, b) :: l2) with ([(t, b)] ++ l2) in X2.
  destruct (execution_split P oc w1 l2 w _ X2) as [w2 [X3 X4]].
  inversion X3 as [F|tr0 wa t0 b0 wb X5 ST F]; subst. change [(t, b)] with ([] ++ [(t, b)]) in F.
  apply app_inj_tail in F as [-> [= -> ->]]. inversion X5 as [|? ? ? ? ? ? ? F]; subst; [|destruct tr; discriminate F].
  rewrite (acts_after P oc w2 t l2 w X4).
  - rewrite (step_acts _ _ _ _ _ _ ST) by (intros c ->; exact (NQ I)). apply in_or_app. left. apply in_or_app. right. left. reflexivity.
  - intros c H. apply In_nth_error in H as [q H]. apply (NC (length l1 + Datatypes.S q)%nat c); [lia|].
    rewrite nth_error_app2 by lia. replace (length l1 + Datatypes.S q - length l1)%nat with (Datatypes.S q) by lia. exact H.
Qed.

Lemma lin_step P oc tr w t a w' H : prims_ok P -> execution P oc start tr w -> well_typed (tr ++ [(t, a)]) -> public_run (tr ++ [(t, a)]) ->
  step P oc w t a w' -> lin P oc tr w (S (length tr)) H ->
  exists H', lin P oc (tr ++ [(t, a)]) w' (S (length (tr ++ [(t, a)]))) H'.
Proof.
  intros HP X T PR S L. pose proof (proj1 (typed_app _ _) T) as [T0 _].
  pose proof (lin_base P oc tr w t a w' H HP X T0 S L) as L1. set (H1 := put H (length tr) _) in *.
  set (n := length tr) in *. set (tr' := tr ++ [(t, a)]) in *.
  assert (X' : execution P oc start tr' w') by (eapply ex_snoc; eauto).
  assert (LEN : length tr' = Datatypes.S n) by (unfold tr'; rewrite app_length; cbn; fold n; lia).
  assert (OTHERS : forall t1 c r, t1 <> t -> th_call (w_threads w' t1) = Some c -> th_prog (w_threads w' t1) = Done r -> c <> CAccept ->
    exists p, H1 p = Some (ICall t1 c r) /\ (p < length tr')%nat /\ (forall q c', nth_error tr' q = Some (t1, ACall c') -> (q <= p)%nat)).
  { intros t1 c r Nt Ec Ed NA. rewrite (step_other _ _ _ _ _ _ t1 S Nt) in Ec, Ed.
    destruct (l_done _ _ _ _ _ _ L tr [] w t1 c r) as [p [P1 [P2 P3]]]; auto.
    { rewrite app_nil_r. reflexivity. }
    exists p. split; [unfold H1; rewrite put_other; [exact P1|fold n in P2; lia]|]. split; [fold n in P2; lia|].
    intros q c' Q. apply nth_snoc in Q as [[Q _]|[_ Q]]; [eapply P3; eauto|congruence]. }
  assert (SPLIT : forall tr1 tr2, tr' = tr1 ++ tr2 -> (length tr1 < length tr')%nat \/ tr1 = tr').
  { intros tr1 tr2 E. destruct tr2 as [|x tr2]; [right; rewrite app_nil_r in E; auto|]. left. rewrite E, app_length. cbn. lia. }
  assert (KEEP : (forall c r, th_call (w_threads w' t) = Some c -> th_prog (w_threads w' t) = Done r -> c = CAccept) ->
    exists H', lin P oc tr' w' (Datatypes.S (length tr')) H').
  { intros NN. exists H1. split; [apply (l_out _ _ _ _ _ _ L1)|apply (l_fits _ _ _ _ _ _ L1)| |apply (l_once _ _ _ _ _ _ L1)|apply (l_now _ _ _ _ _ _ L1)].
    intros tr1 tr2 w1 t1 c1 r1 E Ll X1 Ec1 Ed1 NA1. destruct (SPLIT tr1 tr2 E) as [Lt| ->]; [eapply (l_done _ _ _ _ _ _ L1); eauto|].
    pose proof (execution_det _ _ _ _ _ X1 _ X'). subst w1. destruct (N.eq_dec t1 t) as [->|Nt]; [|eapply OTHERS; eauto].
    exfalso. exact (NA1 (NN c1 r1 Ec1 Ed1)). }
  destruct (th_prog (w_threads w' t)) as [r| | | | | | | | | | | | | |] eqn:Ed.
  2-15: apply KEEP; intros c r _ Q; discriminate Q.
  destruct (th_call (w_threads w' t)) as [c|] eqn:Ec; [|apply KEEP; intros c r' Q; discriminate Q].
  assert (DA : c = CAccept \/ c <> CAccept) by (destruct c; auto; right; intros Q; discriminate Q).
  destruct DA as [->|NA]; [apply KEEP; congruence|]. clear KEEP.
  (* the call ends now *)
  destruct (C93_calls_atomic P oc tr' w' t c r HP X' T PR Ec Ed NA) as [tr1 [w1 [a0 [w2 [tr2 [E [X1 [S1 [X2 [WHERE [ONE [NC QT]]]]]]]]]]]].
  set (p2 := length tr1).
  assert (N2 : nth_error tr' p2 = Some (t, a0)) by (rewrite E; unfold p2; rewrite nth_error_app2, Nat.sub_diag by lia; reflexivity).
  assert (Lp2 : (p2 < length tr')%nat) by (apply nth_error_Some; congruence).
  assert (NC2 : no_call_after t p2 tr').
  { intros q c0 Lq Q. rewrite E, nth_error_app2 in Q by (unfold p2 in Lq; lia).
    destruct (q - length tr1)%nat as [|m] eqn:D; [unfold p2 in Lq; lia|]. cbn in Q. apply (NC c0). eapply nth_error_In; eauto. }
  assert (MINE : forall i, H1 p2 = Some i -> item_thread i = t).
  { intros i Q. pose proof (l_fits _ _ _ _ _ _ L1 p2 t a0 w1 w2 N2) as F. rewrite Q in F. apply F; [|exact S1].
    rewrite E. unfold p2. rewrite firstn_app, Nat.sub_diag, firstn_all. cbn [firstn]. rewrite app_nil_r. exact X1. }
  (* earlier events of this call *)
  assert (BEFORE : forall p c1 r1, H1 p = Some (ICall t c1 r1) -> no_call_after t p tr' -> p <> p2 ->
     exists b, nth_error tr' p = Some (t, b) /\ ~ quiet b).
  { intros p c1 r1 Q NCp Np. destruct (Nat.eq_dec p n) as [->|Nn].
    - unfold H1 in Q. rewrite put_same in Q. apply base_call in Q as [_ [NQ _]]. exists a. split; [apply nth_last|exact NQ].
    - unfold H1 in Q. rewrite put_other in Q by exact Nn.
      assert (Lp : (p < n)%nat).
      { destruct (Nat.lt_ge_cases p n) as [|G]; [assumption|]. rewrite (l_out _ _ _ _ _ _ L p G) in Q. discriminate Q. }
      destruct (l_now _ _ _ _ _ _ L p t c1 r1 Q) as [_ [[r' D]|[b [B1 B2]]]].
      + intros q c0 Lq Q0. apply (NCp q c0 Lq), nth_old, Q0.
      + destruct (step_from_done _ _ _ _ _ _ _ S D) as [c0 ->]. exfalso. apply (NCp n c0 Lp). apply nth_last.
      + exists b. split; [apply nth_old; exact B1|exact B2]. }
  exists (put H1 p2 (Some (ICall t c r))). split.
  - intros p Lp. rewrite put_other by lia. apply (l_out _ _ _ _ _ _ L1). exact Lp.
  - intros p t1 a1 wa wb Q Xa Sa. destruct (Nat.eq_dec p p2) as [->|Np].
    + rewrite put_same. rewrite N2 in Q. injection Q as <- <-.
      rewrite E in Xa. unfold p2 in Xa. rewrite firstn_app, Nat.sub_diag, firstn_all in Xa. cbn [firstn] in Xa. rewrite app_nil_r in Xa.
      pose proof (execution_det _ _ _ _ _ Xa _ X1). subst wa. pose proof (step_det _ _ _ _ _ _ _ Sa S1). subst wb.
      cbn [fits item_thread item_call]. split; [constructor; exact ONE|]. split; [reflexivity|].
      destruct WHERE as [->|[WC _]]; [eapply step_call_set; eauto|].
      assert (D : (exists c0, a0 = ACall c0) \/ forall c0, a0 <> ACall c0)
        by (destruct a0; try (right; intros c0 Q; discriminate Q); left; eauto).
      destruct D as [[c0 ->]|D]; [|rewrite (step_call_kept _ _ _ _ _ _ S1 D); exact WC].
      (* the last call of the thread is this one *)
      rewrite (step_call_set _ _ _ _ _ _ S1). rewrite <- Ec. rewrite (call_kept_run P oc w2 tr2 w' t X2 NC). rewrite (step_call_set _ _ _ _ _ _ S1). reflexivity.
    + rewrite put_other by exact Np. eapply (l_fits _ _ _ _ _ _ L1); eauto.
  - intros tra trb wa t1 c1 r1 F Ll Xa Ec1 Ed1 NA1. destruct (SPLIT tra trb F) as [Lt| ->].
    + destruct (l_done _ _ _ _ _ _ L1 tra trb wa t1 c1 r1 F Lt Xa Ec1 Ed1 NA1) as [p [P1 [P2 P3]]].
      exists p. split; [|auto]. rewrite put_other; [exact P1|]. intros ->. pose proof (MINE _ P1) as Q. cbn in Q. subst t1.
      (* a thread that was done has not stepped since *)
      assert (NB : forall c0, ~ In (t, ACall c0) trb).
      { intros c0 Q. apply In_nth_error in Q as [q Q]. apply (NC2 (length tra + q)%nat c0); [lia|].
        rewrite F, nth_error_app2 by lia. replace (length tra + q - length tra)%nat with q by lia. exact Q. }
      destruct trb as [|x trb] using rev_ind. { rewrite app_nil_r in F. subst tra. lia. }
      clear IHtrb. pose proof F as F0. unfold tr' in F0. rewrite app_assoc in F0. apply app_inj_tail in F0 as [F0 <-].
      rewrite F0 in X. destruct (execution_split P oc start trb w tra X) as [wm [Xm Xn]].
      pose proof (execution_det _ _ _ _ _ Xm _ Xa). subst wm.
      assert (NB' : forall c0, ~ In (t, ACall c0) trb) by (intros c0 Q; apply (NB c0), in_or_app; auto).
      pose proof (done_stays P oc wa trb w t r1 Xn Ed1 NB') as ST. rewrite <- ST in Ed1.
      destruct (step_from_done _ _ _ _ _ _ _ S Ed1) as [c0 ->]. apply (NB c0). apply in_or_app. right. left. reflexivity.
    + pose proof (execution_det _ _ _ _ _ Xa _ X'). subst wa. destruct (N.eq_dec t1 t) as [->|Nt].
      * rewrite Ec in Ec1. injection Ec1 as <-. rewrite Ed in Ed1. injection Ed1 as <-.
        exists p2. split; [apply put_same|]. split; [exact Lp2|]. intros q c' Q.
        destruct (Nat.le_gt_cases q p2) as [|G]; [assumption|]. exfalso. exact (NC2 q c' G Q).
      * destruct (OTHERS t1 c1 r1 Nt Ec1 Ed1 NA1) as [p [P1 P2]]. exists p. split; [|exact P2].
        rewrite put_other; [exact P1|]. intros ->. apply Nt. apply (MINE _ P1).
  - intros p p' t1 c1 r1 c1' r1' Lp Q Q'.
    destruct (Nat.eq_dec p p2) as [->|Np]; [rewrite put_same in Q; injection Q as <- <- <-|rewrite put_other in Q by exact Np].
    + rewrite put_other in Q' by lia. exfalso.
      destruct (BEFORE p' c1' r1' Q') as [b [B1 B2]]; [intros q c0 Lq Q0; apply (NC2 q c0); [lia|exact Q0]|lia|].
      apply B2. rewrite E in B1. eapply in_quiet_acts; eauto.
    + destruct (Nat.eq_dec p' p2) as [->|Np']; [rewrite put_same in Q'; injection Q' as <- <- <-|rewrite put_other in Q' by exact Np'].
      * destruct (call_after_dec t p tr') as [[q [c0 [Q1 Q2]]]|NCp].
        { exists q, c0. split; [|exact Q2]. split; [exact Q1|]. destruct (Nat.le_gt_cases q p2) as [|G]; [assumption|]. exfalso. exact (NC2 q c0 G Q2). }
        exfalso. destruct (BEFORE p c1 r1 Q NCp Np) as [b [B1 B2]].
        destruct WHERE as [->|[WC WQ]]; [exact (NCp p2 c Lp N2)|].
        apply B2. apply (proj1 (Forall_forall _ _) WQ).
        apply (done_since P oc tr1 w1 t p b X1); auto.
        -- rewrite E, nth_error_app1 in B1 by exact Lp. exact B1.
        -- intros q c0 Lq Q0. apply (NCp q c0 Lq). rewrite E, nth_error_app1; [exact Q0|]. apply nth_error_Some. congruence.
      * eapply (l_once _ _ _ _ _ _ L1); eauto.
  - intros p t1 c1 r1 Q NCp. destruct (N.eq_dec t1 t) as [->|Nt].
    + rewrite Ed. split; [exact I|]. left. eauto.
    + destruct (Nat.eq_dec p p2) as [->|Np]; [rewrite put_same in Q; congruence|]. rewrite put_other in Q by exact Np.
      eapply (l_now _ _ _ _ _ _ L1); eauto.
Qed.

Lemma lin_start P oc : lin P oc [] start 1 (fun _ => None).
Proof.
  split.
  - reflexivity.
  - intros p t a w1 w2 E. destruct p; discriminate E.
  - intros tr1 tr2 w1 t c r E _ X Ec. symmetry in E. apply app_eq_nil in E as [-> ->].
    inversion X as [|? ? ? ? ? ? ? F]; subst; [discriminate Ec|]. destruct tr; discriminate F.
  - intros p p' t c r c' r' _ E. discriminate E.
  - intros p t c r E. discriminate E.
Qed.
Lemma lin_all P oc tr w : prims_ok P -> execution P oc start tr w -> well_typed tr -> public_run tr ->
  exists H, lin P oc tr w (S (length tr)) H.
Proof.
  intros HP X. induction X as [|tr w t a w' X IH ST]; intros T PR; [exists (fun _ => None); apply lin_start|].
  destruct IH as [H L].
  - apply typed_app in T as [T _]. exact T.
  - intros t0 IN. apply (PR t0), in_or_app. auto.
  - eapply lin_step; eauto.
Qed.

Lemma history_S H n : history H (S n) = history H n ++ match H n with Some i => [i] | None => [] end.
Proof. unfold history. rewrite seq_S, flat_map_app. cbn. rewrite app_nil_r. reflexivity. Qed.
Lemma firstn_snoc {A} (l : list A) p x : nth_error l p = Some x -> firstn (S p) l = firstn p l ++ [x].
Proof.
  revert p. induction l as [|y l IH]; intros [|p] E; try discriminate E; cbn in *; [injection E as ->; reflexivity|].
  f_equal. apply IH. exact E.
Qed.
Lemma lin_sequential P oc tr w D H : lin P oc tr w D H -> forall n w1, (n <= length tr)%nat -> execution P oc start (firstn n tr) w1 ->
  sequential oc (fun _ => None) (history H n) (registered w1).
Proof.
  intros L. induction n as [|n IH]; intros w1 Ln X.
  - cbn in X. inversion X as [|? ? ? ? ? ? ? F]; subst; [constructor|]. destruct tr0; discriminate F.
  - destruct (nth_error tr n) as [[t a]|] eqn:E; [|apply nth_error_None in E; lia].
    rewrite (firstn_snoc _ _ _ E) in X. inversion X as [F|tr0 w0 t0 a0 w2 X0 ST F]; subst; [destruct (firstn n tr); discriminate F|].
    apply app_inj_tail in F as [-> [= -> ->]].
    pose proof (l_fits _ _ _ _ _ _ L n t a w0 w1 E X0 ST) as F. rewrite history_S.
    specialize (IH w0 ltac:(lia) X0). destruct (H n) as [i|]; cbn [fits] in F.
    + econstructor; [exact IH|apply F].
    + rewrite app_nil_r, F. exact IH.
Qed.

(** ** The theorem *)
(** [H] orders the calls of an execution: it assigns events to some of its steps, so that the
    events, in the order of the steps, are a sequential history that ends with what is registered;
    an event belongs to the call that makes the step; a call that has returned by the
    end of [tr1] has an event, with its result, not before its beginning and not after its end;
    and no call has two. *)
Record linearization (P : prims) (oc : bool) (tr : list (N * action)) (w : world) (H : nat -> option item) : Prop := Linearization {
  ln_sequential : sequential oc (fun _ => None) (history H (length tr)) (registered w);
  ln_owner : forall p i, H p = Some i -> exists a w1 w2, nth_error tr p = Some (item_thread i, a) /\
    execution P oc start (firstn p tr) w1 /\ step P oc w1 (item_thread i) a w2 /\
    th_call (w_threads w2 (item_thread i)) = Some (item_call i);
  ln_returned : forall tr1 tr2 w1 t c r, tr = tr1 ++ tr2 -> execution P oc start tr1 w1 ->
    th_call (w_threads w1 t) = Some c -> th_prog (w_threads w1 t) = Done r -> c <> CAccept ->
    exists p, H p = Some (ICall t c r) /\ (p < length tr1)%nat /\ (forall q c', nth_error tr1 q = Some (t, ACall c') -> (q <= p)%nat);
  ln_once : forall p p' t c r c' r', (p < p')%nat -> H p = Some (ICall t c r) -> H p' = Some (ICall t c' r') ->
    exists q c0, (p < q <= p')%nat /\ nth_error tr q = Some (t, ACall c0) }.

Theorem C110_linearizable : forall P oc tr w, prims_ok P -> execution P oc start tr w -> well_typed tr -> public_run tr ->
  exists H, linearization P oc tr w H.
Proof.
  intros P oc tr w HP X T PR. destruct (lin_all P oc tr w HP X T PR) as [H L]. exists H. split.
  - apply (lin_sequential P oc tr w _ H L); [lia|]. rewrite firstn_all. exact X.
  - intros p i E. destruct (nth_error tr p) as [[t a]|] eqn:N.
    2: { apply nth_error_None in N. rewrite (l_out _ _ _ _ _ _ L p N) in E. discriminate E. }
    destruct (nth_error_split _ _ N) as [l1 [l2 [-> Ll]]].
    destruct (execution_split P oc start ((t, a) :: l2) w l1 X) as [w1 [X1 X2]].
    change ((t, a) :: l2) with ([(t, a)] ++ l2) in X2. destruct (execution_split P oc w1 l2 w _ X2) as [w2 [X3 X4]].
    inversion X3 as [F|tr0 wa t0 b0 wb X5 ST F]; subst. change [(t, a)] with ([] ++ [(t, a)]) in F.
    apply app_inj_tail in F as [-> [= -> ->]]. inversion X5 as [|? ? ? ? ? ? ? F]; subst; [|destruct tr; discriminate F].
    assert (X6 : execution P oc start (firstn (length l1) (l1 ++ (t, a) :: l2)) wa).
    { rewrite firstn_app, Nat.sub_diag, firstn_all. cbn [firstn]. rewrite app_nil_r. exact X1. }
    pose proof (l_fits _ _ _ _ _ _ L (length l1) t a wa w2 N X6 ST) as F. rewrite E in F. cbn [fits] in F.
    destruct F as [_ [-> F]]. exists a, wa, w2. auto.
  - intros tr1 tr2 w1 t c r E X1. apply (l_done _ _ _ _ _ _ L tr1 tr2 w1 t c r E); auto. rewrite E, app_length. lia.
  - apply (l_once _ _ _ _ _ _ L).
Qed.
Print Assumptions C110_linearizable.

(** Two overlapping calls, both in the history. *)
Example C110_case : exists tr w H, execution real_prims true start tr w /\ well_typed tr /\ public_run tr /\
  linearization real_prims true tr w H /\
  (exists a b c, tr = a ++ (1, ACall (CDropStream (U160 0 77))) :: b ++ (0, ACall (CRoute short_77b)) :: c /\
    (forall x, ~ In (1, x) b)) /\
  In (ICall 0 (CRoute short_77b) (RUnit (Ok tt))) (history H (length tr)) /\
  In (ICall 1 (CDropStream (U160 0 77)) RNothing) (history H (length tr)).
Proof.
  destruct C93_case as [tr [w [X [T [PR [C0 [D0 [C1 [D1 [a [b [c [E [NB _]]]]]]]]]]]]]].
  destruct (C110_linearizable real_prims true tr w real_prims_ok X T PR) as [H L]. exists tr, w, H.
  split; [exact X|]. split; [exact T|]. split; [exact PR|]. split; [exact L|]. split; [exists a, b, c; auto|].
  assert (IN : forall p i, (p < length tr)%nat -> H p = Some i -> In i (history H (length tr))).
  { intros p i Lp E0. unfold history. apply in_flat_map. exists p. split; [apply in_seq; lia|]. rewrite E0. left. reflexivity. }
  split.
  - destruct (ln_returned _ _ _ _ _ L tr [] w 0 _ _ (eq_sym (app_nil_r tr)) X C0 D0) as [p [P1 [P2 _]]]; [intros Q; discriminate Q|]. eauto.
  - destruct (ln_returned _ _ _ _ _ L tr [] w 1 _ _ (eq_sym (app_nil_r tr)) X C1 D1) as [p [P1 [P2 _]]]; [intros Q; discriminate Q|]. eauto.
Qed.
