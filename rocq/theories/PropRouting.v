(** The connection table under concurrent use: C37-C40, C47, C48. *)
From Verif Require Import Base Utils Frame CipherSuite Secrets Connection Packet Routing Threads
  Spec SpecPacket SpecRouting Tactics UtilsFacts HeaderFacts ConnectionFacts RoutingFacts RoutingSafe SoloFacts CryptoInst SampleRuns.

(** A run in which a client is accepted under id 77 and two datagrams are routed to it. *)
Definition short_77b : datagram := Datagram (0x7f :: be_bytes 8 77) 3.
Lemma two_routed : exists tr w c0 acts, between real_prims true 0 tr w
    (ISocket [(U160 0 77, QStream [short_77; short_77b] (set_scid c0 (U160 0 77) 8))] false []) /\
  In (0, ASend (U160 0 77) short_77) tr /\ In (0, ASend (U160 0 77) short_77b) tr /\
  w_threads w 0 = Thread (Done (RUnit (Ok tt))) [] (Some (CRoute short_77b)) acts.
Proof.
  apply (sample_routed short_77 short_77b (HShort (ShortHeader 0x40 (U160 0 77) true)) (HShort (ShortHeader 0x7f (U160 0 77) true))).
  - exists [1; 2; 3]. vm_compute. reflexivity.
  - exists []. vm_compute. reflexivity.
  - reflexivity.
  - reflexivity.
Qed.

(** ** Common *)
Lemma typed_ok tr : well_typed tr -> calls_ok (call_ok true) tr.
Proof. intros T t c H. destruct c as [| | | | |d|[|]]; cbn; auto. apply (T t d H). Qed.
Lemma public_ok tr : well_typed tr -> public_run tr -> calls_ok (call_ok false) tr.
Proof. intros T PR t c H. destruct c as [| | | | |d|[|]]; cbn; auto; [apply (T t d H)|]. exfalso. exact (PR t H). Qed.

(** The invariant, for arbitrary and for public use. *)
Definition inv P oc := winv true false (fun c acts r => false = true -> contract P oc c acts r) (loop_inv P oc) (effect_ok P oc true) (entry_ok P oc).
Definition pub_inv P oc := winv false true (fun c acts r => true = true -> contract P oc c acts r) (loop_inv P oc) (effect_ok P oc false) (entry_ok P oc).
Lemma inv_reached P oc tr w : prims_ok P -> execution P oc start tr w -> well_typed tr -> inv P oc w.
Proof. intros HP X T. unfold inv. eapply reachable_winv; eauto. apply typed_ok; exact T. Qed.
Lemma pub_reached P oc tr w : prims_ok P -> execution P oc start tr w -> well_typed tr -> public_run tr -> pub_inv P oc w.
Proof. intros HP X T PR. unfold pub_inv. eapply reachable_winv; eauto. apply public_ok; auto. Qed.

Lemma typed_app a b : well_typed (a ++ b) <-> well_typed a /\ well_typed b.
Proof.
  unfold well_typed. split.
  - intros H. split; intros t d X; apply (H t d); apply in_or_app; auto.
  - intros [A B] t d X. apply in_app_or in X as [X|X]; eauto.
Qed.
Lemma public_app a b : public_run (a ++ b) <-> public_run a /\ public_run b.
Proof.
  unfold public_run. split.
  - intros H. split; intros t X; apply (H t); apply in_or_app; auto.
  - intros [A B] t X. apply in_app_or in X as [X|X]; [exact (A t X)|exact (B t X)].
Qed.

(** What a finished call did. *)
Lemma finished P oc tr w t c r : prims_ok P -> execution P oc start tr w -> well_typed tr -> public_run tr ->
  th_call (w_threads w t) = Some c -> th_prog (w_threads w t) = Done r -> contract P oc c (th_acts (w_threads w t)) r.
Proof.
  intros HP X T PR Ec Ed. pose proof (pub_reached P oc tr w HP X T PR) as W.
  destruct (step_thread_call _ _ _ _ _ _ w t c W Ec) as [kn [_ S]]. rewrite Ed in S. cbn in S. apply S. reflexivity.
Qed.

(** What one step does to the table. *)
Lemma step_table P oc w t a w' : step P oc w t a w' ->
  match a with
  | AInsert k s => streams (w_sock w') = insert_key (streams (w_sock w)) k s
  | ARemove k => streams (w_sock w') = remove_key (streams (w_sock w)) k
  | ASend k d => streams (w_sock w') = send_key (streams (w_sock w)) k d /\ exists s, get (streams (w_sock w)) k = Some s
  | _ => streams (w_sock w') = streams (w_sock w)
  end.
Proof.
  intros S. destruct S as [c r Ep|p a' k p' Ep PS|l m p Ep Np G|l m p Ep Np|l m p held Ep Eh|why Ep]; cbn [w_sock]; auto.
  destruct PS; cbn [streams]; eauto.
Qed.

(** ** C37: each entry is filed under the source id of its connection *)
Theorem C37_filed_under_own_id : forall P oc tr w, prims_ok P -> execution P oc start tr w -> well_typed tr ->
  (forall k s, In (k, s) (streams (w_sock w)) -> get_scid (q_conn s) = Ok (k, 8)) /\
  (forall k1 s1 k2 s2, In (k1, s1) (streams (w_sock w)) -> In (k2, s2) (streams (w_sock w)) ->
     get_scid (q_conn s1) = get_scid (q_conn s2) -> s1 = s2).
Proof.
  intros P oc tr w HP X T. pose proof (inv_reached P oc tr w HP X T) as W.
  assert (A : forall k s, In (k, s) (streams (w_sock w)) -> get_scid (q_conn s) = Ok (k, 8)).
  { intros k s H. destruct (wi_entry _ _ _ _ _ _ w W k s H) as [d [l [c0 [_ E]]]]. rewrite E. reflexivity. }
  split; [exact A|]. intros k1 s1 k2 s2 H1 H2 E. rewrite (A _ _ H1), (A _ _ H2) in E. injection E as <-.
  pose proof (in_get _ _ _ (wi_keys _ _ _ _ _ _ w W) H1) as G1. pose proof (in_get _ _ _ (wi_keys _ _ _ _ _ _ w W) H2) as G2.
  congruence.
Qed.
Print Assumptions C37_filed_under_own_id.
Example C37_case : exists tr w s, execution real_prims true start tr w /\ well_typed tr /\
  In (U160 0 77, s) (streams (w_sock w)) /\ get_scid (q_conn s) = Ok (U160 0 77, 8).
Proof.
  destruct two_routed as [tr [w [c0 [acts [[X [T [_ [E _]]]] _]]]]]. exists tr, w. eexists. split; [exact X|]. split; [exact T|].
  rewrite E. split; [left; reflexivity|reflexivity].
Qed.

(** ** C38: routing *)
(** A send appends to one queue and changes nothing else; it is made by a thread
    routing that datagram, whose header names that connection. *)
Theorem C38_send_step : forall P oc tr w t k d w', prims_ok P -> execution P oc start tr w -> well_typed tr ->
  step P oc w t (ASend k d) w' ->
  (exists s, get (streams (w_sock w)) k = Some s /\
     get (streams (w_sock w')) k = Some (QStream (q_queue s ++ [d]) (q_conn s))) /\
  (forall k', k' <> k -> get (streams (w_sock w')) k' = get (streams (w_sock w)) k') /\
  (exists h, header_is (d_data d) h /\ k = get_destination_id h) /\
  (th_call (w_threads w t) = Some (CRoute d) \/
   th_call (w_threads w t) = Some CAccept /\
     exists pre data addr, recvs (th_acts (w_threads w t)) = pre ++ [NetDatagram data addr] /\ d = seen data addr).
Proof.
  intros P oc tr w t k d w' HP X T S. pose proof (inv_reached P oc tr w HP X T) as W.
  destruct (step_table P oc w t _ w' S) as [E [s G]].
  pose proof (step_effect _ _ _ _ _ _ _ _ w t _ w' W S) as [c [Ec [[H1 H2] _]]].
  split; [|split; [|split; [exact H1|]]].
  - exists s. split; [exact G|]. rewrite E, get_send, u160_eqb_refl, G. reflexivity.
  - intros k' N. rewrite E, get_send. destruct (u160_eqb k k') eqn:Q; [|reflexivity]. apply u160_eqb_eq in Q. congruence.
  - destruct H2 as [[-> _]|[-> [pre [data [addr [R [D _]]]]]]]; [left; exact Ec|right]. eauto 6.
Qed.
Print Assumptions C38_send_step.
Example C38_send_case : exists tr w w', execution real_prims true start tr w /\ well_typed tr /\
  step real_prims true w 0 (ASend (U160 0 77) short_77b) w'.
Proof.
  destruct two_routed as [tr [w [c0 [acts [[X [T _]] [_ [H _]]]]]]].
  destruct (step_in _ _ _ _ _ _ _ X H) as [tr1 [tr2 [w1 [w2 [-> [X1 [S _]]]]]]]. exists tr1, w1, w2.
  split; [exact X1|]. split; [apply typed_app in T; tauto|exact S].
Qed.

(** The queue of a connection is what was sent to it since it was registered;
    its state never changes. *)
Theorem C38_queue_exact : forall P oc tr w k s, prims_ok P -> execution P oc start tr w -> well_typed tr ->
  get (streams (w_sock w)) k = Some s <->
  exists before t c0 after, tr = before ++ (t, AInsert k (QStream [] c0)) :: after /\
    (forall t', ~ In (t', ARemove k) after) /\ (forall t' s', ~ In (t', AInsert k s') after) /\
    s = QStream (sent_to k after) c0.
Proof.
  intros P oc tr w k s HP X. revert s. induction X as [|tr w1 t a w2 X IH S]; intros s T.
  { split; [discriminate|]. intros [b [t [c0 [af [E _]]]]]. destruct b; discriminate. }
  apply typed_app in T as [T _]. specialize (fun s => IH s T).
  pose proof (inv_reached P oc tr w1 HP X T) as W. pose proof (step_effect _ _ _ _ _ _ _ _ w1 t _ w2 W S) as EF.
  pose proof (step_table P oc w1 t a w2 S) as ST.
  (* an action that does not concern [k] *)
  assert (SKIP : get (streams (w_sock w2)) k = get (streams (w_sock w1)) k ->
    (forall s', a <> AInsert k s') -> a <> ARemove k -> (forall d, a <> ASend k d) ->
    (get (streams (w_sock w2)) k = Some s <-> exists before t0 c0 after, tr ++ [(t, a)] = before ++ (t0, AInsert k (QStream [] c0)) :: after /\
      (forall t', ~ In (t', ARemove k) after) /\ (forall t' s', ~ In (t', AInsert k s') after) /\ s = QStream (sent_to k after) c0)).
  { intros E NI NR NS. rewrite E, IH. split.
    - intros [b [t0 [c0 [af [E1 [E2 [E3 E4]]]]]]]. exists b, t0, c0, (af ++ [(t, a)]). rewrite E1, <- app_assoc. split; [reflexivity|].
      split; [intros t' H; apply in_app_or in H as [H|[H|[]]]; [exact (E2 t' H)|congruence]|].
      split; [intros t' s' H; apply in_app_or in H as [H|[H|[]]]; [exact (E3 t' s' H)|congruence]|].
      rewrite E4. f_equal. unfold sent_to. rewrite flat_map_app. cbn. rewrite app_nil_r.
      destruct a; try (rewrite app_nil_r; reflexivity). destruct (same_id key k) as [->|N]; [|rewrite app_nil_r; reflexivity].
      exfalso. exact (NS _ eq_refl).
    - intros [b [t0 [c0 [af [E1 [E2 [E3 E4]]]]]]]. destruct (@exists_last _ af) as [af' [[t1 a1] E5]].
      { intros ->. apply app_inj_tail in E1 as [_ E1]. injection E1 as _ E1. exact (NI _ E1). }
      subst af. rewrite app_comm_cons, app_assoc in E1. apply app_inj_tail in E1 as [E1 E5]. injection E5 as <- <-.
      exists b, t0, c0, af'. split; [exact E1|].
      split; [intros t' H; apply (E2 t'); apply in_or_app; auto|].
      split; [intros t' s' H; apply (E3 t' s'); apply in_or_app; auto|].
      rewrite E4. f_equal. unfold sent_to. rewrite flat_map_app. cbn. rewrite app_nil_r.
      destruct a; try (rewrite app_nil_r; reflexivity). destruct (same_id key k) as [->|N]; [|rewrite app_nil_r; reflexivity].
      exfalso. exact (NS _ eq_refl). }
  destruct a; try (apply SKIP; [congruence|congruence|congruence|congruence]).
  - (* insert *)
    destruct EF as [c [_ [EF GN]]]. destruct (same_id key k) as [->|N].
    2:{ apply SKIP; try congruence. rewrite ST, get_insert. destruct (u160_eqb key k) eqn:Q; [|reflexivity].
        apply u160_eqb_eq in Q. congruence. }
    rewrite ST, get_insert, u160_eqb_refl.
    destruct EF as [_ [_ [c0 [v [_ [_ [_ EQ]]]]]]].
    split.
    + intros [= <-]. exists tr, t, (set_scid c0 k 8), []. rewrite EQ. split; [reflexivity|].
      split; [intros t' []|]. split; [intros t' s' []|]. reflexivity.
    + intros [b [t0 [c1 [af [E1 [E2 [E3 E4]]]]]]].
      destruct af as [|x af].
      * apply app_inj_tail in E1 as [_ E1]. injection E1 as _ E1. rewrite E4, E1. reflexivity.
      * exfalso. destruct (@exists_last _ (x :: af)) as [af' [[t1 a1] E5]]; [discriminate|]. rewrite E5 in *.
        rewrite app_comm_cons, app_assoc in E1. apply app_inj_tail in E1 as [_ E1]. injection E1 as <- <-.
        apply (E3 t s0). apply in_or_app. right. left. reflexivity.
  - (* remove *)
    destruct (same_id key k) as [->|N].
    2:{ apply SKIP; try congruence. rewrite ST, get_remove. destruct (u160_eqb key k) eqn:Q; [|reflexivity].
        apply u160_eqb_eq in Q. congruence. }
    rewrite ST, get_remove, u160_eqb_refl. split; [discriminate|].
    intros [b [t0 [c1 [af [E1 [E2 [E3 E4]]]]]]]. exfalso.
    destruct af as [|x af]; [apply app_inj_tail in E1 as [_ E1]; discriminate|].
    destruct (@exists_last _ (x :: af)) as [af' [[t1 a1] E5]]; [discriminate|]. rewrite E5 in *.
    rewrite app_comm_cons, app_assoc in E1. apply app_inj_tail in E1 as [_ E1]. injection E1 as <- <-.
    apply (E2 t). apply in_or_app. right. left. reflexivity.
  - (* send *)
    destruct ST as [ST [s1 G1]]. destruct (same_id key k) as [->|N].
    2:{ apply SKIP; try congruence. rewrite ST, get_send. destruct (u160_eqb key k) eqn:Q; [|reflexivity].
        apply u160_eqb_eq in Q. congruence. }
    rewrite ST, get_send, u160_eqb_refl, G1. cbn [option_map].
    pose proof (proj1 (IH s1) G1) as [b [t0 [c0 [af [E1 [E2 [E3 E4]]]]]]].
    split.
    + intros [= <-]. exists b, t0, c0, (af ++ [(t, ASend k d)]). rewrite E1, <- app_assoc. split; [reflexivity|].
      split; [intros t' H; apply in_app_or in H as [H|[H|[]]]; [exact (E2 t' H)|congruence]|].
      split; [intros t' s' H; apply in_app_or in H as [H|[H|[]]]; [exact (E3 t' s' H)|congruence]|].
      rewrite E4. cbn [q_queue q_conn]. f_equal. unfold sent_to. rewrite flat_map_app. cbn. destruct (same_id k k); [|contradiction]. reflexivity.
    + intros [b' [t' [c' [af' [F1 [F2 [F3 F4]]]]]]]. 
      destruct af' as [|x af']; [apply app_inj_tail in F1 as [_ F1]; discriminate|].
      destruct (@exists_last _ (x :: af')) as [ag [[t1 a1] E5]]; [discriminate|]. rewrite E5 in *.
      rewrite app_comm_cons, app_assoc in F1. apply app_inj_tail in F1 as [F1 E6]. injection E6 as <- <-.
      assert (G2 : get (streams (w_sock w1)) k = Some (QStream (sent_to k ag) c')).
      { apply IH. exists b', t', c', ag. split; [exact F1|].
        split; [intros t2 H; apply (F2 t2); apply in_or_app; auto|].
        split; [intros t2 s' H; apply (F3 t2 s'); apply in_or_app; auto|reflexivity]. }
      rewrite G1 in G2. injection G2 as ->. cbn [q_queue q_conn]. rewrite F4. unfold sent_to. rewrite flat_map_app. cbn.
      destruct (same_id k k); [|contradiction]. reflexivity.
Qed.
Print Assumptions C38_queue_exact.
Example C38_queue_case : exists tr w c0, execution real_prims true start tr w /\ well_typed tr /\
  get (streams (w_sock w)) (U160 0 77) = Some (QStream [short_77; short_77b] c0).
Proof.
  destruct two_routed as [tr [w [c0 [acts [[X [T [_ [E _]]]] _]]]]]. exists tr, w. eexists. split; [exact X|]. split; [exact T|].
  rewrite E. reflexivity.
Qed.

(** A finished routing call either queued its datagram once, for the connection
    its header names, or reported an error and queued nothing. *)
Theorem C38_route_call : forall P oc tr w t d r, prims_ok P -> execution P oc start tr w -> well_typed tr -> public_run tr ->
  th_call (w_threads w t) = Some (CRoute d) -> th_prog (w_threads w t) = Done r ->
  let acts := th_acts (w_threads w t) in
  inserts acts = [] /\ removes acts = [] /\
  ((exists h, header_is (d_data d) h /\ sends acts = [(get_destination_id h, d)] /\ r = RUnit (Ok tt)) \/
   (exists e, sends acts = [] /\ r = RUnit (Err e) /\
     ((forall h, ~ header_is (d_data d) h) \/
      (exists h T, header_is (d_data d) h /\ looks acts = [T] /\ get T (get_destination_id h) = None))) \/
   (r = RPanic "failed printing" /\ sends acts = [] /\ (forall h, ~ header_is (d_data d) h) /\
    exists i, In (APrintFailed (LogShort i)) acts)).
Proof.
  intros P oc tr w t d r HP X T PR Ec Ed acts. subst acts.
  pose proof (finished P oc tr w t _ r HP X T PR Ec Ed) as H. cbn [contract] in H.
  destruct H as [_ [H1 [H2 H3]]]. split; [exact H1|]. split; [exact H2|].
  destruct r as [[[]|e|w0|]| | | |]; try contradiction.
  - left. destruct H3 as [h [T0 [A [B _]]]]. eauto.
  - right. left. destruct H3 as [A B]. exists e. auto.
  - right. right. destruct H3 as [-> [A [B C]]]. auto.
Qed.
Print Assumptions C38_route_call.
Example C38_route_case : exists tr w, execution real_prims true start tr w /\ well_typed tr /\ public_run tr /\
  th_call (w_threads w 0) = Some (CRoute short_77b) /\ th_prog (w_threads w 0) = Done (RUnit (Ok tt)).
Proof.
  destruct two_routed as [tr [w [c0 [acts [[X [T [PR _]]] [_ [_ Y]]]]]]]. exists tr, w. rewrite Y. auto.
Qed.

(** ** C39: dropping *)
Theorem C39_remove_step : forall P oc tr w t k w', prims_ok P -> execution P oc start tr w -> well_typed tr ->
  step P oc w t (ARemove k) w' ->
  th_call (w_threads w t) = Some (CDropStream k) /\ get (streams (w_sock w')) k = None /\
  (forall k', k' <> k -> get (streams (w_sock w')) k' = get (streams (w_sock w)) k') /\
  (get (streams (w_sock w)) k = None -> streams (w_sock w') = streams (w_sock w)).
Proof.
  intros P oc tr w t k w' HP X T S. pose proof (inv_reached P oc tr w HP X T) as W.
  pose proof (step_table P oc w t _ w' S) as E. cbn in E.
  pose proof (step_effect _ _ _ _ _ _ _ _ w t _ w' W S) as [c [Ec [[-> _] _]]].
  split; [exact Ec|]. rewrite E. split; [rewrite get_remove, u160_eqb_refl; reflexivity|].
  split; [|intros G; apply remove_absent; apply get_none; exact G].
  intros k' N. rewrite get_remove. destruct (u160_eqb k k') eqn:Q; [|reflexivity]. apply u160_eqb_eq in Q. congruence.
Qed.
Print Assumptions C39_remove_step.

(** A finished drop removed exactly its id and did nothing else. *)
Theorem C39_drop_call : forall P oc tr w t k r, prims_ok P -> execution P oc start tr w -> well_typed tr -> public_run tr ->
  th_call (w_threads w t) = Some (CDropStream k) -> th_prog (w_threads w t) = Done r ->
  r = RNothing /\ removes (th_acts (w_threads w t)) = [k] /\
  sends (th_acts (w_threads w t)) = [] /\ inserts (th_acts (w_threads w t)) = [].
Proof.
  intros P oc tr w t k r HP X T PR Ec Ed. pose proof (finished P oc tr w t _ r HP X T PR Ec Ed) as H. cbn in H. tauto.
Qed.
Print Assumptions C39_drop_call.
Example C39_drop_case : exists tr w, execution real_prims true start tr w /\ well_typed tr /\ public_run tr /\
  th_call (w_threads w 0) = Some (CDropStream (U160 0 77)) /\ th_prog (w_threads w 0) = Done RNothing /\ streams (w_sock w) = [].
Proof.
  destruct sample_dropped as [tr1 [w1 [w2 [c0 [acts [B1 [_ [B2 [X2 [Y _]]]]]]]]]].
  destruct B2 as [X [T [PR [EK _]]]]. eexists _, w2. split; [exact X|]. rewrite EK, Y. auto.
Qed.

Lemma exec_trans P oc w a w1 b w2 : execution P oc w a w1 -> execution P oc w1 b w2 -> execution P oc w (a ++ b) w2.
Proof. apply execution_app. Qed.

(** While an id is not registered, nothing is routed to it. *)
Theorem C39_refused : forall P oc tr1 w1 tr2 w2 k, execution P oc start tr1 w1 -> execution P oc w1 tr2 w2 ->
  get (streams (w_sock w1)) k = None -> (forall t s, ~ In (t, AInsert k s) tr2) ->
  get (streams (w_sock w2)) k = None /\ sent_to k tr2 = [].
Proof.
  intros P oc tr1 w1 tr2 w2 k _ X G. induction X as [|tr w t a w' X IH S]; intros NI; [auto|].
  destruct IH as [IG IS]; [intros t0 s H; apply (NI t0 s); apply in_or_app; auto|].
  pose proof (step_table P oc w t a w' S) as ST.
  assert (SS : (forall d, a <> ASend k d) -> sent_to k (tr ++ [(t, a)]) = []).
  { intros N. unfold sent_to in *. rewrite flat_map_app, IS. cbn. destruct a; auto. destruct (same_id key k) as [->|]; auto.
    exfalso. exact (N _ eq_refl). }
  destruct a; try (split; [congruence|apply SS; congruence]).
  - split; [|apply SS; congruence]. rewrite ST, get_insert. destruct (u160_eqb key k) eqn:Q; [|exact IG].
    apply u160_eqb_eq in Q. subst key. exfalso. apply (NI t s). apply in_or_app. right. left. reflexivity.
  - split; [|apply SS; congruence]. rewrite ST, get_remove, IG. destruct (u160_eqb key k); reflexivity.
  - destruct ST as [ST [s Gs]]. assert (N : key <> k) by congruence. split; [|apply SS; congruence].
    rewrite ST, get_send, IG. destruct (u160_eqb key k); reflexivity.
Qed.
Print Assumptions C39_refused.

(** What a thread did since its last call began. *)
Lemma acts_since P oc w1 t c b w2 : execution P oc w1 b w2 -> th_call (w_threads w1 t) = Some c ->
  th_acts (w_threads w1 t) = [] -> (forall c', ~ In (t, ACall c') b) ->
  th_call (w_threads w2 t) = Some c /\ th_acts (w_threads w2 t) = acts_of t b.
Proof.
  intros X Ec Ea. induction X as [|tr w t' a w' X IH S]; intros NC; [auto|].
  destruct IH as [C A]; [intros c' H; apply (NC c'); apply in_or_app; auto|].
  assert (ACTS : acts_of t (tr ++ [(t', a)]) = acts_of t tr ++ (if t' =? t then [a] else [])).
  { unfold acts_of. rewrite filter_app, map_app. cbn. destruct (t' =? t); reflexivity. }
  rewrite ACTS, <- A.
  destruct (N.eqb_spec t' t) as [->|N].
  - inversion S; subst; cbn [w_threads]; rewrite set_thread_same; cbn [th_call th_acts]; auto.
    exfalso. apply (NC c0). apply in_or_app. right. left. reflexivity.
  - inversion S; subst; cbn [w_threads]; rewrite set_thread_other, app_nil_r by auto; auto.
Qed.

(** Routing a datagram for an id that is not registered during the call fails. *)
Theorem C39_route_refused : forall P oc tr1 w1 t d tr2 w2 r h, prims_ok P -> execution P oc start tr1 w1 ->
  get (streams (w_sock w1)) (get_destination_id h) = None -> header_is (d_data d) h ->
  execution P oc w1 ((t, ACall (CRoute d)) :: tr2) w2 -> well_typed (tr1 ++ (t, ACall (CRoute d)) :: tr2) ->
  public_run (tr1 ++ (t, ACall (CRoute d)) :: tr2) ->
  (forall t' s, ~ In (t', AInsert (get_destination_id h) s) tr2) -> (forall c, ~ In (t, ACall c) tr2) ->
  th_prog (w_threads w2 t) = Done r -> exists e, r = RUnit (Err e).
Proof.
  intros P oc tr1 w1 t d tr2 w2 r h HP X1 G HH X2 T PR NI NC Ed.
  assert (R : sent_to (get_destination_id h) ((t, ACall (CRoute d)) :: tr2) = []).
  { eapply C39_refused; eauto. intros t' s [H|H]; [discriminate|exact (NI _ _ H)]. }
  pose proof (execution_app P oc _ _ _ _ _ X1 X2) as X.
  (* split the second execution at the call *)
  assert (SPLIT : exists wc, step P oc w1 t (ACall (CRoute d)) wc /\ execution P oc wc tr2 w2).
  { clear - X2. remember ((t, ACall (CRoute d)) :: tr2) as tr eqn:E. revert tr2 E.
    induction X2 as [|tr w t' a w' X IH S]; intros tr2 E; [discriminate|].
    destruct tr as [|x tr].
    - cbn in E. injection E as -> -> <-. inversion X as [E0|? ? ? ? ? ? ? E0]; subst; [|destruct tr; discriminate]. exists w'. split; [exact S|constructor].
    - cbn in E. injection E as -> <-. destruct (IH tr eq_refl) as [wc [Sc Xc]]. exists wc. split; [exact Sc|]. eapply ex_snoc; eauto. }
  destruct SPLIT as [wc [Sc Xc]].
  assert (Tc : th_call (w_threads wc t) = Some (CRoute d) /\ th_acts (w_threads wc t) = []).
  { inversion Sc; subst; [cbn [w_threads]; rewrite set_thread_same; auto|].
    match goal with H : pstep _ _ _ _ _ _ _ |- _ => inversion H end. }
  destruct (acts_since P oc wc t (CRoute d) tr2 w2 Xc (proj1 Tc) (proj2 Tc) NC) as [Ec Ea].
  destruct (C38_route_call P oc _ w2 t d r HP X T PR Ec Ed) as [_ [_ [[h' [H1 [H2 _]]]|[[e [_ [H2 _]]]|[_ [_ [NH _]]]]]]]; [|eauto|exfalso; exact (NH h HH)].
  exfalso. destruct HH as [r1 E1]. destruct H1 as [r2 E2]. rewrite E1 in E2. injection E2 as <- <-.
  rewrite Ea in H2. assert (IN : In (get_destination_id h, d) (sends (acts_of t tr2))) by (rewrite H2; left; reflexivity).
  unfold sends in IN. apply in_flat_map in IN as [a [Ia Id]]. destruct a; try contradiction. destruct Id as [Id|[]].
  injection Id as -> ->. unfold acts_of in Ia. apply in_map_iff in Ia as [[t' a'] [E3 Ia]]. cbn in E3. subst a'.
  apply filter_In in Ia as [Ia _]. cbn in R. unfold sent_to in R.
  assert (Z : In d (flat_map (fun x => match snd x with ASend k' d => if same_id k' (get_destination_id h) then [d] else [] | _ => [] end) tr2)).
  { apply in_flat_map. exists (t', ASend (get_destination_id h) d). split; [exact Ia|]. cbn. destruct (same_id _ _); [left; reflexivity|contradiction]. }
  rewrite R in Z. contradiction.
Qed.
Print Assumptions C39_route_refused.
Example C39_refused_case : exists tr1 w1 tr2 w2, execution real_prims true start tr1 w1 /\
  get (streams (w_sock w1)) (U160 0 77) = None /\ header_is (d_data short_77) (HShort (ShortHeader 0x40 (U160 0 77) true)) /\
  execution real_prims true w1 ((0, ACall (CRoute short_77)) :: tr2) w2 /\
  well_typed (tr1 ++ (0, ACall (CRoute short_77)) :: tr2) /\ public_run (tr1 ++ (0, ACall (CRoute short_77)) :: tr2) /\
  (exists s, In (0, AInsert (U160 0 77) s) tr1) /\ (forall t' s, ~ In (t', AInsert (U160 0 77) s) tr2) /\
  (forall c, ~ In (0, ACall c) tr2) /\ idle (w_threads w2 0).
Proof.
  destruct sample_dropped as [tr1 [w1 [w2 [c0 [acts [B1 [I1 [B2 [X2 [Y [tr3 [w3 [acts3 [X3 [B3 [NI [NC Y3]]]]]]]]]]]]]]]]].
  eexists _, w2, tr3, w3. split; [apply B2|]. split; [destruct B2 as [_ [_ [_ [-> _]]]]; reflexivity|].
  split; [exists [1; 2; 3]; vm_compute; reflexivity|]. split; [exact X3|].
  destruct B3 as [_ [T [PR _]]]. split; [exact T|]. split; [exact PR|].
  split; [eexists; apply in_or_app; left; exact I1|]. split; [exact NI|]. split; [exact NC|]. rewrite Y3. eexists. reflexivity.
Qed.

(** ** C40: accepting never displaces *)
(** A registration finds its key free and leaves all other entries alone. *)
Theorem C40_insert_step : forall P oc tr w t k s w', prims_ok P -> execution P oc start tr w -> well_typed tr ->
  step P oc w t (AInsert k s) w' ->
  th_call (w_threads w t) = Some CAccept /\ get (streams (w_sock w)) k = None /\
  get (streams (w_sock w')) k = Some s /\
  (forall k', k' <> k -> get (streams (w_sock w')) k' = get (streams (w_sock w)) k').
Proof.
  intros P oc tr w t k s w' HP X T S. pose proof (inv_reached P oc tr w HP X T) as W.
  pose proof (step_table P oc w t _ w' S) as E. cbn in E.
  pose proof (step_effect _ _ _ _ _ _ _ _ w t _ w' W S) as [c [Ec [[-> _] G]]].
  split; [exact Ec|]. split; [exact G|]. rewrite E. split; [rewrite get_insert, u160_eqb_refl; reflexivity|].
  intros k' N. rewrite get_insert. destruct (u160_eqb k k') eqn:Q; [|reflexivity]. apply u160_eqb_eq in Q. congruence.
Qed.
Print Assumptions C40_insert_step.
Example C40_insert_case : exists tr w s w', execution real_prims true start tr w /\ well_typed tr /\
  step real_prims true w 0 (AInsert (U160 0 77) s) w'.
Proof.
  destruct sample_dropped as [tr1 [w1 [w2 [c0 [acts [[X [T _]] [I1 _]]]]]]].
  destruct (step_in _ _ _ _ _ _ _ X I1) as [a [b [w [w' [-> [X1 [S _]]]]]]]. apply typed_app in T as [T _].
  exists a, w. eexists. exists w'. eauto.
Qed.

(** Whatever happens, a connection stays registered, with the same state and a
    growing queue, until its own stream is dropped. *)
Theorem C40_kept_until_dropped : forall P oc tr1 w1 tr2 w2 k s, prims_ok P ->
  execution P oc start tr1 w1 -> execution P oc w1 tr2 w2 -> well_typed (tr1 ++ tr2) ->
  get (streams (w_sock w1)) k = Some s -> (forall t, ~ In (t, ARemove k) tr2) ->
  get (streams (w_sock w2)) k = Some (QStream (q_queue s ++ sent_to k tr2) (q_conn s)).
Proof.
  intros P oc tr1 w1 tr2 w2 k s HP X1 X T G. induction X as [|tr w t a w' X IH S]; intros NR.
  { cbn. rewrite app_nil_r, G. destruct s; reflexivity. }
  rewrite app_assoc in T. apply typed_app in T as [T _].
  specialize (IH T).
  assert (IG : get (streams (w_sock w)) k = Some (QStream (q_queue s ++ sent_to k tr) (q_conn s))) by (apply IH; intros t0 H; apply (NR t0); apply in_or_app; auto).
  pose proof (inv_reached P oc _ w HP (execution_app P oc _ _ _ _ _ X1 X) T) as W.
  pose proof (step_effect _ _ _ _ _ _ _ _ w t _ w' W S) as EF.
  pose proof (step_table P oc w t a w' S) as ST.
  assert (SS : sent_to k (tr ++ [(t, a)]) = sent_to k tr ++ match a with ASend k' d => if same_id k' k then [d] else [] | _ => [] end).
  { unfold sent_to. rewrite flat_map_app. cbn. rewrite app_nil_r. reflexivity. }
  rewrite SS. destruct a; rewrite ?app_nil_r; try congruence.
  - destruct EF as [c [_ [_ GN]]]. rewrite ST, get_insert. destruct (u160_eqb key k) eqn:Q; [|exact IG].
    apply u160_eqb_eq in Q. congruence.
  - rewrite ST, get_remove. destruct (u160_eqb key k) eqn:Q; [|exact IG]. apply u160_eqb_eq in Q. subst key.
    exfalso. apply (NR t). apply in_or_app. right. left. reflexivity.
  - destruct ST as [ST _]. rewrite ST, get_send, IG. destruct (u160_eqb key k) eqn:Q.
    + apply u160_eqb_eq in Q. destruct (same_id key k); [|contradiction]. cbn. rewrite app_assoc. reflexivity.
    + apply u160_eqb_neq in Q. destruct (same_id key k); [contradiction|]. rewrite app_nil_r. reflexivity.
Qed.
Print Assumptions C40_kept_until_dropped.
Example C40_kept_case : exists tr1 w1 tr2 w2 s, execution real_prims true start tr1 w1 /\ execution real_prims true w1 tr2 w2 /\
  well_typed (tr1 ++ tr2) /\ get (streams (w_sock w1)) (U160 0 77) = Some s /\ (forall t, ~ In (t, ARemove (U160 0 77)) tr2) /\
  sent_to (U160 0 77) tr2 = [short_77; short_77b].
Proof.
  destruct two_routed as [tr [w [c0 [acts [[X [T [_ [E _]]]] _]]]]].
  assert (G : get (streams (w_sock w)) (U160 0 77) = Some (QStream [short_77; short_77b] (set_scid c0 (U160 0 77) 8))) by (rewrite E; reflexivity).
  apply (C38_queue_exact real_prims true tr w _ _ real_prims_ok X T) in G as [b [t [c1 [af [-> [NR [NI Q]]]]]]].
  injection Q as Q _.
  change ((t, AInsert (U160 0 77) (QStream [] c1)) :: af) with ([(t, AInsert (U160 0 77) (QStream [] c1))] ++ af) in *. rewrite app_assoc in X, T.
  destruct (execution_split _ _ _ _ _ _ X) as [w1 [X1 X2]].
  exists (b ++ [(t, AInsert (U160 0 77) (QStream [] c1))]), w1, af, w, (QStream [] c1).
  split; [exact X1|]. split; [exact X2|]. split; [exact T|]. split; [|auto].
  apply (C38_queue_exact real_prims true _ w1 _ _ real_prims_ok X1); [apply typed_app in T; tauto|].
  exists b, t, c1, []. repeat split; auto.
Qed.
(** A step that removes a registered connection (for [C39_remove_step]). *)
Example C39_remove_case : exists tr w w', execution real_prims true start tr w /\ well_typed tr /\
  get (streams (w_sock w)) (U160 0 77) <> None /\ step real_prims true w 0 (ARemove (U160 0 77)) w'.
Proof.
  destruct sample_dropped as [tr1 [w1 [w2 [c0 [acts [B1 [_ [B2 [X2 _]]]]]]]]].
  assert (H : In (0, ARemove (U160 0 77)) ((0, ACall (CDropStream (U160 0 77))) :: drop_acts)) by (cbn; tauto).
  destruct (step_in _ _ _ _ _ _ _ X2 H) as [a [b [w [w' [E [X1 [S _]]]]]]].
  destruct B1 as [X [T [_ [EK _]]]]. destruct B2 as [_ [T2 _]]. exists (tr1 ++ a), w, w'.
  split; [eapply exec_trans; eauto|].
  rewrite E, app_assoc in T2. apply typed_app in T2 as [T2 _]. split; [exact T2|]. split; [|exact S].
  rewrite (C40_kept_until_dropped _ _ _ _ _ _ (U160 0 77) (QStream [] (set_scid c0 (U160 0 77) 8)) real_prims_ok X X1 T2); [discriminate|rewrite EK; reflexivity|].
  destruct a as [|x [|y [|z a]]]; try discriminate E.
  - injection E as <- <- _. intros t [Y|[Y|[]]]; discriminate Y.
  - injection E as _ _ _ E. destruct a as [|z' a]; [discriminate E|]. injection E as _ E. destruct a; discriminate E.
Qed.

(** ** C47: no deadlock, no poisoned lock *)
Lemma untouched P oc tr w t : execution P oc start tr w -> ~ In t (map fst tr) -> w_threads w t = fresh_thread.
Proof.
  intros X. induction X as [|tr w t' a w' X IH S]; intros N; [reflexivity|].
  rewrite map_app, in_app_iff in N. cbn in N.
  assert (NE : t <> t') by (intros ->; apply N; auto). rewrite <- IH by tauto.
  inversion S; subst; cbn [w_threads]; apply set_thread_other; exact NE.
Qed.

(** Some thread can take a step, other than beginning a new call.  A reader may
    be made to wait while a writer waits. *)
Definition progress P oc (w : world) : Prop :=
  exists t a w', step P oc w t a w' /\ (forall c, a <> ACall c) /\
    (forall l, a = AAcq l Shared -> forall t', ~ wants_exclusive w t' l).

Lemma not_waiting_moves P oc w t : inv P oc w -> ~ idle (w_threads w t) ->
  progress P oc w \/ exists l m p, th_prog (w_threads w t) = Acq l m p.
Proof.
  intros W NI. destruct (has_call _ _ _ _ _ _ w t W) as [c Ec]; [intros r E; apply NI; exists r; exact E|].
  destruct (step_thread_call _ _ _ _ _ _ w t c W Ec) as [kn [K S]].
  assert (DATA : forall a k p', pstep P oc (w_sock w) (th_prog (w_threads w t)) a k p' -> progress P oc w).
  { intros a k p' PS. exists t, a. eexists. split; [eapply s_data; [reflexivity|exact PS]|].
    split; [intros c' ->; inversion PS|]. intros l ->. inversion PS. }
  destruct (th_prog (w_threads w t)) eqn:Ep; cbn [safe] in S.
  - exfalso. apply NI. exists r. exact Ep.
  - left. do 3 eexists. split; [apply s_panic; exact Ep|]. split; congruence.
  - contradiction.
  - eauto.
  - left. destruct (th_held (w_threads w t)) as [|[l' m'] held] eqn:Eh; [contradiction|]. destruct S as [-> _].
    do 3 eexists. split; [eapply s_rel; eauto|]. split; congruence.
  - left. eapply DATA. constructor.
  - left. eapply DATA. constructor.
  - left. eapply DATA. constructor.
  - left. destruct kn as [ks|]; [|contradiction]. destruct S as [Hk _]. destruct K as [_ <-].
    apply get_some in Hk as [s G]. eapply DATA. econstructor. exact G.
  - left. eapply DATA. constructor.
  - left. eapply DATA. constructor.
  - left. eapply DATA. constructor.
  - left. eapply DATA. apply (p_recv P oc _ _ (NetError 0)).
  - left. eapply DATA. apply (p_rand P oc _ _ None).
  - left. eapply DATA. constructor.
Qed.

Lemma holder_busy P oc w t h : inv P oc w -> In h (th_held (w_threads w t)) -> ~ idle (w_threads w t).
Proof.
  intros W H [r E]. pose proof (wi_thread _ _ _ _ _ _ w W t) as T. unfold thread_ok in T.
  destruct (th_call (w_threads w t)).
  - destruct T as [kn [_ S]]. rewrite E in S. cbn in S. destruct S as [S _]. rewrite S in H. contradiction.
  - rewrite T in H. contradiction.
Qed.

Lemma mode_dec (a b : mode) : {a = b} + {a <> b}. Proof. decide equality. Qed.
Lemma lock_dec (a b : lock) : {a = b} + {a <> b}. Proof. decide equality. apply same_id. Qed.

(** Someone holds [l] in a mode that conflicts with [m], or nobody does. *)
Lemma grantable_dec P oc tr w l m : execution P oc start tr w ->
  grantable w l m \/ exists t m', In (l, m') (th_held (w_threads w t)).
Proof.
  intros X.
  assert (D : forall ts, (exists t m', In t ts /\ In (l, m') (th_held (w_threads w t))) \/
    (forall t m', In t ts -> ~ In (l, m') (th_held (w_threads w t)))).
  { intros ts. induction ts as [|t ts IH]; [right; intros t m' []|].
    destruct (existsb (fun h => if lock_dec (fst h) l then true else false) (th_held (w_threads w t))) eqn:E.
    - apply existsb_exists in E as [[l' m'] [Hin E]]. cbn in E. destruct (lock_dec l' l) as [->|]; [|discriminate].
      left. exists t, m'. split; [left; reflexivity|exact Hin].
    - destruct IH as [[t' [m' [A B]]]|IH]; [left; exists t', m'; split; [right; exact A|exact B]|]. right.
      intros t' m' [<-|A] B; [|exact (IH t' m' A B)].
      assert (F : existsb (fun h => if lock_dec (fst h) l then true else false) (th_held (w_threads w t)) = true).
      { apply existsb_exists. exists (l, m'). split; [exact B|]. cbn. destruct (lock_dec l l); [reflexivity|contradiction]. }
      congruence. }
  destruct (D (map fst tr)) as [[t [m' [_ H]]]|H]; [right; eauto|]. left. intros t m' Hin. exfalso.
  destruct (in_dec N.eq_dec t (map fst tr)) as [Y|Y]; [exact (H t m' Y Hin)|].
  rewrite (untouched P oc tr w t X Y) in Hin. contradiction.
Qed.

Lemma writer_dec P oc tr w l : execution P oc start tr w ->
  (exists t, wants_exclusive w t l) \/ (forall t, ~ wants_exclusive w t l).
Proof.
  intros X.
  assert (D1 : forall t, wants_exclusive w t l \/ ~ wants_exclusive w t l).
  { intros t. unfold wants_exclusive. destruct (th_prog (w_threads w t)) eqn:E; try (right; intros [q Q]; discriminate Q).
    destruct m; [right; intros [q Q]; discriminate Q|]. destruct (lock_dec l0 l) as [->|N]; [left; eauto|].
    right. intros [q Q]. congruence. }
  assert (D : forall ts, (exists t, wants_exclusive w t l) \/ (forall t, In t ts -> ~ wants_exclusive w t l)).
  { intros ts. induction ts as [|t ts [IH|IH]]; [right; intros t []|auto|]. destruct (D1 t) as [Y|Y]; [eauto|].
    right. intros t' [<-|A]; auto. }
  destruct (D (map fst tr)) as [Y|Y]; [auto|]. right. intros t Z.
  destruct (in_dec N.eq_dec t (map fst tr)) as [A|A]; [exact (Y t A Z)|].
  destruct Z as [p Z]. rewrite (untouched P oc tr w t X A) in Z. discriminate.
Qed.

Lemma waiting_moves P oc tr w : execution P oc start tr w -> inv P oc w ->
  forall n l t m p, (3 - rank l < n)%nat -> th_prog (w_threads w t) = Acq l m p -> progress P oc w.
Proof.
  intros X W n. induction n as [|n IH]; intros l t m p L Ep; [lia|].
  (* a holder of [l] moves, or waits for a lock of higher rank *)
  assert (HOLD : forall t' m', In (l, m') (th_held (w_threads w t')) -> progress P oc w).
  { intros t' m' Hin. destruct (not_waiting_moves P oc w t' W (holder_busy P oc w t' _ W Hin)) as [Y|[l2 [m2 [p2 E2]]]]; [exact Y|].
    destruct (has_call _ _ _ _ _ _ w t' W) as [c Ec]; [congruence|].
    destruct (step_thread_call _ _ _ _ _ _ w t' c W Ec) as [kn [K S]]. rewrite E2 in S. cbn [safe] in S. destruct S as [R _].
    specialize (R _ Hin). cbn in R. apply (IH l2 t' m2 p2); [|exact E2]. assert (rank l2 <= 3)%nat by (destruct l2; cbn; lia). lia. }
  destruct (w_poisoned w l) eqn:PZ.
  { do 3 eexists. split; [eapply s_poisoned; eauto|]. split; congruence. }
  destruct (grantable_dec P oc tr w l m X) as [G|[t' [m' H]]]; [|eauto].
  destruct (writer_dec P oc tr w l X) as [[t2 [p2 E2]]|NW].
  - destruct (grantable_dec P oc tr w l Exclusive X) as [G2|[t' [m' H]]]; [|eauto].
    do 3 eexists. split; [eapply s_acq; eauto|]. split; congruence.
  - do 3 eexists. split; [eapply s_acq; eauto|]. split; [congruence|]. intros l0 [= <- _]. exact NW.
Qed.

Theorem C47_no_deadlock : forall P oc tr w t, prims_ok P -> execution P oc start tr w -> well_typed tr ->
  ~ idle (w_threads w t) ->
  exists t' a w', step P oc w t' a w' /\ (forall c, a <> ACall c) /\
    (forall l, a = AAcq l Shared -> forall t'', ~ wants_exclusive w t'' l).
Proof.
  intros P oc tr w t HP X T NI. pose proof (inv_reached P oc tr w HP X T) as W.
  destruct (not_waiting_moves P oc w t W NI) as [Y|[l [m [p E]]]]; [exact Y|].
  exact (waiting_moves P oc tr w X W (S (3 - rank l)) l t m p ltac:(lia) E).
Qed.
Print Assumptions C47_no_deadlock.
(** Thread 0 waits for a datagram inside [accept], thread 1 waits for thread 0. *)
Example C47_waiting_case : exists tr w, execution real_prims true start tr w /\ well_typed tr /\ public_run tr /\
  In (LSocket, Exclusive) (th_held (w_threads w 0)) /\ wants_exclusive w 1 LSocket /\ ~ idle (w_threads w 1).
Proof.
  eexists _, _. split.
  { eapply (execution_cons _ _ _ 0); [eapply (s_call _ _ _ _ CAccept); reflexivity|].
    eapply (execution_cons _ _ _ 1); [eapply (s_call _ _ _ _ CAccept); reflexivity|].
    eapply (execution_cons _ _ _ 0); [eapply s_data; [reflexivity|apply p_goto]|].
    eapply (execution_cons _ _ _ 0); [eapply s_acq; [reflexivity|reflexivity|]|].
    { intros t m H. exfalso. cbn [w_threads set_thread] in H. unfold set_thread in H.
      repeat match type of H with context [if ?b then _ else _] => destruct b end; destruct H. }
    eapply (execution_cons _ _ _ 1); [eapply s_data; [reflexivity|apply p_goto]|]. apply ex_nil. }
  split; [intros t d H; cbn in H; repeat (destruct H as [H|H]; [discriminate H|]); destruct H|].
  split; [intros t H; cbn in H; repeat (destruct H as [H|H]; [discriminate H|]); destruct H|].
  split; [left; reflexivity|]. split; [eexists; reflexivity|]. intros [r E]. discriminate E.
Qed.

(** Guards are released when a call ends, by return or by panic. *)
Theorem C47_no_leaked_guard : forall P oc tr w t, prims_ok P -> execution P oc start tr w -> well_typed tr ->
  idle (w_threads w t) -> th_held (w_threads w t) = [].
Proof.
  intros P oc tr w t HP X T I. pose proof (inv_reached P oc tr w HP X T) as W.
  destruct (th_held (w_threads w t)) as [|h hs] eqn:E; [reflexivity|]. exfalso.
  apply (holder_busy P oc w t h W); [rewrite E; left; reflexivity|exact I].
Qed.
Print Assumptions C47_no_leaked_guard.
Example C47_idle_case : exists tr w, execution real_prims true start tr w /\ well_typed tr /\ tr <> [] /\ idle (w_threads w 0).
Proof.
  destruct two_routed as [tr [w [c0 [acts [[X [T _]] [H [_ Y]]]]]]]. exists tr, w. split; [exact X|]. split; [exact T|].
  split; [destruct tr; [destruct H|discriminate]|]. rewrite Y. eexists. reflexivity.
Qed.

Theorem C47_no_poison : forall P oc tr w, prims_ok P -> execution P oc start tr w -> well_typed tr -> public_run tr ->
  (forall l, w_poisoned w l = false) /\ (forall t l, ~ In (t, APoisoned l) tr).
Proof.
  intros P oc tr w HP X. induction X as [|tr w t a w' X IH S]; intros T PR; [split; [reflexivity|intros t l []]|].
  split.
  { apply (wi_poison _ _ _ _ _ _ w' (pub_reached P oc _ w' HP (ex_snoc _ _ _ _ _ _ _ _ X S) T PR) eq_refl). }
  apply typed_app in T as [T _]. apply public_app in PR as [PR _]. destruct (IH T PR) as [NP NA].
  intros t' l H. apply in_app_or in H as [H|[H|[]]]; [exact (NA t' l H)|]. injection H as -> ->.
  inversion S; subst; [|congruence]. match goal with H : pstep _ _ _ _ _ _ _ |- _ => inversion H end.
Qed.
Print Assumptions C47_no_poison.
Example C47_public_case : exists tr w, execution real_prims true start tr w /\ well_typed tr /\ public_run tr /\ tr <> [].
Proof.
  destruct two_routed as [tr [w [c0 [acts [[X [T [PR _]]] [H _]]]]]]. exists tr, w. repeat (split; auto). destruct tr; [destruct H|discriminate].
Qed.

(** With logging on, a failing [println!] poisons the socket's mutex: the
    restriction to public calls is necessary. *)
Theorem C47_logging_poisons : forall P oc, exists tr w, execution P oc start tr w /\ well_typed tr /\ w_poisoned w LSocket = true /\
  exists tr2 w2, execution P oc w tr2 w2 /\ In (1, APoisoned LSocket) tr2 /\ th_prog (w_threads w2 1) = Done (RPanic "PoisonError").
Proof.
  intros P oc.
  assert (S1 : solo P oc bind_socket (entry oc (CSetLog true)) [] [AAcq LLog Exclusive; ASetLog true; ARel LLog] (ISocket [] true []) (Done RNothing) []).
  { cbn [entry set_log_prog]. apply so_acq; [intros m []|]. eapply so_data; [apply p_set_log|]. apply so_rel. apply so_nil. }
  destruct (solo_call P oc start 0 (CSetLog true) RNothing _ _ _ eq_refl eq_refl (conj (fun _ _ => eq_refl) (fun _ => eq_refl)) S1) as [w1 [X1 [K1 [Y1 [O1 A1]]]]].
  pose proof (s_call P oc w1 0 CAccept RNothing ltac:(rewrite Y1; reflexivity)) as C2. rewrite Y1 in C2. cbn [th_held] in C2.
  match type of C2 with step _ _ _ _ _ ?w => set (w2 := w) in * end.
  assert (A2 : alone 0 w2).
  { destruct A1 as [A1 B1]. split; [|exact B1]. intros t N. unfold w2. cbn [w_threads]. unfold set_thread. destruct (t =? 0) eqn:E; [apply N.eqb_eq in E; contradiction|]. auto. }
  assert (S2 : solo P oc (ISocket [] true []) (entry oc CAccept) [] [AGoto LpReceive; AAcq LSocket Exclusive; ARecv (NetDatagram [] 0); AAcq LLog Shared; ALookLog true; ARel LLog]
      (ISocket [] true []) (Print (LogHeader (next_header_from_stream (firstn (N.to_nat RECV_BUFFER) [])))
         (Rel LSocket ((fun r => match r with
            | IoErr e => accept_with P oc (IoErr e)
            | IoOk d => let after (b : bool) := if b then accept_with P oc (IoOk d) else route_datagram d (fun r => unwrap_or_crash r (fun _ => Goto LpReceive)) in
                lift (next_header_from_stream (d_data d)) (fun e => Print (LogError e) (after false))
                  (fun '(x, _) => unwrap_or_crash (get_packet_type x) (fun packet_type =>
                     match packet_type with
                     | TInitial => Acq LStreams Shared (LookTable (fun T => Rel LStreams (after (negb (contains_key T (get_destination_id x))))))
                     | _ => after false
                     end)) end) (IoOk (Datagram (firstn (N.to_nat RECV_BUFFER) []) 0))))) [(LSocket, Exclusive)]).
  { cbn [entry accept_prog]. eapply so_data; [apply p_goto|]. cbn [code]. unfold recv_new_initial_datagram, recv_datagram.
    apply so_acq; [intros m []|]. eapply so_data; [apply (p_recv _ _ _ _ (NetDatagram [] 0))|]. cbn beta iota zeta.
    apply so_acq; [intros m [H|[]]; discriminate H|]. eapply so_data; [apply p_look_log|]. cbn [log_traffic]. apply so_rel. apply so_nil. }
  destruct (solo_execution P oc _ _ _ _ _ _ _ S2 w2 0 (Some CAccept) [] K1) as [w3 [X3 [K3 [Y3 [O3 A3]]]]]; [reflexivity|exact A2|].
  match type of Y3 with _ = Thread ?p _ _ _ => set (p3 := p) in * end.
  assert (C4 : exists w4, step P oc w3 0 (APrintFailed (LogHeader (next_header_from_stream (firstn (N.to_nat RECV_BUFFER) [])))) w4 /\
     th_prog (w_threads w4 0) = Crash "failed printing" /\ th_held (w_threads w4 0) = [(LSocket, Exclusive)] /\ (forall t, t <> 0 -> w_threads w4 t = w_threads w3 t)).
  { eexists. split; [eapply s_data; [rewrite Y3; reflexivity|apply p_print_failed]|]. cbn [w_threads]. unfold set_thread. rewrite Y3. cbn [N.eqb th_prog th_held].
    repeat split. intros t N. destruct (t =? 0) eqn:E; [apply N.eqb_eq in E; contradiction|reflexivity]. }
  destruct C4 as [w4 [C4 [P4 [H4 O4]]]].
  pose proof (s_panic P oc w4 0 _ P4) as C5. match type of C5 with step _ _ _ _ _ ?w => set (w5 := w) in * end.
  assert (F1 : w_threads w5 1 = fresh_thread).
  { unfold w5. cbn [w_threads]. unfold set_thread. cbn [N.eqb Pos.eqb]. rewrite (O4 1) by lia. rewrite (O3 1) by lia. unfold w2. cbn [w_threads]. unfold set_thread. cbn [N.eqb Pos.eqb].
    rewrite O1 by discriminate. reflexivity. }
  assert (PS : w_poisoned w5 LSocket = true).
  { unfold w5. cbn [w_poisoned]. unfold poison. rewrite H4. cbn. apply Bool.orb_true_r. }
  eexists _, w5. split.
  { eapply execution_app; [exact X1|]. eapply execution_cons; [exact C2|]. eapply execution_app; [exact X3|].
    eapply execution_cons; [exact C4|]. apply execution_one. exact C5. }
  split; [intros t d H; cbn in H; repeat (destruct H as [H|H]; [discriminate H|]); destruct H|].
  split; [exact PS|].
  pose proof (s_call P oc w5 1 CAccept RNothing ltac:(rewrite F1; reflexivity)) as C6. match type of C6 with step _ _ _ _ _ ?w => set (w6 := w) in * end.
  assert (P6 : th_prog (w_threads w6 1) = Goto LpReceive) by reflexivity.
  pose proof (s_data P oc w6 1 _ _ _ _ P6 (p_goto P oc _ _)) as C7. match type of C7 with step _ _ _ _ _ ?w => set (w7 := w) in * end.
  assert (P7 : exists p, th_prog (w_threads w7 1) = Acq LSocket Exclusive p) by (eexists; reflexivity). destruct P7 as [p7 P7].
  pose proof (s_poisoned P oc w7 1 _ _ _ P7 PS) as C8. match type of C8 with step _ _ _ _ _ ?w => set (w8 := w) in * end.
  pose proof (s_panic P oc w8 1 "PoisonError" eq_refl) as C9.
  eexists _, _. split.
  { eapply execution_cons; [exact C6|]. eapply execution_cons; [exact C7|]. eapply execution_cons; [exact C8|]. apply execution_one. exact C9. }
  split; [right; right; left; reflexivity|reflexivity].
Qed.
Print Assumptions C47_logging_poisons.

(** ** C48: the public logging switch *)
Theorem C48_logging_stays_off : forall P oc tr w, prims_ok P -> execution P oc start tr w -> well_typed tr -> public_run tr ->
  log_traffic (w_sock w) = false /\ (forall x, In x (printed (w_sock w)) -> (exists e, x = LogError e) \/ (exists i, x = LogShort i)).
Proof.
  intros P oc tr w HP X. induction X as [|tr w t a w' X IH S]; intros T PR; [split; [reflexivity|intros x []]|].
  pose proof (pub_reached P oc _ w' HP (ex_snoc _ _ _ _ _ _ _ _ X S) T PR) as W'.
  split. { destruct (log_traffic (w_sock w')) eqn:E; [|reflexivity]. discriminate (wi_log _ _ _ _ _ _ w' W' E). }
  apply typed_app in T as [T _]. apply public_app in PR as [PR _]. destruct (IH T PR) as [_ NP].
  pose proof (pub_reached P oc _ w HP X T PR) as W. pose proof (step_effect _ _ _ _ _ _ _ _ w t a w' W S) as EF.
  inversion S as [c r Ep|p a' k p' Ep PS|l m p Ep Np G|l m p Ep Np|l m p held Ep Eh|why Ep]; subst; cbn [w_sock]; auto.
  inversion PS; subst; cbn [printed]; auto. intros y Hy. apply in_app_or in Hy as [Hy|[<-|[]]]; auto.
  destruct EF as [c [_ [EF _]]]. destruct EF as [EF|EF]; [discriminate EF|exact EF].
Qed.
Print Assumptions C48_logging_stays_off.

Definition not_switch (x : N * action) : bool :=
  match snd x with ACall (CSwitchLog _) => false | _ => true end.
(** Two threads are the same, but for what an idle one did last. *)
Definition same_thread (a b : thread) : Prop :=
  a = b \/ (th_held a = th_held b /\ idle a /\ idle b).

(** Leaving out every call of the switch gives an execution with the same effect. *)
Theorem C48_switch_erasable : forall P oc tr w, execution P oc start tr w ->
  exists w', execution P oc start (filter not_switch tr) w' /\ w_sock w' = w_sock w /\
    w_poisoned w' = w_poisoned w /\ (forall t, same_thread (w_threads w t) (w_threads w' t)).
Proof.
  intros P oc tr w X. induction X as [|tr w t a w1 X IH S].
  { exists start. split; [constructor|]. repeat split; auto. intros t. left. reflexivity. }
  destruct IH as [w' [X' [ES [EP ET]]]].
  assert (HELD : forall t0, th_held (w_threads w t0) = th_held (w_threads w' t0)).
  { intros t0. destruct (ET t0) as [->|[E _]]; auto. }
  rewrite filter_app. cbn [filter].
  destruct S as [c r Ep|p a k p' Ep PS|l m p Ep Np G|l m p Ep Np|l m p held Ep Eh|why Ep].
  - (* call *)
    assert (D : exists r', th_prog (w_threads w' t) = Done r').
    { destruct (ET t) as [E|[_ [_ Y]]]; [rewrite <- E; eauto|exact Y]. }
    destruct D as [r' D].
    destruct (not_switch (t, ACall c)) eqn:NS.
    + eexists. split; [eapply ex_snoc; [exact X'|apply (s_call P oc w' t c r' D)]|]. cbn [w_sock w_poisoned w_threads].
      split; [exact ES|]. split; [exact EP|]. intros t0. destruct (N.eq_dec t0 t) as [->|N].
      * rewrite !set_thread_same, HELD. left. reflexivity.
      * rewrite !set_thread_other by auto. apply ET.
    + rewrite app_nil_r. exists w'. split; [exact X'|]. cbn [w_sock w_poisoned w_threads].
      split; [exact ES|]. split; [exact EP|]. intros t0. destruct (N.eq_dec t0 t) as [->|N].
      * rewrite set_thread_same. right. cbn [th_held]. split; [apply HELD|]. split; [|exists r'; exact D].
        destruct c; try discriminate NS. exists RNothing. reflexivity.
      * rewrite set_thread_other by auto. apply ET.
  - assert (EQ : w_threads w t = w_threads w' t).
    { destruct (ET t) as [E|[_ [[r Y] _]]]; auto. exfalso. rewrite Y in Ep. rewrite <- Ep in PS. inversion PS. }
    assert (NS : not_switch (t, a) = true) by (destruct PS; reflexivity). rewrite NS.
    eexists. split; [eapply ex_snoc; [exact X'|eapply (s_data P oc w' t p a k p')]|]; [congruence|rewrite ES; exact PS|].
    cbn [w_sock w_poisoned w_threads]. split; [reflexivity|]. split; [exact EP|]. intros t0. destruct (N.eq_dec t0 t) as [->|N].
    + rewrite !set_thread_same, EQ. left. reflexivity.
    + rewrite !set_thread_other by auto. apply ET.
  - assert (EQ : w_threads w t = w_threads w' t).
    { destruct (ET t) as [E|[_ [[r Y] _]]]; auto. congruence. }
    cbn [not_switch snd]. eexists. split; [eapply ex_snoc; [exact X'|eapply (s_acq P oc w' t l m p)]|].
    + congruence.
    + congruence.
    + intros t0 m' Hin. rewrite <- HELD in Hin. apply (G t0 m' Hin).
    + cbn [w_sock w_poisoned w_threads]. split; [exact ES|]. split; [exact EP|]. intros t0. destruct (N.eq_dec t0 t) as [->|N].
      * rewrite !set_thread_same, EQ. left. reflexivity.
      * rewrite !set_thread_other by auto. apply ET.
  - assert (EQ : w_threads w t = w_threads w' t).
    { destruct (ET t) as [E|[_ [[r Y] _]]]; auto. congruence. }
    cbn [not_switch snd]. eexists. split; [eapply ex_snoc; [exact X'|eapply (s_poisoned P oc w' t l m p)]|].
    + congruence.
    + congruence.
    + cbn [w_sock w_poisoned w_threads]. split; [exact ES|]. split; [exact EP|]. intros t0. destruct (N.eq_dec t0 t) as [->|N].
      * rewrite !set_thread_same, EQ. left. reflexivity.
      * rewrite !set_thread_other by auto. apply ET.
  - assert (EQ : w_threads w t = w_threads w' t).
    { destruct (ET t) as [E|[_ [[r Y] _]]]; auto. congruence. }
    cbn [not_switch snd]. eexists. split; [eapply ex_snoc; [exact X'|eapply (s_rel P oc w' t l m p held)]|].
    + congruence.
    + congruence.
    + cbn [w_sock w_poisoned w_threads]. split; [exact ES|]. split; [exact EP|]. intros t0. destruct (N.eq_dec t0 t) as [->|N].
      * rewrite !set_thread_same, EQ. left. reflexivity.
      * rewrite !set_thread_other by auto. apply ET.
  - assert (EQ : w_threads w t = w_threads w' t).
    { destruct (ET t) as [E|[_ [[r Y] _]]]; auto. congruence. }
    cbn [not_switch snd]. eexists. split; [eapply ex_snoc; [exact X'|eapply (s_panic P oc w' t why)]|].
    + congruence.
    + cbn [w_sock w_poisoned w_threads]. split; [exact ES|]. split; [rewrite HELD, EP; reflexivity|]. intros t0. destruct (N.eq_dec t0 t) as [->|N].
      * rewrite !set_thread_same, EQ. left. reflexivity.
      * rewrite !set_thread_other by auto. apply ET.
Qed.
Print Assumptions C48_switch_erasable.
Example C48_switch_case : exists tr w, execution real_prims true start tr w /\ well_typed tr /\ public_run tr /\
  In (0, ACall (CSwitchLog true)) tr /\ th_call (w_threads w 0) = Some (CSwitchLog true).
Proof.
  destruct two_routed as [tr [w [c0 [acts [B _]]]]].
  destruct (next_call _ _ _ _ _ _ (CSwitchLog true) [] _ _ B Coq.Init.Logic.I (so_nil _ _ _ _ _)) as [w' [X [T [PR [_ [Y _]]]]]].
  eexists _, w'. split; [exact X|]. split; [exact T|]. split; [exact PR|]. rewrite Y. split; [|reflexivity].
  apply in_or_app. right. left. reflexivity.
Qed.
