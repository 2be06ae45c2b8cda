(** C93: concurrent calls take effect one at a time. *)
From Verif Require Import Base Utils Frame CipherSuite Secrets Connection Packet Routing Threads
  Spec SpecPacket SpecRouting Tactics UtilsFacts HeaderFacts ConnectionFacts RoutingFacts RoutingSafe SoloFacts CryptoInst
  SampleRuns PropRouting.

(** What is registered under an id. *)
Definition view := u160 -> option qstream.
Definition registered (w : world) : view := get (streams (w_sock w)).
Definition same_view (A B : view) : Prop := forall k, B k = A k.
Definition changed_at (k : u160) (x : option qstream) (A B : view) : Prop :=
  B k = x /\ forall k', k' <> k -> B k' = A k'.

(** What a call does, and returns, when nothing else happens meanwhile: [A] before, [B] after. *)
Inductive one_call (oc : bool) : scall -> view -> view -> result -> Prop :=
| oc_delivered : forall A B d h s, header_is (d_data d) h -> A (get_destination_id h) = Some s ->
    changed_at (get_destination_id h) (Some (QStream (q_queue s ++ [d]) (q_conn s))) A B ->
    one_call oc (CRoute d) A B (RUnit (Ok tt))
| oc_no_connection : forall A B d h e, header_is (d_data d) h -> A (get_destination_id h) = None -> same_view A B ->
    one_call oc (CRoute d) A B (RUnit (Err e))
| oc_no_header : forall A B d e, (forall h, ~ header_is (d_data d) h) -> same_view A B ->
    one_call oc (CRoute d) A B (RUnit (Err e))
| oc_dropped : forall A B k, changed_at k None A B -> one_call oc (CDropStream k) A B RNothing
| oc_decoded : forall A B d h s x, header_is (d_data d) h -> A (get_destination_id h) = Some s -> same_view A B ->
    decode_packets oc (q_conn s) (d_data d) = x -> (forall w, x <> Panic w) ->
    one_call oc (CPackets d) A B (RPackets x)
| oc_decoding_panics : forall A B d h s w, header_is (d_data d) h -> A (get_destination_id h) = Some s -> same_view A B ->
    decode_packets oc (q_conn s) (d_data d) = Panic w -> one_call oc (CPackets d) A B (RPanic w)
| oc_not_found : forall A B d h e, header_is (d_data d) h -> A (get_destination_id h) = None -> same_view A B ->
    one_call oc (CPackets d) A B (RPackets (Err e))
| oc_not_read : forall A B d e, (forall h, ~ header_is (d_data d) h) -> same_view A B ->
    one_call oc (CPackets d) A B (RPackets (Err e))
(* printing to stdout fails, when the bytes of the datagram end early *)
| oc_route_unprinted : forall A B d, (forall h, ~ header_is (d_data d) h) -> same_view A B ->
    one_call oc (CRoute d) A B (RPanic "failed printing")
| oc_packets_unprinted : forall A B d, (forall h, ~ header_is (d_data d) h) -> same_view A B ->
    one_call oc (CPackets d) A B (RPanic "failed printing")
| oc_decoding_unprinted : forall A B d h s, header_is (d_data d) h -> A (get_destination_id h) = Some s -> same_view A B ->
    (forall ps, decode_packets oc (q_conn s) (d_data d) <> Ok ps) -> one_call oc (CPackets d) A B (RPanic "failed printing")
| oc_connect : forall A B, same_view A B -> one_call oc CConnect A B (RPanic "not implemented")
| oc_switch : forall A B b, same_view A B -> one_call oc (CSwitchLog b) A B RNothing
| oc_set_log : forall A B b, same_view A B -> one_call oc (CSetLog b) A B RNothing.

(** ** Finding an action of the current call in the execution *)
Lemma at_action P oc tr w t c x a y : execution P oc start tr w ->
  th_call (w_threads w t) = Some c -> th_acts (w_threads w t) = x ++ a :: y ->
  exists tr1 w1 w2 tr2, tr = tr1 ++ (t, a) :: tr2 /\ execution P oc start tr1 w1 /\ step P oc w1 t a w2 /\
    execution P oc w2 tr2 w /\ th_call (w_threads w1 t) = Some c /\ th_acts (w_threads w1 t) = x /\
    (forall c', ~ In (t, ACall c') tr2).
Proof.
  intros X. revert y. induction X as [|tr w t' b w' X IH S]; intros y Ec Ea.
  { cbn in Ec. discriminate. }
  assert (KEEP : forall y', th_call (w_threads w t) = Some c -> th_acts (w_threads w t) = x ++ a :: y' ->
    (forall c', (t', b) <> (t, ACall c')) ->
    exists tr1 w1 w2 tr2, tr ++ [(t', b)] = tr1 ++ (t, a) :: tr2 /\ execution P oc start tr1 w1 /\ step P oc w1 t a w2 /\
    execution P oc w2 tr2 w' /\ th_call (w_threads w1 t) = Some c /\ th_acts (w_threads w1 t) = x /\
    (forall c', ~ In (t, ACall c') tr2)).
  { intros y' Ec' Ea' NB. destruct (IH y' Ec' Ea') as [tr1 [w1 [w2 [tr2 [-> [X1 [S1 [X2 [C1 [A1 N2]]]]]]]]]].
    exists tr1, w1, w2, (tr2 ++ [(t', b)]). rewrite <- app_assoc. cbn [app].
    split; [reflexivity|]. split; [exact X1|]. split; [exact S1|]. split; [eapply ex_snoc; eauto|].
    split; [exact C1|]. split; [exact A1|].
    intros c' H. apply in_app_or in H as [H|[H|[]]]; [exact (N2 c' H)|exact (NB c' H)]. }
  destruct (N.eqb_spec t' t) as [->|N].
  - assert (LAST : th_call (w_threads w t) = Some c ->
        th_acts (w_threads w t) ++ [b] = x ++ a :: y -> (forall c', b <> ACall c') ->
        exists tr1 w1 w2 tr2, tr ++ [(t, b)] = tr1 ++ (t, a) :: tr2 /\ execution P oc start tr1 w1 /\ step P oc w1 t a w2 /\
          execution P oc w2 tr2 w' /\ th_call (w_threads w1 t) = Some c /\ th_acts (w_threads w1 t) = x /\
          (forall c', ~ In (t, ACall c') tr2)).
    { intros C1 E NB. destruct y as [|z y] using rev_ind.
      - apply app_inj_tail in E as [E1 ->]. exists tr, w, w', []. repeat split; auto. constructor.
      - clear IHy. rewrite app_comm_cons, app_assoc in E. apply app_inj_tail in E as [E1 E2].
        apply (KEEP y C1 E1). intros c' H. injection H as H. exact (NB c' H). }
    inversion S; subst; cbn [w_threads] in Ec, Ea; rewrite set_thread_same in Ec, Ea; cbn [th_call th_acts] in Ec, Ea.
    + destruct x; discriminate.
    + apply LAST; auto; intros c' H1; subst; inversion H0.
    + apply LAST; auto; discriminate.
    + apply LAST; auto; discriminate.
    + apply LAST; auto; discriminate.
    + apply LAST; auto; discriminate.
  - apply (KEEP y); [| |intros c' H; congruence];
      inversion S; subst; cbn [w_threads] in Ec, Ea; rewrite set_thread_other in Ec, Ea by auto; auto.
Qed.

(** ... and the call itself. *)
Lemma at_call P oc tr w t c : execution P oc start tr w -> th_call (w_threads w t) = Some c ->
  exists tr1 w1 w2 tr2, tr = tr1 ++ (t, ACall c) :: tr2 /\ execution P oc start tr1 w1 /\ step P oc w1 t (ACall c) w2 /\
    execution P oc w2 tr2 w /\ (forall c', ~ In (t, ACall c') tr2).
Proof.
  induction 1 as [|tr w t' b w' X IH S]; intros Ec.
  { cbn in Ec. discriminate. }
  assert (KEEP : th_call (w_threads w t) = Some c -> (forall c', (t', b) <> (t, ACall c')) ->
    exists tr1 w1 w2 tr2, tr ++ [(t', b)] = tr1 ++ (t, ACall c) :: tr2 /\ execution P oc start tr1 w1 /\
      step P oc w1 t (ACall c) w2 /\ execution P oc w2 tr2 w' /\ (forall c', ~ In (t, ACall c') tr2)).
  { intros Ec' NB. destruct (IH Ec') as [tr1 [w1 [w2 [tr2 [-> [X1 [S1 [X2 N2]]]]]]]].
    exists tr1, w1, w2, (tr2 ++ [(t', b)]). rewrite <- app_assoc. cbn [app].
    split; [reflexivity|]. split; [exact X1|]. split; [exact S1|]. split; [eapply ex_snoc; eauto|].
    intros c' H. apply in_app_or in H as [H|[H|[]]]; [exact (N2 c' H)|exact (NB c' H)]. }
  destruct (N.eqb_spec t' t) as [->|N].
  - pose proof S as S0. inversion S; subst; cbn [w_threads] in Ec; rewrite set_thread_same in Ec; cbn [th_call] in Ec.
    + injection Ec as ->. eexists tr, w, _, []. split; [reflexivity|]. split; [exact X|]. split; [exact S0|].
      split; [constructor|auto].
    + apply KEEP; auto. intros c' H1; injection H1 as ->. inversion H0.
    + apply KEEP; auto. intros c' H2; discriminate.
    + apply KEEP; auto. intros c' H2; discriminate.
    + apply KEEP; auto. intros c' H2; discriminate.
    + apply KEEP; auto. intros c' H2; discriminate.
  - apply KEEP; [|intros c' H; congruence]. inversion S; subst; cbn [w_threads] in Ec; rewrite set_thread_other in Ec by auto; auto.
Qed.

(** ** Actions of a call *)
Lemma quiet_step P oc w t a w' : step P oc w t a w' ->
  inserts [a] = [] -> removes [a] = [] -> sends [a] = [] -> registered w' = registered w.
Proof.
  intros S A B C. pose proof (step_table P oc w t a w' S) as E. unfold registered.
  destruct a; try (rewrite E; reflexivity); discriminate.
Qed.
Lemma sends_split acts k d l : sends acts = (k, d) :: l -> exists x y, acts = x ++ ASend k d :: y.
Proof.
  intros E. assert (H : In (k, d) (sends acts)) by (rewrite E; left; reflexivity).
  apply in_flat_map in H as [a [H1 H2]]. destruct a; try contradiction. destruct H2 as [H2|[]]. injection H2 as -> ->.
  apply in_split. exact H1.
Qed.
Lemma removes_split acts k l : removes acts = k :: l -> exists x y, acts = x ++ ARemove k :: y.
Proof.
  intros E. assert (H : In k (removes acts)) by (rewrite E; left; reflexivity).
  apply in_flat_map in H as [a [H1 H2]]. destruct a; try contradiction. destruct H2 as [->|[]].
  apply in_split. exact H1.
Qed.
Lemma looks_in acts T : In T (looks acts) -> In (ALook T) acts.
Proof.
  unfold looks.
  enough (G : forall l, In T (fold_left (fun l a => match a with ARecv _ => [] | ALook T => l ++ [T] | _ => l end) acts l) ->
    In (ALook T) acts \/ In T l) by (intros H; destruct (G [] H) as [|[]]; auto).
  induction acts as [|a acts IH]; intros l H; [auto|]. cbn [fold_left] in H.
  apply IH in H as [H|H]; [left; right; exact H|]. destruct a; auto; try contradiction.
  apply in_app_or in H as [H|[->|[]]]; [auto|]. left. left. reflexivity.
Qed.
Lemma looks_split acts T : looks acts = [T] -> exists x y, acts = x ++ ALook T :: y.
Proof. intros E. apply in_split, looks_in. rewrite E. left. reflexivity. Qed.
Lemma look_step P oc w t T w' : step P oc w t (ALook T) w' -> get T = registered w /\ registered w' = registered w.
Proof.
  intros S. split; [|eapply quiet_step; eauto].
  inversion S as [|p a k p' Ep PS| | | |]; subst. inversion PS; subst. reflexivity.
Qed.


(** A step that does not touch the table. *)
Definition quiet (a : action) : Prop :=
  match a with AInsert _ _ | ARemove _ | ASend _ _ => False | _ => True end.
Lemma quiet_all l : inserts l = [] -> removes l = [] -> sends l = [] -> Forall quiet l.
Proof.
  induction l as [|a l IH]; intros A B C; [constructor|].
  destruct a; try discriminate A; try discriminate B; try discriminate C; constructor; cbn; auto.
Qed.
Lemma inserts_app a b : inserts (a ++ b) = inserts a ++ inserts b. Proof. apply flat_map_app. Qed.
Lemma removes_app a b : removes (a ++ b) = removes a ++ removes b. Proof. apply flat_map_app. Qed.
Lemma sends_app a b : sends (a ++ b) = sends a ++ sends b. Proof. apply flat_map_app. Qed.
Lemma acts_after P oc w1 t b w2 : execution P oc w1 b w2 -> (forall c', ~ In (t, ACall c') b) ->
  th_acts (w_threads w2 t) = th_acts (w_threads w1 t) ++ acts_of t b.
Proof.
  intros X. induction X as [|tr w t' a w' X IH S]; intros NC; [rewrite app_nil_r; reflexivity|].
  assert (A : th_acts (w_threads w t) = th_acts (w_threads w1 t) ++ acts_of t tr)
    by (apply IH; intros c' H; apply (NC c'); apply in_or_app; auto).
  assert (ACTS : acts_of t (tr ++ [(t', a)]) = acts_of t tr ++ (if t' =? t then [a] else [])).
  { unfold acts_of. rewrite filter_app, map_app. cbn. destruct (t' =? t); reflexivity. }
  rewrite ACTS, app_assoc, <- A.
  destruct (N.eqb_spec t' t) as [->|N].
  - inversion S; subst; cbn [w_threads]; rewrite set_thread_same; cbn [th_acts]; auto.
    exfalso. apply (NC c). apply in_or_app. right. left. reflexivity.
  - inversion S; subst; cbn [w_threads]; rewrite set_thread_other, app_nil_r by auto; auto.
Qed.
Lemma step_acts P oc w t a w' : step P oc w t a w' -> (forall c, a <> ACall c) ->
  th_acts (w_threads w' t) = th_acts (w_threads w t) ++ [a].
Proof.
  intros S N. inversion S; subst; cbn [w_threads]; rewrite set_thread_same; cbn [th_acts]; auto.
  exfalso. exact (N c eq_refl).
Qed.

(** Every finished call other than [accept] took effect in one of its own steps:
    there it changed the table, and got the result, that it would have had if it
    had been executed alone at that moment; its other steps changed nothing. *)
Definition took_effect_at_once (P : prims) (oc : bool) (tr : list (N * action)) (w : world) (t : N) (c : scall) (r : result) : Prop :=
  exists tr1 w1 a w2 tr2,
    tr = tr1 ++ (t, a) :: tr2 /\ execution P oc start tr1 w1 /\ step P oc w1 t a w2 /\ execution P oc w2 tr2 w /\
    (a = ACall c \/ (th_call (w_threads w1 t) = Some c /\ Forall quiet (th_acts (w_threads w1 t)))) /\
    one_call oc c (registered w1) (registered w2) r /\
    (forall c', ~ In (t, ACall c') tr2) /\ Forall quiet (acts_of t tr2).

Lemma effect_at_call P oc tr w t c r : execution P oc start tr w -> th_call (w_threads w t) = Some c ->
  inserts (th_acts (w_threads w t)) = [] -> removes (th_acts (w_threads w t)) = [] -> sends (th_acts (w_threads w t)) = [] ->
  (forall A, one_call oc c A A r) -> took_effect_at_once P oc tr w t c r.
Proof.
  intros X Ec I1 I2 I3 H. destruct (at_call P oc tr w t c X Ec) as [tr1 [w1 [w2 [tr2 [E [X1 [S [X2 N]]]]]]]].
  exists tr1, w1, (ACall c), w2, tr2. split; [exact E|]. split; [exact X1|]. split; [exact S|]. split; [exact X2|].
  split; [left; reflexivity|]. split; [|split; [exact N|]].
  - rewrite (quiet_step P oc w1 t _ w2 S) by reflexivity. apply H.
  - pose proof (acts_after P oc w2 t tr2 w X2 N) as A. rewrite A in I1, I2, I3.
    rewrite inserts_app in I1. rewrite removes_app in I2. rewrite sends_app in I3.
    apply app_eq_nil in I1 as [_ I1]. apply app_eq_nil in I2 as [_ I2]. apply app_eq_nil in I3 as [_ I3].
    apply quiet_all; auto.
Qed.
Lemma effect_at_action P oc tr w t c r x a y : execution P oc start tr w -> th_call (w_threads w t) = Some c ->
  th_acts (w_threads w t) = x ++ a :: y ->
  inserts (x ++ y) = [] -> removes (x ++ y) = [] -> sends (x ++ y) = [] ->
  (forall tr1 w1 w2 tr2, tr = tr1 ++ (t, a) :: tr2 -> execution P oc start tr1 w1 -> step P oc w1 t a w2 ->
    one_call oc c (registered w1) (registered w2) r) -> took_effect_at_once P oc tr w t c r.
Proof.
  intros X Ec Ea I1 I2 I3 H.
  destruct (at_action P oc tr w t c x a y X Ec Ea) as [tr1 [w1 [w2 [tr2 [E [X1 [S [X2 [C1 [A1 N]]]]]]]]]].
  rewrite inserts_app in I1. rewrite removes_app in I2. rewrite sends_app in I3.
  apply app_eq_nil in I1 as [I1 J1]. apply app_eq_nil in I2 as [I2 J2]. apply app_eq_nil in I3 as [I3 J3].
  exists tr1, w1, a, w2, tr2. split; [exact E|]. split; [exact X1|]. split; [exact S|]. split; [exact X2|].
  split; [right; split; [exact C1|rewrite A1; apply quiet_all; auto]|]. split; [eapply H; eauto|]. split; [exact N|].
  assert (NA : forall c', a <> ACall c').
  { intros c' ->. clear - S Ea X Ec A1 X2 N. inversion S; subst.
    - pose proof (acts_after P oc _ t tr2 w X2 N) as B. cbn [w_threads] in B. rewrite set_thread_same in B. cbn [th_acts app] in B.
      assert (IN : In (ACall c') (acts_of t tr2)) by (rewrite <- B, Ea; apply in_or_app; right; left; reflexivity).
      unfold acts_of in IN. apply in_map_iff in IN as [[t' a'] [E1 E2]]. cbn in E1. subst a'.
      apply filter_In in E2 as [E2 E3]. cbn in E3. apply N.eqb_eq in E3. subst t'. exact (N c' E2).
    - match goal with H : pstep _ _ _ _ _ _ _ |- _ => inversion H end. }
  pose proof (acts_after P oc w2 t tr2 w X2 N) as A. rewrite (step_acts P oc w1 t a w2 S NA), A1, Ea in A.
  rewrite <- app_assoc in A. apply app_inv_head in A. cbn in A. injection A as <-. apply quiet_all; auto.
Qed.

Lemma only_one {A} (x y : list A) a : x ++ a :: y = [a] -> x ++ y = [].
Proof. destruct x as [|b [|c x]]; cbn; intros E; injection E as E; subst; auto; discriminate. Qed.

Theorem C93_calls_atomic : forall P oc tr w t c r, prims_ok P -> execution P oc start tr w -> well_typed tr -> public_run tr ->
  th_call (w_threads w t) = Some c -> th_prog (w_threads w t) = Done r -> c <> CAccept ->
  took_effect_at_once P oc tr w t c r.
Proof.
  intros P oc tr w t c r HP X T PR Ec Ed NA.
  pose proof (finished P oc tr w t c r HP X T PR Ec Ed) as K.
  set (acts := th_acts (w_threads w t)) in *.
  (* a call that only looks at the table *)
  assert (LOOK : forall T, looks acts = [T] -> inserts acts = [] -> removes acts = [] -> sends acts = [] ->
    (forall B, same_view (get T) B -> one_call oc c (get T) B r) -> took_effect_at_once P oc tr w t c r).
  { intros T0 L I1 I2 I3 H. destruct (looks_split acts T0 L) as [x [y E]].
    rewrite E in I1, I2, I3. rewrite inserts_app in I1. rewrite removes_app in I2. rewrite sends_app in I3.
    apply (effect_at_action P oc tr w t c r x (ALook T0) y); auto; rewrite ?inserts_app, ?removes_app, ?sends_app; auto.
    intros tr1 w1 w2 tr2 _ _ S. destruct (look_step _ _ _ _ _ _ S) as [E1 E2]. rewrite <- E1. apply H.
    unfold same_view. rewrite E2, E1. reflexivity. }
  destruct c as [| |b|k|d|d|b]; cbn [contract] in K.
  - contradiction.
  - destruct K as [-> [_ [I3 [I1 I2]]]]. apply effect_at_call; auto. intros A. constructor. intros k. reflexivity.
  - destruct K as [-> E]. apply effect_at_call; auto; fold acts; rewrite ?E; auto. intros A. constructor. intros k. reflexivity.
  - destruct K as [-> [_ [I3 [I1 I2]]]]. destruct (removes_split acts k [] I2) as [x [y E]].
    rewrite E in I1, I2, I3. rewrite inserts_app in I1. rewrite removes_app in I2. rewrite sends_app in I3.
    apply (effect_at_action P oc tr w t _ _ x (ARemove k) y); auto; rewrite ?inserts_app, ?removes_app, ?sends_app; auto.
    { cbn in I2. change (removes y) with (removes y) in I2. eapply only_one. exact I2. }
    intros tr1 w1 w2 tr2 -> X1 S. constructor. apply typed_app in T as [T _].
    destruct (C39_remove_step P oc tr1 w1 t k w2 HP X1 T S) as [_ [G1 [G2 _]]]. split; auto.
  - destruct K as [_ [I1 [I2 K]]]. destruct r as [[[]|e|w0|]| | | |]; try contradiction.
    + destruct K as [h [T0 [HH [I3 _]]]]. destruct (sends_split acts _ _ _ I3) as [x [y E]].
      rewrite E in I1, I2, I3. rewrite inserts_app in I1. rewrite removes_app in I2. rewrite sends_app in I3.
      apply (effect_at_action P oc tr w t _ _ x (ASend (get_destination_id h) d) y); auto; rewrite ?inserts_app, ?removes_app, ?sends_app; auto.
      { cbn in I3. eapply only_one. exact I3. }
      intros tr1 w1 w2 tr2 -> X1 S. apply typed_app in T as [T _].
      destruct (C38_send_step P oc tr1 w1 t _ d w2 HP X1 T S) as [[s [G1 G2]] [G3 _]].
      apply (oc_delivered oc _ _ d h s); auto. split; auto.
    + destruct K as [I3 [NH|[h [T0 [HH [L G]]]]]].
      * apply effect_at_call; auto. intros A. apply oc_no_header; auto. intros k. reflexivity.
      * apply (LOOK T0); auto. intros B SV. apply (oc_no_connection oc _ _ d h); auto.
    + destruct K as [-> [I3 [NH _]]]. apply effect_at_call; auto. intros A. apply oc_route_unprinted; auto. intros k. reflexivity.
  - destruct K as [_ [I3 [I1 [I2 K]]]].
    assert (K' : (exists e, unroutable acts (d_data d) /\ r = RPackets (Err e)) \/
          (exists h T q, header_is (d_data d) h /\ looks acts = [T] /\ get T (get_destination_id h) = Some q /\
             match decode_packets oc (q_conn q) (d_data d) with
             | Panic w => r = RPanic w
             | x => r = RPackets x
             end) \/
          (r = RPanic "failed printing" /\ (exists i, In (APrintFailed (LogShort i)) acts) /\
             ((forall h, ~ header_is (d_data d) h) \/
              exists h T q, header_is (d_data d) h /\ looks acts = [T] /\ get T (get_destination_id h) = Some q /\
                forall ps, decode_packets oc (q_conn q) (d_data d) <> Ok ps))) by (destruct r as [|[| | |]| | |]; try contradiction; exact K).
    clear K. destruct K' as [[e [[NH|[h [T0 [HH [L G]]]]] ->]]|[[h [T0 [q [HH [L [G D]]]]]]|[-> [_ [NH|[h [T0 [q [HH [L [G D]]]]]]]]]]].
    + apply effect_at_call; auto. intros A. apply oc_not_read; auto. intros k. reflexivity.
    + apply (LOOK T0); auto. intros B SV. apply (oc_not_found oc _ _ d h); auto.
    + apply (LOOK T0); auto. intros B SV.
      destruct (decode_packets oc (q_conn q) (d_data d)) eqn:ED; subst r;
        try (eapply oc_decoded; eauto; discriminate). eapply oc_decoding_panics; eauto.
    + apply effect_at_call; auto. intros A. apply oc_packets_unprinted; auto. intros k. reflexivity.
    + apply (LOOK T0); auto. intros B SV. eapply oc_decoding_unprinted; eauto.
  - destruct K as [-> [_ [I3 [I1 I2]]]]. apply effect_at_call; auto. intros A. constructor. intros k. reflexivity.
Qed.
Print Assumptions C93_calls_atomic.

(** Every step that touches the table, also one of [accept], is such a moment:
    a delivery is what routing the datagram alone would do, a removal what dropping
    the stream alone would do, and a registration adds one new id. *)
Theorem C93_changes_atomic : forall P oc tr w t a w', prims_ok P -> execution P oc start tr w -> well_typed tr ->
  step P oc w t a w' ->
  match a with
  | ASend k d => one_call oc (CRoute d) (registered w) (registered w') (RUnit (Ok tt)) /\
      (th_call (w_threads w t) = Some (CRoute d) \/
       th_call (w_threads w t) = Some CAccept /\
         exists pre data addr, recvs (th_acts (w_threads w t)) = pre ++ [NetDatagram data addr] /\ d = seen data addr)
  | ARemove k => one_call oc (CDropStream k) (registered w) (registered w') RNothing /\
      th_call (w_threads w t) = Some (CDropStream k)
  | AInsert k s => registered w k = None /\ changed_at k (Some s) (registered w) (registered w') /\ q_queue s = [] /\
      th_call (w_threads w t) = Some CAccept /\ inserts (th_acts (w_threads w t)) = []
  | ALook T => get T = registered w /\ same_view (registered w) (registered w')
  | _ => same_view (registered w) (registered w')
  end.
Proof.
  intros P oc tr w t a w' HP X T S.
  assert (Q : quiet a -> same_view (registered w) (registered w')).
  { intros H k. rewrite (quiet_step P oc w t a w' S); auto; destruct a; try reflexivity; contradiction. }
  destruct a; auto; try (apply Q; exact I).
  - split; [|apply Q; exact I]. apply (look_step _ _ _ _ _ _ S).
  - destruct (C40_insert_step P oc tr w t _ _ w' HP X T S) as [A [B [C D]]].
    pose proof (step_effect _ _ _ _ _ _ _ _ w t _ w' (inv_reached P oc tr w HP X T) S) as [c [Ec [[-> [E1 [c0 [v [_ [_ [_ ->]]]]]]] _]]].
    repeat split; auto.
  - destruct (C39_remove_step P oc tr w t _ w' HP X T S) as [A [B [C _]]]. split; [|exact A]. constructor. split; auto.
  - destruct (C38_send_step P oc tr w t _ _ w' HP X T S) as [[s [A B]] [C [[h [HH ->]] D]]]. split; [|exact D].
    apply (oc_delivered oc _ _ d h s); auto. split; auto.
Qed.
Print Assumptions C93_changes_atomic.

(** Two calls that overlap: a stream is dropped while a datagram is routed to it. *)
Example C93_case : exists tr w, execution real_prims true start tr w /\ well_typed tr /\ public_run tr /\
  th_call (w_threads w 0) = Some (CRoute short_77b) /\ th_prog (w_threads w 0) = Done (RUnit (Ok tt)) /\
  th_call (w_threads w 1) = Some (CDropStream (U160 0 77)) /\ th_prog (w_threads w 1) = Done RNothing /\
  exists a b c, tr = a ++ (1, ACall (CDropStream (U160 0 77))) :: b ++ (0, ACall (CRoute short_77b)) :: c /\
    (forall x, ~ In (1, x) b) /\ exists d e, c = d ++ (0, ASend (U160 0 77) short_77b) :: e /\ In (1, ARemove (U160 0 77)) e.
Proof.
  destruct (sample_accept [] start bind_socket 77 (between_start _ _ _) eq_refl eq_refl eq_refl)
    as [a0 [c0 [w0 [EC [B [ET [R [IN NR]]]]]]]]. cbv zeta in B.
  match type of B with between _ _ _ ?trr _ ?kk => set (tr0 := trr) in *; set (k0 := kk) in * end.
  destruct B as [X0 [T0 [PR0 [EK0 [[r0 D0] [H0 [[A0 Z0] F0]]]]]]].
  (* thread 1 begins *)
  pose proof (s_call real_prims true w0 1 (CDropStream (U160 0 77)) RNothing) as S1. rewrite (F0 1) in S1 by discriminate.
  specialize (S1 eq_refl). cbn [th_held fresh_thread] in S1.
  set (w1 := World _ _ _) in S1.
  assert (A1 : alone 0 w1).
  { split; [|exact Z0]. intros t' N. unfold w1. cbn [w_threads]. destruct (N.eq_dec t' 1) as [->|N1].
    - rewrite set_thread_same. reflexivity.
    - rewrite set_thread_other by auto. apply A0. exact N. }
  (* thread 0 routes *)
  assert (HH : header_is (d_data short_77b) (HShort (ShortHeader 0x7f (U160 0 77) true))) by (exists []; vm_compute; reflexivity).
  destruct (solo_route_call real_prims true k0 short_77b _ (QStream [] (set_scid c0 (U160 0 77) 8)) HH) as [a2 [S2 E2]]; [reflexivity|].
  assert (K1 : w_sock w1 = k0) by exact EK0. rewrite <- K1 in S2.
  destruct (solo_call real_prims true w1 0 (CRoute short_77b) r0 _ _ a2 D0 H0 A1 S2) as [w2 [X2 [K2 [Y2 [O2 A2]]]]].
  (* thread 1 goes on *)
  destruct (solo_drops real_prims true (w_sock w2) (U160 0 77)) as [a3 S3].
  assert (E3 : exists p q, a3 = p ++ ARemove (U160 0 77) :: q).
  { inversion S3; subst; [|]. { match goal with H : pstep _ _ _ _ _ _ _ |- _ => inversion H end. }
    match goal with H : solo _ _ _ (Remove _ _) _ _ _ _ _ |- _ => inversion H; subst end.
    match goal with H : pstep _ _ _ _ _ _ _ |- _ => inversion H; subst end.
    eexists [_], _. reflexivity. }
  assert (Y1 : w_threads w2 1 = Thread (drop_prog (U160 0 77)) [] (Some (CDropStream (U160 0 77))) []).
  { rewrite O2 by discriminate. unfold w1. cbn [w_threads]. apply set_thread_same. }
  destruct (solo_execution real_prims true _ _ _ _ _ _ _ S3 w2 1 _ _ eq_refl Y1) as [w3 [X3 [K3 [Y3 [O3 A3]]]]].
  { split; [|apply A2]. intros t' N. destruct (N.eq_dec t' 0) as [->|N0]; [rewrite Y2; reflexivity|apply A2; exact N0]. }
  assert (NC : forall t' c', In (t', ACall c') (tr0 ++ (1, ACall (CDropStream (U160 0 77))) :: ((0, ACall (CRoute short_77b)) :: map (pair 0) a2) ++ map (pair 1) a3) ->
     In (t', ACall c') tr0 \/ c' = CDropStream (U160 0 77) \/ c' = CRoute short_77b).
  { intros t' c' H. apply in_app_or in H as [H|[H|H]]; [auto|injection H as _ <-; auto|].
    apply in_app_or in H as [[H|H]|H]; [injection H as _ <-; auto| |].
    - exfalso. apply in_map_iff in H as [y [E H]]. injection E as _ ->. exact (solo_no_call _ _ _ _ _ _ _ _ _ S2 c' H).
    - exfalso. apply in_map_iff in H as [y [E H]]. injection E as _ ->. exact (solo_no_call _ _ _ _ _ _ _ _ _ S3 c' H). }
  exists (tr0 ++ (1, ACall (CDropStream (U160 0 77))) :: ((0, ACall (CRoute short_77b)) :: map (pair 0) a2) ++ map (pair 1) a3), w3.
  split; [eapply execution_app; [exact X0|]; eapply execution_cons; [exact S1|]; eapply execution_app; [exact X2|exact X3]|].
  split. { intros t' d H. apply NC in H as [H|[H|H]]; [exact (T0 t' d H)|discriminate|discriminate]. }
  split. { intros t' H. apply NC in H as [H|[H|H]]; [exact (PR0 t' H)|discriminate|discriminate]. }
  rewrite Y3, (O3 0), Y2 by discriminate. cbn [th_call th_prog]. do 4 (split; [reflexivity|]).
  destruct E3 as [p [q ->]]. destruct (sends_split a2 _ _ _ E2) as [x [y ->]].
  exists tr0, [], (map (pair 0) (x ++ ASend (U160 0 77) short_77b :: y) ++ map (pair 1) (p ++ ARemove (U160 0 77) :: q)).
  split; [reflexivity|]. split; [intros z []|].
  exists (map (pair 0) x), (map (pair 0) y ++ map (pair 1) (p ++ ARemove (U160 0 77) :: q)).
  split; [rewrite !map_app; cbn; rewrite <- app_assoc; reflexivity|].
  apply in_or_app. right. rewrite map_app. apply in_or_app. right. left. reflexivity.
Qed.
