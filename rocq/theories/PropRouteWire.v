(** Routing and accepting by the bytes of datagrams: C38, C39 and C103 without
    mention of the header parser. *)
From Verif Require Import Base Utils Frame CipherSuite Secrets Connection Packet Routing Threads Histories
  Spec SpecPacket SpecRouting Tactics UtilsFacts ParserFacts FrameFacts HeaderFacts PacketFacts ConnectionFacts PacketInv DecodeFacts
  RoutingFacts RoutingSafe SoloFacts CryptoInst SampleRuns PropPacket PropRouting PropThreads PropAccept PropIntake PropAccessors.
From Coq Require Import Lia ZifyN ZifyBool ZifyNat.
Open Scope N_scope.

(** The bytes [s] begin with a whole header (of RFC 9000 section 17) addressed to
    [k].  Version negotiation packets go to id zero (C45). *)
Definition addressed (s : list N) (k : u160) : Prop :=
  exists t d, announces s t /\ wire_dcid s d /\ cid_ok k /\
    cid_val k = match t with TVersionNegotiation => 0 | _ => be_val d end.

Lemma header_addressed s h : bytes_ok s -> header_is s h -> addressed s (get_destination_id h).
Proof.
  intros B [r E]. destruct (C101_length_and_type_partial s h r B E) as [[d D] [_ [t [A [Et _]]]]].
  exists t, d. split; [exact A|]. split; [exact D|].
  destruct (wire_dcid_header s h d B (ex_intro _ r E) D) as [[T Z]|[T C]].
  - rewrite Z. rewrite Et in T. injection T as ->. split; [split; reflexivity|reflexivity].
  - split; [apply C|]. assert (V : cid_val (get_destination_id h) = be_val d) by (symmetry; apply C).
    destruct t; auto. exfalso. apply T. exact Et.
Qed.
Lemma wire_dcid_fun s d d' : wire_dcid s d -> wire_dcid s d' -> d = d'.
Proof.
  intros D. revert d'. destruct D as [b v d rest Hb Hv|b d rest Hb Hd]; intros d' D'.
  - remember (b :: v ++ len d :: d ++ rest) as s eqn:Q. destruct D' as [b' v' d' rest' Hb' Hv'|b' d' rest' Hb' Hd']; injection Q as -> Q; [|lia].
    apply cons_app_inj in Q as [-> Q]; [|apply len_length; lia]. injection Q as Q1 Q.
    apply cons_app_inj in Q as [-> _]; [reflexivity|apply len_length; lia].
  - remember (b :: d ++ rest) as s eqn:Q. destruct D' as [b' v' d' rest' Hb' Hv'|b' d' rest' Hb' Hd']; injection Q as -> Q; [lia|].
    apply cons_app_inj in Q as [-> _]; [reflexivity|apply len_length; lia].
Qed.
Lemma addressed_fun s k k' : addressed s k -> addressed s k' -> k = k'.
Proof.
  intros [t [d [A [D [C V]]]]] [t' [d' [A' [D' [C' V']]]]].
  rewrite (announces_fun _ _ _ A' A) in V'. rewrite (wire_dcid_fun _ _ _ D' D) in V'.
  apply cid_val_inj; auto. congruence.
Qed.
Lemma addressed_header s k : bytes_ok s -> addressed s k -> exists h, header_is s h /\ get_destination_id h = k.
Proof.
  intros B A. pose proof A as [t [_ [An _]]].
  destruct (proj2 (header_announces_iff s B) (ex_intro _ t An)) as [h [r E]]. exists h. split; [exists r; exact E|].
  eapply addressed_fun; [apply header_addressed; [exact B|exists r; exact E]|exact A].
Qed.

(** Whatever is appended to a queue is addressed to it. *)
Theorem C38_wire_send : forall P oc tr w t k d w', prims_ok P -> execution P oc start tr w -> well_typed tr ->
  step P oc w t (ASend k d) w' -> bytes_ok (d_data d) -> addressed (d_data d) k.
Proof.
  intros P oc tr w t k d w' HP X T S B. destruct (C38_send_step P oc tr w t k d w' HP X T S) as [_ [_ [[h [H ->]] _]]].
  apply header_addressed; assumption.
Qed.
Print Assumptions C38_wire_send.

(** A finished call delivered the datagram to its addressee, or refused one that
    has no readable header or no registered addressee; of one without readable
    header it may have failed to print. *)
Theorem C38_wire_route : forall P oc tr w t d r, prims_ok P -> execution P oc start tr w -> well_typed tr -> public_run tr ->
  th_call (w_threads w t) = Some (CRoute d) -> th_prog (w_threads w t) = Done r -> bytes_ok (d_data d) ->
  let acts := th_acts (w_threads w t) in
  inserts acts = [] /\ removes acts = [] /\
  ((exists k, addressed (d_data d) k /\ sends acts = [(k, d)] /\ r = RUnit (Ok tt)) \/
   (exists e, sends acts = [] /\ r = RUnit (Err e) /\
     ((forall k, ~ addressed (d_data d) k) \/
      (exists k T, addressed (d_data d) k /\ looks acts = [T] /\ get T k = None))) \/
   (r = RPanic "failed printing" /\ sends acts = [] /\ (forall k, ~ addressed (d_data d) k) /\
    exists i, In (APrintFailed (LogShort i)) acts)).
Proof.
  intros P oc tr w t d r HP X T PR Ec Ed B acts. subst acts.
  destruct (C38_route_call P oc tr w t d r HP X T PR Ec Ed) as [I [R K]]. split; [exact I|]. split; [exact R|].
  destruct K as [[h [H [S E]]]|[[e [S [E K]]]|[E [S [N K]]]]].
  - left. exists (get_destination_id h). split; [apply header_addressed; assumption|]. auto.
  - right. left. exists e. split; [exact S|]. split; [exact E|]. destruct K as [N|[h [T0 [H K]]]].
    + left. intros k A. destruct (addressed_header _ _ B A) as [h [H _]]. exact (N h H).
    + right. exists (get_destination_id h), T0. split; [apply header_addressed; assumption|exact K].
  - right. right. split; [exact E|]. split; [exact S|]. split; [|exact K].
    intros k A. destruct (addressed_header _ _ B A) as [h [H _]]. exact (N h H).
Qed.
Print Assumptions C38_wire_route.

(** Datagrams addressed to an id that is not registered are refused. *)
Theorem C39_wire_refused : forall P oc tr1 w1 t d tr2 w2 r k, prims_ok P -> execution P oc start tr1 w1 ->
  get (streams (w_sock w1)) k = None -> bytes_ok (d_data d) -> addressed (d_data d) k ->
  execution P oc w1 ((t, ACall (CRoute d)) :: tr2) w2 -> well_typed (tr1 ++ (t, ACall (CRoute d)) :: tr2) ->
  public_run (tr1 ++ (t, ACall (CRoute d)) :: tr2) ->
  (forall t' s, ~ In (t', AInsert k s) tr2) -> (forall c, ~ In (t, ACall c) tr2) ->
  th_prog (w_threads w2 t) = Done r -> exists e, r = RUnit (Err e).
Proof.
  intros P oc tr1 w1 t d tr2 w2 r k HP X1 G B A X2 T PR NI NC Ed. destruct (addressed_header _ _ B A) as [h [H <-]].
  eapply C39_route_refused; eauto.
Qed.
Print Assumptions C39_wire_refused.
Example C39_wire_case : addressed (d_data short_77) (U160 0 77) /\
  exists tr1 w1 tr2 w2, execution real_prims true start tr1 w1 /\ get (streams (w_sock w1)) (U160 0 77) = None /\
    execution real_prims true w1 ((0, ACall (CRoute short_77)) :: tr2) w2 /\
    (forall t' s, ~ In (t', AInsert (U160 0 77) s) tr2) /\ (forall c, ~ In (0, ACall c) tr2) /\ idle (w_threads w2 0).
Proof.
  split.
  - exists TOneRtt, (be_bytes 8 77). split; [exact (an_short 0x40 (be_bytes 8 77) [1; 2; 3] ltac:(lia) eq_refl)|].
    split; [exact (wd_short 0x40 (be_bytes 8 77) [1; 2; 3] ltac:(lia) eq_refl)|]. split; [split; reflexivity|reflexivity].
  - destruct C39_refused_case as [tr1 [w1 [tr2 [w2 H]]]]. exists tr1, w1, tr2, w2. tauto.
Qed.
Example C38_wire_case : addressed (d_data short_77b) (U160 0 77) /\ ~ addressed (d_data short_77b) (U160 0 78) /\
  (forall k, ~ addressed [0x40; 1; 2; 3] k) /\
  (exists tr w w', execution real_prims true start tr w /\ well_typed tr /\ step real_prims true w 0 (ASend (U160 0 77) short_77b) w').
Proof.
  assert (A : addressed (d_data short_77b) (U160 0 77)).
  { exists TOneRtt, (be_bytes 8 77). split; [exact (an_short 0x7f (be_bytes 8 77) [] ltac:(lia) eq_refl)|].
    split; [exact (wd_short 0x7f (be_bytes 8 77) [] ltac:(lia) eq_refl)|]. split; [split; reflexivity|reflexivity]. }
  split; [exact A|]. split; [intros A'; pose proof (addressed_fun _ _ _ A A') as E; discriminate E|].
  split; [|exact C38_send_case].
  intros k A'. apply addressed_header in A' as [h [[r E] _]]; [vm_compute in E; discriminate E|apply bytes_ok_dec; reflexivity].
Qed.

(** ** C103: a connection is opened with the keys of the datagram that opened it *)
Theorem C103_keys_of_datagram : forall P oc tr w t key s w' pre data addr, prims_ok P ->
  execution P oc start tr w -> well_typed tr -> step P oc w t (AInsert key s) w' ->
  recvs (th_acts (w_threads w t)) = pre ++ [NetDatagram data addr] -> bytes_ok data ->
  exists d ks kc, announces (firstn (N.to_nat 4096) data) TInitial /\ wire_dcid (firstn (N.to_nat 4096) data) d /\
    (* RFC 9001 section 5.2 with the id the client chose *)
    initial_keys P true d ks /\ initial_keys P false d kc /\
    local_keys P oc (q_conn s) SpInitial ks /\ remote_keys P oc (q_conn s) SpInitial kc /\
    (forall sp, sp <> SpInitial -> forall k, ~ local_keys P oc (q_conn s) sp k /\ ~ remote_keys P oc (q_conn s) sp k) /\
    cid_enc (fst (get_dcid (q_conn s))) (snd (get_dcid (q_conn s))) d /\ get_scid (q_conn s) = Ok (key, 8) /\
    (forall sp, next_pn (borrow_pn_info (q_conn s) sp) = 0) /\ q_queue s = [].
Proof.
  intros P oc tr w t key s w' pre data addr HP X T S R B.
  pose proof (inv_reached P oc tr w HP X T) as W. pose proof (step_effect _ _ _ _ _ _ _ _ w t _ w' W S) as [c [Ec [EF _]]].
  destruct EF as [_ [_ [c0 [v [O [_ [_ ->]]]]]]].
  destruct O as [pre' [data' [addr' [h [T0 [mr [E1 [_ [[rest E3] [E4 [_ [_ E7]]]]]]]]]]]].
  rewrite R in E1. apply app_inj_tail in E1 as [_ E1]. injection E1 as <- <-.
  set (s := firstn (N.to_nat 4096) data) in *.
  assert (Bs : bytes_ok s) by (unfold s; rewrite <- (firstn_skipn (N.to_nat 4096) data) in B; apply bytes_ok_app in B; tauto).
  destruct (C101_length_and_type_partial s h rest Bs E3) as [[d D] [L [ty [A [Et _]]]]].
  rewrite E4 in Et. injection Et as <-.
  destruct (wire_dcid_header s h d Bs (ex_intro _ rest E3) D) as [[Z _]|[_ C]]; [rewrite E4 in Z; discriminate Z|].
  rewrite (L d D) in E7.
  destruct (connection_new_inv P oc true V1 _ _ c0 HP E7) as [I [_ N0]].
  destruct (ci_keys _ _ _ _ _ _ I) as [cid [kl [kr [U [K1 [K2 [KL KR]]]]]]].
  assert (L20 : len d <= 20).
  { destruct (N.le_gt_cases (len d) 20) as [Y|Y]; [exact Y|].
    destruct (u160_to_var_bytes_panic (get_destination_id h) (len d) Y) as [w0 E]. rewrite E in U. discriminate U. }
  assert (Ecid : cid = d).
  { rewrite u160_to_var_bytes_ok in U by (auto; apply C). injection U as <-. destruct C as [_ [Bd [_ V]]]. rewrite <- V.
    unfold len. rewrite Nat2N.id. apply be_bytes_be_val. exact Bd. }
  rewrite Ecid in K1, K2.
  exists d, kl, kr. cbn [q_conn q_queue].
  repeat (split; [solve [assumption]|]).
  split; [intros sp NS k; destruct (ci_none _ _ _ _ _ _ I sp NS) as [NL NR]; split; intros [x [Y _]];
    destruct sp; cbn in *; congruence|].
  split; [unfold get_dcid; cbn; rewrite (ci_dcid _ _ _ _ _ _ I); cbn; unfold cast; change (2 ^ 8) with 256; rewrite N.mod_small by lia; exact C|].
  split; [reflexivity|]. split; [intros sp; specialize (N0 sp); destruct sp; exact N0|reflexivity].
Qed.
Print Assumptions C103_keys_of_datagram.
(** The hypotheses of C46 (PropAccept.v) hold when this packet opens a connection. *)
Example C46_case : exists tr w s w' p, execution real_prims true start tr w /\ well_typed tr /\
  step real_prims true w 0 (AInsert (U160 0 77) s) w' /\ recvs (th_acts (w_threads w 0)) = [NetDatagram (client_wire ++ []) 5] /\
  header_is (firstn (N.to_nat 4096) (client_wire ++ [])) client_header /\
  snd (initial_new true [Ping] None (q_conn s)) = Ok p /\
  lh_dcid (pi_header p) = sample_id /\ lh_scid (pi_header p) = U160 0 77.
Proof.
  destruct C72_case as [tr [w [s [w' [c1 [X [T [S [_ [_ [_ [_ [_ [_ [_ [R _]]]]]]]]]]]]]]]].
  assert (HH : header_is (firstn (N.to_nat 4096) (client_wire ++ [])) client_header) by (rewrite app_nil_r; exact client_wire_header).
  destruct (C73_only_initials_open real_prims true tr w 0 _ _ w' real_prims_ok X T S) as [_ [_ [pre [data [addr [h [T0 [m [c0 [v [_ [_ [_ [_ [_ [EC [_ [_ ->]]]]]]]]]]]]]]]]]].
  destruct (first_packet _ _ _ _ c0 (U160 0 77) [Ping] EC) as [p [EP _]].
  destruct (C46_addressed_to_original_id real_prims true tr w 0 _ _ w' [] _ _ _ [Ping] None p real_prims_ok X T S R HH EP) as [_ [E1 [_ [E2 _]]]].
  eexists tr, w, _, w', p. split; [exact X|]. split; [exact T|]. split; [exact S|]. split; [exact R|]. split; [exact HH|].
  split; [exact EP|]. split; [exact E1|exact E2].
Qed.
(** A client's Initial packet opens a connection; its id is in the bytes. *)
Example C103_case : (exists tr w s w', execution real_prims true start tr w /\ well_typed tr /\
    step real_prims true w 0 (AInsert (U160 0 77) s) w' /\ recvs (th_acts (w_threads w 0)) = [NetDatagram (client_wire ++ []) 5]) /\
  bytes_ok (client_wire ++ []) /\
  wire_dcid (firstn (N.to_nat 4096) (client_wire ++ [])) (hex "8394c8f03e515708") /\ announces (firstn (N.to_nat 4096) (client_wire ++ [])) TInitial.
Proof.
  split; [destruct C72_case as [tr [w [s [w' [c1 [X [T [S H]]]]]]]]; exists tr, w, s, w'; tauto|].
  split; [apply bytes_ok_dec; reflexivity|]. replace (firstn (N.to_nat 4096) (client_wire ++ [])) with client_wire by (vm_compute; reflexivity). split.
  - exact (wd_long 192 [0; 0; 0; 1] (hex "8394c8f03e515708") (skipn 14 client_wire) ltac:(lia) eq_refl).
  - refine (an_long 192 [0; 0; 0; 1] (hex "8394c8f03e515708") [1; 2; 3; 4; 5; 6; 7; 8] (skipn 23 client_wire) TInitial _ _ _ _ _ _);
      try reflexivity; try (vm_compute; discriminate).
Qed.
