(** Properties C127 and C128: where packet numbers start, and how large a
    client's first datagrams are. *)
From Verif Require Import Base Utils Frame CipherSuite Secrets Connection Packet Constructors Histories Spec SpecPacket
  Tactics UtilsFacts FrameFacts SecretsFacts HeaderFacts PacketFacts ConnectionFacts SendFacts CryptoInst PropConn
  PropPacket PropBuilt PropSizes PropSend.
From Coq Require Import Lia ZifyN ZifyBool ZifyNat.
Open Scope N_scope.

(** ** C127: RFC 9000 section 12.3, "packet numbers in each space start at packet
    number 0". *)
Definition C127_statement : Prop := forall P oc srv d l c0 xs sp n more, prims_ok P ->
  connection_new P oc srv V1 d l = Ok c0 -> issued_in oc c0 sp xs = n :: more -> n = 0.

(** The first number asked for is 1 in every space, on every connection. *)
Theorem C127_first_is_one : forall P oc srv d l c0 xs sp, prims_ok P ->
  connection_new P oc srv V1 d l = Ok c0 -> len xs < 2 ^ 64 - 1 -> count sp xs = 0 ->
  exists b, snd (get_next_pn oc (run oc c0 xs) sp) = Ok (1, b).
Proof.
  intros P oc srv d l c0 xs sp HP E L Z.
  pose proof (C29_packet_numbers_partial P oc srv d l c0 xs (CNextPn sp) sp HP E (or_intror L)
    ltac:(destruct sp; reflexivity)) as C. cbv zeta in C. rewrite Z in C. cbn [N.add N.leb] in C.
  destruct C as [_ C]. destruct (C eq_refl) as [b [C' _]]. exists b. exact C'.
Qed.
(** 0 is never used. *)
Theorem C127_zero_never_used : forall P oc srv d l c0 xs sp, prims_ok P ->
  connection_new P oc srv V1 d l = Ok c0 -> oc = true \/ len xs < 2 ^ 64 -> ~ In 0 (issued_in oc c0 sp xs).
Proof.
  intros P oc srv d l c0 xs sp HP E L H.
  destruct (C29_issued_increasing P oc srv d l c0 xs sp HP E L) as [I _].
  assert (G : forall ns m, increasing m ns -> Forall (fun n => m < n) ns).
  { clear. induction ns as [|n ns IH]; intros m I; constructor; inversion I; subst; auto.
    eapply Forall_impl; [|apply IH; eassumption]. cbn. lia. }
  pose proof (proj1 (Forall_forall _ _) (G _ _ I) 0 H) as X. cbn in X. lia.
Qed.
Theorem C127_refuted : ~ C127_statement.
Proof.
  intros H. destruct (connection_new_ok real_prims true false sample_id 8 real_prims_ok ltac:(lia)) as [c0 E].
  assert (X : issued_in true c0 SpInitial [CNextPn SpInitial] = [1]).
  { assert (Z : (let? c := connection_new real_prims true false V1 sample_id 8 in Ok (issued_in true c SpInitial [CNextPn SpInitial])) = Ok [1]) by (vm_compute; reflexivity).
    rewrite E in Z. injection Z as ->. reflexivity. }
  specialize (H real_prims true false sample_id 8 c0 [CNextPn SpInitial] SpInitial 1 [] real_prims_ok E X). discriminate H.
Qed.
Print Assumptions C127_first_is_one.
Print Assumptions C127_zero_never_used.
Print Assumptions C127_refuted.
Example C127_case : count SpHandshake [CNextPn SpInitial; CSetScid (U160 0 9) 8; CInitial [Ping] None] = 0 /\
  (let? c := connection_new real_prims true false V1 sample_id 8 in
   let xs := [CNextPn SpInitial; CSetScid (U160 0 9) 8; CInitial [Ping] None] in
   let? (n, _) := snd (get_next_pn true (run true c xs) SpHandshake) in
   Ok (n, issued_in true c SpInitial xs)) = Ok (1, [1; 2]).
Proof. split; vm_compute; reflexivity. Qed.

(** ** C128: RFC 9000 section 14.1, "a client MUST expand the payload of all UDP
    datagrams carrying Initial packets to at least ... 1200 bytes". *)
Definition C128_statement : Prop := forall P oc d l c0 xs fs t wire, prims_ok P ->
  connection_new P oc false V1 d l = Ok c0 -> send_initial oc fs t (run oc c0 xs) = Ok wire -> 1200 <= len wire.

Lemma run_app oc xs : forall ys c, run oc c (xs ++ ys) = run oc (run oc c xs) ys.
Proof. induction xs as [|x xs IH]; intros ys c; [reflexivity|]. apply IH. Qed.

(** What is sent is exactly as long as its contents; nothing is ever added. *)
Theorem C128_as_short_as_its_frames : forall P oc d l c0 xs fs t wire pt, prims_ok P ->
  connection_new P oc false V1 d l = Ok c0 -> id_fits d l -> (forall id n, In (CSetScid id n) xs -> id_fits id n) ->
  bytes_ok (token_bytes t) -> Forall frame_wf fs -> serialize_frames fs false = Ok pt -> len pt < 2 ^ 63 ->
  send_initial oc fs t (run oc c0 xs) = Ok wire ->
  exists s sl, c_scid (run oc c0 xs) = Some (s, sl) /\
  len wire = 7 + l + sl + varint_size (len (token_bytes t)) + len (token_bytes t) +
             varint_size (4 + len pt + 16) + 4 + len pt + 16.
Proof.
  intros P oc d l c0 xs fs t wire pt HP E ID SI BT FW Ept Lpt H. unfold send_initial in H.
  destruct (initial_new oc fs t (run oc c0 xs)) as [c' r] eqn:EN. destruct r as [p| | |]; cbn [bind] in H; try discriminate H.
  destruct (connection_new_inv _ _ _ _ _ _ _ HP E) as [I0 [S0 _]].
  eapply (C84_initial_size P oc false d l (run oc c0 xs) c' fs t p pt wire); eauto.
  - exists c0, xs. auto.
  - exists c0, (xs ++ [CInitial fs t]). split; [exact E|]. rewrite run_app. cbn [run do_call]. rewrite EN. reflexivity.
  - apply scid_of_history; auto. unfold scid_fits. rewrite S0. exact I.
  - rewrite EN. reflexivity.
Qed.
Print Assumptions C128_as_short_as_its_frames.

Lemma serialize_app fs gs : forall n m k i j a b, serialize_frames_loop false n i fs = Ok a -> serialize_frames_loop false m j gs = Ok b ->
  exists i', serialize_frames_loop false k i' (fs ++ gs) = Ok (a ++ b) /\ forall i'', serialize_frames_loop false k i'' (fs ++ gs) = Ok (a ++ b).
Proof.
  assert (SAME : forall fs n m i j, serialize_frames_loop false n i fs = serialize_frames_loop false m j fs).
  { clear. induction fs as [|f fs IH]; intros n m i j; [reflexivity|]. cbn [serialize_frames_loop andb].
    rewrite (IH n m (i + 1) (j + 1)). reflexivity. }
  assert (ALL : forall fs n m k i j a b, serialize_frames_loop false n i fs = Ok a -> serialize_frames_loop false m j gs = Ok b ->
    serialize_frames_loop false k i (fs ++ gs) = Ok (a ++ b)).
  { clear -SAME. induction fs as [|f fs IH]; intros n m k i j a b A B; cbn [app].
    - injection A as <-. rewrite (SAME gs k m i j). exact B.
    - cbn [serialize_frames_loop andb] in *. destruct (frame_to_bytes f false) as [x| | |]; cbn [bind] in *; try discriminate A.
      destruct (serialize_frames_loop false n (i + 1) fs) as [y| | |] eqn:Y; cbn [bind] in A; try discriminate A. injection A as <-.
      rewrite (IH n m k (i + 1) j y b Y B). cbn [bind]. rewrite app_assoc. reflexivity. }
  intros n m k i j a b A B. exists i. split; [eapply ALL; eauto|]. intros i''. rewrite (SAME _ k k i'' i). eapply ALL; eauto.
Qed.
Lemma padding_bytes n : forall m i, serialize_frames_loop false m i (repeat Padding n) = Ok (repeat 0 n).
Proof. induction n as [|n IH]; intros m i; [reflexivity|]. cbn [repeat serialize_frames_loop andb frame_to_bytes]. rewrite IH. reflexivity. Qed.

(** The caller can: with PADDING frames behind any frames that leave room, the
    packet has exactly 1200 bytes. *)
Theorem C128_padded_by_caller : forall P oc d l c0 xs fs t pt, prims_ok P ->
  connection_new P oc false V1 d l = Ok c0 -> len xs < 2 ^ 64 - 1 ->
  id_fits d l -> (forall id n, In (CSetScid id n) xs -> id_fits id n) ->
  (exists id n, In (CSetScid id n) xs) -> count SpInitial xs < 2 ^ 32 - 1 ->
  bytes_ok (token_bytes t) -> Forall frame_wf fs -> serialize_frames fs false = Ok pt ->
  len (token_bytes t) + len pt <= 1000 ->
  exists n wire, send_initial oc (fs ++ repeat Padding n) t (run oc c0 xs) = Ok wire /\ len wire = 1200.
Proof.
  intros P oc d l c0 xs fs t pt HP E LX ID SI HS CN BT FW Ept Sz.
  assert (SC : exists s sl, c_scid (run oc c0 xs) = Some (s, sl) /\ sl <= 20).
  { destruct (connection_new_inv _ _ _ _ _ _ _ HP E) as [I0 [S0 _]].
    assert (F : scid_fits (run oc c0 xs)) by (apply scid_of_history; auto; unfold scid_fits; rewrite S0; exact I).
    assert (N : c_scid (run oc c0 xs) <> None) by (apply scid_history; right; exact HS).
    unfold scid_fits in F. destruct (c_scid (run oc c0 xs)) as [[s sl]|]; [|contradiction]. exists s, sl. split; [reflexivity|]. apply F. }
  destruct SC as [s [sl [Es Ls]]]. assert (Ll : l <= 20) by apply ID.
  assert (TS : varint_size (len (token_bytes t)) <= 2).
  { unfold varint_size. destruct (N.leb_spec (len (token_bytes t)) 63); [lia|]. destruct (N.leb_spec (len (token_bytes t)) 16383); lia. }
  set (A := 7 + l + sl + varint_size (len (token_bytes t)) + len (token_bytes t)).
  assert (HA : A + len pt <= 1049) by (unfold A; lia).
  set (n := N.to_nat (1178 - A - len pt)).
  assert (Lq : len (pt ++ repeat 0 n) = 1178 - A) by (rewrite len_app; unfold len at 2; rewrite repeat_length; unfold n; lia).
  assert (Eq : serialize_frames (fs ++ repeat Padding n) false = Ok (pt ++ repeat 0 n)).
  { unfold serialize_frames in *. destruct (serialize_app fs (repeat Padding n) _ 0 (len (fs ++ repeat Padding n)) _ 0 _ _ Ept (padding_bytes n 0 0)) as [i [_ X]]. apply X. }
  assert (FW' : Forall frame_wf (fs ++ repeat Padding n)).
  { apply Forall_app. split; [exact FW|]. apply Forall_forall. intros f H. apply repeat_spec in H as ->. exact I. }
  destruct (C107_initial_sent P oc false d l c0 xs (fs ++ repeat Padding n) t HP E LX ID SI) as [[_ [wire W]]|[N _]].
  - eapply Forall_impl; [|exact FW']. intros f H. right. exact H.
  - exact BT.
  - pows. lia.
  - intros q Q. rewrite Eq in Q. injection Q as <-. rewrite Lq. pows. lia.
  - exists n, wire. split; [exact W|].
    destruct (C128_as_short_as_its_frames P oc d l c0 xs _ t wire _ HP E ID SI BT FW' Eq ltac:(rewrite Lq; pows; lia) W) as [s' [sl' [Es' Lw]]].
    rewrite Es in Es'. injection Es' as <- <-. rewrite Lq in Lw. rewrite Lw.
    assert (V : varint_size (4 + (1178 - A) + 16) = 2).
    { unfold varint_size. destruct (N.leb_spec (4 + (1178 - A) + 16) 63); [lia|]. destruct (N.leb_spec (4 + (1178 - A) + 16) 16383); lia. }
    rewrite V. unfold A in *. lia.
  - exfalso. apply N. split; [exact HS|]. split; [exact CN|]. eapply Forall_impl; [|exact FW']. apply wf_writable.
Qed.
Print Assumptions C128_padded_by_caller.

Theorem C128_refuted : ~ C128_statement.
Proof.
  intros H. destruct (connection_new_ok real_prims true false sample_id 8 real_prims_ok ltac:(lia)) as [c0 E].
  assert (X : exists wire, send_initial true [Ping] None (run true c0 [CSetScid (U160 0 9) 8]) = Ok wire /\ len wire = 46).
  { assert (Z : exists wire, (let? c := connection_new real_prims true false V1 sample_id 8 in send_initial true [Ping] None (run true c [CSetScid (U160 0 9) 8])) = Ok wire /\ len wire = 46).
    { eexists. split; [vm_compute; reflexivity|]. vm_compute. reflexivity. }
    rewrite E in Z. exact Z. }
  destruct X as [wire [W L]]. pose proof (H real_prims true sample_id 8 c0 _ _ _ wire real_prims_ok E W) as G. rewrite L in G. lia.
Qed.
Print Assumptions C128_refuted.

Example C128_case : Forall frame_wf sample_payload /\ bytes_ok (token_bytes (Some [9; 9])) /\ id_fits sample_id 8 /\
  (let? c := connection_new real_prims true false V1 sample_id 8 in
   let c := run true c [CSetScid (U160 0 9) 8] in
   let? a := send_initial true sample_payload (Some [9; 9]) c in
   let? b := send_initial true (sample_payload ++ repeat Padding 1144) (Some [9; 9]) c in Ok (len a, len b)) = Ok (55, 1200).
Proof.
  split; [repeat constructor; cbn; unfold v62; try lia; try (vm_compute; (reflexivity || discriminate))|].
  split; [apply bytes_ok_dec; reflexivity|]. split; [repeat split; vm_compute; (reflexivity || discriminate)|].
  vm_compute. reflexivity.
Qed.
