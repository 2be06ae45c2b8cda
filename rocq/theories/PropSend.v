(** C107: when sending works. *)
From Verif Require Import Base Utils Frame Constructors CipherSuite Secrets Connection Packet Histories Spec SpecPacket
  Tactics UtilsFacts ParserFacts FrameFacts SecretsFacts HeaderFacts PacketFacts ConnectionFacts
  CryptoInst SendFacts PropPacket PropConn PropBuilt.

(** A frame made by a constructor, or a well-formed one. *)
Definition at_hand (f : frame) : Prop := built f \/ frame_wf f.
(** Every number in it has at most 62 bits. *)
Definition writable (f : frame) : Prop := Forall v62 (numbers false f).

Lemma wf_writable f : frame_wf f -> writable f.
Proof.
  destruct f as [| |x|x|x|x|x|x|x|x|x|x|x|x|x|x|x|x|x|]; cbn; intros W; unfold writable; cbn [numbers];
    try destruct (cc_frame_type x);
    repeat match goal with H : _ /\ _ |- _ => destruct H end;
    repeat (constructor; [first [assumption|congruence]|]); try apply Forall_nil.
Qed.
Lemma built_bytes f bs : built f -> frame_to_bytes f false = Ok bs -> bytes_ok bs.
Proof.
  intros B E. destruct (C88_refused f false B) as [[F _]|[_ E']]; [|congruence].
  assert (D : id_fits_constructor f \/ exists a b cid t, f = NewConnectionId (new_connection_id_new a b cid t) /\ cid_ok cid /\ t < 2 ^ 128).
  { destruct B; try (left; exact I). right. exists a, b, cid, t. auto. }
  destruct D as [I|[a [b [cid [t [-> [C T]]]]]]].
  - destruct (serialize_frames_enc [f] false) as [pt [Ept Fpt]]; [constructor; [apply built_wf; auto|constructor]|].
    apply frames_enc_bytes_ok in Fpt. unfold serialize_frames in Ept. cbn [serialize_frames_loop] in Ept.
    cbn [andb] in Ept. rewrite E in Ept. cbn [bind] in Ept. rewrite app_nil_r in Ept. congruence.
  - cbn [frame_to_bytes] in E. unfold new_connection_id_to_bytes, new_connection_id_new in E.
    cbn [nc_sequence_number nc_retire_prior_to nc_length nc_connection_id nc_stateless_reset_token] in E.
    rewrite u160_to_var_bytes_ok in E by (auto; lia).
    destruct (encode_var_int a) as [x| | |] eqn:Ea; cbn [bind] in E; try discriminate E.
    destruct (encode_var_int b) as [y| | |] eqn:Eb; cbn [bind] in E; try discriminate E.
    assert (bs = [0x18] ++ x ++ y ++ [8] ++ be_bytes (N.to_nat 8) (cid_val cid) ++ be_bytes 16 t) as -> by congruence.
    apply encode_var_int_inv in Ea as [_ Va]. apply encode_var_int_inv in Eb as [_ Vb].
    apply bytes_ok_app. split; [apply bytes_ok_dec; reflexivity|]. apply bytes_ok_app. split; [eapply varint_enc_bytes_ok; eauto|].
    apply bytes_ok_app. split; [eapply varint_enc_bytes_ok; eauto|]. apply bytes_ok_app. split; [repeat constructor; lia|].
    apply bytes_ok_app. split; apply be_bytes_ok.
Qed.

Lemma frame_written f : at_hand f ->
  (writable f /\ exists bs, frame_to_bytes f false = Ok bs /\ bytes_ok bs) \/
  (~ writable f /\ exists e, frame_to_bytes f false = Err e).
Proof.
  intros [B|W].
  - destruct (C88_refused f false B) as [[F [bs E]]|[F E]]; [left|right; eauto].
    split; auto. exists bs. split; auto. eapply built_bytes; eauto.
  - left. split; [apply wf_writable; auto|]. destruct (frame_to_bytes_ok false f W) as [bs [E H]].
    exists bs. split; auto. eapply frame_enc_bytes_ok; eauto.
Qed.
Lemma frames_written fs : Forall at_hand fs ->
  (Forall writable fs /\ exists bs, serialize_frames fs false = Ok bs /\ bytes_ok bs) \/
  (~ Forall writable fs /\ exists e, serialize_frames fs false = Err e).
Proof.
  intros H. unfold serialize_frames. generalize (len fs), 0.
  induction H as [|f fs Hf _ IH]; intros n i; cbn [serialize_frames_loop andb].
  - left. split; [constructor|]. exists []. split; [reflexivity|constructor].
  - destruct (frame_written f Hf) as [[W [b [-> B]]]|[W [e ->]]]; cbn [bind].
    + destruct (IH n (i + 1)) as [[F [bs [-> B']]]|[F [e ->]]]; cbn [bind].
      * left. split; [constructor; auto|]. eexists. split; [reflexivity|]. apply bytes_ok_app; auto.
      * right. split; [|eauto]. intros X. inversion X; auto.
    + right. split; [|eauto]. intros X. inversion X; auto.
Qed.

Lemma scid_history oc xs : forall c, c_scid (run oc c xs) <> None <->
  c_scid c <> None \/ exists id n, In (CSetScid id n) xs.
Proof.
  induction xs as [|x xs IH]; intros c; cbn [run].
  - split; [auto|]. intros [H|[id [n []]]]; auto.
  - rewrite IH. destruct x as [id n|sp|fs t|fs].
    + split; intros _; [right; exists id, n; left; reflexivity|left; discriminate].
    + assert (S : c_scid (do_call oc c (CNextPn sp)) = c_scid c).
      { cbn [do_call]. destruct (get_next_pn oc c sp) as [c' r] eqn:E. apply (get_next_pn_step _ _ _ _ _ E). }
      rewrite S. split; (intros [H|[id [n H]]]; [left; auto|right; exists id, n]); [right; auto|destruct H; [discriminate|auto]].
    + assert (S : c_scid (do_call oc c (CInitial fs t)) = c_scid c).
      { rewrite (do_call_pn oc c _ SpInitial) by eauto 6.
        destruct (get_next_pn oc c SpInitial) as [c' r] eqn:E. apply (get_next_pn_step _ _ _ _ _ E). }
      rewrite S. split; (intros [H|[id [n H]]]; [left; auto|right; exists id, n]); [right; auto|destruct H; [discriminate|auto]].
    + assert (S : c_scid (do_call oc c (CHandshake fs)) = c_scid c).
      { rewrite (do_call_pn oc c _ SpHandshake) by eauto 6.
        destruct (get_next_pn oc c SpHandshake) as [c' r] eqn:E. apply (get_next_pn_step _ _ _ _ _ E). }
      rewrite S. split; (intros [H|[id [n H]]]; [left; auto|right; exists id, n]); [right; auto|destruct H; [discriminate|auto]].
Qed.

Lemma scid_of_history oc xs : forall c, scid_fits c -> (forall id n, In (CSetScid id n) xs -> id_fits id n) ->
  scid_fits (run oc c xs).
Proof.
  induction xs as [|x xs IH]; intros c S H; cbn [run]; [exact S|].
  apply IH; [|intros id n X; apply H; right; exact X].
  destruct x as [id n|sp|fs t|fs]; [apply (H id n); left; reflexivity| | |]; unfold scid_fits.
  - cbn [do_call]. destruct (get_next_pn oc c sp) as [c' r] eqn:E.
    destruct (get_next_pn_step _ _ _ _ _ E) as [_ [X _]]. cbn [fst]. rewrite X. exact S.
  - rewrite (do_call_pn oc c _ SpInitial) by eauto 6. destruct (get_next_pn oc c SpInitial) as [c' r] eqn:E.
    destruct (get_next_pn_step _ _ _ _ _ E) as [_ [X _]]. cbn [fst]. rewrite X. exact S.
  - rewrite (do_call_pn oc c _ SpHandshake) by eauto 6. destruct (get_next_pn oc c SpHandshake) as [c' r] eqn:E.
    destruct (get_next_pn_step _ _ _ _ _ E) as [_ [X _]]. cbn [fst]. rewrite X. exact S.
Qed.
Lemma count_le sp xs : count sp xs <= len xs.
Proof. induction xs as [|y ys IH]; cbn [count]; [unfold len; lia|]. rewrite len_cons. destruct (touches y sp); lia. Qed.

(** Building an Initial packet and writing it, on a connection after any calls. *)
Definition send_initial (oc : bool) (fs : list frame) (t : option (list N)) (c : connection) : outcome (list N) :=
  let '(c, r) := initial_new oc fs t c in
  let? p := r in initial_serialize oc p c.
Definition send_handshake (oc : bool) (fs : list frame) (c : connection) : outcome (list N) :=
  let '(c, r) := handshake_new oc fs c in
  let? p := r in handshake_serialize oc p c.

Lemma built_or_refused {A} oc c sp (k : connection -> N -> list N -> long_header -> outcome A) b c' r :
  get_next_pn oc c sp = (c', r) -> largest_local_ack (borrow_pn_info c sp) = None ->
  next_pn (borrow_pn_info c sp) < 2 ^ 64 - 1 ->
  let m := let? (pn, pnb) := r in
           let pn_length := cast 8 (len pnb) in
           if negb ((0 <? pn_length) && (pn_length <=? 4)) then Err (InternalError "invalid truncated_pn")
           else let? h := long_from_connection c' (b (pn_length - 1)) in k c' pn pnb h in
  (c_scid c <> None /\ next_pn (borrow_pn_info c sp) < 0xffffffff /\
   exists h, lh_protected h = false /\
     m = k c' (next_pn (borrow_pn_info c sp) + 1) (be_bytes 4 (next_pn (borrow_pn_info c sp) + 1)) h) \/
  (~ (c_scid c <> None /\ next_pn (borrow_pn_info c sp) < 0xffffffff) /\ exists e, m = Err e).
Proof.
  intros E LA NX m. pose proof (get_next_pn_no_ack oc c sp c' r E LA ltac:(lia)) as G. cbv zeta in G.
  destruct (N.ltb_spec (next_pn (borrow_pn_info c sp) + 1) (2 ^ 64)); [|lia]. destruct G as [_ G].
  destruct (N.ltb_spec 0xffffffff (next_pn (borrow_pn_info c sp) + 1)).
  - right. split; [lia|]. subst m r. cbn [bind]. eauto.
  - subst m r. cbn [bind]. rewrite be_bytes_len. cbn [negb andb]. change (cast 8 (N.of_nat 4)) with 4. cbn [negb andb].
    change (0 <? 4) with true. change (4 <=? 4) with true. cbn [negb andb].
    destruct (get_next_pn_step _ _ _ _ _ E) as [D [S [V _]]].
    unfold long_from_connection. destruct (get_dcid c') as [x y]. unfold get_scid. rewrite S.
    destruct (c_scid c) as [[s sl]|]; cbn [ok_or bind].
    + left. split; [discriminate|]. split; [lia|]. eexists. split; [|reflexivity]. reflexivity.
    + right. split; [intros [X _]; auto|eauto].
Qed.

(** ** C107: an Initial packet is sent exactly when the connection has a source
    id, a packet number is left and every number in the frames can be written;
    otherwise an error is returned. *)
Theorem C107_initial_sent : forall P oc srv d l c0 xs fs t,
  prims_ok P -> connection_new P oc srv V1 d l = Ok c0 -> len xs < 2 ^ 64 - 1 ->
  id_fits d l -> (forall id n, In (CSetScid id n) xs -> id_fits id n) ->
  Forall at_hand fs -> bytes_ok (token_bytes t) ->
  (* less than 2 GB *)
  len (token_bytes t) + 100 < 2 ^ 31 -> (forall pt, serialize_frames fs false = Ok pt -> len pt + 16 < 2 ^ 31) ->
  let possible := (exists id n, In (CSetScid id n) xs) /\ count SpInitial xs < 2 ^ 32 - 1 /\ Forall writable fs in
  (possible /\ exists wire, send_initial oc fs t (run oc c0 xs) = Ok wire) \/
  (~ possible /\ exists e, send_initial oc fs t (run oc c0 xs) = Err e).
Proof.
  intros P oc srv d l c0 xs fs t HP N0 LX ID SI FH BT LT Sz possible.
  destruct (connection_new_inv _ _ _ _ _ _ _ HP N0) as [I0 [S0 Z0]].
  set (c := run oc c0 xs) in *.
  pose proof (run_inv P oc srv d l xs c0 I0) as I. fold c in I.
  pose proof (count_le SpInitial xs) as CL.
  pose proof (run_next P oc srv d l SpInitial xs c0 I0) as [R1 _]. rewrite Z0, N.add_0_l in R1. fold c in R1.
  specialize (R1 ltac:(lia)).
  assert (SC : c_scid c <> None <-> exists id n, In (CSetScid id n) xs).
  { unfold c. rewrite scid_history, S0. split; [intros [[]|H]; auto|auto]. }
  assert (SF : scid_fits c) by (apply (scid_of_history oc xs c0); [unfold scid_fits; rewrite S0; exact Logic.I|exact SI]).
  assert (RC : reachable P oc srv d l c) by (exists c0, xs; auto).
  destruct (get_next_pn oc c SpInitial) as [c' r] eqn:G.
  pose proof (built_or_refused oc c SpInitial
    (fun _ pn pnb h => Ok (PacketInitial h (token_bytes t) pn pnb fs)) initial_new_header_byte c' r G
    (proj2 (ci_acks _ _ _ _ _ _ I SpInitial)) ltac:(lia)) as B.
  cbv beta zeta in B. rewrite R1 in B.
  assert (EN : initial_new oc fs t c = (c', let? (pn, pnb) := r in
           let pn_length := cast 8 (len pnb) in
           if negb ((0 <? pn_length) && (pn_length <=? 4)) then Err (InternalError "invalid truncated_pn")
           else let? h := long_from_connection c' (initial_new_header_byte (pn_length - 1)) in
                Ok (PacketInitial h (token_bytes t) pn pnb fs))).
  { unfold initial_new. rewrite G. reflexivity. }
  cbv zeta in EN. unfold send_initial. rewrite EN. cbn iota beta.
  change (2 ^ 32 - 1) with 0xffffffff in *.
  destruct B as [[B1 [B2 [h [Uh B3]]]]|[B1 [e B3]]]; rewrite B3 in *; cbn [bind].
  2:{ right. split; [|eauto]. intros [X [Y _]]. apply B1. split; [apply SC; auto|auto]. }
  set (p := PacketInitial h (token_bytes t) (count SpInitial xs + 1) (be_bytes 4 (count SpInitial xs + 1)) fs) in *.
  destruct (built_initial P oc srv d l c fs t p HP RC ID SF) as [HR [PF [Lp [L4 [Ef [Et _]]]]]]; [rewrite EN; reflexivity|].
  destruct (frames_written fs FH) as [[W [pt [Ept Bpt]]]|[W [e Ept]]].
  - left. split; [split; [apply SC; auto|auto]|].
    pose proof (get_next_pn_inv P oc srv d l c SpInitial I) as I'. rewrite G in I'. cbn [fst] in I'.
    destruct (ci_keys _ _ _ _ _ _ I') as [cid [kl [kr [_ [_ [_ [K _]]]]]]].
    apply (initial_ser_ok P oc c' kl p pt HP K HR PF); auto; try (pows; lia).
  - right. split; [intros [_ [_ X]]; auto|]. exists e. unfold initial_serialize. rewrite Ef, Ept. reflexivity.
Qed.
Print Assumptions C107_initial_sent.

(** The same for Handshake packets, once there are keys. *)
Theorem C107_handshake_sent : forall P oc c k d l fs,
  prims_ok P -> local_keys P oc c SpHandshake k ->
  largest_local_ack (borrow_pn_info c SpHandshake) = None -> next_pn (borrow_pn_info c SpHandshake) < 2 ^ 64 - 1 ->
  c_dcid c = (d, l) -> id_fits d l -> scid_fits c -> Forall at_hand fs ->
  (forall pt, serialize_frames fs false = Ok pt -> len pt + 16 < 2 ^ 31) ->
  let possible := c_scid c <> None /\ next_pn (borrow_pn_info c SpHandshake) < 2 ^ 32 - 1 /\ Forall writable fs in
  (possible /\ exists wire, send_handshake oc fs c = Ok wire) \/
  (~ possible /\ exists e, send_handshake oc fs c = Err e).
Proof.
  intros P oc c k d l fs HP K LA NX DC ID SF FH Sz possible.
  destruct (get_next_pn oc c SpHandshake) as [c' r] eqn:G.
  pose proof (built_or_refused oc c SpHandshake
    (fun _ pn pnb h => Ok (PacketHandshake h pnb pn fs)) handshake_new_header_byte c' r G LA NX) as B.
  cbv beta zeta in B.
  assert (EN : handshake_new oc fs c = (c', let? (pn, pnb) := r in
           let pn_length := cast 8 (len pnb) in
           if negb ((0 <? pn_length) && (pn_length <=? 4)) then Err (InternalError "invalid truncated_pn")
           else let? h := long_from_connection c' (handshake_new_header_byte (pn_length - 1)) in
                Ok (PacketHandshake h pnb pn fs))).
  { unfold handshake_new. rewrite G. reflexivity. }
  cbv zeta in EN. unfold send_handshake. rewrite EN. cbn iota beta.
  change (2 ^ 32 - 1) with 0xffffffff in *.
  destruct B as [[B1 [B2 [h [Uh B3]]]]|[B1 [e B3]]]; rewrite B3 in *; cbn [bind].
  2:{ right. split; [|eauto]. intros [X [Y _]]. apply B1. auto. }
  set (p := PacketHandshake h (be_bytes 4 (next_pn (borrow_pn_info c SpHandshake) + 1)) (next_pn (borrow_pn_info c SpHandshake) + 1) fs) in *.
  destruct ID as [D1 [D2 D3]].
  destruct (handshake_new_inv' oc c fs c' p d l LA ltac:(lia) DC D2 EN) as [s [sl [Es [Eh [Lp [Eb Ef]]]]]].
  unfold scid_fits in SF. rewrite Es in SF. destruct SF as [S1 [S2 S3]]. rewrite (fits_cast sl S2) in Eh.
  assert (HR : header_ready (ph_header p) (ph_pn_bytes p) 2)
    by (rewrite Eh, Eb; apply built_header_ready; auto; lia).
  assert (PF : pn_field (ph_pn p) (ph_pn_bytes p)) by (rewrite Eb; apply pn_field_4; auto).
  destruct (frames_written fs FH) as [[W [pt [Ept Bpt]]]|[W [e Ept]]].
  - left. split; [split; auto|].
    assert (K' : local_keys P oc c' SpHandshake k).
    { destruct (get_next_pn_step _ _ _ _ _ G) as [_ [_ [_ [_ [_ [_ [X _]]]]]]]. unfold local_keys in *. rewrite X. exact K. }
    apply (handshake_ser_ok P oc c' k p pt HP K' HR PF); auto; try (pows; lia).
    rewrite Eb, be_bytes_len. lia.
  - right. split; [intros [_ [_ X]]; auto|]. exists e. unfold handshake_serialize. rewrite Ef, Ept. reflexivity.
Qed.
Print Assumptions C107_handshake_sent.

(** On a connection of the library there are none (C28), and that is an error. *)
Theorem C107_handshake_without_keys : forall P oc srv d l c fs,
  prims_ok P -> reachable P oc srv d l c -> next_pn (borrow_pn_info c SpHandshake) < 2 ^ 64 - 1 ->
  Forall at_hand fs -> exists e, send_handshake oc fs c = Err e.
Proof.
  intros P oc srv d l c fs HP R NX FH. pose proof (reachable_inv _ _ _ _ _ _ HP R) as I.
  destruct (get_next_pn oc c SpHandshake) as [c' r] eqn:G.
  pose proof (built_or_refused oc c SpHandshake
    (fun _ pn pnb h => Ok (PacketHandshake h pnb pn fs)) handshake_new_header_byte c' r G
    (proj2 (ci_acks _ _ _ _ _ _ I SpHandshake)) NX) as B.
  cbv beta zeta in B. unfold send_handshake, handshake_new. rewrite G. cbv zeta. cbn [validate_payload bind].
  destruct B as [[B1 [B2 [h [Uh B3]]]]|[B1 [e B3]]]; rewrite B3; cbn [bind]; [|eauto].
  unfold handshake_serialize. cbn [ph_payload ph_header ph_pn_bytes ph_pn].
  destruct (frames_written fs FH) as [[W [pt [Ept Bpt]]]|[W [e Ept]]]; rewrite Ept; cbn [bind]; [|eauto].
  unfold long_packet_number_length. rewrite Uh. cbn [bind].
  destruct (get_next_pn_step _ _ _ _ _ G) as [_ [_ [_ [_ [_ [_ [X _]]]]]]].
  unfold get_local_protected_payload_len, borrow_local_tls_secrets. rewrite X.
  rewrite (proj1 (ci_none _ _ _ _ _ _ I SpHandshake ltac:(discriminate))). cbn [ok_or bind]. eauto.
Qed.
Print Assumptions C107_handshake_without_keys.

Example C107_case :
  Forall at_hand [Ping; MaxData (max_data_new (2 ^ 62))] /\ ~ Forall writable [Ping; MaxData (max_data_new (2 ^ 62))] /\
  Forall at_hand sample_payload /\ Forall writable sample_payload /\
  (let? c := connection_new real_prims true false V1 sample_id 8 in
   let ok m := match m with Ok w => Ok (0 <? len w) | Err _ => Ok false | Panic w => Panic w | Diverge => Diverge end in
   let c' := run true c [CNextPn SpInitial; CSetScid (U160 0 9) 8] in
   let? a := ok (send_initial true sample_payload None c) in
   let? b := ok (send_initial true sample_payload (Some [1; 2]) c') in
   let? x := ok (send_initial true [Ping; MaxData (max_data_new (2 ^ 62))] None c') in
   let? h := ok (send_handshake true sample_payload c') in
   Ok (a, b, x, h)) = Ok (false, true, false, false).
Proof.
  split; [repeat constructor; left; constructor; unfold u64; pows; lia|].
  split. { intros X. inversion X as [|? ? _ Y]. inversion Y as [|? ? Z _]. inversion Z as [|? ? V _].
    vm_compute in V. discriminate V. }
  split; [repeat constructor; right; cbn; unfold v62; repeat split; try (pows; lia); repeat constructor; lia|].
  split; [|vm_compute; reflexivity].
  repeat constructor; cbn; unfold v62; pows; lia.
Qed.
