(** C132, C133, C134: which keys packets are protected with. *)
From Verif Require Import Base Utils Frame CipherSuite Secrets Connection Packet Histories Spec SpecPacket
  Tactics UtilsFacts ParserFacts FrameFacts SecretsFacts HeaderFacts PacketFacts ConnectionFacts SendFacts ProtectedInv
  CryptoInst PropPacket PropConn PropProtected PropBuilt PropSend PropStable.

(** ** C132: 0-RTT and 1-RTT packets have keys of their own (RFC 9001 section 5.1).

    Full statement: no connection reads a 0-RTT packet and a 1-RTT packet that
    were protected with the same keys. *)
Definition C132_statement : Prop := forall P oc c k p pt w p' pt' w',
  prims_ok P -> zero_rtt_wire P k p pt w -> one_rtt_wire P k p' pt' w' ->
  decode_next_packet oc c w = Ok (PZeroRtt p, []) -> decode_next_packet oc c w' <> Ok (POneRtt p', []).

(** Every connection with keys for application data reads packets of both kinds
    with them. *)
Theorem C132_same_keys : forall P oc c k p pt w p' pt' w',
  prims_ok P -> remote_keys P oc c SpApplication k -> no_remote_ack c SpApplication ->
  zero_rtt_wire P k p pt w -> pz_pn p < 256 ^ len (pz_pn_bytes p) -> len (pz_pn_bytes p) = 4 ->
  deserialize_frames oc pt = Ok (pz_payload p) ->
  one_rtt_wire P k p' pt' w' -> po_pn p' < 256 ^ len (po_pn_bytes p') -> len (po_pn_bytes p') = 4 ->
  deserialize_frames oc pt' = Ok (po_payload p') ->
  decode_next_packet oc c w = Ok (PZeroRtt p, []) /\ decode_next_packet oc c w' = Ok (POneRtt p', []).
Proof.
  intros P oc c k p pt w p' pt' w' HP K NA W N L D W' N' L' D'. split.
  - rewrite <- (app_nil_r w). eapply C61_zero_rtt_partial; eauto.
  - eapply C61_one_rtt_partial; eauto.
Qed.
Print Assumptions C132_same_keys.

(** A 1-RTT packet with the given first byte, and a 0-RTT packet. *)
Lemma one_rtt_exists k b : keys_ok k -> b < 128 -> N.land b 3 = 3 -> exists p w,
  one_rtt_wire real_prims k p [1; 1; 1] w /\ po_pn p < 256 ^ len (po_pn_bytes p) /\ len (po_pn_bytes p) = 4 /\
  deserialize_frames true [1; 1; 1] = Ok (po_payload p) /\ sh_byte (po_header p) = b.
Proof.
  intros KO B M.
  assert (ID : id_fits sample_id 8) by (repeat split; vm_compute; (reflexivity || discriminate)).
  destruct ID as [D1 [D2 D3]]. destruct (cid_enc_exists sample_id 8) as [db Hd]; auto.
  assert (Ld : len db = 8) by apply Hd.
  destruct (protected_exists real_prims k 0x1f b db [0; 0; 0; 7] 7 [1; 1; 1] real_prims_ok KO) as [w W].
  { split; [vm_compute; split; discriminate|]. split; [repeat constructor|reflexivity]. }
  { reflexivity. }
  { rewrite M. reflexivity. }
  { repeat constructor. }
  { rewrite Ld. reflexivity. }
  { reflexivity. }
  { discriminate. }
  exists (PacketOneRtt (ShortHeader b sample_id false) [0; 0; 0; 7] 7 [Ping; Ping; Ping]), w.
  split; [|repeat split; auto]. exists db. cbn [po_header sh_byte sh_protected sh_dcid po_pn_bytes po_pn].
  split; [exact B|]. split; [reflexivity|]. split; [exact Hd|]. split; [repeat constructor|exact W].
Qed.
Lemma zero_rtt_exists k : keys_ok k -> exists p w,
  zero_rtt_wire real_prims k p [1; 1; 1] w /\ pz_pn p < 256 ^ len (pz_pn_bytes p) /\ len (pz_pn_bytes p) = 4 /\
  deserialize_frames true [1; 1; 1] = Ok (pz_payload p).
Proof.
  intros KO.
  assert (ID : id_fits sample_id 8) by (repeat split; vm_compute; (reflexivity || discriminate)).
  destruct ID as [D1 [D2 D3]]. destruct (cid_enc_exists sample_id 8) as [db Hd]; auto.
  set (h := LongHeader 0xd3 1 8 sample_id 8 sample_id None false).
  set (fields := be_bytes 4 1 ++ 8 :: db ++ 8 :: db).
  assert (HF : long_fields h fields).
  { exists (be_bytes 4 1), db, db. cbn. split; [apply (fixed_enc_be 4); reflexivity|]. auto. }
  pose proof (long_fields_len _ _ HF) as LF.
  destruct (protected_exists real_prims k 0x0f 0xd3 (fields ++ [23]) [0; 0; 0; 7] 7 [1; 1; 1] real_prims_ok KO) as [w W].
  { split; [vm_compute; split; discriminate|]. split; [repeat constructor|reflexivity]. }
  { reflexivity. }
  { reflexivity. }
  { repeat constructor. }
  { rewrite len_app. change (len [23]) with 1. pows. lia. }
  { reflexivity. }
  { discriminate. }
  exists (PacketZeroRtt h 23 [0; 0; 0; 7] 7 [Ping; Ping; Ping]), w.
  split; [|repeat split; auto]. exists fields, [23].
  cbn [pz_header pz_pn pz_pn_bytes pz_payload pz_length h lh_byte lh_version lh_vn lh_protected].
  split; [reflexivity|]. split; [reflexivity|]. split; [discriminate|]. split; [reflexivity|]. split; [reflexivity|].
  split; [exact HF|]. split; [reflexivity|]. split; [apply one_byte; reflexivity|]. split; [repeat constructor|]. exact W.
Qed.

Theorem C132_refuted : ~ C132_statement.
Proof.
  intros H. destruct all_keys as [c0 [k [_ [K [_ [NA KO]]]]]].
  destruct (zero_rtt_exists k KO) as [p [w [W [N [L D]]]]].
  destruct (one_rtt_exists k 0x43 KO ltac:(reflexivity) ltac:(reflexivity)) as [p' [w' [W' [N' [L' [D' _]]]]]].
  destruct (C132_same_keys _ _ _ _ _ _ _ _ _ _ real_prims_ok K NA W N L D W' N' L' D') as [E E'].
  exact (H _ _ _ _ _ _ _ _ _ _ real_prims_ok W W' E E').
Qed.
Print Assumptions C132_refuted.

(** ** C133: packets of the next key phase are opened with the next keys (RFC 9001 section 6).

    Full statement: no connection reads two 1-RTT packets that were protected
    with the same keys and show different key phases. *)
Definition key_phase (p : packet_one_rtt) : bool := N.testbit (sh_byte (po_header p)) 2.
Definition C133_statement : Prop := forall P oc c k p pt w p' pt' w',
  prims_ok P -> one_rtt_wire P k p pt w -> one_rtt_wire P k p' pt' w' -> key_phase p <> key_phase p' ->
  decode_next_packet oc c w = Ok (POneRtt p, []) -> decode_next_packet oc c w' <> Ok (POneRtt p', []).

Theorem C133_refuted : ~ C133_statement.
Proof.
  intros H. destruct all_keys as [c0 [k [_ [K [_ [NA KO]]]]]].
  destruct (one_rtt_exists k 0x43 KO ltac:(reflexivity) ltac:(reflexivity)) as [p [w [W [N [L [D B]]]]]].
  destruct (one_rtt_exists k 0x47 KO ltac:(reflexivity) ltac:(reflexivity)) as [p' [w' [W' [N' [L' [D' B']]]]]].
  refine (H _ _ _ _ _ _ _ _ _ _ real_prims_ok W W' _ _ _).
  - unfold key_phase. rewrite B, B'. discriminate.
  - eapply C61_one_rtt_partial; eauto using real_prims_ok.
  - eapply C61_one_rtt_partial; eauto using real_prims_ok.
Qed.
Print Assumptions C133_refuted.

(** The key phase decides nothing: a packet of either phase that is read was
    opened with the one set of keys of the connection, ... *)
Theorem C133_one_set_of_keys : forall P oc c k s p rest,
  prims_ok P -> remote_keys P oc c SpApplication k -> no_remote_ack c SpApplication -> bytes_ok s ->
  decode_next_packet oc c s = Ok (POneRtt p, rest) ->
  exists d ct tag nonce pt,
    cid_enc (sh_dcid (po_header p)) 8 d /\ nonce_for (k_iv k) (po_pn p) nonce /\
    p_gcm_open P (k_key k) nonce (sh_byte (po_header p) :: d ++ po_pn_bytes p) ct tag = Some pt /\
    deserialize_frames oc pt = Ok (po_payload p).
Proof.
  intros P oc c k s p rest HP K NA B D.
  destruct (C63_one_rtt_authentic _ _ _ _ _ _ _ HP K NA B D)
    as [b0 [d [ppn [ct [tag [m0 [mask [more [nonce [pt H]]]]]]]]]].
  exists d, ct, tag, nonce, pt. intuition auto.
Qed.
Print Assumptions C133_one_set_of_keys.

(** ** C134: keys that are no longer needed are discarded (RFC 9001 section 4.9.1).

    Full statement: an endpoint that has sent a Handshake packet sends no Initial
    packets, and one that has read a Handshake packet reads none. *)
Definition C134_statement : Prop :=
  (forall oc c c' p w fs fs' t w', handshake_new oc fs c = (c', Ok p) -> handshake_serialize oc p c' = Ok w ->
     send_initial oc fs' t c' <> Ok w') /\
  (forall oc c s ps p xs, decode_packets oc c s = Ok ps -> In (PHandshake p) ps ->
     forall s' q r, decode_next_packet oc (run oc c xs) s' <> Ok (PInitial q, r)).

(** Nothing sent in one packet number space changes what is sent in another. *)
Definition elsewhere (sp : pn_space) (x : call) : Prop :=
  touches x sp = false /\ forall id l, x <> CSetScid id l.
Definition agree (sp : pn_space) (c c' : connection) : Prop :=
  borrow_pn_info c sp = borrow_pn_info c' sp /\ c_version c = c_version c' /\ c_dcid c = c_dcid c' /\ c_scid c = c_scid c'.

Lemma elsewhere_agree oc sp xs : forall c, Forall (elsewhere sp) xs -> agree sp (run oc c xs) c.
Proof.
  induction xs as [|x xs IH]; intros c F; [repeat split|].
  inversion F as [|? ? [T NS] F']; subst. cbn [run]. destruct (IH (do_call oc c x) F') as [A [B [C D]]].
  pose proof (touches_not oc c x sp T) as E.
  assert (G : c_version (do_call oc c x) = c_version c /\ c_dcid (do_call oc c x) = c_dcid c /\ c_scid (do_call oc c x) = c_scid c).
  { assert (X : exists sp', do_call oc c x = fst (get_next_pn oc c sp')).
    { destruct x as [id l|sp'|fs t|fs].
      - destruct (NS id l eq_refl).
      - exists sp'. reflexivity.
      - exists SpInitial. apply do_call_pn. eauto 8.
      - exists SpHandshake. apply do_call_pn. eauto 8. }
    destruct X as [sp' ->]. destruct (get_next_pn oc c sp') as [c' r] eqn:Q. cbn [fst].
    unfold get_next_pn in Q. destruct (add64 oc (next_pn (borrow_pn_info c sp')) 1); injection Q as <- _; auto.
    destruct sp'; auto. }
  destruct G as [G1 [G2 G3]]. repeat split; congruence.
Qed.

Lemma next_agree oc sp c c' : agree sp c c' ->
  agree sp (fst (get_next_pn oc c sp)) (fst (get_next_pn oc c' sp)) /\
  snd (get_next_pn oc c sp) = snd (get_next_pn oc c' sp).
Proof.
  intros [A [B [C D]]]. unfold get_next_pn. rewrite A.
  destruct (add64 oc (next_pn (borrow_pn_info c' sp)) 1); cbn [fst snd]; (split; [|reflexivity]);
    try (repeat split; auto; fail).
  destruct sp; repeat split; auto.
Qed.

Lemma ser_initial_agree oc p c c' : agree SpInitial c c' -> initial_serialize oc p c = initial_serialize oc p c'.
Proof.
  intros [A [B [C D]]].
  unfold initial_serialize, get_local_protected_payload_len, encrypt_local_payload, get_local_hp_mask, borrow_local_tls_secrets.
  rewrite A. reflexivity.
Qed.
Lemma ser_handshake_agree oc p c c' : agree SpHandshake c c' -> handshake_serialize oc p c = handshake_serialize oc p c'.
Proof.
  intros [A [B [C D]]].
  unfold handshake_serialize, get_local_protected_payload_len, encrypt_local_payload, get_local_hp_mask, borrow_local_tls_secrets.
  rewrite A. reflexivity.
Qed.
Lemma from_agree sp c c' b : agree sp c c' -> long_from_connection c b = long_from_connection c' b.
Proof.
  intros [A [B [C D]]]. unfold long_from_connection, get_dcid, get_scid, get_version_field. rewrite B, C, D. reflexivity.
Qed.

Theorem C134_initial_unaffected : forall oc c xs fs t,
  Forall (elsewhere SpInitial) xs -> send_initial oc fs t (run oc c xs) = send_initial oc fs t c.
Proof.
  intros oc c xs fs t F. pose proof (elsewhere_agree oc SpInitial xs c F) as A.
  destruct (next_agree oc SpInitial _ _ A) as [G E]. unfold send_initial, initial_new.
  destruct (get_next_pn oc (run oc c xs) SpInitial) as [c1 r1], (get_next_pn oc c SpInitial) as [c2 r2].
  cbn [fst snd] in G, E. subst r2. destruct r1 as [[pn pnb]| | |]; cbn [bind]; try reflexivity.
  rewrite (from_agree _ _ _ _ G). destruct (negb _); [reflexivity|].
  destruct (long_from_connection c2 _) as [h| | |]; cbn [bind]; try reflexivity.
  cbn [validate_payload bind]. apply ser_initial_agree, G.
Qed.
Print Assumptions C134_initial_unaffected.
Theorem C134_handshake_unaffected : forall oc c xs fs,
  Forall (elsewhere SpHandshake) xs -> send_handshake oc fs (run oc c xs) = send_handshake oc fs c.
Proof.
  intros oc c xs fs F. pose proof (elsewhere_agree oc SpHandshake xs c F) as A.
  destruct (next_agree oc SpHandshake _ _ A) as [G E]. unfold send_handshake, handshake_new.
  destruct (get_next_pn oc (run oc c xs) SpHandshake) as [c1 r1], (get_next_pn oc c SpHandshake) as [c2 r2].
  cbn [fst snd] in G, E. subst r2. destruct r1 as [[pn pnb]| | |]; cbn [bind]; try reflexivity.
  rewrite (from_agree _ _ _ _ G). destruct (negb _); [reflexivity|].
  destruct (long_from_connection c2 _) as [h| | |]; cbn [bind]; try reflexivity.
  cbn [validate_payload bind]. apply ser_handshake_agree, G.
Qed.
Print Assumptions C134_handshake_unaffected.

(** A Handshake packet, and then an Initial packet, sent and read. *)
Definition sends_both (cs : connection * connection) : outcome (list N * list N) :=
  let '(c, s) := cs in
  let '(c, r) := handshake_new true [Ping; Ping] c in
  let? p := r in let? w := handshake_serialize true p c in
  let? w' := send_initial true [Ping; Ping] None c in Ok (w, w').
Example C134_case : exists cs w w' ps q,
  three_keys = Ok cs /\ sends_both cs = Ok (w, w') /\
  decode_packets true (snd cs) w = Ok ps /\ (exists p, In (PHandshake p) ps) /\
  decode_next_packet true (snd cs) w' = Ok (PInitial q, []).
Proof.
  assert (X : match three_keys with
    | Ok cs => match sends_both cs with
      | Ok (w, w') => match decode_packets true (snd cs) w, decode_next_packet true (snd cs) w' with
                      | Ok [PHandshake p], Ok (PInitial q, []) => true
                      | _, _ => false
                      end
      | _ => false
      end
    | _ => false
    end = true) by (vm_compute; reflexivity).
  destruct three_keys as [cs| | |]; try discriminate X.
  destruct (sends_both cs) as [[w w']| | |] eqn:S; try discriminate X.
  destruct (decode_packets true (snd cs) w) as [ps| | |] eqn:D; try discriminate X.
  destruct ps as [|[] [|? ?]]; try discriminate X.
  destruct (decode_next_packet true (snd cs) w') as [[[] [|? ?]]| | |] eqn:D'; try discriminate X.
  exists cs, w, w'. eexists. eexists. split; [reflexivity|]. split; [exact S|]. split; [exact D|].
  split; [eexists; left; reflexivity|exact D'].
Qed.

Theorem C134_discard_refuted : ~ C134_statement.
Proof.
  intros [H _]. destruct C134_case as [[c s] [w [w' [ps [q [_ [X _]]]]]]]. unfold sends_both in X.
  destruct (handshake_new true [Ping; Ping] c) as [c' r] eqn:E.
  apply bind_ok in X as [p [-> X]]. apply bind_ok in X as [v [V X]]. apply bind_ok in X as [v' [V' X]].
  exact (H _ _ _ _ _ _ _ _ _ E V V').
Qed.
Print Assumptions C134_discard_refuted.

(** Nor does anything sent or read change what is read. *)
Theorem C134_reading_unaffected : forall oc c xs s,
  decode_next_packet oc (run oc c xs) s = decode_next_packet oc c s.
Proof. intros oc c xs s. symmetry. apply same_decode_next, run_same. Qed.
Print Assumptions C134_reading_unaffected.

(** Both halves of the statement fail. *)
Theorem C134_reading_refuted : exists oc c s ps p xs s' q r,
  decode_packets oc c s = Ok ps /\ In (PHandshake p) ps /\ decode_next_packet oc (run oc c xs) s' = Ok (PInitial q, r).
Proof.
  destruct C134_case as [cs [w [w' [ps [q [_ [_ [D [[p I] D']]]]]]]]].
  exists true, (snd cs), w, ps, p, [], w', q, []. auto.
Qed.
Print Assumptions C134_reading_refuted.

Example C132_case : exists c k p w p' w' p'' w'', keys_ok k /\
  remote_keys real_prims true c SpApplication k /\ no_remote_ack c SpApplication /\
  zero_rtt_wire real_prims k p [1; 1; 1] w /\ one_rtt_wire real_prims k p' [1; 1; 1] w' /\
  one_rtt_wire real_prims k p'' [1; 1; 1] w'' /\ key_phase p' = false /\ key_phase p'' = true /\
  decode_next_packet true c w = Ok (PZeroRtt p, []) /\ decode_next_packet true c w' = Ok (POneRtt p', []) /\
  decode_next_packet true c w'' = Ok (POneRtt p'', []).
Proof.
  destruct all_keys as [c0 [k [_ [K [_ [NA KO]]]]]].
  destruct (zero_rtt_exists k KO) as [p [w [W [N [L D]]]]].
  destruct (one_rtt_exists k 0x43 KO ltac:(reflexivity) ltac:(reflexivity)) as [p' [w' [W' [N' [L' [D' B']]]]]].
  destruct (one_rtt_exists k 0x47 KO ltac:(reflexivity) ltac:(reflexivity)) as [q [v [V [Nq [Lq [Dq Bq]]]]]].
  exists (with_all_keys c0), k, p, w, p', w', q, v. repeat (split; [assumption|]).
  split; [unfold key_phase; rewrite B'; reflexivity|]. split; [unfold key_phase; rewrite Bq; reflexivity|].
  split; [|split].
  - rewrite <- (app_nil_r w). eapply C61_zero_rtt_partial; eauto using real_prims_ok.
  - eapply C61_one_rtt_partial; eauto using real_prims_ok.
  - eapply C61_one_rtt_partial; eauto using real_prims_ok.
Qed.
Example C134_elsewhere_case : Forall (elsewhere SpInitial) [CHandshake [Ping]; CNextPn SpApplication].
Proof. repeat constructor; discriminate. Qed.
