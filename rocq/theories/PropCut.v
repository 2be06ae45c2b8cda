(** Properties C138, C139 and C140: packets cut short, packets too large, and
    sending after the peer has closed. *)
From Verif Require Import Base Utils Frame CipherSuite Secrets Connection Packet Histories Spec SpecPacket
  Tactics UtilsFacts FrameFacts SecretsFacts HeaderFacts PacketFacts ConnectionFacts DecodeFacts SendFacts CryptoInst
  PropConn PropPacket PropBuilt PropSizes PropSend PropDecode PropWire PropHold PropHeader PropLimits PropStart PropMixed.
From Coq Require Import Lia ZifyN ZifyBool ZifyNat.
Open Scope N_scope.

(** ** C138: a datagram that was cut, as [recv_from] does at 4096 bytes, is refused or,
    when it was cut between two packets, read as its first packets. *)
Lemma announces_more s t rest : announces s t -> announces (s ++ rest) t.
Proof.
  intros A. inversion A as [b d r H H0 E|b v d sc r H H0 H1 E|b v d sc r t' H H0 H1 H2 H3 H4 E]; subst.
  - cbn [app]. rewrite <- app_assoc. constructor; auto.
  - replace ((b :: v ++ len d :: d ++ len sc :: sc ++ r) ++ rest) with (b :: v ++ len d :: d ++ len sc :: sc ++ (r ++ rest)).
    + constructor; auto.
    + cbn [app]. rewrite <- !app_assoc. cbn [app]. rewrite <- !app_assoc. cbn [app]. rewrite <- !app_assoc. reflexivity.
  - replace ((b :: v ++ len d :: d ++ len sc :: sc ++ r) ++ rest) with (b :: v ++ len d :: d ++ len sc :: sc ++ (r ++ rest)).
    + constructor; auto.
    + cbn [app]. rewrite <- !app_assoc. cbn [app]. rewrite <- !app_assoc. cbn [app]. rewrite <- !app_assoc. reflexivity.
Qed.
Lemma kind_delimited p q : packet_kind p = packet_kind q -> delimited p -> delimited q.
Proof. destruct p, q; cbn; intros E D; try discriminate E; auto. Qed.

(** The first packet of what is left of a datagram. *)
Lemma cut_first P oc c s rest p r q r' :
  prims_ok P -> keyed P oc c -> bytes_ok (s ++ rest) -> len (s ++ rest) < 2 ^ 63 ->
  decode_next_packet oc c (s ++ rest) = Ok (p, r) -> delimited p ->
  decode_next_packet oc c s = Ok (q, r') -> q = p /\ r = r' ++ rest.
Proof.
  intros HP K B L D Dp Dq. pose proof B as B'. apply bytes_ok_app in B' as [Bs Br].
  destruct (C27_dispatch oc c _ p r B D) as [_ U]. destruct (C27_dispatch oc c s q r' Bs Dq) as [A _].
  specialize (U _ (announces_more _ _ rest A)).
  assert (Dl : delimited q) by (eapply kind_delimited; [symmetry; exact U|exact Dp]).
  rewrite len_app in L.
  destruct (C120_packet_alone P oc c s q r' HP K Bs ltac:(lia) Dl Dq) as [w [Es C]]. subst s.
  pose proof Bs as Bs'. apply bytes_ok_app in Bs' as [_ Br'].
  rewrite <- app_assoc, (C (r' ++ rest)) in D by (apply bytes_ok_app; auto).
  injection D as -> ->. auto.
Qed.

Theorem C138_cut_datagram : forall P oc c s rest ps qs,
  prims_ok P -> keyed P oc c -> bytes_ok (s ++ rest) -> len (s ++ rest) < 2 ^ 63 ->
  decode_packets oc c (s ++ rest) = Ok ps -> Forall delimited ps ->
  decode_packets oc c s = Ok qs ->
  exists more, ps = qs ++ more /\ decode_packets oc c rest = Ok more.
Proof.
  intros P oc c s rest ps qs HP K B L D F Dq. pose proof B as B'. apply bytes_ok_app in B' as [Bs Br].
  pose proof L as L'. rewrite len_app in L'.
  apply (C120_exactly P oc c s qs HP K Bs ltac:(lia)) in Dq. apply (C120_exactly P oc c _ ps HP K B L) in D.
  revert ps B L D F Bs L'. induction Dq as [|w s p qs NE E Pt IH]; intros ps B L D F Bs L'.
  - exists ps. split; [reflexivity|]. apply (C120_exactly P oc c rest ps HP K Br ltac:(lia)). exact D.
  - inversion D as [E1 E2|w0 s0 p0 ps0 NE0 E0 Pt0 E1 E2].
    { destruct w; [contradiction|]. discriminate E1. }
    subst ps. pose proof (Forall_inv F) as F1. apply Forall_inv_tail in F.
    rewrite E1 in E0. destruct (cut_first P oc c (w ++ s) rest p0 s0 p s HP K B L E0 F1 E) as [-> ->].
    rewrite <- app_assoc in B, L. pose proof B as B1. apply bytes_ok_app in B1 as [_ B1].
    rewrite len_app in L. pose proof Bs as B2. apply bytes_ok_app in B2 as [_ B2].
    destruct (IH ps0 B1 ltac:(lia) Pt0 F B2 ltac:(rewrite len_app in L'; lia)) as [more [-> M]].
    exists more. auto.
Qed.
Print Assumptions C138_cut_datagram.

(** No part of a packet is read as anything. *)
Theorem C138_cut_packet : forall P oc c s rest p,
  prims_ok P -> keyed P oc c -> bytes_ok (s ++ rest) -> len (s ++ rest) < 2 ^ 63 ->
  decode_next_packet oc c (s ++ rest) = Ok (p, []) -> delimited p -> s <> [] -> rest <> [] ->
  (forall q r, decode_next_packet oc c s <> Ok (q, r)) /\ (forall qs, decode_packets oc c s <> Ok qs).
Proof.
  intros P oc c s rest p HP K B L D Dp NE NR.
  assert (X : forall q r, decode_next_packet oc c s <> Ok (q, r)).
  { intros q r E. destruct (cut_first P oc c s rest p [] q r HP K B L D Dp E) as [_ X].
    symmetry in X. apply app_eq_nil in X as [_ X]. contradiction. }
  split; [exact X|]. intros qs E. pose proof B as B'. apply bytes_ok_app in B' as [Bs Br]. rewrite len_app in L.
  apply (C120_exactly P oc c s qs HP K Bs ltac:(lia)) in E. inversion E; subst; [contradiction|]. eapply X; eauto.
Qed.
Print Assumptions C138_cut_packet.

(** In particular the packets the library sends. *)
Theorem C138_sent_packet : forall P oc srv d l c1 c2 peer fs t p wire s rest,
  prims_ok P -> reachable P oc srv d l c1 -> reachable P oc srv d l c2 -> reachable P oc (negb srv) d l peer ->
  id_fits d l -> scid_fits c1 -> bytes_ok (token_bytes t) -> frames_survive oc fs ->
  snd (initial_new oc fs t c1) = Ok p -> initial_serialize oc p c2 = Ok wire -> bytes_ok wire -> len wire < 2 ^ 63 ->
  wire = s ++ rest -> s <> [] -> rest <> [] ->
  forall qs, decode_packets oc peer s <> Ok qs.
Proof.
  intros P oc srv d l c1 c2 peer fs t p wire s rest HP R1 R2 R3 ID SF BT FS N W B L -> NE NR.
  destruct (C20_initial_travels P oc srv d l c1 c2 peer fs t p _ [] HP R1 R2 R3 ID SF BT FS N W) as [D _].
  rewrite app_nil_r in D.
  apply (C138_cut_packet P oc peer s rest (PInitial p) HP (reachable_keyed _ _ _ _ _ _ HP R3) B L D I NE NR).
Qed.
Print Assumptions C138_sent_packet.

(** Two packets in one datagram, cut at every place: read between them and at the
    end, refused everywhere else. *)
Example C138_case :
  (let? (c, s) := sample_pair true in
   let? w := send_initial true [Ping] None c in
   let n := length w in
   let d := (w ++ w)%list in
   Ok (n, forallb (fun i => match decode_packets true s (firstn i d) with
                            | Ok ps => Nat.eqb i (length ps * n)%nat
                            | _ => negb (Nat.eqb i n) && negb (Nat.eqb i (2 * n)) end) (seq 1 (2 * n))))
  = Ok (46%nat, true).
Proof. vm_compute. reflexivity. Qed.

(** ** C139: a UDP datagram over IPv4 or IPv6 carries at most 65527 bytes
    (RFC 768; RFC 9000 section 18.2, max_udp_payload_size). *)
Definition C139_statement : Prop := forall P oc srv d l c0 xs fs t wire,
  prims_ok P -> connection_new P oc srv V1 d l = Ok c0 ->
  send_initial oc fs t (run oc c0 xs) = Ok wire -> len wire <= 65527.

(** The exact size, on every connection. *)
Lemma sent_size : forall P oc srv d l c0 xs fs t wire pt, prims_ok P ->
  connection_new P oc srv V1 d l = Ok c0 -> id_fits d l -> (forall id n, In (CSetScid id n) xs -> id_fits id n) ->
  bytes_ok (token_bytes t) -> Forall frame_wf fs -> serialize_frames fs false = Ok pt -> len pt < 2 ^ 63 ->
  send_initial oc fs t (run oc c0 xs) = Ok wire ->
  exists s sl, c_scid (run oc c0 xs) = Some (s, sl) /\ sl <= 20 /\
  len wire = 7 + l + sl + varint_size (len (token_bytes t)) + len (token_bytes t) +
             varint_size (4 + len pt + 16) + 4 + len pt + 16.
Proof.
  intros P oc srv d l c0 xs fs t wire pt HP E ID SI BT FW Ept Lpt H. unfold send_initial in H.
  destruct (initial_new oc fs t (run oc c0 xs)) as [c' r] eqn:EN. destruct r as [p| | |]; cbn [bind] in H; try discriminate H.
  destruct (connection_new_inv _ _ _ _ _ _ _ HP E) as [I0 [S0 _]].
  assert (SF : scid_fits (run oc c0 xs)) by (apply scid_of_history; auto; unfold scid_fits; rewrite S0; exact I).
  destruct (C84_initial_size P oc srv d l (run oc c0 xs) c' fs t p pt wire) as [s [sl [Es Z]]]; auto.
  - exists c0, xs. auto.
  - exists c0, (xs ++ [CInitial fs t]). split; [exact E|]. rewrite run_app. cbn [run do_call]. rewrite EN. reflexivity.
  - rewrite EN. reflexivity.
  - exists s, sl. split; [exact Es|]. split; [|exact Z]. unfold scid_fits in SF. rewrite Es in SF. apply SF.
Qed.

(** Up to 65400 bytes of frames and token fit. *)
Theorem C139_fits_partial : forall P oc srv d l c0 xs fs t wire pt, prims_ok P ->
  connection_new P oc srv V1 d l = Ok c0 -> id_fits d l -> (forall id n, In (CSetScid id n) xs -> id_fits id n) ->
  bytes_ok (token_bytes t) -> Forall frame_wf fs -> serialize_frames fs false = Ok pt ->
  send_initial oc fs t (run oc c0 xs) = Ok wire ->
  len (token_bytes t) + len pt <= 65400 -> len wire <= 65527.
Proof.
  intros P oc srv d l c0 xs fs t wire pt HP E ID SI BT FW Ept H Z.
  destruct (sent_size P oc srv d l c0 xs fs t wire pt HP E ID SI BT FW Ept ltac:(pows; lia) H) as [s [sl [_ [Ls ->]]]].
  destruct ID as [_ [Ll _]].
  assert (V : forall n, n <= 65527 -> varint_size n <= 4).
  { intros n Hn. unfold varint_size. destruct (n <=? 63); [lia|]. destruct (n <=? 16383); [lia|].
    destruct (N.leb_spec n 1073741823); lia. }
  pose proof (V (len (token_bytes t)) ltac:(lia)). pose proof (V (4 + len pt + 16) ltac:(lia)). lia.
Qed.
Print Assumptions C139_fits_partial.

(** Nothing larger is refused: whenever a connection can send at all, it sends packets
    larger than any bound below 2 GB. *)
Theorem C139_any_size : forall P oc srv d l c0 xs n, prims_ok P ->
  connection_new P oc srv V1 d l = Ok c0 -> len xs < 2 ^ 64 - 1 ->
  id_fits d l -> (forall id n, In (CSetScid id n) xs -> id_fits id n) ->
  (exists id n, In (CSetScid id n) xs) -> count SpInitial xs < 2 ^ 32 - 1 -> n + 16 < 2 ^ 31 ->
  exists fs wire, send_initial oc fs None (run oc c0 xs) = Ok wire /\ n < len wire.
Proof.
  intros P oc srv d l c0 xs n HP E LX ID SI HS CN Hn.
  set (fs := repeat Padding (N.to_nat n)).
  assert (Ept : serialize_frames fs false = Ok (repeat 0 (N.to_nat n))) by (unfold serialize_frames; apply padding_bytes).
  assert (Lpt : len (repeat 0 (N.to_nat n)) = n) by (unfold len; rewrite repeat_length; lia).
  assert (FW : Forall frame_wf fs) by (apply Forall_forall; intros f X; apply repeat_spec in X as ->; exact I).
  destruct (C107_initial_sent P oc srv d l c0 xs fs None HP E LX ID SI) as [[_ [wire W]]|[NP _]].
  - eapply Forall_impl; [|exact FW]. intros f X. right. exact X.
  - constructor.
  - reflexivity.
  - intros q Q. rewrite Ept in Q. injection Q as <-. rewrite Lpt. exact Hn.
  - exists fs, wire. split; [exact W|].
    destruct (sent_size P oc srv d l c0 xs fs None wire _ HP E ID SI ltac:(constructor) FW Ept) as [s [sl [_ [_ ->]]]]; auto.
    + rewrite Lpt. pows. lia.
    + rewrite Lpt. lia.
  - exfalso. apply NP. split; [exact HS|]. split; [exact CN|].
    apply Forall_forall. intros f X. apply repeat_spec in X as ->. constructor.
Qed.
Print Assumptions C139_any_size.
Theorem C139_refuted : ~ C139_statement.
Proof.
  intros H. assert (ID : id_fits sample_id 8) by (repeat split; vm_compute; (reflexivity || discriminate)).
  destruct (connection_new_ok real_prims true false sample_id 8 real_prims_ok (proj1 (proj2 ID))) as [c0 E].
  destruct (C139_any_size real_prims true false sample_id 8 c0 [CSetScid sample_id 8] 65527) as [fs [wire [W L]]];
    auto using real_prims_ok; try reflexivity.
  - intros id n [X|[]]. injection X as <- <-. exact ID.
  - exists sample_id, 8. left. reflexivity.
  - specialize (H _ _ _ _ _ _ _ _ _ _ real_prims_ok E W). lia.
Qed.
Print Assumptions C139_refuted.

Example C139_case :
  (let? c := connection_new real_prims true true V1 sample_id 8 in
   let c := run true c [CSetScid (U160 0 9) 8] in
   let? w := send_initial true (repeat Padding (N.to_nat 4096)) None c in Ok (len w)) = Ok 4142.
Proof. vm_compute. reflexivity. Qed.

(** ** C140: RFC 9000 section 10.2, an endpoint that received a CONNECTION_CLOSE frame
    sends nothing more, except for a CONNECTION_CLOSE frame of its own.  Reading takes a
    [&Connection] (packet.rs:771, 808): nothing can be changed by it. *)
Definition closes (f : frame) : Prop := match f with ConnectionClose _ => True | _ => False end.
Definition C140_statement : Prop := forall P oc srv d l c s ps p xs fs t wire,
  prims_ok P -> reachable P oc srv d l c -> id_fits d l -> bytes_ok s ->
  decode_packets oc c s = Ok ps -> In (PInitial p) ps -> Exists closes (pi_payload p) ->
  send_initial oc fs t (run oc c xs) = Ok wire -> Exists closes fs.

(** Whenever a connection can send at all, it can be sent a CONNECTION_CLOSE frame, reads it and
    goes on sending whatever it is given. *)
Theorem C140_goes_on : forall P oc srv d l c0 xs ys fs t,
  prims_ok P -> connection_new P oc srv V1 d l = Ok c0 -> len (xs ++ ys) < 2 ^ 64 - 1 ->
  id_fits d l -> (forall id n, In (CSetScid id n) (xs ++ ys) -> id_fits id n) ->
  (exists id n, In (CSetScid id n) (xs ++ ys)) -> count SpInitial (xs ++ ys) < 2 ^ 32 - 1 ->
  Forall at_hand fs -> Forall writable fs -> bytes_ok (token_bytes t) -> len (token_bytes t) + 100 < 2 ^ 31 ->
  (forall pt, serialize_frames fs false = Ok pt -> len pt + 16 < 2 ^ 31) ->
  exists s p wire, bytes_ok s /\ decode_packets oc (run oc c0 xs) s = Ok [PInitial p] /\ Exists closes (pi_payload p) /\
    send_initial oc fs t (run oc (run oc c0 xs) ys) = Ok wire.
Proof.
  intros P oc srv d l c0 xs ys fs t HP E LX ID SI HS CN AH WR BT LT LP.
  assert (R : reachable P oc srv d l (run oc c0 xs)) by (exists c0, xs; auto).
  set (cc := ConnectionClose (FrameConnectionClose 0 (Some 0) 0 [] false)).
  destruct (accepts P oc srv d l (run oc c0 xs) 0xc3 1 d l d l [] 0 [cc] [0x1c; 0; 0; 0]) as [k [w [_ [_ [B D]]]]]; auto;
    try reflexivity; try discriminate; try (repeat constructor; fail).
  rewrite <- run_app.
  destruct (C107_initial_sent P oc srv d l c0 (xs ++ ys) fs t HP E LX ID SI AH BT LT LP) as [[_ [wire W]]|[NP _]].
  2:{ exfalso. apply NP. auto. }
  match type of D with forall r, _ = Ok (PInitial ?p, r) => exists w, p, wire; set (q := p) in * end.
  split; [exact B|]. split; [|split; [|exact W]].
  - pose proof (coalesced oc (run oc c0 xs) [q] [w]) as C. cbn [concat map] in C. rewrite app_nil_r in C. apply C.
    constructor; [split; [intros ->; specialize (D []); discriminate D|exact D]|constructor].
  - constructor. exact I.
Qed.
Print Assumptions C140_goes_on.
Theorem C140_refuted : ~ C140_statement.
Proof.
  intros H. assert (ID : id_fits sample_id 8) by (repeat split; vm_compute; (reflexivity || discriminate)).
  destruct (connection_new_ok real_prims true true sample_id 8 real_prims_ok (proj1 (proj2 ID))) as [c0 E].
  destruct (C140_goes_on real_prims true true sample_id 8 c0 [] [CSetScid sample_id 8] [Ping] None) as [s [p [wire [B [D [X W]]]]]];
    auto using real_prims_ok; try reflexivity; try (repeat constructor; fail).
  - intros id n [Y|[]]. injection Y as <- <-. exact ID.
  - exists sample_id, 8. left. reflexivity.
  - intros pt Y. injection Y as <-. reflexivity.
  - assert (R : reachable real_prims true true sample_id 8 (run true c0 [])) by (exists c0, []; auto).
    specialize (H _ _ _ _ _ _ _ _ _ _ _ _ _ real_prims_ok R ID B D (or_introl eq_refl) X W).
    inversion H as [f fs Y|f fs Y]; subst; [exact Y|inversion Y].
Qed.
Print Assumptions C140_refuted.
(** The client closes; the server reads it and sends a PING. *)
Example C140_case :
  (let? (c, s) := sample_pair true in
   let? w := send_initial true [ConnectionClose (FrameConnectionClose 10 (Some 6) 2 [104; 105] false)] None c in
   let? ps := decode_packets true s w in
   let? w' := send_initial true [Ping] None (set_scid s (U160 0 7) 4) in
   let? qs := decode_packets true c w' in
   Ok (map (fun p => match p with PInitial p => pi_payload p | _ => [] end) (ps ++ qs)))
  = Ok [[ConnectionClose (FrameConnectionClose 10 (Some 6) 2 [104; 105] false)]; [Ping]].
Proof. vm_compute. reflexivity. Qed.
