(** Property C145: which Version Negotiation packets a connection takes for an answer. *)
From Verif Require Import Base Utils Frame CipherSuite Secrets Connection Packet Histories Spec SpecPacket
  Tactics UtilsFacts ParserFacts FrameFacts SecretsFacts HeaderFacts PacketFacts ConnectionFacts PacketInv
  DecodeFacts SendFacts BuildFacts ProtectedInv CryptoInst PropConn PropPacket PropDecode PropWire PropProtected PropHold PropLimits PropHeader PropMixed.
From Coq Require Import Lia ZifyN ZifyBool ZifyNat.
Open Scope N_scope.

Definition id_bytes (x : u160 * N) : list N := be_bytes (N.to_nat (snd x)) (cid_val (fst x)).

(** RFC 9000 sections 6.2 and 17.2.1: only clients receive Version Negotiation
    packets; one that answers a packet of this connection carries its two ids,
    exchanged, and does not offer the version in use. *)
Definition answers (srv : bool) (c : connection) (p : packet_vn) : Prop :=
  srv = false /\
  (exists f scid, lh_vn (vn_header p) = Some f /\ vn_scid f = id_bytes (c_dcid c) /\
     c_scid c = Some scid /\ vn_dcid f = id_bytes scid) /\
  ~ In 1 (supported_versions p).

(** Full statement. *)
Definition C145_statement : Prop := forall P oc srv d l c s ps p,
  prims_ok P -> reachable P oc srv d l c -> bytes_ok s -> len s < 2 ^ 63 ->
  decode_packets oc c s = Ok ps -> In (PVersionNegotiation p) ps -> answers srv c p.

Lemma vn_announced b s t : announces (b :: [0; 0; 0; 0] ++ s) t -> 128 <= b -> t = TVersionNegotiation.
Proof.
  intros A B. remember (b :: [0; 0; 0; 0] ++ s) as S eqn:E. destruct A as [b' d rest L|b' v d sc rest _ L Z|b' v d sc rest t L1 L Z _ _ _].
  - injection E as -> _. lia.
  - reflexivity.
  - exfalso. injection E as -> E. apply Z.
    assert (v = [0; 0; 0; 0]) as ->.
    { change (len v = 4) in L. destruct v as [|v0 [|v1 [|v2 [|v3 [|v4 v]]]]]; try discriminate L.
      - cbn [app] in E. apply (f_equal (firstn 4)) in E. exact E.
      - exfalso. rewrite !len_cons in L. lia. }
    reflexivity.
Qed.
Lemma vn_only oc c b s : bytes_ok (b :: [0; 0; 0; 0] ++ s) -> 128 <= b ->
  decode_next_packet oc c (b :: [0; 0; 0; 0] ++ s) =
    (let? (p, r) := vn_from_stream (b :: [0; 0; 0; 0] ++ s) in Ok (PVersionNegotiation p, r)) \/
  exists w, decode_next_packet oc c (b :: [0; 0; 0; 0] ++ s) = Panic w.
Proof.
  intros BO B. unfold decode_next_packet. destruct (next_header_from_stream (b :: [0; 0; 0; 0] ++ s)) as [[h rest]|e|w|] eqn:E.
  2,3: right; eexists; reflexivity.
  2: { destruct (next_header_cases _ BO) as [[e E']|[[b' [s1 [x [r' [_ [_ [_ E']]]]]]]|[b' [s1 [x [r' [_ [_ [_ E']]]]]]]]]; congruence. }
  left. destruct (header_announces _ _ _ BO E) as [b' [s1 [Es A]]]. injection Es as <- _. cbn [unwrap bind].
  destruct h as [h|h]; [destruct A as [A _]; lia|]. destruct A as [_ [Eb [_ A]]]. apply vn_announced in A; auto.
  rewrite packet_type_cases. unfold kind in A. rewrite Eb. destruct (N.ltb_spec b 128); [lia|].
  rewrite A. reflexivity.
Qed.
(** A datagram that begins like a Version Negotiation packet is read without
    looking at the connection: any two connections read the same. *)
Theorem C145_same_for_all : forall oc c c' b s, bytes_ok (b :: [0; 0; 0; 0] ++ s) -> 128 <= b ->
  decode_packets oc c (b :: [0; 0; 0; 0] ++ s) = decode_packets oc c' (b :: [0; 0; 0; 0] ++ s).
Proof.
  intros oc c c' b s BO B.
  assert (E : decode_next_packet oc c (b :: [0; 0; 0; 0] ++ s) = decode_next_packet oc c' (b :: [0; 0; 0; 0] ++ s)).
  { unfold decode_next_packet. destruct (next_header_from_stream (b :: [0; 0; 0; 0] ++ s)) as [[h rest]|e|w|] eqn:E; try reflexivity.
    destruct (header_announces _ _ _ BO E) as [b' [s1 [Es A]]]. injection Es as <- _. cbn [unwrap bind].
    destruct h as [h|h]; [destruct A as [A _]; lia|]. destruct A as [_ [Eb [_ A]]]. apply vn_announced in A; auto.
    rewrite packet_type_cases. unfold kind in A. rewrite Eb. destruct (N.ltb_spec b 128); [lia|].
    rewrite A. reflexivity. }
  unfold decode_packets. cbn [app length decode_packets_loop]. cbn [app] in E. rewrite E.
  destruct (decode_next_packet oc c' _) as [[p rest]|e|w|] eqn:D; try reflexivity. cbn [bind].
  assert (rest = []) as ->.
  { destruct (C26_version_negotiation_exact b s BO) as [[_ [q Q]]|[_ [e Q]]];
      change (decode_next_packet oc c' (b :: [0; 0; 0; 0] ++ s) = Ok (p, rest)) in D.
    - destruct (vn_only oc c' b s BO B) as [V|[w V]]; rewrite V in D; [|discriminate D]. rewrite Q in D. cbn in D. injection D as _ <-. reflexivity.
    - destruct (vn_only oc c' b s BO B) as [V|[w V]]; rewrite V in D; [|discriminate D]. rewrite Q in D. discriminate D. }
  destruct (length s); reflexivity.
Qed.
Print Assumptions C145_same_for_all.

(** Every Version Negotiation packet is taken by every connection, client's or
    server's, whatever ids it carries and whatever versions it offers. *)
Theorem C145_any_accepted : forall oc c b d sc hd vs bs,
  128 <= b < 256 -> bytes_ok d -> bytes_ok sc -> vn_header_enc b d sc hd -> versions_enc vs bs ->
  exists p, decode_packets oc c (hd ++ bs) = Ok [PVersionNegotiation p] /\
    lh_vn (vn_header p) = Some (VnFields d sc) /\ supported_versions p = vs.
Proof.
  intros oc c b d sc hd vs bs B D S H V.
  destruct (C26_version_negotiation oc c b d sc hd vs bs B D S H V) as [_ E]. cbv zeta in E.
  eexists. split; [|split; [|]].
  - unfold decode_packets. destruct H as [_ [_ ->]]. cbn [app length decode_packets_loop] in *.
    rewrite E. cbn [bind]. reflexivity.
  - reflexivity.
  - reflexivity.
Qed.
Print Assumptions C145_any_accepted.

(** It can also be appended to a datagram of the peer. *)
Theorem C145_appended : forall P oc c a ps b d sc hd vs bs,
  prims_ok P -> keyed P oc c -> bytes_ok (a ++ hd ++ bs) -> len (a ++ hd ++ bs) < 2 ^ 63 ->
  decode_packets oc c a = Ok ps -> Forall delimited ps ->
  128 <= b < 256 -> vn_header_enc b d sc hd -> versions_enc vs bs ->
  exists p, decode_packets oc c (a ++ hd ++ bs) = Ok (ps ++ [PVersionNegotiation p]) /\
    lh_vn (vn_header p) = Some (VnFields d sc) /\ supported_versions p = vs.
Proof.
  intros P oc c a ps b d sc hd vs bs HP K BO LE DA F B H V.
  assert (BD : bytes_ok d /\ bytes_ok sc).
  { apply bytes_ok_app in BO as [_ BO]. apply bytes_ok_app in BO as [BO _]. destruct H as [_ [_ ->]].
    change (bytes_ok ([b; 0; 0; 0; 0; len d] ++ d ++ [len sc] ++ sc)) in BO.
    apply bytes_ok_app in BO as [_ BO]. apply bytes_ok_app in BO as [B1 BO]. apply bytes_ok_app in BO as [_ BO]. auto. }
  destruct (C145_any_accepted oc c b d sc hd vs bs B (proj1 BD) (proj2 BD) H V) as [p [E [E1 E2]]].
  exists p. rewrite (C120_datagrams_compose P oc c a (hd ++ bs) ps HP K BO LE DA F), E. auto.
Qed.
Print Assumptions C145_appended.

(** A Version Negotiation packet with ids that belong to nobody, offering version 1. *)
Definition foreign_vn : list N := 0x80 :: [0; 0; 0; 0] ++ 1 :: [9] ++ 0 :: [] ++ [0; 0; 0; 1].
Theorem C145_refuted : ~ C145_statement.
Proof.
  intros H. destruct (sample_reachable false) as [c R].
  assert (B : bytes_ok foreign_vn) by (apply bytes_ok_dec; reflexivity).
  destruct (C145_any_accepted true c 0x80 [9] [] (0x80 :: [0; 0; 0; 0] ++ 1 :: [9] ++ 0 :: []) [1] [0; 0; 0; 1]) as [p [D [_ V]]].
  - lia.
  - apply bytes_ok_dec. reflexivity.
  - apply bytes_ok_dec. reflexivity.
  - split; [reflexivity|]. split; reflexivity.
  - apply (ve_cons 1 [] [0; 0; 0; 1] []); [|constructor]. split; [apply bytes_ok_dec; reflexivity|]. split; reflexivity.
  - destruct (H real_prims true false sample_id 8 c foreign_vn _ p real_prims_ok R B eq_refl D (or_introl eq_refl)) as [_ [_ N]].
    apply N. rewrite V. left. reflexivity.
Qed.
Print Assumptions C145_refuted.

(** A client's Initial packet with a Version Negotiation packet behind it, read by
    the server; and the same packet alone. *)
Example C145_case :
  (let? (c, s) := sample_pair true in
   let? p := snd (initial_new true sample_payload None c) in
   let? w := initial_serialize true p c in
   let? ps := decode_packets true s (w ++ foreign_vn) in
   let? qs := decode_packets true c foreign_vn in
   Ok (map packet_kind ps, map packet_kind qs, forallb (fun b => b <? 256) (w ++ foreign_vn), len (w ++ foreign_vn) <? 2 ^ 63))
  = Ok ([TInitial; TVersionNegotiation], [TVersionNegotiation], true, true).
Proof. vm_compute. reflexivity. Qed.
