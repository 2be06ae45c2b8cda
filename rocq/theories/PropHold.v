(** Property C108: decoded packets hold no more than their datagram. *)
From Verif Require Import Base Utils Frame CipherSuite Secrets Connection Packet Histories Spec SpecPacket
  Tactics UtilsFacts ParserFacts FrameFacts SecretsFacts HeaderFacts PacketFacts ConnectionFacts PacketInv
  DecodeFacts SendFacts CryptoInst PropFrame PropHeader PropConn PropPacket PropDecode ProtectedInv PropProtected.

(** What a decoded packet holds besides its two connection ids of fixed size:
    one for the packet, its token, its frames, its versions (4 bytes each) and
    the ids kept as lists. *)
Definition packet_weight (p : packet) : N :=
  1 + match p with
      | PVersionNegotiation v =>
          4 * len (supported_versions v) +
          match lh_vn (vn_header v) with Some f => len (vn_dcid f) + len (vn_scid f) | None => 0 end
      | PInitial p => len (pi_token p) + len (pi_pn_bytes p) + frames_weight (pi_payload p)
      | PZeroRtt p => len (pz_pn_bytes p) + frames_weight (pz_payload p)
      | PHandshake p => len (ph_pn_bytes p) + frames_weight (ph_payload p)
      | PRetry p => len (pr_token p)
      | POneRtt p => len (po_pn_bytes p) + frames_weight (po_payload p)
      end.
Fixpoint packets_weight (ps : list packet) : N :=
  match ps with [] => 0 | p :: ps => packet_weight p + packets_weight ps end.

(** A connection that has the peer's Initial keys, and in the other spaces either
    the peer's keys or none; no acknowledgement recorded, as in every connection
    of the library (C28). *)
Definition keyed (P : prims) (oc : bool) (c : connection) : Prop :=
  (exists k, remote_keys P oc c SpInitial k) /\
  forall sp, no_remote_ack c sp /\
    (remote_tls_secrets (borrow_pn_info c sp) = None \/ exists k, remote_keys P oc c sp k).

Lemma opened_weight P oc key nonce aad ct tag pt fs :
  prims_ok P -> len key = 16 -> len nonce = 12 -> bytes_ok ct -> bytes_ok tag -> len tag = 16 ->
  p_gcm_open P key nonce aad ct tag = Some pt -> deserialize_frames oc pt = Ok fs -> frames_weight fs <= len ct.
Proof.
  intros HP K N Bc Bt Lt O D. destruct (auth_law P HP _ _ _ _ _ _ K N Bc Bt Lt O) as [Bp [<- _]].
  apply (C11_no_amplification oc pt fs Bp D).
Qed.

Lemma low_bits a : N.land a 3 + 1 <= 4.
Proof. change 3 with (2 ^ 2 - 1). rewrite land_mask. change (2 ^ 2) with 4. lia. Qed.

Lemma keys_lens P oc c sp k iv nonce pn : remote_keys P oc c sp k -> iv = k_iv k -> nonce_for iv pn nonce ->
  len (k_key k) = 16 /\ len nonce = 12.
Proof.
  intros [s [_ [_ [_ [_ [_ [K1 [K2 _]]]]]]]] -> [_ [Hn _]]. split; [auto|]. rewrite Hn. auto.
Qed.

Theorem C108_one_packet : forall P oc c s p rest,
  prims_ok P -> keyed P oc c -> bytes_ok s -> len s < 2 ^ 63 ->
  decode_next_packet oc c s = Ok (p, rest) ->
  (exists used, s = used ++ rest) /\ packet_weight p + len rest <= len s.
Proof.
  intros P oc c s p rest HP [[ki Ki] KK] B LS D.
  destruct p as [v|p|p|p|p|p].
  - destruct (C27_dispatch _ _ _ _ _ B D) as [A _]. cbn [packet_kind] in A.
    assert (X : exists b s1, 128 <= b < 256 /\ s = b :: [0; 0; 0; 0] ++ s1).
    { inversion A as [|b v' dd sc rs Hb Lv Hv EE|]; subst.
      - apply bytes_ok_cons in B as [B0 B]. apply bytes_ok_app in B as [Bv _].
        exists b, (len dd :: dd ++ len sc :: sc ++ rs). split; [lia|]. f_equal. f_equal.
        rewrite <- (be_bytes_be_val v' Bv), Hv. unfold len in Lv. replace (length v') with 4%nat by lia. reflexivity.
      - exfalso. revert H2. destruct ((b / 16) mod 4) as [|[[]|[]|]]; discriminate. }
    destruct X as [b [s1 [Hb ->]]].
    destruct (C26_version_negotiation_exact b s1 B) as [[[d [sc [vs [hd [bs [Hd [Hv E]]]]]]] _]|[N [e E]]].
    + rewrite E in *. pose proof B as B'. apply bytes_ok_app in B' as [Bh Bb].
      pose proof Hd as [Ld [Ls Eh]].
      assert (bytes_ok d /\ bytes_ok sc) as [Bd Bs].
      { rewrite Eh in Bh. apply bytes_ok_cons in Bh as [_ Bh]. apply bytes_ok_app in Bh as [_ Bh].
        apply bytes_ok_cons in Bh as [_ Bh]. apply bytes_ok_app in Bh as [Bd Bh].
        apply bytes_ok_cons in Bh as [_ Bs]. auto. }
      destruct (C26_version_negotiation oc c b d sc hd vs bs Hb Bd Bs Hd Hv) as [_ X]. rewrite X in D.
      destruct (versions_enc_len _ _ Hv) as [Lv _].
      injection D as <- <-. split; [exists (hd ++ bs); symmetry; apply app_nil_r|].
      unfold packet_weight. cbn [supported_versions vn_header lh_vn vn_dcid vn_scid].
      assert (len hd = 7 + len d + len sc).
      { rewrite Eh, len_cons. cbn [app]. rewrite !len_cons, len_app, len_cons. lia. }
      rewrite len_app. change (len (@nil N)) with 0. lia.
    + exfalso.
      destruct (decode_next_cases oc c _ B) as [[w [e' [_ E']]]|[[b' [s2 [h [r [Es [Hb' [El [E0 E']]]]]]]]|[b' [s2 [h [r [_ [_ [_ E']]]]]]]]].
      * congruence.
      * rewrite E' in D. destruct (kind b' (lh_version h)); inv_bind; try discriminate. congruence.
      * rewrite E' in D. inv_bind. discriminate.
  - destruct (KK SpInitial) as [NA _].
    destruct (initial_inv P oc c ki s p rest HP Ki NA B LS D)
      as [h [fields [tl [L [ll [ppn [body [m0 [mask [more [nonce [ct [tag [pt [SH [Ee [Lm [Bm [Eh [Ln [Bn [En [Ep [Eb [EL [Lt [Hn [Ho Df]]]]]]]]]]]]]]]]]]]]]]]]]]]].
    destruct SH as [Hb Hlong Ht Hv VN HF HT BT HL Lp4 Bp Bb Ew].
    rewrite Eb in Bb. apply bytes_ok_app in Bb as [Bct Bb]. apply bytes_ok_app in Bb as [Btag _].
    destruct (keys_lens _ _ _ _ _ _ _ _ Ki eq_refl Hn) as [Lk Lno].
    pose proof (opened_weight _ _ _ _ _ _ _ _ _ HP Lk Lno Bct Btag Lt Ho Df) as W.
    pose proof (low_bits (lh_byte (pi_header p))) as LB. rewrite Ew, Eb. split.
    + exists (lh_byte h :: fields ++ tl ++ pi_token p ++ ll ++ ppn ++ ct ++ tag). cbn [app]. rewrite <- !app_assoc. reflexivity.
    + unfold packet_weight. rewrite len_cons, !len_app. lia.
  - destruct (KK SpApplication) as [NA [NK|[k K]]].
    { destruct (zero_rtt_no_keys oc c s B NK) as [e E].
      destruct (decode_next_cases oc c s B) as [[w [e' [_ E']]]|[[b' [s2 [h [r [Es [Hb' [El [E0 E']]]]]]]]|[b' [s2 [h [r [_ [_ [_ E']]]]]]]]];
        [congruence| |]; rewrite E' in D; [destruct (kind b' (lh_version h))|]; inv_bind; discriminate || congruence. }
    destruct (C63_zero_rtt_authentic P oc c k s p rest HP K NA B LS D)
      as [b0 [fields [ll [ppn [ct [tag [m0 [mask [more [nonce [pt [Ew [Lp4 [Lt [HF [HL [EL [Ee [Lm [Eh [Ln [En [Hn [Ho Df]]]]]]]]]]]]]]]]]]]]]]]].
    destruct (keys_lens _ _ _ _ _ _ _ _ K eq_refl Hn) as [Lk Lno].
    pose proof B as B'. rewrite Ew in B'. apply bytes_ok_cons in B' as [_ B']. repeat (apply bytes_ok_app in B' as [? B']).
    pose proof (opened_weight _ _ _ _ _ ct tag _ _ HP Lk Lno ltac:(assumption) ltac:(assumption) Lt Ho Df) as W.
    pose proof (low_bits (lh_byte (pz_header p))) as LB. rewrite Ew. split.
    + exists (b0 :: fields ++ ll ++ ppn ++ ct ++ tag). cbn [app]. rewrite <- !app_assoc. reflexivity.
    + unfold packet_weight. rewrite len_cons, !len_app. lia.
  - destruct (KK SpHandshake) as [NA [NK|[k K]]].
    { destruct (handshake_no_keys oc c s B NK) as [e E].
      destruct (decode_next_cases oc c s B) as [[w [e' [_ E']]]|[[b' [s2 [h [r [Es [Hb' [El [E0 E']]]]]]]]|[b' [s2 [h [r [_ [_ [_ E']]]]]]]]];
        [congruence| |]; rewrite E' in D; [destruct (kind b' (lh_version h))|]; inv_bind; discriminate || congruence. }
    destruct (C63_handshake_authentic P oc c k s p rest HP K NA B LS D)
      as [b0 [fields [ll [ppn [ct [tag [m0 [mask [more [nonce [pt [Ew [Lp4 [Lt [HF [HL [Ee [Lm [Eh [Ln [En [Hn [Ho Df]]]]]]]]]]]]]]]]]]]]]]].
    destruct (keys_lens _ _ _ _ _ _ _ _ K eq_refl Hn) as [Lk Lno].
    pose proof B as B'. rewrite Ew in B'. apply bytes_ok_cons in B' as [_ B']. repeat (apply bytes_ok_app in B' as [? B']).
    pose proof (opened_weight _ _ _ _ _ ct tag _ _ HP Lk Lno ltac:(assumption) ltac:(assumption) Lt Ho Df) as W.
    pose proof (low_bits (lh_byte (ph_header p))) as LB. rewrite Ew. split.
    + exists (b0 :: fields ++ ll ++ ppn ++ ct ++ tag). cbn [app]. rewrite <- !app_assoc. reflexivity.
    + unfold packet_weight. rewrite len_cons, !len_app. lia.
  - exfalso.
    destruct (decode_next_cases oc c s B) as [[w [e' [_ E']]]|[[b' [s2 [h [r [Es [Hb' [El [E0 E']]]]]]]]|[b' [s2 [h [r [_ [_ [_ E']]]]]]]]];
      [congruence| |]; rewrite E' in D; [destruct (kind b' (lh_version h))|]; inv_bind; discriminate.
  - destruct (KK SpApplication) as [NA [NK|[k K]]].
    { destruct (one_rtt_no_keys oc c s B NK) as [e E].
      destruct (decode_next_cases oc c s B) as [[w [e' [_ E']]]|[[b' [s2 [h [r [Es [Hb' [El [E0 E']]]]]]]]|[b' [s2 [h [r [_ [_ [_ E']]]]]]]]];
        [congruence| |]; rewrite E' in D; [destruct (kind b' (lh_version h))|]; inv_bind; discriminate || congruence. }
    destruct (C63_one_rtt_authentic P oc c k s p rest HP K NA B D)
      as [b0 [dd [ppn [ct [tag [m0 [mask [more [nonce [pt [Ew [-> [Lp4 [Lt [Hb0 [HF [Ee [Lm [Eh [Ln [En [Hn [Ho Df]]]]]]]]]]]]]]]]]]]]]]].
    destruct (keys_lens _ _ _ _ _ _ _ _ K eq_refl Hn) as [Lk Lno].
    pose proof B as B'. rewrite Ew in B'. apply bytes_ok_cons in B' as [_ B']. repeat (apply bytes_ok_app in B' as [? B']).
    pose proof (opened_weight _ _ _ _ _ ct tag _ _ HP Lk Lno ltac:(assumption) ltac:(assumption) Lt Ho Df) as W.
    pose proof (low_bits (sh_byte (po_header p))) as LB. rewrite Ew. split.
    + eexists. symmetry. apply app_nil_r.
    + unfold packet_weight. rewrite len_cons, !len_app, len_nil. lia.
Qed.
Print Assumptions C108_one_packet.

(** Whole datagrams. *)
Theorem C108_datagram : forall P oc c s ps,
  prims_ok P -> keyed P oc c -> bytes_ok s -> len s < 2 ^ 63 ->
  decode_packets oc c s = Ok ps -> packets_weight ps <= len s.
Proof.
  intros P oc c s ps HP K. unfold decode_packets. generalize (length s) as fuel. intros fuel. revert s ps.
  induction fuel as [|fuel IH]; intros [|x s] ps B LS D; cbn [decode_packets_loop] in D; try discriminate;
    try (injection D as <-; vm_compute; discriminate).
  destruct (decode_next_packet oc c (x :: s)) as [[p s1]| | |] eqn:E; cbn [bind] in D; try discriminate D.
  destruct (decode_packets_loop oc c fuel s1) as [ps'| | |] eqn:E1; cbn [bind] in D; try discriminate D.
  injection D as <-.
  destruct (C108_one_packet P oc c (x :: s) p s1 HP K B LS E) as [[used Eu] W].
  rewrite Eu in B. apply bytes_ok_app in B as [_ B].
  assert (len s1 < 2 ^ 63) by lia.
  specialize (IH s1 ps' B H E1). cbn [packets_weight]. lia.
Qed.
Print Assumptions C108_datagram.

(** Every connection of the library is [keyed]. *)
Theorem C108_reachable : forall P oc srv d l c s ps,
  prims_ok P -> reachable P oc srv d l c -> bytes_ok s -> len s < 2 ^ 63 ->
  decode_packets oc c s = Ok ps -> packets_weight ps <= len s.
Proof.
  intros P oc srv d l c s ps HP R B LS D. apply (C108_datagram P oc c s ps HP); auto.
  pose proof (reachable_inv _ _ _ _ _ _ HP R) as I. split.
  - destruct (ci_keys _ _ _ _ _ _ I) as [cid [kl [kr [_ [_ [_ [_ K]]]]]]]. eauto.
  - intros sp. split; [apply (ci_acks _ _ _ _ _ _ I)|].
    destruct sp.
    + right. destruct (ci_keys _ _ _ _ _ _ I) as [cid [kl [kr [_ [_ [_ [_ K]]]]]]]. eauto.
    + left. apply (ci_none _ _ _ _ _ _ I). discriminate.
    + left. apply (ci_none _ _ _ _ _ _ I). discriminate.
Qed.
Print Assumptions C108_reachable.

(** An Initial packet with a token, a Handshake packet and a Version
    Negotiation packet in one datagram. *)
Example C108_case :
  (let? (c, s) := three_keys in
   let? p := snd (initial_new true sample_payload (Some [7; 7; 7]) c) in
   let? w1 := initial_serialize true p c in
   let? h := snd (handshake_new true sample_payload c) in
   let? w2 := handshake_serialize true h c in
   let vn := 0x80 :: [0; 0; 0; 0] ++ [1; 9; 0; 0; 0; 0; 1; 0; 0; 0; 2] in
   let? ps := decode_packets true s (w1 ++ w2 ++ vn) in
   Ok (map packet_kind ps, map packet_weight ps, packets_weight ps, len (w1 ++ w2 ++ vn))) =
  Ok ([TInitial; THandshake; TVersionNegotiation], [14; 11; 10], 35, 124).
Proof. vm_compute. reflexivity. Qed.

