(** Properties C24 and C25: decoding arbitrary datagrams. *)
From Verif Require Import Base Utils Frame CipherSuite Secrets Connection Packet Histories Spec SpecPacket
  Tactics UtilsFacts ParserFacts FrameFacts SecretsFacts HeaderFacts PacketFacts ConnectionFacts PacketInv
  DecodeFacts SendFacts CryptoInst PropConn PropPacket.

(** ** C25: what acceptance means.  [s] is the received datagram, [rest] what
    follows the packet in it. *)
Theorem C25_accepted_is_authentic : forall P oc srv d l c k s p rest,
  prims_ok P -> reachable P oc srv d l c -> remote_keys P oc c SpInitial k -> bytes_ok s -> len s < 2 ^ 63 ->
  decode_next_packet oc c s = Ok (PInitial p, rest) ->
  exists b0 fields tl ll ppn ct tag m0 mask more nonce pt,
    (* the packet as received ... *)
    s = b0 :: fields ++ tl ++ pi_token p ++ ll ++ ppn ++ ct ++ tag ++ rest /\ len ppn = 4 /\ len tag = 16 /\
    (* ... its fields are the returned ones ... *)
    long_fields (pi_header p) fields /\ varint_enc (len (pi_token p)) tl /\
    varint_enc (len (pi_pn_bytes p) + len ct + len tag) ll /\
    (* ... header protection removed with the mask of the sample after the packet number ... *)
    p_ecb_encrypt P (k_hp k) (firstn 16 (ct ++ tag ++ rest)) = Some (m0 :: mask ++ more) /\ len mask = 4 /\
    lh_byte (pi_header p) = N.lxor b0 (N.land m0 0x0f) /\
    len (pi_pn_bytes p) = N.land (lh_byte (pi_header p)) 0x03 + 1 /\
    pi_pn_bytes p = firstn (N.to_nat (len (pi_pn_bytes p))) (xor_bytes ppn mask) /\
    pi_pn p = be_val (pi_pn_bytes p) /\
    (* ... and the AEAD opened *)
    nonce_for (k_iv k) (pi_pn p) nonce /\
    p_gcm_open P (k_key k) nonce
      (lh_byte (pi_header p) :: fields ++ tl ++ pi_token p ++ ll ++ pi_pn_bytes p) ct tag = Some pt /\
    deserialize_frames oc pt = Ok (pi_payload p).
Proof.
  intros P oc srv d l c k s p rest HP R K B LS D. pose proof (reachable_inv _ _ _ _ _ _ HP R) as I.
  pose proof (proj1 (ci_acks _ _ _ _ _ _ I SpInitial)) as NA.
  destruct (initial_inv P oc c k s p rest HP K NA B LS D)
    as [h [fields [tl [L [ll [ppn [body [m0 [mask [more [nonce [ct [tag [pt [SH [Ee [Lm [Bm [Eh [Ln [Bn [En [Ep [Eb [EL [Lt [Hn [Ho Df]]]]]]]]]]]]]]]]]]]]]]]]]]]].
  exists (lh_byte h), fields, tl, ll, ppn, ct, tag, m0, mask, more, nonce, pt.
  split; [rewrite (is_wire _ _ _ _ _ _ _ _ _ SH) at 1; rewrite Eb; reflexivity|].
  split; [apply (is_ppn _ _ _ _ _ _ _ _ _ SH)|]. split; [auto|].
  split; [rewrite Eh; apply (is_fields _ _ _ _ _ _ _ _ _ SH)|].
  split; [apply (is_tl _ _ _ _ _ _ _ _ _ SH)|].
  split; [rewrite EL; apply (is_ll _ _ _ _ _ _ _ _ _ SH)|].
  rewrite Eb in Ee. split; [exact Ee|]. split; [auto|]. split; [rewrite Eh; reflexivity|].
  split; [auto|]. split; [auto|]. split; [auto|]. split; [auto|]. split; auto.
Qed.
Print Assumptions C25_accepted_is_authentic.

(** For four byte packet numbers acceptance is exactly conformance: the consumed
    bytes are the protected form of the returned packet under the peer's keys. *)
Theorem C25_accepted_iff_conformant : forall P oc srv d l c k s p rest,
  prims_ok P -> reachable P oc srv d l c -> remote_keys P oc c SpInitial k -> bytes_ok s -> len s < 2 ^ 63 ->
  len (pi_pn_bytes p) = 4 ->
  decode_next_packet oc c s = Ok (PInitial p, rest) <->
  exists wire pt, s = wire ++ rest /\ initial_wire P k p pt wire /\ pi_pn p < 2 ^ 32 /\
    deserialize_frames oc pt = Ok (pi_payload p).
Proof.
  intros P oc srv d l c k s p rest HP R K B LS L4. pose proof (reachable_inv _ _ _ _ _ _ HP R) as I.
  pose proof (proj1 (ci_acks _ _ _ _ _ _ I SpInitial)) as NA. split.
  2:{ intros [wire [pt [-> [W [Hp Df]]]]]. eapply initial_decodes; eauto. }
  intros D.
  destruct (initial_inv P oc c k s p rest HP K NA B LS D)
    as [h [fields [tl [L [ll [ppn [body [m0 [mask [more [nonce [ct [tag [pt [SH [Ee [Lm [Bm [Eh [Ln [Bn [En [Ep [Eb [EL [Lt [Hn [Ho Df]]]]]]]]]]]]]]]]]]]]]]]]]]]].
  destruct SH as [Hb Hlong Ht Hv VN HF HT BT HL Lp4 Bp Bb Ew].
  pose proof K as [sec [_ Ks]]. destruct Ks as [_ [_ [_ [_ [K1 [K2 [K3 K4]]]]]]].
  assert (Lno : len nonce = 12) by (destruct Hn as [_ [-> _]]; auto).
  rewrite Eb in Bb. apply bytes_ok_app in Bb as [Bct Bb]. apply bytes_ok_app in Bb as [Btag Brest].
  destruct (auth_law P HP _ _ _ _ _ _ K1 Lno Bct Btag Lt Ho) as [Bpt [Lpt Seal]].
  assert (Lx : len (xor_bytes ppn mask) = 4) by (rewrite xor_bytes_len; congruence).
  assert (Epn : pi_pn_bytes p = xor_bytes ppn mask).
  { rewrite L4 in En. rewrite En. apply firstn_all2. unfold len in Lx. lia. }
  assert (Hpn : pi_pn p < 2 ^ 32) by (rewrite Ep; apply pnb_bound; auto; lia).
  exists (lh_byte h :: (fields ++ tl ++ pi_token p ++ ll) ++ ppn ++ ct ++ tag), pt.
  split; [rewrite Ew, Eb; cbn [app]; rewrite <- !app_assoc; reflexivity|].
  split; [|auto].
  exists fields, tl, ll. rewrite Eh in *. cbn [with_byte lh_byte lh_version lh_vn lh_protected] in *.
  split; [apply xor_mask_byte; auto; lia|].
  split. { apply (type_of_b0_inv _ 0); [apply xor_mask_byte; auto; lia| |]; pose proof (low4_div (lh_byte h) m0); lia. }
  split; [auto|]. split; [auto|]. split; [auto|]. split; [exact HF|]. split; [auto|]. split; [auto|].
  split; [rewrite <- Lpt in EL; replace (len (pi_pn_bytes p) + len pt + 16) with L by lia; auto|]. split; [auto|].
  split.
  { split; [lia|]. split; [auto|]. rewrite Ep, L4. symmetry. apply N.mod_small. 
    change (256 ^ 4) with (2 ^ 32). rewrite <- Ep. exact Hpn. }
  split; [lia|].
  exists nonce, ct, tag, m0, mask, more. split; [auto|].
  split; [rewrite <- !app_assoc; exact Seal|].
  assert (L20 : 20 <= len (pi_pn_bytes p ++ ct ++ tag)) by (rewrite !len_app; lia).
  split; [exact L20|]. split.
  { replace (skipn 4 (pi_pn_bytes p ++ ct ++ tag)) with (ct ++ tag)
      by (symmetry; apply skipn_app_exact; unfold len in L4; lia).
    rewrite Eb, app_assoc, firstn_app in Ee.
    replace (16 - length (ct ++ tag))%nat with 0%nat in Ee
      by (rewrite app_length; unfold len in Lt; lia).
    cbn [firstn] in Ee. rewrite app_nil_r in Ee. exact Ee. }
  split; [auto|]. rewrite Epn, xor_low_twice.
  rewrite xor_bytes_invol by (unfold len in *; lia). reflexivity.
Qed.
Print Assumptions C25_accepted_iff_conformant.
(** A damaged packet is refused. *)
Example C25_case :
  (let? (c, s) := sample_pair true in
   let? p := snd (initial_new true sample_payload (Some [9; 9]) c) in
   let? wire := initial_serialize true p c in
   let flip i := firstn i wire ++ N.lxor (nth i wire 0) 1 :: skipn (S i) wire in
   Ok (forallb (fun i => match decode_next_packet true s (flip i) with Ok (PInitial _, _) => false | _ => true end)
         (seq 0 (length wire)), length wire,
       match decode_next_packet true s wire with Ok (PInitial q, _) => pi_payload q | _ => [] end))
  = Ok (true, 55%nat, sample_payload).
Proof. vm_compute. reflexivity. Qed.

(** ** C24: the datagrams that crash the decoder, exactly. *)
Inductive crashes (P : prims) (k : keys) (oc : bool) (s : list N) : Prop :=
| cr_header : (forall t, ~ announces s t) -> crashes P k oc s
| cr_retry : announces s TRetry -> crashes P k oc s
| cr_length : forall h fields tl token L ll ppn body m0 mask more,
    initial_shape h fields tl token L ll ppn body s -> 16 <= len body ->
    p_ecb_encrypt P (k_hp k) (firstn 16 body) = Some (m0 :: mask ++ more) -> len mask = 4 ->
    (let pnl := N.land (N.lxor (lh_byte h) (N.land m0 0x0f)) 0x03 + 1 in
     L < pnl + 16 /\ (oc = true \/ pnl <= L)) ->
    crashes P k oc s.

Lemma crashes_panic P oc srv d l c k s :
  prims_ok P -> reachable P oc srv d l c -> remote_keys P oc c SpInitial k -> bytes_ok s ->
  crashes P k oc s -> exists w, decode_next_packet oc c s = Panic w.
Proof.
  intros HP R K B C. pose proof (reachable_inv _ _ _ _ _ _ HP R) as I.
  pose proof (proj1 (ci_acks _ _ _ _ _ _ I SpInitial)) as NA.
  destruct C as [NoA|A|h fields tl token L ll ppn body m0 mask more SH L16 Ecb Lm [HL HO]].
  - destruct (decode_next_cases oc c s B) as [[w [e [Eh E']]]|[[b [s1 [h [r [Es [Hb [El [Eb D]]]]]]]]|[b [s1 [h [r [Es [Hb [El D]]]]]]]]].
    + eauto.
    + exfalso. assert (X : exists t, announces s t).
      { apply header_announces_iff; auto. exists (HLong h), r. subst s. unfold next_header_from_stream.
        cbn [next bind]. rewrite land_128 by lia. destruct (N.leb_spec 128 b); [|lia]. rewrite El. reflexivity. }
      destruct X as [t X]. eapply NoA; eauto.
    + exfalso. assert (X : exists t, announces s t).
      { apply header_announces_iff; auto. exists (HShort h), r. subst s. unfold next_header_from_stream.
        cbn [next bind]. rewrite land_128 by lia. destruct (N.leb_spec 128 b); [lia|]. rewrite El. reflexivity. }
      destruct X as [t X]. eapply NoA; eauto.
  - destruct (decode_next_cases oc c s B) as [[w [e [Eh E']]]|[[b [s1 [h [r [Es [Hb [El [Eb D]]]]]]]]|[b [s1 [h [r [Es [Hb [El D]]]]]]]]].
    + eauto.
    + assert (NH : next_header_from_stream s = Ok (HLong h, r)).
      { subst s. unfold next_header_from_stream. cbn [next bind]. rewrite land_128 by lia.
        destruct (N.leb_spec 128 b); [|lia]. rewrite El. reflexivity. }
      destruct (header_announces s _ _ B NH) as [b' [s1' [Es' [_ [_ [_ A']]]]]].
      assert (b' = b) as -> by congruence.
      rewrite D, (announces_fun _ _ _ A' A). cbn. eauto.
    + exfalso. assert (NH : next_header_from_stream s = Ok (HShort h, r)).
      { subst s. unfold next_header_from_stream. cbn [next bind]. rewrite land_128 by lia.
        destruct (N.leb_spec 128 b); [lia|]. rewrite El. reflexivity. }
      destruct (header_announces s _ _ B NH) as [b' [s1' [Es' [_ [_ A']]]]].
      pose proof (announces_fun _ _ _ A' A). discriminate.
  - pose proof (initial_eq P oc c k _ _ _ _ _ _ _ _ _ HP K NA SH) as Q.
    destruct (N.ltb_spec (len body) 16); [lia|].
    destruct Q as [m0' [mask' [more' [Ecb' [Lm' [Bm Q]]]]]].
    assert (m0' = m0) as -> by congruence.
    destruct SH as [Hb Hlong Ht Hv VN HF HT BT HLL Lp4 Bp Bb Ew].
    rewrite Ew. rewrite (long_dispatch oc c h fields (lh_byte h)) by auto. rewrite Ht, <- Ew, Q.
    unfold initial_rest. cbv zeta. set (first := N.lxor (lh_byte h) (N.land m0 15)) in *.
    pose proof (land3_le first) as L3. unfold sub64.
    destruct (N.leb_spec (N.land first 3 + 1) L) as [LL|LL].
    + cbn [bind]. rewrite var_bytes_spec. destruct (N.leb_spec (L - (N.land first 3 + 1)) (len body)); [|lia].
      cbn [bind].
      unfold decrypt_remote_payload, borrow_remote_tls_secrets. destruct K as [sec [Es Ks]]. rewrite Es. cbn [ok_or bind].
      set (pnb := firstn (N.to_nat (N.land first 3 + 1)) (xor_bytes ppn mask')).
      apply bytes_ok_cons in Bm as [_ Bmask].
      assert (Bpn : bytes_ok pnb) by (apply bytes_ok_firstn, xor_bytes_ok; auto).
      assert (Lpn : len pnb <= 4) by (unfold pnb, len; rewrite firstn_length; lia).
      pose proof (pnb_bound pnb Bpn Lpn).
      edestruct (decrypt_payload_short P oc sec k) as [w E]; [exact Ks| | |rewrite E; cbn [bind]; eauto].
      * pows. lia.
      * unfold len in *. rewrite firstn_length. lia.
    + destruct HO as [->|]; [|lia]. cbn [bind]. eauto.
Qed.

Lemma no_crash P oc srv d l c k s :
  prims_ok P -> reachable P oc srv d l c -> remote_keys P oc c SpInitial k -> bytes_ok s -> len s < 2 ^ 63 ->
  crashes P k oc s \/ (exists p rest, decode_next_packet oc c s = Ok (p, rest)) \/
  (exists e, decode_next_packet oc c s = Err e).
Proof.
  intros HP R K B LS. pose proof (reachable_inv _ _ _ _ _ _ HP R) as I.
  pose proof (proj1 (ci_acks _ _ _ _ _ _ I SpInitial)) as NA.
  destruct (ci_none _ _ _ _ _ _ I SpHandshake ltac:(discriminate)) as [_ N1].
  destruct (ci_none _ _ _ _ _ _ I SpApplication ltac:(discriminate)) as [_ N2].
  destruct (decode_next_cases oc c s B) as [[w [e [Eh E']]]|[[b [s1 [h [r [Es [Hb [El [Eb D]]]]]]]]|[b [s1 [h [r [Es [Hb [El D]]]]]]]]].
  - left. apply cr_header. intros t A. destruct (announces_header s t B A) as [h' [r' [X _]]]. congruence.
  - assert (NH : next_header_from_stream s = Ok (HLong h, r)).
    { subst s. unfold next_header_from_stream. cbn [next bind]. rewrite land_128 by lia.
      destruct (N.leb_spec 128 b); [|lia]. rewrite El. reflexivity. }
    destruct (header_announces s _ _ B NH) as [b' [s1' [Es' [_ [_ [_ A]]]]]].
    assert (b' = b) as -> by congruence.
    rewrite D. destruct (kind b (lh_version h)) eqn:KD.
    + destruct (vn_total s B) as [[p E]|[e E]]; rewrite E; cbn [bind]; eauto.
    + unfold kind in KD. destruct (N.ltb_spec b 128); [discriminate|].
      destruct (N.eqb_spec (lh_version h) 0) as [|Hv]; [discriminate|].
      assert (Ht : (b / 16) mod 4 = 0) by (destruct ((b / 16) mod 4) as [|[[]|[]|]]; congruence).
      destruct (initial_shaped oc c s h s1 b B Es (proj1 Hb) (ex_intro _ r El) Hv Ht)
        as [[e E1]|[h' [fields [tl [token [L [ll [ppn [body [SH Eh]]]]]]]]]]; [rewrite E1; cbn [bind]; eauto|].
      pose proof (initial_eq P oc c k _ _ _ _ _ _ _ _ _ HP K NA SH) as Q.
      destruct (N.ltb_spec (len body) 16) as [L16|L16]; [rewrite Q; cbn [bind]; eauto|].
      destruct Q as [m0 [mask [more [Ecb [Lm [Bm Q]]]]]]. rewrite Q.
      unfold initial_rest. cbv zeta. set (first := N.lxor (lh_byte h') (N.land m0 15)) in *.
      pose proof (land3_le first) as L3. unfold sub64.
      destruct (N.leb_spec (N.land first 3 + 1) L) as [LL|LL].
      * destruct (N.lt_ge_cases L (N.land first 3 + 1 + 16)) as [SL|SL].
        { left. eapply cr_length; eauto.  }
        cbn [bind]. rewrite var_bytes_spec. destruct (N.leb_spec (L - (N.land first 3 + 1)) (len body)); cbn [bind]; eauto.
        unfold decrypt_remote_payload, borrow_remote_tls_secrets. pose proof K as [sec [Esc Ks]]. rewrite Esc. cbn [ok_or bind].
        set (pnb := firstn (N.to_nat (N.land first 3 + 1)) (xor_bytes ppn mask)).
        pose proof (bytes_ok_cons m0 mask) as BC. apply BC in Bm as [_ Bmask].
        destruct SH as [Hb' Hlong' Ht' Hv' VN' HF HT BT HLL Lp4 Bp Bb Ew].
        assert (Bpn : bytes_ok pnb) by (apply bytes_ok_firstn, xor_bytes_ok; auto).
        assert (Lpn : len pnb <= 4) by (unfold pnb, len; rewrite firstn_length; lia).
        pose proof (pnb_bound pnb Bpn Lpn).
        set (data := firstn (N.to_nat (L - (N.land first 3 + 1))) body).
        assert (Bd : bytes_ok data) by (apply bytes_ok_firstn; auto).
        edestruct (decrypt_payload_split P oc sec k data) as [nonce [ct [tag [Hn [Ed [Lt E]]]]]];
          [exact Ks| | |rewrite E].
        { pows; lia. }
        { unfold data, len in *. rewrite firstn_length. lia. }
        rewrite Ed in Bd. apply bytes_ok_app in Bd as [Bct Btag].
        destruct Ks as [_ [_ [_ [_ [K1 [K2 [K3 K4]]]]]]].
        assert (Lno : len nonce = 12) by (destruct Hn as [_ [-> _]]; auto).
        destruct (p_gcm_open P (k_key k) nonce _ ct tag) as [pt|] eqn:Ho; cbn [ok_or bind]; eauto.
        destruct (auth_law P HP _ _ _ _ _ _ K1 Lno Bct Btag Lt Ho) as [Bpt _].
        pose proof (deserialize_frames_total oc pt Bpt) as T.
        destruct (deserialize_frames oc pt) as [fs|e| |]; cbn [bind]; try tauto; eauto.
      * destruct oc.
        { left. eapply cr_length; eauto. cbv zeta. fold first. split; [lia|left; reflexivity]. }
        cbn [bind]. rewrite var_bytes_spec.
        pose proof (varint_enc_v62 _ _ (is_ll _ _ _ _ _ _ _ _ _ SH)) as V. unfold v62 in V.
        assert (len body <= len s) by (rewrite (is_wire _ _ _ _ _ _ _ _ _ SH), len_cons, !len_app; lia).
        match goal with |- context [?n <=? len body] => destruct (N.leb_spec n (len body)) as [W|W] end.
        { exfalso. unfold two64 in W. pows. lia. }
        cbn [bind]. eauto.
    + destruct (zero_rtt_no_keys oc c s B N2) as [e E]. rewrite E. cbn [bind]. eauto.
    + destruct (handshake_no_keys oc c s B N1) as [e E]. rewrite E. cbn [bind]. eauto.
    + left. apply cr_retry. exact A.
    + exfalso. unfold kind in KD. destruct (N.ltb_spec b 128); [lia|].
      destruct (lh_version h =? 0); [discriminate|]. destruct ((b / 16) mod 4) as [|[[]|[]|]]; discriminate.
    + exfalso. unfold kind in KD. destruct (N.ltb_spec b 128); [lia|].
      destruct (lh_version h =? 0); [discriminate|]. destruct ((b / 16) mod 4) as [|[[]|[]|]]; discriminate.
  - destruct (one_rtt_no_keys oc c s B N2) as [e E]. rewrite D, E. cbn [bind]. eauto.
Qed.

(** One packet. *)
Theorem C24_next_packet_exact : forall P oc srv d l c k s,
  prims_ok P -> reachable P oc srv d l c -> remote_keys P oc c SpInitial k -> bytes_ok s -> len s < 2 ^ 63 ->
  (crashes P k oc s /\ exists w, decode_next_packet oc c s = Panic w) \/
  (~ crashes P k oc s /\ ((exists p rest, decode_next_packet oc c s = Ok (p, rest)) \/
                          (exists e, decode_next_packet oc c s = Err e))).
Proof.
  intros P oc srv d l c k s HP R K B LS.
  destruct (no_crash P oc srv d l c k s HP R K B LS) as [C|X].
  - left. split; [exact C|]. eapply crashes_panic; eauto.
  - right. split; [|exact X]. intros C.
    destruct (crashes_panic P oc srv d l c k s HP R K B C) as [w E].
    destruct X as [[p [rest X]]|[e X]]; congruence.
Qed.
Print Assumptions C24_next_packet_exact.

(** What an accepted packet leaves is a proper suffix of the datagram. *)
Lemma accepted_suffix P oc srv d l c k s p rest :
  prims_ok P -> reachable P oc srv d l c -> remote_keys P oc c SpInitial k -> bytes_ok s -> len s < 2 ^ 63 ->
  decode_next_packet oc c s = Ok (p, rest) -> exists used, s = used ++ rest /\ used <> [].
Proof.
  intros HP R K B LS D.
  destruct (C28_no_protected_packet_accepted P oc srv d l c s HP R B) as [X _]. specialize (X p rest D).
  destruct p as [v|p| | | |]; try contradiction.
  - assert (E : rest = []).
    { destruct (decode_next_cases oc c s B) as [[w [e [_ E]]]|[[b [s1 [h [r [Es [Hb [El [E0 E]]]]]]]]|[b [s1 [h [r [_ [_ [_ E]]]]]]]]].
      - congruence.
      - rewrite E in D. destruct (kind b (lh_version h)); inv_bind; try discriminate.
        destruct (vn_total s B) as [[q Ev]|[e Ev]]; rewrite Ev in *; inv_bind; congruence.
      - rewrite E in D. inv_bind. discriminate. }
    subst rest. exists s. rewrite app_nil_r. split; [reflexivity|]. intros ->. discriminate.
  - destruct (C25_accepted_is_authentic P oc srv d l c k s p rest HP R K B LS D)
      as [b0 [f [tl [ll [ppn [ct [tag [m0 [mask [more [nonce [pt [E _]]]]]]]]]]]]].
    exists (b0 :: f ++ tl ++ pi_token p ++ ll ++ ppn ++ ct ++ tag). split; [|discriminate].
    rewrite E. cbn [app]. rewrite <- !app_assoc. reflexivity.
Qed.

(** The positions of a datagram at which a packet is looked for. *)
Inductive reaches (oc : bool) (c : connection) : list N -> list N -> Prop :=
| re_here : forall s, reaches oc c s s
| re_next : forall s p s1 s', decode_next_packet oc c s = Ok (p, s1) -> reaches oc c s1 s' -> reaches oc c s s'.

(** Whole datagrams: terminates, and crashes exactly when a position that is
    reached crashes. *)
Theorem C24_datagram_exact : forall P oc srv d l c k s,
  prims_ok P -> reachable P oc srv d l c -> remote_keys P oc c SpInitial k -> bytes_ok s -> len s < 2 ^ 63 ->
  ((exists s', reaches oc c s s' /\ s' <> [] /\ crashes P k oc s') /\ exists w, decode_packets oc c s = Panic w) \/
  ((forall s', reaches oc c s s' -> s' <> [] -> ~ crashes P k oc s') /\
   ((exists ps, decode_packets oc c s = Ok ps) \/ (exists e, decode_packets oc c s = Err e))).
Proof.
  intros P oc srv d l c k s HP R K. unfold decode_packets.
  assert (G : forall n s, (length s <= n)%nat -> bytes_ok s -> len s < 2 ^ 63 ->
    ((exists s', reaches oc c s s' /\ s' <> [] /\ crashes P k oc s') /\ exists w, decode_packets_loop oc c n s = Panic w) \/
    ((forall s', reaches oc c s s' -> s' <> [] -> ~ crashes P k oc s') /\
     ((exists ps, decode_packets_loop oc c n s = Ok ps) \/ (exists e, decode_packets_loop oc c n s = Err e)))).
  2:{ apply G. lia. }
  assert (NIL : forall s', reaches oc c [] s' -> s' = []).
  { intros s' X. inversion X as [|? p s1 ? D]; subst; auto. discriminate. }
  clear s. induction n as [|n IH]; intros s Hn B LS.
  - destruct s; [|cbn in Hn; lia]. right. split; [intros s' X NE; apply NIL in X; contradiction|].
    left. exists []. reflexivity.
  - destruct s as [|b s0]; [right; split; [intros s' X NE; apply NIL in X; contradiction|left; exists []; reflexivity]|].
    remember (b :: s0) as s eqn:Es.
    assert (U : decode_packets_loop oc c (S n) s =
      let? (p, s) := decode_next_packet oc c s in let? ps := decode_packets_loop oc c n s in Ok (p :: ps))
      by (subst s; reflexivity).
    rewrite U.
    destruct (C24_next_packet_exact P oc srv d l c k s HP R K B LS) as [[C [w D]]|[NC [[p [rest D]]|[e D]]]].
    + left. rewrite D. cbn [bind]. split; [|eauto]. exists s. split; [constructor|]. split; [subst; discriminate|exact C].
    + destruct (accepted_suffix P oc srv d l c k s p rest HP R K B LS D) as [used [Eu NE]].
      assert (Hr : (length rest <= n)%nat).
      { rewrite Eu, app_length in Hn. destruct used; [contradiction|]. cbn [length] in Hn. lia. }
      assert (Br : bytes_ok rest) by (rewrite Eu in B; apply bytes_ok_app in B; tauto).
      assert (Lr : len rest < 2 ^ 63) by (rewrite Eu, len_app in LS; lia).
      rewrite D. cbn [bind].
      destruct (IH rest Hr Br Lr) as [[[s' [X1 X2]] [w X3]]|[X1 X2]].
      * left. rewrite X3. cbn [bind]. split; [|eauto]. exists s'. split; [econstructor; eauto|exact X2].
      * right. split.
        { intros s' X NE'. inversion X as [|? p' s1 ? D' X']; subst s'; [exact NC|].
          assert (s1 = rest) as -> by congruence. subst. apply X1; auto. }
        { destruct X2 as [[ps X2]|[e X2]]; rewrite X2; cbn [bind]; eauto. }
    + right. rewrite D. cbn [bind]. split; [|eauto]. intros s' X NE'.
      inversion X as [|? p' s1 ? D' X']; subst s'; [exact NC|congruence].
Qed.
Print Assumptions C24_datagram_exact.

Definition C24_statement : Prop := forall P oc srv d l c s,
  prims_ok P -> reachable P oc srv d l c -> bytes_ok s -> len s < 2 ^ 63 ->
  (exists ps, decode_packets oc c s = Ok ps) \/ (exists e, decode_packets oc c s = Err e).

Theorem C24_decoding_refuted : ~ C24_statement.
Proof.
  intros H. destruct (sample_reachable true) as [c R].
  destruct (H real_prims true true sample_id 8 c [0xc0] real_prims_ok R) as [[ps X]|[e X]];
    [apply bytes_ok_dec; reflexivity|reflexivity|discriminate X..].
Qed.
Print Assumptions C24_decoding_refuted.

(** Holds for datagrams none of whose packets is hostile in the sense of
    [crashes]; missing: those that are. *)
Theorem C24_decoding_partial : forall P oc srv d l c k s,
  prims_ok P -> reachable P oc srv d l c -> remote_keys P oc c SpInitial k -> bytes_ok s -> len s < 2 ^ 63 ->
  (forall s', reaches oc c s s' -> s' <> [] -> ~ crashes P k oc s') ->
  (exists ps, decode_packets oc c s = Ok ps) \/ (exists e, decode_packets oc c s = Err e).
Proof.
  intros P oc srv d l c k s HP R K B LS H.
  destruct (C24_datagram_exact P oc srv d l c k s HP R K B LS) as [[[s' [A [NE C]]] _]|[_ X]]; [|exact X].
  exfalso. exact (H s' A NE C).
Qed.
Print Assumptions C24_decoding_partial.

(** Crashing inputs: a truncated header, a Retry packet, an Initial packet that
    announces no payload; and harmless ones. *)
Definition short_initial : list N := 0xc0 :: be_bytes 4 1 ++ [0; 0; 0; 1] ++ repeat 0 20.
Example C24_case :
  (let? (c, s) := sample_pair true in
   Ok (map (fun x => match decode_packets true s x with Ok _ => 0 | Err _ => 1 | Panic _ => 2 | Diverge => 3 end)
     [[]; [0xc0]; 0xf0 :: be_bytes 4 1 ++ [0; 0]; short_initial; 0xe0 :: be_bytes 4 1 ++ [0; 0; 20] ++ repeat 0 20;
      0x80 :: be_bytes 4 0 ++ [0; 0] ++ be_bytes 4 1; 0x40 :: repeat 0 40])) =
  Ok [0; 2; 2; 2; 1; 0; 1].
Proof. vm_compute. reflexivity. Qed.
