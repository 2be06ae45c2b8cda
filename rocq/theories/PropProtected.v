(** Properties C61-C63: Handshake, 0-RTT and 1-RTT packets on a connection that
    holds the keys for them.  (No function of the crate installs such keys, C28;
    the theorems are about every connection value that holds them.) *)
From Verif Require Import Base Utils Frame CipherSuite Secrets Connection Packet Histories Spec SpecPacket
  Tactics UtilsFacts ParserFacts FrameFacts SecretsFacts HeaderFacts PacketFacts ConnectionFacts PacketInv
  DecodeFacts SendFacts ProtectedInv CryptoInst Aes128 PropFrame PropConn PropPacket PropDecode.

(** ** C61: RFC packets are accepted once the keys are there. *)
Definition C61_statement : Prop :=
  (forall P oc c k p pt wire rest,
     prims_ok P -> remote_keys P oc c SpHandshake k -> no_remote_ack c SpHandshake ->
     handshake_wire P k p pt wire -> ph_pn p < 256 ^ len (ph_pn_bytes p) ->
     deserialize_frames oc pt = Ok (ph_payload p) ->
     decode_next_packet oc c (wire ++ rest) = Ok (PHandshake p, rest)) /\
  (forall P oc c k p pt wire rest,
     prims_ok P -> remote_keys P oc c SpApplication k -> no_remote_ack c SpApplication ->
     zero_rtt_wire P k p pt wire -> pz_pn p < 256 ^ len (pz_pn_bytes p) ->
     deserialize_frames oc pt = Ok (pz_payload p) ->
     decode_next_packet oc c (wire ++ rest) = Ok (PZeroRtt p, rest)) /\
  (forall P oc c k p pt wire,
     prims_ok P -> remote_keys P oc c SpApplication k -> no_remote_ack c SpApplication ->
     one_rtt_wire P k p pt wire -> po_pn p < 256 ^ len (po_pn_bytes p) ->
     deserialize_frames oc pt = Ok (po_payload p) ->
     decode_next_packet oc c wire = Ok (POneRtt p, [])).

(** The part that holds: four byte packet numbers.  Missing: shorter ones. *)
Theorem C61_handshake_partial : forall P oc c k p pt wire rest,
  prims_ok P -> remote_keys P oc c SpHandshake k -> no_remote_ack c SpHandshake ->
  handshake_wire P k p pt wire -> ph_pn p < 256 ^ len (ph_pn_bytes p) -> len (ph_pn_bytes p) = 4 ->
  deserialize_frames oc pt = Ok (ph_payload p) ->
  decode_next_packet oc c (wire ++ rest) = Ok (PHandshake p, rest).
Proof. intros. rewrite H4 in *. eapply handshake_decodes; eauto. Qed.
Print Assumptions C61_handshake_partial.

Theorem C61_zero_rtt_partial : forall P oc c k p pt wire rest,
  prims_ok P -> remote_keys P oc c SpApplication k -> no_remote_ack c SpApplication ->
  zero_rtt_wire P k p pt wire -> pz_pn p < 256 ^ len (pz_pn_bytes p) -> len (pz_pn_bytes p) = 4 ->
  deserialize_frames oc pt = Ok (pz_payload p) ->
  decode_next_packet oc c (wire ++ rest) = Ok (PZeroRtt p, rest).
Proof.
  intros P oc c k p pt wire rest HP K NA W Hpn L4 Df. rewrite L4 in Hpn.
  pose proof (zero_rtt_dec P oc c k p pt wire rest HP K NA W L4 Hpn Df) as D.
  destruct W as [fields [ll [Hb [Ht [Hv [VN [Hp [HF [HE [HL [Bpt PR]]]]]]]]]]].
  destruct PR as [_ [_ [nonce [ct [tag [m0 [mask [more [_ [_ [_ [_ [_ ->]]]]]]]]]]]]].
  destruct (type_of_b0 (lh_byte (pz_header p)) 1 Hb ltac:(lia) Ht) as [Hl Tb].
  pose proof (xor_mask_byte (lh_byte (pz_header p)) m0 15 Hb ltac:(lia)) as X.
  pose proof (low4_div (lh_byte (pz_header p)) m0) as D4.
  generalize dependent (N.lxor (lh_byte (pz_header p)) (N.land m0 15)). intros b D X D4.
  cbn [app] in *. rewrite <- !app_assoc in *.
  rewrite (long_dispatch oc c (pz_header p) fields b) by (auto; lia).
  rewrite D4, Tb, D. reflexivity.
Qed.
Print Assumptions C61_zero_rtt_partial.

Lemma short_dispatch oc c b d did rest : b < 128 -> cid_enc did 8 d ->
  decode_next_packet oc c (b :: d ++ rest) =
  let? (p, s) := one_rtt_from_stream oc c (b :: d ++ rest) in Ok (POneRtt p, s).
Proof.
  intros Hb HD. unfold decode_next_packet, next_header_from_stream. cbn [next bind].
  rewrite land_128 by lia. destruct (N.leb_spec 128 b); [lia|].
  rewrite (short_dec b d did rest HD). reflexivity.
Qed.

Lemma low5_short b m : b < 128 -> N.lxor b (N.land m 0x1f) < 128.
Proof. intros H. apply (lxor_lt 7); [exact H|]. apply (land_small m 31 7). reflexivity. Qed.

Theorem C61_one_rtt_partial : forall P oc c k p pt wire,
  prims_ok P -> remote_keys P oc c SpApplication k -> no_remote_ack c SpApplication ->
  one_rtt_wire P k p pt wire -> po_pn p < 256 ^ len (po_pn_bytes p) -> len (po_pn_bytes p) = 4 ->
  deserialize_frames oc pt = Ok (po_payload p) ->
  decode_next_packet oc c wire = Ok (POneRtt p, []).
Proof.
  intros P oc c k p pt wire HP K NA W Hpn L4 Df. rewrite L4 in Hpn.
  pose proof (one_rtt_dec P oc c k p pt wire HP K NA W L4 Hpn Df) as D.
  destruct W as [d [Hb [Hp [HD [Bpt PR]]]]].
  destruct PR as [_ [_ [nonce [ct [tag [m0 [mask [more [_ [_ [_ [_ [_ ->]]]]]]]]]]]]].
  rewrite (short_dispatch oc c _ d (sh_dcid (po_header p))), D; auto. apply low5_short; auto.
Qed.
Print Assumptions C61_one_rtt_partial.

(** What the tail of a packet with a short number looks like. *)
Lemma short_tail P k bits first mid pnb pn pt wire : prims_ok P -> keys_ok k -> bytes_ok pt ->
  protected P k bits first mid pnb pn pt wire -> len pnb < 4 ->
  exists m0 mask more ppn body nonce ct tag,
    wire = N.lxor first (N.land m0 bits) :: mid ++ ppn ++ body /\ len ppn = 4 /\ bytes_ok ppn /\ bytes_ok body /\
    len body = len pnb + len pt + 12 /\ 16 <= len body /\ len mask = 4 /\ bytes_ok (m0 :: mask) /\
    p_ecb_encrypt P (k_hp k) (firstn 16 body) = Some (m0 :: mask ++ more) /\
    N.land first 3 + 1 = len pnb /\ firstn (N.to_nat (len pnb)) (xor_bytes ppn mask) = pnb /\
    nonce_for (k_iv k) pn nonce /\ p_gcm_seal P (k_key k) nonce (first :: mid ++ pnb) pt = Some (ct, tag) /\
    body = skipn (N.to_nat (4 - len pnb)) (ct ++ tag) /\
    be_val pnb = pn mod 256 ^ len pnb.
Proof.
  intros HP [K1 [K2 [K3 K4]]] Bpt PR L4.
  destruct PR as [PF [PL [nonce [ct [tag [m0 [mask [more [Hn [Seal [L20 [Ecb [Lm ->]]]]]]]]]]]]].
  destruct PF as [PF1 [Bpn PV]].
  assert (Ln : len nonce = 12) by (destruct Hn as [_ [-> _]]; auto).
  destruct (open_law P HP _ _ _ _ _ _ K1 Ln Bpt Seal) as [Lct [Ltag [Bct [Btag _]]]].
  assert (Lx : len (xor_bytes pnb mask) = len pnb) by (apply xor_len_le; lia).
  set (tailb := xor_bytes pnb mask ++ ct ++ tag).
  assert (Lt : len tailb = len pnb + len pt + 16) by (unfold tailb; rewrite !len_app; lia).
  set (ppn := firstn 4 tailb). set (body := skipn 4 tailb).
  assert (Lp : len ppn = 4) by (unfold ppn, len in *; rewrite firstn_length; rewrite !app_length in L20; lia).
  assert (ET : tailb = ppn ++ body) by (symmetry; apply firstn_skipn).
  assert (Lb : len body = len pnb + len pt + 12) by (rewrite ET, len_app in Lt; lia).
  assert (L20' : 20 <= len pnb + len pt + 16) by (rewrite !len_app in L20; lia).
  assert (SK : skipn 4 tailb = skipn 4 (pnb ++ ct ++ tag)).
  { unfold tailb. rewrite !skipn_app. unfold len in Lx, L4.
    rewrite (skipn_all2 (n:=4) (xor_bytes pnb mask)) by lia. rewrite (skipn_all2 (n:=4) pnb) by lia.
    replace (length (xor_bytes pnb mask)) with (length pnb) by lia. reflexivity. }
  assert (MB : bytes_ok (m0 :: mask)).
  { assert (L16 : len (firstn 16 (skipn 4 (pnb ++ ct ++ tag))) = 16).
    { fold tailb in SK. rewrite <- SK. fold body. unfold len in *. rewrite firstn_length. lia. }
    destruct (ecb_law P HP (k_hp k) _ K3 L16) as [out [Eo [_ Bo]]]. rewrite Ecb in Eo. injection Eo as <-.
    apply bytes_ok_cons in Bo as [B0 Bo]. apply bytes_ok_app in Bo as [Bo _]. apply bytes_ok_cons; auto. }
  pose proof MB as MB'. apply bytes_ok_cons in MB' as [B0 Bm].
  assert (BTl : bytes_ok tailb) by (unfold tailb; apply bytes_ok_app; split; [apply xor_bytes_ok; auto|apply bytes_ok_app; auto]).
  exists m0, mask, more, ppn, body, nonce, ct, tag.
  split; [fold tailb; rewrite ET; reflexivity|]. split; [auto|].
  split; [apply bytes_ok_firstn; auto|]. split; [apply bytes_ok_skipn; auto|].
  split; [auto|]. split; [lia|]. split; [auto|]. split; [auto|].
  split; [unfold body; rewrite SK; exact Ecb|]. split; [auto|].
  split.
  { assert (Ef : firstn (N.to_nat (len pnb)) ppn = xor_bytes pnb mask).
    { unfold ppn, tailb. rewrite firstn_firstn. replace (Init.Nat.min (N.to_nat (len pnb)) 4) with (N.to_nat (len pnb)) by (unfold len in *; lia).
      apply firstn_app_exact. unfold len in *. lia. }
    assert (Em : mask = firstn (N.to_nat (len pnb)) mask ++ skipn (N.to_nat (len pnb)) mask) by (symmetry; apply firstn_skipn).
    assert (Lmf : length pnb = length (firstn (N.to_nat (len pnb)) mask)) by (rewrite firstn_length; unfold len in *; lia).
    transitivity (xor_bytes (firstn (N.to_nat (len pnb)) ppn) (firstn (N.to_nat (len pnb)) mask)).
    - apply xor_firstn.
    - rewrite Ef. rewrite Em at 1. rewrite xor_bytes_firstn by auto. apply xor_bytes_invol. lia. }
  split; [auto|]. split; [exact Seal|].
  split; [|exact PV].
  unfold body. rewrite SK, skipn_app. rewrite (skipn_all2 (n:=4) pnb) by (unfold len in L4; lia).
  cbn [app]. f_equal. unfold len. lia.
Qed.

(** Handshake and 0-RTT packets with shorter numbers are refused for want of
    bytes behind them (coalesced ones would run into the next packet). *)
Theorem C61_short_handshake_refused : forall P oc c k p pt wire,
  prims_ok P -> remote_keys P oc c SpHandshake k -> no_remote_ack c SpHandshake ->
  handshake_wire P k p pt wire -> len (ph_pn_bytes p) < 4 ->
  decode_next_packet oc c wire = Err (InternalError "not enough bytes for var_bytes").
Proof.
  intros P oc c k p pt wire HP K NA W L4.
  destruct p as [h pnb pn payload]. unfold handshake_wire in W. cbn [ph_header ph_pn ph_pn_bytes ph_payload] in *.
  destruct W as [fields [ll [Hb [Ht [Hv [VN [Hp [HF [HL [Bpt PR]]]]]]]]]].
  pose proof K as [sec [_ Ks]]. destruct Ks as [_ [_ [_ [_ KO]]]].
  destruct (short_tail P k _ _ _ _ _ _ _ HP KO Bpt PR L4)
    as [m0 [mask [more [ppn [body [nonce [ct [tag [-> [Lp [Bp [Bb [Lb [L16 [Lm [BM [Ecb [PL _]]]]]]]]]]]]]]]]]].
  destruct (type_of_b0 (lh_byte h) 2 Hb ltac:(lia) Ht) as [Hl Tb].
  set (b0 := N.lxor (lh_byte h) (N.land m0 15)).
  assert (X : b0 < 256) by (apply xor_mask_byte; lia).
  pose proof (low4_div (lh_byte h) m0) as D. fold b0 in D.
  assert (SH : long_shape 2 (with_byte h b0 true) fields (len pnb + len pt + 16) ll ppn body
                 (b0 :: (fields ++ ll) ++ ppn ++ body)).
  { constructor; cbn [with_byte lh_byte lh_version lh_vn]; auto.
    - lia.
    - rewrite D. exact Tb.
    - rewrite <- !app_assoc. reflexivity. }
  pose proof (handshake_eq P oc c k _ _ _ _ _ _ _ HP K NA SH) as Q.
  destruct (N.ltb_spec (len body) 16); [lia|].
  destruct Q as [m0' [mask' [more' [Ecb' [Lm' [_ Q]]]]]]. rewrite Ecb in Ecb'. assert (m0' = m0) as -> by congruence.
  rewrite <- !app_assoc in *.
  rewrite (long_dispatch oc c h fields b0) by (auto; lia). rewrite D, Tb, Q.
  unfold handshake_rest. cbv zeta. cbn [with_byte lh_byte]. unfold b0. rewrite xor_low_twice.
  rewrite PL. rewrite sub64_ok by lia. cbn [bind].
  rewrite var_bytes_spec. destruct (N.leb_spec (len pnb + len pt + 16 - len pnb) (len body)); [lia|]. reflexivity.
Qed.
Print Assumptions C61_short_handshake_refused.

Theorem C61_short_zero_rtt_refused : forall P oc c k p pt wire,
  prims_ok P -> remote_keys P oc c SpApplication k -> no_remote_ack c SpApplication ->
  zero_rtt_wire P k p pt wire -> len (pz_pn_bytes p) < 4 ->
  decode_next_packet oc c wire = Err (InternalError "not enough bytes for var_bytes").
Proof.
  intros P oc c k p pt wire HP K NA W L4.
  destruct p as [h length pnb pn payload]. unfold zero_rtt_wire in W. cbn [pz_header pz_length pz_pn pz_pn_bytes pz_payload] in *.
  destruct W as [fields [ll [Hb [Ht [Hv [VN [Hp [HF [-> [HL [Bpt PR]]]]]]]]]]].
  pose proof K as [sec [_ Ks]]. destruct Ks as [_ [_ [_ [_ KO]]]].
  destruct (short_tail P k _ _ _ _ _ _ _ HP KO Bpt PR L4)
    as [m0 [mask [more [ppn [body [nonce [ct [tag [-> [Lp [Bp [Bb [Lb [L16 [Lm [BM [Ecb [PL _]]]]]]]]]]]]]]]]]].
  destruct (type_of_b0 (lh_byte h) 1 Hb ltac:(lia) Ht) as [Hl Tb].
  set (b0 := N.lxor (lh_byte h) (N.land m0 15)).
  assert (X : b0 < 256) by (apply xor_mask_byte; lia).
  pose proof (low4_div (lh_byte h) m0) as D. fold b0 in D.
  assert (SH : long_shape 1 (with_byte h b0 true) fields (len pnb + len pt + 16) ll ppn body
                 (b0 :: (fields ++ ll) ++ ppn ++ body)).
  { constructor; cbn [with_byte lh_byte lh_version lh_vn]; auto.
    - lia.
    - rewrite D. exact Tb.
    - rewrite <- !app_assoc. reflexivity. }
  pose proof (zero_rtt_eq P oc c k _ _ _ _ _ _ _ HP K NA SH) as Q.
  destruct (N.ltb_spec (len body) 16); [lia|].
  destruct Q as [m0' [mask' [more' [Ecb' [Lm' [_ Q]]]]]]. rewrite Ecb in Ecb'. assert (m0' = m0) as -> by congruence.
  rewrite <- !app_assoc in *.
  rewrite (long_dispatch oc c h fields b0) by (auto; lia). rewrite D, Tb, Q.
  unfold zero_rtt_rest. cbv zeta. cbn [with_byte lh_byte]. unfold b0. rewrite xor_low_twice.
  rewrite PL. rewrite sub64_ok by lia. cbn [bind].
  rewrite var_bytes_spec. destruct (N.leb_spec (len pnb + len pt + 16 - len pnb) (len body)); [lia|]. reflexivity.
Qed.
Print Assumptions C61_short_zero_rtt_refused.

(** 1-RTT packets with shorter numbers lose the first bytes of their ciphertext:
    they are refused unless their tag also authenticates the shortened text. *)
Theorem C61_short_one_rtt_shifted : forall P oc c k p pt wire,
  prims_ok P -> remote_keys P oc c SpApplication k -> no_remote_ack c SpApplication ->
  one_rtt_wire P k p pt wire -> po_pn p < 256 ^ len (po_pn_bytes p) -> len (po_pn_bytes p) < 4 ->
  exists d nonce ct tag,
    cid_enc (sh_dcid (po_header p)) 8 d /\ nonce_for (k_iv k) (po_pn p) nonce /\
    p_gcm_seal P (k_key k) nonce (sh_byte (po_header p) :: d ++ po_pn_bytes p) pt = Some (ct, tag) /\
    ((exists e, decode_next_packet oc c wire = Err e) \/
     (exists pt', len pt' + (4 - len (po_pn_bytes p)) = len pt /\
        p_gcm_seal P (k_key k) nonce (sh_byte (po_header p) :: d ++ po_pn_bytes p) pt' =
        Some (skipn (N.to_nat (4 - len (po_pn_bytes p))) ct, tag))).
Proof.
  intros P oc c k p pt wire HP K NA W Hpn L4.
  destruct p as [h pnb pn payload]. unfold one_rtt_wire in W. cbn [po_header po_pn po_pn_bytes po_payload] in *.
  destruct W as [d [Hb [Hp [HD [Bpt PR]]]]].
  pose proof K as [sec [Es Ks]]. pose proof Ks as [_ [_ [_ [_ KO]]]].
  destruct (short_tail P k _ _ _ _ _ _ _ HP KO Bpt PR L4)
    as [m0 [mask [more [ppn [body [nonce [ct [tag [-> [Lp [Bp [Bb [Lb [L16 [Lm [BM [Ecb [PL [Epn [Hn [Seal [Ebody PV]]]]]]]]]]]]]]]]]]]]]].
  exists d, nonce, ct, tag. split; [auto|]. split; [auto|]. split; [exact Seal|].
  destruct KO as [K1 [K2 [K3 K4]]].
  assert (Ln : len nonce = 12) by (destruct Hn as [_ [-> _]]; auto).
  destruct (open_law P HP _ _ _ _ _ _ K1 Ln Bpt Seal) as [Lct [Ltag [Bct [Btag _]]]].
  set (j := N.to_nat (4 - len pnb)) in *.
  assert (EB : body = skipn j ct ++ tag).
  { rewrite Ebody, skipn_app. replace (j - length ct)%nat with 0%nat by (unfold j, len in *; lia). reflexivity. }
  rewrite (short_dispatch oc c _ d (sh_dcid h)) by (auto; apply low5_short; auto).
  pose proof (one_rtt_eq P oc c k (N.lxor (sh_byte h) (N.land m0 31)) d (sh_dcid h) ppn body HP K NA) as Q.
  specialize (Q ltac:(pose proof (low5_short (sh_byte h) m0 Hb); lia) HD Lp). cbv zeta in Q.
  destruct (N.ltb_spec (len body) 16); [lia|].
  destruct Q as [m0' [mask' [more' [Ecb' [Lm' [_ Q]]]]]]. rewrite Ecb in Ecb'. assert (m0' = m0) as -> by congruence.
  assert (mask' = mask) as ->.
  { injection Ecb' as Ecb'. apply cons_app_inj in Ecb' as [Ecb' _]; [auto|]. apply len_length. congruence. }
  rewrite Q. unfold one_rtt_rest. cbv zeta. rewrite xor_low_twice, PL, Epn.
  assert (Bpv : be_val pnb = pn) by (rewrite PV; apply N.mod_small; exact Hpn).
  rewrite Bpv. unfold decrypt_remote_payload, borrow_remote_tls_secrets. rewrite Es. cbn [ok_or bind].
  assert (Hpn' : pn < 2 ^ 64).
  { eapply N.lt_le_trans; [exact Hpn|]. change (2 ^ 64) with (256 ^ 8). apply N.pow_le_mono_r; lia. }
  rewrite EB. rewrite (decrypt_payload_eq P oc sec k (skipn j ct) tag _ pn nonce Ks) by auto.
  destruct (p_gcm_open P (k_key k) nonce _ (skipn j ct) tag) as [pt'|] eqn:Op; cbn [ok_or bind]; [|left; eauto].
  right. exists pt'. destruct (auth_law P HP _ _ _ _ _ _ K1 Ln (bytes_ok_skipn j _ Bct) Btag Ltag Op) as [_ [Lp' S']].
  split; [|exact S']. rewrite Lp'. unfold len at 1. rewrite skipn_length. unfold j, len in *. lia.
Qed.
Print Assumptions C61_short_one_rtt_shifted.

(** Protected packets exist for all fields of sensible size. *)
Lemma protected_exists P k bits first mid pnb pn pt : prims_ok P -> keys_ok k ->
  pn_field pn pnb -> pn < 2 ^ 64 -> N.land first 3 + 1 = len pnb -> bytes_ok pt ->
  len mid + 5 < 2 ^ 31 -> len pt + 16 < 2 ^ 31 -> 4 <= len pnb + len pt ->
  exists wire, protected P k bits first mid pnb pn pt wire.
Proof.
  intros HP [K1 [K2 [K3 K4]]] PF Hpn PL Bpt Lm Lpt L4. pose proof PF as [L1 _].
  destruct (nonce_exists (k_iv k) pn K2 K4 Hpn) as [nonce Hn].
  assert (Ln : len nonce = 12) by (destruct Hn as [_ [-> _]]; auto).
  destruct (p_gcm_seal P (k_key k) nonce (first :: mid ++ pnb) pt) as [[ct tag]|] eqn:Seal.
  2:{ exfalso. eapply (seal_law P HP); [exact K1|exact Ln| |exact Lpt|exact Seal].
      rewrite len_cons, len_app. lia. }
  destruct (open_law P HP _ _ _ _ _ _ K1 Ln Bpt Seal) as [Lct [Ltag [Bct [Btag _]]]].
  assert (L16 : len (firstn 16 (skipn 4 (pnb ++ ct ++ tag))) = 16).
  { unfold len in *. rewrite firstn_length, skipn_length, !app_length. lia. }
  destruct (ecb_law P HP (k_hp k) _ K3 L16) as [out [Eo [Lo _]]].
  destruct out as [|m0 out]; [change (len []) with 0 in Lo; lia|]. rewrite len_cons in Lo.
  eexists. split; [exact PF|]. split; [exact PL|]. exists nonce, ct, tag, m0, (firstn 4 out), (skipn 4 out).
  split; [exact Hn|]. split; [exact Seal|]. split; [rewrite !len_app; lia|].
  split; [rewrite firstn_skipn; exact Eo|]. split; [unfold len in *; rewrite firstn_length; lia|]. reflexivity.
Qed.

(** Putting the client's Initial keys also where the other keys belong: some
    connection that holds keys for all spaces. *)
Definition with_all_keys (c : connection) : connection :=
  let i := initial_pn_info c in
  Connection (c_version c) i (PnInfo None None 0 (local_tls_secrets i) (remote_tls_secrets i))
    (PnInfo None None 0 (local_tls_secrets i) (remote_tls_secrets i)) (c_dcid c) (c_scid c).

Lemma all_keys : exists c k, remote_keys real_prims true (with_all_keys c) SpHandshake k /\
  remote_keys real_prims true (with_all_keys c) SpApplication k /\
  no_remote_ack (with_all_keys c) SpHandshake /\ no_remote_ack (with_all_keys c) SpApplication /\ keys_ok k.
Proof.
  destruct (sample_reachable true) as [c R].
  pose proof (reachable_inv _ _ _ _ _ _ real_prims_ok R) as I.
  destruct (ci_keys _ _ _ _ _ _ I) as [cid [kl [k [_ [_ [_ [_ K]]]]]]].
  exists c, k. pose proof K as [s [Es Ks]]. repeat split; try (exists s; split; [exact Es|exact Ks]); apply Ks.
Qed.

Theorem C61_refuted : ~ C61_statement.
Proof.
  intros [H _]. destruct all_keys as [c0 [k [K [_ [NA [_ KO]]]]]]. set (c := with_all_keys c0) in *.
  assert (ID : id_fits sample_id 8) by (repeat split; vm_compute; (reflexivity || discriminate)).
  destruct ID as [D1 [D2 D3]]. destruct (cid_enc_exists sample_id 8) as [db Hd]; auto.
  set (h := LongHeader 0xe0 1 8 sample_id 8 sample_id None false).
  set (fields := be_bytes 4 1 ++ 8 :: db ++ 8 :: db).
  assert (HF : long_fields h fields).
  { exists (be_bytes 4 1), db, db. cbn. split; [apply (fixed_enc_be 4); reflexivity|]. auto. }
  set (p := PacketHandshake h [7] 7 [Ping; Ping; Ping]).
  pose proof (long_fields_len _ _ HF) as LF.
  destruct (protected_exists real_prims k 0x0f 0xe0 (fields ++ [20]) [7] 7 [1; 1; 1] real_prims_ok KO) as [wire W].
  { split; [vm_compute; split; discriminate|]. split; [repeat constructor|reflexivity]. }
  { reflexivity. }
  { reflexivity. }
  { repeat constructor. }
  { rewrite len_app. change (len [20]) with 1. pows. lia. }
  { reflexivity. }
  { discriminate. }
  assert (HW : handshake_wire real_prims k p [1; 1; 1] wire).
  { exists fields, [20]. cbn [p ph_header ph_pn ph_pn_bytes ph_payload h lh_byte lh_version lh_vn lh_protected].
    split; [reflexivity|]. split; [reflexivity|]. split; [discriminate|]. split; [reflexivity|]. split; [reflexivity|].
    split; [exact HF|]. split; [apply one_byte; reflexivity|]. split; [repeat constructor|]. exact W. }
  pose proof (C61_short_handshake_refused _ _ _ _ _ _ _ real_prims_ok K NA HW ltac:(reflexivity)) as E.
  assert (E2 : decode_next_packet true c (wire ++ []) = Ok (PHandshake p, [])).
  { apply (H real_prims true c k p [1; 1; 1] wire [] real_prims_ok K NA HW); reflexivity. }
  rewrite app_nil_r, E in E2. discriminate E2.
Qed.
Print Assumptions C61_refuted.
Example C61_long_case :
  (let? c := connection_new real_prims true false V1 sample_id 8 in
   let? s := connection_new real_prims true true V1 sample_id 8 in
   let c := with_all_keys c in let s := with_all_keys s in
   let dec w := match decode_next_packet true s w with
     | Ok (PHandshake q, r) => Ok (1, ph_pn q, ph_payload q, r)
     | Ok (PZeroRtt q, r) => Ok (2, pz_pn q, pz_payload q, r)
     | Ok _ => Ok (0, 0, [], [])
     | Err e => Err e | Panic w => Panic w | Diverge => Diverge
     end in
   let long type sp pnb :=
     let b := 0xc0 + type * 16 + (len pnb - 1) in
     let mid := be_bytes 4 1 ++ [1; 5; 0] ++ [20 + len pnb] in
     let? body := encrypt_local_payload c sp [1; 1; 1; 1] (b :: mid ++ pnb) (be_val pnb) in
     let? mask := get_local_hp_mask c sp (skipn (N.to_nat (4 - len pnb)) body) in
     match mask with
     | m0 :: m => Ok (N.lxor b (N.land m0 0x0f) :: mid ++ xor_bytes pnb m ++ body)
     | [] => Err (InternalError "mask")
     end in
   let? z4 := long 1 SpApplication [0; 0; 0; 9] in
   let? z1 := long 1 SpApplication [9] in
   let? h4 := long 2 SpHandshake [0; 0; 0; 9] in
   let? h1 := long 2 SpHandshake [9] in
   Ok (dec (z4 ++ [5]), dec z1, dec (h4 ++ [6]), dec h1)) =
  Ok (Ok (2, 9, [Ping; Ping; Ping; Ping], [5]), Err (InternalError "not enough bytes for var_bytes"),
      Ok (1, 9, [Ping; Ping; Ping; Ping], [6]), Err (InternalError "not enough bytes for var_bytes")).
Proof. vm_compute. reflexivity. Qed.

Definition three_keys : outcome (connection * connection) :=
  let? (c, s) := sample_pair true in Ok (with_all_keys c, with_all_keys s).

(** A Handshake and a 1-RTT packet, decoded as such, and the same 1-RTT packet
    with its number in one byte. *)
Example C61_case :
  (let? (c, s) := three_keys in
   let dec w := match decode_next_packet true s w with
     | Ok (PHandshake q, r) => Ok (1, ph_pn q, ph_payload q, r)
     | Ok (POneRtt q, r) => Ok (2, po_pn q, po_payload q, r)
     | Ok _ => Ok (0, 0, [], [])
     | Err e => Err e | Panic w => Panic w | Diverge => Diverge
     end in
   let? p := snd (handshake_new true [Ping; Padding] c) in
   let? w := handshake_serialize true p c in
   let short pnb :=
     let b := 0x40 + (len pnb - 1) in
     let d := be_bytes 8 (cid_val sample_id) in
     let? body := encrypt_local_payload c SpApplication [1; 1; 1; 1] (b :: d ++ pnb) (be_val pnb) in
     let? mask := get_local_hp_mask c SpApplication (skipn (N.to_nat (4 - len pnb)) body) in
     match mask with
     | m0 :: m => Ok (N.lxor b (N.land m0 0x1f) :: d ++ xor_bytes pnb m ++ body)
     | [] => Err (InternalError "mask")
     end in
   let? s4 := short [0; 0; 0; 9] in
   let? s1 := short [9] in
   Ok (dec (w ++ [5]), dec s4, match dec s1 with Err _ => true | _ => false end)) =
  Ok (Ok (1, 1, [Ping; Padding], [5]), Ok (2, 9, [Ping; Ping; Ping; Ping], []), true).
Proof. vm_compute. reflexivity. Qed.

(** ** C62: the packet number is the one in the packet number field. *)

(** Number [pn] and field [pnb] belong together (nothing acknowledged yet, so no
    other bits are known). *)
Definition number_of (pnb : list N) (pn : N) : Prop := pn = be_val pnb.

Definition C62_statement : Prop := forall P oc c k sp s p rest,
  prims_ok P -> remote_keys P oc c sp k -> no_remote_ack c sp -> bytes_ok s -> len s < 2 ^ 63 ->
  decode_next_packet oc c s = Ok (p, rest) ->
  match p with
  | PInitial q => sp = SpInitial -> number_of (pi_pn_bytes q) (pi_pn q)
  | PZeroRtt q => sp = SpApplication -> number_of (pz_pn_bytes q) (pz_pn q)
  | PHandshake q => sp = SpHandshake -> number_of (ph_pn_bytes q) (ph_pn q)
  | POneRtt q => sp = SpApplication -> number_of (po_pn_bytes q) (po_pn q)
  | _ => True
  end.

(** Missing: Handshake packets. *)
Theorem C62_number_partial : forall P oc c k sp s p rest,
  prims_ok P -> remote_keys P oc c sp k -> no_remote_ack c sp -> bytes_ok s -> len s < 2 ^ 63 ->
  decode_next_packet oc c s = Ok (p, rest) ->
  match p with
  | PInitial q => sp = SpInitial -> number_of (pi_pn_bytes q) (pi_pn q)
  | PZeroRtt q => sp = SpApplication -> number_of (pz_pn_bytes q) (pz_pn q)
  | POneRtt q => sp = SpApplication -> number_of (po_pn_bytes q) (po_pn q)
  | _ => True
  end.
Proof.
  intros P oc c k sp s p rest HP K NA B LS D. unfold number_of. destruct p as [v|q|q|q|q|q]; auto; intros ->.
  - destruct (initial_inv P oc c k s q rest HP K NA B LS D)
      as [h [f [tl [L [ll [ppn [body [m0 [mask [more [nonce [ct [tag [pt [_ [_ [_ [_ [_ [_ [_ [_ [X _]]]]]]]]]]]]]]]]]]]]]]].
    exact X.
  - destruct (zero_rtt_inv P oc c k s q rest HP K NA B LS D)
      as [h [f [ll [ppn [body [m0 [mask [more [nonce [ct [tag [pt [_ [_ [_ [_ [_ [_ [_ [_ [X _]]]]]]]]]]]]]]]]]]]]].
    exact X.
  - destruct (one_rtt_inv P oc c k s q rest HP K NA B D)
      as [b0 [d [ppn [body [m0 [mask [more [nonce [ct [tag [pt [_ [_ [_ [_ [_ [_ [_ [_ [_ [_ [_ [_ [_ [X _]]]]]]]]]]]]]]]]]]]]]]]]].
    exact X.
Qed.
Print Assumptions C62_number_partial.

(** A Handshake packet's number is made of all four bytes behind the length
    field, whatever the length of the number; any four bytes and any length
    occur in some accepted packet. *)
Theorem C62_handshake_four_bytes : forall P oc c k,
  prims_ok P -> remote_keys P oc c SpHandshake k -> no_remote_ack c SpHandshake ->
  (forall s q rest, bytes_ok s -> len s < 2 ^ 63 -> decode_next_packet oc c s = Ok (PHandshake q, rest) ->
     exists four, len four = 4 /\ bytes_ok four /\ ph_pn q = be_val four /\
       ph_pn_bytes q = firstn (N.to_nat (len (ph_pn_bytes q))) four) /\
  (forall four n, len four = 4 -> bytes_ok four -> 1 <= n <= 4 ->
     exists s q, bytes_ok s /\ len s < 200 /\ decode_next_packet oc c s = Ok (PHandshake q, []) /\
       ph_pn q = be_val four /\ ph_pn_bytes q = firstn (N.to_nat n) four).
Proof.
  intros P oc c k HP K NA. split.
  - intros s q rest B LS D.
    destruct (handshake_inv P oc c k s q rest HP K NA B LS D)
      as [h [f [L [ll [ppn [body [m0 [mask [more [nonce [ct [tag [pt [SH [_ [Lm [Bm [_ [_ [_ [X [Y _]]]]]]]]]]]]]]]]]]]]]].
    exists (xor_bytes ppn mask). pose proof (ls_ppn _ _ _ _ _ _ _ _ SH) as L4.
    split; [rewrite xor_bytes_len; congruence|].
    split; [apply xor_bytes_ok; [apply (ls_ppn_ok _ _ _ _ _ _ _ _ SH)|apply bytes_ok_cons in Bm; tauto]|]. auto.
  - intros four n L4 B4 Hn.
    pose proof K as [sec [Es Ks]]. pose proof Ks as [_ [_ [_ [_ [K1 [K2 [K3 K4]]]]]]].
    set (b := 0xe0 + (n - 1)).
    assert (Cn : n = 1 \/ n = 2 \/ n = 3 \/ n = 4) by lia.
    assert (Hb4 : b < 256) by (unfold b; lia).
    assert (Hb2 : N.land b 0xb0 = 0x80 + 0x10 * 2) by (unfold b; destruct Cn as [->|[->|[->| ->]]]; reflexivity).
    assert (Hb3 : N.land b 3 + 1 = n) by (unfold b; destruct Cn as [->|[->|[->| ->]]]; reflexivity).
    set (h := LongHeader b 1 0 u160_zero 0 u160_zero None false).
    set (fields := be_bytes 4 1 ++ 0 :: [] ++ 0 :: []).
    assert (Hz : cid_enc u160_zero 0 []) by (repeat split; vm_compute; (reflexivity || constructor)).
    assert (HF : long_fields h fields).
    { exists (be_bytes 4 1), [], []. cbn [h lh_version lh_dcid_len lh_dcid lh_scid_len lh_scid].
      split; [apply (fixed_enc_be 4); reflexivity|]. split; [lia|]. split; [exact Hz|]. split; [lia|]. auto. }
    set (pnb := firstn (N.to_nat n) four).
    assert (Lpnb : len pnb = n) by (unfold pnb, len in *; rewrite firstn_length; lia).
    assert (Hpn : be_val four < 2 ^ 64) by (pose proof (pnb_bound four B4 ltac:(lia)); pows; lia).
    destruct (nonce_exists (k_iv k) (be_val four) K2 K4 Hpn) as [nonce HN].
    assert (LN : len nonce = 12) by (destruct HN as [_ [-> _]]; auto).
    set (ll := [n + 17]).
    set (aad := b :: fields ++ ll ++ pnb).
    destruct (p_gcm_seal P (k_key k) nonce aad [1]) as [[ct tag]|] eqn:ES.
    2:{ exfalso. eapply (seal_law P HP); [exact K1|exact LN| | |exact ES].
        - unfold aad, ll, fields. rewrite len_cons, !len_app, be_bytes_len, Lpnb, !len_cons, !len_app. change (len (@nil N)) with 0. change (len [0]) with 1. pows. lia.
        - reflexivity. }
    assert (B1 : bytes_ok [1]) by (repeat constructor).
    destruct (open_law P HP _ _ _ _ _ _ K1 LN B1 ES) as [Lct [Ltag [Bct [Btag Ho]]]].
    set (body := ct ++ tag).
    assert (Lbody : len body = 17) by (unfold body; rewrite len_app, Lct, Ltag; reflexivity).
    destruct (remote_mask P oc c SpHandshake k body HP K ltac:(lia)) as [m0 [mask [more [_ [Lm [Bm Ee]]]]]].
    pose proof Bm as Bm'. apply bytes_ok_cons in Bm' as [B0 Bmask].
    set (ppn := xor_bytes four mask).
    assert (Lppn : len ppn = 4) by (unfold ppn; rewrite xor_bytes_len; congruence).
    assert (Bppn : bytes_ok ppn) by (apply xor_bytes_ok; auto).
    assert (Xp : xor_bytes ppn mask = four) by (apply xor_bytes_invol; unfold len in *; lia).
    set (b0 := N.lxor b (N.land m0 15)).
    assert (Hb0' : b0 < 256) by (apply xor_mask_byte; lia).
    destruct (type_of_b0 b 2 Hb4 ltac:(lia) Hb2) as [Hl Tb].
    pose proof (low4_div b m0) as DV. fold b0 in DV.
    set (h0 := with_byte h b0 true).
    set (s := b0 :: fields ++ ll ++ ppn ++ body).
    assert (SH : long_shape 2 h0 fields (n + 17) ll ppn body s).
    { constructor; cbn [h0 h with_byte lh_byte lh_version lh_vn]; auto.
      - lia.
      - rewrite DV. exact Tb.
      - discriminate.
      - apply one_byte. lia.
      - apply bytes_ok_app; auto. }
    pose proof (handshake_eq P oc c k _ _ _ _ _ _ _ HP K NA SH) as Q.
    destruct (N.ltb_spec (len body) 16); [lia|].
    destruct Q as [m1 [mk [mo [E1 [Lm1 [_ Q]]]]]]. rewrite Ee in E1.
    assert (m1 = m0 /\ mk = mask) as [-> ->].
    { split; [congruence|]. injection E1 as _ E1. apply cons_app_inj in E1 as [E1 _]; [auto|]. apply len_length. congruence. }
    revert Q. unfold handshake_rest. cbv zeta. cbn [h0 with_byte lh_byte]. unfold b0. rewrite xor_low_twice, Hb3, Xp.
    fold pnb. rewrite sub64_ok by lia. replace (n + 17 - n) with 17 by lia. cbn [bind].
    assert (VB : var_bytes_from_stream 17 body = Ok (body, [])).
    { rewrite <- (app_nil_r body) at 1. apply var_bytes_app. auto. }
    rewrite VB. cbn [bind].
    unfold decrypt_remote_payload, borrow_remote_tls_secrets. rewrite Es. cbn [ok_or bind]. unfold body.
    rewrite (decrypt_payload_eq P oc sec k ct tag _ _ nonce Ks) by auto.
    fold aad. rewrite Ho. cbn [ok_or bind].
    replace (deserialize_frames oc [1]) with (@Ok (list frame) [Ping]) by (destruct oc; reflexivity). cbn [bind].
    intros Q. fold body in Q.
    assert (DS : decode_next_packet oc c s = let? (p, s) := handshake_from_stream oc c s in Ok (PHandshake p, s)).
    { unfold s. rewrite (long_dispatch oc c h fields b0) by (auto; try discriminate; lia).
      rewrite DV, Tb. reflexivity. }
    eexists s, _. split; [|split; [|split; [rewrite DS, Q; reflexivity|split; reflexivity]]].
    + unfold s. apply bytes_ok_cons. split; [auto|]. apply bytes_ok_app. split; [eapply long_fields_bytes_ok; eauto|].
      apply bytes_ok_app. split; [unfold ll; repeat constructor; lia|]. apply bytes_ok_app. split; [auto|]. apply bytes_ok_app; auto.
    + unfold s, fields, ll. rewrite len_cons, !len_app, be_bytes_len, Lppn, Lbody, !len_cons, !len_app.
      rewrite !len_cons. change (len (@nil N)) with 0. lia.
Qed.
Print Assumptions C62_handshake_four_bytes.

Theorem C62_handshake_refuted : ~ C62_statement.
Proof.
  intros H. destruct all_keys as [c0 [k [K [_ [NA [_ KO]]]]]]. set (c := with_all_keys c0) in *.
  destruct (C62_handshake_four_bytes real_prims true c k real_prims_ok K NA) as [_ X].
  destruct (X [0; 0; 0; 7] 1 eq_refl ltac:(repeat constructor) ltac:(lia)) as [s [q [B [L [D [E1 E2]]]]]].
  pose proof (H real_prims true c k SpHandshake s _ [] real_prims_ok K NA B ltac:(pows; lia) D eq_refl) as Y.
  unfold number_of in Y. rewrite E1, E2 in Y. discriminate Y.
Qed.
Print Assumptions C62_handshake_refuted.

(** A Handshake packet with the one byte number 0 that is taken for number 7. *)
Example C62_case :
  (let? (c, s) := three_keys in
   let mid := be_bytes 4 1 ++ [0; 0; 18] in
   let? body := encrypt_local_payload c SpHandshake [1] (0xe0 :: mid ++ [0]) 7 in
   let? mask := get_local_hp_mask c SpHandshake body in
   match mask with
   | m0 :: m =>
       let w := N.lxor 0xe0 (N.land m0 0x0f) :: mid ++ xor_bytes [0; 0; 0; 7] m ++ body in
       match decode_next_packet true s w with
       | Ok (PHandshake q, r) => Ok (ph_pn_bytes q, ph_pn q, ph_payload q)
       | _ => Err (InternalError "refused")
       end
   | [] => Err (InternalError "mask")
   end) = Ok ([0], 7, [Ping]).
Proof. vm_compute. reflexivity. Qed.

(** ** C63: accepted Handshake, 0-RTT and 1-RTT packets are authentic. *)
Theorem C63_handshake_authentic : forall P oc c k s p rest,
  prims_ok P -> remote_keys P oc c SpHandshake k -> no_remote_ack c SpHandshake -> bytes_ok s -> len s < 2 ^ 63 ->
  decode_next_packet oc c s = Ok (PHandshake p, rest) ->
  exists b0 fields ll ppn ct tag m0 mask more nonce pt,
    s = b0 :: fields ++ ll ++ ppn ++ ct ++ tag ++ rest /\ len ppn = 4 /\ len tag = 16 /\
    long_fields (ph_header p) fields /\ varint_enc (len (ph_pn_bytes p) + len ct + len tag) ll /\
    p_ecb_encrypt P (k_hp k) (firstn 16 (ct ++ tag ++ rest)) = Some (m0 :: mask ++ more) /\ len mask = 4 /\
    lh_byte (ph_header p) = N.lxor b0 (N.land m0 0x0f) /\
    len (ph_pn_bytes p) = N.land (lh_byte (ph_header p)) 0x03 + 1 /\
    ph_pn_bytes p = firstn (N.to_nat (len (ph_pn_bytes p))) (xor_bytes ppn mask) /\
    nonce_for (k_iv k) (ph_pn p) nonce /\
    p_gcm_open P (k_key k) nonce (lh_byte (ph_header p) :: fields ++ ll ++ ph_pn_bytes p) ct tag = Some pt /\
    deserialize_frames oc pt = Ok (ph_payload p).
Proof.
  intros P oc c k s p rest HP K NA B LS D.
  destruct (handshake_inv P oc c k s p rest HP K NA B LS D)
    as [h [f [L [ll [ppn [body [m0 [mask [more [nonce [ct [tag [pt [SH [Ee [Lm [Bm [Eh [Ln [Bn [En [Ep [Eb [EL [Lt [Hn [Ho Df]]]]]]]]]]]]]]]]]]]]]]]]]]].
  destruct SH as [Hb Hlong Ht Hv VN HF HL Lp4 Bp Bb Ew].
  exists (lh_byte h), f, ll, ppn, ct, tag, m0, mask, more, nonce, pt.
  split; [rewrite Ew, Eb; reflexivity|]. split; [auto|]. split; [auto|].
  split; [rewrite Eh; exact (long_fields_byte _ _ _ _ HF)|]. split; [rewrite EL; exact HL|].
  split; [rewrite <- Eb; exact Ee|]. split; [auto|]. split; [rewrite Eh; reflexivity|]. auto 10.
Qed.
Print Assumptions C63_handshake_authentic.

Theorem C63_zero_rtt_authentic : forall P oc c k s p rest,
  prims_ok P -> remote_keys P oc c SpApplication k -> no_remote_ack c SpApplication -> bytes_ok s -> len s < 2 ^ 63 ->
  decode_next_packet oc c s = Ok (PZeroRtt p, rest) ->
  exists b0 fields ll ppn ct tag m0 mask more nonce pt,
    s = b0 :: fields ++ ll ++ ppn ++ ct ++ tag ++ rest /\ len ppn = 4 /\ len tag = 16 /\
    long_fields (pz_header p) fields /\ varint_enc (pz_length p) ll /\
    pz_length p = len (pz_pn_bytes p) + len ct + len tag /\
    p_ecb_encrypt P (k_hp k) (firstn 16 (ct ++ tag ++ rest)) = Some (m0 :: mask ++ more) /\ len mask = 4 /\
    lh_byte (pz_header p) = N.lxor b0 (N.land m0 0x0f) /\
    len (pz_pn_bytes p) = N.land (lh_byte (pz_header p)) 0x03 + 1 /\
    pz_pn_bytes p = firstn (N.to_nat (len (pz_pn_bytes p))) (xor_bytes ppn mask) /\
    nonce_for (k_iv k) (pz_pn p) nonce /\
    p_gcm_open P (k_key k) nonce (lh_byte (pz_header p) :: fields ++ ll ++ pz_pn_bytes p) ct tag = Some pt /\
    deserialize_frames oc pt = Ok (pz_payload p).
Proof.
  intros P oc c k s p rest HP K NA B LS D.
  destruct (zero_rtt_inv P oc c k s p rest HP K NA B LS D)
    as [h [f [ll [ppn [body [m0 [mask [more [nonce [ct [tag [pt [SH [Ee [Lm [Bm [Eh [Ln [Bn [En [Ep [Eb [EL [Lt [Hn [Ho Df]]]]]]]]]]]]]]]]]]]]]]]]]].
  destruct SH as [Hb Hlong Ht Hv VN HF HL Lp4 Bp Bb Ew].
  exists (lh_byte h), f, ll, ppn, ct, tag, m0, mask, more, nonce, pt.
  split; [rewrite Ew, Eb; reflexivity|]. split; [auto|]. split; [auto|].
  split; [rewrite Eh; exact (long_fields_byte _ _ _ _ HF)|]. split; [exact HL|]. split; [auto|].
  split; [rewrite <- Eb; exact Ee|]. split; [auto|]. split; [rewrite Eh; reflexivity|]. auto 10.
Qed.
Print Assumptions C63_zero_rtt_authentic.

Theorem C63_one_rtt_authentic : forall P oc c k s p rest,
  prims_ok P -> remote_keys P oc c SpApplication k -> no_remote_ack c SpApplication -> bytes_ok s ->
  decode_next_packet oc c s = Ok (POneRtt p, rest) ->
  exists b0 d ppn ct tag m0 mask more nonce pt,
    s = b0 :: d ++ ppn ++ ct ++ tag /\ rest = [] /\ len ppn = 4 /\ len tag = 16 /\
    b0 < 128 /\ cid_enc (sh_dcid (po_header p)) 8 d /\
    p_ecb_encrypt P (k_hp k) (firstn 16 (ct ++ tag)) = Some (m0 :: mask ++ more) /\ len mask = 4 /\
    sh_byte (po_header p) = N.lxor b0 (N.land m0 0x1f) /\
    len (po_pn_bytes p) = N.land (sh_byte (po_header p)) 0x03 + 1 /\
    po_pn_bytes p = firstn (N.to_nat (len (po_pn_bytes p))) (xor_bytes ppn mask) /\
    nonce_for (k_iv k) (po_pn p) nonce /\
    p_gcm_open P (k_key k) nonce (sh_byte (po_header p) :: d ++ po_pn_bytes p) ct tag = Some pt /\
    deserialize_frames oc pt = Ok (po_payload p).
Proof.
  intros P oc c k s p rest HP K NA B D.
  destruct (one_rtt_inv P oc c k s p rest HP K NA B D)
    as [b0 [d [ppn [body [m0 [mask [more [nonce [ct [tag [pt [Es [Hb [HD [L4 [Bp [Ee [Lm [Bm [Eh [Hp [Ln [Bn [En [Ep [Eb [Lt [Er [Hn [Ho Df]]]]]]]]]]]]]]]]]]]]]]]]]]]]]].
  exists b0, d, ppn, ct, tag, m0, mask, more, nonce, pt. subst body. auto 20.
Qed.
Print Assumptions C63_one_rtt_authentic.

(** Accepted as sent; with any byte changed, nothing is accepted. *)
Example C63_case :
  (let? (c, s) := three_keys in
   let? p := snd (handshake_new true sample_payload c) in
   let? wire := handshake_serialize true p c in
   let flip i := firstn i wire ++ N.lxor (nth i wire 0) 1 :: skipn (S i) wire in
   Ok (forallb (fun i => match decode_next_packet true s (flip i) with Ok _ => false | _ => true end)
         (seq 0 (length wire)), length wire,
       match decode_next_packet true s wire with Ok (PHandshake q, _) => ph_payload q | _ => [] end))
  = Ok (true, 52%nat, sample_payload).
Proof. vm_compute. reflexivity. Qed.
