(** Dispatch of well-formed packets and success of serialisation. *)
From Verif Require Import Base Utils Frame CipherSuite Secrets Connection Packet Histories Spec SpecPacket
  Tactics UtilsFacts ParserFacts FrameFacts SecretsFacts HeaderFacts PacketFacts ConnectionFacts PacketInv.

Lemma long_dispatch oc c h fields b rest :
  long_fields h fields -> lh_version h <> 0 -> lh_vn h = None -> 128 <= b < 256 ->
  decode_next_packet oc c (b :: fields ++ rest) =
  match (b / 16) mod 4 with
  | 0 => let? (p, s) := initial_from_stream oc c (b :: fields ++ rest) in Ok (PInitial p, s)
  | 1 => let? (p, s) := zero_rtt_from_stream oc c (b :: fields ++ rest) in Ok (PZeroRtt p, s)
  | 2 => let? (p, s) := handshake_from_stream oc c (b :: fields ++ rest) in Ok (PHandshake p, s)
  | _ => Panic "not yet implemented"
  end.
Proof.
  intros HF Hv VN Hb. unfold decode_next_packet, next_header_from_stream. cbn [next bind].
  rewrite land_128 by lia. destruct (N.leb_spec 128 b); [|lia].
  rewrite (long_dec h fields) by auto. cbn [bind unwrap].
  rewrite packet_type_cases. cbn [with_byte lh_version lh_byte].
  destruct (N.eqb_spec (lh_version h) 0); [contradiction|]. cbn [bind].
  destruct ((b / 16) mod 4) as [|[[]|[]|]]; reflexivity.
Qed.

Lemma initial_wire_cons P k p pt wire : initial_wire P k p pt wire ->
  exists b fields more, wire = b :: fields ++ more /\ long_fields (pi_header p) fields /\
    128 <= b < 256 /\ (b / 16) mod 4 = 0 /\ lh_version (pi_header p) <> 0 /\ lh_vn (pi_header p) = None.
Proof.
  intros [fields [tl [ll [Hb [Ht [Hv [VN [Hp [HF [HT [BT [HL [Bpt PR]]]]]]]]]]]]].
  destruct PR as [_ [_ [nonce [ct [tag [m0 [mask [more [_ [_ [_ [_ [_ ->]]]]]]]]]]]]].
  destruct (type_of_b0 (lh_byte (pi_header p)) 0 Hb ltac:(lia) Ht) as [Hl Tb].
  eexists _, fields, _. rewrite <- !app_assoc. split; [reflexivity|]. split; [exact HF|].
  pose proof (xor_mask_byte (lh_byte (pi_header p)) m0 15 Hb ltac:(lia)) as X.
  pose proof (low4_div (lh_byte (pi_header p)) m0) as D.
  split; [|split; [rewrite D; exact Tb|auto]].
  generalize dependent (N.lxor (lh_byte (pi_header p)) (N.land m0 15)). intros. lia.
Qed.

Lemma initial_decodes P oc c k p pt wire rest :
  prims_ok P -> remote_keys P oc c SpInitial k -> no_remote_ack c SpInitial ->
  initial_wire P k p pt wire -> len (pi_pn_bytes p) = 4 -> pi_pn p < 2 ^ 32 ->
  deserialize_frames oc pt = Ok (pi_payload p) ->
  decode_next_packet oc c (wire ++ rest) = Ok (PInitial p, rest).
Proof.
  intros HP K NA W L4 Hpn Df. pose proof (initial_dec P oc c k p pt wire rest HP K NA W L4 Hpn Df) as D.
  destruct (initial_wire_cons _ _ _ _ _ W) as [b [fields [more [-> [HF [Hb [Ht [Hv VN]]]]]]]].
  cbn [app] in *. rewrite <- app_assoc in *.
  rewrite (long_dispatch oc c (pi_header p) fields b (more ++ rest)) by auto.
  rewrite Ht, D. reflexivity.
Qed.

Lemma handshake_decodes P oc c k p pt wire rest :
  prims_ok P -> remote_keys P oc c SpHandshake k -> no_remote_ack c SpHandshake ->
  handshake_wire P k p pt wire -> len (ph_pn_bytes p) = 4 -> ph_pn p < 2 ^ 32 ->
  deserialize_frames oc pt = Ok (ph_payload p) ->
  decode_next_packet oc c (wire ++ rest) = Ok (PHandshake p, rest).
Proof.
  intros HP K NA W L4 Hpn Df. pose proof (handshake_dec P oc c k p pt wire rest HP K NA W L4 Hpn Df) as D.
  destruct W as [fields [ll [Hb [Ht [Hv [VN [Hp [HF [HL [Bpt PR]]]]]]]]]].
  destruct PR as [_ [_ [nonce [ct [tag [m0 [mask [more [_ [_ [_ [_ [_ ->]]]]]]]]]]]]].
  destruct (type_of_b0 (lh_byte (ph_header p)) 2 Hb ltac:(lia) Ht) as [Hl Tb].
  pose proof (xor_mask_byte (lh_byte (ph_header p)) m0 15 Hb ltac:(lia)) as X.
  pose proof (low4_div (lh_byte (ph_header p)) m0) as D4.
  generalize dependent (N.lxor (lh_byte (ph_header p)) (N.land m0 15)). intros b D X D4.
  cbn [app] in *. rewrite <- !app_assoc in *.
  rewrite (long_dispatch oc c (ph_header p) fields b) by (auto; lia).
  rewrite D4, Tb, D. reflexivity.
Qed.

Lemma long_fields_len h fields : long_fields h fields -> len fields <= 46.
Proof.
  intros [v [d [s [[_ [V _]] [L1 [[_ [_ [D _]]] [L2 [[_ [_ [S _]]] ->]]]]]]]].
  rewrite len_app, len_cons, len_app, len_cons. lia.
Qed.
Lemma varint_enc_len x bs : varint_enc x bs -> len bs <= 8.
Proof.
  intros [k [K [L _]]]. rewrite L. change 8 with (2 ^ 3). apply N.pow_le_mono_r; lia.
Qed.

(** Serialisation succeeds within the limits of the AEAD library. *)
Lemma initial_ser_ok P oc c k p pt :
  prims_ok P -> local_keys P oc c SpInitial k -> header_ready (pi_header p) (pi_pn_bytes p) 0 ->
  pn_field (pi_pn p) (pi_pn_bytes p) -> pi_pn p < 2 ^ 64 ->
  serialize_frames (pi_payload p) false = Ok pt -> bytes_ok pt ->
  len pt + 16 < 2 ^ 31 -> len (pi_token p) + 100 < 2 ^ 31 -> 4 <= len (pi_pn_bytes p) + len pt ->
  exists wire, initial_serialize oc p c = Ok wire.
Proof.
  intros HP HK [[fields HF] [Hb [Ht [Hv [VN [Hp PL]]]]]] PF Hpn Ept Bpt Lpt Ltok L4.
  destruct p as [h token pn pnb payload]. cbn [pi_header pi_token pi_pn pi_pn_bytes pi_payload] in *.
  unfold initial_serialize. cbn [pi_header pi_token pi_pn pi_pn_bytes pi_payload]. rewrite Ept. cbn [bind].
  rewrite (pnl_eq h pnb Hp PL). cbn [bind].
  pose proof PF as [[PF1 PF2] [Bpn Vpn]].
  rewrite (protected_len P oc c SpInitial k) by (auto; pows; lia). cbn [bind].
  rewrite add64_ok by (pows; lia). cbn [bind].
  destruct (encode_var_int_ok (16 + len pt + len pnb)) as [ll [Ell [Vll _]]]; [unfold v62; pows; lia|].
  destruct (encode_var_int_ok (len token)) as [tl [Etl [Vtl _]]]; [unfold v62; pows; lia|].
  rewrite Ell, Etl. cbn [bind]. rewrite (long_to_bytes_ok h fields HF). cbn [bind].
  replace ((lh_byte h :: fields) ++ tl ++ token ++ ll ++ pnb) with
    (lh_byte h :: (fields ++ tl ++ token ++ ll) ++ pnb) by (cbn [app]; rewrite <- !app_assoc; reflexivity).
  destruct (protect_ok P oc c SpInitial k (lh_byte h) (fields ++ tl ++ token ++ ll) pnb pn pt HP HK)
    as [pp [sm [mask [E1 [E2 E3]]]]]; auto.
  { rewrite len_cons, !len_app. pose proof (long_fields_len _ _ HF). pose proof (varint_enc_len _ _ Vll).
    pose proof (varint_enc_len _ _ Vtl). lia. }
  rewrite E1. cbn [bind]. rewrite E2. cbn [bind]. rewrite E3. cbn [bind].
  destruct (protect P oc c SpInitial k 0x0f _ _ _ _ _ _ _ _ HP HK PF PL Hpn Bpt E1 E2 E3)
    as [m0 [mk [-> [Ex PR]]]].
  rewrite protect_fields, Ex by auto. cbn [bind].
  rewrite (long_to_bytes_ok _ fields (long_fields_byte _ _ _ _ HF)). cbn [bind]. eauto.
Qed.

Lemma handshake_ser_ok P oc c k p pt :
  prims_ok P -> local_keys P oc c SpHandshake k -> header_ready (ph_header p) (ph_pn_bytes p) 2 ->
  pn_field (ph_pn p) (ph_pn_bytes p) -> ph_pn p < 2 ^ 64 ->
  serialize_frames (ph_payload p) false = Ok pt -> bytes_ok pt ->
  len pt + 16 < 2 ^ 31 -> 4 <= len (ph_pn_bytes p) + len pt ->
  exists wire, handshake_serialize oc p c = Ok wire.
Proof.
  intros HP HK [[fields HF] [Hb [Ht [Hv [VN [Hp PL]]]]]] PF Hpn Ept Bpt Lpt L4.
  destruct p as [h pnb pn payload]. cbn [ph_header ph_pn ph_pn_bytes ph_payload] in *.
  unfold handshake_serialize. cbn [ph_header ph_pn ph_pn_bytes ph_payload]. rewrite Ept. cbn [bind].
  rewrite (pnl_eq h pnb Hp PL). cbn [bind].
  pose proof PF as [[PF1 PF2] [Bpn Vpn]].
  rewrite (protected_len P oc c SpHandshake k) by (auto; pows; lia). cbn [bind].
  rewrite add64_ok by (pows; lia). cbn [bind].
  destruct (encode_var_int_ok (16 + len pt + len pnb)) as [ll [Ell [Vll _]]]; [unfold v62; pows; lia|].
  rewrite Ell. cbn [bind]. rewrite (long_to_bytes_ok h fields HF). cbn [bind].
  replace ((lh_byte h :: fields) ++ ll ++ pnb) with
    (lh_byte h :: (fields ++ ll) ++ pnb) by (cbn [app]; rewrite <- !app_assoc; reflexivity).
  destruct (protect_ok P oc c SpHandshake k (lh_byte h) (fields ++ ll) pnb pn pt HP HK)
    as [pp [sm [mask [E1 [E2 E3]]]]]; auto.
  { rewrite len_cons, !len_app. pose proof (long_fields_len _ _ HF). pose proof (varint_enc_len _ _ Vll). pows. lia. }
  rewrite E1. cbn [bind]. rewrite E2. cbn [bind]. rewrite E3. cbn [bind].
  destruct (protect P oc c SpHandshake k 0x0f _ _ _ _ _ _ _ _ HP HK PF PL Hpn Bpt E1 E2 E3)
    as [m0 [mk [-> [Ex PR]]]].
  rewrite protect_fields, Ex by auto. cbn [bind].
  rewrite (long_to_bytes_ok _ fields (long_fields_byte _ _ _ _ HF)). cbn [bind]. eauto.
Qed.

(** Handshake packets on any connection without acknowledgements (the key
    state is irrelevant for building). *)
Lemma handshake_new_inv' oc c fs c' p d l :
  largest_local_ack (borrow_pn_info c SpHandshake) = None ->
  next_pn (borrow_pn_info c SpHandshake) < 2 ^ 64 -> c_dcid c = (d, l) -> l <= 20 ->
  handshake_new oc fs c = (c', Ok p) ->
  exists s sl, c_scid c = Some (s, sl) /\
  ph_header p = LongHeader 0xe3 1 l d (cast 8 sl) s None false /\
  ph_pn p <= 0xffffffff /\ ph_pn_bytes p = be_bytes 4 (ph_pn p) /\ ph_payload p = fs.
Proof.
  intros A NX DC L H. unfold handshake_new in H. destruct (get_next_pn oc c SpHandshake) as [c1 r] eqn:E.
  destruct (get_next_pn_step _ _ _ _ _ E) as [D [S [V _]]].
  pose proof (get_next_pn_no_ack _ _ _ _ _ E A NX) as N1.
  cbv zeta in N1. set (n := next_pn (borrow_pn_info c SpHandshake)) in *.
  assert (R : (forall e, r <> Panic e) -> (exists m, r = Ok (m, be_bytes 4 m) /\ m <= 0xffffffff) \/ exists e, r = Err e).
  { destruct (n + 1 <? 2 ^ 64).
    - destruct N1 as [_ ->]. destruct (N.ltb_spec 0xffffffff (n + 1)); eauto.
    - destruct oc; destruct N1 as [_ ->]; [intros X; exfalso; eapply X; reflexivity|]. intros. left. exists 0. split; auto. lia. }
  injection H as <- H. apply bind_ok in H as [[m b] [-> H]].
  destruct (R ltac:(discriminate)) as [[m' [Em Lm]]|[e He]]; [|discriminate]. injection Em as -> ->.
  rewrite be_bytes_len in H. change (cast 8 (N.of_nat 4)) with 4 in H.
  change (negb ((0 <? 4) && (4 <=? 4))) with false in H. cbv iota in H.
  apply bind_ok in H as [h [Eh H]]. cbn [validate_payload bind] in H. injection H as <-.
  unfold long_from_connection, get_dcid, get_scid in Eh. rewrite D, S, DC in Eh.
  destruct (c_scid c) as [[s sl]|]; [|discriminate]. cbn [ok_or bind] in Eh.
  exists s, sl. split; [reflexivity|].
  rewrite (fits_cast l L) in Eh. injection Eh as <-.
  cbn [ph_header ph_pn ph_pn_bytes ph_payload].
  split; [|auto]. unfold get_version_field. destruct (c_version c1). reflexivity.
Qed.

Lemma xor_len_le a : forall b, len a <= len b -> len (xor_bytes a b) = len a.
Proof.
  unfold len. induction a as [|x a IH]; intros [|y b]; cbn [length xor_bytes]; intros H; try lia.
  specialize (IH b). lia.
Qed.

Lemma initial_wire_bytes_ok P k p pt wire :
  prims_ok P -> keys_ok k -> initial_wire P k p pt wire -> bytes_ok wire.
Proof.
  intros HP [K1 [K2 [K3 K4]]] [fields [tl [ll [Hb [Ht [Hv [VN [Hp [HF [HT [BT [HL [Bpt PR]]]]]]]]]]]]].
  destruct PR as [PF [PL [nonce [ct [tag [m0 [mask [more [Hn [Seal [L20 [Ecb [Lm ->]]]]]]]]]]]]].
  destruct PF as [PF1 [Bpn _]].
  assert (Ln : len nonce = 12) by (destruct Hn as [_ [-> _]]; auto).
  destruct (open_law P HP _ _ _ _ _ _ K1 Ln Bpt Seal) as [Lct [Ltag [Bct [Btag _]]]].
  assert (L16 : len (firstn 16 (skipn 4 (pi_pn_bytes p ++ ct ++ tag))) = 16).
  { unfold len in *. rewrite firstn_length, skipn_length. lia. }
  destruct (ecb_law P HP (k_hp k) _ K3 L16) as [out [Eo [_ Bo]]]. rewrite Ecb in Eo. injection Eo as <-.
  apply bytes_ok_cons in Bo as [B0 Bo]. apply bytes_ok_app in Bo as [Bo _].
  apply bytes_ok_cons. split; [apply xor_mask_byte; auto; lia|].
  apply bytes_ok_app. split.
  { apply bytes_ok_app. split; [eapply long_fields_bytes_ok; eauto|].
    apply bytes_ok_app. split; [eapply varint_enc_bytes_ok; eauto|].
    apply bytes_ok_app. split; [auto|eapply varint_enc_bytes_ok; eauto]. }
  apply bytes_ok_app. split; [apply xor_bytes_ok; auto|apply bytes_ok_app; auto].
Qed.
