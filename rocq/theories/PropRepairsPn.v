(** The refuted statements about packet numbers of less than four bytes (C23, C61
    and C62) hold once the decoders give the bytes that are not part of the packet
    number back to the ciphertext.  What the code does: PropPacket.v,
    PropProtected.v, PropShort.v, PropExact.v.  For the same decoder,
    PropRepairsTotal.v is about C24, PropRepairsExact.v about C25, C55, C63, C104
    and C105. *)
From Verif Require Import Base Utils Frame CipherSuite Secrets Connection Packet Histories Spec SpecPacket
  Tactics UtilsFacts ParserFacts FrameFacts SecretsFacts HeaderFacts PacketFacts ConnectionFacts PacketInv SendFacts ProtectedInv
  CryptoInst PropPacket PropConn PropProtected.

(** packet.rs:272, 372 and 453, without the overflow: a packet too short for a
    sample is refused (RFC 9001 section 5.4.2). *)
Definition payload_length (length pn_length : N) : outcome N :=
  if length <? 20 then Err (InternalError "length too small") else Ok (length - pn_length).

(** The decoder of the frames is a parameter: [deserialize_frames] of the code, or
    that of PropRepairsFrames.v. *)
Definition frame_decoder := bool -> stream -> outcome (list frame).

(** packet.rs:252-297, 435-474, 355-394, 673-705 with this, and with one more
    correction: of the four bytes read, those behind the packet number go back in
    front of the stream (and the Handshake packet number is made of its own bytes
    only). *)
Definition initial_repaired (fd : frame_decoder) (oc : bool) (c : connection) : parser packet_initial := fun s =>
  let? (header_byte, s) := u8_from_datagram s in
  let? (header, s) := long_from_stream header_byte s in
  let? (token_length, token_length_bytes, s) := var_int_with_bytes_from_stream oc s in
  let? (token, s) := var_bytes_from_stream token_length s in
  let? (length, length_bytes, s) := var_int_with_bytes_from_stream oc s in
  let? (four, s) := var_bytes_from_stream 4 s in
  let? mask := get_remote_hp_mask c SpInitial s in
  let? header := long_remove_protection header mask in
  let? pn_length := long_packet_number_length header in
  let? pn_protected := xor_pn_protection four mask in
  let pn_bytes := firstn (N.to_nat pn_length) pn_protected in
  let s := skipn (N.to_nat pn_length) four ++ s in
  let? packet_number := reconstruct_remote_pn oc c SpInitial pn_bytes in
  let? n := payload_length length pn_length in
  let? (protected_frame_data, s) := var_bytes_from_stream n s in
  let? hb := long_to_bytes header in
  let associated_data := hb ++ token_length_bytes ++ token ++ length_bytes ++ pn_bytes in
  let? frame_data :=
    decrypt_remote_payload c SpInitial protected_frame_data associated_data packet_number in
  let? payload := fd oc frame_data in
  let? _ := validate_payload payload in
  Ok (PacketInitial header token packet_number pn_bytes payload, s).
Definition handshake_repaired (fd : frame_decoder) (oc : bool) (c : connection) : parser packet_handshake := fun s =>
  let? (header_byte, s) := u8_from_datagram s in
  let? (header, s) := long_from_stream header_byte s in
  let? (length, length_bytes, s) := var_int_with_bytes_from_stream oc s in
  let? (four, s) := var_bytes_from_stream 4 s in
  let? mask := get_remote_hp_mask c SpHandshake s in
  let? header := long_remove_protection header mask in
  let? pn_length := long_packet_number_length header in
  let? pn_protected := xor_pn_protection four mask in
  let pn_vec := firstn (N.to_nat pn_length) pn_protected in
  let s := skipn (N.to_nat pn_length) four ++ s in
  let? packet_number := reconstruct_remote_pn oc c SpHandshake pn_vec in
  let? n := payload_length length pn_length in
  let? (protected_frame_data, s) := var_bytes_from_stream n s in
  let? hb := long_to_bytes header in
  let associated_data := hb ++ length_bytes ++ pn_vec in
  let? frame_data :=
    decrypt_remote_payload c SpHandshake protected_frame_data associated_data packet_number in
  let? payload := fd oc frame_data in
  Ok (PacketHandshake header pn_vec packet_number payload, s).
Definition zero_rtt_repaired (fd : frame_decoder) (oc : bool) (c : connection) : parser packet_zero_rtt := fun s =>
  let? (header_byte, s) := u8_from_datagram s in
  let? (header, s) := long_from_stream header_byte s in
  let? (length, length_bytes, s) := var_int_with_bytes_from_stream oc s in
  let? (four, s) := var_bytes_from_stream 4 s in
  let? mask := get_remote_hp_mask c SpApplication s in
  let? header := long_remove_protection header mask in
  let? pn_length := long_packet_number_length header in
  let? pn_protected := xor_pn_protection four mask in
  let pn_bytes := firstn (N.to_nat pn_length) pn_protected in
  let s := skipn (N.to_nat pn_length) four ++ s in
  let? packet_number := reconstruct_remote_pn oc c SpApplication pn_bytes in
  let? n := payload_length length pn_length in
  let? (protected_frame_data, s) := var_bytes_from_stream n s in
  let? hb := long_to_bytes header in
  let associated_data := hb ++ length_bytes ++ pn_bytes in
  let? frame_data :=
    decrypt_remote_payload c SpApplication protected_frame_data associated_data packet_number in
  let? payload := fd oc frame_data in
  Ok (PacketZeroRtt header length pn_bytes packet_number payload, s).
Definition one_rtt_repaired (fd : frame_decoder) (oc : bool) (c : connection) : parser packet_one_rtt := fun s =>
  let? (header_byte, s) := u8_from_datagram s in
  let? (header, s) := short_from_stream header_byte s in
  let? (four, s) := var_bytes_from_stream 4 s in
  let? mask := get_remote_hp_mask c SpApplication s in
  let? header := short_remove_protection header mask in
  let? pn_length := short_packet_number_length header in
  let? pn_protected := xor_pn_protection four mask in
  let pn_bytes := firstn (N.to_nat pn_length) pn_protected in
  let s := skipn (N.to_nat pn_length) four ++ s in
  let? packet_number := reconstruct_remote_pn oc c SpApplication pn_bytes in
  let? (protected_frame_data, s) := all_bytes_from_stream s in
  let? hb := short_to_bytes header in
  let associated_data := hb ++ pn_bytes in
  let? frame_data :=
    decrypt_remote_payload c SpApplication protected_frame_data associated_data packet_number in
  let? payload := fd oc frame_data in
  Ok (PacketOneRtt header pn_bytes packet_number payload, s).

(** packet.rs:771-806 with the corrected decoders, [?] for [unwrap], and an error
    for [todo!()]. *)
Definition decode_repaired (fd : frame_decoder) (oc : bool) (c : connection) : parser packet := fun s =>
  let? (header, _) := next_header_from_stream s in
  match header with
  | HShort _ => let? (p, s) := one_rtt_repaired fd oc c s in Ok (POneRtt p, s)
  | HLong x =>
      let? t := long_packet_type x in
      match t with
      | THandshake => let? (p, s) := handshake_repaired fd oc c s in Ok (PHandshake p, s)
      | TInitial => let? (p, s) := initial_repaired fd oc c s in Ok (PInitial p, s)
      | TZeroRtt => let? (p, s) := zero_rtt_repaired fd oc c s in Ok (PZeroRtt p, s)
      | TRetry => Err (InternalError "Retry packets are not supported")
      | TVersionNegotiation =>
          let? (p, s) := vn_from_stream s in Ok (PVersionNegotiation p, s)
      | _ => Err (InternalError "not a long header")
      end
  end.

Lemma unprotect_any P oc c sp k bits first mid pnb pn pt wire rest :
  prims_ok P -> remote_keys P oc c sp k -> no_remote_ack c sp ->
  protected P k bits first mid pnb pn pt wire -> pn < 256 ^ len pnb -> bytes_ok pt ->
  exists m0 mask four s x body,
    wire ++ rest = N.lxor first (N.land m0 bits) :: mid ++ four ++ s /\ len four = 4 /\ len pnb <= 4 <= len pnb + len pt /\
    get_remote_hp_mask c sp s = Ok (m0 :: mask) /\
    xor_pn_protection four (m0 :: mask) = Ok x /\ firstn (N.to_nat (len pnb)) x = pnb /\
    skipn (N.to_nat (len pnb)) four ++ s = body ++ rest /\
    reconstruct_remote_pn oc c sp pnb = Ok pn /\ len body = len pt + 16 /\
    decrypt_remote_payload c sp body (first :: mid ++ pnb) pn = Ok pt.
Proof.
  intros HP K NA PR Hpn Bpt.
  destruct PR as [PF [PL [nonce [ct [tag [m0 [mask [more [Hn [Seal [L20 [Ecb [Lm ->]]]]]]]]]]]]].
  destruct PF as [PF1 [Bpn Vp]].
  pose proof K as [sec [Es Ks]]. pose proof Ks as [_ [_ [_ [_ [K1 [K2 [K3 K4]]]]]]].
  assert (Ln : len nonce = 12) by (destruct Hn as [_ [-> _]]; auto).
  destruct (open_law P HP _ _ _ _ _ _ K1 Ln Bpt Seal) as [Lct [Ltag [Bct [Btag Open]]]].
  assert (Lx : len (xor_bytes pnb mask) = len pnb) by (apply xor_len_le; lia).
  set (tailb := xor_bytes pnb mask ++ ct ++ tag).
  assert (Lt : len tailb = len pnb + len pt + 16) by (unfold tailb; rewrite !len_app; lia).
  assert (L20' : 20 <= len tailb) by (rewrite !len_app in L20; rewrite Lt; lia).
  set (four := firstn 4 tailb). set (s := skipn 4 tailb ++ rest).
  assert (Lf : len four = 4) by (unfold four, len in *; rewrite firstn_length; lia).
  assert (SK : skipn 4 tailb = skipn 4 (pnb ++ ct ++ tag)).
  { unfold tailb. rewrite !skipn_app. unfold len in Lx, PF1.
    rewrite (skipn_all2 (n:=4) (xor_bytes pnb mask)) by lia. rewrite (skipn_all2 (n:=4) pnb) by lia.
    replace (length (xor_bytes pnb mask)) with (length pnb) by lia. reflexivity. }
  assert (L16 : 16 <= len s).
  { unfold s. rewrite len_app. unfold len in *. rewrite skipn_length. lia. }
  destruct (remote_mask P oc c sp k s HP K L16) as [m0' [mask' [more' [Em [Lm' [_ Ee]]]]]].
  assert (Fs : firstn 16 s = firstn 16 (skipn 4 (pnb ++ ct ++ tag))).
  { unfold s. rewrite SK. rewrite firstn_app.
    replace (16 - length (skipn 4 (pnb ++ ct ++ tag)))%nat with O
      by (rewrite <- SK; unfold len in *; rewrite skipn_length; lia).
    cbn [firstn]. apply app_nil_r. }
  rewrite Fs, Ecb in Ee.
  assert (E0 : m0' = m0) by congruence.
  assert (EM : mask' = mask).
  { assert (Q : mask ++ more = mask' ++ more') by congruence.
    apply (f_equal (firstn 4)) in Q. rewrite !firstn_app_exact in Q by (unfold len in *; lia). congruence. }
  subst m0' mask'.
  exists m0, mask, four, s, (xor_bytes four mask), (ct ++ tag).
  split. { cbn [app]. rewrite <- app_assoc. f_equal. f_equal. unfold four, s. rewrite app_assoc, firstn_skipn.
           unfold tailb. rewrite <- !app_assoc. reflexivity. }
  split; [exact Lf|]. split; [lia|]. split; [exact Em|].
  split. { rewrite xor_pn_spec; [reflexivity|lia|rewrite len_cons; lia]. }
  split.
  { assert (E : four = xor_bytes pnb mask ++ firstn (4 - length pnb) (ct ++ tag)).
    { unfold four, tailb. rewrite firstn_app. unfold len in Lx, PF1.
      rewrite (firstn_all2 (n:=4) (xor_bytes pnb mask)) by lia.
      replace (length (xor_bytes pnb mask)) with (length pnb) by lia. reflexivity. }
    assert (G : forall (a : list N) (m t : list N), (length a <= length m)%nat ->
              firstn (length a) (xor_bytes (xor_bytes a m ++ t) m) = a).
    { induction a as [|y a IH]; intros m t L; [reflexivity|]. destruct m as [|z m]; [cbn in L; lia|].
      cbn [xor_bytes app firstn length] in *. cbn. f_equal; [rewrite N.lxor_assoc, N.lxor_nilpotent; apply N.lxor_0_r|].
      apply IH. lia. }
    rewrite E. unfold len at 1. rewrite Nat2N.id. apply G. unfold len in *. lia. }
  split.
  { unfold s. rewrite app_assoc. f_equal.
    assert (E : four = xor_bytes pnb mask ++ firstn (4 - length pnb) (ct ++ tag)).
    { unfold four, tailb. rewrite firstn_app. unfold len in Lx, PF1.
      rewrite (firstn_all2 (n:=4) (xor_bytes pnb mask)) by lia.
      replace (length (xor_bytes pnb mask)) with (length pnb) by lia. reflexivity. }
    rewrite E, skipn_app_exact by (unfold len in *; lia).
    unfold tailb. rewrite skipn_app. unfold len in Lx, PF1. rewrite (skipn_all2 (n:=4) (xor_bytes pnb mask)) by lia.
    replace (length (xor_bytes pnb mask)) with (length pnb) by lia. cbn [app]. apply firstn_skipn. }
  split. { rewrite reconstruct_none by (auto; lia). f_equal. rewrite Vp. apply N.mod_small. exact Hpn. }
  split; [rewrite len_app; lia|].
  unfold decrypt_remote_payload, borrow_remote_tls_secrets. rewrite Es. cbn [ok_or bind].
  assert (P64 : pn < 2 ^ 64).
  { eapply N.lt_le_trans; [exact Hpn|]. transitivity (256 ^ 4); [apply N.pow_le_mono_r; lia|]. pows. lia. }
  rewrite (decrypt_payload_eq P oc sec k ct tag _ pn nonce Ks) by auto.
  rewrite Open. reflexivity.
Qed.

Lemma dispatch_repaired fd oc c h fields b rest :
  long_fields h fields -> lh_version h <> 0 -> lh_vn h = None -> 128 <= b < 256 ->
  decode_repaired fd oc c (b :: fields ++ rest) =
  match (b / 16) mod 4 with
  | 0 => let? (p, s) := initial_repaired fd oc c (b :: fields ++ rest) in Ok (PInitial p, s)
  | 1 => let? (p, s) := zero_rtt_repaired fd oc c (b :: fields ++ rest) in Ok (PZeroRtt p, s)
  | 2 => let? (p, s) := handshake_repaired fd oc c (b :: fields ++ rest) in Ok (PHandshake p, s)
  | _ => Err (InternalError "Retry packets are not supported")
  end.
Proof.
  intros HF Hv VN Hb. unfold decode_repaired, next_header_from_stream. cbn [next bind].
  rewrite land_128 by lia. destruct (N.leb_spec 128 b); [|lia].
  rewrite (long_dec h fields) by auto. cbn [bind].
  rewrite packet_type_cases. cbn [with_byte lh_version lh_byte].
  destruct (N.eqb_spec (lh_version h) 0); [contradiction|]. cbn [bind].
  destruct ((b / 16) mod 4) as [|[[]|[]|]]; reflexivity.
Qed.

(** ** C23 and C61 with packet numbers of every length *)
Theorem C23_repaired : forall fd P oc c k p pt wire rest,
  prims_ok P -> remote_keys P oc c SpInitial k -> no_remote_ack c SpInitial ->
  initial_wire P k p pt wire -> pi_pn p < 256 ^ len (pi_pn_bytes p) ->
  fd oc pt = Ok (pi_payload p) ->
  decode_repaired fd oc c (wire ++ rest) = Ok (PInitial p, rest).
Proof.
  intros fd P oc c k p pt wire rest HP K NA [fields [tl [ll [Hb [Ht [Hv [VN [Hp [HF [HT [BT [HL [Bpt PR]]]]]]]]]]]]] Hpn Df.
  destruct p as [h token pn pnb payload]. cbn [pi_header pi_token pi_pn pi_pn_bytes pi_payload] in *.
  pose proof PR as [_ [PL _]].
  destruct (unprotect_any P oc c SpInitial k _ _ _ _ _ _ _ rest HP K NA PR Hpn Bpt)
    as [m0 [mask [four [s [x [body [-> [Lf [Lp [Em [Ex [Fx [Es [Er [Lb Ed]]]]]]]]]]]]]]].
  destruct (type_of_b0 (lh_byte h) 0 Hb ltac:(lia) Ht) as [Hl Tb].
  pose proof (xor_mask_byte (lh_byte h) m0 15 Hb ltac:(lia)) as X. pose proof (low4_div (lh_byte h) m0) as D4.
  rewrite <- !app_assoc. rewrite (dispatch_repaired fd oc c h fields) by (auto; lia).
  assert (Q : (N.lxor (lh_byte h) (N.land m0 15) / 16) mod 4 = 0) by (rewrite D4; exact Tb). rewrite Q.
  unfold initial_repaired. rewrite u8_dec by auto. cbn [bind].
  rewrite (long_dec h fields) by auto. cbn [bind].
  rewrite (varint_dec oc _ _ _ HT). cbn [bind]. rewrite var_bytes_app by auto. cbn [bind].
  rewrite (varint_dec oc _ _ _ HL). cbn [bind]. rewrite var_bytes_app by auto. cbn [bind].
  rewrite Em. cbn [bind]. rewrite with_byte_unprotect by (auto; lia). cbn [bind].
  rewrite (pnl_eq h pnb Hp PL). cbn [bind]. rewrite Ex. cbn [bind]. rewrite Fx, Es.
  rewrite Er. cbn [bind]. unfold payload_length. destruct (N.ltb_spec (len pnb + len pt + 16) 20); [lia|]. cbn [bind].
  rewrite var_bytes_app by lia. cbn [bind].
  rewrite (long_to_bytes_ok h fields HF). cbn [bind app].
  rewrite <- !app_assoc in Ed. rewrite Ed. cbn [bind]. rewrite Df. reflexivity.
Qed.
Print Assumptions C23_repaired.

Theorem C61_repaired :
  (forall fd P oc c k p pt wire rest,
     prims_ok P -> remote_keys P oc c SpHandshake k -> no_remote_ack c SpHandshake ->
     handshake_wire P k p pt wire -> ph_pn p < 256 ^ len (ph_pn_bytes p) ->
     fd oc pt = Ok (ph_payload p) ->
     decode_repaired fd oc c (wire ++ rest) = Ok (PHandshake p, rest)) /\
  (forall fd P oc c k p pt wire rest,
     prims_ok P -> remote_keys P oc c SpApplication k -> no_remote_ack c SpApplication ->
     zero_rtt_wire P k p pt wire -> pz_pn p < 256 ^ len (pz_pn_bytes p) ->
     fd oc pt = Ok (pz_payload p) ->
     decode_repaired fd oc c (wire ++ rest) = Ok (PZeroRtt p, rest)) /\
  (forall fd P oc c k p pt wire,
     prims_ok P -> remote_keys P oc c SpApplication k -> no_remote_ack c SpApplication ->
     one_rtt_wire P k p pt wire -> po_pn p < 256 ^ len (po_pn_bytes p) ->
     fd oc pt = Ok (po_payload p) ->
     decode_repaired fd oc c wire = Ok (POneRtt p, [])).
Proof.
  split; [|split].
  - intros fd P oc c k p pt wire rest HP K NA [fields [ll [Hb [Ht [Hv [VN [Hp [HF [HL [Bpt PR]]]]]]]]]] Hpn Df.
    destruct p as [h pnb pn payload]. cbn [ph_header ph_pn ph_pn_bytes ph_payload] in *.
    pose proof PR as [_ [PL _]].
    destruct (unprotect_any P oc c SpHandshake k _ _ _ _ _ _ _ rest HP K NA PR Hpn Bpt)
      as [m0 [mask [four [s [x [body [-> [Lf [Lp [Em [Ex [Fx [Es [Er [Lb Ed]]]]]]]]]]]]]]].
    destruct (type_of_b0 (lh_byte h) 2 Hb ltac:(lia) Ht) as [Hl Tb].
    pose proof (xor_mask_byte (lh_byte h) m0 15 Hb ltac:(lia)) as X. pose proof (low4_div (lh_byte h) m0) as D4.
    rewrite <- !app_assoc. rewrite (dispatch_repaired fd oc c h fields) by (auto; lia).
    assert (Q : (N.lxor (lh_byte h) (N.land m0 15) / 16) mod 4 = 2) by (rewrite D4; exact Tb). rewrite Q.
    unfold handshake_repaired. rewrite u8_dec by auto. cbn [bind].
    rewrite (long_dec h fields) by auto. cbn [bind].
    rewrite (varint_dec oc _ _ _ HL). cbn [bind]. rewrite var_bytes_app by auto. cbn [bind].
    rewrite Em. cbn [bind]. rewrite with_byte_unprotect by (auto; lia). cbn [bind].
    rewrite (pnl_eq h pnb Hp PL). cbn [bind]. rewrite Ex. cbn [bind]. rewrite Fx, Es.
    rewrite Er. cbn [bind]. unfold payload_length. destruct (N.ltb_spec (len pnb + len pt + 16) 20); [lia|]. cbn [bind].
    rewrite var_bytes_app by lia. cbn [bind].
    rewrite (long_to_bytes_ok h fields HF). cbn [bind app].
    rewrite <- !app_assoc in Ed. rewrite Ed. cbn [bind]. rewrite Df. reflexivity.
  - intros fd P oc c k p pt wire rest HP K NA [fields [ll [Hb [Ht [Hv [VN [Hp [HF [HE [HL [Bpt PR]]]]]]]]]]] Hpn Df.
    destruct p as [h length pnb pn payload]. cbn [pz_header pz_length pz_pn pz_pn_bytes pz_payload] in *.
    pose proof PR as [_ [PL _]].
    destruct (unprotect_any P oc c SpApplication k _ _ _ _ _ _ _ rest HP K NA PR Hpn Bpt)
      as [m0 [mask [four [s [x [body [-> [Lf [Lp [Em [Ex [Fx [Es [Er [Lb Ed]]]]]]]]]]]]]]].
    destruct (type_of_b0 (lh_byte h) 1 Hb ltac:(lia) Ht) as [Hl Tb].
    pose proof (xor_mask_byte (lh_byte h) m0 15 Hb ltac:(lia)) as X. pose proof (low4_div (lh_byte h) m0) as D4.
    rewrite <- !app_assoc. rewrite (dispatch_repaired fd oc c h fields) by (auto; lia).
    assert (Q : (N.lxor (lh_byte h) (N.land m0 15) / 16) mod 4 = 1) by (rewrite D4; exact Tb). rewrite Q.
    unfold zero_rtt_repaired. rewrite u8_dec by auto. cbn [bind].
    rewrite (long_dec h fields) by auto. cbn [bind].
    rewrite (varint_dec oc _ _ _ HL). cbn [bind]. rewrite var_bytes_app by auto. cbn [bind].
    rewrite Em. cbn [bind]. rewrite with_byte_unprotect by (auto; lia). cbn [bind].
    rewrite (pnl_eq h pnb Hp PL). cbn [bind]. rewrite Ex. cbn [bind]. rewrite Fx, Es.
    rewrite Er. cbn [bind]. unfold payload_length. destruct (N.ltb_spec length 20); [lia|]. cbn [bind].
    rewrite var_bytes_app by lia. cbn [bind].
    rewrite (long_to_bytes_ok h fields HF). cbn [bind app].
    rewrite <- !app_assoc in Ed. rewrite Ed. cbn [bind]. rewrite Df. reflexivity.
  - intros fd P oc c k p pt wire HP K NA [d [Hb [Hp [HD [Bpt PR]]]]] Hpn Df.
    destruct p as [h pnb pn payload]. cbn [po_header po_pn po_pn_bytes po_payload] in *.
    pose proof PR as [_ [PL _]].
    destruct (unprotect_any P oc c SpApplication k _ _ _ _ _ _ _ [] HP K NA PR Hpn Bpt)
      as [m0 [mask [four [s [x [body [W [Lf [Lp [Em [Ex [Fx [Es [Er [Lb Ed]]]]]]]]]]]]]]].
    rewrite app_nil_r in W, Es. subst wire.
    pose proof (low5_short (sh_byte h) m0 Hb) as X.
    unfold decode_repaired, next_header_from_stream. cbn [next bind].
    rewrite land_128 by lia. destruct (N.leb_spec 128 (N.lxor (sh_byte h) (N.land m0 31))); [lia|].
    rewrite (short_dec _ d (sh_dcid h)) by auto. cbn [bind].
    unfold one_rtt_repaired. rewrite u8_dec by lia. cbn [bind].
    rewrite (short_dec _ d (sh_dcid h)) by auto. cbn [bind]. rewrite var_bytes_app by auto. cbn [bind].
    rewrite Em. cbn [bind].
    assert (R : short_remove_protection (ShortHeader (N.lxor (sh_byte h) (N.land m0 31)) (sh_dcid h) true)
                  (m0 :: mask) = Ok h).
    { unfold short_remove_protection. cbn. rewrite xor_low_twice. destruct h; cbn in *; subst; reflexivity. }
    rewrite R. cbn [bind].
    unfold short_packet_number_length. rewrite Hp, PL. cbn [bind]. rewrite Ex. cbn [bind]. rewrite Fx, Es.
    rewrite Er. cbn [bind all_bytes_from_stream].
    rewrite (short_to_bytes_ok h d HD). cbn [bind app]. rewrite Ed. cbn [bind]. rewrite Df. reflexivity.
Qed.
Print Assumptions C61_repaired.

(** ** C62: the number is what the field says, for every kind of packet *)
Lemma take_len {A} n (l : list A) : len (firstn n l) <= N.of_nat n.
Proof. unfold len. rewrite firstn_length. lia. Qed.
Ltac unchain D :=
  match type of D with
  | bind ?m _ = Ok _ =>
      let y := fresh "y" in let E := fresh "E" in
      apply bind_ok in D as [y [E D]]; repeat match goal with q : (_ * _)%type |- _ => destruct q end; cbn beta iota in D
  end.

Theorem C62_repaired : forall fd P oc c k sp s p rest,
  prims_ok P -> remote_keys P oc c sp k -> no_remote_ack c sp -> bytes_ok s -> len s < 2 ^ 63 ->
  decode_repaired fd oc c s = Ok (p, rest) ->
  match p with
  | PInitial q => sp = SpInitial -> number_of (pi_pn_bytes q) (pi_pn q)
  | PZeroRtt q => sp = SpApplication -> number_of (pz_pn_bytes q) (pz_pn q)
  | PHandshake q => sp = SpHandshake -> number_of (ph_pn_bytes q) (ph_pn q)
  | POneRtt q => sp = SpApplication -> number_of (po_pn_bytes q) (po_pn q)
  | _ => True
  end.
Proof.
  intros fd P oc c k sp s p rest HP K NA B L D.
  assert (LL : forall h n, long_packet_number_length h = Ok n -> n <= 4).
  { intros h n E. unfold long_packet_number_length in E. destruct (lh_protected h); [discriminate E|].
    injection E as <-. pose proof (land3_le (lh_byte h)). lia. }
  assert (LS : forall h n, short_packet_number_length h = Ok n -> n <= 4).
  { intros h n E. unfold short_packet_number_length in E. destruct (sh_protected h); [discriminate E|].
    injection E as <-. pose proof (land3_le (sh_byte h)). lia. }
  assert (R : forall n x pn, n <= 4 -> reconstruct_remote_pn oc c sp (firstn (N.to_nat n) x) = Ok pn ->
            number_of (firstn (N.to_nat n) x) pn).
  { intros n x pn Ln E. rewrite reconstruct_none in E; auto.
    - unfold number_of. congruence.
    - pose proof (take_len (N.to_nat n) x). lia. }
  unfold decode_repaired in D. unchain D. destruct p0 as [h|h].
  - unchain D. injection D as <- <-. intros ->. unfold one_rtt_repaired in E0. repeat unchain E0.
    injection E0 as <- <-. cbn [po_pn_bytes po_pn]. eauto.
  - unchain D. destruct y; try discriminate D.
    + unchain D. injection D as <- <-. exact I.
    + unchain D. injection D as <- <-. intros ->. unfold initial_repaired in E1. repeat unchain E1.
      injection E1 as <- <-. cbn [pi_pn_bytes pi_pn]. eauto.
    + unchain D. injection D as <- <-. intros ->. unfold zero_rtt_repaired in E1. repeat unchain E1.
      injection E1 as <- <-. cbn [pz_pn_bytes pz_pn]. eauto.
    + unchain D. injection D as <- <-. intros ->. unfold handshake_repaired in E1. repeat unchain E1.
      injection E1 as <- <-. cbn [ph_pn_bytes ph_pn]. eauto.
Qed.
Print Assumptions C62_repaired.

(** The packets of C61_case that the decoder of the crate refuses. *)
Example C61_repaired_case :
  (let? (c, s) := three_keys in
   let dec w := match decode_repaired deserialize_frames true s w with
     | Ok (PHandshake q, r) => Ok (1, ph_pn q, ph_payload q, r)
     | Ok (PZeroRtt q, r) => Ok (2, pz_pn q, pz_payload q, r)
     | Ok (PInitial q, r) => Ok (4, pi_pn q, pi_payload q, r)
     | Ok (POneRtt q, r) => Ok (3, po_pn q, po_payload q, r)
     | Ok _ => Ok (0, 0, [], [])
     | Err e => Err e | Panic w => Panic w | Diverge => Diverge
     end in
   let long type sp pnb token :=
     let b := 0xc0 + type * 16 + (len pnb - 1) in
     let mid := be_bytes 4 1 ++ [1; 5; 0] ++ token ++ [20 + len pnb] in
     let? body := encrypt_local_payload c sp [1; 1; 1; 1] (b :: mid ++ pnb) (be_val pnb) in
     let? mask := get_local_hp_mask c sp (skipn (N.to_nat (4 - len pnb)) body) in
     match mask with
     | m0 :: m => Ok (N.lxor b (N.land m0 0x0f) :: mid ++ xor_bytes pnb m ++ body)
     | [] => Err (InternalError "mask")
     end in
   let short pnb :=
     let b := 0x40 + (len pnb - 1) in
     let d := be_bytes 8 (cid_val sample_id) in
     let? body := encrypt_local_payload c SpApplication [1; 1; 1; 1] (b :: d ++ pnb) (be_val pnb) in
     let? mask := get_local_hp_mask c SpApplication (skipn (N.to_nat (4 - len pnb)) body) in
     match mask with
     | m0 :: m => Ok (N.lxor b (N.land m0 0x1f) :: d ++ xor_bytes pnb m ++ body)
     | [] => Err (InternalError "mask")
     end in
   let? i1 := long 0 SpInitial [9] [0] in
   let? z2 := long 1 SpApplication [1; 9] [] in
   let? h3 := long 2 SpHandshake [1; 0; 9] [] in
   let? s1 := short [9] in
   Ok (dec (i1 ++ [4]), dec (z2 ++ [5]), dec (h3 ++ [6]), dec s1)) =
  Ok (Ok (4, 9, [Ping; Ping; Ping; Ping], [4]), Ok (2, 265, [Ping; Ping; Ping; Ping], [5]),
      Ok (1, 65545, [Ping; Ping; Ping; Ping], [6]), Ok (3, 9, [Ping; Ping; Ping; Ping], [])).
Proof. vm_compute. reflexivity. Qed.
