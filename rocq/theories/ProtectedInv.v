(** What the decoders of Handshake, 0-RTT and 1-RTT packets do on arbitrary
    bytes, once the keys are there. *)
From Verif Require Import Base Utils Frame CipherSuite Secrets Connection Packet Histories Spec SpecPacket
  Tactics UtilsFacts ParserFacts FrameFacts SecretsFacts HeaderFacts PacketFacts ConnectionFacts PacketInv
  SendFacts.

Lemma xor_firstn n a b : firstn n (xor_bytes a b) = xor_bytes (firstn n a) (firstn n b).
Proof.
  revert a b. induction n as [|n IH]; intros [|x a] [|y b]; cbn; auto. rewrite IH. reflexivity.
Qed.

Lemma one_byte x : x < 64 -> varint_enc x [x].
Proof.
  intros H. exists 0. split; [lia|]. split; [reflexivity|]. split; [repeat constructor; lia|]. split; [exact H|].
  cbn [be_val]. rewrite len_nil, N.pow_0_r, N.mul_1_r, N.mul_0_l, N.add_0_r. reflexivity.
Qed.

Lemma nonce_exists iv pn : len iv = 12 -> bytes_ok iv -> pn < 2 ^ 64 -> exists nonce, nonce_for iv pn nonce.
Proof.
  intros L B H. exists (be_bytes 12 (N.lxor (be_val iv) pn)).
  split; [apply be_bytes_ok|]. split; [rewrite be_bytes_len, L; reflexivity|].
  apply be_val_be_bytes_small. change (256 ^ N.of_nat 12) with (2 ^ 96). apply lxor_lt.
  - pose proof (be_val_bound iv B) as V. rewrite L in V. exact V.
  - pows. lia.
Qed.

(** The visible fields of a Handshake ([t] = 2) or 0-RTT ([t] = 1) packet up to
    the four bytes that may hold the packet number. *)
Record long_shape (t : N) (h : long_header) (fields : list N) (L : N) (ll ppn body s : list N) : Prop :=
  LongShape {
  ls_byte : lh_byte h < 256;
  ls_long : 128 <= lh_byte h;
  ls_type : (lh_byte h / 16) mod 4 = t;
  ls_version : lh_version h <> 0;
  ls_vn : lh_vn h = None;
  ls_fields : long_fields h fields;
  ls_ll : varint_enc L ll;
  ls_ppn : len ppn = 4;
  ls_ppn_ok : bytes_ok ppn;
  ls_body : bytes_ok body;
  ls_wire : s = lh_byte h :: fields ++ ll ++ ppn ++ body }.

Definition handshake_rest (oc : bool) (c : connection) (h : long_header) (fields : list N) (L : N)
  (ll ppn body : list N) (m0 : N) (mask : list N) : outcome (packet_handshake * stream) :=
  let first := N.lxor (lh_byte h) (N.land m0 0x0f) in
  let pnl := N.land first 0x03 + 1 in
  let four := xor_bytes ppn mask in
  let pnb := firstn (N.to_nat pnl) four in
  let? n := sub64 oc L pnl in
  let? (data, rest) := var_bytes_from_stream n body in
  let? pt := decrypt_remote_payload c SpHandshake data (first :: fields ++ ll ++ pnb) (be_val four) in
  let? fs := deserialize_frames oc pt in
  Ok (PacketHandshake (with_byte h first false) pnb (be_val four) fs, rest).

Definition zero_rtt_rest (oc : bool) (c : connection) (h : long_header) (fields : list N) (L : N)
  (ll ppn body : list N) (m0 : N) (mask : list N) : outcome (packet_zero_rtt * stream) :=
  let first := N.lxor (lh_byte h) (N.land m0 0x0f) in
  let pnl := N.land first 0x03 + 1 in
  let pnb := firstn (N.to_nat pnl) (xor_bytes ppn mask) in
  let? n := sub64 oc L pnl in
  let? (data, rest) := var_bytes_from_stream n body in
  let? pt := decrypt_remote_payload c SpApplication data (first :: fields ++ ll ++ pnb) (be_val pnb) in
  let? fs := deserialize_frames oc pt in
  Ok (PacketZeroRtt (with_byte h first false) L pnb (be_val pnb) fs, rest).

Definition one_rtt_rest (oc : bool) (c : connection) (b0 : N) (did : u160) (d ppn body : list N)
  (m0 : N) (mask : list N) : outcome (packet_one_rtt * stream) :=
  let first := N.lxor b0 (N.land m0 0x1f) in
  let pnl := N.land first 0x03 + 1 in
  let pnb := firstn (N.to_nat pnl) (xor_bytes ppn mask) in
  let? pt := decrypt_remote_payload c SpApplication body (first :: d ++ pnb) (be_val pnb) in
  let? fs := deserialize_frames oc pt in
  Ok (PacketOneRtt (ShortHeader first did false) pnb (be_val pnb) fs, []).

Lemma handshake_eq P oc c k h fields L ll ppn body s :
  prims_ok P -> remote_keys P oc c SpHandshake k -> no_remote_ack c SpHandshake ->
  long_shape 2 h fields L ll ppn body s ->
  if len body <? 16 then handshake_from_stream oc c s = Err (InternalError "not enough bytes for var_bytes")
  else exists m0 mask more,
    p_ecb_encrypt P (k_hp k) (firstn 16 body) = Some (m0 :: mask ++ more) /\ len mask = 4 /\ bytes_ok (m0 :: mask) /\
    handshake_from_stream oc c s = handshake_rest oc c h fields L ll ppn body m0 mask.
Proof.
  intros HP K NA [Hb Hlong Ht Hv VN HF HL L4 Bp Bb ->].
  assert (R : handshake_from_stream oc c (lh_byte h :: fields ++ ll ++ ppn ++ body) =
    let? mask := get_remote_hp_mask c SpHandshake body in
    let? header := long_remove_protection (with_byte h (lh_byte h) true) mask in
    let? pn_length := long_packet_number_length header in
    let? pn_bytes := xor_pn_protection ppn mask in
    let pn_vec := firstn (N.to_nat pn_length) pn_bytes in
    let? packet_number := reconstruct_remote_pn oc c SpHandshake pn_bytes in
    let? n := sub64 oc L pn_length in
    let? (protected_frame_data, s) := var_bytes_from_stream n body in
    let? hb := long_to_bytes header in
    let associated_data := hb ++ ll ++ pn_vec in
    let? frame_data :=
      decrypt_remote_payload c SpHandshake protected_frame_data associated_data packet_number in
    let? payload := deserialize_frames oc frame_data in
    Ok (PacketHandshake header pn_vec packet_number payload, s)).
  { unfold handshake_from_stream. rewrite u8_dec by auto. cbn [bind].
    rewrite (long_dec h fields) by auto. cbn [bind].
    rewrite (varint_dec oc _ _ _ HL). cbn [bind]. rewrite var_bytes_app by auto. cbn [bind].
    unfold retry_byte. rewrite Ht. reflexivity. }
  rewrite R. destruct (N.ltb_spec (len body) 16) as [L16|L16].
  { rewrite (remote_mask_short P oc c _ k) by auto. reflexivity. }
  destruct (remote_mask P oc c SpHandshake k body HP K L16) as [m0 [mask [more [Em [Lm [Bm Ee]]]]]].
  exists m0, mask, more. split; [auto|]. split; [auto|]. split; [auto|].
  rewrite Em. cbn [bind]. unfold long_remove_protection. cbn [with_byte lh_protected index nth_error bind lh_byte].
  set (first := N.lxor (lh_byte h) (N.land m0 15)).
  unfold handshake_rest. fold first.
  change (LongHeader first (lh_version (with_byte h (lh_byte h) true)) (lh_dcid_len (with_byte h (lh_byte h) true))
    (lh_dcid (with_byte h (lh_byte h) true)) (lh_scid_len (with_byte h (lh_byte h) true)) (lh_scid (with_byte h (lh_byte h) true))
    (lh_vn (with_byte h (lh_byte h) true)) false) with (with_byte h first false).
  unfold long_packet_number_length at 1. cbn [with_byte lh_protected lh_byte].
  cbn [bind]. rewrite xor_pn_spec by (try lia; rewrite len_cons; lia). cbn [bind skipn].
  assert (Lx : len (xor_bytes ppn mask) = 4) by (rewrite xor_bytes_len; congruence).
  rewrite reconstruct_none by (auto; lia). cbn [bind].
  destruct (sub64 oc L _) as [n| | |]; try reflexivity. cbn [bind].
  destruct (var_bytes_from_stream n body) as [[data rest]| | |]; try reflexivity. cbn [bind].
  change (LongHeader first (lh_version h) (lh_dcid_len h) (lh_dcid h) (lh_scid_len h) (lh_scid h) (lh_vn h) false)
    with (with_byte h first false).
  rewrite (long_to_bytes_ok _ fields (long_fields_byte _ _ _ _ HF)). cbn [bind app with_byte lh_byte].
  reflexivity.
Qed.

Lemma zero_rtt_eq P oc c k h fields L ll ppn body s :
  prims_ok P -> remote_keys P oc c SpApplication k -> no_remote_ack c SpApplication ->
  long_shape 1 h fields L ll ppn body s ->
  if len body <? 16 then zero_rtt_from_stream oc c s = Err (InternalError "not enough bytes for var_bytes")
  else exists m0 mask more,
    p_ecb_encrypt P (k_hp k) (firstn 16 body) = Some (m0 :: mask ++ more) /\ len mask = 4 /\ bytes_ok (m0 :: mask) /\
    zero_rtt_from_stream oc c s = zero_rtt_rest oc c h fields L ll ppn body m0 mask.
Proof.
  intros HP K NA [Hb Hlong Ht Hv VN HF HL L4 Bp Bb ->].
  assert (R : zero_rtt_from_stream oc c (lh_byte h :: fields ++ ll ++ ppn ++ body) =
    let? mask := get_remote_hp_mask c SpApplication body in
    let? header := long_remove_protection (with_byte h (lh_byte h) true) mask in
    let? pn_length := long_packet_number_length header in
    let? pn_protected := xor_pn_protection ppn mask in
    let pn_bytes := firstn (N.to_nat pn_length) pn_protected in
    let? packet_number := reconstruct_remote_pn oc c SpApplication pn_bytes in
    let? n := sub64 oc L pn_length in
    let? (protected_frame_data, s) := var_bytes_from_stream n body in
    let? hb := long_to_bytes header in
    let associated_data := hb ++ ll ++ firstn (N.to_nat pn_length) pn_bytes in
    let? frame_data :=
      decrypt_remote_payload c SpApplication protected_frame_data associated_data packet_number in
    let? payload := deserialize_frames oc frame_data in
    Ok (PacketZeroRtt header L pn_bytes packet_number payload, s)).
  { unfold zero_rtt_from_stream. rewrite u8_dec by auto. cbn [bind].
    rewrite (long_dec h fields) by auto. cbn [bind].
    rewrite (varint_dec oc _ _ _ HL). cbn [bind]. rewrite var_bytes_app by auto. cbn [bind].
    unfold retry_byte. rewrite Ht. reflexivity. }
  rewrite R. destruct (N.ltb_spec (len body) 16) as [L16|L16].
  { rewrite (remote_mask_short P oc c _ k) by auto. reflexivity. }
  destruct (remote_mask P oc c SpApplication k body HP K L16) as [m0 [mask [more [Em [Lm [Bm Ee]]]]]].
  exists m0, mask, more. split; [auto|]. split; [auto|]. split; [auto|].
  rewrite Em. cbn [bind]. unfold long_remove_protection. cbn [with_byte lh_protected index nth_error bind lh_byte].
  set (first := N.lxor (lh_byte h) (N.land m0 15)).
  unfold zero_rtt_rest. fold first.
  change (LongHeader first (lh_version (with_byte h (lh_byte h) true)) (lh_dcid_len (with_byte h (lh_byte h) true))
    (lh_dcid (with_byte h (lh_byte h) true)) (lh_scid_len (with_byte h (lh_byte h) true)) (lh_scid (with_byte h (lh_byte h) true))
    (lh_vn (with_byte h (lh_byte h) true)) false) with (with_byte h first false).
  unfold long_packet_number_length at 1. cbn [with_byte lh_protected lh_byte].
  cbn [bind]. rewrite xor_pn_spec by (try lia; rewrite len_cons; lia). cbn [bind skipn].
  assert (Lx : len (xor_bytes ppn mask) = 4) by (rewrite xor_bytes_len; congruence).
  pose proof (land3_le first) as L3.
  set (n3 := N.to_nat (N.land first 3 + 1)).
  assert (Lb : len (firstn n3 (xor_bytes ppn mask)) <= 4)
    by (unfold len in *; rewrite firstn_length; lia).
  rewrite reconstruct_none by (auto; lia). cbn [bind].
  rewrite firstn_firstn, Nat.min_id.
  destruct (sub64 oc L _) as [n| | |]; try reflexivity. cbn [bind].
  destruct (var_bytes_from_stream n body) as [[data rest]| | |]; try reflexivity. cbn [bind].
  change (LongHeader first (lh_version h) (lh_dcid_len h) (lh_dcid h) (lh_scid_len h) (lh_scid h) (lh_vn h) false)
    with (with_byte h first false).
  rewrite (long_to_bytes_ok _ fields (long_fields_byte _ _ _ _ HF)). cbn [bind app with_byte lh_byte].
  reflexivity.
Qed.

Lemma one_rtt_eq P oc c k b0 d did ppn body :
  prims_ok P -> remote_keys P oc c SpApplication k -> no_remote_ack c SpApplication ->
  b0 < 256 -> cid_enc did 8 d -> len ppn = 4 ->
  let s := b0 :: d ++ ppn ++ body in
  if len body <? 16 then one_rtt_from_stream oc c s = Err (InternalError "not enough bytes for var_bytes")
  else exists m0 mask more,
    p_ecb_encrypt P (k_hp k) (firstn 16 body) = Some (m0 :: mask ++ more) /\ len mask = 4 /\ bytes_ok (m0 :: mask) /\
    one_rtt_from_stream oc c s = one_rtt_rest oc c b0 did d ppn body m0 mask.
Proof.
  intros HP K NA Hb HD L4 s.
  assert (R : one_rtt_from_stream oc c s =
    let? mask := get_remote_hp_mask c SpApplication body in
    let? header := short_remove_protection (ShortHeader b0 did true) mask in
    let? pn_length := short_packet_number_length header in
    let? pn_protected := xor_pn_protection ppn mask in
    let pn_bytes := firstn (N.to_nat pn_length) pn_protected in
    let? packet_number := reconstruct_remote_pn oc c SpApplication pn_bytes in
    let? (protected_frame_data, s) := all_bytes_from_stream body in
    let? hb := short_to_bytes header in
    let associated_data := hb ++ pn_bytes in
    let? frame_data :=
      decrypt_remote_payload c SpApplication protected_frame_data associated_data packet_number in
    let? payload := deserialize_frames oc frame_data in
    Ok (PacketOneRtt header pn_bytes packet_number payload, s)).
  { unfold one_rtt_from_stream, s. rewrite u8_dec by auto. cbn [bind].
    rewrite (short_dec _ d did) by auto. cbn [bind]. rewrite var_bytes_app by auto. reflexivity. }
  rewrite R. destruct (N.ltb_spec (len body) 16) as [L16|L16].
  { rewrite (remote_mask_short P oc c _ k) by auto. reflexivity. }
  destruct (remote_mask P oc c SpApplication k body HP K L16) as [m0 [mask [more [Em [Lm [Bm Ee]]]]]].
  exists m0, mask, more. split; [auto|]. split; [auto|]. split; [auto|].
  rewrite Em. cbn [bind]. unfold short_remove_protection. cbn [sh_protected index nth_error bind sh_byte sh_dcid].
  unfold one_rtt_rest. set (first := N.lxor b0 (N.land m0 31)).
  unfold short_packet_number_length at 1. cbn [sh_protected sh_byte bind].
  rewrite xor_pn_spec by (try lia; rewrite len_cons; lia). cbn [bind skipn].
  assert (Lx : len (xor_bytes ppn mask) = 4) by (rewrite xor_bytes_len; congruence).
  pose proof (land3_le first) as L3.
  set (n3 := N.to_nat (N.land first 3 + 1)).
  assert (Lb : len (firstn n3 (xor_bytes ppn mask)) <= 4)
    by (unfold len in *; rewrite firstn_length; lia).
  rewrite reconstruct_none by (auto; lia). cbn [bind all_bytes_from_stream].
  rewrite (short_to_bytes_ok (ShortHeader first did false) d HD). cbn [bind app sh_byte]. reflexivity.
Qed.

(** Every byte string whose header announces such a packet either has this
    shape or is refused. *)
Lemma long_shaped (A : Type) (f : stream -> outcome A) oc s h s1 b0 t :
  (forall r, long_from_stream b0 s1 = Ok (h, r) -> 
     f s = (let? (L, ll, r) := var_int_with_bytes_from_stream oc r in
            let? (ppn, r) := var_bytes_from_stream 4 r in f s)) ->
  bytes_ok s -> s = b0 :: s1 -> 128 <= b0 ->
  (exists r, long_from_stream b0 s1 = Ok (h, r)) -> lh_version h <> 0 -> (b0 / 16) mod 4 = t ->
  (exists e, f s = Err e) \/
  (exists h' fields L ll ppn body, long_shape t h' fields L ll ppn body s).
Proof.
  intros F B -> Hl [r Eh] Hv Ht. apply bytes_ok_cons in B as [Hb B]. specialize (F r Eh).
  destruct (long_inv _ _ _ _ B Eh) as [E0 [[_ [VN [Hp [fields [-> HF]]]]]|[Z _]]]; [|contradiction].
  apply bytes_ok_app in B as [Bf B].
  destruct (varint_total oc r B) as [[L [ll [r1 E]]]|[e E]]; rewrite E in F; cbn [bind] in F; eauto.
  destruct (varint_dec_inv _ _ _ _ _ B E) as [-> HL]. apply bytes_ok_app in B as [_ B].
  destruct (var_bytes_from_stream 4 r1) as [[ppn body]|e| |] eqn:E2; cbn [bind] in F; eauto.
  2,3: rewrite var_bytes_spec in E2; destruct (_ <=? _); discriminate.
  apply var_bytes_inv in E2 as [-> L4]. apply bytes_ok_app in B as [Bp Bb].
  right. exists h, fields, L, ll, ppn, body.
  constructor; auto; try congruence. all: rewrite ?E0; auto.
Qed.

Lemma handshake_shaped oc c s h s1 b0 : bytes_ok s -> s = b0 :: s1 -> 128 <= b0 ->
  (exists r, long_from_stream b0 s1 = Ok (h, r)) -> lh_version h <> 0 -> (b0 / 16) mod 4 = 2 ->
  (exists e, handshake_from_stream oc c s = Err e) \/
  (exists h' fields L ll ppn body, long_shape 2 h' fields L ll ppn body s).
Proof.
  intros B Es. apply (long_shaped _ _ oc s h s1 b0 2); auto. intros r E. subst s.
  apply bytes_ok_cons in B as [Hb B]. unfold handshake_from_stream at 1.
  rewrite u8_dec by auto. cbn [bind]. rewrite E. cbn [bind].
  destruct (var_int_with_bytes_from_stream oc r) as [[[L ll] r1]| | |] eqn:E1; try reflexivity. cbn [bind].
  destruct (var_bytes_from_stream 4 r1) as [[ppn r2]| | |] eqn:E2; try reflexivity. cbn [bind].
  unfold handshake_from_stream. rewrite u8_dec by auto. cbn [bind]. rewrite E. cbn [bind]. rewrite E1. cbn [bind].
  rewrite E2. reflexivity.
Qed.

Lemma zero_rtt_shaped oc c s h s1 b0 : bytes_ok s -> s = b0 :: s1 -> 128 <= b0 ->
  (exists r, long_from_stream b0 s1 = Ok (h, r)) -> lh_version h <> 0 -> (b0 / 16) mod 4 = 1 ->
  (exists e, zero_rtt_from_stream oc c s = Err e) \/
  (exists h' fields L ll ppn body, long_shape 1 h' fields L ll ppn body s).
Proof.
  intros B Es. apply (long_shaped _ _ oc s h s1 b0 1); auto. intros r E. subst s.
  apply bytes_ok_cons in B as [Hb B]. unfold zero_rtt_from_stream at 1.
  rewrite u8_dec by auto. cbn [bind]. rewrite E. cbn [bind].
  destruct (var_int_with_bytes_from_stream oc r) as [[[L ll] r1]| | |] eqn:E1; try reflexivity. cbn [bind].
  destruct (var_bytes_from_stream 4 r1) as [[ppn r2]| | |] eqn:E2; try reflexivity. cbn [bind].
  unfold zero_rtt_from_stream. rewrite u8_dec by auto. cbn [bind]. rewrite E. cbn [bind]. rewrite E1. cbn [bind].
  rewrite E2. reflexivity.
Qed.

(** ** Inversion of accepted packets *)
Lemma long_kind_inv oc c s p rest t : bytes_ok s -> decode_next_packet oc c s = Ok (p, rest) ->
  (t = 1 /\ (exists q, p = PZeroRtt q)) \/ (t = 2 /\ (exists q, p = PHandshake q)) ->
  exists b s1 h, s = b :: s1 /\ 128 <= b < 256 /\ (exists r, long_from_stream b s1 = Ok (h, r)) /\
    lh_version h <> 0 /\ (b / 16) mod 4 = t /\
    match p with
    | PZeroRtt q => zero_rtt_from_stream oc c s = Ok (q, rest)
    | PHandshake q => handshake_from_stream oc c s = Ok (q, rest)
    | _ => False
    end.
Proof.
  intros B H T.
  destruct (decode_next_cases oc c s B) as [[w [e [_ E]]]|[[b [s1 [h [r [Es [Hb [El [E0 E]]]]]]]]|[b [s1 [h [r [_ [_ [_ E]]]]]]]]].
  1: congruence.
  2: { rewrite E in H; apply bind_ok in H as [[q r'] [_ H]].
       destruct T as [[_ [q' ->]]|[_ [q' ->]]]; discriminate. }
  exists b, s1, h. split; [auto|]. split; [auto|]. split; [eauto|].
  rewrite E in H. unfold kind in H. destruct (N.ltb_spec b 128); [lia|].
  destruct (N.eqb_spec (lh_version h) 0) as [|Hv].
  { apply bind_ok in H as [[q r'] [_ H]]. destruct T as [[_ [q' ->]]|[_ [q' ->]]]; discriminate. }
  split; [auto|].
  destruct ((b / 16) mod 4) as [|[[|[]|]|[[]|[]|]|]];
    try (apply bind_ok in H as [[q r'] [Hq H]]; injection H as <- <-; destruct T as [[-> [q' Eq]]|[-> [q' Eq]]]; try discriminate; split; auto; fail).
Qed.

Lemma body_length oc L pnl n LL x : x + n <= LL -> LL < 2 ^ 63 -> pnl <= 4 ->
  L < 2 ^ 62 -> sub64 oc L pnl = Ok n -> pnl + n = L.
Proof.
  intros A B C D En. unfold sub64 in En. destruct (N.leb_spec pnl L) as [G|G].
  - injection En as <-. lia.
  - exfalso. destruct oc; [discriminate|]. injection En as En. unfold two64 in En. pows. lia.
Qed.

Lemma handshake_inv P oc c k s p rest :
  prims_ok P -> remote_keys P oc c SpHandshake k -> no_remote_ack c SpHandshake -> bytes_ok s -> len s < 2 ^ 63 ->
  decode_next_packet oc c s = Ok (PHandshake p, rest) ->
  exists h fields L ll ppn body m0 mask more nonce ct tag pt,
    long_shape 2 h fields L ll ppn body s /\
    p_ecb_encrypt P (k_hp k) (firstn 16 body) = Some (m0 :: mask ++ more) /\ len mask = 4 /\ bytes_ok (m0 :: mask) /\
    ph_header p = with_byte h (N.lxor (lh_byte h) (N.land m0 0x0f)) false /\
    len (ph_pn_bytes p) = N.land (lh_byte (ph_header p)) 0x03 + 1 /\ bytes_ok (ph_pn_bytes p) /\
    ph_pn_bytes p = firstn (N.to_nat (len (ph_pn_bytes p))) (xor_bytes ppn mask) /\
    ph_pn p = be_val (xor_bytes ppn mask) /\
    body = ct ++ tag ++ rest /\ len (ph_pn_bytes p) + len ct + len tag = L /\ len tag = 16 /\
    nonce_for (k_iv k) (ph_pn p) nonce /\
    p_gcm_open P (k_key k) nonce
      (lh_byte (ph_header p) :: fields ++ ll ++ ph_pn_bytes p) ct tag = Some pt /\
    deserialize_frames oc pt = Ok (ph_payload p).
Proof.
  intros HP K NA B LS H.
  destruct (long_kind_inv oc c s _ rest 2 B H ltac:(eauto)) as [b [s1 [h [Es [Hb [El [Hv [Ht Hi]]]]]]]].
  destruct (handshake_shaped oc c s h s1 b B Es (proj1 Hb) El Hv Ht)
    as [[e E1]|[h' [fields [L [ll [ppn [body SH]]]]]]]; [congruence|].
  pose proof (handshake_eq P oc c k _ _ _ _ _ _ _ HP K NA SH) as Q.
  destruct (len body <? 16); [congruence|]. destruct Q as [m0 [mask [more [Ee [Lm [Bm Q]]]]]].
  rewrite Q in Hi. unfold handshake_rest in Hi. cbv zeta in Hi.
  set (first := N.lxor (lh_byte h') (N.land m0 15)) in *.
  set (pnb := firstn (N.to_nat (N.land first 3 + 1)) (xor_bytes ppn mask)) in *.
  pose proof (land3_le first) as L3.
  assert (Lx : len (xor_bytes ppn mask) = 4) by (rewrite xor_bytes_len; pose proof (ls_ppn _ _ _ _ _ _ _ _ SH); congruence).
  assert (Lb : len pnb = N.land first 3 + 1) by (unfold pnb, len in *; rewrite firstn_length; lia).
  apply bytes_ok_cons in Bm as Bm'. destruct Bm' as [_ Bmask].
  assert (Bx : bytes_ok (xor_bytes ppn mask)) by (apply xor_bytes_ok; [apply (ls_ppn_ok _ _ _ _ _ _ _ _ SH)|auto]).
  assert (Bb : bytes_ok pnb) by (apply bytes_ok_firstn; auto).
  apply bind_ok in Hi as [n [En Hi]]. apply bind_ok in Hi as [[data rest'] [Ed Hi]].
  apply bind_ok in Hi as [pt [Ept Hi]]. apply bind_ok in Hi as [fs [Ef Hi]]. injection Hi as <- <-.
  apply var_bytes_inv in Ed as [Ebody Ln].
  assert (Lpn : be_val (xor_bytes ppn mask) < 2 ^ 64) by (pose proof (pnb_bound _ Bx ltac:(lia)); pows; lia).
  destruct (decrypt_remote_inv P oc c _ k _ _ _ _ K Lpn Ept) as [nonce [ct [tag [Hn [Edata [Lt Ho]]]]]].
  exists h', fields, L, ll, ppn, body, m0, mask, more, nonce, ct, tag, pt.
  cbn [ph_header ph_pn ph_pn_bytes ph_payload with_byte lh_byte].
  split; [exact SH|]. split; [auto|]. split; [auto|]. split; [auto|]. split; [reflexivity|]. split; [auto|]. split; [auto|].
  split; [rewrite Lb; reflexivity|]. split; [reflexivity|].
  split; [subst data; rewrite app_assoc; exact Ebody|].
  split.
  { assert (LD : len data = n) by auto. rewrite Edata, len_app in LD. rewrite Lb.
    pose proof (varint_enc_v62 _ _ (ls_ll _ _ _ _ _ _ _ _ SH)) as V. unfold v62 in V.
    rewrite (ls_wire _ _ _ _ _ _ _ _ SH), Ebody, Edata in LS. rewrite len_cons, !len_app in LS.
    rewrite <- (body_length oc L _ n (2 ^ 63 - 1) 0) with (5 := En); lia. }
  split; [auto|]. split; [auto|]. split; [auto|]. auto.
Qed.

Lemma zero_rtt_inv P oc c k s p rest :
  prims_ok P -> remote_keys P oc c SpApplication k -> no_remote_ack c SpApplication -> bytes_ok s -> len s < 2 ^ 63 ->
  decode_next_packet oc c s = Ok (PZeroRtt p, rest) ->
  exists h fields ll ppn body m0 mask more nonce ct tag pt,
    long_shape 1 h fields (pz_length p) ll ppn body s /\
    p_ecb_encrypt P (k_hp k) (firstn 16 body) = Some (m0 :: mask ++ more) /\ len mask = 4 /\ bytes_ok (m0 :: mask) /\
    pz_header p = with_byte h (N.lxor (lh_byte h) (N.land m0 0x0f)) false /\
    len (pz_pn_bytes p) = N.land (lh_byte (pz_header p)) 0x03 + 1 /\ bytes_ok (pz_pn_bytes p) /\
    pz_pn_bytes p = firstn (N.to_nat (len (pz_pn_bytes p))) (xor_bytes ppn mask) /\
    pz_pn p = be_val (pz_pn_bytes p) /\
    body = ct ++ tag ++ rest /\ len (pz_pn_bytes p) + len ct + len tag = pz_length p /\ len tag = 16 /\
    nonce_for (k_iv k) (pz_pn p) nonce /\
    p_gcm_open P (k_key k) nonce
      (lh_byte (pz_header p) :: fields ++ ll ++ pz_pn_bytes p) ct tag = Some pt /\
    deserialize_frames oc pt = Ok (pz_payload p).
Proof.
  intros HP K NA B LS H.
  destruct (long_kind_inv oc c s _ rest 1 B H ltac:(eauto)) as [b [s1 [h [Es [Hb [El [Hv [Ht Hi]]]]]]]].
  destruct (zero_rtt_shaped oc c s h s1 b B Es (proj1 Hb) El Hv Ht)
    as [[e E1]|[h' [fields [L [ll [ppn [body SH]]]]]]]; [congruence|].
  pose proof (zero_rtt_eq P oc c k _ _ _ _ _ _ _ HP K NA SH) as Q.
  destruct (len body <? 16); [congruence|]. destruct Q as [m0 [mask [more [Ee [Lm [Bm Q]]]]]].
  rewrite Q in Hi. unfold zero_rtt_rest in Hi. cbv zeta in Hi.
  set (first := N.lxor (lh_byte h') (N.land m0 15)) in *.
  set (pnb := firstn (N.to_nat (N.land first 3 + 1)) (xor_bytes ppn mask)) in *.
  pose proof (land3_le first) as L3.
  assert (Lx : len (xor_bytes ppn mask) = 4) by (rewrite xor_bytes_len; pose proof (ls_ppn _ _ _ _ _ _ _ _ SH); congruence).
  assert (Lb : len pnb = N.land first 3 + 1) by (unfold pnb, len in *; rewrite firstn_length; lia).
  apply bytes_ok_cons in Bm as Bm'. destruct Bm' as [_ Bmask].
  assert (Bx : bytes_ok (xor_bytes ppn mask)) by (apply xor_bytes_ok; [apply (ls_ppn_ok _ _ _ _ _ _ _ _ SH)|auto]).
  assert (Bb : bytes_ok pnb) by (apply bytes_ok_firstn; auto).
  apply bind_ok in Hi as [n [En Hi]]. apply bind_ok in Hi as [[data rest'] [Ed Hi]].
  apply bind_ok in Hi as [pt [Ept Hi]]. apply bind_ok in Hi as [fs [Ef Hi]]. injection Hi as <- <-.
  apply var_bytes_inv in Ed as [Ebody Ln].
  assert (Lpn : be_val pnb < 2 ^ 64) by (pose proof (pnb_bound _ Bb ltac:(lia)); pows; lia).
  destruct (decrypt_remote_inv P oc c _ k _ _ _ _ K Lpn Ept) as [nonce [ct [tag [Hn [Edata [Lt Ho]]]]]].
  exists h', fields, ll, ppn, body, m0, mask, more, nonce, ct, tag, pt.
  cbn [pz_header pz_length pz_pn pz_pn_bytes pz_payload with_byte lh_byte].
  split; [exact SH|]. split; [auto|]. split; [auto|]. split; [auto|]. split; [reflexivity|]. split; [auto|]. split; [auto|].
  split; [rewrite Lb; reflexivity|]. split; [reflexivity|].
  split; [subst data; rewrite app_assoc; exact Ebody|].
  split.
  { assert (LD : len data = n) by auto. rewrite Edata, len_app in LD. rewrite Lb.
    pose proof (varint_enc_v62 _ _ (ls_ll _ _ _ _ _ _ _ _ SH)) as V. unfold v62 in V.
    rewrite (ls_wire _ _ _ _ _ _ _ _ SH), Ebody, Edata in LS. rewrite len_cons, !len_app in LS.
    rewrite <- (body_length oc L _ n (2 ^ 63 - 1) 0) with (5 := En); lia. }
  split; [auto|]. split; [auto|]. split; [auto|]. auto.
Qed.

Lemma one_rtt_inv P oc c k s p rest :
  prims_ok P -> remote_keys P oc c SpApplication k -> no_remote_ack c SpApplication -> bytes_ok s ->
  decode_next_packet oc c s = Ok (POneRtt p, rest) ->
  exists b0 d ppn body m0 mask more nonce ct tag pt,
    s = b0 :: d ++ ppn ++ body /\ b0 < 128 /\ cid_enc (sh_dcid (po_header p)) 8 d /\ len ppn = 4 /\ bytes_ok ppn /\
    p_ecb_encrypt P (k_hp k) (firstn 16 body) = Some (m0 :: mask ++ more) /\ len mask = 4 /\ bytes_ok (m0 :: mask) /\
    sh_byte (po_header p) = N.lxor b0 (N.land m0 0x1f) /\ sh_protected (po_header p) = false /\
    len (po_pn_bytes p) = N.land (sh_byte (po_header p)) 0x03 + 1 /\ bytes_ok (po_pn_bytes p) /\
    po_pn_bytes p = firstn (N.to_nat (len (po_pn_bytes p))) (xor_bytes ppn mask) /\
    po_pn p = be_val (po_pn_bytes p) /\
    body = ct ++ tag /\ len tag = 16 /\ rest = [] /\
    nonce_for (k_iv k) (po_pn p) nonce /\
    p_gcm_open P (k_key k) nonce (sh_byte (po_header p) :: d ++ po_pn_bytes p) ct tag = Some pt /\
    deserialize_frames oc pt = Ok (po_payload p).
Proof.
  intros HP K NA B H.
  destruct (decode_next_cases oc c s B) as [[w [e [_ E]]]|[[b [s1 [h [r [Es [Hb [El [E0 E]]]]]]]]|[b [s1 [h [r [-> [Hb [El E]]]]]]]]].
  1: congruence.
  1: { rewrite E in H. destruct (kind b (lh_version h)); try discriminate; apply bind_ok in H as [[q r'] [_ H]]; discriminate. }
  rewrite E in H. apply bind_ok in H as [[q r'] [Hi H]]. injection H as -> ->.
  apply bytes_ok_cons in B as [_ B].
  destruct (short_inv _ _ _ _ B El) as [d [-> [HD Eh]]].
  apply bytes_ok_app in B as [Bd B].
  assert (Sh : exists ppn body, r = ppn ++ body /\ len ppn = 4).
  { unfold one_rtt_from_stream in Hi. rewrite u8_dec in Hi by lia. cbn [bind] in Hi. rewrite El in Hi. cbn [bind] in Hi.
    apply bind_ok in Hi as [[ppn body] [Ep _]]. apply var_bytes_inv in Ep as [-> L4]. eauto. }
  destruct Sh as [ppn [body [-> L4]]]. apply bytes_ok_app in B as [Bp Bb].
  pose proof (one_rtt_eq P oc c k b d (sh_dcid h) ppn body HP K NA ltac:(lia) HD L4) as Q. cbv zeta in Q.
  destruct (len body <? 16); [congruence|]. destruct Q as [m0 [mask [more [Ee [Lm [Bm Q]]]]]].
  rewrite Q in Hi. unfold one_rtt_rest in Hi. cbv zeta in Hi.
  set (first := N.lxor b (N.land m0 31)) in *.
  set (pnb := firstn (N.to_nat (N.land first 3 + 1)) (xor_bytes ppn mask)) in *.
  pose proof (land3_le first) as L3.
  assert (Lx : len (xor_bytes ppn mask) = 4) by (rewrite xor_bytes_len; congruence).
  assert (Lb : len pnb = N.land first 3 + 1) by (unfold pnb, len in *; rewrite firstn_length; lia).
  apply bytes_ok_cons in Bm as Bm'. destruct Bm' as [_ Bmask].
  assert (Bpn : bytes_ok pnb) by (apply bytes_ok_firstn, xor_bytes_ok; auto).
  apply bind_ok in Hi as [pt [Ept Hi]]. apply bind_ok in Hi as [fs [Ef Hi]]. injection Hi as <- <-.
  assert (Lpn : be_val pnb < 2 ^ 64) by (pose proof (pnb_bound _ Bpn ltac:(lia)); pows; lia).
  destruct (decrypt_remote_inv P oc c _ k _ _ _ _ K Lpn Ept) as [nonce [ct [tag [Hn [Edata [Lt Ho]]]]]].
  exists b, d, ppn, body, m0, mask, more, nonce, ct, tag, pt.
  cbn [po_header po_pn po_pn_bytes po_payload sh_byte sh_dcid sh_protected].
  split; [auto|]. split; [auto|]. split; [auto|]. split; [auto|]. split; [auto|]. split; [auto|]. split; [auto|].
  split; [auto|]. split; [reflexivity|]. split; [reflexivity|]. split; [auto|]. split; [auto|].
  split; [rewrite Lb; reflexivity|]. split; [reflexivity|]. auto 10.
Qed.
