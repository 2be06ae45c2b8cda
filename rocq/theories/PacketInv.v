(** What the packet decoder does on arbitrary bytes. *)
From Verif Require Import Base Utils Frame CipherSuite Secrets Connection Packet Histories Spec SpecPacket
  Tactics UtilsFacts ParserFacts FrameFacts SecretsFacts HeaderFacts PacketFacts ConnectionFacts.

(** What happens after these fields; [m0 :: mask] is the mask for the sample. *)
Definition initial_rest (oc : bool) (c : connection) (h : long_header) (fields tl token : list N) (L : N)
  (ll ppn body : list N) (m0 : N) (mask : list N) : outcome (packet_initial * stream) :=
  let first := N.lxor (lh_byte h) (N.land m0 0x0f) in
  let pnl := N.land first 0x03 + 1 in
  let pnb := firstn (N.to_nat pnl) (xor_bytes ppn mask) in
  let? n := sub64 oc L pnl in
  let? (data, rest) := var_bytes_from_stream n body in
  let? pt := decrypt_remote_payload c SpInitial data (first :: fields ++ tl ++ token ++ ll ++ pnb) (be_val pnb) in
  let? fs := deserialize_frames oc pt in
  Ok (PacketInitial (with_byte h first false) token (be_val pnb) pnb fs, rest).

Lemma land3_le x : N.land x 3 <= 3.
Proof. change 3 with (2 ^ 2 - 1) at 1. rewrite land_mask. pows. lia. Qed.

Lemma remote_mask P oc c sp k body : prims_ok P -> remote_keys P oc c sp k -> 16 <= len body ->
  exists m0 mask more, get_remote_hp_mask c sp body = Ok (m0 :: mask) /\ len mask = 4 /\ bytes_ok (m0 :: mask) /\
    p_ecb_encrypt P (k_hp k) (firstn 16 body) = Some (m0 :: mask ++ more).
Proof.
  intros HP [s [Es Ks]] L.
  assert (L16 : len (firstn 16 body) = 16) by (unfold len in *; rewrite firstn_length; lia).
  destruct (hp_mask_eq P oc s k _ (skipn 16 body) HP Ks L16) as [out [Eo [Lo [Bo Eh]]]].
  rewrite firstn_skipn in Eh. destruct out as [|m0 out]; [change (len []) with 0 in Lo; lia|].
  exists m0, (firstn 4 out), (skipn 4 out). rewrite len_cons in Lo.
  unfold get_remote_hp_mask, borrow_remote_tls_secrets. rewrite Es. cbn [ok_or bind].
  rewrite Eh. split; [reflexivity|]. split; [unfold len in *; rewrite firstn_length; lia|].
  apply bytes_ok_cons in Bo as [B0 Bo]. split; [apply bytes_ok_cons; split; auto; apply bytes_ok_firstn; auto|].
  rewrite firstn_skipn. exact Eo.
Qed.

Lemma remote_mask_short P oc c sp k body : remote_keys P oc c sp k -> len body < 16 ->
  get_remote_hp_mask c sp body = Err (InternalError "not enough bytes for var_bytes").
Proof.
  intros [s [Es Ks]] L. unfold get_remote_hp_mask, borrow_remote_tls_secrets. rewrite Es. cbn [ok_or bind].
  eapply hp_mask_short; eauto.
Qed.

Lemma initial_eq P oc c k h fields tl token L ll ppn body s :
  prims_ok P -> remote_keys P oc c SpInitial k -> no_remote_ack c SpInitial ->
  initial_shape h fields tl token L ll ppn body s ->
  if len body <? 16 then initial_from_stream oc c s = Err (InternalError "not enough bytes for var_bytes")
  else exists m0 mask more,
    p_ecb_encrypt P (k_hp k) (firstn 16 body) = Some (m0 :: mask ++ more) /\ len mask = 4 /\ bytes_ok (m0 :: mask) /\
    initial_from_stream oc c s = initial_rest oc c h fields tl token L ll ppn body m0 mask.
Proof.
  intros HP K NA [Hb Hlong Ht Hv VN HF HT BT HL L4 Bp Bb ->].
  assert (R : initial_from_stream oc c (lh_byte h :: fields ++ tl ++ token ++ ll ++ ppn ++ body) =
    let? mask := get_remote_hp_mask c SpInitial body in
    let? header := long_remove_protection (with_byte h (lh_byte h) true) mask in
    let? pn_length := long_packet_number_length header in
    let? pn_protected := xor_pn_protection ppn mask in
    let pn_bytes := firstn (N.to_nat pn_length) pn_protected in
    let? packet_number := reconstruct_remote_pn oc c SpInitial pn_bytes in
    let? n := sub64 oc L pn_length in
    let? (protected_frame_data, s) := var_bytes_from_stream n body in
    let? hb := long_to_bytes header in
    let associated_data := hb ++ tl ++ token ++ ll ++ pn_bytes in
    let? frame_data :=
      decrypt_remote_payload c SpInitial protected_frame_data associated_data packet_number in
    let? payload := deserialize_frames oc frame_data in
    let? _ := validate_payload payload in
    Ok (PacketInitial header token packet_number pn_bytes payload, s)).
  { unfold initial_from_stream. rewrite u8_dec by auto. cbn [bind].
    rewrite (long_dec h fields) by auto. cbn [bind].
    rewrite (varint_dec oc _ _ _ HT). cbn [bind]. rewrite var_bytes_app by auto. cbn [bind].
    rewrite (varint_dec oc _ _ _ HL). cbn [bind]. rewrite var_bytes_app by auto. cbn [bind].
    unfold retry_byte. rewrite Ht. reflexivity. }
  rewrite R. destruct (N.ltb_spec (len body) 16) as [L16|L16].
  { rewrite (remote_mask_short P oc c _ k) by auto. reflexivity. }
  destruct (remote_mask P oc c SpInitial k body HP K L16) as [m0 [mask [more [Em [Lm [Bm Ee]]]]]].
  exists m0, mask, more. split; [auto|]. split; [auto|]. split; [auto|].
  rewrite Em. cbn [bind]. unfold long_remove_protection. cbn [with_byte lh_protected index nth_error bind lh_byte].
  set (first := N.lxor (lh_byte h) (N.land m0 15)).
  unfold initial_rest. fold first.
  change (LongHeader first (lh_version (with_byte h (lh_byte h) true)) (lh_dcid_len (with_byte h (lh_byte h) true))
    (lh_dcid (with_byte h (lh_byte h) true)) (lh_scid_len (with_byte h (lh_byte h) true)) (lh_scid (with_byte h (lh_byte h) true))
    (lh_vn (with_byte h (lh_byte h) true)) false) with (with_byte h first false).
  unfold long_packet_number_length at 1. cbn [with_byte lh_protected lh_byte].
  cbn [bind]. rewrite xor_pn_spec by (try lia; rewrite len_cons; lia). cbn [bind skipn].
  pose proof (land3_le first) as L3.
  assert (Lx : len (xor_bytes ppn mask) = 4) by (rewrite xor_bytes_len; congruence).
  assert (Lb : len (firstn (N.to_nat (N.land first 3 + 1)) (xor_bytes ppn mask)) <= 4)
    by (unfold len in *; rewrite firstn_length; lia).
  rewrite reconstruct_none by auto. cbn [bind].
  destruct (sub64 oc L _) as [n| | |]; try reflexivity. cbn [bind].
  destruct (var_bytes_from_stream n body) as [[data rest]| | |]; try reflexivity. cbn [bind].
  change (LongHeader first (lh_version h) (lh_dcid_len h) (lh_dcid h) (lh_scid_len h) (lh_scid h) (lh_vn h) false)
    with (with_byte h first false).
  rewrite (long_to_bytes_ok _ fields (long_fields_byte _ _ _ _ HF)). cbn [bind app with_byte lh_byte].
  reflexivity.
Qed.

(** Every byte string whose header announces an Initial packet either has this
    shape or is refused. *)
Lemma initial_shaped oc c s h s1 b0 : bytes_ok s -> s = b0 :: s1 -> 128 <= b0 ->
  (exists r, long_from_stream b0 s1 = Ok (h, r)) -> lh_version h <> 0 -> (b0 / 16) mod 4 = 0 ->
  (exists e, initial_from_stream oc c s = Err e) \/
  (exists h' fields tl token L ll ppn body, initial_shape h' fields tl token L ll ppn body s /\
     h = with_byte h' b0 true).
Proof.
  intros B -> Hl [r Eh] Hv Ht. apply bytes_ok_cons in B as [Hb B].
  destruct (long_inv _ _ _ _ B Eh) as [E0 [[_ [VN [Hp [fields [-> HF]]]]]|[Z _]]]; [|contradiction].
  apply bytes_ok_app in B as [Bf B].
  unfold initial_from_stream. rewrite u8_dec by auto. cbn [bind]. rewrite Eh. cbn [bind].
  destruct (varint_total oc r B) as [[x [tl [r1 E]]]|[e E]]; rewrite E; cbn [bind]; eauto.
  destruct (varint_dec_inv _ _ _ _ _ B E) as [-> Hx]. apply bytes_ok_app in B as [_ B].
  destruct (var_bytes_from_stream x r1) as [[token r2]|e| |] eqn:E1; cbn [bind]; eauto.
  2,3: rewrite var_bytes_spec in E1; destruct (_ <=? _); discriminate.
  apply var_bytes_inv in E1 as [-> <-]. apply bytes_ok_app in B as [Bt B].
  destruct (varint_total oc r2 B) as [[L [ll [r3 E1]]]|[e E1]]; rewrite E1; cbn [bind]; eauto.
  destruct (varint_dec_inv _ _ _ _ _ B E1) as [-> HL]. apply bytes_ok_app in B as [_ B].
  destruct (var_bytes_from_stream 4 r3) as [[ppn body]|e| |] eqn:E2; cbn [bind]; eauto.
  2,3: rewrite var_bytes_spec in E2; destruct (_ <=? _); discriminate.
  apply var_bytes_inv in E2 as [-> L4]. apply bytes_ok_app in B as [Bp Bb].
  right. exists h, fields, tl, token, L, ll, ppn, body.
  assert (Eb : retry_byte b0 = false) by (unfold retry_byte; rewrite Ht; reflexivity).
  split.
  - constructor; auto; try congruence. all: rewrite ?E0; auto.
  - rewrite Eb in Hp. destruct h; cbn in *; subst. reflexivity.
Qed.

(** ** Dispatch *)
Lemma next_header_cases s : bytes_ok s ->
  (exists e, next_header_from_stream s = Err e) \/
  (exists b s1 h r, s = b :: s1 /\ 128 <= b < 256 /\ long_from_stream b s1 = Ok (h, r) /\
     next_header_from_stream s = Ok (HLong h, r)) \/
  (exists b s1 h r, s = b :: s1 /\ b < 128 /\ short_from_stream b s1 = Ok (h, r) /\
     next_header_from_stream s = Ok (HShort h, r)).
Proof.
  intros B. destruct s as [|b s1]; [left; eexists; reflexivity|]. apply bytes_ok_cons in B as [Hb B].
  unfold next_header_from_stream. cbn [next bind]. rewrite land_128 by auto.
  destruct (N.leb_spec 128 b).
  - destruct (long_total b s1 B) as [[h [r E]]|[e E]]; rewrite E; cbn [bind]; eauto.
    right. left. exists b, s1, h, r. auto.
  - destruct (short_total b s1 B) as [[h [r E]]|[e E]]; rewrite E; cbn [bind]; eauto.
    right. right. exists b, s1, h, r. auto.
Qed.

Definition kind (b version : N) : packet_type :=
  if b <? 128 then TOneRtt
  else if version =? 0 then TVersionNegotiation
  else match (b / 16) mod 4 with 0 => TInitial | 1 => TZeroRtt | 2 => THandshake | _ => TRetry end.

Lemma decode_next_cases oc c s : bytes_ok s ->
  (exists w e, next_header_from_stream s = Err e /\ decode_next_packet oc c s = Panic w) \/
  (exists b s1 h r, s = b :: s1 /\ 128 <= b < 256 /\ long_from_stream b s1 = Ok (h, r) /\ lh_byte h = b /\
     decode_next_packet oc c s =
     match kind b (lh_version h) with
     | THandshake => let? (p, s) := handshake_from_stream oc c s in Ok (PHandshake p, s)
     | TInitial => let? (p, s) := initial_from_stream oc c s in Ok (PInitial p, s)
     | TZeroRtt => let? (p, s) := zero_rtt_from_stream oc c s in Ok (PZeroRtt p, s)
     | TRetry => let? (p, s) := retry_from_stream s in Ok (PRetry p, s)
     | TVersionNegotiation => let? (p, s) := vn_from_stream s in Ok (PVersionNegotiation p, s)
     | _ => Panic "internal error: entered unreachable code"
     end) \/
  (exists b s1 h r, s = b :: s1 /\ b < 128 /\ short_from_stream b s1 = Ok (h, r) /\
     decode_next_packet oc c s = let? (p, s) := one_rtt_from_stream oc c s in Ok (POneRtt p, s)).
Proof.
  intros B. unfold decode_next_packet. destruct (next_header_cases s B) as [[e E]|[[b [s1 [h [r [-> [Hb [El E]]]]]]]|[b [s1 [h [r [-> [Hb [El E]]]]]]]]]; rewrite E.
  - left. eexists _, e. split; reflexivity.
  - right. left. exists b, s1, h, r. split; [reflexivity|]. split; [auto|]. split; [auto|].
    apply bytes_ok_cons in B as [_ B]. destruct (long_inv _ _ _ _ B El) as [E0 _].
    split; [auto|]. cbn [unwrap bind]. rewrite packet_type_cases. cbn [bind]. unfold kind.
    destruct (N.ltb_spec b 128); [lia|]. rewrite E0.
    destruct (lh_version h =? 0); [reflexivity|].
    destruct ((b / 16) mod 4) as [|[[]|[]|]]; reflexivity.
  - right. right. exists b, s1, h, r. split; [reflexivity|]. split; [auto|]. split; [auto|]. reflexivity.
Qed.

(** Version negotiation packets are parsed or refused. *)
Lemma vn_chunks_total fuel : forall bs, bytes_ok bs -> (length bs <= fuel)%nat ->
  (exists vs, vn_chunks fuel bs = Ok vs) \/ (exists e, vn_chunks fuel bs = Err e).
Proof.
  induction fuel as [|f IH]; intros bs B L; destruct bs as [|x bs]; cbn [length] in L; try lia.
  1,2: left; eexists; reflexivity.
  cbn [vn_chunks]. pose proof (tame_u32 (firstn 4 (x :: bs)) (bytes_ok_firstn _ _ B)) as T.
  destruct (u32_from_datagram (firstn 4 (x :: bs))) as [[v r]| | |]; cbn [bind]; try tauto; eauto.
  destruct (IH (skipn 4 (x :: bs))) as [[vs E]|[e E]].
  - apply bytes_ok_skipn; auto.
  - rewrite skipn_length. cbn [length]. lia.
  - rewrite E. cbn [bind]. eauto.
  - rewrite E. cbn [bind]. eauto.
Qed.

Lemma vn_total s : bytes_ok s ->
  (exists p, vn_from_stream s = Ok (p, [])) \/ (exists e, vn_from_stream s = Err e).
Proof.
  intros B. unfold vn_from_stream. pose proof (tame_u8 s B) as T.
  destruct (u8_from_datagram s) as [[b s1]| | |] eqn:E; cbn [bind]; try tauto; eauto.
  apply u8_inv in E as [-> Hb]; auto. apply bytes_ok_cons in B as [_ B].
  destruct (long_total b s1 B) as [[h [r E]]|[e E]]; rewrite E; cbn [bind]; eauto.
  destruct (long_inv _ _ _ _ B E) as [_ D].
  assert (Br : bytes_ok r).
  { destruct D as [[_ [_ [_ [bs [-> _]]]]]|[_ [_ [v [d [sc [-> _]]]]]]].
    - apply bytes_ok_app in B. tauto.
    - apply bytes_ok_app in B as [_ B]. apply bytes_ok_cons in B as [_ B]. apply bytes_ok_app in B as [_ B].
      apply bytes_ok_cons in B as [_ B]. apply bytes_ok_app in B. tauto. }
  cbn [all_bytes_from_stream bind]. destruct (negb (N.land (len r) 0x03 =? 0)); eauto.
  destruct (vn_chunks_total (length r) r Br (le_n _)) as [[vs E1]|[e E1]]; rewrite E1; cbn [bind]; eauto.
Qed.

(** Without keys nothing but an error can come out of the other decoders. *)
Lemma no_keys_mask c sp st : remote_tls_secrets (borrow_pn_info c sp) = None ->
  get_remote_hp_mask c sp st = Err (InternalError "attempted to retrieve unset remote tls secrets").
Proof. intros E. unfold get_remote_hp_mask, borrow_remote_tls_secrets. rewrite E. reflexivity. Qed.

Lemma handshake_no_keys oc c s : bytes_ok s -> remote_tls_secrets (borrow_pn_info c SpHandshake) = None ->
  exists e, handshake_from_stream oc c s = Err e.
Proof.
  intros B E. unfold handshake_from_stream. pose proof (tame_u8 s B) as T.
  destruct (u8_from_datagram s) as [[b s1]| | |] eqn:E0; cbn [bind]; try tauto; eauto.
  apply u8_inv in E0 as [-> Hb]; auto. apply bytes_ok_cons in B as [_ B].
  destruct (long_total b s1 B) as [[h [r E1]]|[e E1]]; rewrite E1; cbn [bind]; eauto.
  destruct (long_inv _ _ _ _ B E1) as [_ D].
  assert (Br : bytes_ok r).
  { destruct D as [[_ [_ [_ [bs [-> _]]]]]|[_ [_ [v [d [sc [-> _]]]]]]].
    - apply bytes_ok_app in B. tauto.
    - apply bytes_ok_app in B as [_ B]. apply bytes_ok_cons in B as [_ B]. apply bytes_ok_app in B as [_ B].
      apply bytes_ok_cons in B as [_ B]. apply bytes_ok_app in B. tauto. }
  destruct (varint_total oc r Br) as [[x [tl [r1 E2]]]|[e E2]]; rewrite E2; cbn [bind]; eauto.
  rewrite var_bytes_spec. destruct (_ <=? _); cbn [bind]; eauto.
  rewrite no_keys_mask by auto. cbn [bind]. eauto.
Qed.

Lemma zero_rtt_no_keys oc c s : bytes_ok s -> remote_tls_secrets (borrow_pn_info c SpApplication) = None ->
  exists e, zero_rtt_from_stream oc c s = Err e.
Proof.
  intros B E. unfold zero_rtt_from_stream. pose proof (tame_u8 s B) as T.
  destruct (u8_from_datagram s) as [[b s1]| | |] eqn:E0; cbn [bind]; try tauto; eauto.
  apply u8_inv in E0 as [-> Hb]; auto. apply bytes_ok_cons in B as [_ B].
  destruct (long_total b s1 B) as [[h [r E1]]|[e E1]]; rewrite E1; cbn [bind]; eauto.
  destruct (long_inv _ _ _ _ B E1) as [_ D].
  assert (Br : bytes_ok r).
  { destruct D as [[_ [_ [_ [bs [-> _]]]]]|[_ [_ [v [d [sc [-> _]]]]]]].
    - apply bytes_ok_app in B. tauto.
    - apply bytes_ok_app in B as [_ B]. apply bytes_ok_cons in B as [_ B]. apply bytes_ok_app in B as [_ B].
      apply bytes_ok_cons in B as [_ B]. apply bytes_ok_app in B. tauto. }
  destruct (varint_total oc r Br) as [[x [tl [r1 E2]]]|[e E2]]; rewrite E2; cbn [bind]; eauto.
  rewrite var_bytes_spec. destruct (_ <=? _); cbn [bind]; eauto.
  rewrite no_keys_mask by auto. cbn [bind]. eauto.
Qed.

Lemma one_rtt_no_keys oc c s : bytes_ok s -> remote_tls_secrets (borrow_pn_info c SpApplication) = None ->
  exists e, one_rtt_from_stream oc c s = Err e.
Proof.
  intros B E. unfold one_rtt_from_stream. pose proof (tame_u8 s B) as T.
  destruct (u8_from_datagram s) as [[b s1]| | |] eqn:E0; cbn [bind]; try tauto; eauto.
  apply u8_inv in E0 as [-> Hb]; auto. apply bytes_ok_cons in B as [_ B].
  destruct (short_total b s1 B) as [[h [r E1]]|[e E1]]; rewrite E1; cbn [bind]; eauto.
  rewrite var_bytes_spec. destruct (_ <=? _); cbn [bind]; eauto.
  rewrite no_keys_mask by auto. cbn [bind]. eauto.
Qed.

(** ** Inversion of an accepted Initial packet *)
Lemma decrypt_remote_inv P oc c sp k data ad pn pt :
  remote_keys P oc c sp k -> pn < 2 ^ 64 -> decrypt_remote_payload c sp data ad pn = Ok pt ->
  exists nonce ct tag, nonce_for (k_iv k) pn nonce /\ data = ct ++ tag /\ len tag = 16 /\
    p_gcm_open P (k_key k) nonce ad ct tag = Some pt.
Proof.
  intros [s [Es Ks]] Hpn H. unfold decrypt_remote_payload, borrow_remote_tls_secrets in H.
  rewrite Es in H. cbn [ok_or bind] in H.
  destruct (N.lt_ge_cases (len data) 16) as [L|L].
  - destruct (decrypt_payload_short P oc s k data ad pn Ks Hpn L) as [w E]. congruence.
  - destruct (decrypt_payload_split P oc s k data ad pn Ks Hpn L) as [nonce [ct [tag [Hn [-> [Lt E]]]]]].
    rewrite E in H. exists nonce, ct, tag. repeat (split; auto).
    all: try apply Hn. destruct (p_gcm_open _ _ _ _ _ _); [|discriminate]. injection H as ->. reflexivity.
Qed.

Lemma pnb_bound pnb : bytes_ok pnb -> len pnb <= 4 -> be_val pnb < 2 ^ 32.
Proof.
  intros B L. pose proof (be_val_bound pnb B). eapply N.lt_le_trans; [eauto|].
  change (2 ^ 32) with (256 ^ 4). apply N.pow_le_mono_r; lia.
Qed.

Lemma initial_inv P oc c k s p rest :
  prims_ok P -> remote_keys P oc c SpInitial k -> no_remote_ack c SpInitial -> bytes_ok s -> len s < 2 ^ 63 ->
  decode_next_packet oc c s = Ok (PInitial p, rest) ->
  exists h fields tl L ll ppn body m0 mask more nonce ct tag pt,
    initial_shape h fields tl (pi_token p) L ll ppn body s /\
    p_ecb_encrypt P (k_hp k) (firstn 16 body) = Some (m0 :: mask ++ more) /\ len mask = 4 /\ bytes_ok (m0 :: mask) /\
    pi_header p = with_byte h (N.lxor (lh_byte h) (N.land m0 0x0f)) false /\
    len (pi_pn_bytes p) = N.land (lh_byte (pi_header p)) 0x03 + 1 /\ bytes_ok (pi_pn_bytes p) /\
    pi_pn_bytes p = firstn (N.to_nat (len (pi_pn_bytes p))) (xor_bytes ppn mask) /\
    pi_pn p = be_val (pi_pn_bytes p) /\
    body = ct ++ tag ++ rest /\ len (pi_pn_bytes p) + len ct + len tag = L /\ len tag = 16 /\
    nonce_for (k_iv k) (pi_pn p) nonce /\
    p_gcm_open P (k_key k) nonce
      (lh_byte (pi_header p) :: fields ++ tl ++ pi_token p ++ ll ++ pi_pn_bytes p) ct tag = Some pt /\
    deserialize_frames oc pt = Ok (pi_payload p).
Proof.
  intros HP K NA B LS H.
  destruct (decode_next_cases oc c s B) as [[w [e [_ E]]]|[[b [s1 [h [r [Es [Hb [El [E0 E]]]]]]]]|[b [s1 [h [r [_ [_ [_ E]]]]]]]]].
  1: congruence.
  2: rewrite E in H; apply bind_ok in H as [[q r'] [_ H]]; discriminate.
  rewrite E in H.
  assert (KI : kind b (lh_version h) = TInitial).
  { destruct (kind b (lh_version h)); try reflexivity; try discriminate; apply bind_ok in H as [[q r'] [_ H]]; discriminate. }
  rewrite KI in H. apply bind_ok in H as [[q r'] [Hi H]]. injection H as -> ->.
  unfold kind in KI. destruct (N.ltb_spec b 128); [discriminate|].
  destruct (N.eqb_spec (lh_version h) 0) as [|Hv]; [discriminate|].
  assert (Ht : (b / 16) mod 4 = 0) by (destruct ((b / 16) mod 4) as [|[[]|[]|]]; congruence).
  destruct (initial_shaped oc c s h s1 b B Es (proj1 Hb) (ex_intro _ r El) Hv Ht)
    as [[e E1]|[h' [fields [tl [token [L [ll [ppn [body [SH Eh]]]]]]]]]]; [congruence|].
  pose proof (initial_eq P oc c k _ _ _ _ _ _ _ _ _ HP K NA SH) as Q.
  destruct (len body <? 16); [congruence|]. destruct Q as [m0 [mask [more [Ee [Lm [Bm Q]]]]]].
  rewrite Q in Hi. unfold initial_rest in Hi. cbv zeta in Hi.
  set (first := N.lxor (lh_byte h') (N.land m0 15)) in *.
  set (pnb := firstn (N.to_nat (N.land first 3 + 1)) (xor_bytes ppn mask)) in *.
  pose proof (land3_le first) as L3.
  assert (Lx : len (xor_bytes ppn mask) = 4) by (rewrite xor_bytes_len; pose proof (is_ppn _ _ _ _ _ _ _ _ _ SH); congruence).
  assert (Lb : len pnb = N.land first 3 + 1) by (unfold pnb, len in *; rewrite firstn_length; lia).
  apply bytes_ok_cons in Bm as Bm'. destruct Bm' as [_ Bmask].
  assert (Bb : bytes_ok pnb) by (apply bytes_ok_firstn, xor_bytes_ok; [apply (is_ppn_ok _ _ _ _ _ _ _ _ _ SH)|auto]).
  apply bind_ok in Hi as [n [En Hi]]. apply bind_ok in Hi as [[data rest'] [Ed Hi]].
  apply bind_ok in Hi as [pt [Ept Hi]]. apply bind_ok in Hi as [fs [Ef Hi]]. injection Hi as <- <-.
  apply var_bytes_inv in Ed as [Ebody Ln].
  assert (Lpn : be_val pnb < 2 ^ 64) by (pose proof (pnb_bound pnb Bb ltac:(lia)); pows; lia).
  destruct (decrypt_remote_inv P oc c _ k _ _ _ _ K Lpn Ept) as [nonce [ct [tag [Hn [Edata [Lt Ho]]]]]].
  exists h', fields, tl, L, ll, ppn, body, m0, mask, more, nonce, ct, tag, pt.
  cbn [pi_header pi_token pi_pn pi_pn_bytes pi_payload with_byte lh_byte].
  split; [exact SH|]. split; [auto|]. split; [auto|]. split; [auto|]. split; [reflexivity|]. split; [auto|]. split; [auto|].
  split; [rewrite Lb; reflexivity|]. split; [reflexivity|].
  split; [subst data; rewrite app_assoc; exact Ebody|].
  split.
  { assert (len data = n) by auto. subst data. rewrite len_app in *. unfold sub64 in En.
    destruct (N.leb_spec (N.land first 3 + 1) L) as [LL|LL].
    - injection En as <-. lia.
    - (* the length field is below 2^62, the wrapped difference cannot be read *)
      exfalso. destruct oc; [discriminate|]. injection En as En.
      pose proof (varint_enc_v62 _ _ (is_ll _ _ _ _ _ _ _ _ _ SH)) as V. unfold v62 in V.
      rewrite (is_wire _ _ _ _ _ _ _ _ _ SH), Ebody in LS. rewrite len_cons, !len_app in LS. unfold two64 in En. pows. lia. }
  split; [auto|]. split; [auto|]. split; [auto|]. auto.
Qed.
