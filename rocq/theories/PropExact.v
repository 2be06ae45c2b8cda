(** C09, C52, C61, C83: what the code does where it departs from the full
    statement, without remaining cases. *)
From Verif Require Import Base Utils Frame CipherSuite Secrets Connection Packet Routing Threads Histories
  Spec SpecPacket SpecRouting Tactics UtilsFacts ParserFacts FrameFacts SecretsFacts HeaderFacts PacketFacts
  ConnectionFacts PacketInv DecodeFacts SendFacts ProtectedInv CryptoInst SampleRuns PropFrame PropConn PropPacket
  PropDecode PropFrameSound PropCoalesce PropProtected PropRouting PropThreads PropIntake.

(** ** C09: a CRYPTO frame is read as sent if and only if its offset is zero. *)
Theorem C09_crypto_offset_exact : forall oc off data a b rest,
  varint_enc off a -> varint_enc (len data) b -> bytes_ok data -> bytes_ok rest ->
  (deserialize_frame oc (0x06 :: a ++ b ++ data ++ rest) = Ok (Crypto (FrameCrypto off (len data) data), rest)
   <-> off = 0) /\
  (len rest < off -> deserialize_frame oc (0x06 :: a ++ b ++ data ++ rest) =
                     Err (InternalError "not enough bytes for var_bytes")).
Proof.
  intros oc off data a b rest Va Vb Hd Hr.
  assert (E : deserialize_frame oc (0x06 :: a ++ b ++ data ++ rest) =
    let? (d, s) := var_bytes_from_stream (len data + off) (data ++ rest) in Ok (Crypto (FrameCrypto off (len data) d), s)).
  { rewrite frame_type_small by lia.
    change (deserialize_frame_body oc 6) with (wrap Crypto (crypto_from_datagram oc)).
    unfold wrap. rewrite crypto_p_eq by (rewrite !bytes_ok_app; intuition eauto using varint_enc_bytes_ok).
    unfold crypto_p. rewrite (varint_dec' oc off a _ Va). cbn [bind]. rewrite (varint_dec' oc _ b _ Vb). cbn [bind].
    destruct (var_bytes_from_stream (len data + off) (data ++ rest)) as [[d s]| | |]; reflexivity. }
  rewrite E. clear E. rewrite var_bytes_spec, len_app.
  destruct (N.leb_spec (len data + off) (len data + len rest)) as [L|L]; cbn [bind].
  - split; [|lia]. split.
    + intros Q. injection Q as Q _. apply (f_equal (@length N)) in Q. rewrite firstn_length, app_length in Q.
      unfold len in *. lia.
    + intros ->. rewrite N.add_0_r, firstn_app_exact, skipn_app_exact by (unfold len; lia). reflexivity.
  - split; [|reflexivity]. split; [discriminate|intros ->; lia].
Qed.
Print Assumptions C09_crypto_offset_exact.
Example C09_exact_case :
  varint_enc 2 [2] /\ varint_enc 0 [0] /\ varint_enc (len [7]) [1] /\
  deserialize_frame true (0x06 :: [0] ++ [1] ++ [7] ++ [9]) = Ok (Crypto (FrameCrypto 0 1 [7]), [9]) /\
  deserialize_frame true (0x06 :: [2] ++ [1] ++ [7] ++ [9; 9; 9]) = Ok (Crypto (FrameCrypto 2 1 [7; 9; 9]), [9]) /\
  deserialize_frame true (0x06 :: [2] ++ [1] ++ [7] ++ [9]) = Err (InternalError "not enough bytes for var_bytes").
Proof. repeat split; try reflexivity; apply varint_enc_small; vm_compute; reflexivity. Qed.

(** ** C83: after a STREAM frame nothing else is read: what follows becomes stream data. *)
Theorem C83_stream_swallows : forall oc a b fs x,
  bytes_ok a -> bytes_ok b -> deserialize_frames oc a = Ok (fs ++ [Stream x]) ->
  deserialize_frames oc (a ++ b) =
  Ok (fs ++ [Stream (FrameStream (st_stream_id x) (st_offset x) (st_length x + len b) (st_data x ++ b) (st_is_fin x))]).
Proof.
  intros oc a b fs. revert a. induction fs as [|f fs IH]; intros a x Ba Bb H;
    (assert (NE : a <> []) by (intros ->; cbn in H; discriminate H || destruct fs; discriminate H));
    (assert (NE' : a ++ b <> []) by (destruct a; [congruence|discriminate]));
    (assert (Bab : bytes_ok (a ++ b)) by (apply bytes_ok_app; auto));
    rewrite deserialize_frames_cons in H by auto; apply bind_ok in H as [[y r] [E H]];
    apply bind_ok in H as [ys [E2 H]]; injection H as Ey Eys.
  - cbn [app] in *. subst y. destruct ys as [|z ys]; [|discriminate Eys]. clear Eys E2.
    apply C68_decoder_exact in E as [t [tb [body [-> [V T]]]]]; auto. cbn [taken_for] in T.
    destruct T as [Ht [-> [E1 [E3 [E4 [i [Vi ->]]]]]]]. rewrite app_nil_r in *.
    rewrite deserialize_frames_cons by auto.
    replace (deserialize_frame oc ((tb ++ i ++ st_data x) ++ b)) with
      (@Ok (frame * stream) (Stream (FrameStream (st_stream_id x) (st_offset x) (st_length x + len b) (st_data x ++ b) (st_is_fin x)), [])).
    { reflexivity. }
    symmetry. apply C68_decoder_exact; auto. exists t, tb, (i ++ st_data x ++ b). rewrite app_nil_r, <- !app_assoc.
    split; [reflexivity|]. split; [auto|]. cbn. rewrite len_app, E3. repeat (split; auto). exists i. auto.
  - cbn [app] in *. subst y ys. destruct (is_stream f) eqn:SF.
    + exfalso. destruct f; try discriminate SF.
      apply C68_decoder_exact in E as [t [tb [body [_ [_ T]]]]]; auto. cbn in T. destruct T as [_ [-> _]].
      destruct fs; discriminate E2.
    + destruct (frame_alone oc a f r Ba E SF) as [w [Ea [Nw FA]]].
      assert (Br : bytes_ok r) by (rewrite Ea in Ba; apply bytes_ok_app in Ba; tauto).
      specialize (IH r x Br Bb E2). rewrite deserialize_frames_cons by auto.
      replace (deserialize_frame oc (a ++ b)) with (@Ok (frame * stream) (f, r ++ b)).
      * cbn [bind]. rewrite IH. reflexivity.
      * symmetry. rewrite Ea, <- app_assoc. apply FA. apply bytes_ok_app; auto.
Qed.
Print Assumptions C83_stream_swallows.
Example C83_swallows_case :
  deserialize_frames true [1; 0x0b; 4; 1; 7] = Ok ([Ping] ++ [Stream (FrameStream 4 0 2 [1; 7] true)]) /\
  deserialize_frames true ([1; 0x0b; 4; 1; 7] ++ [1; 0]) = Ok ([Ping] ++ [Stream (FrameStream 4 0 4 [1; 7; 1; 0] true)]).
Proof. split; reflexivity. Qed.

(** ** C52: [accept] opens a version 1 connection for an Initial of any version. *)
Theorem C52_any_version_opens : forall P oc h fields b rest addr id, prims_ok P ->
  long_fields h fields -> lh_version h <> 0 -> 0xc0 <= b <= 0xcf ->
  exists tr w1 s w2 c0, execution P oc start tr w1 /\ well_typed tr /\ public_run tr /\
    recvs (th_acts (w_threads w1 0)) = [NetDatagram (b :: fields ++ rest) addr] /\
    step P oc w1 0 (AInsert (u160_from_u64 id) s) w2 /\
    connection_new P oc true V1 (lh_dcid h) (lh_dcid_len h) = Ok c0 /\
    s = QStream [] (set_scid c0 (u160_from_u64 id) 8).
Proof.
  intros P oc h fields b rest addr id HP LF Hv Hb.
  set (data := b :: fields ++ rest).
  set (h0 := LongHeader (lh_byte h) (lh_version h) (lh_dcid_len h) (lh_dcid h) (lh_scid_len h) (lh_scid h) None (lh_protected h)).
  assert (LF0 : long_fields h0 fields) by exact LF.
  assert (LL : (length fields <= 46)%nat).
  { destruct LF as [v [d [s [[_ [V _]] [L1 [[_ [_ [D _]]] [L2 [[_ [_ [S _]]] ->]]]]]]]].
    repeat (rewrite app_length; cbn [length]). unfold len in *. lia. }
  set (more := firstn (N.to_nat 4096 - length (b :: fields)) rest).
  assert (ED : firstn (N.to_nat 4096) data = b :: fields ++ more).
  { unfold data, more. change (b :: fields ++ rest) with ((b :: fields) ++ rest).
    rewrite firstn_app, firstn_all2 by (cbn [length]; lia). reflexivity. }
  assert (B16 : b / 16 = 12) by lia.
  assert (HH : header_is (firstn (N.to_nat 4096) data) (HLong (with_byte h0 b true))).
  { rewrite ED. exists more. unfold next_header_from_stream. cbn [next bind].
    rewrite land_128 by lia. destruct (N.leb_spec 128 b); [|lia].
    rewrite (long_dec h0 fields) by auto. cbn [bind]. unfold retry_byte. rewrite B16. reflexivity. }
  assert (HT : get_packet_type (HLong (with_byte h0 b true)) = Ok TInitial).
  { cbn [get_packet_type]. rewrite packet_type_cases. cbn [with_byte lh_version h0 lh_byte]. destruct (N.eqb_spec (lh_version h) 0); [contradiction|].
    rewrite B16. reflexivity. }
  destruct (C76_any_initial_opens P oc 0 [] start bind_socket data addr _ id HP (between_start _ _ _) eq_refl HH HT eq_refl eq_refl)
    as [tr [w1 [s [w2 [X [T [PR [R S]]]]]]]].
  destruct (C73_only_initials_open P oc tr w1 0 _ s w2 HP X T S)
    as [_ [_ [pre [data' [addr' [h' [T0 [mr [c0 [v' [E1 [[r E2] [_ [_ [_ [E6 [_ [_ Es]]]]]]]]]]]]]]]]]].
  rewrite R in E1. destruct pre as [|y pre]; [|destruct pre; discriminate E1]. injection E1 as <- <-.
  destruct HH as [r' HH]. rewrite HH in E2. injection E2 as <- <-.
  exists tr, w1, s, w2, c0. repeat (split; auto).
Qed.
Print Assumptions C52_any_version_opens.
(** Version 0xfaceb00c, and one reserved to exercise version negotiation. *)
Example C52_any_version_case : let h v := LongHeader 0xc3 v 8 sample_id 0 (U160 0 0) None true in
  long_fields (h 0xfaceb00c) (hex "faceb00c088394c8f03e51570800") /\
  long_fields (h 0x0a0a0a0a) (hex "0a0a0a0a088394c8f03e51570800").
Proof.
  split; [exists (hex "faceb00c")|exists (hex "0a0a0a0a")];
   (exists (hex "8394c8f03e515708"), []; split; [split; [apply bytes_ok_dec|split]; reflexivity|];
    split; [vm_compute; discriminate|]; split; [split; [split|split; [apply bytes_ok_dec|split]]; reflexivity|];
    split; [vm_compute; discriminate|]; split; [split; [split|split; [apply bytes_ok_dec|split]]; reflexivity|]; reflexivity).
Qed.

(** ** C61: packets with a number of less than four bytes. *)
Lemma xor_firstn' a : forall b m, (length a <= length m)%nat ->
  xor_bytes (a ++ b) m = xor_bytes a m ++ xor_bytes b (skipn (length a) m).
Proof.
  induction a as [|x a IH]; intros b [|y m] L; cbn [length skipn xor_bytes app] in *; try reflexivity; try lia.
  rewrite IH by lia. reflexivity.
Qed.

(** How the decoders cut such a packet. *)
Lemma short_cut P k bits first mid pnb pn pt wire : prims_ok P -> keys_ok k -> bytes_ok pt ->
  protected P k bits first mid pnb pn pt wire -> len pnb < 4 ->
  let n := N.to_nat (4 - len pnb) in
  exists m0 mask more nonce ct tag,
    nonce_for (k_iv k) pn nonce /\ p_gcm_seal P (k_key k) nonce (first :: mid ++ pnb) pt = Some (ct, tag) /\
    p_ecb_encrypt P (k_hp k) (firstn 16 (skipn n (ct ++ tag))) = Some (m0 :: mask ++ more) /\ len mask = 4 /\
    wire = N.lxor first (N.land m0 bits) :: mid ++ (xor_bytes pnb mask ++ firstn n (ct ++ tag)) ++ skipn n (ct ++ tag) /\
    xor_bytes (xor_bytes pnb mask ++ firstn n (ct ++ tag)) mask =
      pnb ++ xor_bytes (firstn n (ct ++ tag)) (skipn (length pnb) mask) /\
    len (xor_bytes pnb mask ++ firstn n (ct ++ tag)) = 4 /\ bytes_ok (xor_bytes pnb mask ++ firstn n (ct ++ tag)) /\
    bytes_ok (skipn n (ct ++ tag)) /\ bytes_ok (m0 :: mask) /\
    len (xor_bytes (firstn n (ct ++ tag)) (skipn (length pnb) mask)) = 4 - len pnb /\
    bytes_ok (xor_bytes (firstn n (ct ++ tag)) (skipn (length pnb) mask)) /\
    len (ct ++ tag) = len pt + 16 /\ len (skipn n (ct ++ tag)) = len pnb + len pt + 12 /\ 16 <= len (skipn n (ct ++ tag)) /\
    N.land first 3 + 1 = len pnb /\ bytes_ok pnb /\ be_val pnb = pn mod 256 ^ len pnb /\ len tag = 16.
Proof.
  intros HP [K1 [K2 [K3 K4]]] Bpt PR L4 n.
  destruct PR as [PF [PL [nonce [ct [tag [m0 [mask [more [Hn [Seal [L20 [Ecb [Lm ->]]]]]]]]]]]]].
  destruct PF as [PF1 [Bpn PV]].
  assert (Ln : len nonce = 12) by (destruct Hn as [_ [-> _]]; auto).
  destruct (open_law P HP _ _ _ _ _ _ K1 Ln Bpt Seal) as [Lct [Ltag [Bct [Btag _]]]].
  assert (Lx : len (xor_bytes pnb mask) = len pnb) by (apply xor_len_le; lia).
  assert (Lc : len (ct ++ tag) = len pt + 16) by (rewrite len_app; lia).
  assert (EC : ct ++ tag = firstn n (ct ++ tag) ++ skipn n (ct ++ tag)) by (symmetry; apply firstn_skipn).
  assert (Bc : bytes_ok (ct ++ tag)) by (apply bytes_ok_app; auto).
  assert (L20' : 20 <= len pnb + len pt + 16) by (rewrite !len_app in L20; lia).
  assert (Lh : len (firstn n (ct ++ tag)) = 4 - len pnb) by (unfold n, len in *; rewrite firstn_length; lia).
  assert (Lk : len (skipn n (ct ++ tag)) = len pnb + len pt + 12) by (unfold n, len in *; rewrite skipn_length; lia).
  assert (SK : skipn 4 (pnb ++ ct ++ tag) = skipn n (ct ++ tag)).
  { rewrite skipn_app. rewrite (skipn_all2 (n:=4) pnb) by (unfold len in L4; lia). cbn [app]. f_equal. unfold n, len. lia. }
  rewrite SK in Ecb.
  assert (MB : bytes_ok (m0 :: mask)).
  { assert (L16 : len (firstn 16 (skipn n (ct ++ tag))) = 16) by (unfold len in *; rewrite firstn_length; lia).
    destruct (ecb_law P HP (k_hp k) _ K3 L16) as [out [Eo [_ Bo]]]. rewrite Ecb in Eo. injection Eo as <-.
    apply bytes_ok_cons in Bo as [B0 Bo]. apply bytes_ok_app in Bo as [Bo _]. apply bytes_ok_cons; auto. }
  pose proof MB as MB'. apply bytes_ok_cons in MB' as [B0 Bm].
  exists m0, mask, more, nonce, ct, tag.
  split; [auto|]. split; [exact Seal|]. split; [exact Ecb|]. split; [auto|].
  split; [rewrite <- app_assoc, <- EC; reflexivity|].
  split.
  { rewrite xor_firstn' by (unfold len in *; lia). rewrite xor_bytes_invol by (unfold len in *; lia).
    replace (length (xor_bytes pnb mask)) with (length pnb) by (unfold len in *; lia). reflexivity. }
  split; [rewrite len_app; lia|].
  split; [apply bytes_ok_app; split; [apply xor_bytes_ok; auto|apply bytes_ok_firstn; auto]|].
  split; [apply bytes_ok_skipn; auto|]. split; [auto|].
  split. { rewrite xor_len_le; [exact Lh|]. unfold len in *. rewrite skipn_length. lia. }
  split; [apply xor_bytes_ok; [apply bytes_ok_firstn; auto|apply bytes_ok_skipn; auto]|].
  split; [auto|]. split; [auto|]. split; [lia|]. auto.
Qed.

(** A Handshake packet whose number field is too short.  The decoder takes [n]
    bytes of ciphertext for number bytes, both when it computes the number (and
    with it the nonce) and when it looks for the payload, which it makes up with
    the first [n] bytes behind the packet. *)
Theorem C61_short_handshake_exact : forall P oc c k p pt wire rest,
  prims_ok P -> remote_keys P oc c SpHandshake k -> no_remote_ack c SpHandshake ->
  handshake_wire P k p pt wire -> len (ph_pn_bytes p) < 4 -> bytes_ok rest ->
  let n := N.to_nat (4 - len (ph_pn_bytes p)) in
  exists fields ll nonce ct tag m0 mask more nonce',
    long_fields (ph_header p) fields /\ varint_enc (len (ph_pn_bytes p) + len pt + 16) ll /\
    nonce_for (k_iv k) (ph_pn p) nonce /\
    let aad := lh_byte (ph_header p) :: fields ++ ll ++ ph_pn_bytes p in
    p_gcm_seal P (k_key k) nonce aad pt = Some (ct, tag) /\
    p_ecb_encrypt P (k_hp k) (firstn 16 (skipn n (ct ++ tag))) = Some (m0 :: mask ++ more) /\ len mask = 4 /\
    let pn' := be_val (ph_pn_bytes p ++ xor_bytes (firstn n (ct ++ tag)) (skipn (length (ph_pn_bytes p)) mask)) in
    nonce_for (k_iv k) pn' nonce' /\
    (len rest < 4 - len (ph_pn_bytes p) ->
     decode_next_packet oc c (wire ++ rest) = Err (InternalError "not enough bytes for var_bytes")) /\
    (4 - len (ph_pn_bytes p) <= len rest -> forall q rest',
     decode_next_packet oc c (wire ++ rest) = Ok (q, rest') <->
     exists ct' tag' pt' fs, ct' ++ tag' = skipn n (ct ++ tag) ++ firstn n rest /\ len tag' = 16 /\
       p_gcm_open P (k_key k) nonce' aad ct' tag' = Some pt' /\ deserialize_frames oc pt' = Ok fs /\
       q = PHandshake (PacketHandshake (ph_header p) (ph_pn_bytes p) pn' fs) /\ rest' = skipn n rest).
Proof.
  intros P oc c k p pt wire rest HP K NA W L4 Br n.
  destruct p as [h pnb pn payload]. unfold handshake_wire in W. cbn [ph_header ph_pn ph_pn_bytes ph_payload] in *.
  destruct W as [fields [ll [Hb [Ht [Hv [VN [Hp [HF [HL [Bpt PR]]]]]]]]]].
  pose proof K as [sec [Es Ks]]. pose proof Ks as [_ [_ [_ [_ KO]]]].
  destruct (short_cut P k _ _ _ _ _ _ _ HP KO Bpt PR L4)
    as [m0 [mask [more [nonce [ct [tag [Hn [Seal [Ecb [Lm [Ew [Ex [Lp [Bp [Bb [BM [Le [Be [Lc [Lk [L16 [PL [Bpn [PV Ltag]]]]]]]]]]]]]]]]]]]]]]]].
  fold n in Ecb, Ew, Ex, Lp, Bp, Bb, Le, Be, Lk, L16.
  set (extra := xor_bytes (firstn n (ct ++ tag)) (skipn (length pnb) mask)) in *.
  set (ppn := xor_bytes pnb mask ++ firstn n (ct ++ tag)) in *. set (cut := skipn n (ct ++ tag)) in *.
  assert (P64 : be_val (pnb ++ extra) < 2 ^ 64).
  { eapply N.lt_trans; [apply pnb_bound; [apply bytes_ok_app; auto|rewrite len_app; lia]|reflexivity]. }
  destruct KO as [K1 [K2 [K3 K4]]].
  destruct (nonce_exists (k_iv k) (be_val (pnb ++ extra)) K2 K4 P64) as [nonce' Hn'].
  exists fields, ll, nonce, ct, tag, m0, mask, more, nonce'. cbv zeta. rewrite <- !app_assoc in *.
  split; [auto|]. split; [auto|]. split; [auto|]. split; [exact Seal|]. split; [exact Ecb|]. split; [auto|]. split; [exact Hn'|].
  destruct (type_of_b0 (lh_byte h) 2 Hb ltac:(lia) Ht) as [Hl Tb].
  set (b0 := N.lxor (lh_byte h) (N.land m0 15)) in *.
  assert (X : b0 < 256) by (apply xor_mask_byte; lia).
  pose proof (low4_div (lh_byte h) m0) as D. fold b0 in D.
  set (body := cut ++ rest).
  assert (EW : wire ++ rest = b0 :: fields ++ ll ++ ppn ++ body).
  { rewrite Ew. unfold body. cbn [app]. rewrite <- !app_assoc. reflexivity. }
  assert (SH : long_shape 2 (with_byte h b0 true) fields (len pnb + len pt + 16) ll ppn body (wire ++ rest)).
  { constructor; cbn [with_byte lh_byte lh_version lh_vn]; auto.
    - lia.
    - rewrite D. exact Tb.
    - unfold body. apply bytes_ok_app; auto. }
  pose proof (handshake_eq P oc c k _ _ _ _ _ _ _ HP K NA SH) as Q.
  destruct (N.ltb_spec (len body) 16) as [Lb|Lb]; [unfold body in Lb; rewrite len_app in Lb; lia|].
  destruct Q as [m0' [mask' [more' [Ecb' [Lm' [_ Q]]]]]].
  assert (EF : firstn 16 body = firstn 16 cut).
  { unfold body. rewrite firstn_app. replace (16 - length cut)%nat with 0%nat by (unfold len in *; lia).
    change (firstn 0 rest) with (@nil N). apply app_nil_r. }
  rewrite EF, Ecb in Ecb'. injection Ecb' as <- Em. destruct (cons_app_inj mask more mask' more') as [<- _]; auto.
  { unfold len in *. lia. }
  rewrite EW in *. rewrite (long_dispatch oc c h fields b0) by (auto; lia). rewrite D, Tb, Q. clear Q.
  unfold handshake_rest. cbv zeta. cbn [with_byte lh_byte]. unfold b0. rewrite xor_low_twice, PL. rewrite sub64_ok by lia. cbn [bind].
  rewrite var_bytes_spec. unfold body at 1 4. rewrite len_app.
  replace (len pnb + len pt + 16 - len pnb) with (len pt + 16) by lia.
  split; intros LR.
  { destruct (N.leb_spec (len pt + 16) (len cut + len rest)); [lia|]. reflexivity. }
  intros q rest'. destruct (N.leb_spec (len pt + 16) (len cut + len rest)) as [_|]; [|lia]. cbn [bind].
  rewrite Ex, firstn_app_exact by (unfold len; lia).
  assert (EH : with_byte (with_byte h (N.lxor (lh_byte h) (N.land m0 15)) true) (lh_byte h) false = h).
  { destruct h. cbn in *. subst. reflexivity. }
  assert (ED : firstn (N.to_nat (len pt + 16)) body = cut ++ firstn n rest).
  { unfold body. rewrite firstn_app, firstn_all2 by (unfold len in *; lia). f_equal. f_equal. unfold n, len in *. lia. }
  assert (ER : skipn (N.to_nat (len pt + 16)) body = skipn n rest).
  { unfold body. rewrite skipn_app, skipn_all2 by (unfold len in *; lia). cbn [app]. f_equal. unfold n, len in *. lia. }
  rewrite ED, ER.
  set (data := cut ++ firstn n rest).
  assert (Ld : 16 <= len data).
  { unfold data. rewrite len_app. lia. }
  unfold decrypt_remote_payload, borrow_remote_tls_secrets. rewrite Es. cbn [ok_or bind].
  split.
  - destruct (decrypt_payload_split P oc sec k data (lh_byte h :: fields ++ ll ++ pnb) _ Ks P64 Ld) as [nonce2 [ct' [tag' [Hn2 [Edata [Lt' Edec]]]]]].
    rewrite Edec. assert (nonce2 = nonce') as -> by (eapply nonce_for_fun; eauto).
    destruct (p_gcm_open P (k_key k) nonce' _ ct' tag') as [pt'|] eqn:O; [|intros Q; discriminate Q]. cbn [ok_or bind].
    destruct (deserialize_frames oc pt') as [fs| | |] eqn:DF; cbn [bind]; intros Q; try discriminate Q.
    injection Q as <- <-. exists ct', tag', pt', fs. rewrite EH. repeat (split; auto).
  - intros [ct' [tag' [pt' [fs [Edata [Lt' [O [DF [-> ->]]]]]]]]]. change (skipn n (ct ++ tag) ++ firstn n rest) with data in Edata. rewrite <- Edata.
    rewrite (decrypt_payload_eq P oc sec k ct' tag' _ _ nonce' Ks P64 Hn' Lt'), O. cbn [ok_or bind].
    rewrite DF. cbn [bind]. rewrite EH. reflexivity.
Qed.
Print Assumptions C61_short_handshake_exact.

(** The same for a 0-RTT packet, except that its number is read as sent. *)
Theorem C61_short_zero_rtt_exact : forall P oc c k p pt wire rest,
  prims_ok P -> remote_keys P oc c SpApplication k -> no_remote_ack c SpApplication ->
  zero_rtt_wire P k p pt wire -> pz_pn p < 256 ^ len (pz_pn_bytes p) -> len (pz_pn_bytes p) < 4 -> bytes_ok rest ->
  let n := N.to_nat (4 - len (pz_pn_bytes p)) in
  exists fields ll nonce ct tag,
    long_fields (pz_header p) fields /\ varint_enc (len (pz_pn_bytes p) + len pt + 16) ll /\
    nonce_for (k_iv k) (pz_pn p) nonce /\
    let aad := lh_byte (pz_header p) :: fields ++ ll ++ pz_pn_bytes p in
    p_gcm_seal P (k_key k) nonce aad pt = Some (ct, tag) /\
    (len rest < 4 - len (pz_pn_bytes p) ->
     decode_next_packet oc c (wire ++ rest) = Err (InternalError "not enough bytes for var_bytes")) /\
    (4 - len (pz_pn_bytes p) <= len rest -> forall q rest',
     decode_next_packet oc c (wire ++ rest) = Ok (q, rest') <->
     exists ct' tag' pt' fs, ct' ++ tag' = skipn n (ct ++ tag) ++ firstn n rest /\ len tag' = 16 /\
       p_gcm_open P (k_key k) nonce aad ct' tag' = Some pt' /\ deserialize_frames oc pt' = Ok fs /\
       q = PZeroRtt (PacketZeroRtt (pz_header p) (len (pz_pn_bytes p) + len pt + 16) (pz_pn_bytes p) (pz_pn p) fs) /\ rest' = skipn n rest).
Proof.
  intros P oc c k p pt wire rest HP K NA W Hpn L4 Br n.
  destruct p as [h length pnb pn payload]. unfold zero_rtt_wire in W. cbn [pz_header pz_length pz_pn pz_pn_bytes pz_payload] in *.
  destruct W as [fields [ll [Hb [Ht [Hv [VN [Hp [HF [-> [HL [Bpt PR]]]]]]]]]]].
  pose proof K as [sec [Es Ks]]. pose proof Ks as [_ [_ [_ [_ KO]]]].
  destruct (short_cut P k _ _ _ _ _ _ _ HP KO Bpt PR L4)
    as [m0 [mask [more [nonce [ct [tag [Hn [Seal [Ecb [Lm [Ew [Ex [Lp [Bp [Bb [BM [Le [Be [Lc [Lk [L16 [PL [Bpn [PV Ltag]]]]]]]]]]]]]]]]]]]]]]]].
  fold n in Ecb, Ew, Ex, Lp, Bp, Bb, Le, Be, Lk, L16.
  set (extra := xor_bytes (firstn n (ct ++ tag)) (skipn (length pnb) mask)) in *.
  set (ppn := xor_bytes pnb mask ++ firstn n (ct ++ tag)) in *. set (cut := skipn n (ct ++ tag)) in *.
  rewrite N.mod_small in PV by exact Hpn.
  assert (P64 : pn < 2 ^ 64).
  { rewrite <- PV. eapply N.lt_trans; [apply pnb_bound; [auto|lia]|reflexivity]. }
  exists fields, ll, nonce, ct, tag. cbv zeta. rewrite <- !app_assoc in *.
  split; [auto|]. split; [auto|]. split; [auto|]. split; [exact Seal|].
  destruct (type_of_b0 (lh_byte h) 1 Hb ltac:(lia) Ht) as [Hl Tb].
  set (b0 := N.lxor (lh_byte h) (N.land m0 15)) in *.
  assert (X : b0 < 256) by (apply xor_mask_byte; lia).
  pose proof (low4_div (lh_byte h) m0) as D. fold b0 in D.
  set (body := cut ++ rest).
  assert (EW : wire ++ rest = b0 :: fields ++ ll ++ ppn ++ body).
  { rewrite Ew. unfold body. cbn [app]. rewrite <- !app_assoc. reflexivity. }
  assert (SH : long_shape 1 (with_byte h b0 true) fields (len pnb + len pt + 16) ll ppn body (wire ++ rest)).
  { constructor; cbn [with_byte lh_byte lh_version lh_vn]; auto.
    - lia.
    - rewrite D. exact Tb.
    - unfold body. apply bytes_ok_app; auto. }
  pose proof (zero_rtt_eq P oc c k _ _ _ _ _ _ _ HP K NA SH) as Q.
  destruct (N.ltb_spec (len body) 16) as [Lb|Lb]; [unfold body in Lb; rewrite len_app in Lb; lia|].
  destruct Q as [m0' [mask' [more' [Ecb' [Lm' [_ Q]]]]]].
  assert (EF : firstn 16 body = firstn 16 cut).
  { unfold body. rewrite firstn_app. replace (16 - length cut)%nat with 0%nat by (unfold len in *; lia).
    change (firstn 0 rest) with (@nil N). apply app_nil_r. }
  rewrite EF, Ecb in Ecb'. injection Ecb' as <- Em. destruct (cons_app_inj mask more mask' more') as [<- _]; auto.
  { unfold len in *. lia. }
  rewrite EW in *. rewrite (long_dispatch oc c h fields b0) by (auto; lia). rewrite D, Tb, Q. clear Q.
  unfold zero_rtt_rest. cbv zeta. cbn [with_byte lh_byte]. unfold b0. rewrite xor_low_twice, PL. rewrite sub64_ok by lia. cbn [bind].
  rewrite var_bytes_spec. unfold body at 1 4. rewrite len_app.
  replace (len pnb + len pt + 16 - len pnb) with (len pt + 16) by lia.
  split; intros LR.
  { destruct (N.leb_spec (len pt + 16) (len cut + len rest)); [lia|]. reflexivity. }
  intros q rest'. destruct (N.leb_spec (len pt + 16) (len cut + len rest)) as [_|]; [|lia]. cbn [bind].
  rewrite Ex, firstn_app_exact by (unfold len; lia). rewrite PV.
  assert (EH : with_byte (with_byte h (N.lxor (lh_byte h) (N.land m0 15)) true) (lh_byte h) false = h).
  { destruct h. cbn in *. subst. reflexivity. }
  assert (ED : firstn (N.to_nat (len pt + 16)) body = cut ++ firstn n rest).
  { unfold body. rewrite firstn_app, firstn_all2 by (unfold len in *; lia). f_equal. f_equal. unfold n, len in *. lia. }
  assert (ER : skipn (N.to_nat (len pt + 16)) body = skipn n rest).
  { unfold body. rewrite skipn_app, skipn_all2 by (unfold len in *; lia). cbn [app]. f_equal. unfold n, len in *. lia. }
  rewrite ED, ER.
  set (data := cut ++ firstn n rest).
  assert (Ld : 16 <= len data).
  { unfold data. rewrite len_app. lia. }
  unfold decrypt_remote_payload, borrow_remote_tls_secrets. rewrite Es. cbn [ok_or bind].
  split.
  - destruct (decrypt_payload_split P oc sec k data (lh_byte h :: fields ++ ll ++ pnb) _ Ks P64 Ld) as [nonce2 [ct' [tag' [Hn2 [Edata [Lt' Edec]]]]]].
    rewrite Edec. assert (nonce2 = nonce) as -> by (eapply nonce_for_fun; eauto).
    destruct (p_gcm_open P (k_key k) nonce _ ct' tag') as [pt'|] eqn:O; [|intros Q; discriminate Q]. cbn [ok_or bind].
    destruct (deserialize_frames oc pt') as [fs| | |] eqn:DF; cbn [bind]; intros Q; try discriminate Q.
    injection Q as <- <-. exists ct', tag', pt', fs. rewrite EH. repeat (split; auto).
  - intros [ct' [tag' [pt' [fs [Edata [Lt' [O [DF [-> ->]]]]]]]]]. change (skipn n (ct ++ tag) ++ firstn n rest) with data in Edata. rewrite <- Edata.
    rewrite (decrypt_payload_eq P oc sec k ct' tag' _ _ nonce Ks P64 Hn Lt'), O. cbn [ok_or bind].
    rewrite DF. cbn [bind]. rewrite EH. reflexivity.
Qed.
Print Assumptions C61_short_zero_rtt_exact.

(** 1-RTT packets end with their datagram: what is behind one counts as part of it. *)
Theorem C61_short_one_rtt_exact : forall P oc c k p pt wire rest,
  prims_ok P -> remote_keys P oc c SpApplication k -> no_remote_ack c SpApplication ->
  one_rtt_wire P k p pt wire -> po_pn p < 256 ^ len (po_pn_bytes p) -> len (po_pn_bytes p) < 4 -> bytes_ok rest ->
  let n := N.to_nat (4 - len (po_pn_bytes p)) in
  exists d nonce ct tag, cid_enc (sh_dcid (po_header p)) 8 d /\ nonce_for (k_iv k) (po_pn p) nonce /\
    let aad := sh_byte (po_header p) :: d ++ po_pn_bytes p in
    p_gcm_seal P (k_key k) nonce aad pt = Some (ct, tag) /\
    forall q rest', decode_next_packet oc c (wire ++ rest) = Ok (q, rest') <->
     exists ct' tag' pt' fs, ct' ++ tag' = skipn n (ct ++ tag) ++ rest /\ len tag' = 16 /\
       p_gcm_open P (k_key k) nonce aad ct' tag' = Some pt' /\ deserialize_frames oc pt' = Ok fs /\
       q = POneRtt (PacketOneRtt (po_header p) (po_pn_bytes p) (po_pn p) fs) /\ rest' = [].
Proof.
  intros P oc c k p pt wire rest HP K NA W Hpn L4 Br n.
  destruct p as [h pnb pn payload]. unfold one_rtt_wire in W. cbn [po_header po_pn po_pn_bytes po_payload] in *.
  destruct W as [d [Hb [Hp [HD [Bpt PR]]]]].
  pose proof K as [sec [Es Ks]]. pose proof Ks as [_ [_ [_ [_ KO]]]].
  destruct (short_cut P k _ _ _ _ _ _ _ HP KO Bpt PR L4)
    as [m0 [mask [more [nonce [ct [tag [Hn [Seal [Ecb [Lm [Ew [Ex [Lp [Bp [Bb [BM [Le [Be [Lc [Lk [L16 [PL [Bpn [PV Ltag]]]]]]]]]]]]]]]]]]]]]]]].
  fold n in Ecb, Ew, Ex, Lp, Bp, Bb, Le, Be, Lk, L16.
  set (extra := xor_bytes (firstn n (ct ++ tag)) (skipn (length pnb) mask)) in *.
  set (ppn := xor_bytes pnb mask ++ firstn n (ct ++ tag)) in *. set (cut := skipn n (ct ++ tag)) in *.
  rewrite N.mod_small in PV by exact Hpn.
  assert (P64 : pn < 2 ^ 64).
  { rewrite <- PV. eapply N.lt_trans; [apply pnb_bound; [auto|lia]|reflexivity]. }
  exists d, nonce, ct, tag. cbv zeta. split; [auto|]. split; [auto|]. split; [exact Seal|].
  set (body := cut ++ rest).
  set (b0 := N.lxor (sh_byte h) (N.land m0 31)) in *.
  assert (EW : wire ++ rest = b0 :: d ++ ppn ++ body).
  { rewrite Ew. unfold body. cbn [app]. rewrite <- !app_assoc. reflexivity. }
  pose proof (low5_short (sh_byte h) m0 Hb) as B0. fold b0 in B0.
  rewrite EW, (short_dispatch oc c _ d (sh_dcid h)) by auto.
  pose proof (one_rtt_eq P oc c k b0 d (sh_dcid h) ppn body HP K NA ltac:(lia) HD Lp) as Q. cbv zeta in Q.
  destruct (N.ltb_spec (len body) 16) as [Lb|Lb]; [unfold body in Lb; rewrite len_app in Lb; lia|].
  destruct Q as [m0' [mask' [more' [Ecb' [Lm' [_ Q]]]]]].
  assert (EF : firstn 16 body = firstn 16 cut).
  { unfold body. rewrite firstn_app. replace (16 - length cut)%nat with 0%nat by (unfold len in *; lia).
    change (firstn 0 rest) with (@nil N). apply app_nil_r. }
  rewrite EF, Ecb in Ecb'. injection Ecb' as <- Em. destruct (cons_app_inj mask more mask' more') as [<- _]; auto.
  { unfold len in *. lia. }
  rewrite Q. clear Q. unfold one_rtt_rest. cbv zeta. unfold b0. rewrite xor_low_twice, PL.
  rewrite Ex, firstn_app_exact by (unfold len; lia). rewrite PV.
  assert (EH : ShortHeader (sh_byte h) (sh_dcid h) false = h) by (destruct h; cbn in *; subst; reflexivity).
  unfold decrypt_remote_payload, borrow_remote_tls_secrets. rewrite Es. cbn [ok_or bind].
  intros q rest'. split.
  - destruct (decrypt_payload_split P oc sec k body (sh_byte h :: d ++ pnb) _ Ks P64 Lb) as [nonce2 [ct' [tag' [Hn2 [Edata [Lt' Edec]]]]]].
    rewrite Edec. assert (nonce2 = nonce) as -> by (eapply nonce_for_fun; eauto).
    destruct (p_gcm_open P (k_key k) nonce _ ct' tag') as [pt'|] eqn:O; [|intros Q; discriminate Q]. cbn [ok_or bind].
    destruct (deserialize_frames oc pt') as [fs| | |] eqn:DF; cbn [bind]; intros Q; try discriminate Q.
    injection Q as <- <-. exists ct', tag', pt', fs. rewrite EH. repeat (split; auto).
  - intros [ct' [tag' [pt' [fs [Edata [Lt' [O [DF [-> ->]]]]]]]]]. change (skipn n (ct ++ tag) ++ rest) with body in Edata. rewrite <- Edata.
    rewrite (decrypt_payload_eq P oc sec k ct' tag' _ _ nonce Ks P64 Hn Lt'), O. cbn [ok_or bind].
    rewrite DF. cbn [bind]. rewrite EH. reflexivity.
Qed.
Print Assumptions C61_short_one_rtt_exact.

(** Whoever has the keys can append bytes that turn a 1-RTT packet with a one byte
    number, whose payload holds no frame the decoder would read, into one that is
    read as a STREAM frame; Handshake and 0-RTT packets are refused with two bytes
    behind them for want of a third, and with three unless these happen to fit. *)
Example C61_exact_case :
  (let? (c, s) := three_keys in
   let dec w := match decode_next_packet true s w with
     | Ok (POneRtt q, r) => Ok (po_pn q, map (fun f => match f with Stream x => Some (st_stream_id x, st_length x) | _ => None end) (po_payload q), r)
     | Ok _ => Ok (0, [], [])
     | Err e => Err e | Panic w => Panic w | Diverge => Diverge
     end in
   let b := 0x40 in let d := be_bytes 8 (cid_val sample_id) in let ad := b :: d ++ [9] in
   let? ks := encrypt_local_payload c SpApplication (repeat 0 32) ad 9 in
   let at_ i := nth i ks 0 in
   let pt := [0; 0; 0; N.lxor 0x08 (N.lxor (at_ 3%nat) (at_ 0%nat)); N.lxor 4 (N.lxor (at_ 4%nat) (at_ 1%nat))] in
   let? body := encrypt_local_payload c SpApplication pt ad 9 in
   let? mask := get_local_hp_mask c SpApplication (skipn 3 body) in
   let? wire := match mask with
     | m0 :: m => Ok (N.lxor b (N.land m0 0x1f) :: d ++ xor_bytes [9] m ++ body)
     | [] => Err (InternalError "mask")
     end in
   let? body' := encrypt_local_payload c SpApplication (xor_bytes (skipn 3 body) ks) ad 9 in
   let rest := skipn 18 body' in
   let long type sp :=
     let b := 0xc0 + type * 16 in
     let mid := be_bytes 4 1 ++ [1; 5; 0] ++ [21] in
     let? body := encrypt_local_payload c sp [1; 1; 1; 1] (b :: mid ++ [9]) 9 in
     let? mask := get_local_hp_mask c sp (skipn 3 body) in
     match mask with
     | m0 :: m => Ok (N.lxor b (N.land m0 0x0f) :: mid ++ xor_bytes [9] m ++ body)
     | [] => Err (InternalError "mask")
     end in
   let? z := long 1 SpApplication in
   let? h := long 2 SpHandshake in
   Ok (len rest, dec wire, dec (wire ++ rest),
       map (fun w => dec (w ++ [7; 7])) [z; h], map (fun w => dec (w ++ [7; 7; 7])) [z; h])) =
  Ok (16, Err (InternalError "error in aes_128_gcm decryption"), Ok (9, [Some (4, 16)], []),
      [Err (InternalError "not enough bytes for var_bytes"); Err (InternalError "not enough bytes for var_bytes")],
      [Err (InternalError "error in aes_128_gcm decryption"); Err (InternalError "error in aes_128_gcm decryption")]).
Proof. vm_compute. reflexivity. Qed.
