(** Properties C54-C60: what the crate puts on the wire and what it lets in. *)
From Verif Require Import Base Utils Frame CipherSuite Secrets Connection Packet Histories Spec SpecPacket
  Tactics UtilsFacts ParserFacts FrameFacts SecretsFacts HeaderFacts PacketFacts ConnectionFacts PacketInv
  DecodeFacts SendFacts ProtectedInv CryptoInst Aes128 PropFrame PropHeader PropConn PropPacket PropDecode.

(** ** C54: serialised packets are RFC packets. *)
Theorem C54_initial_conformant : forall P oc srv d l c1 c2 fs t p wire,
  prims_ok P -> reachable P oc srv d l c1 -> reachable P oc srv d l c2 ->
  id_fits d l -> scid_fits c1 -> bytes_ok (token_bytes t) -> Forall frame_wf fs ->
  (forall pt, frames_enc fs pt -> len pt < 2 ^ 63) ->
  snd (initial_new oc fs t c1) = Ok p -> initial_serialize oc p c2 = Ok wire ->
  exists k pt,
    (* protected with the keys RFC 9001 prescribes for this side ... *)
    initial_keys P srv (be_bytes (N.to_nat l) (cid_val d)) k /\
    (* ... the payload being an RFC encoding of the frames ... *)
    frames_enc fs pt /\ initial_wire P k p pt wire /\
    (* ... long form, fixed bit, type Initial, reserved bits clear, 4 byte number ... *)
    lh_byte (pi_header p) = 128 + 64 + 0 * 16 + 0 * 4 + (4 - 1) /\ len (pi_pn_bytes p) = 4 /\
    (* ... version 1, the ids of the connection and the given token. *)
    lh_version (pi_header p) = 1 /\ lh_dcid (pi_header p) = d /\ lh_dcid_len (pi_header p) = l /\
    c_scid c1 = Some (lh_scid (pi_header p), lh_scid_len (pi_header p)) /\ pi_token p = token_bytes t.
Proof.
  intros P oc srv d l c1 c2 fs t p wire HP R1 R2 ID SF BT FW Sz EN ES.
  destruct (built_initial _ _ _ _ _ _ _ _ _ HP R1 ID SF EN) as [HR [PF [Lp [L4 [Ef [Et X]]]]]].
  pose proof (reachable_inv _ _ _ _ _ _ HP R2) as I2. pose proof (reachable_inv _ _ _ _ _ _ HP R1) as I1.
  destruct (ci_keys _ _ _ _ _ _ I2) as [cid [kl [kr [U [A [_ [C _]]]]]]].
  destruct (serialize_frames_enc fs false FW) as [pt [Ept Fpt]].
  assert (FS' : forall bs, serialize_frames (pi_payload p) false = Ok bs -> len bs < 2 ^ 63).
  { intros bs Eb. rewrite Ef in Eb. assert (bs = pt) as -> by congruence. auto. }
  assert (FW' : Forall frame_wf (pi_payload p)) by (rewrite Ef; auto).
  assert (BT' : bytes_ok (pi_token p)) by (rewrite Et; auto).
  destruct (initial_ser P oc c2 kl p wire HP C HR BT' PF ltac:(pows; lia) FW' FS' ES) as [pt' [Ept' W]].
  assert (pt' = pt) as -> by (rewrite Ef in Ept'; congruence).
  exists kl, pt. destruct ID as [D1 [D2 D3]].
  split; [rewrite u160_to_var_bytes_ok in U by auto; injection U as <-; exact A|].
  split; [exact Fpt|]. split; [exact W|].
  split.
  { destruct (initial_new oc fs t c1) as [c' r] eqn:EN'. cbn [snd] in EN. subst r.
    destruct (initial_new_inv _ _ _ _ _ _ _ _ _ _ I1 D2 EN') as [_ [s [sl [_ [Eh _]]]]]. rewrite Eh. reflexivity. }
  split; [exact L4|]. tauto.
Qed.
Print Assumptions C54_initial_conformant.

Theorem C54_handshake_conformant : forall P oc c1 c2 k d l fs p wire,
  prims_ok P -> local_keys P oc c2 SpHandshake k ->
  largest_local_ack (borrow_pn_info c1 SpHandshake) = None -> next_pn (borrow_pn_info c1 SpHandshake) < 2 ^ 64 ->
  c_dcid c1 = (d, l) -> id_fits d l -> scid_fits c1 -> Forall frame_wf fs ->
  (forall pt, frames_enc fs pt -> len pt < 2 ^ 63) ->
  snd (handshake_new oc fs c1) = Ok p -> handshake_serialize oc p c2 = Ok wire ->
  exists pt, frames_enc fs pt /\ handshake_wire P k p pt wire /\
    lh_byte (ph_header p) = 128 + 64 + 2 * 16 + 0 * 4 + (4 - 1) /\ len (ph_pn_bytes p) = 4 /\
    lh_version (ph_header p) = 1 /\ lh_dcid (ph_header p) = d /\ lh_dcid_len (ph_header p) = l /\
    c_scid c1 = Some (lh_scid (ph_header p), lh_scid_len (ph_header p)).
Proof.
  intros P oc c1 c2 k d l fs p wire HP K1 LA NX DC [D1 [D2 D3]] SF FW Sz EN ES.
  destruct (handshake_new oc fs c1) as [c' r] eqn:EN'. cbn [snd] in EN. subst r.
  destruct (handshake_new_inv' _ _ _ _ _ _ _ LA NX DC D2 EN') as [s [sl [Es [Eh [Lp [Eb Ef]]]]]].
  unfold scid_fits in SF. rewrite Es in SF. destruct SF as [S1 [S2 S3]]. rewrite (fits_cast sl S2) in Eh.
  assert (HR : header_ready (ph_header p) (ph_pn_bytes p) 2)
    by (rewrite Eh, Eb; apply built_header_ready; auto; lia).
  assert (PF : pn_field (ph_pn p) (ph_pn_bytes p)) by (rewrite Eb; apply pn_field_4; auto).
  destruct (serialize_frames_enc fs false FW) as [pt [Ept Fpt]].
  assert (FS' : forall bs, serialize_frames (ph_payload p) false = Ok bs -> len bs < 2 ^ 63).
  { intros bs E'. rewrite Ef in E'. assert (bs = pt) as -> by congruence. auto. }
  assert (FW' : Forall frame_wf (ph_payload p)) by (rewrite Ef; auto).
  destruct (handshake_ser P oc c2 k p wire HP K1 HR PF ltac:(pows; lia) FW' FS' ES) as [pt' [Ept' W]].
  assert (pt' = pt) as -> by (rewrite Ef in Ept'; congruence).
  exists pt. split; [exact Fpt|]. split; [exact W|].
  rewrite Eh. cbn [lh_byte lh_version lh_dcid lh_dcid_len lh_scid lh_scid_len].
  split; [reflexivity|]. split; [rewrite Eb, be_bytes_len; reflexivity|]. auto.
Qed.
Print Assumptions C54_handshake_conformant.
Example C54_handshake_case :
  (let? (c, s) := sample_pair true in
   let? a := from_secret (TLS13_AES_128_GCM_SHA256 real_prims true) (repeat 1 32) in
   let c := install c a a in
   let? p := snd (handshake_new true sample_payload c) in
   let? wire := handshake_serialize true p c in
   Ok (largest_local_ack (borrow_pn_info c SpHandshake), lh_byte (ph_header p), ph_pn_bytes p, firstn 14 (skipn 1 wire))) =
  Ok (None, 0xe3, [0; 0; 0; 1], [0; 0; 0; 1; 8] ++ hex "8394c8f03e515708" ++ [8]).
Proof. vm_compute. reflexivity. Qed.

(** The client Initial packet of RFC 9001 appendix A.2 (the crate's own test data,
    packet.rs:829-886), replayed through the model with the executable
    primitives: the packet built by the second call on a client connection is
    exactly the published one, and a server accepts it. *)
Definition rfc_crypto_frame : list N :=
   hex "060040f1010000ed0303ebf8fa56f12939b9584a3896472ec40bb863cfd3e868" ++
   hex "04fe3a47f06a2b69484c00000413011302010000c000000010000e00000b6578" ++
   hex "616d706c652e636f6dff01000100000a00080006001d00170018001000070005" ++
   hex "04616c706e000500050100000000003300260024001d00209370b2c9caa47fba" ++
   hex "baf4559fedba753de171fa71f50f1ce15d43e994ec74d748002b000302030400" ++
   hex "0d0010000e0403050306030203080408050806002d00020101001c0002400100" ++
   hex "3900320408ffffffffffffffff05048000ffff07048000ffff08011001048000" ++
   hex "75300901100f088394c8f03e51570806048000ffff".
Definition rfc_initial_packet : list N :=
   hex "c000000001088394c8f03e5157080000449e7b9aec34d1b1c98dd7689fb8ec11" ++
   hex "d242b123dc9bd8bab936b47d92ec356c0bab7df5976d27cd449f63300099f399" ++
   hex "1c260ec4c60d17b31f8429157bb35a1282a643a8d2262cad67500cadb8e7378c" ++
   hex "8eb7539ec4d4905fed1bee1fc8aafba17c750e2c7ace01e6005f80fcb7df6212" ++
   hex "30c83711b39343fa028cea7f7fb5ff89eac2308249a02252155e2347b63d58c5" ++
   hex "457afd84d05dfffdb20392844ae812154682e9cf012f9021a6f0be17ddd0c208" ++
   hex "4dce25ff9b06cde535d0f920a2db1bf362c23e596d11a4f5a6cf3948838a3aec" ++
   hex "4e15daf8500a6ef69ec4e3feb6b1d98e610ac8b7ec3faf6ad760b7bad1db4ba3" ++
   hex "485e8a94dc250ae3fdb41ed15fb6a8e5eba0fc3dd60bc8e30c5c4287e53805db" ++
   hex "059ae0648db2f64264ed5e39be2e20d82df566da8dd5998ccabdae053060ae6c" ++
   hex "7b4378e846d29f37ed7b4ea9ec5d82e7961b7f25a9323851f681d582363aa5f8" ++
   hex "9937f5a67258bf63ad6f1a0b1d96dbd4faddfcefc5266ba6611722395c906556" ++
   hex "be52afe3f565636ad1b17d508b73d8743eeb524be22b3dcbc2c7468d54119c74" ++
   hex "68449a13d8e3b95811a198f3491de3e7fe942b330407abf82a4ed7c1b311663a" ++
   hex "c69890f4157015853d91e923037c227a33cdd5ec281ca3f79c44546b9d90ca00" ++
   hex "f064c99e3dd97911d39fe9c5d0b23a229a234cb36186c4819e8b9c5927726632" ++
   hex "291d6a418211cc2962e20fe47feb3edf330f2c603a9d48c0fcb5699dbfe58964" ++
   hex "25c5bac4aee82e57a85aaf4e2513e4f05796b07ba2ee47d80506f8d2c25e50fd" ++
   hex "14de71e6c418559302f939b0e1abd576f279c4b2e0feb85c1f28ff18f58891ff" ++
   hex "ef132eef2fa09346aee33c28eb130ff28f5b766953334113211996d20011a198" ++
   hex "e3fc433f9f2541010ae17c1bf202580f6047472fb36857fe843b19f5984009dd" ++
   hex "c324044e847a4f4a0ab34f719595de37252d6235365e9b84392b061085349d73" ++
   hex "203a4a13e96f5432ec0fd4a1ee65accdd5e3904df54c1da510b0ff20dcc0c77f" ++
   hex "cb2c0e0eb605cb0504db87632cf3d8b4dae6e705769d1de354270123cb11450e" ++
   hex "fc60ac47683d7b8d0f811365565fd98c4c8eb936bcab8d069fc33bd801b03ade" ++
   hex "a2e1fbc5aa463d08ca19896d2bf59a071b851e6c239052172f296bfb5e724047" ++
   hex "90a2181014f3b94a4e97d117b438130368cc39dbb2d198065ae3986547926cd2" ++
   hex "162f40a29f0c3c8745c0f50fba3852e566d44575c29d39a03f0cda721984b6f4" ++
   hex "40591f355e12d439ff150aab7613499dbd49adabc8676eef023b15b65bfc5ca0" ++
   hex "6948109f23f350db82123535eb8a7433bdabcb909271a6ecbcb58b936a88cd4e" ++
   hex "8f2e6ff5800175f113253d8fa9ca8885c2f552e657dc603f252e1a8e308f76f0" ++
   hex "be79e2fb8f5d5fbbe2e30ecadd220723c8c0aea8078cdfcb3868263ff8f09400" ++
   hex "54da48781893a7e49ad5aff4af300cd804a6b6279ab3ff3afb64491c85194aab" ++
   hex "760d58a606654f9f4400e8b38591356fbf6425aca26dc85244259ff2b19c41b9" ++
   hex "f96f3ca9ec1dde434da7d2d392b905ddf3d1f9af93d1af5950bd493f5aa731b4" ++
   hex "056df31bd267b6b90a079831aaf579be0a39013137aac6d404f518cfd4684064" ++
   hex "7e78bfe706ca4cf5e9c5453e9f7cfd2b8b4c8d169a44e55c88d4a9a7f9474241" ++
   hex "e221af44860018ab0856972e194cd934".

Example C54_rfc_sample :
  (let? c := connection_new real_prims true false V1 sample_id 8 in
   let? s := connection_new real_prims true true V1 sample_id 8 in
   let c := run true c [CSetScid u160_zero 0; CNextPn SpInitial] in
   let? (crypto, _) := deserialize_frame true rfc_crypto_frame in
   let fs := crypto :: repeat Padding (N.to_nat 917) in
   let? p := snd (initial_new true fs None c) in
   let? wire := initial_serialize true p c in
   let? (q, rest) := decode_next_packet true s rfc_initial_packet in
   match q with
   | PInitial q =>
       Ok (list_eqb wire rfc_initial_packet, pi_pn q, len (pi_payload q), rest,
           match pi_payload q with Crypto x :: _ => len (crypto_data x) | _ => 0 end)
   | _ => Err (InternalError "other packet")
   end) = Ok (true, 2, 918, [], 241).
Proof. vm_compute. reflexivity. Qed.

(** ** C55: every byte of an accepted packet is authenticated. *)

(** Changing one byte of a packet never yields the same packet again. *)
Definition C55_statement : Prop := forall P oc srv d l c a x y b p rest,
  prims_ok P -> reachable P oc srv d l c -> bytes_ok (a ++ x :: b) -> y < 256 -> x <> y -> len rest <= len b ->
  decode_next_packet oc c (a ++ x :: b) = Ok (PInitial p, rest) ->
  decode_next_packet oc c (a ++ y :: b) <> Ok (PInitial p, rest).

(** All bytes but [4 - n] ones, [n] being the length of the packet number, enter
    the AEAD; those remaining ones can be anything.  Missing: these bytes. *)
Theorem C55_authenticated_but_gap_partial : forall P oc srv d l c k s p rest,
  prims_ok P -> reachable P oc srv d l c -> remote_keys P oc c SpInitial k -> bytes_ok s -> len s < 2 ^ 63 ->
  decode_next_packet oc c s = Ok (PInitial p, rest) ->
  exists b0 mid ppn gap ct tag m0 mask nonce pt,
    s = b0 :: mid ++ ppn ++ gap ++ ct ++ tag ++ rest /\
    len ppn = len (pi_pn_bytes p) /\ len gap = 4 - len (pi_pn_bytes p) /\
    b0 = N.lxor (lh_byte (pi_header p)) (N.land m0 0x0f) /\
    pi_pn_bytes p = xor_bytes ppn mask /\ len mask = len ppn /\ nonce_for (k_iv k) (pi_pn p) nonce /\
    p_gcm_open P (k_key k) nonce (lh_byte (pi_header p) :: mid ++ pi_pn_bytes p) ct tag = Some pt /\
    deserialize_frames oc pt = Ok (pi_payload p) /\
    forall gap', bytes_ok gap' -> len gap' = len gap ->
      decode_next_packet oc c (b0 :: mid ++ ppn ++ gap' ++ ct ++ tag ++ rest) = Ok (PInitial p, rest).
Proof.
  intros P oc srv d l c k s p rest HP R K B LS D. pose proof (reachable_inv _ _ _ _ _ _ HP R) as I.
  pose proof (proj1 (ci_acks _ _ _ _ _ _ I SpInitial)) as NA.
  destruct (initial_inv P oc c k s p rest HP K NA B LS D)
    as [h [fields [tl [L [ll [ppn [body [m0 [mask [more [nonce [ct [tag [pt [SH [Ee [Lm [Bm [Eh [Ln [Bn [En [Ep [Eb [EL [Lt [Hn [Ho Df]]]]]]]]]]]]]]]]]]]]]]]]]]]].
  pose proof SH as SH0. destruct SH0 as [Hb Hlong Ht Hv VN HF HT BT HL Lp4 Bp Bb Ew].
  pose proof (land3_le (lh_byte (pi_header p))) as L3.
  set (n := N.to_nat (len (pi_pn_bytes p))) in *.
  assert (Ln4 : (n <= 4)%nat) by (unfold n; lia).
  assert (Lf : length (firstn n ppn) = n) by (rewrite firstn_length; unfold len in Lp4; lia).
  assert (Lg : len (skipn n ppn) = 4 - len (pi_pn_bytes p)).
  { unfold len at 1. rewrite skipn_length. unfold n, len in *. lia. }
  exists (lh_byte h), (fields ++ tl ++ pi_token p ++ ll), (firstn n ppn), (skipn n ppn), ct, tag, m0, (firstn n mask), nonce, pt.
  split. { rewrite Ew, Eb, <- !app_assoc, (app_assoc (firstn n ppn)), firstn_skipn. reflexivity. }
  split. { unfold len at 1. rewrite Lf. unfold n. lia. }
  split; [exact Lg|].
  split. { rewrite Eh. cbn [with_byte lh_byte]. rewrite xor_low_twice. reflexivity. }
  split. { rewrite En at 1. apply xor_firstn. }
  split. { unfold len at 2. rewrite Lf. unfold len. rewrite firstn_length. unfold len in Lm. lia. }
  split; [exact Hn|]. split; [rewrite <- !app_assoc; exact Ho|]. split; [exact Df|].
  intros gap' Bg Lg'.
  set (ppn' := firstn n ppn ++ gap').
  assert (Lp' : len ppn' = 4).
  { unfold ppn'. rewrite len_app, Lg', Lg. unfold len at 1. rewrite Lf. unfold n. lia. }
  assert (Bp' : bytes_ok ppn') by (apply bytes_ok_app; split; auto; apply bytes_ok_firstn; auto).
  set (s' := lh_byte h :: fields ++ tl ++ pi_token p ++ ll ++ ppn' ++ body).
  assert (ES : lh_byte h :: (fields ++ tl ++ pi_token p ++ ll) ++ firstn n ppn ++ gap' ++ ct ++ tag ++ rest = s').
  { unfold s', ppn'. rewrite Eb, <- !app_assoc. reflexivity. }
  rewrite ES.
  assert (SH' : initial_shape h fields tl (pi_token p) L ll ppn' body s') by (constructor; auto).
  assert (Q1 := initial_eq P oc c k _ _ _ _ _ _ _ _ _ HP K NA SH).
  assert (Q2 := initial_eq P oc c k _ _ _ _ _ _ _ _ _ HP K NA SH').
  assert (DS : forall x, decode_next_packet oc c (lh_byte h :: fields ++ x) =
    let? (p, s) := initial_from_stream oc c (lh_byte h :: fields ++ x) in Ok (PInitial p, s)).
  { intros x. rewrite (long_dispatch oc c h fields (lh_byte h) x) by auto. rewrite Ht. reflexivity. }
  unfold s'. rewrite DS. fold s'. rewrite Ew, DS, <- Ew in D.
  destruct (len body <? 16).
  { rewrite Q1 in D. discriminate. }
  destruct Q1 as [m1 [mk1 [mo1 [E1 [Lm1 [_ Q1]]]]]]. destruct Q2 as [m2 [mk2 [mo2 [E2 [Lm2 [_ Q2]]]]]].
  rewrite Ee in E1, E2.
  assert (m1 = m0 /\ mk1 = mask) as [-> ->].
  { split; [congruence|]. injection E1 as _ E1. apply cons_app_inj in E1 as [E1 _]; [auto|]. apply len_length. congruence. }
  assert (m2 = m0 /\ mk2 = mask) as [-> ->].
  { split; [congruence|]. injection E2 as _ E2. apply cons_app_inj in E2 as [E2 _]; [auto|]. apply len_length. congruence. }
  rewrite Q2. rewrite Q1 in D. revert D. unfold initial_rest. cbv zeta.
  assert (En' : N.to_nat (N.land (N.lxor (lh_byte h) (N.land m0 15)) 3 + 1) = n).
  { unfold n. rewrite Ln, Eh. reflexivity. }
  rewrite En'.
  assert (EX : firstn n (xor_bytes ppn' mask) = firstn n (xor_bytes ppn mask)).
  { rewrite !xor_firstn. f_equal. unfold ppn'. apply firstn_app_exact. auto. }
  rewrite EX. auto.
Qed.
Print Assumptions C55_authenticated_but_gap_partial.

(** Packets with packet numbers of any length are accepted when the bytes
    follow the crate's (not the RFC's) layout, so the gap does occur. *)
Lemma gap_packet P oc srv d l c k n : prims_ok P -> reachable P oc srv d l c -> remote_keys P oc c SpInitial k ->
  id_fits d l -> 1 <= n <= 4 ->
  exists s p, bytes_ok s /\ len s < 200 /\ decode_next_packet oc c s = Ok (PInitial p, []) /\
    len (pi_pn_bytes p) = n /\ pi_payload p = [Ping].
Proof.
  intros HP R K ID Hn. pose proof (reachable_inv _ _ _ _ _ _ HP R) as I.
  pose proof (proj1 (ci_acks _ _ _ _ _ _ I SpInitial)) as NA.
  pose proof K as [sec [_ Ks]]. destruct Ks as [_ [_ [EIV [_ [K1 [K2 [K3 K4]]]]]]].
  set (b := 0xc0 + (n - 1)).
  assert (Hb4 : b < 256) by (unfold b; lia).
  assert (Cn : n = 1 \/ n = 2 \/ n = 3 \/ n = 4) by lia.
  set (pnb := be_bytes (N.to_nat n) 7).
  assert (Lpnb : len pnb = n) by (unfold pnb; rewrite be_bytes_len; lia).
  assert (HR : header_ready (LongHeader b 1 l d l d None false) pnb 0).
  { apply header_of; auto.
    - unfold b. destruct Cn as [->|[->|[->| ->]]]; reflexivity.
    - rewrite Lpnb. unfold b. destruct Cn as [->|[->|[->| ->]]]; reflexivity.
    - discriminate.
    - reflexivity. }
  destruct HR as [[fields HF] [_ [Hb0 [_ [_ [_ Hpl]]]]]].
  cbn [lh_byte] in Hb0, Hpl.
  assert (Vpn : be_val pnb = 7) by (unfold pnb; destruct Cn as [->|[->|[->| ->]]]; reflexivity).
  assert (Bpnb : bytes_ok pnb) by (apply be_bytes_ok).
  destruct (make_iv_spec sec (k_iv k) 7 EIV K2 K4 ltac:(reflexivity)) as [nonce [_ HN]].
  assert (LN : len nonce = 12) by (destruct HN as [_ [-> _]]; auto).
  set (ll := [n + 17]). set (tl := [0]).
  set (aad := b :: fields ++ tl ++ [] ++ ll ++ pnb).
  pose proof (long_fields_len _ _ HF) as LF.
  destruct (p_gcm_seal P (k_key k) nonce aad [1]) as [[ct tag]|] eqn:ES.
  2:{ exfalso. eapply (seal_law P HP); [exact K1|exact LN| | |exact ES].
      - unfold aad, tl, ll. rewrite len_cons, !len_app, Lpnb. cbn [len length]. unfold len in *. cbn [length] in *. pows. lia.
      - reflexivity. }
  assert (B1 : bytes_ok [1]) by (repeat constructor).
  destruct (open_law P HP _ _ _ _ _ _ K1 LN B1 ES) as [Lct [Ltag [Bct [Btag Ho]]]].
  set (body := ct ++ tag).
  assert (Lbody : len body = 17) by (unfold body; rewrite len_app, Lct, Ltag; reflexivity).
  assert (L16 : len (firstn 16 body) = 16) by (unfold len in *; rewrite firstn_length; lia).
  destruct (ecb_law P HP (k_hp k) _ K3 L16) as [out [Eo [Lo Bo]]].
  destruct out as [|m0 out]; [change (len []) with 0 in Lo; lia|]. rewrite len_cons in Lo.
  apply bytes_ok_cons in Bo as [B0 Bo].
  set (mask := firstn 4 out).
  assert (Lmask : len mask = 4) by (unfold mask, len in *; rewrite firstn_length; lia).
  assert (Bmask : bytes_ok mask) by (apply bytes_ok_firstn; auto).
  set (ppn := xor_bytes pnb mask ++ repeat 0 (N.to_nat (4 - n))).
  assert (Lx : len (xor_bytes pnb mask) = n) by (rewrite xor_len_le; lia).
  assert (Lppn : len ppn = 4) by (unfold ppn; rewrite len_app, Lx; unfold len; rewrite repeat_length; lia).
  assert (Bppn : bytes_ok ppn).
  { apply bytes_ok_app. split; [apply xor_bytes_ok; auto|]. apply Forall_forall. intros x Hx. apply repeat_spec in Hx. lia. }
  set (b0 := N.lxor b (N.land m0 15)).
  assert (Hb0' : b0 < 256) by (apply xor_mask_byte; lia).
  destruct (type_of_b0 b 0 Hb4 ltac:(lia) Hb0) as [Hl Tb].
  pose proof (low4_div b m0) as DV. fold b0 in DV.
  set (h := LongHeader b0 1 l d l d None true).
  set (s := b0 :: fields ++ tl ++ [] ++ ll ++ ppn ++ body).
  assert (SH : initial_shape h fields tl [] (n + 17) ll ppn body s).
  { constructor; cbn [h lh_byte lh_version lh_vn]; auto.
    - lia.
    - rewrite DV. exact Tb.
    - discriminate.
    - apply one_byte. reflexivity.
    - constructor.
    - apply one_byte. lia.
    - apply bytes_ok_app; auto. }
  assert (DS : decode_next_packet oc c s = let? (p, s) := initial_from_stream oc c s in Ok (PInitial p, s)).
  { unfold s. rewrite (long_dispatch oc c h fields b0 (tl ++ [] ++ ll ++ ppn ++ body)).
    - rewrite DV, Tb. reflexivity.
    - exact (long_fields_byte _ b0 true _ HF).
    - discriminate.
    - reflexivity.
    - lia. }
  pose proof (initial_eq P oc c k _ _ _ _ _ _ _ _ _ HP K NA SH) as Q.
  destruct (N.ltb_spec (len body) 16); [lia|].
  destruct Q as [m1 [mk [mo [E1 [Lm1 [_ Q]]]]]]. rewrite Eo in E1.
  assert (m1 = m0 /\ mk = mask) as [-> ->].
  { split; [congruence|]. injection E1 as _ E1. unfold mask. rewrite E1. symmetry. apply firstn_app_exact. unfold len in Lm1. lia. }
  revert Q. unfold initial_rest. cbv zeta. cbn [h lh_byte]. unfold b0. rewrite xor_low_twice, Hpl, Lpnb.
  assert (Epn : firstn (N.to_nat n) (xor_bytes ppn mask) = pnb).
  { unfold ppn. rewrite xor_firstn. replace (firstn (N.to_nat n) (xor_bytes pnb mask ++ repeat 0 (N.to_nat (4 - n)))) with (xor_bytes pnb mask)
      by (symmetry; apply firstn_app_exact; unfold len in Lx; lia).
    assert (Efn : xor_bytes pnb mask = xor_bytes pnb (firstn (N.to_nat n) mask)).
    { rewrite <- (firstn_skipn (N.to_nat n) mask) at 1. apply xor_bytes_firstn. rewrite firstn_length. unfold len in *. lia. }
    rewrite Efn. apply xor_bytes_invol. rewrite firstn_length. unfold len in *. lia. }
  rewrite Epn. rewrite sub64_ok by lia. replace (n + 17 - n) with 17 by lia. cbn [bind].
  assert (VB : var_bytes_from_stream 17 body = Ok (body, [])).
  { rewrite <- (app_nil_r body) at 1. apply var_bytes_app. auto. }
  rewrite VB. cbn [bind].
  unfold decrypt_remote_payload, borrow_remote_tls_secrets. destruct K as [sec' [Es' Ks']]. rewrite Es'. cbn [ok_or bind].
  rewrite Vpn. unfold body.
  rewrite (decrypt_payload_eq P oc sec' k ct tag _ 7 nonce Ks') by (auto; reflexivity).
  fold aad. rewrite Ho. cbn [ok_or bind].
  change (deserialize_frames oc [1]) with (deserialize_frames oc [1]).
  replace (deserialize_frames oc [1]) with (@Ok (list frame) [Ping]) by (destruct oc; reflexivity). cbn [bind].
  intros Q. eexists s, _. split; [|split; [|split; [rewrite DS, Q; reflexivity|split; [exact Lpnb|reflexivity]]]].
  - unfold s. apply bytes_ok_cons. split; [auto|]. apply bytes_ok_app. split; [eapply long_fields_bytes_ok; eauto|].
    apply bytes_ok_app. split; [repeat constructor|]. apply bytes_ok_app. split; [constructor|].
    apply bytes_ok_app. split; [unfold ll; repeat constructor; lia|]. apply bytes_ok_app. split; [auto|]. apply bytes_ok_app; auto.
  - unfold s. rewrite len_cons, !len_app, Lppn, Lbody. unfold tl, ll. cbn. unfold len in *. cbn [length]. lia.
Qed.

Theorem C55_byte_change_refuted : ~ C55_statement.
Proof.
  intros H. destruct (sample_reachable true) as [c R].
  assert (ID : id_fits sample_id 8) by (repeat split; vm_compute; (reflexivity || discriminate)).
  pose proof (reachable_inv _ _ _ _ _ _ real_prims_ok R) as I.
  destruct (ci_keys _ _ _ _ _ _ I) as [cid [kl [k [_ [_ [_ [_ K]]]]]]].
  destruct (gap_packet real_prims true true sample_id 8 c k 3 real_prims_ok R K ID ltac:(lia)) as [s [p [B [L [D [L3 _]]]]]].
  destruct (C55_authenticated_but_gap_partial _ _ _ _ _ _ _ _ _ _ real_prims_ok R K B ltac:(pows; lia) D)
    as [b0 [mid [ppn [gap [ct [tag [m0 [mask [nonce [pt [Es [Lp [Lg [_ [_ [_ [_ [_ [_ G]]]]]]]]]]]]]]]]]]].
  rewrite L3 in Lg. destruct gap as [|x [|x' gap]]; rewrite ?len_cons, ?len_nil in Lg; [lia| |lia].
  assert (S1 : s = (b0 :: mid ++ ppn) ++ x :: ct ++ tag ++ []).
  { rewrite Es. cbn [app]. rewrite <- app_assoc. reflexivity. }
  set (y := if x =? 0 then 1 else 0).
  assert (Y : y < 256 /\ x <> y) by (unfold y; destruct (N.eqb_spec x 0); lia).
  specialize (G [y]). rewrite S1 in B, D.
  apply (H real_prims true true sample_id 8 c (b0 :: mid ++ ppn) x y (ct ++ tag ++ []) p [] real_prims_ok R B);
    [tauto|tauto|apply N.le_0_l|exact D|].
  assert (By : bytes_ok [y]) by (repeat constructor; tauto).
  assert (Ly : len [y] = len [x]) by (rewrite !len_cons; reflexivity).
  etransitivity; [|exact (G By Ly)].
  f_equal. cbn [app]. rewrite <- app_assoc. reflexivity.
Qed.
Print Assumptions C55_byte_change_refuted.

(** The same packet with packet number 7 in one byte and two different fillings
    of the three bytes behind it. *)
Definition gap_datagram (c : connection) (gap : list N) : outcome (list N) :=
  let mid := be_bytes 4 1 ++ [8] ++ be_bytes 8 (cid_val sample_id) ++ [0; 0; 18] in
  let? body := encrypt_local_payload c SpInitial [1] (0xc0 :: mid ++ [7]) 7 in
  let? mask := get_local_hp_mask c SpInitial body in
  match mask with
  | m0 :: m1 :: _ => Ok (N.lxor 0xc0 (N.land m0 0x0f) :: mid ++ [N.lxor 7 m1] ++ gap ++ body)
  | _ => Err (InternalError "mask")
  end.

Example C55_case :
  (let? (c, s) := sample_pair true in
   let? w := gap_datagram c [0; 0; 0] in
   let? w' := gap_datagram c [1; 2; 3] in
   let? w'' := gap_datagram c [] in
   Ok (list_eqb w w', map (fun x => match decode_next_packet true s x with
              | Ok (PInitial q, rest) => Some (pi_pn q, pi_pn_bytes q, pi_payload q, rest)
              | _ => None
              end) [w; w'; w'']))
  = Ok (false, [Some (7, [7], [Ping], []); Some (7, [7], [Ping], []); None]).
Proof. vm_compute. reflexivity. Qed.

(** ** C56: the packets of a datagram partition it. *)

(** [w] holds one packet and nothing else: it is decoded to [p] in front of [s]. *)
Inductive partition (oc : bool) (c : connection) : list N -> list packet -> Prop :=
| pt_nil : partition oc c [] []
| pt_cons : forall w s p ps, w <> [] -> decode_next_packet oc c (w ++ s) = Ok (p, s) ->
    partition oc c s ps -> partition oc c (w ++ s) (p :: ps).

Lemma initial_length P oc srv d l c k s p rest :
  prims_ok P -> reachable P oc srv d l c -> remote_keys P oc c SpInitial k -> bytes_ok s -> len s < 2 ^ 63 ->
  decode_next_packet oc c s = Ok (PInitial p, rest) -> len rest + 29 <= len s.
Proof.
  intros HP R K B LS D.
  destruct (C25_accepted_is_authentic P oc srv d l c k s p rest HP R K B LS D)
    as [b0 [fields [tl [ll [ppn [ct [tag [m0 [mask [more [nonce [pt [-> [L4 [L16 [HF [HT [HL _]]]]]]]]]]]]]]]]]].
  destruct HF as [v [db [sb [[_ [V _]] [_ [_ [_ [_ ->]]]]]]]].
  assert (X : forall x bs, varint_enc x bs -> 1 <= len bs).
  { intros x bs [j [Hj [-> _]]]. assert (2 ^ j <> 0) by (apply N.pow_nonzero; lia). lia. }
  apply X in HT. apply X in HL.
  rewrite len_cons, !len_app, len_cons, len_app, len_cons, V, L4, L16. lia.
Qed.

Theorem C56_packets_partition : forall P oc srv d l c k s ps,
  prims_ok P -> reachable P oc srv d l c -> remote_keys P oc c SpInitial k -> bytes_ok s -> len s < 2 ^ 63 ->
  decode_packets oc c s = Ok ps <-> partition oc c s ps.
Proof.
  intros P oc srv d l c k s ps HP R K B LS. split.
  - unfold decode_packets. generalize (length s) as fuel. intros fuel. revert s ps B LS.
    induction fuel as [|fuel IH]; intros [|x s] ps B LS D; cbn [decode_packets_loop] in D; try discriminate;
      try (injection D as <-; constructor).
    destruct (decode_next_packet oc c (x :: s)) as [[p s1]| | |] eqn:E; cbn [bind] in D; try discriminate D.
    destruct (decode_packets_loop oc c fuel s1) as [ps'| | |] eqn:E1; cbn [bind] in D; try discriminate D.
    injection D as <-.
    destruct (accepted_suffix P oc srv d l c k (x :: s) p s1 HP R K B LS E) as [used [Eu Nu]].
    rewrite Eu in *. apply bytes_ok_app in B as [_ B]. rewrite len_app in LS.
    constructor; auto. apply IH; auto. lia.
  - intros Pt. unfold decode_packets.
    assert (G : forall fuel, (length s <= fuel)%nat -> decode_packets_loop oc c fuel s = Ok ps); [|apply G; lia].
    clear B LS. induction Pt as [|w s p ps NE D Pt IH]; intros fuel Hf.
    + destruct fuel; reflexivity.
    + destruct w as [|x w]; [congruence|]. destruct fuel as [|fuel]; [cbn in Hf; lia|].
      cbn [app decode_packets_loop]. cbn [app] in D. rewrite D. cbn [bind].
      rewrite IH; [reflexivity|]. cbn in Hf. rewrite app_length in Hf. lia.
Qed.
Print Assumptions C56_packets_partition.

(** Each Initial packet takes 29 bytes or more, anything else ends the datagram
    and takes 7: a datagram of [n] bytes yields at most [(n + 22) / 29] packets. *)
Theorem C56_packet_count : forall P oc srv d l c k s ps,
  prims_ok P -> reachable P oc srv d l c -> remote_keys P oc c SpInitial k -> bytes_ok s -> len s < 2 ^ 63 ->
  decode_packets oc c s = Ok ps -> 29 * len ps <= len s + 22.
Proof.
  intros P oc srv d l c k s ps HP R K B LS D.
  apply (C56_packets_partition P oc srv d l c k s ps HP R K B LS) in D.
  assert (G : 29 * len ps <= len s + 22 /\ (s = [] -> ps = [])); [|tauto].
  induction D as [|w s p ps NE D Pt IH].
  - split; [vm_compute; discriminate|auto].
  - split; [|intros E; apply app_eq_nil in E; tauto].
    pose proof B as B'. apply bytes_ok_app in B' as [_ B2].
    assert (LS' : len s < 2 ^ 63) by (rewrite len_app in LS; lia). specialize (IH B2 LS').
    destruct (C28_no_protected_packet_accepted P oc srv d l c (w ++ s) HP R B) as [X _]. specialize (X p s D).
    destruct p as [v|p| | | |]; try contradiction.
    + assert (s = []) as ->.
      { destruct (decode_next_cases oc c _ B) as [[y [e [_ E]]]|[[b [s1 [h [r [Es [Hb [El [E0 E]]]]]]]]|[b [s1 [h [r [_ [_ [_ E]]]]]]]]].
        - congruence.
        - rewrite E in D. destruct (kind b (lh_version h)); inv_bind; try discriminate.
          destruct (vn_total _ B) as [[q Ev]|[e Ev]]; rewrite Ev in *; inv_bind; congruence.
        - rewrite E in D. inv_bind. discriminate. }
      destruct IH as [_ IH]. rewrite (IH eq_refl). rewrite app_nil_r in *.
      destruct (C27_dispatch _ _ _ _ _ B D) as [A _]. cbn [packet_kind] in A.
      inversion A as [|b v' dd sc rest _ Lv _ EE|]; subst.
      * rewrite !len_cons, !len_app, Lv, !len_cons, !len_app, !len_cons, len_nil. lia.
      * exfalso. revert H2. destruct ((b / 16) mod 4) as [|[[]|[]|]]; discriminate.
    + pose proof (initial_length P oc srv d l c k _ p s HP R K B LS D). rewrite len_cons. lia.
Qed.
Print Assumptions C56_packet_count.

Example C56_case :
  (let? (c, s) := sample_pair true in
   let? p := snd (initial_new true sample_payload None c) in
   let? w := initial_serialize true p c in
   let vn := 0x80 :: [0; 0; 0; 0] ++ [0; 0; 0; 0; 0; 1] in
   let? ps := decode_packets true s (w ++ w ++ vn) in
   Ok (map packet_kind ps, len w, len (w ++ w ++ vn))) =
  Ok ([TInitial; TInitial; TVersionNegotiation], 53, 117).
Proof. vm_compute. reflexivity. Qed.

(** For every first byte of an Initial packet with a four byte number, version,
    ids, token, number and payload there is an RFC packet accepted by every
    connection. *)
Lemma accepts P oc srv d l c b v d1 l1 d2 l2 token pn fs pt :
  prims_ok P -> reachable P oc srv d l c -> id_fits d l ->
  b < 256 -> N.land b 0xb3 = 0x83 -> v <> 0 -> v < 2 ^ 32 -> id_fits d1 l1 -> id_fits d2 l2 ->
  bytes_ok token -> len token + 100 < 2 ^ 31 -> pn < 2 ^ 32 ->
  Forall frame_wf fs -> serialize_frames fs false = Ok pt -> len pt + 16 < 2 ^ 31 -> deserialize_frames oc pt = Ok fs ->
  let p := PacketInitial (LongHeader b v l1 d1 l2 d2 None false) token pn (be_bytes 4 pn) fs in
  exists k wire, remote_keys P oc c SpInitial k /\ initial_wire P k p pt wire /\ bytes_ok wire /\
    forall rest, decode_next_packet oc c (wire ++ rest) = Ok (PInitial p, rest).
Proof.
  intros HP R ID Hb Hl Hv Hv' I1 I2 BT LT Hp FW Ept Lpt Df p.
  destruct (connection_new_ok P oc (negb srv) d l HP (proj1 (proj2 ID))) as [c' E'].
  assert (R' : reachable P oc (negb srv) d l c') by (exists c', []; auto).
  destruct (peer_keys P oc (negb srv) d l c' c HP R') as [k [K1 [K2 NA]]]; [rewrite negb_involutive; auto|].
  assert (PF : pn_field pn (be_bytes 4 pn)) by (apply pn_field_4; pows; lia).
  assert (L4 : len (be_bytes 4 pn) = 4) by apply be_bytes_len.
  assert (LB : N.land b 0xb0 = 0x80 /\ N.land b 3 = 3).
  { change 0xb0 with (N.land 0xb3 0xb0). change 3 with (N.land 0xb3 3) at 1. rewrite !N.land_assoc, Hl. split; reflexivity. }
  destruct (conformant_exists P oc (negb srv) d l c' (LongHeader b v l1 d1 l2 d2 None false) pn (be_bytes 4 pn) token fs pt k)
    as [wire W]; auto.
  - apply header_of; auto; [tauto|]. rewrite L4. destruct LB as [_ ->]. reflexivity.
  - pows; lia.
  - lia.
  - exists k, wire. split; [exact K2|]. split; [exact W|].
    split; [eapply initial_wire_bytes_ok; eauto; destruct K2 as [? [_ K2]]; apply K2|].
    intros rest. apply (initial_decodes P oc c k p pt wire rest HP K2 NA W L4); auto.
Qed.

(** ** C57: a packet received twice is processed once. *)
Definition C57_statement : Prop := forall P oc srv d l c s ps,
  prims_ok P -> reachable P oc srv d l c -> bytes_ok s -> decode_packets oc c s = Ok ps ->
  NoDup (flat_map (fun p => match p with PInitial p => [pi_pn p] | _ => [] end) ps).

(** Every RFC packet is accepted as many times as it is contained in a datagram. *)
Theorem C57_replay_accepted : forall P oc srv d l c k p pt wire n,
  prims_ok P -> reachable P oc srv d l c -> remote_keys P oc c SpInitial k ->
  initial_wire P k p pt wire -> len (pi_pn_bytes p) = 4 -> pi_pn p < 2 ^ 32 ->
  deserialize_frames oc pt = Ok (pi_payload p) ->
  decode_packets oc c (concat (repeat wire n)) = Ok (map PInitial (repeat p n)).
Proof.
  intros P oc srv d l c k p pt wire n HP R K W L4 Hp Df.
  eapply C22_conformant_coalesced; eauto. induction n as [|n IH]; cbn [repeat]; constructor; auto. eauto.
Qed.
Print Assumptions C57_replay_accepted.

Theorem C57_duplicates_refuted : ~ C57_statement.
Proof.
  intros H. destruct (sample_reachable true) as [c R].
  assert (ID : id_fits sample_id 8) by (repeat split; vm_compute; (reflexivity || discriminate)).
  destruct (accepts real_prims true true sample_id 8 c 0xc3 1 sample_id 8 sample_id 8 [] 5 [Ping] [1]
    real_prims_ok R ID) as [k [w [K [W [B D]]]]];
    try exact ID; try reflexivity; try discriminate; try (repeat constructor; discriminate).
  pose proof (C57_replay_accepted _ _ _ _ _ _ _ _ _ _ 2 real_prims_ok R K W eq_refl eq_refl eq_refl) as D2.
  assert (B2 : bytes_ok (concat (repeat w 2))).
  { cbn [repeat concat]. rewrite app_nil_r. apply bytes_ok_app; auto. }
  specialize (H _ _ _ _ _ _ _ _ real_prims_ok R B2 D2). cbn in H.
  inversion H as [|x xs NI _]. apply NI. left. reflexivity.
Qed.
Print Assumptions C57_duplicates_refuted.

Example C57_case :
  (let? (c, s) := sample_pair true in
   let? p := snd (initial_new true sample_payload None c) in
   let? w := initial_serialize true p c in
   let? ps := decode_packets true s (concat (repeat w 3)) in
   Ok (map (fun r => match r with PInitial r => pi_pn r | _ => 0 end) ps)) = Ok [2; 2; 2].
Proof. vm_compute. reflexivity. Qed.

(** ** C58: frames not permitted in Initial packets (RFC 9000 section 12.4, table 3). *)
Definition permitted_in_initial (f : frame) : Prop :=
  match f with
  | Padding | Ping | Ack _ | Crypto _ => True
  | ConnectionClose x => cc_is_application_error x = false
  | _ => False
  end.

Definition C58_statement : Prop := forall P oc srv d l c s p rest,
  prims_ok P -> reachable P oc srv d l c -> bytes_ok s ->
  decode_next_packet oc c s = Ok (PInitial p, rest) -> Forall permitted_in_initial (pi_payload p).

(** No frame is refused: any payload the frame decoder reads back is accepted. *)
Theorem C58_every_payload_accepted : forall P oc srv d l c fs pt,
  prims_ok P -> reachable P oc srv d l c -> id_fits d l ->
  Forall frame_wf fs -> Forall (fun f => is_stream f = false /\ crypto_at_zero f) fs ->
  serialize_frames fs false = Ok pt -> len pt + 16 < 2 ^ 31 ->
  exists s p, bytes_ok s /\ decode_next_packet oc c s = Ok (PInitial p, []) /\ pi_payload p = fs.
Proof.
  intros P oc srv d l c fs pt HP R ID FW NS Ept Lpt.
  assert (Df : deserialize_frames oc pt = Ok fs).
  { destruct (serialize_frames_enc fs false FW) as [pt' [E' F']]. assert (pt' = pt) as -> by congruence.
    apply frames_dec; auto. }
  destruct (accepts P oc srv d l c 0xc3 1 d l d l [] 0 fs pt) as [k [w [_ [_ [B D]]]]]; auto;
    try reflexivity; try discriminate; try constructor.
  eexists (w ++ []), _. split; [rewrite app_nil_r; exact B|]. split; [apply D|reflexivity].
Qed.
Print Assumptions C58_every_payload_accepted.

Theorem C58_permitted_refuted : ~ C58_statement.
Proof.
  intros H. destruct (sample_reachable true) as [c R].
  assert (ID : id_fits sample_id 8) by (repeat split; vm_compute; (reflexivity || discriminate)).
  destruct (C58_every_payload_accepted real_prims true true sample_id 8 c [HandshakeDone] [0x1e] real_prims_ok R ID)
    as [s [p [B [D Ep]]]]; try reflexivity; try (repeat constructor).
  specialize (H _ _ _ _ _ _ _ _ _ real_prims_ok R B D). rewrite Ep in H. inversion H as [|x xs X _]. exact X.
Qed.
Print Assumptions C58_permitted_refuted.

Example C58_case :
  (let? (c, s) := sample_pair true in
   let fs := [HandshakeDone; MaxData (FrameMaxData 100); NewToken (FrameNewToken 2 [7; 7])] in
   let? p := snd (initial_new true fs None c) in
   let? w := initial_serialize true p c in
   let? (q, _) := decode_next_packet true s w in
   match q with PInitial q => Ok (pi_payload q) | _ => Ok [] end) =
  Ok [HandshakeDone; MaxData (FrameMaxData 100); NewToken (FrameNewToken 2 [7; 7])].
Proof. vm_compute. reflexivity. Qed.

(** ** C59: the fixed bit is set and the reserved bits are clear. *)
Definition C59_statement : Prop := forall P oc srv d l c s p rest,
  prims_ok P -> reachable P oc srv d l c -> bytes_ok s ->
  decode_next_packet oc c s = Ok (PInitial p, rest) ->
  N.testbit (lh_byte (pi_header p)) 6 = true /\
  N.testbit (lh_byte (pi_header p)) 3 = false /\ N.testbit (lh_byte (pi_header p)) 2 = false.

(** All eight settings of these three bits are accepted. *)
Theorem C59_every_byte_accepted : forall P oc srv d l c b,
  prims_ok P -> reachable P oc srv d l c -> id_fits d l -> b < 256 -> N.land b 0xb3 = 0x83 ->
  exists s p, bytes_ok s /\ decode_next_packet oc c s = Ok (PInitial p, []) /\ lh_byte (pi_header p) = b.
Proof.
  intros P oc srv d l c b HP R ID Hb Hl.
  destruct (accepts P oc srv d l c b 1 d l d l [] 0 [Ping] [1]) as [k [w [_ [_ [B D]]]]]; auto;
    try reflexivity; try discriminate; try (repeat constructor; fail).
  eexists (w ++ []), _. split; [rewrite app_nil_r; exact B|]. split; [apply D|reflexivity].
Qed.
Print Assumptions C59_every_byte_accepted.

Theorem C59_bits_refuted : ~ C59_statement.
Proof.
  intros H. destruct (sample_reachable true) as [c R].
  assert (ID : id_fits sample_id 8) by (repeat split; vm_compute; (reflexivity || discriminate)).
  destruct (C59_every_byte_accepted real_prims true true sample_id 8 c 0x8f real_prims_ok R ID)
    as [s [p [B [D Ep]]]]; try reflexivity.
  specialize (H _ _ _ _ _ _ _ _ _ real_prims_ok R B D). rewrite Ep in H. destruct H as [H _]. discriminate H.
Qed.
Print Assumptions C59_bits_refuted.

Example C59_case :
  (let? (c, s) := sample_pair true in
   let? p := snd (initial_new true [Ping] None c) in
   let send b :=
     let h := pi_header p in
     let? w := initial_serialize true (PacketInitial (LongHeader b (lh_version h) (lh_dcid_len h) (lh_dcid h)
        (lh_scid_len h) (lh_scid h) None false) (pi_token p) (pi_pn p) (pi_pn_bytes p) (pi_payload p)) c in
     let? (q, _) := decode_next_packet true s w in
     match q with PInitial q => Ok (lh_byte (pi_header q)) | _ => Ok 0 end in
   Ok (map send [0x83; 0x87; 0x8b; 0x8f; 0xc3; 0xc7; 0xcb; 0xcf])) =
  Ok (map Ok [0x83; 0x87; 0x8b; 0x8f; 0xc3; 0xc7; 0xcb; 0xcf]).
Proof. vm_compute. reflexivity. Qed.

(** ** C60: a packet without frames is refused. *)
Definition C60_statement : Prop := forall P oc srv d l c s p rest,
  prims_ok P -> reachable P oc srv d l c -> bytes_ok s ->
  decode_next_packet oc c s = Ok (PInitial p, rest) -> pi_payload p <> [].

Theorem C60_empty_accepted : forall P oc srv d l c,
  prims_ok P -> reachable P oc srv d l c -> id_fits d l ->
  exists s p, bytes_ok s /\ decode_next_packet oc c s = Ok (PInitial p, []) /\ pi_payload p = [].
Proof.
  intros P oc srv d l c HP R ID. apply (C58_every_payload_accepted P oc srv d l c [] []); auto; reflexivity.
Qed.
Print Assumptions C60_empty_accepted.

Theorem C60_empty_refuted : ~ C60_statement.
Proof.
  intros H. destruct (sample_reachable true) as [c R].
  assert (ID : id_fits sample_id 8) by (repeat split; vm_compute; (reflexivity || discriminate)).
  destruct (C60_empty_accepted real_prims true true sample_id 8 c real_prims_ok R ID) as [s [p [B [D Ep]]]].
  exact (H _ _ _ _ _ _ _ _ _ real_prims_ok R B D Ep).
Qed.
Print Assumptions C60_empty_refuted.

Example C60_case :
  (let? (c, s) := sample_pair true in
   let? p := snd (initial_new true [] None c) in
   let? w := initial_serialize true p c in
   let? (q, _) := decode_next_packet true s w in
   match q with PInitial q => Ok (pi_payload q, len w) | _ => Ok ([Ping], 0) end) = Ok ([], 45).
Proof. vm_compute. reflexivity. Qed.
