(** Properties C20-C23, C52, C53: packets between peers. *)
From Verif Require Import Base Utils Frame CipherSuite Secrets Connection Packet Histories Spec SpecPacket
  Tactics UtilsFacts ParserFacts FrameFacts SecretsFacts HeaderFacts PacketFacts ConnectionFacts PacketInv
  SendFacts CryptoInst PropFrame PropConn.

(** An id that fits in its [l] bytes. *)
Definition id_fits (d : u160) (l : N) : Prop := cid_ok d /\ l <= 20 /\ cid_val d < 256 ^ l.
Definition scid_fits (c : connection) : Prop :=
  match c_scid c with Some (s, sl) => id_fits s sl | None => True end.
(** Frames that survive their own encoding, see C07-C09 for which do. *)
Definition frames_survive (oc : bool) (fs : list frame) : Prop :=
  Forall frame_wf fs /\
  forall pt, serialize_frames fs false = Ok pt -> len pt < 2 ^ 63 /\ deserialize_frames oc pt = Ok fs.
Definition token_bytes (t : option (list N)) : list N := match t with Some t => t | None => [] end.

Lemma peer_keys P oc srv d l c peer : prims_ok P ->
  reachable P oc srv d l c -> reachable P oc (negb srv) d l peer ->
  exists k, local_keys P oc c SpInitial k /\ remote_keys P oc peer SpInitial k /\ no_remote_ack peer SpInitial.
Proof.
  intros HP R R'. pose proof (reachable_inv _ _ _ _ _ _ HP R) as I. pose proof (reachable_inv _ _ _ _ _ _ HP R') as I'.
  destruct (ci_keys _ _ _ _ _ _ I) as [cid [kl [kr [U [A [B [C D]]]]]]].
  destruct (ci_keys _ _ _ _ _ _ I') as [cid' [kl' [kr' [U' [A' [B' [C' D']]]]]]].
  assert (cid' = cid) as -> by congruence. rewrite negb_involutive in B'.
  rewrite (C32_keys_determined P srv cid kl kr' A B') in C.
  exists kr'. split; [exact C|]. split; [exact D'|]. apply (ci_acks _ _ _ _ _ _ I').
Qed.

Lemma built_initial P oc srv d l c fs t p :
  prims_ok P -> reachable P oc srv d l c -> id_fits d l -> scid_fits c ->
  snd (initial_new oc fs t c) = Ok p ->
  header_ready (pi_header p) (pi_pn_bytes p) 0 /\ pn_field (pi_pn p) (pi_pn_bytes p) /\
  pi_pn p <= 0xffffffff /\ len (pi_pn_bytes p) = 4 /\ pi_payload p = fs /\ pi_token p = token_bytes t /\
  lh_version (pi_header p) = 1 /\ lh_dcid (pi_header p) = d /\ lh_dcid_len (pi_header p) = l /\
  c_scid c = Some (lh_scid (pi_header p), lh_scid_len (pi_header p)).
Proof.
  intros HP R [D1 [D2 D3]] SF E. pose proof (reachable_inv _ _ _ _ _ _ HP R) as I.
  destruct (initial_new oc fs t c) as [c' r] eqn:EN. cbn [snd] in E. subst r.
  destruct (initial_new_inv _ _ _ _ _ _ _ _ _ _ I D2 EN) as [_ [s [sl [Es [Eh [Et [Lp [Eb Ef]]]]]]]].
  unfold scid_fits in SF. rewrite Es in SF. destruct SF as [S1 [S2 S3]]. rewrite (fits_cast sl S2) in Eh.
  rewrite Eh, Eb. cbn [lh_version lh_dcid lh_dcid_len lh_scid lh_scid_len].
  split; [apply built_header_ready; auto; lia|]. split; [apply pn_field_4; auto|].
  rewrite be_bytes_len. repeat (split; auto).
Qed.

(** ** C20 *)
Theorem C20_initial_travels : forall P oc srv d l c1 c2 peer fs t p wire rest,
  prims_ok P ->
  reachable P oc srv d l c1 -> reachable P oc srv d l c2 -> reachable P oc (negb srv) d l peer ->
  id_fits d l -> scid_fits c1 -> bytes_ok (token_bytes t) -> frames_survive oc fs ->
  snd (initial_new oc fs t c1) = Ok p -> initial_serialize oc p c2 = Ok wire ->
  decode_next_packet oc peer (wire ++ rest) = Ok (PInitial p, rest) /\
  pi_payload p = fs /\ pi_token p = token_bytes t /\
  lh_version (pi_header p) = 1 /\ lh_dcid (pi_header p) = d /\ lh_dcid_len (pi_header p) = l /\
  c_scid c1 = Some (lh_scid (pi_header p), lh_scid_len (pi_header p)).
Proof.
  intros P oc srv d l c1 c2 peer fs t p wire rest HP R1 R2 R3 ID SF BT [FW FS] EN ES.
  destruct (built_initial _ _ _ _ _ _ _ _ _ HP R1 ID SF EN) as [HR [PF [Lp [L4 [Ef [Et X]]]]]].
  split; [|auto]. destruct (peer_keys _ _ _ _ _ _ _ HP R2 R3) as [k [K1 [K2 NA]]].
  assert (FS' : forall bs, serialize_frames (pi_payload p) false = Ok bs -> len bs < 2 ^ 63)
    by (intros bs Eb; rewrite Ef in Eb; apply FS; auto).
  assert (FW' : Forall frame_wf (pi_payload p)) by (rewrite Ef; auto).
  assert (BT' : bytes_ok (pi_token p)) by (rewrite Et; auto).
  destruct (initial_ser P oc c2 k p wire HP K1 HR BT' PF ltac:(pows; lia) FW' FS' ES) as [pt [Ept W]].
  apply (initial_decodes P oc peer k p pt wire rest); auto; [pows; lia|].
  rewrite Ef in *. apply FS; auto.
Qed.
Print Assumptions C20_initial_travels.
Example C20_survive_case : frames_survive true [Ping; Crypto (FrameCrypto 0 3 [1; 2; 3]); Padding].
Proof.
  split; [repeat constructor|]. intros pt E. vm_compute in E. injection E as <-. split; reflexivity.
Qed.

(** Serialisation does succeed within the limits of the AEAD library, and
    everything but STREAM and CRYPTO-with-offset frames survives. *)
Theorem C20_initial_delivered : forall P oc srv d l c1 c2 peer fs t p,
  prims_ok P ->
  reachable P oc srv d l c1 -> reachable P oc srv d l c2 -> reachable P oc (negb srv) d l peer ->
  id_fits d l -> scid_fits c1 -> bytes_ok (token_bytes t) ->
  Forall frame_wf fs -> Forall (fun f => is_stream f = false /\ crypto_at_zero f) fs ->
  (forall pt, serialize_frames fs false = Ok pt -> len pt + 16 < 2 ^ 31) ->
  len (token_bytes t) + 100 < 2 ^ 31 ->
  snd (initial_new oc fs t c1) = Ok p ->
  exists wire, initial_serialize oc p c2 = Ok wire /\
    forall rest, decode_next_packet oc peer (wire ++ rest) = Ok (PInitial p, rest).
Proof.
  intros P oc srv d l c1 c2 peer fs t p HP R1 R2 R3 ID SF BT FW PL Sz Ltok EN.
  destruct (built_initial _ _ _ _ _ _ _ _ _ HP R1 ID SF EN) as [HR [PF [Lp [L4 [Ef [Et X]]]]]].
  destruct (peer_keys _ _ _ _ _ _ _ HP R2 R3) as [k [K1 [K2 NA]]].
  destruct (serialize_frames_enc fs false FW) as [pt [Ept Fpt]].
  destruct (initial_ser_ok P oc c2 k p pt HP K1 HR PF ltac:(pows; lia)) as [wire W];
    [rewrite Ef; auto|eapply frames_enc_bytes_ok; eauto|auto|rewrite Et; auto|lia|].
  exists wire. split; [exact W|]. intros rest.
  assert (FS : frames_survive oc fs).
  { split; auto. intros pt' E'. assert (pt' = pt) as -> by congruence. specialize (Sz _ Ept).
    split; [pows; lia|]. apply frames_dec; auto. }
  apply (C20_initial_travels P oc srv d l c1 c2 peer fs t p wire rest); auto.
Qed.
Print Assumptions C20_initial_delivered.

Definition sample_id : u160 := U160 0 9481424049684961032.
Definition sample_pair (oc : bool) : outcome (connection * connection) :=
  let? c := connection_new real_prims oc false V1 sample_id 8 in
  let? s := connection_new real_prims oc true V1 sample_id 8 in
  Ok (run oc c [CSetScid (U160 0 0x0102030405060708) 8; CNextPn SpInitial], s).
Definition sample_payload : list frame := [Ping; Crypto (FrameCrypto 0 3 [1; 2; 3]); Padding].

Example C20_case : id_fits sample_id 8 /\ bytes_ok (token_bytes (Some [9; 9])) /\ Forall frame_wf sample_payload /\
  (let? (c, s) := sample_pair true in
   let? p := snd (initial_new true sample_payload (Some [9; 9]) c) in
   let? wire := initial_serialize true p c in
   let? (q, rest) := decode_next_packet true s (wire ++ [1; 2; 3]) in
   match q with
   | PInitial q => Ok (pi_pn q, pi_token q, pi_payload q, rest)
   | _ => Err (InternalError "other packet")
   end) = Ok (2, [9; 9], sample_payload, [1; 2; 3]).
Proof.
  split; [repeat split; vm_compute; (reflexivity || discriminate)|].
  split; [apply bytes_ok_dec; reflexivity|]. split; [|vm_compute; reflexivity].
  repeat constructor; cbn; unfold v62; try lia; try (vm_compute; (reflexivity || discriminate)).
Qed.

(** ** C21: Handshake packets, for connections whose keys were installed. *)
Theorem C21_handshake_travels : forall P oc c1 c2 peer k d l fs p wire rest,
  prims_ok P ->
  local_keys P oc c2 SpHandshake k -> remote_keys P oc peer SpHandshake k -> no_remote_ack peer SpHandshake ->
  largest_local_ack (borrow_pn_info c1 SpHandshake) = None -> next_pn (borrow_pn_info c1 SpHandshake) < 2 ^ 64 ->
  c_dcid c1 = (d, l) -> id_fits d l -> scid_fits c1 -> frames_survive oc fs ->
  snd (handshake_new oc fs c1) = Ok p -> handshake_serialize oc p c2 = Ok wire ->
  decode_next_packet oc peer (wire ++ rest) = Ok (PHandshake p, rest) /\
  ph_payload p = fs /\ lh_version (ph_header p) = 1 /\
  lh_dcid (ph_header p) = d /\ lh_dcid_len (ph_header p) = l /\
  c_scid c1 = Some (lh_scid (ph_header p), lh_scid_len (ph_header p)).
Proof.
  intros P oc c1 c2 peer k d l fs p wire rest HP K1 K2 NA LA NX DC [D1 [D2 D3]] SF [FW FS] EN ES.
  destruct (handshake_new oc fs c1) as [c' r] eqn:EN'. cbn [snd] in EN. subst r.
  destruct (handshake_new_inv' _ _ _ _ _ _ _ LA NX DC D2 EN') as [s [sl [Es [Eh [Lp [Eb Ef]]]]]].
  unfold scid_fits in SF. rewrite Es in SF. destruct SF as [S1 [S2 S3]]. rewrite (fits_cast sl S2) in Eh.
  assert (HR : header_ready (ph_header p) (ph_pn_bytes p) 2)
    by (rewrite Eh, Eb; apply built_header_ready; auto; lia).
  assert (PF : pn_field (ph_pn p) (ph_pn_bytes p)) by (rewrite Eb; apply pn_field_4; auto).
  split.
  2:{ rewrite Eh. cbn [lh_version lh_dcid lh_dcid_len lh_scid lh_scid_len]. repeat (split; auto). }
  assert (FS' : forall bs, serialize_frames (ph_payload p) false = Ok bs -> len bs < 2 ^ 63)
    by (intros bs E'; rewrite Ef in E'; apply FS; auto).
  assert (FW' : Forall frame_wf (ph_payload p)) by (rewrite Ef; auto).
  destruct (handshake_ser P oc c2 k p wire HP K1 HR PF ltac:(pows; lia) FW' FS' ES) as [pt [Ept W]].
  apply (handshake_decodes P oc peer k p pt wire rest); auto.
  - rewrite Eb, be_bytes_len. reflexivity.
  - pows; lia.
  - rewrite Ef in *. apply FS; auto.
Qed.
Print Assumptions C21_handshake_travels.

(** Keys installed the way Initial keys are. *)
Definition install (c : connection) (loc rem : secrets) : connection :=
  let i := handshake_pn_info c in
  Connection (c_version c) (initial_pn_info c)
    (PnInfo (largest_remote_ack i) (largest_local_ack i) (next_pn i) (Some loc) (Some rem))
    (application_pn_info c) (c_dcid c) (c_scid c).
Example C21_case :
  (let? (c, s) := sample_pair true in
   let? a := from_secret (TLS13_AES_128_GCM_SHA256 real_prims true) (repeat 1 32) in
   let? b := from_secret (TLS13_AES_128_GCM_SHA256 real_prims true) (repeat 2 32) in
   let c := install c a b in let s := install s b a in
   let? p := snd (handshake_new true sample_payload c) in
   let? wire := handshake_serialize true p c in
   let? (q, rest) := decode_next_packet true s (wire ++ [1; 2; 3]) in
   match q with
   | PHandshake q => Ok (ph_pn q, ph_payload q, rest)
   | _ => Err (InternalError "other packet")
   end) = Ok (1, sample_payload, [1; 2; 3]).
Proof. vm_compute. reflexivity. Qed.

(** ** C22: coalesced packets. *)
Lemma Forall2_impl {A B} (R Q : A -> B -> Prop) xs ys :
  (forall x y, R x y -> Q x y) -> Forall2 R xs ys -> Forall2 Q xs ys.
Proof. induction 2; constructor; auto. Qed.

Lemma coalesced oc c ps wires :
  Forall2 (fun p w => w <> [] /\ forall rest, decode_next_packet oc c (w ++ rest) = Ok (PInitial p, rest)) ps wires ->
  decode_packets oc c (concat wires) = Ok (map PInitial ps).
Proof.
  intros F. unfold decode_packets.
  assert (G : forall n, (length (concat wires) <= n)%nat -> decode_packets_loop oc c n (concat wires) = Ok (map PInitial ps)).
  2:{ apply G. lia. }
  induction F as [|p w ps ws [NE D] F IH]; intros n Hn; cbn [concat map] in *; [destruct n; reflexivity|].
  destruct w as [|b w]; [contradiction|]. cbn [app length] in *. destruct n as [|n]; [lia|].
  cbn [decode_packets_loop]. specialize (D (concat ws)). cbn [app] in D. rewrite D. cbn [bind].
  rewrite IH; [reflexivity|]. rewrite app_length in Hn. lia.
Qed.

(** A packet sent at some time by the side [srv] of the connection. *)
Definition sent (P : prims) (oc srv : bool) (d : u160) (l : N) (p : packet_initial) (wire : list N) : Prop :=
  exists c1 c2 fs t, reachable P oc srv d l c1 /\ reachable P oc srv d l c2 /\ scid_fits c1 /\
    bytes_ok (token_bytes t) /\ frames_survive oc fs /\
    snd (initial_new oc fs t c1) = Ok p /\ initial_serialize oc p c2 = Ok wire.

Theorem C22_coalesced : forall P oc srv d l peer ps wires,
  prims_ok P -> id_fits d l -> reachable P oc (negb srv) d l peer ->
  Forall2 (sent P oc srv d l) ps wires ->
  decode_packets oc peer (concat wires) = Ok (map PInitial ps).
Proof.
  intros P oc srv d l peer ps wires HP ID R F. apply coalesced.
  eapply Forall2_impl; [|exact F]. intros p w [c1 [c2 [fs [t [R1 [R2 [SF [BT [FS [EN ES]]]]]]]]]].
  assert (D : forall rest, decode_next_packet oc peer (w ++ rest) = Ok (PInitial p, rest))
    by (intros rest; apply (C20_initial_travels P oc srv d l c1 c2 peer fs t p w rest); auto).
  split; [|exact D]. intros ->. specialize (D []). discriminate.
Qed.
Print Assumptions C22_coalesced.
Example C22_case :
  (let? (c, s) := sample_pair true in
   let x := CInitial sample_payload None in
   let? p := snd (initial_new true sample_payload None c) in
   let? q := snd (initial_new true [Ping] (Some [5]) (do_call true c x)) in
   let? w := initial_serialize true p c in
   let? w' := initial_serialize true q c in
   let? ps := decode_packets true s (w ++ w' ++ w) in
   Ok (map (fun r => match r with PInitial r => (pi_pn r, pi_payload r) | _ => (0, []) end) ps)) =
  Ok [(2, sample_payload); (3, [Ping]); (2, sample_payload)].
Proof. vm_compute. reflexivity. Qed.

(** The same for packets of any sender that follow the RFC. *)
Theorem C22_conformant_coalesced : forall P oc srv d l c k ps wires,
  prims_ok P -> reachable P oc srv d l c -> remote_keys P oc c SpInitial k ->
  Forall2 (fun p w => exists pt, initial_wire P k p pt w /\ len (pi_pn_bytes p) = 4 /\ pi_pn p < 2 ^ 32 /\
                                 deserialize_frames oc pt = Ok (pi_payload p)) ps wires ->
  decode_packets oc c (concat wires) = Ok (map PInitial ps).
Proof.
  intros P oc srv d l c k ps wires HP R K F. apply coalesced.
  pose proof (reachable_inv _ _ _ _ _ _ HP R) as I.
  eapply Forall2_impl; [|exact F]. intros p w [pt [W [L4 [Hp D]]]]. split.
  - destruct (initial_wire_cons _ _ _ _ _ W) as [b [f [m [-> _]]]]. discriminate.
  - intros rest. eapply initial_decodes; eauto. apply (ci_acks _ _ _ _ _ _ I).
Qed.
Print Assumptions C22_conformant_coalesced.

(** ** C23: packet numbers of 1 to 4 bytes. *)
Definition C23_statement : Prop := forall P oc srv d l c k p pt wire rest,
  prims_ok P -> reachable P oc srv d l c -> remote_keys P oc c SpInitial k ->
  initial_wire P k p pt wire -> pi_pn p < 256 ^ len (pi_pn_bytes p) ->
  deserialize_frames oc pt = Ok (pi_payload p) ->
  decode_next_packet oc c (wire ++ rest) = Ok (PInitial p, rest).

(** Four byte packet numbers work.  Missing: one to three byte ones, which the
    decoder refuses, see below. *)
Theorem C23_four_byte_numbers_partial : forall P oc srv d l c k p pt wire rest,
  prims_ok P -> reachable P oc srv d l c -> remote_keys P oc c SpInitial k ->
  initial_wire P k p pt wire -> pi_pn p < 256 ^ len (pi_pn_bytes p) -> len (pi_pn_bytes p) = 4 ->
  deserialize_frames oc pt = Ok (pi_payload p) ->
  decode_next_packet oc c (wire ++ rest) = Ok (PInitial p, rest).
Proof.
  intros P oc srv d l c k p pt wire rest HP R K W Hp L4 Df. pose proof (reachable_inv _ _ _ _ _ _ HP R) as I.
  eapply initial_decodes; eauto; [apply (ci_acks _ _ _ _ _ _ I)|]. rewrite L4 in Hp. exact Hp.
Qed.
Print Assumptions C23_four_byte_numbers_partial.

(** Every conformant packet with a shorter packet number is refused when it is
    the last one of its datagram. *)
Theorem C23_short_number_refused : forall P oc srv d l c k p pt wire,
  prims_ok P -> reachable P oc srv d l c -> remote_keys P oc c SpInitial k ->
  initial_wire P k p pt wire -> len (pi_pn_bytes p) < 4 ->
  decode_next_packet oc c wire = Err (InternalError "not enough bytes for var_bytes").
Proof.
  intros P oc srv d l c k p pt wire HP R K W L4. pose proof (reachable_inv _ _ _ _ _ _ HP R) as I.
  pose proof (proj1 (ci_acks _ _ _ _ _ _ I SpInitial)) as NA.
  destruct (initial_wire_cons _ _ _ _ _ W) as [b [fields0 [more0 [E0 [HF0 [Hb [Ht [Hv VN]]]]]]]].
  rewrite E0, (long_dispatch oc c (pi_header p) fields0 b more0) by auto. rewrite Ht, <- E0.
  clear b fields0 more0 E0 HF0 Hb Ht Hv VN.
  destruct p as [h token pn pnb payload]. unfold initial_wire in W. cbn [pi_header pi_token pi_pn pi_pn_bytes pi_payload] in *.
  destruct W as [fields [tl [ll [Hb [Ht [Hv [VN [Hp [HF [HT [BT [HL [Bpt PR]]]]]]]]]]]]].
  destruct PR as [PF [PL [nonce [ct [tag [m0 [mask [more [Hn [Seal [L20 [Ecb [Lm ->]]]]]]]]]]]]].
  destruct PF as [PF1 [Bpn _]].
  pose proof K as [sec [_ Ks]]. destruct Ks as [_ [_ [_ [_ [K1 [K2 [K3 K4]]]]]]].
  assert (Ln : len nonce = 12) by (destruct Hn as [_ [-> _]]; auto).
  destruct (open_law P HP _ _ _ _ _ _ K1 Ln Bpt Seal) as [Lct [Ltag [Bct [Btag _]]]].
  destruct (type_of_b0 (lh_byte h) 0 Hb ltac:(lia) Ht) as [Hl Tb].
  assert (Lx : len (xor_bytes pnb mask) = len pnb).
  { apply xor_len_le. lia. }
  set (tailb := xor_bytes pnb mask ++ ct ++ tag).
  assert (Lt : len tailb = len pnb + len pt + 16) by (unfold tailb; rewrite !len_app; lia).
  set (ppn := firstn 4 tailb). set (body := skipn 4 tailb).
  assert (Lp : len ppn = 4) by (unfold ppn, len in *; rewrite firstn_length; rewrite !app_length in L20; lia).
  assert (ET : tailb = ppn ++ body) by (symmetry; apply firstn_skipn).
  assert (Lb : len body = len pnb + len pt + 12) by (rewrite ET, len_app in Lt; lia).
  assert (L20' : 20 <= len pnb + len pt + 16) by (rewrite !len_app in L20; lia).
  assert (SK : skipn 4 tailb = skipn 4 (pnb ++ ct ++ tag)).
  { unfold tailb. rewrite !skipn_app. unfold len in Lx, L4.
    rewrite (skipn_all2 (n:=4) (xor_bytes pnb mask)) by lia. rewrite (skipn_all2 (n:=4) pnb) by lia.
    replace (length (xor_bytes pnb mask)) with (length pnb) by lia. reflexivity. }
  assert (MB : bytes_ok (m0 :: mask)).
  { assert (L16 : len (firstn 16 (skipn 4 (pnb ++ ct ++ tag))) = 16).
    { fold tailb in SK. rewrite <- SK. fold body. unfold len in *. rewrite firstn_length. lia. }
    destruct (ecb_law P HP (k_hp k) _ K3 L16) as [out [Eo [_ Bo]]]. rewrite Ecb in Eo. injection Eo as <-.
    apply bytes_ok_cons in Bo as [B0 Bo]. apply bytes_ok_app in Bo as [Bo _]. apply bytes_ok_cons; auto. }
  apply bytes_ok_cons in MB as [B0 Bm].
  assert (BTl : bytes_ok tailb) by (unfold tailb; apply bytes_ok_app; split; [apply xor_bytes_ok; auto|apply bytes_ok_app; auto]).
  set (b0 := N.lxor (lh_byte h) (N.land m0 15)).
  assert (SH : initial_shape (with_byte h b0 true) fields tl token (len pnb + len pt + 16) ll ppn body
                 (b0 :: (fields ++ tl ++ token ++ ll) ++ tailb)).
  { assert (X : b0 < 256) by (apply xor_mask_byte; lia).
    pose proof (low4_div (lh_byte h) m0) as D. fold b0 in D.
    constructor; cbn [with_byte lh_byte lh_version lh_vn]; auto.
    - lia.
    - rewrite D. exact Tb.
    - unfold ppn. apply bytes_ok_firstn; auto.
    - unfold body. apply bytes_ok_skipn; auto.
    - rewrite ET, <- !app_assoc. reflexivity. }
  pose proof (initial_eq P oc c k _ _ _ _ _ _ _ _ _ HP K NA SH) as Q.
  destruct (N.ltb_spec (len body) 16); [lia|].
  destruct Q as [m0' [mask' [more' [Ecb' [Lm' [_ Q]]]]]]. fold tailb. rewrite Q.
  unfold body in Ecb'. rewrite SK, Ecb in Ecb'.
  assert (m0' = m0) as -> by congruence.
  unfold initial_rest. cbv zeta. cbn [with_byte lh_byte]. unfold b0. rewrite xor_low_twice.
  rewrite PL. rewrite sub64_ok by lia. cbn [bind].
  rewrite var_bytes_spec. destruct (N.leb_spec (len pnb + len pt + 16 - len pnb) (len body)); [lia|]. reflexivity.
Qed.
Print Assumptions C23_short_number_refused.

(** Conformant packets of every kind exist (they are what [initial_serialize]
    produces for a packet with such fields). *)
Lemma conformant_exists P oc srv d l c h pn pnb token fs pt k :
  prims_ok P -> reachable P oc srv d l c -> local_keys P oc c SpInitial k -> header_ready h pnb 0 -> bytes_ok token ->
  pn_field pn pnb -> pn < 2 ^ 64 -> Forall frame_wf fs -> serialize_frames fs false = Ok pt ->
  len pt + 16 < 2 ^ 31 -> len token + 100 < 2 ^ 31 -> 4 <= len pnb + len pt ->
  exists wire, initial_wire P k (PacketInitial h token pn pnb fs) pt wire.
Proof.
  intros HP R K HR BT PF Hp FW Ept L1 L2 L4. set (p := PacketInitial h token pn pnb fs).
  assert (Bpt : bytes_ok pt).
  { destruct (serialize_frames_enc fs false FW) as [pt' [E' F']]. assert (pt' = pt) as <- by congruence.
    eapply frames_enc_bytes_ok; eauto. }
  destruct (initial_ser_ok P oc c k p pt HP K HR PF Hp Ept Bpt L1 L2 L4) as [wire W].
  destruct (initial_ser P oc c k p wire HP K HR BT PF Hp FW) as [pt' [E' IW]]; auto.
  - intros bs Eb. assert (bs = pt) as -> by (unfold p in Eb; cbn [pi_payload] in Eb; congruence). pows; lia.
  - assert (pt' = pt) as -> by (unfold p in E'; cbn [pi_payload] in E'; congruence). eauto.
Qed.

Lemma sample_reachable srv : exists c, reachable real_prims true srv sample_id 8 c.
Proof.
  destruct (connection_new_ok real_prims true srv sample_id 8 real_prims_ok ltac:(lia)) as [c E].
  exists c. exists c, []. auto.
Qed.

Lemma header_of b v d l s sl pnb : b < 256 -> N.land b 0xb0 = 0x80 -> N.land b 0x03 + 1 = len pnb ->
  v <> 0 -> v < 2 ^ 32 -> id_fits d l -> id_fits s sl ->
  header_ready (LongHeader b v l d sl s None false) pnb 0.
Proof.
  intros Hb Ht HL Hv Hv' [D1 [D2 D3]] [S1 [S2 S3]].
  destruct (cid_enc_exists d l) as [db Hd]; auto. destruct (cid_enc_exists s sl) as [sb Hs]; auto.
  split.
  - exists (be_bytes 4 v ++ l :: db ++ sl :: sb), (be_bytes 4 v), db, sb. cbn.
    split; [apply (fixed_enc_be 4); exact Hv'|]. auto.
  - cbn. auto 10.
Qed.

Theorem C23_refuted : ~ C23_statement.
Proof.
  intros H. destruct (sample_reachable false) as [c R]. destruct (sample_reachable true) as [s R'].
  destruct (peer_keys real_prims true false sample_id 8 c s real_prims_ok R R') as [k [K1 [K2 NA]]].
  assert (ID : id_fits sample_id 8) by (repeat split; vm_compute; (reflexivity || discriminate)).
  destruct (conformant_exists real_prims true false sample_id 8 c
    (LongHeader 0xc0 1 8 sample_id 8 sample_id None false) 7 [7] [] [Ping; Ping; Ping] [1; 1; 1] k) as [wire W];
    auto using real_prims_ok; try reflexivity; try (repeat constructor; discriminate).
  - apply header_of; auto; (reflexivity || discriminate).
  - set (p := PacketInitial (LongHeader 0xc0 1 8 sample_id 8 sample_id None false) [] 7 [7] [Ping; Ping; Ping]) in *.
    specialize (H real_prims true true sample_id 8 s k p [1; 1; 1] wire [] real_prims_ok R' K2 W eq_refl eq_refl).
    rewrite app_nil_r, (C23_short_number_refused real_prims true true sample_id 8 s k p [1; 1; 1] wire) in H;
      auto using real_prims_ok; [discriminate H|reflexivity].
Qed.
Print Assumptions C23_refuted.
Example C23_case :
  let h b := LongHeader b 1 8 sample_id 8 sample_id None false in
  let p4 := PacketInitial (h 0xc3) [] 7 [0; 0; 0; 7] [Ping; Ping; Ping] in
  let p1 := PacketInitial (h 0xc0) [] 7 [7] [Ping; Ping; Ping] in
  exists s k w4 w1, reachable real_prims true true sample_id 8 s /\ remote_keys real_prims true s SpInitial k /\
    initial_wire real_prims k p4 [1; 1; 1] w4 /\ initial_wire real_prims k p1 [1; 1; 1] w1 /\
    deserialize_frames true [1; 1; 1] = Ok [Ping; Ping; Ping] /\
    decode_next_packet true s (w4 ++ [5]) = Ok (PInitial p4, [5]) /\
    decode_next_packet true s w1 = Err (InternalError "not enough bytes for var_bytes").
Proof.
  intros h p4 p1. destruct (sample_reachable false) as [c R]. destruct (sample_reachable true) as [s R'].
  destruct (peer_keys real_prims true false sample_id 8 c s real_prims_ok R R') as [k [K1 [K2 NA]]].
  assert (ID : id_fits sample_id 8) by (repeat split; vm_compute; (reflexivity || discriminate)).
  destruct (conformant_exists real_prims true false sample_id 8 c (h 0xc3) 7 [0; 0; 0; 7] [] [Ping; Ping; Ping] [1; 1; 1] k)
    as [w4 W4]; auto using real_prims_ok; try reflexivity; try (repeat constructor; discriminate).
  { apply header_of; auto; (reflexivity || discriminate). }
  destruct (conformant_exists real_prims true false sample_id 8 c (h 0xc0) 7 [7] [] [Ping; Ping; Ping] [1; 1; 1] k)
    as [w1 W1]; auto using real_prims_ok; try reflexivity; try (repeat constructor; discriminate).
  { apply header_of; auto; (reflexivity || discriminate). }
  exists s, k, w4, w1. split; [exact R'|]. split; [exact K2|]. split; [exact W4|]. split; [exact W1|].
  split; [reflexivity|]. split.
  - apply (C23_four_byte_numbers_partial real_prims true true sample_id 8 s k p4 [1; 1; 1] w4 [5]);
      auto using real_prims_ok; reflexivity.
  - apply (C23_short_number_refused real_prims true true sample_id 8 s k p1 [1; 1; 1] w1);
      auto using real_prims_ok; reflexivity.
Qed.

(** ** C52: the version field is not looked at. *)
Definition C52_statement : Prop := forall P oc srv d l c s p rest,
  prims_ok P -> reachable P oc srv d l c -> bytes_ok s ->
  decode_next_packet oc c s = Ok (PInitial p, rest) -> lh_version (pi_header p) = 1.

(** For every connection and every non-zero version there is a packet of that
    version that is accepted. *)
Theorem C52_every_version_accepted : forall P oc srv d l c v,
  prims_ok P -> reachable P oc srv d l c -> id_fits d l -> v <> 0 -> v < 2 ^ 32 ->
  exists s p, bytes_ok s /\ decode_next_packet oc c s = Ok (PInitial p, []) /\ lh_version (pi_header p) = v.
Proof.
  intros P oc srv d l c v HP R ID NZ Hv.
  destruct (connection_new_ok P oc (negb srv) d l HP (proj1 (proj2 ID))) as [c' E'].
  assert (R' : reachable P oc (negb srv) d l c') by (exists c', []; auto).
  destruct (peer_keys P oc (negb srv) d l c' c HP R') as [k [K1 [K2 NA]]]; [rewrite negb_involutive; auto|].
  destruct (conformant_exists P oc (negb srv) d l c'
    (LongHeader 0xc3 v l d l d None false) 1 (be_bytes 4 1) [] [Ping] [1] k) as [wire W]; auto; try reflexivity; try (repeat constructor; discriminate).
  - apply header_of; auto; reflexivity.
  - set (p := PacketInitial (LongHeader 0xc3 v l d l d None false) [] 1 (be_bytes 4 1) [Ping]) in *.
    pose proof (initial_decodes P oc c k p [1] wire [] HP K2 NA W eq_refl ltac:(reflexivity) eq_refl) as D.
    exists (wire ++ []), p. split; [|split; [exact D|reflexivity]]. rewrite app_nil_r.
    eapply initial_wire_bytes_ok; eauto. destruct K2 as [? [_ K2]]. apply K2.
Qed.
Print Assumptions C52_every_version_accepted.

Theorem C52_version_refuted : ~ C52_statement.
Proof.
  intros H. destruct (sample_reachable true) as [c R].
  assert (ID : id_fits sample_id 8) by (repeat split; vm_compute; (reflexivity || discriminate)).
  destruct (C52_every_version_accepted real_prims true true sample_id 8 c 0x6b3343cf real_prims_ok R ID)
    as [s [p [B [D V]]]]; [discriminate|reflexivity|].
  specialize (H _ _ _ _ _ _ _ _ _ real_prims_ok R B D). congruence.
Qed.
Print Assumptions C52_version_refuted.
(** A client that speaks version 2 (0x6b3343cf) in the header. *)
Example C52_case :
  (let? (c, s) := sample_pair true in
   let? p := snd (initial_new true [Ping] None c) in
   let h := pi_header p in
   let p2 := PacketInitial (LongHeader (lh_byte h) 0x6b3343cf (lh_dcid_len h) (lh_dcid h) (lh_scid_len h)
               (lh_scid h) None false) (pi_token p) (pi_pn p) (pi_pn_bytes p) (pi_payload p) in
   let? wire := initial_serialize true p2 c in
   let? (q, rest) := decode_next_packet true s wire in
   match q with
   | PInitial q => Ok (lh_version (pi_header q), pi_payload q)
   | _ => Err (InternalError "other packet")
   end) = Ok (0x6b3343cf, [Ping]).
Proof. vm_compute. reflexivity. Qed.
(** ** C53: the destination id of coalesced packets is not looked at. *)
Definition C53_statement : Prop := forall P oc srv d l c s p q,
  prims_ok P -> reachable P oc srv d l c -> bytes_ok s ->
  decode_packets oc c s = Ok [PInitial p; PInitial q] ->
  lh_dcid (pi_header q) = lh_dcid (pi_header p) /\ lh_dcid_len (pi_header q) = lh_dcid_len (pi_header p).

(** For any two ids there is a datagram whose two packets carry them and are both
    accepted, by any connection. *)
Theorem C53_any_ids_accepted : forall P oc srv d l c d1 l1 d2 l2,
  prims_ok P -> reachable P oc srv d l c -> id_fits d l -> id_fits d1 l1 -> id_fits d2 l2 ->
  exists s p q, bytes_ok s /\ decode_packets oc c s = Ok [PInitial p; PInitial q] /\
    lh_dcid (pi_header p) = d1 /\ lh_dcid_len (pi_header p) = l1 /\
    lh_dcid (pi_header q) = d2 /\ lh_dcid_len (pi_header q) = l2.
Proof.
  intros P oc srv d l c d1 l1 d2 l2 HP R ID ID1 ID2.
  destruct (connection_new_ok P oc (negb srv) d l HP (proj1 (proj2 ID))) as [c' E'].
  assert (R' : reachable P oc (negb srv) d l c') by (exists c', []; auto).
  destruct (peer_keys P oc (negb srv) d l c' c HP R') as [k [K1 [K2 NA]]]; [rewrite negb_involutive; auto|].
  assert (X : forall d0 l0, id_fits d0 l0 -> exists wire,
    initial_wire P k (PacketInitial (LongHeader 0xc3 1 l0 d0 l0 d0 None false) [] 1 (be_bytes 4 1) [Ping]) [1] wire).
  { intros d0 l0 I0. eapply conformant_exists; eauto; try reflexivity; try (repeat constructor; discriminate).
    apply header_of; auto; (reflexivity || discriminate). }
  destruct (X d1 l1 ID1) as [w1 W1]. destruct (X d2 l2 ID2) as [w2 W2].
  eexists (concat [w1; w2]), _, _. split; [|split].
  - destruct K2 as [? [_ [_ [_ [_ [_ K]]]]]].
    cbn [concat]. rewrite app_nil_r. apply bytes_ok_app. split; eapply initial_wire_bytes_ok; eauto.
  - match goal with |- _ = Ok [PInitial ?a; PInitial ?b] => change [PInitial a; PInitial b] with (map PInitial [a; b]) end.
    eapply C22_conformant_coalesced; eauto. constructor; [|constructor; [|constructor]].
    + exists [1]. split; [exact W1|]. repeat split; reflexivity.
    + exists [1]. split; [exact W2|]. repeat split; reflexivity.
  - repeat split; reflexivity.
Qed.
Print Assumptions C53_any_ids_accepted.

Theorem C53_other_ids_refuted : ~ C53_statement.
Proof.
  intros H. destruct (sample_reachable true) as [c R].
  assert (ID : id_fits sample_id 8) by (repeat split; vm_compute; (reflexivity || discriminate)).
  assert (ID' : id_fits (U160 0 5) 1) by (repeat split; vm_compute; (reflexivity || discriminate)).
  destruct (C53_any_ids_accepted real_prims true true sample_id 8 c sample_id 8 (U160 0 5) 1 real_prims_ok R ID ID ID')
    as [s [p [q [B [D [V1 [V2 [V3 V4]]]]]]]].
  destruct (H _ _ _ _ _ _ _ _ _ real_prims_ok R B D) as [_ X]. congruence.
Qed.
Print Assumptions C53_other_ids_refuted.
Example C53_case : id_fits sample_id 8 /\ id_fits (U160 0 5) 1 /\
  (let? (c, s) := sample_pair true in
   let? p := snd (initial_new true [Ping] None c) in
   let h := pi_header p in
   let q := PacketInitial (LongHeader (lh_byte h) 1 1 (U160 0 5) (lh_scid_len h) (lh_scid h) None false)
              (pi_token p) (pi_pn p) (pi_pn_bytes p) (pi_payload p) in
   let? w := initial_serialize true p c in
   let? w' := initial_serialize true q c in
   let? ps := decode_packets true s (w ++ w') in
   Ok (map (fun r => match r with PInitial r => (lh_dcid (pi_header r), lh_dcid_len (pi_header r)) | _ => (u160_zero, 0) end) ps)) =
  Ok [(sample_id, 8); (U160 0 5, 1)].
Proof.
  split; [repeat split; vm_compute; (reflexivity || discriminate)|].
  split; [repeat split; vm_compute; (reflexivity || discriminate)|]. vm_compute. reflexivity.
Qed.
