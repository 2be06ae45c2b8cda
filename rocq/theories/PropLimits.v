(** Properties C115-C118: limits of RFC 9000 and RFC 9001 on what may be sent
    and on what must be refused. *)
From Verif Require Import Base Utils Frame Constructors CipherSuite Secrets Connection Packet Histories Spec SpecPacket
  Tactics UtilsFacts ParserFacts FrameFacts SecretsFacts HeaderFacts PacketFacts ConnectionFacts PacketInv
  DecodeFacts SendFacts ProtectedInv CryptoInst Aes128 PropFrame PropHeader PropConn PropPacket PropDecode
  PropBuilt PropSend PropProtected PropFrameSound PropWire.

(** ** C115: no data at or beyond offset 2^62 (RFC 9000 sections 19.6 and 19.8). *)
Definition data_end (f : frame) : N :=
  match f with
  | Crypto x => cr_offset x + Frame.cr_length x
  | Stream x => st_offset x + st_length x
  | _ => 0
  end.

Lemma taken_end f k body rest : taken_for f k body rest -> data_end f <= len body.
Proof.
  destruct f; cbn [data_end taken_for]; try (intros _; lia).
  - intros [_ [L [a [b [_ [_ ->]]]]]]. rewrite !len_app. lia.
  - intros [_ [_ [O [L [_ [a [_ ->]]]]]]]. rewrite len_app. lia.
Qed.

(** In what is received data ends within the number of bytes received. *)
Theorem C115_received : forall oc s fs, bytes_ok s -> deserialize_frames oc s = Ok fs ->
  Forall (fun f => data_end f <= len s) fs.
Proof.
  intros oc s fs B E. apply (C68_payload_exact oc s fs B) in E. clear B oc.
  induction E as [|t tb body f fs s V T A IH]; constructor.
  - apply taken_end in T. rewrite !len_app. lia.
  - eapply Forall_impl; [|exact IH]. cbn beta. intros g. rewrite !len_app. lia.
Qed.
Print Assumptions C115_received.

Lemma written_all fs : forall pt, serialize_frames fs false = Ok pt ->
  Forall (fun f => exists bs, frame_to_bytes f false = Ok bs) fs.
Proof.
  unfold serialize_frames. generalize 0 as idx. generalize (len fs) as n.
  induction fs as [|f fs IH]; intros n idx pt E; constructor.
  - cbn [serialize_frames_loop andb] in E. apply bind_ok in E as [b [E _]]. eauto.
  - cbn [serialize_frames_loop] in E. apply bind_ok in E as [b [_ E]]. apply bind_ok in E as [bs [E _]]. eauto.
Qed.

(** What the constructors build and a packet carries ends below 2^62 as well. *)
Theorem C115_sent : forall fs pt, Forall built fs -> serialize_frames fs false = Ok pt ->
  Forall (fun f => data_end f < 2 ^ 62) fs.
Proof.
  intros fs pt B E. apply written_all in E. apply Forall_forall. intros f Hf.
  rewrite Forall_forall in B, E. specialize (B f Hf). destruct (E f Hf) as [bs W].
  destruct (C88_refused f false B) as [[V _]|[_ X]]; [|congruence].
  destruct B; cbn [data_end]; try (pows; lia); cbn [numbers] in V;
    inversion V as [|? ? _ V']; inversion V' as [|? ? V'' _]; exact V''.
Qed.
Print Assumptions C115_sent.

Example C115_case :
  (* offset 2, length 1; then STREAM frames: with a length, with offset 2^62 - 1 *)
  deserialize_frames true [0x06; 2; 1; 7; 8; 9; 0x0a; 4; 1; 7] =
    Ok [Crypto (FrameCrypto 2 1 [7; 8; 9]); Stream (FrameStream 4 0 2 [1; 7] false)] /\
  map data_end [Crypto (FrameCrypto 2 1 [7; 8; 9]); Stream (FrameStream 4 0 2 [1; 7] false)] = [3; 2] /\
  (let fs := [Crypto (crypto_new [1; 2; 3]); Stream (stream_new 4 [7] true)] in
   Forall built fs /\ map data_end fs = [3; 1] /\
   serialize_frames fs false = Ok [0x06; 0; 3; 1; 2; 3; 0x0b; 4; 1; 7]).
Proof.
  split; [vm_compute; reflexivity|]. split; [reflexivity|]. split; [|split; vm_compute; reflexivity].
  repeat constructor; discriminate || reflexivity.
Qed.

(** ** C116: at most 2^23 packets are protected with one key (RFC 9001 section
    6.6, for AES-128-GCM). *)
(** The Initial packets sent in a history of calls. *)
Fixpoint sent (oc : bool) (c : connection) (xs : list call) : list (list N) :=
  match xs with
  | [] => []
  | x :: xs =>
      match x with
      | CInitial fs t => match send_initial oc fs t c with Ok w => [w] | _ => [] end
      | _ => []
      end ++ sent oc (do_call oc c x) xs
  end.

Definition C116_statement : Prop := forall P oc srv d l c0 xs,
  prims_ok P -> connection_new P oc srv V1 d l = Ok c0 -> len (sent oc c0 xs) <= 2 ^ 23.

Lemma sent_snoc oc x : forall xs c, sent oc c (xs ++ [x]) = sent oc c xs ++ sent oc (run oc c xs) [x].
Proof.
  induction xs as [|y xs IH]; intros c; [reflexivity|]. cbn [app]. cbn [sent run]. rewrite IH, app_assoc. reflexivity.
Qed.

Lemma sent_issued oc : forall xs c, len (sent oc c xs) <= len (issued_in oc c SpInitial xs).
Proof.
  unfold issued_in. induction xs as [|x xs IH]; intros c; [vm_compute; discriminate|].
  cbn [sent issued]. rewrite filter_app, map_app, !len_app. specialize (IH (do_call oc c x)).
  enough (len match x with CInitial fs t => match send_initial oc fs t c with Ok w => [w] | _ => [] end | _ => [] end
          <= len (map snd (filter (fun x => same_space (fst x) SpInitial) (issued_by oc c x)))) by lia.
  destruct x as [id n|sp|fs t|fs]; cbn [issued_by]; try apply N.le_0_l.
  unfold send_initial. destruct (initial_new oc fs t c) as [c' r]. cbn [snd].
  destruct r as [p| | |]; cbn [bind]; try apply N.le_0_l.
  destruct (initial_serialize oc p c'); vm_compute; discriminate.
Qed.

Lemma increasing_bound M : forall xs a, increasing a xs -> Forall (fun n => n <= M) xs -> xs <> [] -> len xs <= M - a.
Proof.
  induction xs as [|x xs IH]; intros a A F NE; [congruence|].
  inversion A as [|? ? ? L A' [E1 E2]]; subst. inversion F as [|? ? Lx F']; subst. rewrite len_cons.
  destruct xs as [|y xs]; [change (len []) with 0; lia|]. specialize (IH x A' F' ltac:(discriminate)). lia.
Qed.

(** The limit is the number of packet numbers: 2^32 - 1. *)
Theorem C116_limit_partial : forall P oc srv d l c0 xs,
  prims_ok P -> connection_new P oc srv V1 d l = Ok c0 -> oc = true \/ len xs < 2 ^ 64 ->
  len (sent oc c0 xs) <= 2 ^ 32 - 1.
Proof.
  intros P oc srv d l c0 xs HP E O. pose proof (sent_issued oc xs c0) as S.
  destruct (C29_issued_increasing P oc srv d l c0 xs SpInitial HP E O) as [A [_ F]].
  destruct (issued_in oc c0 SpInitial xs) as [|y ys] eqn:EY; [change (len []) with 0 in S; pows; lia|].
  pose proof (increasing_bound _ _ _ A F ltac:(discriminate)). pows. lia.
Qed.
Print Assumptions C116_limit_partial.

Lemma count_initials fs t k : count SpInitial (repeat (CInitial fs t) k) = N.of_nat k.
Proof. induction k as [|k IH]; cbn [repeat count touches]; [reflexivity|]. rewrite IH. lia. Qed.

(** Every number of packets up to that is sent, on one key. *)
Theorem C116_all_sent : forall P oc srv d l c0 id n fs t k,
  prims_ok P -> connection_new P oc srv V1 d l = Ok c0 -> id_fits d l -> id_fits id n ->
  Forall at_hand fs -> Forall writable fs -> bytes_ok (token_bytes t) -> len (token_bytes t) + 100 < 2 ^ 31 ->
  (forall pt, serialize_frames fs false = Ok pt -> len pt + 16 < 2 ^ 31) ->
  N.of_nat k <= 2 ^ 32 - 1 ->
  len (sent oc c0 (CSetScid id n :: repeat (CInitial fs t) k)) = N.of_nat k.
Proof.
  intros P oc srv d l c0 id n fs t k HP E0 ID IN FH FW BT LT Sz. induction k as [|k IH]; intros Hk; [reflexivity|].
  change (S k) with (1 + k)%nat. rewrite Nat.add_comm, repeat_app. cbn [repeat].
  change (CSetScid id n :: repeat (CInitial fs t) k ++ [CInitial fs t])
    with ((CSetScid id n :: repeat (CInitial fs t) k) ++ [CInitial fs t]).
  rewrite sent_snoc, len_app, IH by lia. cbn [sent]. rewrite app_nil_r.
  set (xs := CSetScid id n :: repeat (CInitial fs t) k).
  assert (CX : count SpInitial xs = N.of_nat k) by (unfold xs; cbn [count touches]; rewrite count_initials; lia).
  assert (LX : len xs = N.of_nat k + 1) by (unfold xs, len; cbn [length]; rewrite repeat_length; lia).
  destruct (C107_initial_sent P oc srv d l c0 xs fs t HP E0) as [[_ [w ->]]|[NP _]]; auto.
  - rewrite LX. pows. lia.
  - intros id' n' [X|X]; [injection X as <- <-; auto|]. apply repeat_spec in X. discriminate X.
  - change (len [w]) with 1. lia.
  - exfalso. apply NP. split; [exists id, n; left; reflexivity|]. split; [rewrite CX; lia|auto].
Qed.
Print Assumptions C116_all_sent.

Theorem C116_refuted : ~ C116_statement.
Proof.
  intros H. assert (ID : id_fits sample_id 8) by (repeat split; vm_compute; (reflexivity || discriminate)).
  destruct (connection_new_ok real_prims true false sample_id 8 real_prims_ok (proj1 (proj2 ID))) as [c0 E].
  pose proof (C116_all_sent real_prims true false sample_id 8 c0 sample_id 8 [Ping] None (N.to_nat (2 ^ 23 + 1))
    real_prims_ok E ID ID) as A. rewrite N2Nat.id in A.
  specialize (H real_prims true false sample_id 8 c0
    (CSetScid sample_id 8 :: repeat (CInitial [Ping] None) (N.to_nat (2 ^ 23 + 1))) real_prims_ok E).
  rewrite A in H.
  - revert H. generalize (2 ^ 23). lia.
  - constructor; [left; constructor|constructor].
  - constructor; [constructor|constructor].
  - constructor.
  - reflexivity.
  - intros pt X. injection X as <-. reflexivity.
  - discriminate.
Qed.
Print Assumptions C116_refuted.

Example C116_case :
  (let? c := connection_new real_prims true false V1 sample_id 8 in
   let w := sent true c [CInitial [Ping] None; CSetScid sample_id 8; CInitial [Ping] None; CNextPn SpInitial;
                         CInitial [Ping] (Some [1]); CHandshake [Ping]; CInitial [MaxData (max_data_new (2 ^ 62))] None] in
   Ok (map (fun w => len w) w)) = Ok [46; 47].
Proof. vm_compute. reflexivity. Qed.

(** ** C117: frames not permitted in Handshake and 0-RTT packets (RFC 9000
    section 12.4, table 3). *)
Definition permitted_in_handshake (f : frame) : Prop :=
  match f with
  | Padding | Ping | Ack _ | Crypto _ => True
  | ConnectionClose x => cc_is_application_error x = false
  | _ => False
  end.
Definition permitted_in_zero_rtt (f : frame) : Prop :=
  match f with
  | Ack _ | Crypto _ | NewToken _ | PathResponse _ | HandshakeDone => False
  | _ => True
  end.

Definition C117_statement : Prop := forall P oc c kh ka s,
  prims_ok P -> remote_keys P oc c SpHandshake kh -> remote_keys P oc c SpApplication ka -> bytes_ok s ->
  (forall p rest, decode_next_packet oc c s = Ok (PHandshake p, rest) -> Forall permitted_in_handshake (ph_payload p)) /\
  (forall p rest, decode_next_packet oc c s = Ok (PZeroRtt p, rest) -> Forall permitted_in_zero_rtt (pz_payload p)).

Lemma protected_bytes_ok P k bits first mid pnb pn pt wire : prims_ok P -> keys_ok k -> bits < 256 -> first < 256 ->
  bytes_ok mid -> bytes_ok pt -> protected P k bits first mid pnb pn pt wire -> bytes_ok wire.
Proof.
  intros HP [K1 [K2 [K3 K4]]] Hbits Hf Bm Bpt PR.
  destruct PR as [PF [PL [nonce [ct [tag [m0 [mask [more [Hn [Seal [L20 [Ecb [Lm ->]]]]]]]]]]]]].
  destruct PF as [PF1 [Bpn _]].
  assert (Ln : len nonce = 12) by (destruct Hn as [_ [-> _]]; auto).
  destruct (open_law P HP _ _ _ _ _ _ K1 Ln Bpt Seal) as [Lct [Ltag [Bct [Btag _]]]].
  assert (L16 : len (firstn 16 (skipn 4 (pnb ++ ct ++ tag))) = 16).
  { unfold len in *. rewrite firstn_length, skipn_length. lia. }
  destruct (ecb_law P HP (k_hp k) _ K3 L16) as [out [Eo [_ Bo]]]. rewrite Ecb in Eo. injection Eo as <-.
  apply bytes_ok_cons in Bo as [B0 Bo]. apply bytes_ok_app in Bo as [Bo _].
  apply bytes_ok_cons. split; [apply xor_mask_byte; auto; lia|].
  apply bytes_ok_app. split; [exact Bm|].
  apply bytes_ok_app. split; [apply xor_bytes_ok; auto|apply bytes_ok_app; auto].
Qed.

(** The parts common to both packets. *)
Lemma wire_parts P k first v d1 l1 d2 l2 pn pt : prims_ok P -> keys_ok k -> id_fits d1 l1 -> id_fits d2 l2 ->
  first < 256 -> N.land first 3 = 3 -> v < 2 ^ 32 -> pn < 2 ^ 32 -> bytes_ok pt -> len pt + 16 < 2 ^ 31 ->
  exists fields ll wire, long_fields (LongHeader first v l1 d1 l2 d2 None false) fields /\
    varint_enc (4 + len pt + 16) ll /\
    protected P k 0x0f first (fields ++ ll) (be_bytes 4 pn) pn pt wire /\ bytes_ok wire.
Proof.
  intros HP KO [D1 [D2 D3]] [S1 [S2 S3]] Hf H3 Hv Hp Bpt Lpt.
  destruct (cid_enc_exists d1 l1) as [db Hd]; auto. destruct (cid_enc_exists d2 l2) as [sb Hs]; auto.
  set (fields := be_bytes 4 v ++ l1 :: db ++ l2 :: sb).
  assert (HF : long_fields (LongHeader first v l1 d1 l2 d2 None false) fields).
  { exists (be_bytes 4 v), db, sb. cbn. split; [apply (fixed_enc_be 4); exact Hv|]. auto. }
  destruct (encode_var_int_ok (4 + len pt + 16)) as [ll [_ [VL _]]]; [unfold v62; pows; lia|].
  pose proof (long_fields_len _ _ HF) as LF. pose proof (varint_enc_len _ _ VL) as LL.
  destruct (protected_exists P k 0x0f first (fields ++ ll) (be_bytes 4 pn) pn pt HP KO) as [wire W]; auto.
  - apply pn_field_4. pows. lia.
  - pows. lia.
  - rewrite H3, be_bytes_len. reflexivity.
  - rewrite len_app. pows. lia.
  - rewrite be_bytes_len. lia.
  - exists fields, ll, wire. split; [exact HF|]. split; [exact VL|]. split; [exact W|].
    eapply (protected_bytes_ok P k 0x0f first (fields ++ ll)); [exact HP|exact KO|reflexivity|exact Hf| |exact Bpt|exact W].
    apply bytes_ok_app. split; [eapply long_fields_bytes_ok; eauto|eapply varint_enc_bytes_ok; eauto].
Qed.

(** No frame is refused in either packet: any payload the frame decoder reads
    is accepted, whatever the version, the ids and the number. *)
Theorem C117_every_handshake_payload : forall P oc c k v d1 l1 d2 l2 pn pt fs,
  prims_ok P -> remote_keys P oc c SpHandshake k -> no_remote_ack c SpHandshake ->
  v <> 0 -> v < 2 ^ 32 -> id_fits d1 l1 -> id_fits d2 l2 -> pn < 2 ^ 32 ->
  bytes_ok pt -> len pt + 16 < 2 ^ 31 -> deserialize_frames oc pt = Ok fs ->
  exists s, bytes_ok s /\ forall rest, decode_next_packet oc c (s ++ rest) =
    Ok (PHandshake (PacketHandshake (LongHeader 0xe3 v l1 d1 l2 d2 None false) (be_bytes 4 pn) pn fs), rest).
Proof.
  intros P oc c k v d1 l1 d2 l2 pn pt fs HP K NA Hv Hv' I1 I2 Hp Bpt Lpt Df.
  assert (KO : keys_ok k) by (destruct K as [? [_ K]]; apply K).
  destruct (wire_parts P k 0xe3 v d1 l1 d2 l2 pn pt) as [fields [ll [w [HF [VL [W B]]]]]]; auto; try reflexivity.
  exists w. split; [exact B|]. intros rest. eapply C61_handshake_partial; eauto.
  - exists fields, ll. cbn [ph_header ph_pn ph_pn_bytes lh_byte lh_version lh_vn lh_protected].
    rewrite be_bytes_len. repeat (split; auto); reflexivity.
Qed.
Print Assumptions C117_every_handshake_payload.

Theorem C117_every_zero_rtt_payload : forall P oc c k v d1 l1 d2 l2 pn pt fs,
  prims_ok P -> remote_keys P oc c SpApplication k -> no_remote_ack c SpApplication ->
  v <> 0 -> v < 2 ^ 32 -> id_fits d1 l1 -> id_fits d2 l2 -> pn < 2 ^ 32 ->
  bytes_ok pt -> len pt + 16 < 2 ^ 31 -> deserialize_frames oc pt = Ok fs ->
  exists s, bytes_ok s /\ forall rest, decode_next_packet oc c (s ++ rest) =
    Ok (PZeroRtt (PacketZeroRtt (LongHeader 0xd3 v l1 d1 l2 d2 None false) (4 + len pt + 16) (be_bytes 4 pn) pn fs), rest).
Proof.
  intros P oc c k v d1 l1 d2 l2 pn pt fs HP K NA Hv Hv' I1 I2 Hp Bpt Lpt Df.
  assert (KO : keys_ok k) by (destruct K as [? [_ K]]; apply K).
  destruct (wire_parts P k 0xd3 v d1 l1 d2 l2 pn pt) as [fields [ll [w [HF [VL [W B]]]]]]; auto; try reflexivity.
  exists w. split; [exact B|]. intros rest. eapply C61_zero_rtt_partial; eauto.
  - exists fields, ll. cbn [pz_header pz_length pz_pn pz_pn_bytes lh_byte lh_version lh_vn lh_protected].
    rewrite be_bytes_len. repeat (split; auto); reflexivity.
Qed.
Print Assumptions C117_every_zero_rtt_payload.

Theorem C117_permitted_refuted : ~ C117_statement.
Proof.
  intros H. destruct all_keys as [c [k [K [K' [NA [NA' _]]]]]].
  assert (ID : id_fits sample_id 8) by (repeat split; vm_compute; (reflexivity || discriminate)).
  destruct (C117_every_handshake_payload real_prims true (with_all_keys c) k 1 sample_id 8 sample_id 8 7 [0x1e] [HandshakeDone])
    as [s [B D]]; auto using real_prims_ok; try reflexivity; try discriminate; try (repeat constructor).
  destruct (H _ _ _ _ _ s real_prims_ok K K' B) as [X _]. specialize (D []). rewrite app_nil_r in D.
  apply X in D. inversion D as [|x xs Y _]. exact Y.
Qed.
Print Assumptions C117_permitted_refuted.

Example C117_case :
  (let? (c, s) := three_keys in
   let fs := [HandshakeDone; MaxData (FrameMaxData 100); NewToken (FrameNewToken 2 [7; 7])] in
   let? p := snd (handshake_new true fs c) in
   let? w := handshake_serialize true p c in
   let? (q, _) := decode_next_packet true s w in
   match q with PHandshake q => Ok (ph_payload q) | _ => Ok [] end) =
  Ok [HandshakeDone; MaxData (FrameMaxData 100); NewToken (FrameNewToken 2 [7; 7])] /\
  ~ permitted_in_handshake HandshakeDone /\ permitted_in_handshake (Crypto (crypto_new [1])) /\
  ~ permitted_in_zero_rtt (Crypto (crypto_new [1])) /\ permitted_in_zero_rtt (MaxData (FrameMaxData 100)).
Proof. split; [vm_compute; reflexivity|]. cbn. tauto. Qed.

(** ** C118: a server's Initial packets have no token, and a client refuses
    those that do (RFC 9000 section 17.2.2). *)
Definition C118_statement : Prop :=
  (forall P oc d l c s p rest, prims_ok P -> reachable P oc false d l c -> bytes_ok s ->
     decode_next_packet oc c s = Ok (PInitial p, rest) -> pi_token p = []) /\
  (forall P oc d l c fs t wire, prims_ok P -> reachable P oc true d l c ->
     send_initial oc fs t c = Ok wire -> token_bytes t = []).

(** A client accepts every token ... *)
Theorem C118_client_accepts : forall P oc d l c token,
  prims_ok P -> reachable P oc false d l c -> id_fits d l -> bytes_ok token -> len token + 100 < 2 ^ 31 ->
  exists s p, bytes_ok s /\ decode_next_packet oc c s = Ok (PInitial p, []) /\ pi_token p = token.
Proof.
  intros P oc d l c token HP R ID BT LT.
  destruct (accepts P oc false d l c 0xc3 1 d l d l token 0 [Ping] [1]) as [k [w [_ [_ [B D]]]]]; auto;
    try reflexivity; try discriminate; try (repeat constructor).
  eexists (w ++ []), _. split; [rewrite app_nil_r; exact B|]. split; [apply D|reflexivity].
Qed.
Print Assumptions C118_client_accepts.

(** ... and a server sends every token it is given. *)
Theorem C118_server_sends : forall P oc d l c0 xs fs token id n,
  prims_ok P -> connection_new P oc true V1 d l = Ok c0 -> len xs < 2 ^ 64 - 1 ->
  id_fits d l -> (forall id n, In (CSetScid id n) xs -> id_fits id n) -> In (CSetScid id n) xs ->
  count SpInitial xs < 2 ^ 32 - 1 -> Forall at_hand fs -> Forall writable fs ->
  bytes_ok token -> len token + 100 < 2 ^ 31 -> (forall pt, serialize_frames fs false = Ok pt -> len pt + 16 < 2 ^ 31) ->
  exists wire, send_initial oc fs (Some token) (run oc c0 xs) = Ok wire.
Proof.
  intros P oc d l c0 xs fs token id n HP E0 LX ID SI HI CX FH FW BT LT Sz.
  destruct (C107_initial_sent P oc true d l c0 xs fs (Some token) HP E0) as [[_ W]|[NP _]]; auto.
  exfalso. apply NP. eauto.
Qed.
Print Assumptions C118_server_sends.

Theorem C118_refuted : ~ C118_statement.
Proof.
  intros [H _]. destruct (sample_reachable false) as [c R].
  assert (ID : id_fits sample_id 8) by (repeat split; vm_compute; (reflexivity || discriminate)).
  destruct (C118_client_accepts real_prims true sample_id 8 c [7] real_prims_ok R ID) as [s [p [B [D T]]]];
    [repeat constructor|reflexivity|].
  rewrite (H _ _ _ _ _ _ _ _ real_prims_ok R B D) in T. discriminate T.
Qed.
Print Assumptions C118_refuted.

(** From a server to a client, with a token. *)
Example C118_case :
  (let? (c, s) := sample_pair true in
   let? w := send_initial true [Ping] (Some [7; 7; 7]) (set_scid s sample_id 8) in
   let? (q, rest) := decode_next_packet true c w in
   match q with PInitial q => Ok (pi_token q, pi_payload q, rest) | _ => Ok ([], [], []) end) = Ok ([7; 7; 7], [Ping], []).
Proof. vm_compute. reflexivity. Qed.

(** ** C119: a client sends to the id the server chose (RFC 9000 section 7.2). *)
(** The bytes of an Initial packet of version 1 addressed to the id [d] of [l] bytes. *)
Definition addressed (d : u160) (l : N) (wire : list N) : Prop :=
  exists b db more, cid_enc d l db /\ wire = b :: [0; 0; 0; 1] ++ l :: db ++ more.

Definition C119_statement : Prop := forall P oc d l c s p rest xs fs t wire,
  prims_ok P -> reachable P oc false d l c -> id_fits d l -> bytes_ok s ->
  decode_next_packet oc c s = Ok (PInitial p, rest) ->
  send_initial oc fs t (run oc c xs) = Ok wire ->
  addressed (lh_scid (pi_header p)) (lh_scid_len (pi_header p)) wire.

Lemma run_app oc ys : forall xs c, run oc c (xs ++ ys) = run oc (run oc c xs) ys.
Proof. induction xs as [|x xs IH]; intros c; cbn; auto. Qed.

(** Whatever has happened, packets go to the id the connection was created
    with. *)
Theorem C119_always_the_first : forall P oc srv d l c fs t wire,
  prims_ok P -> reachable P oc srv d l c -> id_fits d l -> scid_fits c -> bytes_ok (token_bytes t) ->
  Forall frame_wf fs -> (forall pt, frames_enc fs pt -> len pt < 2 ^ 63) ->
  send_initial oc fs t c = Ok wire -> addressed d l wire.
Proof.
  intros P oc srv d l c fs t wire HP R ID SF BT FW Sz E. unfold send_initial in E.
  destruct (initial_new oc fs t c) as [c' r] eqn:EN. apply bind_ok in E as [p [-> E]].
  assert (R' : reachable P oc srv d l c').
  { destruct R as [c0 [xs [E0 ->]]]. exists c0, (xs ++ [CInitial fs t]). split; [exact E0|].
    rewrite run_app. cbn [run do_call]. rewrite EN. reflexivity. }
  destruct (C54_initial_conformant P oc srv d l c c' fs t p wire) as [k [pt [_ [_ [W [_ [_ [V [D [L _]]]]]]]]]]; auto.
  { rewrite EN. reflexivity. }
  destruct W as [fields [tl [ll [_ [_ [_ [_ [_ [HF [_ [_ [_ [_ PR]]]]]]]]]]]]].
  destruct PR as [_ [_ [nonce [ct [tag [m0 [mask [more [_ [_ [_ [_ [_ ->]]]]]]]]]]]]].
  destruct HF as [v [db [sb [Hv [_ [Hd [_ [_ ->]]]]]]]]. rewrite V in Hv. rewrite D, L in *.
  assert (v = [0; 0; 0; 1]) as ->.
  { destruct Hv as [Bv [Lv Vv]]. apply be_val_inj; auto; [repeat constructor|].
    change 4 with (len [0; 0; 0; 1]) in Lv. unfold len in Lv. lia. }
  eexists _, db, _. split; [exact Hd|]. rewrite <- !app_assoc. cbn [app]. rewrite <- !app_assoc. reflexivity.
Qed.
Print Assumptions C119_always_the_first.

Theorem C119_refuted : ~ C119_statement.
Proof.
  intros H. assert (ID : id_fits sample_id 8) by (repeat split; vm_compute; (reflexivity || discriminate)).
  assert (ID' : id_fits (U160 0 7) 4) by (repeat split; vm_compute; (reflexivity || discriminate)).
  destruct (connection_new_ok real_prims true false sample_id 8 real_prims_ok (proj1 (proj2 ID))) as [c E].
  assert (R : reachable real_prims true false sample_id 8 c) by (exists c, []; auto).
  assert (X : exists w p, bytes_ok w /\ decode_next_packet true c w = Ok (PInitial p, []) /\ lh_scid_len (pi_header p) = 4).
  { clear E. destruct (accepts real_prims true false sample_id 8 c 0xc3 1 sample_id 8 (U160 0 7) 4 [] 0 [Ping] [1])
      as [k [w [_ [_ [B D]]]]]; auto using real_prims_ok; try reflexivity; try discriminate; try (repeat constructor).
    specialize (D []). rewrite app_nil_r in D. eauto. }
  destruct X as [w [p [B [D L4]]]].
  destruct (C107_initial_sent real_prims true false sample_id 8 c [CSetScid sample_id 8] [Ping] None real_prims_ok E)
    as [[_ [wire W]]|[NP _]]; auto; try reflexivity.
  - intros id n [X|[]]. injection X as <- <-. exact ID.
  - constructor; [left; constructor|constructor].
  - constructor.
  - intros pt X. injection X as <-. reflexivity.
  - pose proof (H _ _ _ _ _ _ _ _ _ _ _ _ real_prims_ok R ID B D W) as [b [db [more [_ A]]]].
    destruct (C119_always_the_first real_prims true false sample_id 8 (run true c [CSetScid sample_id 8]) [Ping] None wire)
      as [b' [db' [more' [_ A']]]]; auto using real_prims_ok; try (repeat constructor).
    + exists c, [CSetScid sample_id 8]. auto.
    + intros pt F. inversion F as [|f bs Fe E1 E2|]; subst. inversion Fe; subst. reflexivity.
    + rewrite A in A'. rewrite L4 in A'. discriminate A'.
  - exfalso. apply NP. split; [exists sample_id, 8; left; reflexivity|]. split; [reflexivity|]. repeat constructor.
Qed.
Print Assumptions C119_refuted.

(** A server with an id of 4 bytes answers; the client's next packet has the
    8 byte id of its first. *)
Example C119_case :
  (let? (c, s) := sample_pair true in
   let? w := send_initial true [Ping] None (set_scid s (U160 0 7) 4) in
   let? (q, _) := decode_next_packet true c w in
   let? w' := send_initial true [Ping] None c in
   match q with PInitial q => Ok (lh_scid_len (pi_header q), nth 5 w' 0) | _ => Ok (0, 0) end) = Ok (4, 8).
Proof. vm_compute. reflexivity. Qed.
