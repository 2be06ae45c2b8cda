(** C52, C53, C58, C59, C60, C117, C118 (reading) and C121 can be met together, and
    together with C08, C09, C23, C24, C25, C61-C63 and C65-C67: the packet decoder of
    PropRepairsPn.v with the frame decoder of PropRepairsFrames.v, the rules of RFC
    9000 sections 12.4 and 17.2 behind it, and a datagram cut into its packets before
    they are read.  None of these functions is the code; what the code does:
    PropPacket.v, PropWire.v, PropLimits.v, PropMixed.v. *)
From Verif Require Import Base Utils Frame CipherSuite Secrets Connection Packet Histories Spec SpecPacket
  Tactics UtilsFacts ParserFacts FrameFacts SecretsFacts HeaderFacts PacketFacts ConnectionFacts PacketInv DecodeFacts SendFacts
  ProtectedInv CryptoInst BuildFacts PropFrame PropFrameSound PropPacket PropConn PropProtected PropDecode PropWire PropLimits PropMixed
  PropRepairs PropRepairsPn PropRepairsTotal PropRepairsExact PropRepairsFrames.

(** The rules, and their check.  [srv]: the reader is the server. *)
Definition long_bits (b : N) : Prop := N.testbit b 6 = true /\ N.testbit b 3 = false /\ N.testbit b 2 = false.
Definition short_bits (b : N) : Prop := N.testbit b 6 = true /\ N.testbit b 4 = false /\ N.testbit b 3 = false.
Definition rules (srv : bool) (p : packet) : Prop :=
  match p with
  | PInitial p => lh_version (pi_header p) = 1 /\ long_bits (lh_byte (pi_header p)) /\ pi_payload p <> [] /\
                  Forall permitted_in_initial (pi_payload p) /\ (srv = false -> pi_token p = [])
  | PHandshake p => lh_version (ph_header p) = 1 /\ long_bits (lh_byte (ph_header p)) /\ ph_payload p <> [] /\
                    Forall permitted_in_handshake (ph_payload p)
  | PZeroRtt p => lh_version (pz_header p) = 1 /\ long_bits (lh_byte (pz_header p)) /\ pz_payload p <> [] /\
                  Forall permitted_in_zero_rtt (pz_payload p)
  | POneRtt p => short_bits (sh_byte (po_header p)) /\ po_payload p <> []
  | _ => True
  end.
Definition nonempty {A} (l : list A) : bool := match l with [] => false | _ => true end.
Definition handshake_frame (f : frame) : bool :=
  match f with
  | Padding | Ping | Ack _ | Crypto _ => true
  | ConnectionClose x => negb (cc_is_application_error x)
  | _ => false
  end.
Definition zero_rtt_frame (f : frame) : bool :=
  match f with
  | Ack _ | Crypto _ | NewToken _ | PathResponse _ | HandshakeDone => false
  | _ => true
  end.
Definition long_allowed (h : long_header) (fs : list frame) (ok : frame -> bool) : bool :=
  (lh_version h =? 1) && (N.testbit (lh_byte h) 6 && negb (N.testbit (lh_byte h) 3) && negb (N.testbit (lh_byte h) 2)) &&
  nonempty fs && forallb ok fs.
Definition packet_allowed (srv : bool) (p : packet) : bool :=
  match p with
  | PInitial p => long_allowed (pi_header p) (pi_payload p) handshake_frame && (srv || negb (nonempty (pi_token p)))
  | PHandshake p => long_allowed (ph_header p) (ph_payload p) handshake_frame
  | PZeroRtt p => long_allowed (pz_header p) (pz_payload p) zero_rtt_frame
  | POneRtt p => (N.testbit (sh_byte (po_header p)) 6 && negb (N.testbit (sh_byte (po_header p)) 4) &&
                  negb (N.testbit (sh_byte (po_header p)) 3)) && nonempty (po_payload p)
  | _ => true
  end.
Definition decode_checked (srv oc : bool) (c : connection) : parser packet := fun s =>
  let? (p, s) := decode_repaired frames_checked oc c s in
  if packet_allowed srv p then Ok (p, s) else Err (InternalError "protocol violation").

Lemma nonempty_iff {A} (l : list A) : nonempty l = true <-> l <> [].
Proof. destruct l; cbn; split; congruence. Qed.
Lemma allowed_rules srv p : packet_allowed srv p = true <-> rules srv p.
Proof.
  assert (H : forall fs, forallb handshake_frame fs = true <-> Forall permitted_in_initial fs).
  { intros fs. rewrite forallb_forall, Forall_forall. split; intros H f I; specialize (H f I); destruct f; cbn in *;
      try reflexivity; try discriminate H; try exact I0; try contradiction; auto; destruct (cc_is_application_error _); cbn in *; congruence. }
  assert (Z : forall fs, forallb zero_rtt_frame fs = true <-> Forall permitted_in_zero_rtt fs).
  { intros fs. rewrite forallb_forall, Forall_forall. split; intros Z f I; specialize (Z f I); destruct f; cbn in *;
      try reflexivity; try discriminate Z; try contradiction; auto. }
  assert (L : forall h fs ok (Q : frame -> Prop), (forallb ok fs = true <-> Forall Q fs) ->
    long_allowed h fs ok = true <-> lh_version h = 1 /\ long_bits (lh_byte h) /\ fs <> [] /\ Forall Q fs).
  { intros h fs ok Q E. unfold long_allowed, long_bits. rewrite !andb_true_iff, !negb_true_iff, N.eqb_eq, nonempty_iff, E. tauto. }
  destruct p; cbn [packet_allowed rules]; try tauto.
  - rewrite andb_true_iff, (L _ _ _ _ (H _)). destruct srv; cbn [orb].
    + intuition discriminate.
    + rewrite negb_true_iff. destruct (pi_token p); cbn; intuition (try congruence).
  - apply (L _ _ _ _ (Z _)).
  - apply (L _ _ _ _ (H _)).
  - unfold short_bits. rewrite !andb_true_iff, !negb_true_iff, nonempty_iff. tauto.
Qed.
Lemma checked_iff srv oc c s p rest : decode_checked srv oc c s = Ok (p, rest) <->
  decode_repaired frames_checked oc c s = Ok (p, rest) /\ rules srv p.
Proof.
  unfold decode_checked. split.
  - intros H. apply bind_ok in H as [[q r] [E H]]. cbn beta iota in H.
    destruct (packet_allowed srv q) eqn:A; [|discriminate H]. injection H as -> ->. split; [exact E|apply allowed_rules, A].
  - intros [E A]. rewrite E. cbn [bind]. apply allowed_rules in A. rewrite A. reflexivity.
Qed.

(** ** Accepted are exactly the packets that conform to the RFCs in every respect:
    layout and protection, field values of the frames, and the rules above. *)
Theorem initial_checked : forall srv P oc c k s p rest,
  prims_ok P -> remote_keys P oc c SpInitial k -> no_remote_ack c SpInitial -> bytes_ok s ->
  decode_checked srv oc c s = Ok (PInitial p, rest) <->
  exists wire pt, s = wire ++ rest /\ initial_wire P k p pt wire /\ pi_pn p < 256 ^ len (pi_pn_bytes p) /\
    payload_enc (pi_payload p) pt /\ Forall rfc_valid (pi_payload p) /\ rules srv (PInitial p).
Proof.
  intros srv P oc c k s p rest HP K NA B. rewrite checked_iff, (C25_repaired frames_checked P oc c k) by auto. split.
  - intros [[wire [pt [-> [W [Hp F]]]]] R]. exists wire, pt.
    apply payload_checked in F as [F V]; [auto 10|]. destruct W as [? [? [? W]]]. apply W.
  - intros [wire [pt [-> [W [Hp [F [V R]]]]]]]. split; [|exact R]. exists wire, pt. split; [reflexivity|]. split; [exact W|].
    split; [exact Hp|]. apply payload_checked; [|auto]. destruct W as [? [? [? W]]]. apply W.
Qed.
Print Assumptions initial_checked.
Theorem protected_checked :
  (forall srv P oc c k s p rest,
     prims_ok P -> remote_keys P oc c SpHandshake k -> no_remote_ack c SpHandshake -> bytes_ok s ->
     decode_checked srv oc c s = Ok (PHandshake p, rest) <->
     exists wire pt, s = wire ++ rest /\ handshake_wire P k p pt wire /\ ph_pn p < 256 ^ len (ph_pn_bytes p) /\
       payload_enc (ph_payload p) pt /\ Forall rfc_valid (ph_payload p) /\ rules srv (PHandshake p)) /\
  (forall srv P oc c k s p rest,
     prims_ok P -> remote_keys P oc c SpApplication k -> no_remote_ack c SpApplication -> bytes_ok s ->
     decode_checked srv oc c s = Ok (PZeroRtt p, rest) <->
     exists wire pt, s = wire ++ rest /\ zero_rtt_wire P k p pt wire /\ pz_pn p < 256 ^ len (pz_pn_bytes p) /\
       payload_enc (pz_payload p) pt /\ Forall rfc_valid (pz_payload p) /\ rules srv (PZeroRtt p)) /\
  (forall srv P oc c k s p rest,
     prims_ok P -> remote_keys P oc c SpApplication k -> no_remote_ack c SpApplication -> bytes_ok s ->
     decode_checked srv oc c s = Ok (POneRtt p, rest) <->
     rest = [] /\ exists pt, one_rtt_wire P k p pt s /\ po_pn p < 256 ^ len (po_pn_bytes p) /\
       payload_enc (po_payload p) pt /\ Forall rfc_valid (po_payload p) /\ rules srv (POneRtt p)).
Proof.
  destruct C63_repaired as [H1 [H2 H3]]. split; [|split]; intros srv P oc c k s p rest HP K NA B; rewrite checked_iff.
  - rewrite (H1 frames_checked P oc c k) by auto. split.
    + intros [[wire [pt [-> [W [Hp F]]]]] R]. exists wire, pt.
      apply payload_checked in F as [F V]; [auto 10|]. destruct W as [? [? W]]. apply W.
    + intros [wire [pt [-> [W [Hp [F [V R]]]]]]]. split; [|exact R]. exists wire, pt. split; [reflexivity|]. split; [exact W|].
      split; [exact Hp|]. apply payload_checked; [|auto]. destruct W as [? [? W]]. apply W.
  - rewrite (H2 frames_checked P oc c k) by auto. split.
    + intros [[wire [pt [-> [W [Hp F]]]]] R]. exists wire, pt.
      apply payload_checked in F as [F V]; [auto 10|]. destruct W as [? [? W]]. apply W.
    + intros [wire [pt [-> [W [Hp [F [V R]]]]]]]. split; [|exact R]. exists wire, pt. split; [reflexivity|]. split; [exact W|].
      split; [exact Hp|]. apply payload_checked; [|auto]. destruct W as [? [? W]]. apply W.
  - rewrite (H3 frames_checked P oc c k) by auto. split.
    + intros [[-> [pt [W [Hp F]]]] R]. split; [reflexivity|]. exists pt.
      apply payload_checked in F as [F V]; [auto 10|]. destruct W as [? W]. apply W.
    + intros [-> [pt [W [Hp [F [V R]]]]]]. split; [|exact R]. split; [reflexivity|]. exists pt. split; [exact W|].
      split; [exact Hp|]. apply payload_checked; [|auto]. destruct W as [? W]. apply W.
Qed.
Print Assumptions protected_checked.

(** ** The refuted statements, for this decoder *)
Theorem C52_repaired : forall srv oc c s p rest,
  decode_checked srv oc c s = Ok (PInitial p, rest) -> lh_version (pi_header p) = 1.
Proof. intros. apply checked_iff in H as [_ R]. apply R. Qed.
Print Assumptions C52_repaired.
Theorem C58_repaired : forall srv oc c s p rest,
  decode_checked srv oc c s = Ok (PInitial p, rest) -> Forall permitted_in_initial (pi_payload p).
Proof. intros. apply checked_iff in H as [_ R]. apply R. Qed.
Print Assumptions C58_repaired.
Theorem C59_repaired : forall srv oc c s p rest,
  decode_checked srv oc c s = Ok (PInitial p, rest) ->
  N.testbit (lh_byte (pi_header p)) 6 = true /\
  N.testbit (lh_byte (pi_header p)) 3 = false /\ N.testbit (lh_byte (pi_header p)) 2 = false.
Proof. intros. apply checked_iff in H as [_ R]. apply R. Qed.
Print Assumptions C59_repaired.
Theorem C60_repaired : forall srv oc c s p rest,
  decode_checked srv oc c s = Ok (PInitial p, rest) -> pi_payload p <> [].
Proof. intros. apply checked_iff in H as [_ R]. apply R. Qed.
Print Assumptions C60_repaired.
Theorem C117_repaired : forall srv oc c s,
  (forall p rest, decode_checked srv oc c s = Ok (PHandshake p, rest) -> Forall permitted_in_handshake (ph_payload p)) /\
  (forall p rest, decode_checked srv oc c s = Ok (PZeroRtt p, rest) -> Forall permitted_in_zero_rtt (pz_payload p)).
Proof. intros. split; intros p rest H; apply checked_iff in H as [_ R]; apply R. Qed.
Print Assumptions C117_repaired.
Theorem C118_repaired_reading : forall oc c s p rest,
  decode_checked false oc c s = Ok (PInitial p, rest) -> pi_token p = [].
Proof. intros. apply checked_iff in H as [_ R]. apply R. reflexivity. Qed.
Print Assumptions C118_repaired_reading.

(** ** Datagrams.  RFC 9000 section 12.2: the Length field says where a packet ends,
    so that a datagram is cut first and each packet is read by itself; packets to
    another id than the first are dropped. *)
Definition cut_packet (oc : bool) : parser (list N) := fun s =>
  let? (b, s1) := next "empty datagram" s in
  if b <? 128 then Ok (s, [])
  else
    let? (h, s2) := long_from_stream b s1 in
    let? t := long_packet_type h in
    let? s3 :=
      match t with
      | TInitial =>
          let? ((n, _), s) := var_int_with_bytes_from_stream oc s2 in
          let? (_, s) := var_bytes_from_stream n s in
          let? ((n, _), s) := var_int_with_bytes_from_stream oc s in
          let? (_, s) := var_bytes_from_stream n s in
          Ok s
      | TZeroRtt | THandshake =>
          let? ((n, _), s) := var_int_with_bytes_from_stream oc s2 in
          let? (_, s) := var_bytes_from_stream n s in
          Ok s
      | _ => Ok []
      end in
    Ok (firstn (length s - length s3) s, s3).
Fixpoint cut_loop (oc : bool) (fuel : nat) (s : stream) : outcome (list (list N)) :=
  match s with
  | [] => Ok []
  | _ =>
      match fuel with
      | O => Diverge
      | S f =>
          match cut_packet oc s with
          | Ok (w, r) => let? ws := cut_loop oc f r in Ok (w :: ws)
          | Err _ => Ok []
          | Panic m => Panic m
          | Diverge => Diverge
          end
      end
  end.
Definition cut_all (oc : bool) (s : stream) : outcome (list (list N)) := cut_loop oc (length s) s.
Definition read_one (srv oc : bool) (c : connection) (w : list N) : outcome (list packet) :=
  match decode_checked srv oc c w with
  | Ok (p, _) => Ok [p]
  | Err _ => Ok []
  | Panic m => Panic m
  | Diverge => Diverge
  end.
Fixpoint read_all (srv oc : bool) (c : connection) (ws : list (list N)) : outcome (list packet) :=
  match ws with
  | [] => Ok []
  | w :: ws => let? a := read_one srv oc c w in let? b := read_all srv oc c ws in Ok (a ++ b)
  end.
Definition header_id (h : packet_header) : u160 * N :=
  match h with HLong h => (lh_dcid h, lh_dcid_len h) | HShort h => (sh_dcid h, 8) end.
(** (Version Negotiation packets, whose ids can have any length, are never sent with
    other packets; of their ids only the length is compared.) *)
Definition packet_id (p : packet) : u160 * N :=
  match p with
  | PVersionNegotiation p => (lh_dcid (vn_header p), lh_dcid_len (vn_header p))
  | PInitial p => (lh_dcid (pi_header p), lh_dcid_len (pi_header p))
  | PZeroRtt p => (lh_dcid (pz_header p), lh_dcid_len (pz_header p))
  | PHandshake p => (lh_dcid (ph_header p), lh_dcid_len (ph_header p))
  | PRetry p => (pr_dcid p, pr_dcid_len p)
  | POneRtt p => (sh_dcid (po_header p), 8)
  end.
Definition same_id (x y : u160 * N) : bool :=
  (idx0 (fst x) =? idx0 (fst y)) && (idx1 (fst x) =? idx1 (fst y)) && (snd x =? snd y).
Definition decode_each (srv oc : bool) (c : connection) (s : stream) : outcome (list packet) :=
  match next_header_from_stream s with
  | Ok (h, _) =>
      let? ws := cut_all oc s in
      let? ps := read_all srv oc c ws in
      Ok (filter (fun p => same_id (packet_id p) (header_id h)) ps)
  | _ => Ok []
  end.

Lemma same_id_iff x y : same_id x y = true <-> x = y.
Proof.
  destruct x as [[a b] l], y as [[a' b'] l']. unfold same_id. cbn [fst snd idx0 idx1].
  rewrite !andb_true_iff, !N.eqb_eq. split; [intros [[-> ->] ->]; reflexivity|intros E; injection E as -> -> ->; auto].
Qed.

(** A packet whose end its Length field gives (RFC 9000 sections 17.2.2 to 17.2.4),
    whatever its contents, with the version and the ids of [h]. *)
Inductive bounded (h : long_header) : list N -> Prop :=
| bo_initial b fields tl token ll body : 128 <= b < 256 -> (b / 16) mod 4 = 0 ->
    long_fields h fields -> lh_version h <> 0 -> lh_vn h = None ->
    varint_enc (len token) tl -> varint_enc (len body) ll ->
    bounded h (b :: fields ++ tl ++ token ++ ll ++ body)
| bo_other b fields ll body : 128 <= b < 256 -> (b / 16) mod 4 = 1 \/ (b / 16) mod 4 = 2 ->
    long_fields h fields -> lh_version h <> 0 -> lh_vn h = None ->
    varint_enc (len body) ll ->
    bounded h (b :: fields ++ ll ++ body).

Lemma cut_prefix {A} (w r : list A) : firstn (length (w ++ r) - length r) (w ++ r) = w.
Proof. rewrite app_length. replace (length w + length r - length r)%nat with (length w) by lia. apply firstn_app_exact. reflexivity. Qed.
Lemma cut_bounded oc h w r : bounded h w -> cut_packet oc (w ++ r) = Ok (w, r).
Proof.
  intros H. unfold cut_packet. destruct H as [b fields tl token ll body Hb Ht HF Hv VN VT VL|b fields ll body Hb Ht HF Hv VN VL].
  - set (W := b :: fields ++ tl ++ token ++ ll ++ body). pose proof (cut_prefix W r) as E. unfold W in *. clear W.
    cbn [app next bind] in *. destruct (N.ltb_spec b 128); [lia|].
    rewrite <- !app_assoc in *. rewrite (long_dec h fields) by auto. cbn [bind]. rewrite packet_type_cases. cbn [with_byte lh_version lh_byte].
    destruct (N.eqb_spec (lh_version h) 0); [contradiction|]. rewrite Ht. cbn [bind].
    rewrite (varint_dec oc _ _ _ VT). cbn [bind]. rewrite var_bytes_app by reflexivity. cbn [bind].
    rewrite (varint_dec oc _ _ _ VL). cbn [bind]. rewrite var_bytes_app by reflexivity. cbn [bind]. rewrite E. reflexivity.
  - set (W := b :: fields ++ ll ++ body). pose proof (cut_prefix W r) as E. unfold W in *. clear W.
    cbn [app next bind] in *. destruct (N.ltb_spec b 128); [lia|].
    rewrite <- !app_assoc in *. rewrite (long_dec h fields) by auto. cbn [bind]. rewrite packet_type_cases. cbn [with_byte lh_version lh_byte].
    destruct (N.eqb_spec (lh_version h) 0); [contradiction|].
    destruct Ht as [Ht|Ht]; rewrite Ht; cbn [bind]; rewrite (varint_dec oc _ _ _ VL); cbn [bind];
      rewrite var_bytes_app by reflexivity; cbn [bind]; rewrite E; reflexivity.
Qed.
Lemma bounded_nonempty h w : bounded h w -> w <> [].
Proof. intros []; discriminate. Qed.
Lemma cut_all_bounded oc hs ws : Forall2 bounded hs ws -> cut_all oc (concat ws) = Ok ws.
Proof.
  intros F. unfold cut_all.
  assert (G : forall n, (length (concat ws) <= n)%nat -> cut_loop oc n (concat ws) = Ok ws); [|apply G; lia].
  induction F as [|h w hs ws H F IH]; intros n Hn; cbn [concat] in *; [destruct n; reflexivity|].
  pose proof (bounded_nonempty _ _ H) as NE. destruct w as [|x w]; [congruence|]. cbn [app length] in Hn.
  destruct n as [|n]; [lia|]. cbn [app cut_loop]. change (x :: w ++ concat ws) with ((x :: w) ++ concat ws).
  rewrite (cut_bounded oc h _ _ H). rewrite IH; [reflexivity|]. rewrite app_length in Hn. lia.
Qed.

(** The id of a packet is the one its first bytes announce. *)
Lemma bounded_header h w r : bounded h w -> exists b z, next_header_from_stream (w ++ r) = Ok (HLong (with_byte h b (negb (retry_byte b))), z).
Proof.
  intros [b fields tl token ll body Hb Ht HF Hv VN VT VL|b fields ll body Hb Ht HF Hv VN VL];
    unfold next_header_from_stream; cbn [app next bind]; rewrite land_128 by lia;
    (destruct (N.leb_spec 128 b); [|lia]); rewrite <- !app_assoc, (long_dec h fields) by auto; cbn [bind]; eauto.
Qed.
Lemma unprotected_id h m h' : long_remove_protection h m = Ok h' -> lh_dcid h' = lh_dcid h /\ lh_dcid_len h' = lh_dcid_len h.
Proof.
  unfold long_remove_protection. destruct (lh_protected h); [|intros E; injection E as <-; auto].
  intros E. apply bind_ok in E as [m0 [_ E]]. injection E as <-. auto.
Qed.
Lemma decoded_id fd oc c h w p rest : bounded h w -> decode_repaired fd oc c w = Ok (p, rest) ->
  packet_id p = (lh_dcid h, lh_dcid_len h).
Proof.
  intros H D.
  assert (G : exists b fields r, w = b :: fields ++ r /\ 128 <= b < 256 /\ long_fields h fields /\ lh_version h <> 0 /\ lh_vn h = None).
  { destruct H; do 3 eexists; (split; [reflexivity|]); auto 10. }
  clear H. destruct G as [b [fields [r [-> [Hb [HF [Hv VN]]]]]]]. rewrite (dispatch_repaired fd oc c h fields) in D by auto.
  destruct (type_known b) as [T|[T|[T|T]]]; rewrite T in D; try discriminate D;
    apply bind_ok in D as [[q s] [D X]]; injection X as <- <-.
  - unfold initial_repaired in D. rewrite u8_dec in D by lia. cbn [bind] in D. rewrite (long_dec h fields) in D by auto.
    cbn [bind] in D. repeat unchain D. cbv zeta in D. repeat unchain D. injection D as <- <-.
    match goal with U : long_remove_protection _ _ = Ok _ |- _ => apply unprotected_id in U as [U1 U2]; cbn [packet_id pi_header]; rewrite U1, U2; reflexivity end.
  - unfold zero_rtt_repaired in D. rewrite u8_dec in D by lia. cbn [bind] in D. rewrite (long_dec h fields) in D by auto.
    cbn [bind] in D. repeat unchain D. cbv zeta in D. repeat unchain D. injection D as <- <-.
    match goal with U : long_remove_protection _ _ = Ok _ |- _ => apply unprotected_id in U as [U1 U2]; cbn [packet_id pz_header]; rewrite U1, U2; reflexivity end.
  - unfold handshake_repaired in D. rewrite u8_dec in D by lia. cbn [bind] in D. rewrite (long_dec h fields) in D by auto.
    cbn [bind] in D. repeat unchain D. cbv zeta in D. repeat unchain D. injection D as <- <-.
    match goal with U : long_remove_protection _ _ = Ok _ |- _ => apply unprotected_id in U as [U1 U2]; cbn [packet_id ph_header]; rewrite U1, U2; reflexivity end.
Qed.

(** ** C121: a datagram of packets to one id yields what its packets yield one by
    one, whatever they contain. *)
Theorem C121_repaired_each : forall srv oc c id hs ws, ws <> [] ->
  Forall2 bounded hs ws -> Forall (fun h => (lh_dcid h, lh_dcid_len h) = id) hs ->
  decode_each srv oc c (concat ws) = read_all srv oc c ws.
Proof.
  intros srv oc c id hs ws NE F I. unfold decode_each.
  destruct F as [|h w hs ws H F]; [congruence|]. cbn [concat].
  destruct (bounded_header h w (concat ws) H) as [b [z E]]. rewrite E. change (w ++ concat ws) with (concat (w :: ws)).
  rewrite (cut_all_bounded oc (h :: hs)) by (constructor; auto). cbn [bind header_id with_byte lh_dcid lh_dcid_len].
  pose proof (Forall_inv I) as I1. cbv beta in I1. rewrite I1.
  assert (G : forall ps, read_all srv oc c (w :: ws) = Ok ps -> Forall (fun p => packet_id p = id) ps).
  { assert (F' : Forall2 bounded (h :: hs) (w :: ws)) by (constructor; auto). clear - F' I.
    revert I. induction F' as [|h' v hs' vs H F IH]; intros I ps R; cbn [read_all] in R.
    - injection R as <-. constructor.
    - pose proof (Forall_inv I) as I1. cbv beta in I1. apply Forall_inv_tail in I. apply bind_ok in R as [a [Ra R]]. apply bind_ok in R as [b [Rb R]]. injection R as <-.
      apply Forall_app. split; [|apply IH; auto]. unfold read_one in Ra.
      destruct (decode_checked srv oc c v) as [[p r]| | |] eqn:D; try discriminate Ra; injection Ra as <-; [|constructor].
      constructor; [|constructor]. apply checked_iff in D as [D _]. rewrite (decoded_id _ _ _ _ _ _ _ H D). exact I1. }
  destruct (read_all srv oc c (w :: ws)) as [ps| | |]; try reflexivity. cbn [bind]. f_equal.
  specialize (G ps eq_refl). induction G as [|p ps Q G IH]; [reflexivity|]. cbn [filter].
  rewrite Q, (proj2 (same_id_iff _ _) eq_refl). f_equal. exact IH.
Qed.
Print Assumptions C121_repaired_each.

(** Protected packets are packets of this kind. *)
Lemma sealed_length P k bits first mid pnb pn pt wire : prims_ok P -> keys_ok k -> bytes_ok pt ->
  protected P k bits first mid pnb pn pt wire -> bits = 15 -> first < 256 ->
  exists b body, wire = b :: mid ++ body /\ b < 256 /\ b / 16 = first / 16 /\ len body = len pnb + len pt + 16.
Proof.
  intros HP [K1 [K2 [K3 K4]]] Bpt [[F1 [F2 F3]] [_ [nonce [ct [tag [m0 [mask [more [Hn [Seal [_ [Ee [Lm ->]]]]]]]]]]]]] -> Hf.
  exists (N.lxor first (N.land m0 15)), (xor_bytes pnb mask ++ ct ++ tag). split; [reflexivity|].
  split; [apply xor_mask_byte; auto; lia|]. split; [apply low4_div|].
  assert (Lno : len nonce = 12) by (destruct Hn as [_ [-> _]]; auto).
  destruct (open_law P HP _ _ _ _ _ _ K1 Lno Bpt Seal) as [L1 [L2 _]]. rewrite !len_app, xor_len_le by lia. lia.
Qed.

Lemma initial_bounded P k p pt w : prims_ok P -> keys_ok k -> initial_wire P k p pt w -> bounded (pi_header p) w /\ bytes_ok w.
Proof.
  intros HP KO [fields [tl [ll [Hb [Ht [Hv [VN [Hp [HF [HT [BT [HL [Bpt PR]]]]]]]]]]]]].
  destruct (sealed_length P k _ _ _ _ _ _ _ HP KO Bpt PR eq_refl Hb) as [b [body [E [B1 [B2 L]]]]].
  destruct (type_of_b0 _ 0 Hb ltac:(lia) Ht) as [Hl Tb]. split.
  - subst w. rewrite <- !app_assoc. apply bo_initial; auto; [|rewrite B2; exact Tb|rewrite L; exact HL].
    pose proof (N.div_mod b 16). pose proof (N.div_mod (lh_byte (pi_header p)) 16). lia.
  - eapply (protected_bytes_ok P k 0x0f); [exact HP|exact KO|reflexivity|exact Hb| |exact Bpt|exact PR].
    apply bytes_ok_app. split; [eapply long_fields_bytes_ok; eauto|]. apply bytes_ok_app.
    split; [eapply varint_enc_bytes_ok; eauto|]. apply bytes_ok_app. split; [exact BT|eapply varint_enc_bytes_ok; eauto].
Qed.
Lemma handshake_bounded P k p pt w : prims_ok P -> keys_ok k -> handshake_wire P k p pt w -> bounded (ph_header p) w /\ bytes_ok w.
Proof.
  intros HP KO W. split; [|eapply handshake_wire_bytes_ok; eauto].
  destruct W as [fields [ll [Hb [Ht [Hv [VN [Hp [HF [HL [Bpt PR]]]]]]]]]].
  destruct (sealed_length P k _ _ _ _ _ _ _ HP KO Bpt PR eq_refl Hb) as [b [body [E [B1 [B2 L]]]]].
  destruct (type_of_b0 _ 2 Hb ltac:(lia) Ht) as [Hl Tb].
  subst w. rewrite <- !app_assoc. apply bo_other; auto; [|right; rewrite B2; exact Tb|rewrite L; exact HL].
  pose proof (N.div_mod b 16). pose proof (N.div_mod (lh_byte (ph_header p)) 16). lia.
Qed.
Lemma zero_rtt_bounded P k p pt w : prims_ok P -> keys_ok k -> zero_rtt_wire P k p pt w -> bounded (pz_header p) w /\ bytes_ok w.
Proof.
  intros HP KO [fields [ll [Hb [Ht [Hv [VN [Hp [HF [HE [HL [Bpt PR]]]]]]]]]]].
  destruct (sealed_length P k _ _ _ _ _ _ _ HP KO Bpt PR eq_refl Hb) as [b [body [E [B1 [B2 L]]]]].
  destruct (type_of_b0 _ 1 Hb ltac:(lia) Ht) as [Hl Tb]. split.
  - subst w. rewrite <- !app_assoc. apply bo_other; auto; [|left; rewrite B2; exact Tb|rewrite L, <- HE; exact HL].
    pose proof (N.div_mod b 16). pose proof (N.div_mod (lh_byte (pz_header p)) 16). lia.
  - eapply (protected_bytes_ok P k 0x0f); [exact HP|exact KO|reflexivity|exact Hb| |exact Bpt|exact PR].
    apply bytes_ok_app. split; [eapply long_fields_bytes_ok; eauto|eapply varint_enc_bytes_ok; eauto].
Qed.

(** The frame decoder does not panic. *)
Lemma frame_repaired_fine oc s : bytes_ok s -> fine (fun _ => True) (frame_repaired oc s).
Proof.
  intros B. unfold frame_repaired. eapply fine_bind; [apply (fine_tame _ _ _ (tame_var_int oc) B)|].
  intros [t s1] _ [B1 _]. cbn [snd] in *. destruct (0x1e <? t); [exact I|]. destruct (t =? 6).
  - unfold wrap, crypto_repaired.
    eapply fine_bind with (R := fun _ => True); [|intros [x y] _ _; exact I].
    eapply fine_bind; [apply (fine_tame _ _ _ (tame_var_int oc) B1)|]. intros [a s2] _ [B2 _]. cbn [snd] in *.
    eapply fine_bind; [apply (fine_tame _ _ _ (tame_var_int oc) B2)|]. intros [n s3] _ [B3 _]. cbn [snd] in *.
    eapply fine_bind; [apply (fine_tame _ _ _ (tame_var_bytes n) B3)|]. intros [d s4] _ _. exact I.
  - destruct (in_range 8 15 t).
    + unfold wrap, stream_repaired.
      eapply fine_bind with (R := fun _ => True); [|intros [x y] _ _; exact I]. cbv zeta.
      eapply fine_bind; [apply (fine_tame _ _ _ (tame_var_int oc) B1)|]. intros [a s2] _ [B2 _]. cbn [snd] in *.
      eapply fine_bind with (R := fun y => bytes_ok (snd y)).
      { destruct (negb _); [|exact B2]. eapply fine_ext; [apply (fine_tame _ _ _ (tame_var_int oc) B2)|]. intros x _ [X _]. exact X. }
      intros [o s3] _ B3. cbn [snd] in *.
      eapply fine_bind with (R := fun y => bytes_ok (snd y)).
      { destruct (negb _); [|exact B3]. eapply fine_bind; [apply (fine_tame _ _ _ (tame_var_int oc) B3)|]. intros [x y] _ [X _]. exact X. }
      intros [l s4] _ B4. cbn [snd] in *.
      eapply fine_bind with (R := fun _ => True).
      { destruct l as [l|]; [|exact I]. eapply fine_ext; [apply (fine_tame _ _ _ (tame_var_bytes l) B4)|]. auto. }
      intros [d s5] _ _. exact I.
    + eapply fine_ext; [apply (fine_tame _ _ _ (tame_body oc t) B1)|]. auto.
Qed.
Lemma frames_checked_total : frames_total frames_checked.
Proof.
  intros oc s B. unfold frames_checked.
  assert (G : forall n s, bytes_ok s -> (length s < n)%nat -> fine (fun _ => True) (frames_checked_loop oc n s)); [|apply G; auto].
  clear s B. induction n as [|n IH]; intros s B L; [lia|]. destruct s as [|y s]; [exact I|]. cbn [frames_checked_loop].
  eapply fine_bind with (R := fun _ => True).
  { unfold frame_checked. eapply fine_bind; [apply (frame_repaired_fine oc _ B)|]. intros [f r] _ _.
    destruct (frame_allowed f); exact I. }
  intros [f r] E _. destruct (checked_shorter _ _ _ _ B E) as [Br Lr].
  eapply fine_bind; [apply IH; [exact Br|cbn in *; lia]|]. intros fs _ _. exact I.
Qed.
Lemma decode_checked_fine srv P oc c s : prims_ok P -> usable P oc c -> bytes_ok s -> fine (fun _ => True) (decode_checked srv oc c s).
Proof.
  intros HP U B. unfold decode_checked.
  eapply fine_bind; [apply (decode_repaired_fine _ P oc c s frames_checked_total HP U B)|].
  intros [p r] _ _. destruct (packet_allowed srv p); exact I.
Qed.

(** Packets of a datagram, as the peer sends them: Initial packets that conform in
    every respect, and packets for which this connection has no keys. *)
Inductive piece (P : prims) (srv : bool) (k : keys) (id : u160 * N) : list packet -> list N -> Prop :=
| pc_initial p pt w : initial_wire P k p pt w -> pi_pn p < 256 ^ len (pi_pn_bytes p) ->
    payload_enc (pi_payload p) pt -> Forall rfc_valid (pi_payload p) -> rules srv (PInitial p) ->
    packet_id (PInitial p) = id -> piece P srv k id [PInitial p] w
| pc_handshake kh q qt w : keys_ok kh -> handshake_wire P kh q qt w -> packet_id (PHandshake q) = id -> piece P srv k id [] w
| pc_zero_rtt kz q qt w : keys_ok kz -> zero_rtt_wire P kz q qt w -> packet_id (PZeroRtt q) = id -> piece P srv k id [] w.

Lemma no_secrets_no_mask c sp s m : remote_tls_secrets (borrow_pn_info c sp) = None -> get_remote_hp_mask c sp s = Ok m -> False.
Proof. unfold get_remote_hp_mask, borrow_remote_tls_secrets. intros ->. discriminate. Qed.
Lemma unkeyed_piece srv P oc c h w : prims_ok P -> usable P oc c -> bytes_ok w -> bounded h w ->
  remote_tls_secrets (borrow_pn_info c SpHandshake) = None -> remote_tls_secrets (borrow_pn_info c SpApplication) = None ->
  (exists b s, w = b :: s /\ (b / 16) mod 4 <> 0) -> read_one srv oc c w = Ok [].
Proof.
  intros HP U B H KH KA [b0 [s0 [Ew T0]]]. unfold read_one. pose proof (decode_checked_fine srv P oc c w HP U B) as F.
  destruct (decode_checked srv oc c w) as [[p r]| | |] eqn:D; cbn in F; try contradiction; [|reflexivity]. exfalso.
  apply checked_iff in D as [D _].
  assert (G : exists b fields r, w = b :: fields ++ r /\ 128 <= b < 256 /\ long_fields h fields /\ lh_version h <> 0 /\ lh_vn h = None).
  { destruct H; do 3 eexists; (split; [reflexivity|]); auto 10. }
  clear H F. destruct G as [b [fields [z [E [Hb [HF [Hv VN]]]]]]]. subst w. injection E as <- E. subst s0.
  rewrite (dispatch_repaired _ oc c h fields) in D by auto.
  destruct (type_known b0) as [T|[T|[T|T]]]; [congruence| | |]; rewrite T in D; try discriminate D;
    apply bind_ok in D as [[q s] [D _]].
  - unfold zero_rtt_repaired in D. rewrite u8_dec in D by lia. cbn [bind] in D. rewrite (long_dec h fields) in D by auto.
    cbn [bind] in D. unchain D. unchain D. unchain D. eapply (no_secrets_no_mask c SpApplication); eauto.
  - unfold handshake_repaired in D. rewrite u8_dec in D by lia. cbn [bind] in D. rewrite (long_dec h fields) in D by auto.
    cbn [bind] in D. unchain D. unchain D. unchain D. eapply (no_secrets_no_mask c SpHandshake); eauto.
Qed.

Theorem C121_repaired : forall srv P oc d l c k id outs ws,
  prims_ok P -> reachable P oc srv d l c -> remote_keys P oc c SpInitial k ->
  Forall2 (piece P srv k id) outs ws -> ws <> [] ->
  decode_each srv oc c (concat ws) = Ok (concat outs).
Proof.
  intros srv P oc d l c k id outs ws HP R K F NE.
  pose proof (reachable_usable P oc srv d l c HP R) as U.
  pose proof (reachable_inv _ _ _ _ _ _ HP R) as I.
  pose proof (ci_none _ _ _ _ _ _ I SpHandshake ltac:(discriminate)) as [_ KH].
  pose proof (ci_none _ _ _ _ _ _ I SpApplication ltac:(discriminate)) as [_ KA].
  assert (KO : keys_ok k) by (destruct K as [? [_ K]]; apply K).
  assert (G : exists hs, Forall2 bounded hs ws /\ Forall (fun h => (lh_dcid h, lh_dcid_len h) = id) hs /\ read_all srv oc c ws = Ok (concat outs)).
  2:{ destruct G as [hs [G1 [G2 G3]]]. rewrite (C121_repaired_each srv oc c id hs ws NE G1 G2). exact G3. }
  clear NE. induction F as [|out w outs ws Pc F IH]; [exists []; repeat split; constructor|].
  destruct IH as [hs [H1 [H2 H3]]]. cbn [read_all concat].
  destruct Pc as [p pt w W Hpn Pe V Ru Id|kh q qt w KOh W Id|kz q qt w KOz W Id].
  - destruct (initial_bounded P k p pt w HP KO W) as [B1 B2]. exists (pi_header p :: hs).
    split; [constructor; auto|]. split; [constructor; auto|].
    assert (D : decode_checked srv oc c w = Ok (PInitial p, [])).
    { apply (initial_checked srv P oc c k); auto; [apply U|]. exists w, pt. rewrite app_nil_r. auto 10. }
    unfold read_one. rewrite D. cbn [bind]. rewrite H3. reflexivity.
  - destruct (handshake_bounded P kh q qt w HP KOh W) as [B1 B2]. exists (ph_header q :: hs).
    split; [constructor; auto|]. split; [constructor; auto|].
    rewrite (unkeyed_piece srv P oc c (ph_header q) w); auto; [cbn [bind]; rewrite H3; reflexivity|].
    pose proof (handshake_announced _ _ _ _ _ W) as A. inversion A as [| |b v dd sc r t Hb Lv Ev L1 L2 Et E E']. subst.
    do 2 eexists. split; [reflexivity|]. intros Z. rewrite Z in Et. discriminate Et.
  - destruct (zero_rtt_bounded P kz q qt w HP KOz W) as [B1 B2]. exists (pz_header q :: hs).
    split; [constructor; auto|]. split; [constructor; auto|].
    rewrite (unkeyed_piece srv P oc c (pz_header q) w); auto; [cbn [bind]; rewrite H3; reflexivity|].
    destruct W as [fields [ll [Hb [Ht [Hv [VN [Hp [HF [HE [HL [Bpt PR]]]]]]]]]]].
    destruct (sealed_length P kz _ _ _ _ _ _ _ HP KOz Bpt PR eq_refl Hb) as [b [body [E [C1 [C2 L]]]]].
    destruct (type_of_b0 _ 1 Hb ltac:(lia) Ht) as [Hl Tb]. exists b. eexists. split; [exact E|]. rewrite C2, Tb. discriminate.
Qed.
Print Assumptions C121_repaired.

(** ** C53: the packets of a datagram have one destination. *)
Theorem C53_repaired : forall srv oc c s ps, decode_each srv oc c s = Ok ps ->
  exists id, Forall (fun p => packet_id p = id) ps.
Proof.
  intros srv oc c s ps D. unfold decode_each in D.
  destruct (next_header_from_stream s) as [[h r]| | |]; try (injection D as <-; exists (u160_zero, 0); constructor).
  apply bind_ok in D as [ws [_ D]]. apply bind_ok in D as [qs [_ D]]. injection D as <-. exists (header_id h).
  apply Forall_forall. intros p Hp. apply filter_In in Hp as [_ Hp]. apply same_id_iff. exact Hp.
Qed.
Print Assumptions C53_repaired.

(** ** C24: and no datagram panics. *)
Lemma cut_packet_fine oc s : bytes_ok s -> s <> [] ->
  fine (fun y => bytes_ok (fst y) /\ bytes_ok (snd y) /\ (length (snd y) < length s)%nat) (cut_packet oc s).
Proof.
  intros B NE. unfold cut_packet. destruct s as [|b s]; [congruence|]. cbn [next bind].
  pose proof B as B'. apply bytes_ok_cons in B' as [Hb B1].
  destruct (N.ltb_spec b 128). { cbn. split; [exact B|]. split; [constructor|lia]. }
  assert (G : forall s3, bytes_ok s3 -> len s3 <= len s ->
    fine (fun y => bytes_ok (fst y) /\ bytes_ok (snd y) /\ (length (snd y) < length (b :: s))%nat) (Ok (firstn (length (b :: s) - length s3) (b :: s), s3))).
  { intros s3 B3 L3. cbn [fine fst snd]. split; [apply bytes_ok_firstn; exact B|]. split; [exact B3|]. unfold len in L3. cbn [length]. lia. }
  assert (F : fine (fun y => bytes_ok (snd y) /\ len (snd y) <= len s) (long_from_stream b s)).
  { destruct (next_header_cases (b :: s) B) as [[e E]|[[b' [s1 [h [r [E0 [_ [El _]]]]]]]|[b' [s1 [h [r [E0 [Hl _]]]]]]]].
    - unfold next_header_from_stream in E. cbn [next bind] in E. rewrite land_128 in E by lia.
      destruct (N.leb_spec 128 b); [|lia]. destruct (long_from_stream b s) as [[h r]| | |]; try discriminate E. exact I.
    - injection E0 as <- <-. rewrite El. cbn [fine snd].
      destruct (long_inv _ _ _ _ B1 El) as [_ [[_ [_ [_ [f [-> _]]]]]|[_ [_ [v [dd [sc [Es _]]]]]]]].
      + apply bytes_ok_app in B1 as [_ B1]. rewrite len_app. split; [exact B1|lia].
      + subst s. rewrite !len_app, !len_cons, !len_app, !len_cons, !len_app. apply bytes_ok_app in B1 as [_ B1].
        apply bytes_ok_cons in B1 as [_ B1]. apply bytes_ok_app in B1 as [_ B1]. apply bytes_ok_cons in B1 as [_ B1].
        apply bytes_ok_app in B1 as [_ B1]. split; [exact B1|lia].
    - injection E0 as <- <-. lia. }
  eapply fine_bind; [exact F|]. intros [h s2] _ [B2 L2]. cbn [snd] in *.
  rewrite packet_type_cases. cbn [bind].
  eapply fine_bind with (R := fun s3 => bytes_ok s3 /\ len s3 <= len s); [|intros s3 _ [X Y]; apply G; auto].
  assert (N0 : fine (fun s3 => bytes_ok s3 /\ len s3 <= len s) (Ok [])) by (cbn; split; [constructor|unfold len; cbn; lia]).
  assert (T : forall x, bytes_ok x -> len x <= len s2 ->
    fine (fun s3 => bytes_ok s3 /\ len s3 <= len s)
      (let? ((n, _), s) := var_int_with_bytes_from_stream oc x in let? (_, s) := var_bytes_from_stream n s in Ok s)).
  { intros x Bx Lx. eapply fine_bind; [apply (fine_with_bytes oc x Bx)|]. intros [[n nb] y] _ [By Ly]. cbn [snd] in *.
    eapply fine_bind; [apply (fine_tame _ _ _ (tame_var_bytes n) By)|]. intros [d z] _ [Bz Lz]. cbn [snd fine] in *. split; [auto|lia]. }
  destruct (lh_version h =? 0); [exact N0|].
  destruct ((lh_byte h / 16) mod 4) as [|[[]|[]|]]; try exact N0; try (apply T; [auto|lia]).
  eapply fine_bind; [apply (fine_with_bytes oc s2 B2)|]. intros [[n nb] y] _ [By Ly]. cbn [snd] in *.
  eapply fine_bind; [apply (fine_tame _ _ _ (tame_var_bytes n) By)|]. intros [d z] _ [Bz Lz]. cbn [snd] in *. apply T; [auto|lia].
Qed.
Theorem C24_repaired_each : forall srv P oc c s,
  prims_ok P -> usable P oc c -> bytes_ok s -> exists ps, decode_each srv oc c s = Ok ps.
Proof.
  intros srv P oc c s HP U B. unfold decode_each.
  destruct (next_header_from_stream s) as [[h r]| | |] eqn:E; eauto.
  assert (G : forall n s, bytes_ok s -> (length s <= n)%nat -> exists ws, cut_loop oc n s = Ok ws /\ Forall bytes_ok ws).
  { clear s B E. induction n as [|n IH]; intros s B L; (destruct s as [|b s]; [exists []; split; [reflexivity|constructor]|]); [cbn in L; lia|].
    cbn [cut_loop]. pose proof (cut_packet_fine oc (b :: s) B ltac:(discriminate)) as F.
    destruct (cut_packet oc (b :: s)) as [[w z]| | |]; cbn [fine fst snd] in F; try contradiction.
    - destruct F as [Bw [Bz Lz]]. destruct (IH z Bz) as [ws [-> F]]; [lia|]. exists (w :: ws). split; [reflexivity|constructor; auto].
    - exists []. split; [reflexivity|constructor]. }
  destruct (G (length s) s B (le_n _)) as [ws [Ew Fw]]. unfold cut_all. rewrite Ew. cbn [bind].
  assert (X : exists ps, read_all srv oc c ws = Ok ps).
  { clear Ew. induction Fw as [|w ws Bw Fw [ps IH]]; [exists []; reflexivity|]. cbn [read_all]. unfold read_one.
    pose proof (decode_checked_fine srv P oc c w HP U Bw) as F.
    destruct (decode_checked srv oc c w) as [[p z]| | |]; cbn in F; try contradiction; cbn [bind]; rewrite IH; cbn [bind]; eauto. }
  destruct X as [ps ->]. cbn [bind]. eauto.
Qed.
Print Assumptions C24_repaired_each.

(** Two Initial packets with numbers of one and three bytes around a Handshake
    packet for which there are no keys; then with one byte of the first changed, and
    with the second for another id.  Packets that break one rule each: version 2, a
    reserved bit, no frames, a frame not permitted. *)
Example C121_repaired_case :
  (let? (ck, _) := three_keys in
   let? (_, s) := sample_pair true in
   let long type sp version bits id pnb pt :=
     let b := 0xc0 + type * 16 + bits + (len pnb - 1) in
     let mid := be_bytes 4 version ++ [1; id; 0] ++ (if type =? 0 then [0] else []) ++ [len pt + 16 + len pnb] in
     let? body := encrypt_local_payload ck sp pt (b :: mid ++ pnb) (be_val pnb) in
     let? mask := get_local_hp_mask ck sp (skipn (N.to_nat (4 - len pnb)) body) in
     match mask with
     | m0 :: m => Ok (N.lxor b (N.land m0 0x0f) :: mid ++ xor_bytes pnb m ++ body)
     | [] => Err (InternalError "mask")
     end in
   let? i1 := long 0 SpInitial 1 0 5 [9] [0x06; 3; 1; 7; 1; 0] in
   let? h := long 2 SpHandshake 1 0 5 [1] [1; 1; 1] in
   let? i2 := long 0 SpInitial 1 0 5 [1; 2; 3] [0x02; 5; 0; 0; 0] in
   let? i3 := long 0 SpInitial 1 0 6 [1; 2; 4] [1; 1; 1] in
   let? v2 := long 0 SpInitial 2 0 5 [0; 0; 0; 9] [1; 1; 1] in
   let? r4 := long 0 SpInitial 1 4 5 [0; 0; 0; 9] [1; 1; 1] in
   let? e := long 0 SpInitial 1 0 5 [0; 0; 0; 9] [] in
   let? f := long 0 SpInitial 1 0 5 [0; 0; 0; 9] [0x1e] in
   let flip w i := firstn i w ++ N.lxor (nth i w 0) 1 :: skipn (S i) w in
   let read w := match decode_each true true s w with
     | Ok ps => Some (map (fun p => match p with PInitial q => (pi_pn q, pi_payload q) | _ => (0, []) end) ps)
     | _ => None
     end in
   let alone w := match decode_next_packet true s w with Ok (PInitial _, []) => true | _ => false end in
   Ok (map read [i1 ++ h ++ i2; flip i1 20%nat ++ h ++ i2; i1 ++ h ++ i3; v2 ++ i2; r4 ++ i2; e ++ i2; f ++ i2; i2 ++ [0x40]],
       map alone [v2; r4; e; f])) =
  (let a := (9, [Crypto (FrameCrypto 3 1 [7]); Ping; Padding]) in
   let b := (66051, [Ack (FrameAck 5 0 0 0 [] None)]) in
   Ok ([Some [a; b]; Some [b]; Some [a]; Some [b]; Some [b]; Some [b]; Some [b]; Some [b]],
       [true; true; true; true])).
Proof. vm_compute. reflexivity. Qed.
