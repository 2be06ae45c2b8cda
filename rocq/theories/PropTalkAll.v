(** Property C122: two peers that hold Initial and Handshake keys, over a network
    that loses, reorders, repeats, joins, splits, alters and invents datagrams. *)
From Verif Require Import Base Utils Frame CipherSuite Secrets Connection Packet Histories Spec SpecPacket
  Tactics UtilsFacts ParserFacts FrameFacts SecretsFacts HeaderFacts PacketFacts ConnectionFacts PacketInv
  DecodeFacts SendFacts ProtectedInv CryptoInst PropFrame PropConn PropPacket PropDecode PropWire PropInjective
  PropSameWire PropProtected PropHold PropMixed PropTalk.

(** ** The conversation.  [b] is the side: [true] for the server.  [K b sp] are the
    keys side [b] sends with in the space [sp]. *)

(** A connection of side [b]: it has the keys of both sides for Initial and Handshake
    packets, has recorded no acknowledgement (no function does) and has ids that fit. *)
Record ready (P : prims) (oc : bool) (K : bool -> pn_space -> keys) (b : bool) (c : connection) : Prop := Ready {
  rd_local : forall sp, sp <> SpApplication -> local_keys P oc c sp (K b sp);
  rd_remote : forall sp, sp <> SpApplication -> remote_keys P oc c sp (K (negb b) sp);
  rd_other : remote_tls_secrets (borrow_pn_info c SpApplication) = None \/
             exists k, remote_keys P oc c SpApplication k;
  rd_acks : forall sp, largest_remote_ack (borrow_pn_info c sp) = None /\ largest_local_ack (borrow_pn_info c sp) = None;
  rd_next : forall sp, next_pn (borrow_pn_info c sp) < 2 ^ 64;
  rd_dcid : id_fits (fst (c_dcid c)) (snd (c_dcid c));
  rd_scid : scid_fits c }.

Inductive makes (oc : bool) (c : connection) : packet -> connection -> Prop :=
| mk_initial : forall fs t p c', bytes_ok (token_bytes t) -> frames_survive oc fs ->
    initial_new oc fs t c = (c', Ok p) -> makes oc c (PInitial p) c'
| mk_handshake : forall fs p c', frames_survive oc fs ->
    handshake_new oc fs c = (c', Ok p) -> makes oc c (PHandshake p) c'.

Inductive writes (oc : bool) (c : connection) : packet -> list N -> Prop :=
| wr_initial : forall p wire, initial_serialize oc p c = Ok wire -> writes oc c (PInitial p) wire
| wr_handshake : forall p wire, handshake_serialize oc p c = Ok wire -> writes oc c (PHandshake p) wire.

Inductive happening :=
| DidUse (b : bool) (x : call)
| DidMake (b : bool) (p : packet)
| DidSend (b : bool) (p : packet) (wire : list N)
| DidRead (b : bool) (s : list N) (r : outcome (list packet)).

Inductive talks (P : prims) (oc : bool) (K : bool -> pn_space -> keys) : list happening -> pair -> Prop :=
| ta_start : forall w, (forall b, ready P oc K b (side w b)) ->
    (forall b sp, next_pn (borrow_pn_info (side w b) sp) = 0) -> talks P oc K [] w
| ta_use : forall es w b x, talks P oc K es w -> usable x ->
    talks P oc K (es ++ [DidUse b x]) (with_side w b (do_call oc (side w b) x))
| ta_make : forall es w b p c, talks P oc K es w -> makes oc (side w b) p c ->
    talks P oc K (es ++ [DidMake b p]) (with_side w b c)
| ta_send : forall es w b p wire, talks P oc K es w -> In (DidMake b p) es -> writes oc (side w b) p wire ->
    talks P oc K (es ++ [DidSend b p wire]) w
| ta_given : forall es w b s r, talks P oc K es w -> bytes_ok s -> len s < 2 ^ 63 ->
    decode_packets oc (side w b) s = r -> talks P oc K (es ++ [DidRead b s r]) w.

(** The space, the first byte, the bytes up to the packet number, the number field
    and the number of a packet whose payload has [n] bytes (RFC 9000 17.2.2, 17.2.4). *)
Inductive laid_out : packet -> N -> pn_space -> N -> list N -> list N -> N -> Prop :=
| lo_initial : forall p n fields tl ll,
    (lh_byte (pi_header p) / 16) mod 4 = 0 -> long_fields (pi_header p) fields ->
    varint_enc (len (pi_token p)) tl -> varint_enc (len (pi_pn_bytes p) + n + 16) ll ->
    laid_out (PInitial p) n SpInitial (lh_byte (pi_header p)) (fields ++ tl ++ pi_token p ++ ll) (pi_pn_bytes p) (pi_pn p)
| lo_handshake : forall p n fields ll,
    (lh_byte (ph_header p) / 16) mod 4 = 2 -> long_fields (ph_header p) fields ->
    varint_enc (len (ph_pn_bytes p) + n + 16) ll ->
    laid_out (PHandshake p) n SpHandshake (lh_byte (ph_header p)) (fields ++ ll) (ph_pn_bytes p) (ph_pn p).

(** What was given to the AEAD for a packet, and what it returned. *)
Definition seals (P : prims) (k : keys) (p : packet) (wire nonce aad ct tag : list N) : Prop :=
  exists sp first mid pnb pn b0 ppn pt,
    laid_out p (len pt) sp first mid pnb pn /\ bytes_ok pt /\ aad = first :: mid ++ pnb /\
    nonce_for (k_iv k) pn nonce /\ p_gcm_seal P (k_key k) nonce aad pt = Some (ct, tag) /\
    len ppn = len pnb /\ wire = b0 :: mid ++ ppn ++ ct ++ tag.

(** A forgery: under the key [k] the AEAD opens something that no packet the
    other side sent, of either kind, has sealed under that key. *)
Definition forgery (P : prims) (k : keys) (b : bool) (es : list happening) (nonce aad ct tag : list N) : Prop :=
  (exists pt, p_gcm_open P (k_key k) nonce aad ct tag = Some pt) /\
  forall p wire, In (DidSend (negb b) p wire) es -> ~ seals P k p wire nonce aad ct tag.

(** ** Invariants *)
Lemma pn_ready P oc K b c sp : ready P oc K b c -> ready P oc K b (fst (get_next_pn oc c sp)).
Proof.
  intros [RL RR RO RA RN RD RS]. destruct (get_next_pn oc c sp) as [c' r] eqn:E. cbn [fst].
  destruct (get_next_pn_step _ _ _ _ _ E) as [D [S [V [O [I1 [I2 [I3 I4]]]]]]].
  pose proof (get_next_pn_no_ack _ _ _ _ _ E (proj2 (RA sp)) (RN sp)) as N1. cbv zeta in N1.
  assert (Dec : forall sp', sp' = sp \/ sp' <> sp) by (intros []; destruct sp; (left; congruence) || (right; congruence)).
  constructor.
  - intros sp' NE. unfold local_keys. destruct (Dec sp') as [->|X]; [rewrite I3|rewrite O by auto]; apply RL; auto.
  - intros sp' NE. unfold remote_keys. destruct (Dec sp') as [->|X]; [rewrite I4|rewrite O by auto]; apply RR; auto.
  - unfold remote_keys. destruct (Dec SpApplication) as [Q|X]; [|rewrite O by auto; exact RO].
    rewrite <- Q in I4. rewrite I4. exact RO.
  - intros sp'. destruct (Dec sp') as [->|X]; [rewrite I1, I2|rewrite O by auto]; apply RA.
  - intros sp'. destruct (Dec sp') as [->|X]; [|rewrite O by auto; apply RN].
    specialize (RN sp). destruct (N.ltb_spec (next_pn (borrow_pn_info c sp) + 1) (2 ^ 64)).
    + destruct N1 as [-> _]. auto.
    + destruct oc; destruct N1 as [N1 _]; [rewrite N1; auto|rewrite N1; reflexivity].
  - rewrite D. exact RD.
  - unfold scid_fits. rewrite S. exact RS.
Qed.

Lemma call_ready P oc K b c x : usable x -> ready P oc K b c -> ready P oc K b (do_call oc c x).
Proof.
  intros U R. destruct x as [id l|sp|fs t|fs].
  - destruct R as [RL RR RO RA RN RD RS]. constructor; auto.
  - apply pn_ready. exact R.
  - rewrite (do_call_pn oc c _ SpInitial) by eauto 8. apply pn_ready. exact R.
  - rewrite (do_call_pn oc c _ SpHandshake) by eauto 8. apply pn_ready. exact R.
Qed.

Lemma makes_call oc c p c' : makes oc c p c' -> exists x, usable x /\ c' = do_call oc c x /\
  ((exists fs t q, x = CInitial fs t /\ p = PInitial q) \/ (exists fs q, x = CHandshake fs /\ p = PHandshake q)).
Proof.
  intros [fs t q c1 Bt Fs E|fs q c1 Fs E].
  - exists (CInitial fs t). split; [exact I|]. split; [cbn [do_call]; rewrite E; reflexivity|]. left. eauto.
  - exists (CHandshake fs). split; [exact I|]. split; [cbn [do_call]; rewrite E; reflexivity|]. right. eauto.
Qed.

Lemma talks_ready P oc K es w : talks P oc K es w -> forall b, ready P oc K b (side w b).
Proof.
  intros T. induction T as [w R Z|es w b x T IH U|es w b p c T IH M|es w b p wire T IH M E|es w b s r T IH Bs Ls E]; auto.
  - intros b'. rewrite side_with. destruct (Bool.eqb b b') eqn:Eb; [|apply IH].
    apply Bool.eqb_prop in Eb as <-. apply call_ready; auto.
  - intros b'. rewrite side_with. destruct (Bool.eqb b b') eqn:Eb; [|apply IH].
    apply Bool.eqb_prop in Eb as <-. destruct (makes_call _ _ _ _ M) as [x [U [-> _]]]. apply call_ready; auto.
Qed.

(** What is made can be written and read. *)
Definition sound (oc : bool) (p : packet) : Prop :=
  match p with
  | PInitial p => header_ready (pi_header p) (pi_pn_bytes p) 0 /\ pn_field (pi_pn p) (pi_pn_bytes p) /\
      pi_pn p <= 0xffffffff /\ len (pi_pn_bytes p) = 4 /\ frames_survive oc (pi_payload p) /\ bytes_ok (pi_token p)
  | PHandshake p => header_ready (ph_header p) (ph_pn_bytes p) 2 /\ pn_field (ph_pn p) (ph_pn_bytes p) /\
      ph_pn p <= 0xffffffff /\ len (ph_pn_bytes p) = 4 /\ frames_survive oc (ph_payload p)
  | _ => False
  end.

Lemma initial_new_inv' oc c fs t c' p d l :
  largest_local_ack (borrow_pn_info c SpInitial) = None ->
  next_pn (borrow_pn_info c SpInitial) < 2 ^ 64 -> c_dcid c = (d, l) -> l <= 20 ->
  initial_new oc fs t c = (c', Ok p) ->
  exists s sl, c_scid c = Some (s, sl) /\
  pi_header p = LongHeader 0xc3 1 l d (cast 8 sl) s None false /\ pi_token p = token_bytes t /\
  pi_pn p <= 0xffffffff /\ pi_pn_bytes p = be_bytes 4 (pi_pn p) /\ pi_payload p = fs.
Proof.
  intros A NX DC L H. unfold initial_new in H. destruct (get_next_pn oc c SpInitial) as [c1 r] eqn:E.
  destruct (get_next_pn_step _ _ _ _ _ E) as [D [S [V _]]].
  pose proof (get_next_pn_no_ack _ _ _ _ _ E A NX) as N1.
  cbv zeta in N1. set (n := next_pn (borrow_pn_info c SpInitial)) in *.
  assert (R : (forall e, r <> Panic e) -> (exists m, r = Ok (m, be_bytes 4 m) /\ m <= 0xffffffff) \/ exists e, r = Err e).
  { destruct (n + 1 <? 2 ^ 64).
    - destruct N1 as [_ ->]. destruct (N.ltb_spec 0xffffffff (n + 1)); eauto.
    - destruct oc; destruct N1 as [_ ->]; [intros X; exfalso; eapply X; reflexivity|]. intros. left. exists 0. split; auto. lia. }
  injection H as <- H. apply bind_ok in H as [[m b] [-> H]].
  destruct (R ltac:(discriminate)) as [[m' [Em Lm]]|[e He]]; [|discriminate]. injection Em as -> ->.
  rewrite be_bytes_len in H. change (cast 8 (N.of_nat 4)) with 4 in H.
  change (negb ((0 <? 4) && (4 <=? 4))) with false in H. cbv iota in H.
  apply bind_ok in H as [h [Eh H]]. cbn [validate_payload bind] in H. injection H as <-.
  unfold long_from_connection, get_dcid, get_scid in Eh. rewrite D, S, DC in Eh.
  destruct (c_scid c) as [[s sl]|]; [|discriminate]. cbn [ok_or bind] in Eh.
  exists s, sl. split; [reflexivity|].
  rewrite (fits_cast l L) in Eh. injection Eh as <-.
  cbn [pi_header pi_token pi_pn pi_pn_bytes pi_payload].
  split; [|auto]. unfold get_version_field. destruct (c_version c1). reflexivity.
Qed.

Lemma makes_sound P oc K b c p c' : ready P oc K b c -> makes oc c p c' -> sound oc p.
Proof.
  intros [RL RR RO RA RN RD RS] M. destruct (c_dcid c) as [d l] eqn:DC. cbn [fst snd] in RD.
  destruct RD as [D1 [D2 D3]]. unfold scid_fits in RS.
  destruct M as [fs t q c1 Bt Fs E|fs q c1 Fs E]; cbn [sound].
  - destruct (initial_new_inv' _ _ _ _ _ _ _ _ (proj2 (RA _)) (RN _) DC D2 E) as [s [sl [Es [Eh [Et [Lp [Eb Ef]]]]]]].
    rewrite Es in RS. destruct RS as [S1 [S2 S3]]. rewrite (fits_cast sl S2) in Eh.
    rewrite Eh, Eb, Ef, Et. split; [apply built_header_ready; auto; lia|].
    split; [apply pn_field_4; auto|]. split; [exact Lp|]. split; [rewrite be_bytes_len; reflexivity|]. split; auto.
  - destruct (handshake_new_inv' _ _ _ _ _ _ _ (proj2 (RA _)) (RN _) DC D2 E) as [s [sl [Es [Eh [Lp [Eb Ef]]]]]].
    rewrite Es in RS. destruct RS as [S1 [S2 S3]]. rewrite (fits_cast sl S2) in Eh.
    rewrite Eh, Eb, Ef. split; [apply built_header_ready; auto; lia|].
    split; [apply pn_field_4; auto|]. split; [exact Lp|]. split; [rewrite be_bytes_len; reflexivity|]. auto.
Qed.

Lemma talks_made P oc K es w b p : talks P oc K es w -> In (DidMake b p) es -> sound oc p.
Proof.
  intros T. induction T as [w R Z|es w b' x T IH U|es w b' q c T IH M|es w b' q wire T IH M E|es w b' s r T IH Bs Ls E].
  1: intros [].
  all: intros H; apply in_app_or in H as [H|[H|[]]]; auto; try discriminate H.
  injection H as -> ->. eapply makes_sound; [|exact M]. eapply talks_ready; eauto.
Qed.

(** A sent packet is an RFC packet of its kind, protected with the sender's keys. *)
Lemma talks_wire P oc K es w b p wire ka : prims_ok P -> talks P oc K es w -> In (DidSend b p wire) es ->
  packet_wire P oc (K b SpInitial) (K b SpHandshake) ka p wire.
Proof.
  intros HP T. induction T as [w R Z|es w b' x T IH U|es w b' q c T IH M|es w b' q wire' T IH M E|es w b' s r T IH Bs Ls E].
  1: intros [].
  all: intros H; apply in_app_or in H as [H|[H|[]]]; auto; try discriminate H.
  injection H as -> -> ->. pose proof (talks_made _ _ _ _ _ _ _ T M) as SO.
  pose proof (talks_ready _ _ _ _ _ T b) as R. destruct E as [q wire ES|q wire ES].
  - destruct SO as [HR [PF [Lp [L4 [[FW FS] BT]]]]].
    destruct (initial_ser P oc _ (K b SpInitial) q wire HP (rd_local _ _ _ _ _ R SpInitial ltac:(discriminate)) HR BT PF
      ltac:(pows; lia) FW (fun bs Eb => proj1 (FS bs Eb)) ES) as [pt [Ept W]].
    econstructor; [exact W| |exact L4|apply FS; exact Ept]. rewrite L4. change (256 ^ 4) with (2 ^ 32). pows. lia.
  - destruct SO as [HR [PF [Lp [L4 [FW FS]]]]].
    destruct (handshake_ser P oc _ (K b SpHandshake) q wire HP (rd_local _ _ _ _ _ R SpHandshake ltac:(discriminate)) HR PF
      ltac:(pows; lia) FW (fun bs Eb => proj1 (FS bs Eb)) ES) as [pt [Ept W]].
    econstructor; [exact W| |exact L4|apply FS; exact Ept]. rewrite L4. change (256 ^ 4) with (2 ^ 32). pows. lia.
Qed.

Lemma sent_kind P oc K es w b p wire : talks P oc K es w -> In (DidSend b p wire) es -> sound oc p.
Proof.
  intros T. induction T as [w R Z|es w b' x T IH U|es w b' q c T IH M|es w b' q wire' T IH M E|es w b' s r T IH Bs Ls E].
  1: intros [].
  all: intros H; apply in_app_or in H as [H|[H|[]]]; auto; try discriminate H.
  injection H as -> -> ->. eapply talks_made; eauto.
Qed.

Lemma sent_read P oc K es w b p wire rest : prims_ok P -> talks P oc K es w -> In (DidSend (negb b) p wire) es ->
  decode_next_packet oc (side w b) (wire ++ rest) = Ok (p, rest).
Proof.
  intros HP T H. pose proof (talks_ready _ _ _ _ _ T b) as R. pose proof (sent_kind _ _ _ _ _ _ _ _ T H) as SO.
  pose proof (talks_wire _ _ _ _ _ _ _ _ (K b SpInitial) HP T H) as W.
  destruct W as [p pt wire W Hp L4 Df|p pt wire W Hp L4 Df|p pt wire W Hp L4 Df].
  - apply (initial_decodes P oc (side w b) (K (negb b) SpInitial) p pt wire rest HP); auto.
    + apply R. discriminate.
    + apply (rd_acks _ _ _ _ _ R).
    + rewrite L4 in Hp. exact Hp.
  - destruct SO.
  - apply (C61_handshake_partial P oc (side w b) (K (negb b) SpHandshake) p pt wire rest HP); auto.
    + apply R. discriminate.
    + apply (rd_acks _ _ _ _ _ R).
Qed.

(** ** C122: whatever was sent is understood, whenever and in whatever order, number
    and grouping it arrives. *)
Theorem C122_understood : forall P oc K es w b ps wires,
  prims_ok P -> talks P oc K es w ->
  Forall2 (fun p wire => In (DidSend (negb b) p wire) es) ps wires ->
  decode_packets oc (side w b) (concat wires) = Ok ps.
Proof.
  intros P oc K es w b ps wires HP T F. unfold decode_packets.
  assert (G : forall n, (length (concat wires) <= n)%nat -> decode_packets_loop oc (side w b) n (concat wires) = Ok ps).
  2:{ apply G. lia. }
  induction F as [|p v ps vs H F IH]; intros n Hn; cbn [concat] in *; [destruct n; reflexivity|].
  pose proof (sent_read _ _ _ _ _ _ _ _ (concat vs) HP T H) as D.
  assert (NE : v <> []).
  { intros ->. pose proof (sent_read _ _ _ _ _ _ _ _ [] HP T H) as D'. discriminate D'. }
  destruct v as [|x v]; [contradiction|]. cbn [app length] in *. destruct n as [|n]; [lia|].
  cbn [decode_packets_loop]. rewrite D. cbn [bind].
  rewrite IH; [reflexivity|]. rewrite app_length in Hn. lia.
Qed.
Print Assumptions C122_understood.

(** ** Received packets and sent ones *)
Lemma ready_keyed P oc K b c : ready P oc K b c -> keyed P oc c.
Proof.
  intros [RL RR RO RA RN RD RS]. split; [exists (K (negb b) SpInitial); apply RR; discriminate|].
  intros sp. split; [apply RA|]. destruct sp; [right; eexists; apply RR; discriminate|right; eexists; apply RR; discriminate|exact RO].
Qed.

(** The same first byte and a common text: the same layout. *)
Lemma laid_split p q n n' sp sp' f mid mid' pnb pnb' pn pn' r r' :
  laid_out p n sp f mid pnb pn -> laid_out q n' sp' f mid' pnb' pn' -> mid ++ r = mid' ++ r' ->
  sp = sp' /\ mid = mid' /\ r = r'.
Proof.
  intros A B E.
  destruct A as [p n fields tl ll T HF HT HL|p n fields ll T HF HL];
  inversion B as [q' n0 fields' tl' ll' T' HF' HT' HL' Q1 Q2 Q3 Q4 Q5 Q6 Q7|q' n0 fields' ll' T' HF' HL' Q1 Q2 Q3 Q4 Q5 Q6 Q7];
    subst q n0 sp' mid' pnb' pn'; rewrite Q4 in T'; try (rewrite T in T'; discriminate T').
  - rewrite <- !app_assoc in E.
    destruct (long_fields_split _ _ _ _ _ _ HF HF' E) as [_ [_ [_ [_ [_ [<- E1]]]]]].
    destruct (varint_split _ _ _ _ _ _ HT HT' E1) as [Lk E2].
    assert (tl = tl') as <-. { rewrite E2 in E1. apply app_inv_tail in E1. exact E1. }
    destruct (app_split _ _ _ _ Lk E2) as [<- E3].
    destruct (varint_split _ _ _ _ _ _ HL HL' E3) as [_ E4].
    assert (ll = ll') as <-. { rewrite E4 in E3. apply app_inv_tail in E3. exact E3. }
    auto.
  - rewrite <- !app_assoc in E.
    destruct (long_fields_split _ _ _ _ _ _ HF HF' E) as [_ [_ [_ [_ [_ [<- E1]]]]]].
    destruct (varint_split _ _ _ _ _ _ HL HL' E1) as [_ E4].
    assert (ll = ll') as <-. { rewrite E4 in E1. apply app_inv_tail in E1. exact E1. }
    auto.
Qed.

Lemma laid_same p n n' sp sp' f f' mid mid' pnb pnb' pn pn' :
  laid_out p n sp f mid pnb pn -> laid_out p n' sp' f' mid' pnb' pn' -> sp = sp' /\ f = f' /\ pnb = pnb' /\ pn = pn'.
Proof. intros A B. destruct A; inversion B; auto. Qed.

(** How a sent packet was made from its text, generically. *)
Lemma sent_laid P oc k ki kh ka p wire sp : keys_ok k -> prims_ok P ->
  packet_wire P oc ki kh ka p wire -> (sp = SpInitial /\ k = ki /\ (exists q, p = PInitial q)) \/
                                      (sp = SpHandshake /\ k = kh /\ exists q, p = PHandshake q) ->
  exists first mid pnb pn pt nonce ct tag m0 mask more,
    laid_out p (len pt) sp first mid pnb pn /\ bytes_ok pt /\ len pnb = 4 /\
    nonce_for (k_iv k) pn nonce /\ p_gcm_seal P (k_key k) nonce (first :: mid ++ pnb) pt = Some (ct, tag) /\
    len ct = len pt /\ len tag = 16 /\
    p_ecb_encrypt P (k_hp k) (firstn 16 (ct ++ tag)) = Some (m0 :: mask ++ more) /\ len mask = 4 /\
    wire = N.lxor first (N.land m0 0x0f) :: mid ++ xor_bytes pnb mask ++ ct ++ tag.
Proof.
  intros [K1 [K2 _]] HP W [[-> [-> [q ->]]]|[-> [-> [q ->]]]]; inversion W as [q' pt w W' Hp L4 Df Q1 Q2|q' pt w W' Hp L4 Df Q1 Q2|q' pt w W' Hp L4 Df Q1 Q2]; subst q' w.
  - destruct W' as [f [tl [ll [B1 [B2 [B3 [B4 [B5 [HF [HT [BT [HL [Bp HW]]]]]]]]]]]]].
    destruct HW as [[PF _] [F [nonce [ct [tag [m0 [mask [more [Hn [S [_ [M [Lm E]]]]]]]]]]]]].
    pose proof Hn as [_ [Ln _]]. rewrite K2 in Ln.
    destruct (open_law P HP _ _ _ _ _ _ K1 Ln Bp S) as [L1 [L2 _]].
    rewrite (skipn_app_exact (pi_pn_bytes q)) in M by (unfold len in L4; lia).
    exists (lh_byte (pi_header q)), (f ++ tl ++ pi_token q ++ ll), (pi_pn_bytes q), (pi_pn q), pt, nonce, ct, tag, m0, mask, more.
    split; [|auto 12]. constructor; auto. apply (type_of_b0 _ 0); auto; lia.
  - destruct W' as [f [ll [B1 [B2 [B3 [B4 [B5 [HF [HL [Bp HW]]]]]]]]]].
    destruct HW as [[PF _] [F [nonce [ct [tag [m0 [mask [more [Hn [S [_ [M [Lm E]]]]]]]]]]]]].
    pose proof Hn as [_ [Ln _]]. rewrite K2 in Ln.
    destruct (open_law P HP _ _ _ _ _ _ K1 Ln Bp S) as [L1 [L2 _]].
    rewrite (skipn_app_exact (ph_pn_bytes q)) in M by (unfold len in L4; lia).
    exists (lh_byte (ph_header q)), (f ++ ll), (ph_pn_bytes q), (ph_pn q), pt, nonce, ct, tag, m0, mask, more.
    split; [|auto 12]. constructor; auto. apply (type_of_b0 _ 2); auto; lia.
Qed.

Definition space_of (p : packet) : option pn_space :=
  match p with PInitial _ => Some SpInitial | PHandshake _ => Some SpHandshake | _ => None end.

(** What an accepted packet was on the wire, generically. *)
Lemma accepted_laid P oc K b c s p rest sp : prims_ok P -> ready P oc K b c -> bytes_ok s -> len s < 2 ^ 63 ->
  space_of p = Some sp -> decode_next_packet oc c s = Ok (p, rest) ->
  exists b0 first mid pnb pn ppn ct tag m0 mask more nonce pt, let k := K (negb b) sp in
    laid_out p (len ct) sp first mid pnb pn /\
    s = b0 :: mid ++ ppn ++ ct ++ tag ++ rest /\ len ppn = 4 /\ len tag = 16 /\
    p_ecb_encrypt P (k_hp k) (firstn 16 (ct ++ tag ++ rest)) = Some (m0 :: mask ++ more) /\ len mask = 4 /\
    first = N.lxor b0 (N.land m0 0x0f) /\ pnb = firstn (N.to_nat (len pnb)) (xor_bytes ppn mask) /\
    nonce_for (k_iv k) pn nonce /\ p_gcm_open P (k_key k) nonce (first :: mid ++ pnb) ct tag = Some pt.
Proof.
  intros HP R B LS SP D. destruct p as [v|p|p|p|p|p]; try discriminate SP; injection SP as <-; cbv zeta.
  - assert (K1 : remote_keys P oc c SpInitial (K (negb b) SpInitial)) by (apply R; discriminate).
    destruct (initial_inv P oc c _ s p rest HP K1 (proj1 (rd_acks _ _ _ _ _ R _)) B LS D)
      as [h [fields [tl [L [ll [ppn [body [m0 [mask [more [nonce [ct [tag [pt [SH [Ee [Lm [Bm [Eh [Ln [Bn [En [Ep [Eb [EL [Lt [Hn [Ho Df]]]]]]]]]]]]]]]]]]]]]]]]]]]].
    exists (lh_byte h), (lh_byte (pi_header p)), (fields ++ tl ++ pi_token p ++ ll), (pi_pn_bytes p), (pi_pn p), ppn, ct, tag, m0, mask, more, nonce, pt.
    destruct SH as [S1 S2 S3 S4 S5 S6 S7 S8 S9 S10 S11 S12 S13].
    split.
    { constructor; auto.
      - rewrite Eh. cbn [with_byte lh_byte]. rewrite low4_div. exact S3.
      - rewrite Eh. exact S6.
      - replace (len (pi_pn_bytes p) + len ct + 16) with L by lia. exact S9. }
    split; [rewrite S13 at 1; rewrite Eb, <- !app_assoc; reflexivity|]. split; [auto|]. split; [auto|].
    split; [rewrite <- Eb; exact Ee|]. split; [auto|]. split; [rewrite Eh; reflexivity|]. split; [auto|]. split; [auto|].
    rewrite <- !app_assoc. exact Ho.
  - assert (K1 : remote_keys P oc c SpHandshake (K (negb b) SpHandshake)) by (apply R; discriminate).
    destruct (handshake_inv P oc c _ s p rest HP K1 (proj1 (rd_acks _ _ _ _ _ R _)) B LS D)
      as [h [fields [L [ll [ppn [body [m0 [mask [more [nonce [ct [tag [pt [SH [Ee [Lm [Bm [Eh [Ln [Bn [En [Ep [Eb [EL [Lt [Hn [Ho Df]]]]]]]]]]]]]]]]]]]]]]]]]]].
    exists (lh_byte h), (lh_byte (ph_header p)), (fields ++ ll), (ph_pn_bytes p), (ph_pn p), ppn, ct, tag, m0, mask, more, nonce, pt.
    destruct SH as [S1 S2 S3 S4 S5 S6 S7 S8 S9 S10 S11].
    split.
    { constructor; auto.
      - rewrite Eh. cbn [with_byte lh_byte]. rewrite low4_div. exact S3.
      - rewrite Eh. exact S6.
      - replace (len (ph_pn_bytes p) + len ct + 16) with L by lia. exact S7. }
    split; [rewrite S11 at 1; rewrite Eb, <- !app_assoc; reflexivity|]. split; [auto|]. split; [auto|].
    split; [rewrite <- Eb; exact Ee|]. split; [auto|]. split; [rewrite Eh; reflexivity|]. split; [auto|]. split; [auto|].
    rewrite <- !app_assoc. exact Ho.
Qed.

Lemma sent_found es b (x : list N) :
  (exists p, In (DidSend b p x) es) \/ forall p wire, In (DidSend b p wire) es -> wire <> x.
Proof.
  induction es as [|e es IH]; [right; intros ? ? []|].
  destruct IH as [[p H]|N]; [left; exists p; right; auto|].
  destruct e as [b' y|b' p|b' p wire|b' s r].
  1,2,4: right; intros p' wire' [Q|H]; [discriminate Q|eauto].
  destruct (Bool.bool_dec b' b) as [->|NB].
  - destruct (list_eq_dec N.eq_dec wire x) as [->|NX]; [left; exists p; left; auto|].
    right. intros p' wire' [Q|H]; [injection Q as <- <-; auto|eauto].
  - right. intros p' wire' [Q|H]; [congruence|eauto].
Qed.

(** ** C122: an Initial or Handshake packet read is one the other side sent, with the
    bytes it was sent in, or contains a forgery under the key of its own kind. *)
Theorem C122_sent_or_forged : forall P oc K es w b s ps p sp,
  prims_ok P -> talks P oc K (es ++ [DidRead b s (Ok ps)]) w -> In p ps -> space_of p = Some sp ->
  exists before wire rest, s = before ++ wire ++ rest /\
    (In (DidSend (negb b) p wire) es \/
     exists nonce aad ct tag visible, wire = visible ++ ct ++ tag /\
       forgery P (K (negb b) sp) b es nonce aad ct tag).
Proof.
  intros P oc K es w b s ps p sp HP T HI SP.
  inversion T as [w0 R0 Z0 Q|es0 w0 b' x T0 U Q|es0 w0 b' q c T0 M Q|es0 w0 b' q wire T0 M E Q|es0 w0 b' s0 r T0 Bs Ls E Q].
  { destruct es; discriminate Q. }
  all: apply app_inj_tail in Q as [-> Q]; try discriminate Q.
  injection Q as -> -> ->. clear T. rename T0 into T.
  pose proof (talks_ready _ _ _ _ _ T b) as R.
  apply (C120_exactly P oc (side w b) s ps HP (ready_keyed _ _ _ _ _ R) Bs Ls) in E.
  assert (X : exists before x rest, s = before ++ x ++ rest /\ decode_next_packet oc (side w b) (x ++ rest) = Ok (p, rest)).
  { clear Bs Ls. induction E as [|x s' p' ps' NE D E' IH]; [destruct HI|].
    destruct HI as [->|HI]; [exists [], x, s'; auto|].
    destruct (IH HI) as [be [x' [rest [-> D']]]]. exists (x ++ be), x', rest. rewrite <- app_assoc. auto. }
  destruct X as [before [x [rest [-> D]]]]. exists before, x, rest. split; [reflexivity|].
  apply bytes_ok_app in Bs as [_ Bs]. rewrite len_app in Ls.
  assert (Ls' : len (x ++ rest) < 2 ^ 63) by lia.
  destruct (sent_found es (negb b) x) as [[q HS]|NS].
  - left. pose proof (sent_read _ _ _ _ _ _ _ _ rest HP T HS) as D'. rewrite D in D'. injection D' as <-. exact HS.
  - right.
    destruct (accepted_laid P oc K b _ _ _ _ _ HP R Bs Ls' SP D)
      as [b0 [first [mid [pnb [pn [ppn [ct [tag [m0 [mask [more [nonce [pt [LO [Es [L4 [Lt [Me [Lm [Ef [Ep [Hn O]]]]]]]]]]]]]]]]]]]]]].
    exists nonce, (first :: mid ++ pnb), ct, tag, (b0 :: mid ++ ppn).
    split; [apply (app_inv_tail rest); rewrite Es; cbn [app]; rewrite <- !app_assoc; reflexivity|].
    split; [eauto|]. intros q wire HS SE. apply (NS q wire HS).
    destruct SE as [sp' [f' [mid' [pnb' [pn' [b0' [ppn' [pt' [LO' [Bp' [Ea [Hn' [S' [Lp Ew]]]]]]]]]]]]]].
    apply cons_eq in Ea as [<- Ea].
    destruct (laid_split _ _ _ _ _ _ _ _ _ _ _ _ _ _ _ LO LO' Ea) as [<- [<- <-]].
    assert (KO : keys_ok (K (negb b) sp)).
    { assert (NA : sp <> SpApplication) by (intros ->; destruct p; discriminate SP).
      destruct (rd_remote _ _ _ _ _ R sp NA) as [sec [_ HK]]. apply HK. }
    pose proof (talks_wire _ _ _ _ _ _ _ _ (K b SpInitial) HP T HS) as W.
    assert (WK : (sp = SpInitial /\ K (negb b) sp = K (negb b) SpInitial /\ (exists q', q = PInitial q')) \/
                 (sp = SpHandshake /\ K (negb b) sp = K (negb b) SpHandshake /\ exists q', q = PHandshake q')).
    { destruct LO'; [left|right]; eauto. }
    destruct (sent_laid P oc _ _ _ _ _ _ sp KO HP W WK)
      as [f2 [mid2 [pnb2 [pn2 [pt2 [n2 [ct2 [tag2 [m2 [mask2 [more2 [LO2 [Bp2 [L2 [Hn2 [S2 [Lc2 [Lt2 [Me2 [Lm2 Ew2]]]]]]]]]]]]]]]]]]]].
    destruct (laid_same _ _ _ _ _ _ _ _ _ _ _ _ _ LO' LO2) as [_ [<- [<- <-]]].
    rewrite Ew in Ew2. apply cons_eq in Ew2 as [Eb0 Ew2].
    destruct (laid_split _ _ _ _ _ _ _ _ _ _ _ _ _ _ _ LO' LO2 Ew2) as [_ [<- Ew3]].
    destruct (app_split ppn' (xor_bytes pnb mask2) _ _ ltac:(rewrite xor_len_le by lia; lia) Ew3) as [Ep' Ew4].
    pose proof Hn' as [_ [Ln' _]]. destruct KO as [K1 [K2 _]]. rewrite K2 in Ln'.
    destruct (open_law P HP _ _ _ _ _ _ K1 Ln' Bp' S') as [Lc' [Lt' _]].
    assert (Lcc : len ct = len ct2) by (apply (f_equal len) in Ew4; rewrite !len_app in Ew4; lia).
    destruct (app_split _ _ _ _ Lcc Ew4) as [<- <-].
    rewrite L2 in Ep. rewrite firstn_all2 in Ep by (rewrite <- (Nat2N.id (length _)); fold (len (xor_bytes ppn mask)); rewrite xor_len_le; lia).
    rewrite app_assoc, firstn_app in Me.
    replace (16 - length (ct ++ tag))%nat with 0%nat in Me by (rewrite app_length; unfold len in Lt; lia).
    change (firstn 0 rest) with (@nil N) in Me. rewrite app_nil_r, Me2 in Me. injection Me as -> Em.
    destruct (app_split mask2 mask _ _ ltac:(congruence) Em) as [-> _].
    apply (app_inv_tail rest). rewrite Es, Ew, Ep', Eb0, Ef, Ep, xor_bytes_invol by (unfold len in *; lia).
    rewrite N.lxor_assoc, N.lxor_nilpotent, N.lxor_0_r. cbn [app]. rewrite <- !app_assoc. reflexivity.
Qed.
Print Assumptions C122_sent_or_forged.

(** ** C122: a side gives no number twice to packets of one kind. *)
Definition number (p : packet) : option N :=
  match p with PInitial p => Some (pi_pn p) | PHandshake p => Some (ph_pn p) | _ => None end.

Definition count (c : connection) (sp : pn_space) : N := next_pn (borrow_pn_info c sp).

Lemma count_step P oc K b c sp sp' : ready P oc K b c -> oc = true \/ count c sp + 1 < 2 ^ 64 ->
  count c sp <= count (fst (get_next_pn oc c sp')) sp <= count c sp + 1.
Proof.
  intros R H. unfold count in *. destruct (get_next_pn oc c sp') as [c' r] eqn:E. cbn [fst].
  assert (X : sp' = sp \/ borrow_pn_info c' sp = borrow_pn_info c sp).
  { destruct (get_next_pn_step _ _ _ _ _ E) as [_ [_ [_ [Q _]]]]. destruct sp, sp'; auto; right; apply Q; congruence. }
  destruct X as [->| ->]; [|lia].
  pose proof (get_next_pn_no_ack _ _ _ _ _ E (proj2 (rd_acks _ _ _ _ _ R _)) (rd_next _ _ _ _ _ R _)) as N.
  cbv zeta in N. destruct (N.ltb_spec (next_pn (borrow_pn_info c sp) + 1) (2 ^ 64)) as [L|L].
  - destruct N as [-> _]. lia.
  - destruct oc; [destruct N as [-> _]; lia|]. destruct H as [Q|Q]; [discriminate Q|lia].
Qed.

Lemma count_call P oc K b c sp x : ready P oc K b c -> oc = true \/ count c sp + 1 < 2 ^ 64 ->
  count c sp <= count (do_call oc c x) sp <= count c sp + 1.
Proof.
  intros R H. destruct x as [id il|sp'|fs t|fs].
  - cbn [do_call]. unfold count. destruct sp; cbn; lia.
  - eapply count_step; eauto.
  - rewrite (do_call_pn oc _ _ SpInitial) by eauto 8. eapply count_step; eauto.
  - rewrite (do_call_pn oc _ _ SpHandshake) by eauto 8. eapply count_step; eauto.
Qed.

Lemma number_step P oc K b c sp n bs c' : ready P oc K b c -> oc = true \/ count c sp + 1 < 2 ^ 64 ->
  get_next_pn oc c sp = (c', Ok (n, bs)) -> n = count c sp + 1 /\ count c' sp = count c sp + 1.
Proof.
  intros R H G. unfold count in *.
  pose proof (get_next_pn_no_ack _ _ _ _ _ G (proj2 (rd_acks _ _ _ _ _ R _)) (rd_next _ _ _ _ _ R _)) as N.
  cbv zeta in N. destruct (N.ltb_spec (next_pn (borrow_pn_info c sp) + 1) (2 ^ 64)) as [L|L].
  - destruct N as [-> Q]. destruct (0xffffffff <? _); [discriminate Q|]. injection Q as -> _. auto.
  - destruct oc; [destruct N as [_ N]; discriminate N|]. destruct H as [Q|Q]; [discriminate Q|lia].
Qed.

Lemma makes_number P oc K b c p c' sp : ready P oc K b c -> oc = true \/ count c sp + 1 < 2 ^ 64 ->
  makes oc c p c' -> space_of p = Some sp -> number p = Some (count c sp + 1) /\ count c' sp = count c sp + 1.
Proof.
  intros R H M SP. destruct M as [fs t p c' Bt Fs E|fs p c' Fs E]; injection SP as <-; cbn [number].
  - unfold initial_new in E. destruct (get_next_pn oc c SpInitial) as [c1 r] eqn:G. injection E as -> E.
    apply bind_ok in E as [[n bs] [-> E]].
    destruct (number_step _ _ _ _ _ _ _ _ _ R H G) as [N1 N2].
    assert (pi_pn p = n) as ->; [|rewrite N1; auto].
    destruct (negb _); [discriminate E|]. apply bind_ok in E as [h [_ E]]. injection E as <-. reflexivity.
  - unfold handshake_new in E. destruct (get_next_pn oc c SpHandshake) as [c1 r] eqn:G. injection E as -> E.
    apply bind_ok in E as [[n bs] [-> E]].
    destruct (number_step _ _ _ _ _ _ _ _ _ R H G) as [N1 N2].
    assert (ph_pn p = n) as ->; [|rewrite N1; auto].
    destruct (negb _); [discriminate E|]. apply bind_ok in E as [h [_ E]].
    try (apply bind_ok in E as [? [_ E]]). injection E as <-. reflexivity.
Qed.

Lemma talks_counts P oc K es w : talks P oc K es w -> oc = true \/ len es < 2 ^ 64 - 1 ->
  forall b sp, count (side w b) sp <= len es /\
    (forall p, In (DidMake b p) es -> space_of p = Some sp -> exists n, number p = Some n /\ n <= count (side w b) sp) /\
    forall p q, In (DidMake b p) es -> In (DidMake b q) es -> space_of p = Some sp -> space_of q = Some sp ->
      number p = number q -> p = q.
Proof.
  intros T. induction T as [w R Z|es w b x T IH U|es w b p c T IH M|es w b p wire T IH M E|es w b s r T IH Bs Ls E]; intros H b' sp.
  - split; [unfold count; rewrite Z; lia|]. split; [intros p []|intros p q []].
  - rewrite len_app in *. change (len [DidUse b x]) with 1 in *.
    destruct (IH ltac:(destruct H; [auto|right; lia]) b' sp) as [C1 [C2 C3]].
    assert (X : forall p, In (DidMake b' p) (es ++ [DidUse b x]) -> In (DidMake b' p) es).
    { intros p HI. apply in_app_or in HI as [HI|[HI|[]]]; auto. discriminate HI. }
    rewrite side_with. destruct (Bool.eqb b b') eqn:Eb.
    2:{ split; [lia|]. split; eauto. }
    apply Bool.eqb_prop in Eb as <-. pose proof (talks_ready _ _ _ _ _ T b) as R.
    pose proof (count_call _ _ _ _ _ sp x R ltac:(destruct H; [auto|right; lia])) as Y.
    split; [lia|]. split; eauto. intros p HI SP. destruct (C2 p (X p HI) SP) as [n [N1 N2]]. exists n. split; [auto|lia].
  - rewrite len_app in *. change (len [DidMake b p]) with 1 in *.
    destruct (IH ltac:(destruct H; [auto|right; lia]) b' sp) as [C1 [C2 C3]].
    rewrite side_with. destruct (Bool.eqb b b') eqn:Eb.
    2:{ assert (X : forall q, In (DidMake b' q) (es ++ [DidMake b p]) -> In (DidMake b' q) es).
        { intros q HI. apply in_app_or in HI as [HI|[HI|[]]]; auto. injection HI as -> _.
          rewrite Bool.eqb_reflx in Eb. discriminate Eb. }
        split; [lia|]. split; eauto. }
    apply Bool.eqb_prop in Eb as <-. pose proof (talks_ready _ _ _ _ _ T b) as R.
    assert (H' : oc = true \/ count (side w b) sp + 1 < 2 ^ 64) by (destruct H; [auto|right; lia]).
    assert (Y : count (side w b) sp <= count c sp <= count (side w b) sp + 1).
    { destruct (makes_call _ _ _ _ M) as [x [U [-> _]]]. eapply count_call; eauto. }
    assert (N : forall q, q = p -> space_of q = Some sp -> number q = Some (count (side w b) sp + 1) /\ count c sp = count (side w b) sp + 1).
    { intros q -> SP. eapply makes_number; eauto. }
    split; [lia|]. split.
    + intros q HI SP. apply in_app_or in HI as [HI|[HI|[]]].
      * destruct (C2 q HI SP) as [n [N1 N2]]. exists n. split; [auto|lia].
      * injection HI as <-. destruct (N p eq_refl SP) as [N1 N2]. eexists. split; [exact N1|lia].
    + intros q q' HI HI' SP SP' Q. apply in_app_or in HI as [HI|[HI|[]]]; apply in_app_or in HI' as [HI'|[HI'|[]]].
      * eauto.
      * injection HI' as <-. destruct (C2 q HI SP) as [n [N1 N2]]. destruct (N p eq_refl SP') as [N3 _].
        rewrite N1, N3 in Q. injection Q as Q. lia.
      * injection HI as <-. destruct (C2 q' HI' SP') as [n [N1 N2]]. destruct (N p eq_refl SP) as [N3 _].
        rewrite N1, N3 in Q. injection Q as Q. lia.
      * congruence.
  - rewrite len_app in *. change (len [DidSend b p wire]) with 1 in *.
    destruct (IH ltac:(destruct H; [auto|right; lia]) b' sp) as [C1 [C2 C3]].
    assert (X : forall q, In (DidMake b' q) (es ++ [DidSend b p wire]) -> In (DidMake b' q) es).
    { intros q HI. apply in_app_or in HI as [HI|[HI|[]]]; auto. discriminate HI. }
    split; [lia|]. split; eauto.
  - rewrite len_app in *. change (len [DidRead b s r]) with 1 in *.
    destruct (IH ltac:(destruct H; [auto|right; lia]) b' sp) as [C1 [C2 C3]].
    assert (X : forall q, In (DidMake b' q) (es ++ [DidRead b s r]) -> In (DidMake b' q) es).
    { intros q HI. apply in_app_or in HI as [HI|[HI|[]]]; auto. discriminate HI. }
    split; [lia|]. split; eauto.
Qed.

Lemma send_made P oc K es w b p wire : talks P oc K es w -> In (DidSend b p wire) es -> In (DidMake b p) es.
Proof.
  intros T. induction T as [w R Z|es w b' x T IH U|es w b' q c T IH M|es w b' q wire' T IH M E|es w b' s r T IH Bs Ls E].
  1: intros [].
  all: intros H; apply in_app_or in H as [H|[H|[]]]; apply in_or_app; auto; try discriminate H.
  injection H as -> -> ->. auto.
Qed.

Theorem C122_numbers : forall P oc K es w b p q wire wire',
  talks P oc K es w -> oc = true \/ len es < 2 ^ 64 - 1 ->
  In (DidSend b p wire) es -> In (DidSend b q wire') es ->
  space_of p = space_of q -> number p = number q -> p = q.
Proof.
  intros P oc K es w b p q wire wire' T H Sp Sq SP E.
  pose proof (sent_kind _ _ _ _ _ _ _ _ T Sp) as SO.
  destruct (space_of p) as [sp|] eqn:Z; [|destruct p; try discriminate Z; destruct SO].
  destruct (talks_counts _ _ _ _ _ T H b sp) as [_ [_ X]]. apply X; auto; eapply send_made; eauto.
Qed.
Print Assumptions C122_numbers.

(** ** Conversations start: two connections made for one id, with any Handshake
    secrets [a] of the client and [z] of the server installed crosswise. *)
Theorem C122_starts : forall P oc d l c s a z ka kz,
  prims_ok P -> id_fits d l -> connection_new P oc false V1 d l = Ok c -> connection_new P oc true V1 d l = Ok s ->
  secrets_keys P oc a ka -> secrets_keys P oc z kz ->
  exists K, talks P oc K [] (Pair (install c a z) (install s z a)) /\
    K false SpHandshake = ka /\ K true SpHandshake = kz /\
    forall b, initial_keys P b (be_bytes (N.to_nat l) (cid_val d)) (K b SpInitial).
Proof.
  intros P oc d l c s a z ka kz HP ID C S A Z.
  destruct (connection_new_inv _ _ _ _ _ _ _ HP C) as [IC [SC NC]].
  destruct (connection_new_inv _ _ _ _ _ _ _ HP S) as [IS [SS NS]].
  destruct (ci_keys _ _ _ _ _ _ IC) as [cid [kc [ks [U [A1 [A2 [A3 A4]]]]]]]. cbn [negb] in A2.
  destruct (ci_keys _ _ _ _ _ _ IS) as [cid' [ks' [kc' [U' [B1 [B2 [B3 B4]]]]]]]. cbn [negb] in B2.
  assert (cid' = cid) as -> by congruence.
  rewrite (C32_keys_determined _ _ _ _ _ B1 A2) in B3. rewrite (C32_keys_determined _ _ _ _ _ B2 A1) in B4.
  exists (fun (b : bool) (sp : pn_space) => match sp with SpInitial => if b then ks else kc | _ => if b then kz else ka end).
  pose proof ID as [D1 [D2 D3]]. rewrite u160_to_var_bytes_ok in U by auto. injection U as <-.
  split; [|split; [reflexivity|split; [reflexivity|intros []; auto]]].
  constructor.
  - intros []; cbn [side client server].
    + constructor.
      * intros [] NE; [exact B3|exists z; split; [reflexivity|exact Z]|congruence].
      * intros [] NE; [exact B4|exists a; split; [reflexivity|exact A]|congruence].
      * left. exact (proj2 (ci_none _ _ _ _ _ _ IS SpApplication ltac:(discriminate))).
      * intros sp. pose proof (ci_acks _ _ _ _ _ _ IS sp) as Q. destruct sp; exact Q.
      * intros sp. pose proof (ci_next _ _ _ _ _ _ IS sp) as Q. destruct sp; exact Q.
      * change (c_dcid (install s z a)) with (c_dcid s). rewrite (ci_dcid _ _ _ _ _ _ IS). exact ID.
      * unfold scid_fits. change (c_scid (install s z a)) with (c_scid s). rewrite SS. exact I.
    + constructor.
      * intros [] NE; [exact A3|exists a; split; [reflexivity|exact A]|congruence].
      * intros [] NE; [exact A4|exists z; split; [reflexivity|exact Z]|congruence].
      * left. exact (proj2 (ci_none _ _ _ _ _ _ IC SpApplication ltac:(discriminate))).
      * intros sp. pose proof (ci_acks _ _ _ _ _ _ IC sp) as Q. destruct sp; exact Q.
      * intros sp. pose proof (ci_next _ _ _ _ _ _ IC sp) as Q. destruct sp; exact Q.
      * change (c_dcid (install c a z)) with (c_dcid c). rewrite (ci_dcid _ _ _ _ _ _ IC). exact ID.
      * unfold scid_fits. change (c_scid (install c a z)) with (c_scid c). rewrite SC. exact I.
  - intros [] sp; cbn [side client server]; [specialize (NS sp)|specialize (NC sp)]; destruct sp; assumption.
Qed.
Print Assumptions C122_starts.

Lemma make_hs_eq oc fs c p : snd (handshake_new oc fs c) = Ok p -> handshake_new oc fs c = (do_call oc c (CHandshake fs), Ok p).
Proof. cbn [do_call]. destruct (handshake_new oc fs c). cbn. congruence. Qed.

(** The client sends an Initial and a Handshake packet, both with number 1.  The
    server refuses the Handshake packet damaged and its own packet sent back to it,
    and reads one datagram with the two in the other order and the first repeated. *)
Example C122_case : exists K p h wp wh ps es w,
  talks real_prims true K (es ++ [DidRead true (wh ++ wp ++ wp) (Ok ps)]) w /\
  In (DidSend false (PInitial p) wp) es /\ In (DidSend false (PHandshake h) wh) es /\
  (exists e, In (DidRead true (removelast wh ++ [N.lxor (last wh 0) 1]) (Err e)) es) /\
  (exists r wr e, In (DidSend true (PHandshake r) wr) es /\ In (DidRead true wr (Err e)) es) /\
  pi_pn p = 1 /\ ph_pn h = 1 /\ pi_payload p = sample_payload /\ ph_payload h = [Ping] /\
  map (fun r => match r with PInitial r => (1, pi_pn r, pi_payload r) | PHandshake r => (2, ph_pn r, ph_payload r) | _ => (0, 0, []) end) ps =
    [(2, 1, [Ping]); (1, 1, sample_payload); (1, 1, sample_payload)].
Proof.
  destruct (connection_new_ok real_prims true false sample_id 8 (real_prims_ok) ltac:(lia)) as [c0 C].
  destruct (connection_new_ok real_prims true true sample_id 8 (real_prims_ok) ltac:(lia)) as [s0 S].
  destruct (from_secret_ok real_prims true (repeat 1 32) real_prims_ok ltac:(vm_compute; discriminate)) as [a [ka [Ea [A _]]]].
  destruct (from_secret_ok real_prims true (repeat 2 32) real_prims_ok ltac:(vm_compute; discriminate)) as [z [kz [Ez [Z _]]]].
  set (id := U160 0 0x0102030405060708).
  assert (E : (let? c := connection_new real_prims true false V1 sample_id 8 in
     let? s := connection_new real_prims true true V1 sample_id 8 in
     let? a := from_secret (TLS13_AES_128_GCM_SHA256 real_prims true) (repeat 1 32) in
     let? z := from_secret (TLS13_AES_128_GCM_SHA256 real_prims true) (repeat 2 32) in
     let c := do_call true (install c a z) (CSetScid id 8) in
     let s := do_call true (install s z a) (CSetScid id 8) in
     let? r := snd (handshake_new true [Ping] s) in
     let s := do_call true s (CHandshake [Ping]) in
     let? wr := handshake_serialize true r s in
     let? p := snd (initial_new true sample_payload (Some [9; 9]) c) in
     let c := do_call true c (CInitial sample_payload (Some [9; 9])) in
     let? h := snd (handshake_new true [Ping] c) in
     let c := do_call true c (CHandshake [Ping]) in
     let? wp := initial_serialize true p c in
     let? wh := handshake_serialize true h c in
     let? ps := decode_packets true s (wh ++ wp ++ wp) in
     Ok (pi_payload p, pi_pn p, ph_payload h, ph_pn h,
       map (fun r => match r with PInitial r => (1, pi_pn r, pi_payload r) | PHandshake r => (2, ph_pn r, ph_payload r) | _ => (0, 0, []) end) ps,
       match decode_packets true s (removelast wh ++ [N.lxor (last wh 0) 1]) with Err e => true | _ => false end,
       match decode_packets true s wr with Err e => true | _ => false end,
       forallb (fun x => x <? 256) (wp ++ wh ++ wr), len wp, len wh, len wr)) =
     Ok (sample_payload, 1, [Ping], 1, [(2, 1, [Ping]); (1, 1, sample_payload); (1, 1, sample_payload)],
         true, true, true, 55, 45, 45)) by (vm_compute; reflexivity).
  rewrite C, S in E. cbn [bind] in E. rewrite Ea in E. cbn [bind] in E. rewrite Ez in E. cbn [bind] in E.
  assert (IF : id_fits id 8) by (repeat split; vm_compute; congruence).
  assert (IS : id_fits sample_id 8) by (repeat split; vm_compute; congruence).
  destruct (C122_starts real_prims true sample_id 8 c0 s0 a z ka kz real_prims_ok IS C S A Z) as [K [T0 _]].
  set (c1 := do_call true (install c0 a z) (CSetScid id 8)) in *. set (s1 := do_call true (install s0 z a) (CSetScid id 8)) in *.
  apply bind_ok in E as [r [Er E]]. apply bind_ok in E as [wr [Ewr E]].
  apply bind_ok in E as [p [Ep E]]. apply bind_ok in E as [h [Eh E]].
  apply bind_ok in E as [wp [Ewp E]]. apply bind_ok in E as [wh [Ewh E]]. apply bind_ok in E as [ps [Eps E]].
  injection E as F1 F2 F3 F4 F5 F6 F6' F7 F8 F9 F10.
  destruct (decode_packets true _ (removelast wh ++ _)) as [?|e|?|] eqn:Ed; try discriminate F6. clear F6.
  destruct (decode_packets true _ wr) as [?|e'|?|] eqn:Ed'; try discriminate F6'. clear F6'.
  set (s2 := do_call true s1 (CHandshake [Ping])) in *.
  set (c2 := do_call true c1 (CInitial sample_payload (Some [9; 9]))) in *.
  set (c3 := do_call true c2 (CHandshake [Ping])) in *.
  assert (FP : frames_survive true [Ping]).
  { apply (plain_survive true [Ping] [1]); [repeat constructor|reflexivity|reflexivity|reflexivity]. }
  assert (T1 := ta_use _ _ _ _ _ false (CSetScid id 8) T0 IF).
  assert (T2 := ta_use _ _ _ _ _ true (CSetScid id 8) T1 IF).
  change (with_side _ true _) with (Pair c1 s1) in T2.
  assert (T3 := ta_make _ _ _ _ _ true (PHandshake r) s2 T2 (mk_handshake _ _ _ _ _ FP (make_hs_eq _ _ _ _ Er))).
  change (with_side _ true _) with (Pair c1 s2) in T3.
  assert (T4 := ta_make _ _ _ _ _ false (PInitial p) c2 T3
    (mk_initial _ _ _ (Some [9; 9]) _ _ ltac:(repeat constructor) C20_survive_case (make_eq _ _ _ _ _ Ep))).
  change (with_side _ false _) with (Pair c2 s2) in T4.
  assert (T5 := ta_make _ _ _ _ _ false (PHandshake h) c3 T4 (mk_handshake _ _ _ _ _ FP (make_hs_eq _ _ _ _ Eh))).
  change (with_side _ false _) with (Pair c3 s2) in T5.
  assert (T6 := ta_send _ _ _ _ _ true (PHandshake r) wr T5 ltac:(cbn; auto 10) (wr_handshake _ _ _ _ Ewr)).
  assert (T7 := ta_send _ _ _ _ _ false (PInitial p) wp T6 ltac:(cbn; auto 10) (wr_initial _ _ _ _ Ewp)).
  assert (T8 := ta_send _ _ _ _ _ false (PHandshake h) wh T7 ltac:(cbn; auto 10) (wr_handshake _ _ _ _ Ewh)).
  assert (B : bytes_ok (wp ++ wh ++ wr)).
  { apply Forall_forall. intros x HI. rewrite forallb_forall in F7. specialize (F7 x HI). apply N.ltb_lt in F7. exact F7. }
  apply bytes_ok_app in B as [Bp B]. apply bytes_ok_app in B as [Bh Br].
  assert (Ld : len (removelast wh ++ [N.lxor (last wh 0) 1]) = 45).
  { destruct wh as [|x wh] using rev_ind; [discriminate F9|]. rewrite removelast_last, len_app in *. exact F9. }
  assert (Bd : bytes_ok (removelast wh ++ [N.lxor (last wh 0) 1])).
  { destruct wh as [|x wh'] using rev_ind; [discriminate F9|]. rewrite removelast_last, last_last.
    apply bytes_ok_app in Bh as [Bh Bx]. apply bytes_ok_app. split; auto. constructor; [|constructor].
    apply bytes_ok_cons in Bx as [Bx _]. apply (xor_mask_byte x 1 1); auto. lia. }
  assert (T9 := ta_given _ _ _ _ _ true _ _ T8 Bd ltac:(rewrite Ld; pows; lia) Ed).
  assert (T10 := ta_given _ _ _ _ _ true _ _ T9 Br ltac:(rewrite F10; pows; lia) Ed').
  assert (T11 := ta_given _ _ _ _ _ true (wh ++ wp ++ wp) _ T10
    ltac:(apply bytes_ok_app; split; auto; apply bytes_ok_app; auto) ltac:(rewrite !len_app, F8, F9; pows; lia) Eps).
  eexists K, p, h, wp, wh, ps, _, _. split; [exact T11|].
  split; [cbn; auto 20|]. split; [cbn; auto 20|]. split; [exists e; cbn; auto 20|].
  split; [exists r, wr, e'; split; cbn; auto 20|]. auto 10.
Qed.
