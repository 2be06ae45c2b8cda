(** Properties C120 and C121: packets of different kinds in one datagram. *)
From Verif Require Import Base Utils Frame CipherSuite Secrets Connection Packet Histories Spec SpecPacket
  Tactics UtilsFacts ParserFacts FrameFacts SecretsFacts HeaderFacts PacketFacts ConnectionFacts PacketInv
  DecodeFacts SendFacts BuildFacts ProtectedInv CryptoInst PropConn PropPacket PropDecode PropWire PropProtected PropHold PropLimits PropHeader.

(** ** A packet of a kind that has a length means the same in front of anything. *)
Lemma initial_alone P oc c k s p rest :
  prims_ok P -> remote_keys P oc c SpInitial k -> no_remote_ack c SpInitial -> bytes_ok s -> len s < 2 ^ 63 ->
  decode_next_packet oc c s = Ok (PInitial p, rest) ->
  exists w, s = w ++ rest /\
    forall rest', bytes_ok rest' -> decode_next_packet oc c (w ++ rest') = Ok (PInitial p, rest').
Proof.
  intros HP K NA B LS D.
  destruct (initial_inv P oc c k s p rest HP K NA B LS D)
    as [h [fields [tl [L [ll [ppn [body [m0 [mask [more [nonce [ct [tag [pt [SH [Ee [Lm [Bm [Eh [Ln [Bn [En [Ep [Eb [EL [Lt [Hn [Ho Df]]]]]]]]]]]]]]]]]]]]]]]]]]]].
  destruct SH as [Hb Hlong Ht Hv VN HF HT BT HL Lp4 Bp Bb Ew].
  exists (lh_byte h :: fields ++ tl ++ pi_token p ++ ll ++ ppn ++ ct ++ tag).
  split; [rewrite Ew, Eb; cbn [app]; rewrite <- !app_assoc; reflexivity|].
  intros rest' Br. rewrite Eb in Bb. apply bytes_ok_app in Bb as [Bct Bb]. apply bytes_ok_app in Bb as [Btag _].
  set (body' := ct ++ tag ++ rest').
  assert (Bb' : bytes_ok body') by (unfold body'; rewrite !bytes_ok_app; auto).
  assert (S16 : firstn 16 body' = firstn 16 body).
  { rewrite Eb. unfold body'. rewrite !app_assoc, !(firstn_app _ (ct ++ tag)).
    replace (16 - length (ct ++ tag))%nat with 0%nat by (rewrite app_length; unfold len in Lt; lia). reflexivity. }
  assert (SH' : initial_shape h fields tl (pi_token p) L ll ppn body' (lh_byte h :: fields ++ tl ++ pi_token p ++ ll ++ ppn ++ body'))
    by (constructor; auto).
  replace ((lh_byte h :: fields ++ tl ++ pi_token p ++ ll ++ ppn ++ ct ++ tag) ++ rest')
    with (lh_byte h :: fields ++ tl ++ pi_token p ++ ll ++ ppn ++ body')
    by (unfold body'; cbn [app]; rewrite <- !app_assoc; reflexivity).
  rewrite (long_dispatch oc c h fields (lh_byte h)) by auto. rewrite Ht.
  pose proof (initial_eq P oc c k _ _ _ _ _ _ _ _ _ HP K NA SH') as Q.
  destruct (N.ltb_spec (len body') 16) as [L16|L16].
  { exfalso. unfold body' in L16. rewrite !len_app in L16. lia. }
  destruct Q as [m0' [mask' [more' [Ecb [Lm' [Bm' Q]]]]]]. rewrite Q.
  rewrite S16, Ee in Ecb. injection Ecb as <- Em.
  apply cons_app_inj in Em as [<- _]; [|apply len_length; congruence].
  unfold initial_rest. cbv zeta. rewrite Eh in *. cbn [with_byte lh_byte] in *.
  set (first := N.lxor (lh_byte h) (N.land m0 15)) in *.
  rewrite <- Ln, <- En, <- Ep. rewrite sub64_ok by lia. cbn [bind].
  replace (L - len (pi_pn_bytes p)) with (len (ct ++ tag)) by (rewrite len_app; lia).
  unfold body'. rewrite app_assoc, var_bytes_app by auto. cbn [bind].
  pose proof K as [sec [Es Ks]]. unfold decrypt_remote_payload, borrow_remote_tls_secrets. rewrite Es. cbn [ok_or bind].
  assert (Hpn : pi_pn p < 2 ^ 64).
  { rewrite Ep. eapply N.lt_trans; [apply pnb_bound; auto; pose proof (land3_le first); lia|reflexivity]. }
  rewrite (decrypt_payload_eq P oc sec k ct tag _ _ nonce Ks Hpn Hn Lt), Ho. cbn [ok_or bind]. rewrite Df. cbn [bind].
  destruct p as [q1 q2 q3 q4 q5]; cbn [pi_header pi_token pi_pn pi_pn_bytes pi_payload] in *; rewrite Eh; reflexivity.
Qed.

Lemma handshake_alone P oc c k s p rest :
  prims_ok P -> remote_keys P oc c SpHandshake k -> no_remote_ack c SpHandshake -> bytes_ok s -> len s < 2 ^ 63 ->
  decode_next_packet oc c s = Ok (PHandshake p, rest) ->
  exists w, s = w ++ rest /\
    forall rest', bytes_ok rest' -> decode_next_packet oc c (w ++ rest') = Ok (PHandshake p, rest').
Proof.
  intros HP K NA B LS D.
  destruct (handshake_inv P oc c k s p rest HP K NA B LS D)
    as [h [fields [L [ll [ppn [body [m0 [mask [more [nonce [ct [tag [pt [SH [Ee [Lm [Bm [Eh [Ln [Bn [En [Ep [Eb [EL [Lt [Hn [Ho Df]]]]]]]]]]]]]]]]]]]]]]]]]]].
  destruct SH as [Hb Hlong Ht Hv VN HF HL Lp4 Bp Bb Ew].
  exists (lh_byte h :: fields ++ ll ++ ppn ++ ct ++ tag).
  split; [rewrite Ew, Eb; cbn [app]; rewrite <- !app_assoc; reflexivity|].
  intros rest' Br. rewrite Eb in Bb. apply bytes_ok_app in Bb as [Bct Bb]. apply bytes_ok_app in Bb as [Btag _].
  set (body' := ct ++ tag ++ rest').
  assert (Bb' : bytes_ok body') by (unfold body'; rewrite !bytes_ok_app; auto).
  assert (S16 : firstn 16 body' = firstn 16 body).
  { rewrite Eb. unfold body'. rewrite !app_assoc, !(firstn_app _ (ct ++ tag)).
    replace (16 - length (ct ++ tag))%nat with 0%nat by (rewrite app_length; unfold len in Lt; lia). reflexivity. }
  assert (SH' : long_shape 2 h fields L ll ppn body' (lh_byte h :: fields ++ ll ++ ppn ++ body'))
    by (constructor; auto).
  replace ((lh_byte h :: fields ++ ll ++ ppn ++ ct ++ tag) ++ rest')
    with (lh_byte h :: fields ++ ll ++ ppn ++ body')
    by (unfold body'; cbn [app]; rewrite <- !app_assoc; reflexivity).
  rewrite (long_dispatch oc c h fields (lh_byte h)) by auto. rewrite Ht.
  pose proof (handshake_eq P oc c k _ _ _ _ _ _ _ HP K NA SH') as Q.
  destruct (N.ltb_spec (len body') 16) as [L16|L16].
  { exfalso. unfold body' in L16. rewrite !len_app in L16. lia. }
  destruct Q as [m0' [mask' [more' [Ecb [Lm' [Bm' Q]]]]]]. rewrite Q.
  rewrite S16, Ee in Ecb. injection Ecb as <- Em.
  apply cons_app_inj in Em as [<- _]; [|apply len_length; congruence].
  unfold handshake_rest. cbv zeta. rewrite Eh in *. cbn [with_byte lh_byte] in *.
  set (first := N.lxor (lh_byte h) (N.land m0 15)) in *.
  rewrite <- Ln, <- En, <- Ep. rewrite sub64_ok by lia. cbn [bind].
  replace (L - len (ph_pn_bytes p)) with (len (ct ++ tag)) by (rewrite len_app; lia).
  unfold body'. rewrite app_assoc, var_bytes_app by auto. cbn [bind].
  pose proof K as [sec [Es Ks]]. unfold decrypt_remote_payload, borrow_remote_tls_secrets. rewrite Es. cbn [ok_or bind].
  assert (Hpn : ph_pn p < 2 ^ 64).
  { apply bytes_ok_cons in Bm as [_ Bm]. rewrite Ep. eapply N.lt_trans; [apply pnb_bound; [apply xor_bytes_ok; auto|rewrite xor_bytes_len; lia]|reflexivity]. }
  rewrite (decrypt_payload_eq P oc sec k ct tag _ _ nonce Ks Hpn Hn Lt), Ho. cbn [ok_or bind]. rewrite Df. cbn [bind].
  destruct p as [q1 q2 q3 q4]; cbn [ph_header ph_pn ph_pn_bytes ph_payload] in *; rewrite Eh; reflexivity.
Qed.

Lemma zero_rtt_alone P oc c k s p rest :
  prims_ok P -> remote_keys P oc c SpApplication k -> no_remote_ack c SpApplication -> bytes_ok s -> len s < 2 ^ 63 ->
  decode_next_packet oc c s = Ok (PZeroRtt p, rest) ->
  exists w, s = w ++ rest /\
    forall rest', bytes_ok rest' -> decode_next_packet oc c (w ++ rest') = Ok (PZeroRtt p, rest').
Proof.
  intros HP K NA B LS D.
  destruct (zero_rtt_inv P oc c k s p rest HP K NA B LS D)
    as [h [fields [ll [ppn [body [m0 [mask [more [nonce [ct [tag [pt [SH [Ee [Lm [Bm [Eh [Ln [Bn [En [Ep [Eb [EL [Lt [Hn [Ho Df]]]]]]]]]]]]]]]]]]]]]]]]]].
  destruct SH as [Hb Hlong Ht Hv VN HF HL Lp4 Bp Bb Ew].
  exists (lh_byte h :: fields ++ ll ++ ppn ++ ct ++ tag).
  split; [rewrite Ew, Eb; cbn [app]; rewrite <- !app_assoc; reflexivity|].
  intros rest' Br. rewrite Eb in Bb. apply bytes_ok_app in Bb as [Bct Bb]. apply bytes_ok_app in Bb as [Btag _].
  set (body' := ct ++ tag ++ rest').
  assert (Bb' : bytes_ok body') by (unfold body'; rewrite !bytes_ok_app; auto).
  assert (S16 : firstn 16 body' = firstn 16 body).
  { rewrite Eb. unfold body'. rewrite !app_assoc, !(firstn_app _ (ct ++ tag)).
    replace (16 - length (ct ++ tag))%nat with 0%nat by (rewrite app_length; unfold len in Lt; lia). reflexivity. }
  assert (SH' : long_shape 1 h fields (pz_length p) ll ppn body' (lh_byte h :: fields ++ ll ++ ppn ++ body'))
    by (constructor; auto).
  replace ((lh_byte h :: fields ++ ll ++ ppn ++ ct ++ tag) ++ rest')
    with (lh_byte h :: fields ++ ll ++ ppn ++ body')
    by (unfold body'; cbn [app]; rewrite <- !app_assoc; reflexivity).
  rewrite (long_dispatch oc c h fields (lh_byte h)) by auto. rewrite Ht.
  pose proof (zero_rtt_eq P oc c k _ _ _ _ _ _ _ HP K NA SH') as Q.
  destruct (N.ltb_spec (len body') 16) as [L16|L16].
  { exfalso. unfold body' in L16. rewrite !len_app in L16. lia. }
  destruct Q as [m0' [mask' [more' [Ecb [Lm' [Bm' Q]]]]]]. rewrite Q.
  rewrite S16, Ee in Ecb. injection Ecb as <- Em.
  apply cons_app_inj in Em as [<- _]; [|apply len_length; congruence].
  unfold zero_rtt_rest. cbv zeta. rewrite Eh in *. cbn [with_byte lh_byte] in *.
  set (first := N.lxor (lh_byte h) (N.land m0 15)) in *.
  rewrite <- Ln, <- En, <- Ep. rewrite sub64_ok by lia. cbn [bind].
  replace (pz_length p - len (pz_pn_bytes p)) with (len (ct ++ tag)) by (rewrite len_app; lia).
  unfold body'. rewrite app_assoc, var_bytes_app by auto. cbn [bind].
  pose proof K as [sec [Es Ks]]. unfold decrypt_remote_payload, borrow_remote_tls_secrets. rewrite Es. cbn [ok_or bind].
  assert (Hpn : pz_pn p < 2 ^ 64).
  { rewrite Ep. eapply N.lt_trans; [apply pnb_bound; auto; pose proof (land3_le first); lia|reflexivity]. }
  rewrite (decrypt_payload_eq P oc sec k ct tag _ _ nonce Ks Hpn Hn Lt), Ho. cbn [ok_or bind]. rewrite Df. cbn [bind].
  destruct p as [q1 q2 q3 q4 q5]; cbn [pz_header pz_pn pz_pn_bytes pz_payload pz_length] in *; rewrite Eh; reflexivity.
Qed.

(** The kinds of packets that say where they end. *)
Definition delimited (p : packet) : Prop :=
  match p with PInitial _ | PZeroRtt _ | PHandshake _ => True | _ => False end.

(** ** C120 *)
Theorem C120_packet_alone : forall P oc c s p rest,
  prims_ok P -> keyed P oc c -> bytes_ok s -> len s < 2 ^ 63 -> delimited p ->
  decode_next_packet oc c s = Ok (p, rest) ->
  exists w, s = w ++ rest /\
    forall rest', bytes_ok rest' -> decode_next_packet oc c (w ++ rest') = Ok (p, rest').
Proof.
  intros P oc c s p rest HP [[ki Ki] KK] B LS T D.
  destruct p as [v|p|p|p|p|p]; try contradiction.
  - eapply initial_alone; eauto. apply KK.
  - destruct (KK SpApplication) as [NA [X|[k K]]]; [|eapply zero_rtt_alone; eauto].
    destruct (zero_rtt_no_keys oc c s B X) as [e E].
    destruct (decode_next_cases oc c s B) as [[w [e' [_ E']]]|[[b' [s2 [h [r [Es [Hb' [El [E0 E']]]]]]]]|[b' [s2 [h [r [_ [_ [_ E']]]]]]]]];
      [congruence| |]; rewrite E' in D; [destruct (kind b' (lh_version h))|]; inv_bind; discriminate || congruence.
  - destruct (KK SpHandshake) as [NA [X|[k K]]]; [|eapply handshake_alone; eauto].
    destruct (handshake_no_keys oc c s B X) as [e E].
    destruct (decode_next_cases oc c s B) as [[w [e' [_ E']]]|[[b' [s2 [h [r [Es [Hb' [El [E0 E']]]]]]]]|[b' [s2 [h [r [_ [_ [_ E']]]]]]]]];
      [congruence| |]; rewrite E' in D; [destruct (kind b' (lh_version h))|]; inv_bind; discriminate || congruence.
Qed.
Print Assumptions C120_packet_alone.

(** Hence a datagram of such packets, of whatever kinds, followed by anything
    decodes to these packets followed by whatever the rest decodes to. *)
Theorem C120_datagrams_compose : forall P oc c a b ps,
  prims_ok P -> keyed P oc c -> bytes_ok (a ++ b) -> len (a ++ b) < 2 ^ 63 ->
  decode_packets oc c a = Ok ps -> Forall delimited ps ->
  decode_packets oc c (a ++ b) = let? qs := decode_packets oc c b in Ok (ps ++ qs).
Proof.
  intros P oc c a b ps HP K B LS D T. apply bytes_ok_app in B as [Ba Bb]. rewrite len_app in LS.
  assert (F : forall f s, (length s <= f)%nat -> bytes_ok s -> len s < 2 ^ 63 ->
    decode_packets_loop oc c f s = decode_packets oc c s).
  { intros f s. revert f. induction s as [s IH] using (well_founded_induction
      (Wf_nat.well_founded_ltof _ (@length N))). intros f Hf Bs Lf. unfold decode_packets.
    destruct s as [|x s]; [destruct f; reflexivity|]. destruct f as [|f]; [cbn in Hf; lia|].
    cbn [decode_packets_loop length]. destruct (decode_next_packet oc c (x :: s)) as [[p r]| | |] eqn:E; try reflexivity.
    cbn [bind]. destruct (C108_one_packet P oc c (x :: s) p r HP K Bs Lf E) as [[u Eu] W].
    assert (LU : (length r < length (x :: s))%nat) by (unfold packet_weight, len in W; lia).
    cbn [length] in LU, Hf. rewrite Eu in Bs. apply bytes_ok_app in Bs as [_ Br].
    assert (Lr : len r < 2 ^ 63) by (rewrite Eu, len_app in Lf; lia).
    rewrite !(IH r); auto; try lia. }
  revert a Ba LS D. induction T as [|p ps Tp T IH]; intros a Ba LS D.
  - destruct a as [|x a]; [cbn [app]; destruct (decode_packets oc c b); reflexivity|]. exfalso.
    unfold decode_packets in D. cbn [length decode_packets_loop] in D. inv_bind. discriminate D.
  - destruct a as [|x a]; [discriminate D|].
    unfold decode_packets in D. cbn [length decode_packets_loop] in D.
    destruct (decode_next_packet oc c (x :: a)) as [[p' s1]| | |] eqn:E; cbn [bind] in D; try discriminate D.
    assert (LA : len (x :: a) < 2 ^ 63) by lia.
    destruct (C108_one_packet P oc c (x :: a) p' s1 HP K Ba LA E) as [_ W].
    destruct (decode_packets_loop oc c (length a) s1) as [ps'| | |] eqn:E1; cbn [bind] in D; try discriminate D.
    injection D as -> ->.
    destruct (C120_packet_alone P oc c (x :: a) p s1 HP K Ba LA Tp E) as [w [Ew H]].
    assert (Bs : bytes_ok s1) by (rewrite Ew in Ba; apply bytes_ok_app in Ba as [_ Bs]; exact Bs).
    assert (L1 : (length s1 <= length a)%nat) by (unfold packet_weight, len in W; cbn [length] in W; lia).
    assert (Ls : len s1 + len b < 2 ^ 63) by lia.
    rewrite F in E1 by (auto; lia). specialize (IH s1 Bs Ls E1). rewrite Ew, <- app_assoc.
    specialize (H (s1 ++ b)). rewrite bytes_ok_app in H. specialize (H (conj Bs Bb)).
    destruct w as [|y w].
    { exfalso. cbn [app] in Ew. rewrite <- Ew in L1. cbn [length] in L1. lia. }
    unfold decode_packets at 1. cbn [app length decode_packets_loop]. cbn [app] in H. rewrite H. cbn [bind].
    rewrite F, IH; [|rewrite !app_length; lia|apply bytes_ok_app; auto|rewrite len_app; exact Ls].
    destruct (decode_packets oc c b); reflexivity.
Qed.
Print Assumptions C120_datagrams_compose.

(** A datagram is exactly its packets (C56), whatever keys the connection has. *)
Theorem C120_exactly : forall P oc c s ps,
  prims_ok P -> keyed P oc c -> bytes_ok s -> len s < 2 ^ 63 ->
  decode_packets oc c s = Ok ps <-> partition oc c s ps.
Proof.
  intros P oc c s ps HP K B LS. split.
  - unfold decode_packets. generalize (length s) as fuel. intros fuel. revert s ps B LS.
    induction fuel as [|fuel IH]; intros [|x s] ps B LS D; cbn [decode_packets_loop] in D; try discriminate;
      try (injection D as <-; constructor).
    destruct (decode_next_packet oc c (x :: s)) as [[p s1]| | |] eqn:E; cbn [bind] in D; try discriminate D.
    destruct (decode_packets_loop oc c fuel s1) as [ps'| | |] eqn:E1; cbn [bind] in D; try discriminate D.
    injection D as <-.
    destruct (C108_one_packet P oc c (x :: s) p s1 HP K B LS E) as [[used Eu] W].
    rewrite Eu in *. apply bytes_ok_app in B as [_ B]. rewrite len_app in *.
    constructor; [|exact E|apply IH; auto; lia].
    intros ->. unfold packet_weight in W. change (len (@nil N)) with 0 in W. lia.
  - intros Pt. unfold decode_packets.
    assert (G : forall fuel, (length s <= fuel)%nat -> decode_packets_loop oc c fuel s = Ok ps); [|apply G; lia].
    clear B LS. induction Pt as [|w s p ps NE D Pt IH]; intros fuel Hf.
    + destruct fuel; reflexivity.
    + destruct w as [|x w]; [congruence|]. destruct fuel as [|fuel]; [cbn in Hf; lia|].
      cbn [app decode_packets_loop]. cbn [app] in D. rewrite D. cbn [bind].
      rewrite IH; [reflexivity|]. cbn in Hf. rewrite app_length in Hf. lia.
Qed.
Print Assumptions C120_exactly.

(** Only the last packet can be one that does not say where it ends. *)
Theorem C120_last : forall P oc c s ps,
  prims_ok P -> keyed P oc c -> bytes_ok s -> len s < 2 ^ 63 ->
  decode_packets oc c s = Ok ps -> Forall delimited (removelast ps).
Proof.
  intros P oc c s ps HP K B LS D. apply (C120_exactly P oc c s ps HP K B LS) in D.
  induction D as [|w s p ps NE D Pt IH]; [constructor|].
  pose proof B as B'. apply bytes_ok_app in B' as [_ Bs]. rewrite len_app in LS.
  specialize (IH Bs ltac:(lia)).
  assert (X : delimited p \/ s = []).
  { destruct p as [v|p|p|p|p|p]; cbn [delimited]; auto; right.
    - destruct (decode_next_cases oc c _ B) as [[y [e [_ E]]]|[[b [s1 [h [r [Es [Hb [El [E0 E]]]]]]]]|[b [s1 [h [r [_ [_ [_ E]]]]]]]]].
      + congruence.
      + rewrite E in D. destruct (kind b (lh_version h)); inv_bind; try discriminate.
        destruct (vn_total _ B) as [[q Ev]|[e Ev]]; rewrite Ev in *; inv_bind; congruence.
      + rewrite E in D. inv_bind. discriminate.
    - exfalso.
      destruct (decode_next_cases oc c _ B) as [[y [e [_ E]]]|[[b [s1 [h [r [Es [Hb [El [E0 E]]]]]]]]|[b [s1 [h [r [_ [_ [_ E]]]]]]]]].
      + congruence.
      + rewrite E in D. destruct (kind b (lh_version h)); inv_bind; try discriminate.
      + rewrite E in D. inv_bind. discriminate.
    - destruct K as [_ KK]. destruct (KK SpApplication) as [NA [NK|[k Kk]]].
      + exfalso. destruct (one_rtt_no_keys oc c _ B NK) as [e E].
        destruct (decode_next_cases oc c _ B) as [[y [e' [_ E']]]|[[b [s1 [h [r [Es [Hb [El [E0 E']]]]]]]]|[b [s1 [h [r [_ [_ [_ E']]]]]]]]];
          [congruence| |]; rewrite E' in D; [destruct (kind b (lh_version h))|]; inv_bind; discriminate || congruence.
      + destruct (C63_one_rtt_authentic P oc c k _ p s HP Kk NA B D)
          as [b0 [dd [ppn [ct [tag [m0 [mask [more [nonce [pt [_ [Er _]]]]]]]]]]]]. exact Er. }
  destruct X as [X| ->].
  - destruct ps as [|q ps]; [constructor|]. change (removelast (p :: q :: ps)) with (p :: removelast (q :: ps)).
    constructor; auto.
  - destruct ps as [|q ps]; [constructor|]. exfalso.
    inversion Pt. match goal with X : _ ++ _ = [] |- _ => apply app_eq_nil in X as [-> ->] end. auto.
Qed.
Print Assumptions C120_last.

(** [w] is the packet [p] as an RFC sender with the keys [ki], [kh], [ka] of the
    three spaces writes it, with its number in four bytes. *)
Inductive packet_wire (P : prims) (oc : bool) (ki kh ka : keys) : packet -> list N -> Prop :=
| wire_initial p pt w : initial_wire P ki p pt w -> pi_pn p < 256 ^ len (pi_pn_bytes p) -> len (pi_pn_bytes p) = 4 ->
    deserialize_frames oc pt = Ok (pi_payload p) -> packet_wire P oc ki kh ka (PInitial p) w
| wire_zero_rtt p pt w : zero_rtt_wire P ka p pt w -> pz_pn p < 256 ^ len (pz_pn_bytes p) -> len (pz_pn_bytes p) = 4 ->
    deserialize_frames oc pt = Ok (pz_payload p) -> packet_wire P oc ki kh ka (PZeroRtt p) w
| wire_handshake p pt w : handshake_wire P kh p pt w -> ph_pn p < 256 ^ len (ph_pn_bytes p) -> len (ph_pn_bytes p) = 4 ->
    deserialize_frames oc pt = Ok (ph_payload p) -> packet_wire P oc ki kh ka (PHandshake p) w.

(** What may end a datagram: nothing, or one 1-RTT packet. *)
Inductive last_wire (P : prims) (oc : bool) (ka : keys) : list packet -> list N -> Prop :=
| last_none : last_wire P oc ka [] []
| last_one_rtt p pt w : one_rtt_wire P ka p pt w -> po_pn p < 256 ^ len (po_pn_bytes p) -> len (po_pn_bytes p) = 4 ->
    deserialize_frames oc pt = Ok (po_payload p) -> last_wire P oc ka [POneRtt p] w.

(** Initial, 0-RTT and Handshake packets in any number and order, and perhaps a
    1-RTT packet at the end: all of them are decoded, in this order. *)
Theorem C120_mixed : forall P oc c ki kh ka ps wires ls w,
  prims_ok P -> remote_keys P oc c SpInitial ki -> remote_keys P oc c SpHandshake kh ->
  remote_keys P oc c SpApplication ka -> (forall sp, no_remote_ack c sp) ->
  Forall2 (packet_wire P oc ki kh ka) ps wires -> last_wire P oc ka ls w ->
  decode_packets oc c (concat wires ++ w) = Ok (ps ++ ls).
Proof.
  intros P oc c ki kh ka ps wires ls w HP Ki Kh Ka NA F L. unfold decode_packets.
  assert (G : forall n, (length (concat wires ++ w) <= n)%nat ->
    decode_packets_loop oc c n (concat wires ++ w) = Ok (ps ++ ls)).
  2:{ apply G. lia. }
  induction F as [|p v ps vs PW F IH]; intros n Hn; cbn [concat app] in *.
  - destruct L as [|p pt w W Hp L4 D]; [destruct n; reflexivity|].
    pose proof (C61_one_rtt_partial P oc c ka p pt w HP Ka (NA _) W Hp L4 D) as E.
    destruct w as [|x w]; [discriminate E|]. destruct n as [|n]; [cbn in Hn; lia|].
    cbn [decode_packets_loop]. rewrite E. cbn [bind]. destruct n; reflexivity.
  - assert (E : forall rest, decode_next_packet oc c (v ++ rest) = Ok (p, rest)).
    { intros rest. destruct PW as [p pt v W Hp L4 D|p pt v W Hp L4 D|p pt v W Hp L4 D].
      - eapply initial_decodes; eauto. rewrite L4 in Hp. exact Hp.
      - eapply C61_zero_rtt_partial; eauto.
      - eapply C61_handshake_partial; eauto. }
    assert (NE : v <> []) by (intros ->; specialize (E []); discriminate E).
    rewrite <- app_assoc in *. destruct v as [|x v]; [contradiction|].
    cbn [app length] in *. destruct n as [|n]; [lia|]. cbn [decode_packets_loop].
    specialize (E (concat vs ++ w)). cbn [app] in E. rewrite E. cbn [bind].
    rewrite IH; [reflexivity|]. rewrite !app_length in Hn. rewrite app_length. lia.
Qed.
Print Assumptions C120_mixed.

(** An Initial packet, a Handshake packet and a 1-RTT packet in one datagram:
    the three packets; and Handshake, Initial, Handshake. *)
Example C120_case :
  (let? (c, s) := three_keys in
   let? p := snd (initial_new true sample_payload (Some [7]) c) in
   let? w1 := initial_serialize true p c in
   let? h := snd (handshake_new true [Ping; Padding] c) in
   let? w2 := handshake_serialize true h c in
   let b := 0x43 in
   let d := be_bytes 8 (cid_val sample_id) in
   let? body := encrypt_local_payload c SpApplication [1; 1; 1; 1] (b :: d ++ [0; 0; 0; 9]) 9 in
   let? mask := get_local_hp_mask c SpApplication body in
   let w3 := N.lxor b (N.land (nth 0 mask 0) 0x1f) :: d ++ xor_bytes [0; 0; 0; 9] (skipn 1 mask) ++ body in
   let? ps := decode_packets true s (w1 ++ w2 ++ w3) in
   let? qs := decode_packets true s (w2 ++ w1 ++ w2) in
   let view q := match q with
     | PInitial q => (1, pi_pn q, pi_payload q) | PHandshake q => (2, ph_pn q, ph_payload q)
     | POneRtt q => (3, po_pn q, po_payload q) | _ => (0, 0, []) end in
   Ok (map view ps, map view qs)) =
  Ok ([(1, 2, sample_payload); (2, 1, [Ping; Padding]); (3, 9, [Ping; Ping; Ping; Ping])],
      [(2, 1, [Ping; Padding]); (1, 2, sample_payload); (2, 1, [Ping; Padding])]).
Proof. vm_compute. reflexivity. Qed.

(** ** C121: a packet that cannot be read does not cost the others.

    Full statement (RFC 9000 section 12.2: the receiver MUST attempt to process the
    remaining packets): Initial packets that are read are read also when a Handshake
    packet to the same id follows in the datagram, for which the connection has no
    keys. *)
Definition C121_statement : Prop := forall P oc srv d l c ps a kh q qt w,
  prims_ok P -> reachable P oc srv d l c -> bytes_ok a ->
  decode_packets oc c a = Ok (map PInitial ps) -> ps <> [] ->
  Forall (fun p => lh_dcid (pi_header p) = lh_dcid (ph_header q) /\ lh_dcid_len (pi_header p) = lh_dcid_len (ph_header q)) ps ->
  keys_ok kh -> handshake_wire P kh q qt w ->
  exists qs, decode_packets oc c (a ++ w) = Ok qs /\ incl (map PInitial ps) qs.

Lemma reachable_keyed P oc srv d l c : prims_ok P -> reachable P oc srv d l c -> keyed P oc c.
Proof.
  intros HP R. pose proof (reachable_inv _ _ _ _ _ _ HP R) as I. split.
  - destruct (ci_keys _ _ _ _ _ _ I) as [cid [kl [kr [_ [_ [_ [_ K]]]]]]]. eauto.
  - intros sp. split; [apply (ci_acks _ _ _ _ _ _ I)|].
    destruct sp.
    + right. destruct (ci_keys _ _ _ _ _ _ I) as [cid [kl [kr [_ [_ [_ [_ K]]]]]]]. eauto.
    + left. apply (ci_none _ _ _ _ _ _ I). discriminate.
    + left. apply (ci_none _ _ _ _ _ _ I). discriminate.
Qed.

(** Whatever was decoded before, what is refused refuses the datagram. *)
Theorem C121_one_costs_all : forall P oc c a b ps e,
  prims_ok P -> keyed P oc c -> bytes_ok (a ++ b) -> len (a ++ b) < 2 ^ 63 ->
  decode_packets oc c a = Ok ps -> Forall delimited ps -> b <> [] ->
  decode_next_packet oc c b = Err e -> decode_packets oc c (a ++ b) = Err e.
Proof.
  intros P oc c a b ps e HP K B LS D T NE E.
  rewrite (C120_datagrams_compose P oc c a b ps HP K B LS D T).
  destruct b as [|x b]; [congruence|]. unfold decode_packets. cbn [length decode_packets_loop]. rewrite E. reflexivity.
Qed.
Print Assumptions C121_one_costs_all.

(** So on every connection of the library a Handshake, 0-RTT or 1-RTT packet,
    whoever made it, makes all packets of its datagram lost. *)
Theorem C121_flight_lost : forall P oc srv d l c a b ps,
  prims_ok P -> reachable P oc srv d l c -> bytes_ok (a ++ b) -> len (a ++ b) < 2 ^ 63 ->
  decode_packets oc c a = Ok (map PInitial ps) ->
  announces b THandshake \/ announces b TZeroRtt \/ announces b TOneRtt ->
  exists e, decode_packets oc c (a ++ b) = Err e.
Proof.
  intros P oc srv d l c a b ps HP R B LS D A.
  assert (Bb : bytes_ok b) by (apply bytes_ok_app in B as [_ Bb]; exact Bb).
  destruct (C28_no_protected_packet_accepted P oc srv d l c b HP R Bb) as [_ H].
  destruct (H A) as [e E]. exists e.
  apply (C121_one_costs_all P oc c a b (map PInitial ps)); auto.
  - eapply reachable_keyed; eauto.
  - apply Forall_map, Forall_forall. intros p _. exact I.
  - intros ->. destruct A as [A|[A|A]]; inversion A.
Qed.
Print Assumptions C121_flight_lost.

(** And a single byte put behind a datagram ends the thread that reads it. *)
Theorem C121_one_byte : forall P oc srv d l c a x ps,
  prims_ok P -> reachable P oc srv d l c -> bytes_ok (a ++ [x]) -> len (a ++ [x]) < 2 ^ 63 ->
  decode_packets oc c a = Ok (map PInitial ps) ->
  exists w, decode_packets oc c (a ++ [x]) = Panic w.
Proof.
  intros P oc srv d l c a x ps HP R B LS D.
  rewrite (C120_datagrams_compose P oc c a [x] (map PInitial ps)); auto;
    [|eapply reachable_keyed; eauto|apply Forall_map, Forall_forall; intros p _; exact I].
  apply bytes_ok_app in B as [_ B].
  destruct (decode_next_cases oc c [x] B) as [[w [e' [_ E]]]|[[b' [s2 [h [r [Es [Hb' [El _]]]]]]]|[b' [s2 [h [r [Es [_ [El _]]]]]]]]].
  - exists w. unfold decode_packets. cbn [length decode_packets_loop]. rewrite E. reflexivity.
  - exfalso. injection Es as <- <-. vm_compute in El. discriminate El.
  - exfalso. injection Es as <- <-. vm_compute in El. discriminate El.
Qed.
Print Assumptions C121_one_byte.

Lemma handshake_announced P k p pt w : handshake_wire P k p pt w -> announces w THandshake.
Proof.
  intros [fields [ll [Hb [Ht [Hv [VN [Hp [HF [HL [Bpt PR]]]]]]]]]].
  destruct PR as [_ [_ [nonce [ct [tag [m0 [mask [more [_ [_ [_ [_ [_ ->]]]]]]]]]]]]].
  destruct (type_of_b0 (lh_byte (ph_header p)) 2 Hb ltac:(lia) Ht) as [Hl Tb].
  pose proof (xor_mask_byte (lh_byte (ph_header p)) m0 15 Hb ltac:(lia)) as X.
  pose proof (low4_div (lh_byte (ph_header p)) m0) as D4.
  destruct HF as [v [dd [sc [[_ [Lv Ev]] [L1 [[_ [_ [Ld _]]] [L2 [[_ [_ [Ls _]]] ->]]]]]]]].
  rewrite <- !app_assoc. cbn [app]. rewrite <- !app_assoc. cbn [app]. rewrite <- Ld, <- Ls.
  apply an_long; [lia|exact Lv|congruence|lia|lia|]. rewrite D4, Tb. reflexivity.
Qed.

Lemma handshake_wire_bytes_ok P k p pt w : prims_ok P -> keys_ok k -> handshake_wire P k p pt w -> bytes_ok w.
Proof.
  intros HP KO [fields [ll [Hb [Ht [Hv [VN [Hp [HF [HL [Bpt PR]]]]]]]]]].
  eapply (protected_bytes_ok P k 0x0f); [exact HP|exact KO|reflexivity|exact Hb| |exact Bpt|exact PR].
  apply bytes_ok_app. split; [eapply long_fields_bytes_ok; eauto|eapply varint_enc_bytes_ok; eauto].
Qed.

(** In the terms of the full statement: no such datagram is ever read. *)
Theorem C121_rfc_flight_lost : forall P oc srv d l c k ps wires kh q qt w rest,
  prims_ok P -> reachable P oc srv d l c -> remote_keys P oc c SpInitial k ->
  Forall2 (fun p w => exists pt, initial_wire P k p pt w /\ len (pi_pn_bytes p) = 4 /\ pi_pn p < 2 ^ 32 /\
                                 deserialize_frames oc pt = Ok (pi_payload p)) ps wires ->
  keys_ok kh -> handshake_wire P kh q qt w -> bytes_ok rest ->
  exists e, decode_packets oc c (concat wires ++ w ++ rest) = Err e.
Proof.
  intros P oc srv d l c k ps wires kh q qt w rest HP R K F KO W Br.
  pose proof (handshake_announced _ _ _ _ _ W) as A.
  assert (A' : announces (w ++ rest) THandshake).
  { inversion A as [| |b v dd sc r t Hb Lv Ev L1 L2 Et E E']. subst. cbn [app]. rewrite <- !app_assoc. cbn [app].
    rewrite <- !app_assoc. cbn [app]. rewrite <- !app_assoc. apply an_long; auto. }
  assert (B : bytes_ok (w ++ rest)) by (apply bytes_ok_app; split; [eapply handshake_wire_bytes_ok; eauto|exact Br]).
  destruct (C28_no_protected_packet_accepted P oc srv d l c (w ++ rest) HP R B) as [_ H].
  destruct (H (or_introl A')) as [e E]. exists e. unfold decode_packets.
  pose proof (reachable_inv _ _ _ _ _ _ HP R) as Inv.
  assert (G : forall n, (length (concat wires ++ w ++ rest) <= n)%nat ->
    decode_packets_loop oc c n (concat wires ++ w ++ rest) = Err e).
  2:{ apply G. lia. }
  induction F as [|p v ps vs [pt [IW [L4 [Hp Df]]]] F IH]; intros n Hn; cbn [concat app] in *.
  - destruct (w ++ rest) as [|x s]; [inversion A'|]. destruct n as [|n]; [cbn in Hn; lia|].
    cbn [decode_packets_loop]. rewrite E. reflexivity.
  - assert (E1 : forall r, decode_next_packet oc c (v ++ r) = Ok (PInitial p, r)).
    { intros r. eapply initial_decodes; eauto. apply (ci_acks _ _ _ _ _ _ Inv). }
    destruct v as [|x v]; [specialize (E1 []); discriminate E1|].
    rewrite <- app_assoc in *. cbn [app length] in *. destruct n as [|n]; [lia|]. cbn [decode_packets_loop].
    specialize (E1 (concat vs ++ w ++ rest)). cbn [app] in E1. rewrite E1. cbn [bind].
    rewrite IH; [reflexivity|]. rewrite !app_length in *. lia.
Qed.
Print Assumptions C121_rfc_flight_lost.

Theorem C121_refuted : ~ C121_statement.
Proof.
  intros H. destruct (sample_reachable false) as [c R]. destruct (sample_reachable true) as [s R'].
  destruct (peer_keys real_prims true false sample_id 8 c s real_prims_ok R R') as [k [K1 [K2 NA]]].
  assert (KO : keys_ok k) by (destruct K2 as [? [_ K]]; apply K).
  assert (ID : id_fits sample_id 8) by (repeat split; vm_compute; (reflexivity || discriminate)).
  destruct (conformant_exists real_prims true false sample_id 8 c
    (LongHeader 0xc3 1 8 sample_id 8 sample_id None false) 7 [0; 0; 0; 7] [] [Ping; Ping; Ping] [1; 1; 1] k) as [wi Wi];
    auto using real_prims_ok; try reflexivity; try (repeat constructor; discriminate).
  { apply header_of; auto; (reflexivity || discriminate). }
  destruct (wire_parts real_prims k 0xe3 1 sample_id 8 sample_id 8 7 [1]) as [fields [ll [w [HF [VL [W B]]]]]];
    auto using real_prims_ok; try reflexivity; try (repeat constructor; reflexivity).
  set (p := PacketInitial (LongHeader 0xc3 1 8 sample_id 8 sample_id None false) [] 7 [0; 0; 0; 7] [Ping; Ping; Ping]) in *.
  set (q := PacketHandshake (LongHeader 0xe3 1 8 sample_id 8 sample_id None false) (be_bytes 4 7) 7 [Ping]).
  assert (Wh : handshake_wire real_prims k q [1] w).
  { exists fields, ll. cbn [q ph_header ph_pn ph_pn_bytes lh_byte lh_version lh_vn lh_protected]. rewrite be_bytes_len.
    split; [reflexivity|]. split; [reflexivity|]. split; [discriminate|]. split; [reflexivity|]. split; [reflexivity|].
    split; [exact HF|]. split; [exact VL|]. split; [repeat constructor; reflexivity|exact W]. }
  assert (F : Forall2 (fun p w => exists pt, initial_wire real_prims k p pt w /\ len (pi_pn_bytes p) = 4 /\ pi_pn p < 2 ^ 32 /\
                                 deserialize_frames true pt = Ok (pi_payload p)) [p] [wi]).
  { constructor; [|constructor]. exists [1; 1; 1]. split; [exact Wi|]. split; [reflexivity|]. split; reflexivity. }
  assert (D : decode_packets true s wi = Ok (map PInitial [p])).
  { assert (E1 : decode_next_packet true s (wi ++ []) = Ok (PInitial p, [])).
    { inversion F as [|? ? ? ? [pt [IW [L4 [Hp Df]]]] _]. subst. eapply initial_decodes; eauto using real_prims_ok. }
    rewrite app_nil_r in E1. destruct wi as [|x wi]; [discriminate E1|].
    unfold decode_packets. cbn [length decode_packets_loop]. rewrite E1. cbn [bind].
    destruct (length wi); reflexivity. }
  assert (Bw : bytes_ok wi).
  { destruct Wi as [f0 [t0 [l0 [Y1 [_ [_ [_ [_ [Y2 [Y3 [Y4 [Y5 [Y6 Y7]]]]]]]]]]]]].
    eapply (protected_bytes_ok real_prims k 0x0f); [exact real_prims_ok|exact KO|reflexivity|exact Y1| |exact Y6|exact Y7].
    apply bytes_ok_app. split; [eapply long_fields_bytes_ok; eauto|]. apply bytes_ok_app.
    split; [eapply varint_enc_bytes_ok; eauto|]. apply bytes_ok_app. split; [exact Y4|eapply varint_enc_bytes_ok; eauto]. }
  destruct (H real_prims true true sample_id 8 s [p] wi k q [1] w real_prims_ok R' Bw D ltac:(discriminate)
    ltac:(constructor; [split; reflexivity|constructor]) KO Wh) as [qs [E _]].
  destruct (C121_rfc_flight_lost real_prims true true sample_id 8 s k [p] [wi] k q [1] w [] real_prims_ok R' K2 F KO Wh) as [e E'];
    [constructor|]. cbn [concat] in E'. rewrite !app_nil_r in E'. rewrite E in E'. discriminate E'.
Qed.
Print Assumptions C121_refuted.

(** An Initial packet alone, followed by a Handshake packet, and by one byte. *)
Example C121_case :
  (let? (c, s) := sample_pair true in
   let? p := snd (initial_new true sample_payload (Some [7]) c) in
   let? w1 := initial_serialize true p c in
   let? (ck, _) := three_keys in
   let? h := snd (handshake_new true sample_payload ck) in
   let? w2 := handshake_serialize true h ck in
   Ok (match decode_packets true s w1 with Ok ps => map packet_kind ps | _ => [] end,
       match decode_packets true s (w1 ++ w2) with Err _ => true | _ => false end,
       match decode_packets true s (w1 ++ [0]) with Panic _ => true | _ => false end)) =
  Ok ([TInitial], true, true).
Proof. vm_compute. reflexivity. Qed.
