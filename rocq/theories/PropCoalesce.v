(** C82 and C83: what a packet or a frame means does not depend on what follows. *)
From Verif Require Import Base Utils Frame CipherSuite Secrets Connection Packet Histories Spec SpecPacket
  Tactics UtilsFacts ParserFacts FrameFacts SecretsFacts HeaderFacts PacketFacts ConnectionFacts PacketInv
  DecodeFacts SendFacts BuildFacts CryptoInst PropFrame PropPacket PropDecode PropWire.

(** ** C82: an accepted Initial packet means the same in front of anything. *)
Theorem C82_packet_alone : forall P oc srv d l c k s p rest,
  prims_ok P -> reachable P oc srv d l c -> remote_keys P oc c SpInitial k -> bytes_ok s -> len s < 2 ^ 63 ->
  decode_next_packet oc c s = Ok (PInitial p, rest) ->
  exists w, s = w ++ rest /\
    forall rest', bytes_ok rest' -> decode_next_packet oc c (w ++ rest') = Ok (PInitial p, rest').
Proof.
  intros P oc srv d l c k s p rest HP R K B LS D. pose proof (reachable_inv _ _ _ _ _ _ HP R) as I.
  pose proof (proj1 (ci_acks _ _ _ _ _ _ I SpInitial)) as NA.
  destruct (initial_inv P oc c k s p rest HP K NA B LS D)
    as [h [fields [tl [L [ll [ppn [body [m0 [mask [more [nonce [ct [tag [pt [SH [Ee [Lm [Bm [Eh [Ln [Bn [En [Ep [Eb [EL [Lt [Hn [Ho Df]]]]]]]]]]]]]]]]]]]]]]]]]]]].
  destruct SH as [Hb Hlong Ht Hv VN HF HT BT HL Lp4 Bp Bb Ew].
  exists (lh_byte h :: fields ++ tl ++ pi_token p ++ ll ++ ppn ++ ct ++ tag).
  split; [rewrite Ew, Eb; cbn [app]; rewrite <- !app_assoc; reflexivity|].
  intros rest' Br. rewrite Eb in Bb. apply bytes_ok_app in Bb as [Bct Bb]. apply bytes_ok_app in Bb as [Btag _].
  set (body' := ct ++ tag ++ rest').
  assert (Bb' : bytes_ok body') by (unfold body'; rewrite !bytes_ok_app; auto).
  assert (S16 : firstn 16 body' = firstn 16 body).
  { rewrite Eb. unfold body'. rewrite !app_assoc, !(firstn_app _ (ct ++ tag)).
    replace (16 - length (ct ++ tag))%nat with 0%nat by (rewrite app_length; unfold len in Lt; lia). reflexivity. }
  assert (SH' : initial_shape h fields tl (pi_token p) L ll ppn body' (lh_byte h :: fields ++ tl ++ pi_token p ++ ll ++ ppn ++ body'))
    by (constructor; auto).
  replace ((lh_byte h :: fields ++ tl ++ pi_token p ++ ll ++ ppn ++ ct ++ tag) ++ rest')
    with (lh_byte h :: fields ++ tl ++ pi_token p ++ ll ++ ppn ++ body')
    by (unfold body'; cbn [app]; rewrite <- !app_assoc; reflexivity).
  rewrite (long_dispatch oc c h fields (lh_byte h)) by auto. rewrite Ht.
  pose proof (initial_eq P oc c k _ _ _ _ _ _ _ _ _ HP K NA SH') as Q.
  destruct (N.ltb_spec (len body') 16) as [L16|L16].
  { exfalso. unfold body' in L16. rewrite !len_app in L16. lia. }
  destruct Q as [m0' [mask' [more' [Ecb [Lm' [Bm' Q]]]]]]. rewrite Q.
  rewrite S16, Ee in Ecb. injection Ecb as <- Em.
  apply cons_app_inj in Em as [<- _]; [|apply len_length; congruence].
  unfold initial_rest. cbv zeta. rewrite Eh in *. cbn [with_byte lh_byte] in *.
  set (first := N.lxor (lh_byte h) (N.land m0 15)) in *.
  rewrite <- Ln, <- En, <- Ep. rewrite sub64_ok by lia. cbn [bind].
  replace (L - len (pi_pn_bytes p)) with (len (ct ++ tag)) by (rewrite len_app; lia).
  unfold body'. rewrite app_assoc, var_bytes_app by auto. cbn [bind].
  pose proof K as [sec [Es Ks]]. unfold decrypt_remote_payload, borrow_remote_tls_secrets. rewrite Es. cbn [ok_or bind].
  assert (Hpn : pi_pn p < 2 ^ 64).
  { rewrite Ep. eapply N.lt_trans; [apply pnb_bound; auto; pose proof (land3_le first); lia|reflexivity]. }
  rewrite (decrypt_payload_eq P oc sec k ct tag _ _ nonce Ks Hpn Hn Lt), Ho. cbn [ok_or bind]. rewrite Df. cbn [bind].
  destruct p as [q1 q2 q3 q4 q5]; cbn [pi_header pi_token pi_pn pi_pn_bytes pi_payload] in *; rewrite Eh; reflexivity.
Qed.
Print Assumptions C82_packet_alone.

(** A datagram of Initial packets followed by anything decodes to these packets
    followed by whatever the rest decodes to. *)
Theorem C82_datagrams_compose : forall P oc srv d l c k a b ps,
  prims_ok P -> reachable P oc srv d l c -> remote_keys P oc c SpInitial k ->
  bytes_ok (a ++ b) -> len (a ++ b) < 2 ^ 63 ->
  decode_packets oc c a = Ok (map PInitial ps) ->
  decode_packets oc c (a ++ b) = let? qs := decode_packets oc c b in Ok (map PInitial ps ++ qs).
Proof.
  intros P oc srv d l c k a b ps HP R K B LS D. apply bytes_ok_app in B as [Ba Bb]. rewrite len_app in LS.
  apply (C56_packets_partition P oc srv d l c k a _ HP R K Ba) in D; [|lia].
  assert (F : forall f s, (length s <= f)%nat -> bytes_ok s -> len s < 2 ^ 63 ->
    decode_packets_loop oc c f s = decode_packets oc c s).
  { intros f s. revert f. induction s as [s IH] using (well_founded_induction
      (Wf_nat.well_founded_ltof _ (@length N))). intros f Hf Bs Lf. unfold decode_packets.
    destruct s as [|x s]; [destruct f; reflexivity|]. destruct f as [|f]; [cbn in Hf; lia|].
    cbn [decode_packets_loop length]. destruct (decode_next_packet oc c (x :: s)) as [[p r]| | |] eqn:E; try reflexivity.
    cbn [bind]. destruct (accepted_suffix P oc srv d l c k _ p r HP R K Bs Lf E) as [u [Eu Nu]].
    assert (LU : (length r < length (x :: s))%nat).
    { rewrite Eu, app_length. destruct u; [congruence|cbn; lia]. }
    cbn [length] in LU, Hf. rewrite Eu in Bs. apply bytes_ok_app in Bs as [_ Br].
    assert (Lr : len r < 2 ^ 63) by (rewrite Eu, len_app in Lf; lia).
    rewrite !(IH r); auto; try lia. }
  remember (map PInitial ps) as qs eqn:EQ. revert ps EQ.
  induction D as [|w s p qs NE D Pt IH]; intros ps EQ.
  - cbn [app]. destruct (decode_packets oc c b); reflexivity.
  - destruct ps as [|q ps]; [discriminate|]. injection EQ as -> EQ.
    apply bytes_ok_app in Ba as Ba'. destruct Ba' as [_ Bs]. rewrite len_app in LS.
    specialize (IH Bs ltac:(lia) ps EQ).
    destruct (C82_packet_alone P oc srv d l c k _ q s HP R K Ba ltac:(rewrite len_app; lia) D) as [w' [Ew H]].
    apply app_inv_tail in Ew as <-. rewrite <- app_assoc.
    assert (Bsb : bytes_ok (s ++ b)) by (apply bytes_ok_app; auto). specialize (H (s ++ b) Bsb).
    destruct w as [|x w]; [congruence|]. unfold decode_packets at 1. cbn [app length decode_packets_loop].
    cbn [app] in H. rewrite H. cbn [bind]. rewrite F; [|rewrite !app_length; lia|auto|rewrite len_app; lia].
    rewrite IH. destruct (decode_packets oc c b); reflexivity.
Qed.
Print Assumptions C82_datagrams_compose.

Example C82_case :
  (let? (c, s) := sample_pair true in
   let? p := snd (initial_new true sample_payload (Some [9; 9]) c) in
   let? wire := initial_serialize true p c in
   Ok (map (fun rest => match decode_next_packet true s (wire ++ rest) with
                        | Ok (PInitial q, r) => Some (pi_pn q, pi_payload q, r) | _ => None end)
           [[]; [0xc0]; [1; 2; 3]],
       match decode_packets true s (wire ++ wire) with Ok qs => len qs | _ => 99 end,
       match decode_packets true s (wire ++ [0x40; 1; 2; 3; 4; 5; 6; 7; 8; 9]) with Err _ => true | _ => false end))
  = Ok ([Some (2, sample_payload, []); Some (2, sample_payload, [0xc0]); Some (2, sample_payload, [1; 2; 3])], 2, true).
Proof. vm_compute. reflexivity. Qed.

(** ** C83: frames of a payload are read one by one.

    Full statement: a payload that decodes, followed by another, decodes to the
    frames of both.  The first is made of frames as RFC 9000 lays them out when
    more follows, that is, without STREAM frames that have no Length field:
    those extend to the end of the packet by definition (section 19.8). *)
Definition C83_statement : Prop := forall oc sent parts b fs,
  Forall2 (frame_enc false) sent parts -> bytes_ok b -> deserialize_frames oc (concat parts) = Ok fs ->
  deserialize_frames oc (concat parts ++ b) = let? gs := deserialize_frames oc b in Ok (fs ++ gs).

(** A STREAM frame takes whatever follows it, even when its LEN bit is set
    (0x0a) and its length field says otherwise. *)
Theorem C83_payloads_refuted : ~ C83_statement.
Proof.
  intros H. destruct (C13_encoder_rfc_layout (Stream (stream_new 4 [7] false)) false) as [bs [E F]].
  { repeat split; try reflexivity. apply bytes_ok_dec; reflexivity. }
  vm_compute in E. injection E as <-.
  specialize (H true _ [[0x0a; 4; 1; 7]] [1] _ (Forall2_cons _ _ F (Forall2_nil _))
    ltac:(apply bytes_ok_dec; reflexivity) eq_refl). vm_compute in H. discriminate H.
Qed.
Print Assumptions C83_payloads_refuted.

Lemma frame_alone oc s x r : bytes_ok s -> deserialize_frame oc s = Ok (x, r) -> is_stream x = false ->
  exists w, s = w ++ r /\ w <> [] /\ forall r', bytes_ok r' -> deserialize_frame oc (w ++ r') = Ok (x, r').
Proof.
  intros B D NS. unfold deserialize_frame in *. rewrite var_int_from_stream_eq in D.
  apply bind_ok in D as [[t s1] [E D]]. apply bind_ok in E as [[[t' tb] s1'] [E1 E]]. injection E as <- <-.
  apply varint_dec_inv in E1 as [-> V]; auto. apply bytes_ok_app in B as [Bt B].
  set (ty := cast 8 (N.land t' (shl 64 1 8 - 1))) in *.
  assert (IR : in_range 0x08 0x0f ty = false).
  { destruct (in_range 0x08 0x0f ty) eqn:IR; [|reflexivity]. exfalso. unfold deserialize_frame_body in D.
    unfold in_range in *. apply andb_prop in IR as [I1 I2]. apply N.leb_le in I1, I2.
    repeat match type of D with (if ?b then _ else _) = _ => destruct b eqn:?; [try discriminate; try lia|] end.
    - unfold wrap in D. apply bind_ok in D as [[y q] [_ D]]. injection D as <- <-. discriminate NS.
    - lia. }
  pose proof (delim_body oc ty IR s1' B) as G. rewrite D in G. destruct G as [w [-> [G _]]].
  exists (tb ++ w). split; [rewrite app_assoc; reflexivity|].
  split. { intros X. apply app_eq_nil in X as [-> _]. apply varint_enc_nonempty in V. change (len []) with 0 in V. lia. }
  intros r' Br. rewrite <- app_assoc, (varint_dec' oc _ _ _ V). cbn [bind]. apply G; auto.
Qed.

(** Holds when the first payload has no STREAM frame; missing: STREAM frames. *)
Theorem C83_payloads_partial : forall oc a b fs,
  bytes_ok a -> bytes_ok b -> deserialize_frames oc a = Ok fs -> Forall (fun f => is_stream f = false) fs ->
  deserialize_frames oc (a ++ b) = let? gs := deserialize_frames oc b in Ok (fs ++ gs).
Proof.
  intros oc a b fs Ba Bb D NS. revert a Ba D. induction NS as [|f fs Hf NS IH]; intros a Ba D.
  - destruct a as [|x a].
    + cbn [app]. destruct (deserialize_frames oc b); reflexivity.
    + rewrite deserialize_frames_cons in D by (auto; congruence).
      apply bind_ok in D as [[y r] [_ D]]. apply bind_ok in D as [ys [_ D]]. discriminate D.
  - destruct a as [|x a]; [discriminate D|].
    rewrite deserialize_frames_cons in D by (auto; congruence).
    apply bind_ok in D as [[y r] [E D]]. apply bind_ok in D as [ys [D D']]. injection D' as -> ->.
    destruct (frame_alone oc _ _ _ Ba E Hf) as [w [Ew [NE G]]]. rewrite Ew in *.
    apply bytes_ok_app in Ba as [Bw Br]. rewrite <- app_assoc.
    rewrite deserialize_frames_cons; [|rewrite !bytes_ok_app; auto|destruct w; [congruence|discriminate]].
    rewrite G by (apply bytes_ok_app; auto). cbn [bind]. rewrite (IH r Br D).
    destruct (deserialize_frames oc b); reflexivity.
Qed.
Print Assumptions C83_payloads_partial.
Example C83_case :
  deserialize_frames true ([0x06; 0; 2; 7; 8] ++ [0x1c; 1; 0; 0]) =
  (let? gs := deserialize_frames true [0x1c; 1; 0; 0] in Ok ([Crypto (FrameCrypto 0 2 [7; 8])] ++ gs)) /\
  deserialize_frames true [0x06; 0; 2; 7; 8] = Ok [Crypto (FrameCrypto 0 2 [7; 8])] /\
  deserialize_frames true [0x0a; 4; 1; 7; 1] = Ok [Stream (FrameStream 4 0 3 [1; 7; 1] false)].
Proof. repeat split; vm_compute; reflexivity. Qed.
