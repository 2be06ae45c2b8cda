(** C92: two packets that are the same bytes are the same packet. *)
From Verif Require Import Base Utils Frame CipherSuite Secrets Connection Packet Histories Spec SpecPacket
  Tactics UtilsFacts ParserFacts FrameFacts SecretsFacts HeaderFacts PacketFacts ConnectionFacts SendFacts CryptoInst
  PropFrame PropConn PropPacket PropInjective.

Lemma protected_cons P k bits first mid pnb pn pt w : prims_ok P -> keys_ok k -> bytes_ok pt ->
  protected P k bits first mid pnb pn pt w ->
  exists x body, w = x :: mid ++ body /\ len body = len pnb + len pt + 16.
Proof.
  intros HP [K1 [K2 _]] Hpt [[PF _] [_ [nonce [ct [tag [m0 [mask [more [Hn [S [_ [_ [Lm ->]]]]]]]]]]]]].
  destruct Hn as [_ [Ln _]]. rewrite K2 in Ln.
  destruct (open_law P HP _ _ _ _ _ _ K1 Ln Hpt S) as [L1 [L2 _]].
  eexists _, _. split; [reflexivity|]. rewrite !len_app, xor_len_le by lia. lia.
Qed.

Lemma skipn_app_eq (a b r : list N) n : len a = len b -> (length a <= n)%nat -> skipn n (a ++ r) = skipn n (b ++ r).
Proof. intros L H. rewrite !skipn_app. unfold len in L. rewrite (skipn_all2 a), (skipn_all2 b) by lia.
  replace (length b) with (length a) by lia. reflexivity. Qed.

Lemma lxor_cancel a b m : N.lxor a m = N.lxor b m -> a = b.
Proof.
  intros E. rewrite <- (N.lxor_0_r a), <- (N.lxor_0_r b), <- (N.lxor_nilpotent m), <- !N.lxor_assoc, E. reflexivity.
Qed.

Lemma protected_det P k bits first mid pnb pn pt first' pnb' pn' pt' w :
  prims_ok P -> keys_ok k -> bytes_ok pt -> bytes_ok pt' ->
  protected P k bits first mid pnb pn pt w -> protected P k bits first' mid pnb' pn' pt' w ->
  first = first' /\ pnb = pnb' /\ (pn = pn' -> pt = pt').
Proof.
  intros HP [K1 [K2 _]] B B' [[PF _] [F [nonce [ct [tag [m0 [mask [more [Hn [S [_ [M [Lm E]]]]]]]]]]]]].
  intros [[PF' _] [F' [nonce' [ct' [tag' [m0' [mask' [more' [Hn' [S' [_ [M' [Lm' E']]]]]]]]]]]]].
  pose proof Hn as [_ [Ln _]]. pose proof Hn' as [_ [Ln' _]]. rewrite K2 in Ln, Ln'.
  destruct (open_law P HP _ _ _ _ _ _ K1 Ln B S) as [L1 [L2 [_ [_ O]]]].
  destruct (open_law P HP _ _ _ _ _ _ K1 Ln' B' S') as [L1' [L2' [_ [_ O']]]].
  rewrite E in E'. apply cons_eq in E' as [Ef Et]. apply app_inv_head in Et.
  rewrite (skipn_app_eq pnb (xor_bytes pnb mask)) in M
    by (rewrite ?xor_len_le by lia; unfold len in *; lia).
  rewrite (skipn_app_eq pnb' (xor_bytes pnb' mask')) in M'
    by (rewrite ?xor_len_le by lia; unfold len in *; lia).
  rewrite Et, M' in M. injection M as <- M.
  destruct (app_split mask' mask _ _ ltac:(congruence) M) as [<- _].
  apply lxor_cancel in Ef. subst first'.
  assert (Lp : len pnb = len pnb') by lia.
  destruct (app_split (xor_bytes pnb mask') (xor_bytes pnb' mask') _ _ ltac:(rewrite !xor_len_le by lia; lia) Et) as [Ex Ec].
  assert (pnb = pnb') as <-.
  { rewrite <- (xor_bytes_invol pnb mask'), <- (xor_bytes_invol pnb' mask'), Ex by (unfold len in *; lia). reflexivity. }
  assert (Lc : len ct = len ct') by (apply (f_equal (@len N)) in Ec; rewrite !len_app in Ec; lia).
  destruct (app_split ct ct' tag tag' Lc Ec) as [<- <-].
  repeat split; auto. intros ->. rewrite (nonce_for_fun _ _ _ _ Hn' Hn) in O'. congruence.
Qed.

Lemma long_fields_split h h' f f' r r' : long_fields h f -> long_fields h' f' -> f ++ r = f' ++ r' ->
  lh_version h = lh_version h' /\ lh_dcid_len h = lh_dcid_len h' /\ lh_dcid h = lh_dcid h' /\
  lh_scid_len h = lh_scid_len h' /\ lh_scid h = lh_scid h' /\ f = f' /\ r = r'.
Proof.
  intros [v [d [s [[V1 [V2 V3]] [D1 [[D2 [D3 [D4 D5]]] [S1 [[S2 [S3 [S4 S5]]] ->]]]]]]]].
  intros [v' [d' [s' [[V1' [V2' V3']] [D1' [[D2' [D3' [D4' D5']]] [S1' [[S2' [S3' [S4' S5']]] ->]]]]]]]] E.
  rewrite <- !app_assoc in E. destruct (app_split v v' _ _ ltac:(congruence) E) as [<- E1]. cbn [app] in E1.
  apply cons_eq in E1 as [Ed E1]. rewrite <- !app_assoc in E1.
  destruct (app_split d d' _ _ ltac:(congruence) E1) as [<- E2]. cbn [app] in E2.
  apply cons_eq in E2 as [Es E2]. destruct (app_split s s' _ _ ltac:(congruence) E2) as [<- E3].
  assert (lh_dcid h = lh_dcid h') by (apply cid_val_inj; congruence).
  assert (lh_scid h = lh_scid h') by (apply cid_val_inj; congruence).
  rewrite Ed, Es. repeat split; congruence.
Qed.

Lemma header_eq h h' : lh_byte h = lh_byte h' -> lh_vn h = lh_vn h' -> lh_protected h = lh_protected h' ->
  lh_version h = lh_version h' -> lh_dcid_len h = lh_dcid_len h' -> lh_dcid h = lh_dcid h' ->
  lh_scid_len h = lh_scid_len h' -> lh_scid h = lh_scid h' -> h = h'.
Proof. destruct h, h'. cbn. intros. congruence. Qed.

(** RFC 9000 section 17.2.2 and RFC 9001 section 5: a protected Initial packet at
    the front of a datagram has one reading. *)
Theorem C92_initial_unambiguous : forall P k p q pt pt' w w' r r',
  prims_ok P -> keys_ok k -> initial_wire P k p pt w -> initial_wire P k q pt' w' -> w ++ r = w' ++ r' ->
  r = r' /\ pi_header p = pi_header q /\ pi_token p = pi_token q /\ pi_pn_bytes p = pi_pn_bytes q /\
  (pi_pn p = pi_pn q -> pt = pt').
Proof.
  intros P k p q pt pt' w w' r r' HP HK.
  intros [f [tl [ll [B1 [B2 [B3 [B4 [B5 [HF [HT [BT [HL [Bp HW]]]]]]]]]]]]].
  intros [f' [tl' [ll' [B1' [B2' [B3' [B4' [B5' [HF' [HT' [BT' [HL' [Bp' HW']]]]]]]]]]]]] E.
  destruct (protected_cons _ _ _ _ _ _ _ _ _ HP HK Bp HW) as [x [b [Ew Lb]]].
  destruct (protected_cons _ _ _ _ _ _ _ _ _ HP HK Bp' HW') as [x' [b' [Ew' Lb']]].
  pose proof E as E0. rewrite Ew, Ew' in E0. cbn [app] in E0. apply cons_eq in E0 as [_ E0].
  rewrite <- !app_assoc in E0.
  destruct (long_fields_split _ _ _ _ _ _ HF HF' E0) as [A1 [A2 [A3 [A4 [A5 [<- E1]]]]]].
  destruct (varint_split _ _ _ _ _ _ HT HT' E1) as [Lt E2].
  assert (tl = tl') as <-. { rewrite E2 in E1. apply app_inv_tail in E1. exact E1. }
  destruct (app_split _ _ _ _ Lt E2) as [Et E3].
  destruct (varint_split _ _ _ _ _ _ HL HL' E3) as [Ll E4].
  assert (ll = ll') as <-. { rewrite E4 in E3. apply app_inv_tail in E3. exact E3. }
  destruct (app_split b b' _ _ ltac:(lia) E4) as [Eb ->].
  apply app_inv_tail in E. subst w'. rewrite <- Et in HW'.
  destruct (protected_det _ _ _ _ _ _ _ _ _ _ _ _ _ HP HK Bp Bp' HW HW') as [F1 [F2 F3]].
  split; [reflexivity|]. split; [|auto]. apply header_eq; congruence.
Qed.
Print Assumptions C92_initial_unambiguous.

Theorem C92_handshake_unambiguous : forall P k p q pt pt' w w' r r',
  prims_ok P -> keys_ok k -> handshake_wire P k p pt w -> handshake_wire P k q pt' w' -> w ++ r = w' ++ r' ->
  r = r' /\ ph_header p = ph_header q /\ ph_pn_bytes p = ph_pn_bytes q /\ (ph_pn p = ph_pn q -> pt = pt').
Proof.
  intros P k p q pt pt' w w' r r' HP HK.
  intros [f [ll [B1 [B2 [B3 [B4 [B5 [HF [HL [Bp HW]]]]]]]]]].
  intros [f' [ll' [B1' [B2' [B3' [B4' [B5' [HF' [HL' [Bp' HW']]]]]]]]]] E.
  destruct (protected_cons _ _ _ _ _ _ _ _ _ HP HK Bp HW) as [x [b [Ew Lb]]].
  destruct (protected_cons _ _ _ _ _ _ _ _ _ HP HK Bp' HW') as [x' [b' [Ew' Lb']]].
  pose proof E as E0. rewrite Ew, Ew' in E0. cbn [app] in E0. apply cons_eq in E0 as [_ E0].
  rewrite <- !app_assoc in E0.
  destruct (long_fields_split _ _ _ _ _ _ HF HF' E0) as [A1 [A2 [A3 [A4 [A5 [<- E1]]]]]].
  destruct (varint_split _ _ _ _ _ _ HL HL' E1) as [Ll E4].
  assert (ll = ll') as <-. { rewrite E4 in E1. apply app_inv_tail in E1. exact E1. }
  destruct (app_split b b' _ _ ltac:(lia) E4) as [Eb ->].
  apply app_inv_tail in E. subst w'.
  destruct (protected_det _ _ _ _ _ _ _ _ _ _ _ _ _ HP HK Bp Bp' HW HW') as [F1 [F2 F3]].
  split; [reflexivity|]. split; [|auto]. apply header_eq; congruence.
Qed.
Print Assumptions C92_handshake_unambiguous.

Lemma initial_record p q : pi_header p = pi_header q -> pi_token p = pi_token q -> pi_pn p = pi_pn q ->
  pi_pn_bytes p = pi_pn_bytes q -> pi_payload p = pi_payload q -> p = q.
Proof. destruct p, q. cbn. intros. congruence. Qed.
Lemma handshake_record p q : ph_header p = ph_header q -> ph_pn p = ph_pn q ->
  ph_pn_bytes p = ph_pn_bytes q -> ph_payload p = ph_payload q -> p = q.
Proof. destruct p, q. cbn. intros. congruence. Qed.
Lemma pn_of_field pn pnb : pn_field pn pnb -> len pnb = 4 -> pn <= 0xffffffff -> pn = be_val pnb.
Proof. intros [_ [_ E]] L H. rewrite E, L. change (256 ^ 4) with 4294967296. rewrite N.mod_small; lia. Qed.

(** Two Initial packets sent with the keys of one connection id that start the
    same datagram are the same packet: number, token, ids and every frame. *)
Theorem C92_initial_same_packet : forall P oc srv d l c1 c2 e1 e2 fs gs t u p q wire wire' r r',
  prims_ok P -> reachable P oc srv d l c1 -> reachable P oc srv d l c2 ->
  reachable P oc srv d l e1 -> reachable P oc srv d l e2 ->
  id_fits d l -> scid_fits c1 -> scid_fits e1 -> bytes_ok (token_bytes t) -> bytes_ok (token_bytes u) ->
  Forall frame_wf fs -> Forall frame_wf gs ->
  (forall pt, serialize_frames fs false = Ok pt -> len pt < 2 ^ 63) ->
  (forall pt, serialize_frames gs false = Ok pt -> len pt < 2 ^ 63) ->
  snd (initial_new oc fs t c1) = Ok p -> initial_serialize oc p c2 = Ok wire ->
  snd (initial_new oc gs u e1) = Ok q -> initial_serialize oc q e2 = Ok wire' ->
  wire ++ r = wire' ++ r' -> p = q /\ fs = gs /\ token_bytes t = token_bytes u /\ r = r'.
Proof.
  intros P oc srv d l c1 c2 e1 e2 fs gs t u p q wire wire' r r' HP R1 R2 R3 R4 ID S1 S2 T1 T2 W1 W2 Z1 Z2 N1 E1 N2 E2 E.
  destruct (built_initial _ _ _ _ _ _ _ _ _ HP R1 ID S1 N1) as [HR [PF [Lp [L4 [Ef [Et X]]]]]].
  destruct (built_initial _ _ _ _ _ _ _ _ _ HP R3 ID S2 N2) as [HR' [PF' [Lp' [L4' [Ef' [Et' X']]]]]].
  destruct (ci_keys _ _ _ _ _ _ (reachable_inv _ _ _ _ _ _ HP R2)) as [cid [k [kr [U [A [_ [C _]]]]]]].
  destruct (ci_keys _ _ _ _ _ _ (reachable_inv _ _ _ _ _ _ HP R4)) as [cid' [k' [kr' [U' [A' [_ [C' _]]]]]]].
  assert (cid' = cid) as -> by congruence. rewrite <- (C32_keys_determined P srv cid k k' A A') in C'.
  rewrite <- Ef in W1, Z1. rewrite <- Ef' in W2, Z2. rewrite <- Et in T1. rewrite <- Et' in T2.
  destruct (initial_ser P oc c2 k p wire HP C HR T1 PF ltac:(pows; lia) W1 Z1 E1) as [pt [Ept W]].
  destruct (initial_ser P oc e2 k q wire' HP C' HR' T2 PF' ltac:(pows; lia) W2 Z2 E2) as [pt' [Ept' W']].
  assert (K : keys_ok k) by (destruct C as [s [_ [_ [_ [_ [_ K]]]]]]; exact K).
  destruct (C92_initial_unambiguous _ _ _ _ _ _ _ _ _ _ HP K W W' E) as [Er [Eh [Ek [Eb Ep]]]].
  assert (En : pi_pn p = pi_pn q).
  { rewrite (pn_of_field _ _ PF L4 Lp), (pn_of_field _ _ PF' L4' Lp'), Eb. reflexivity. }
  rewrite <- (Ep En) in Ept'. pose proof (C91_encoder_injective _ _ _ _ _ W1 W2 Ept Ept') as Efs.
  split; [apply initial_record; auto|]. split; [congruence|]. split; congruence.
Qed.
Print Assumptions C92_initial_same_packet.

Theorem C92_handshake_same_packet : forall P oc k c1 c2 e1 e2 d l d' l' fs gs p q wire wire' r r',
  prims_ok P -> local_keys P oc c2 SpHandshake k -> local_keys P oc e2 SpHandshake k ->
  largest_local_ack (borrow_pn_info c1 SpHandshake) = None -> next_pn (borrow_pn_info c1 SpHandshake) < 2 ^ 64 ->
  largest_local_ack (borrow_pn_info e1 SpHandshake) = None -> next_pn (borrow_pn_info e1 SpHandshake) < 2 ^ 64 ->
  c_dcid c1 = (d, l) -> id_fits d l -> scid_fits c1 -> c_dcid e1 = (d', l') -> id_fits d' l' -> scid_fits e1 ->
  Forall frame_wf fs -> Forall frame_wf gs ->
  (forall pt, serialize_frames fs false = Ok pt -> len pt < 2 ^ 63) ->
  (forall pt, serialize_frames gs false = Ok pt -> len pt < 2 ^ 63) ->
  snd (handshake_new oc fs c1) = Ok p -> handshake_serialize oc p c2 = Ok wire ->
  snd (handshake_new oc gs e1) = Ok q -> handshake_serialize oc q e2 = Ok wire' ->
  wire ++ r = wire' ++ r' -> p = q /\ fs = gs /\ r = r'.
Proof.
  intros P oc k c1 c2 e1 e2 d l d' l' fs gs p q wire wire' r r' HP K1 K2 A1 X1 A2 X2 D1 [D2 [D3 D4]] S1 G1 [G2 [G3 G4]] S2
    W1 W2 Z1 Z2 N1 E1 N2 E2 E.
  destruct (handshake_new oc fs c1) as [c' rr] eqn:EN. cbn [snd] in N1. subst rr.
  destruct (handshake_new_inv' _ _ _ _ _ _ _ A1 X1 D1 D3 EN) as [s [sl [Es [Eh [Lp [Eb Ef]]]]]].
  destruct (handshake_new oc gs e1) as [e' rr] eqn:EN'. cbn [snd] in N2. subst rr.
  destruct (handshake_new_inv' _ _ _ _ _ _ _ A2 X2 G1 G3 EN') as [s' [sl' [Es' [Eh' [Lp' [Eb' Ef']]]]]].
  unfold scid_fits in S1. rewrite Es in S1. destruct S1 as [S1 [S3 S4]]. rewrite (fits_cast sl S3) in Eh.
  unfold scid_fits in S2. rewrite Es' in S2. destruct S2 as [S2 [S5 S6]]. rewrite (fits_cast sl' S5) in Eh'.
  assert (HR : header_ready (ph_header p) (ph_pn_bytes p) 2) by (rewrite Eh, Eb; apply built_header_ready; auto; lia).
  assert (HR' : header_ready (ph_header q) (ph_pn_bytes q) 2) by (rewrite Eh', Eb'; apply built_header_ready; auto; lia).
  assert (PF : pn_field (ph_pn p) (ph_pn_bytes p)) by (rewrite Eb; apply pn_field_4; auto).
  assert (PF' : pn_field (ph_pn q) (ph_pn_bytes q)) by (rewrite Eb'; apply pn_field_4; auto).
  rewrite <- Ef in W1, Z1. rewrite <- Ef' in W2, Z2.
  destruct (handshake_ser P oc c2 k p wire HP K1 HR PF ltac:(pows; lia) W1 Z1 E1) as [pt [Ept W]].
  destruct (handshake_ser P oc e2 k q wire' HP K2 HR' PF' ltac:(pows; lia) W2 Z2 E2) as [pt' [Ept' W']].
  assert (K : keys_ok k) by (destruct K1 as [x [_ [_ [_ [_ [_ K]]]]]]; exact K).
  destruct (C92_handshake_unambiguous _ _ _ _ _ _ _ _ _ _ HP K W W' E) as [Er [Ehh [Ebb Ep]]].
  assert (En : ph_pn p = ph_pn q).
  { rewrite (pn_of_field _ _ PF ltac:(rewrite Eb; apply be_bytes_len) Lp),
      (pn_of_field _ _ PF' ltac:(rewrite Eb'; apply be_bytes_len) Lp'), Ebb. reflexivity. }
  rewrite <- (Ep En) in Ept'. pose proof (C91_encoder_injective _ _ _ _ _ W1 W2 Ept Ept') as Efs.
  split; [apply handshake_record; auto|]. split; congruence.
Qed.
Print Assumptions C92_handshake_same_packet.
Example C92_handshake_case :
  (let? (c, s) := sample_pair true in
   let? a := from_secret (TLS13_AES_128_GCM_SHA256 real_prims true) (repeat 1 32) in
   let c := install c a a in
   let? p := snd (handshake_new true [Stream (FrameStream 4 9 1 [0] false); Padding] c) in
   let? q := snd (handshake_new true [Stream (FrameStream 4 9 2 [0; 0] false)] c) in
   let? wire := handshake_serialize true p c in
   let? wire' := handshake_serialize true q c in
   Ok (ph_pn p =? ph_pn q, len wire, len wire', forallb (fun x => fst x =? snd x) (combine wire wire'))) = Ok (true, 50, 50, false).
Proof. vm_compute. reflexivity. Qed.

(** Frames as alike as they can be, among them STREAM frames, which the receiver
    cannot tell apart. *)
Example C92_case :
  (let? (c, s) := sample_pair true in
   let? p := snd (initial_new true [Stream (FrameStream 4 9 1 [0] false); Padding] None c) in
   let? q := snd (initial_new true [Stream (FrameStream 4 9 2 [0; 0] false)] None c) in
   let? wire := initial_serialize true p c in
   let? wire' := initial_serialize true q c in
   Ok (pi_pn p =? pi_pn q, len wire, len wire', forallb (fun x => fst x =? snd x) (combine wire wire'))) = Ok (true, 51, 51, false).
Proof. vm_compute. reflexivity. Qed.
