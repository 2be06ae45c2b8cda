(** Property C112: two peers over a network that loses, reorders, repeats, joins,
    splits, alters and invents datagrams. *)
From Verif Require Import Base Utils Frame CipherSuite Secrets Connection Packet Histories Spec SpecPacket
  Tactics UtilsFacts ParserFacts FrameFacts SecretsFacts HeaderFacts PacketFacts ConnectionFacts PacketInv
  DecodeFacts SendFacts CryptoInst PropFrame PropConn PropPacket PropDecode PropWire PropInjective PropSameWire.

(** ** The conversation.  [b] is the side: [true] for the server. *)
Inductive event :=
| Used (b : bool) (x : call)
| Made (b : bool) (p : packet_initial)
| Sent (b : bool) (p : packet_initial) (wire : list N)
| Given (b : bool) (s : list N) (r : outcome (list packet)).

Record pair := Pair { client : connection; server : connection }.
Definition side (w : pair) (b : bool) : connection := if b then server w else client w.
Definition with_side (w : pair) (b : bool) (c : connection) : pair :=
  if b then Pair (client w) c else Pair c (server w).

(** The ids set by the program fit in their lengths. *)
Definition usable (x : call) : Prop := match x with CSetScid id l => id_fits id l | _ => True end.

(** Both connections are made for the id [d] of the client's first packet.  Then
    either side calls the library, makes packets, sends any packet it has made
    any number of times, and is given whatever bytes the network likes. *)
Inductive talk (P : prims) (oc : bool) (d : u160) (l : N) : list event -> pair -> Prop :=
| tk_start : forall c s, connection_new P oc false V1 d l = Ok c -> connection_new P oc true V1 d l = Ok s ->
    talk P oc d l [] (Pair c s)
| tk_use : forall es w b x, talk P oc d l es w -> usable x ->
    talk P oc d l (es ++ [Used b x]) (with_side w b (do_call oc (side w b) x))
| tk_make : forall es w b fs t c p, talk P oc d l es w ->
    bytes_ok (token_bytes t) -> frames_survive oc fs -> initial_new oc fs t (side w b) = (c, Ok p) ->
    talk P oc d l (es ++ [Made b p]) (with_side w b c)
| tk_send : forall es w b p wire, talk P oc d l es w ->
    In (Made b p) es -> initial_serialize oc p (side w b) = Ok wire ->
    talk P oc d l (es ++ [Sent b p wire]) w
| tk_given : forall es w b s r, talk P oc d l es w ->
    bytes_ok s -> len s < 2 ^ 63 -> decode_packets oc (side w b) s = r ->
    talk P oc d l (es ++ [Given b s r]) w.

(** What was given to the AEAD for a sent packet, and what it returned. *)
Definition sealed (P : prims) (k : keys) (p : packet_initial) (wire nonce aad ct tag : list N) : Prop :=
  exists fields tl ll b0 ppn pt,
    long_fields (pi_header p) fields /\ varint_enc (len (pi_token p)) tl /\
    varint_enc (len (pi_pn_bytes p) + len pt + 16) ll /\ bytes_ok pt /\
    aad = lh_byte (pi_header p) :: fields ++ tl ++ pi_token p ++ ll ++ pi_pn_bytes p /\
    nonce_for (k_iv k) (pi_pn p) nonce /\ p_gcm_seal P (k_key k) nonce aad pt = Some (ct, tag) /\
    len ppn = len (pi_pn_bytes p) /\
    wire = b0 :: fields ++ tl ++ pi_token p ++ ll ++ ppn ++ ct ++ tag.

(** A forgery: the AEAD opens something the other side did not seal. *)
Definition forged (P : prims) (k : keys) (b : bool) (es : list event) (nonce aad ct tag : list N) : Prop :=
  (exists pt, p_gcm_open P (k_key k) nonce aad ct tag = Some pt) /\
  forall p wire, In (Sent (negb b) p wire) es -> ~ sealed P k p wire nonce aad ct tag.

(** ** Invariants *)
Lemma side_with w b c b' : side (with_side w b c) b' = if Bool.eqb b b' then c else side w b'.
Proof. destruct b, b'; reflexivity. Qed.

Lemma call_scid_fits oc c x : usable x -> scid_fits c -> scid_fits (do_call oc c x).
Proof.
  intros U S. destruct x as [id l|sp|fs t|fs]; [exact U| | |].
  all: unfold scid_fits.
  - cbn [do_call]. destruct (get_next_pn oc c sp) as [c' r] eqn:E.
    destruct (get_next_pn_step _ _ _ _ _ E) as [_ [Q _]]. cbn [fst]. rewrite Q. exact S.
  - rewrite (do_call_pn oc c _ SpInitial) by eauto 8. destruct (get_next_pn oc c SpInitial) as [c' r] eqn:E.
    destruct (get_next_pn_step _ _ _ _ _ E) as [_ [Q _]]. cbn [fst]. rewrite Q. exact S.
  - rewrite (do_call_pn oc c _ SpHandshake) by eauto 8. destruct (get_next_pn oc c SpHandshake) as [c' r] eqn:E.
    destruct (get_next_pn_step _ _ _ _ _ E) as [_ [Q _]]. cbn [fst]. rewrite Q. exact S.
Qed.

Lemma talk_sides P oc d l es w : prims_ok P -> talk P oc d l es w ->
  forall b, reachable P oc b d l (side w b) /\ scid_fits (side w b).
Proof.
  intros HP T. induction T as [c s C S|es w b x T IH U|es w b fs t c p T IH Bt Fs E|es w b p wire T IH M E|es w b s r T IH Bs Ls E].
  - intros b. destruct b; cbn [side client server].
    + split; [exists s, []; auto|]. destruct (connection_new_inv _ _ _ _ _ _ _ HP S) as [_ [Q _]].
      unfold scid_fits. rewrite Q. exact I.
    + split; [exists c, []; auto|]. destruct (connection_new_inv _ _ _ _ _ _ _ HP C) as [_ [Q _]].
      unfold scid_fits. rewrite Q. exact I.
  - intros b'. rewrite side_with. destruct (Bool.eqb b b') eqn:Eb; [|apply IH].
    apply Bool.eqb_prop in Eb as <-. destruct (IH b) as [R F].
    split; [apply reachable_call; auto|apply call_scid_fits; auto].
  - intros b'. rewrite side_with. destruct (Bool.eqb b b') eqn:Eb; [|apply IH].
    apply Bool.eqb_prop in Eb as <-. destruct (IH b) as [R F].
    assert (Q : c = do_call oc (side w b) (CInitial fs t)) by (cbn [do_call]; rewrite E; reflexivity).
    rewrite Q. split; [apply reachable_call; auto|apply call_scid_fits; auto; exact I].
  - exact IH.
  - exact IH.
Qed.

Definition maker (P : prims) (oc : bool) (d : u160) (l : N) (b : bool) (p : packet_initial) : Prop :=
  exists c fs t, reachable P oc b d l c /\ scid_fits c /\ bytes_ok (token_bytes t) /\ frames_survive oc fs /\
    snd (initial_new oc fs t c) = Ok p.

Lemma talk_made P oc d l es w b p : prims_ok P -> talk P oc d l es w -> In (Made b p) es -> maker P oc d l b p.
Proof.
  intros HP T. induction T as [c s C S|es w b' x T IH U|es w b' fs t c q T IH Bt Fs E|es w b' q wire T IH M E|es w b' s r T IH Bs Ls E].
  1: intros [].
  all: intros H; apply in_app_or in H as [H|[H|[]]]; auto; try discriminate H.
  injection H as -> ->. destruct (talk_sides _ _ _ _ _ _ HP T b) as [R F].
  exists (side w b), fs, t. rewrite E. repeat (split; auto); apply Fs; auto.
Qed.

Lemma talk_sent P oc d l es w b p wire : prims_ok P -> talk P oc d l es w -> In (Sent b p wire) es ->
  sent P oc b d l p wire.
Proof.
  intros HP T. induction T as [c s C S|es w b' x T IH U|es w b' fs t c q T IH Bt Fs E|es w b' q wire' T IH M E|es w b' s r T IH Bs Ls E].
  1: intros [].
  all: intros H; apply in_app_or in H as [H|[H|[]]]; auto; try discriminate H.
  injection H as -> -> ->. destruct (talk_made _ _ _ _ _ _ _ _ HP T M) as [c [fs [t [R [F [Bt [Fs N]]]]]]].
  exists c, (side w b), fs, t. destruct (talk_sides _ _ _ _ _ _ HP T b) as [R' _]. repeat (split; auto); apply Fs; auto.
Qed.

(** ** C112: whatever was sent is understood, whenever and in whatever order, number
    and grouping it arrives. *)
Theorem C112_understood : forall P oc d l es w b ps wires,
  prims_ok P -> id_fits d l -> talk P oc d l es w ->
  Forall2 (fun p wire => In (Sent (negb b) p wire) es) ps wires ->
  decode_packets oc (side w b) (concat wires) = Ok (map PInitial ps).
Proof.
  intros P oc d l es w b ps wires HP ID T F.
  apply (C22_coalesced P oc (negb b) d l (side w b) ps wires HP ID).
  - rewrite negb_involutive. apply (talk_sides _ _ _ _ _ _ HP T).
  - induction F; constructor; auto. eapply talk_sent; eauto.
Qed.
Print Assumptions C112_understood.

(** ** C112: whatever is accepted was sent, or the AEAD was forged. *)
Lemma sent_wire P oc b d l k p wire : prims_ok P -> id_fits d l ->
  initial_keys P b (be_bytes (N.to_nat l) (cid_val d)) k -> sent P oc b d l p wire ->
  exists pt, initial_wire P k p pt wire /\ len (pi_pn_bytes p) = 4 /\ deserialize_frames oc pt = Ok (pi_payload p).
Proof.
  intros HP ID IK [c1 [c2 [fs [t [R1 [R2 [SF [BT [[FW FS] [EN ES]]]]]]]]]].
  destruct (built_initial _ _ _ _ _ _ _ _ _ HP R1 ID SF EN) as [HR [PF [Lp [L4 [Ef [Et X]]]]]].
  destruct (ci_keys _ _ _ _ _ _ (reachable_inv _ _ _ _ _ _ HP R2)) as [cid [kl [kr [U [A [_ [C _]]]]]]].
  destruct ID as [D1 [D2 D3]]. rewrite u160_to_var_bytes_ok in U by auto. injection U as <-.
  rewrite (C32_keys_determined _ _ _ _ _ A IK) in C.
  assert (FS' : forall bs, serialize_frames (pi_payload p) false = Ok bs -> len bs < 2 ^ 63)
    by (intros bs Eb; rewrite Ef in Eb; apply FS; auto).
  assert (FW' : Forall frame_wf (pi_payload p)) by (rewrite Ef; auto).
  assert (BT' : bytes_ok (pi_token p)) by (rewrite Et; auto).
  destruct (initial_ser P oc c2 k p wire HP C HR BT' PF ltac:(pows; lia) FW' FS' ES) as [pt [Ept W]].
  exists pt. split; [exact W|]. split; [exact L4|]. rewrite Ef in *. apply FS. exact Ept.
Qed.

(** What a sent packet sealed, in terms of its bytes. *)
Lemma sealed_wire P k p pt wire nonce aad ct tag : prims_ok P -> keys_ok k ->
  initial_wire P k p pt wire -> sealed P k p wire nonce aad ct tag ->
  exists fields tl ll m0 mask more,
    long_fields (pi_header p) fields /\ varint_enc (len (pi_token p)) tl /\
    varint_enc (len (pi_pn_bytes p) + len pt + 16) ll /\ len ct = len pt /\ len tag = 16 /\
    aad = lh_byte (pi_header p) :: fields ++ tl ++ pi_token p ++ ll ++ pi_pn_bytes p /\
    nonce_for (k_iv k) (pi_pn p) nonce /\
    p_ecb_encrypt P (k_hp k) (firstn 16 (skipn 4 (pi_pn_bytes p ++ ct ++ tag))) = Some (m0 :: mask ++ more) /\
    len mask = 4 /\
    wire = N.lxor (lh_byte (pi_header p)) (N.land m0 0x0f) :: fields ++ tl ++ pi_token p ++ ll ++
           xor_bytes (pi_pn_bytes p) mask ++ ct ++ tag.
Proof.
  intros HP [K1 [K2 _]] [f [tl [ll [B1 [B2 [B3 [B4 [B5 [HF [HT [BT [HL [Bp HW]]]]]]]]]]]]].
  destruct HW as [[PF _] [F [nonce' [ct' [tag' [m0 [mask [more [Hn [S [_ [M [Lm E]]]]]]]]]]]]].
  intros [f' [tl' [ll' [b0 [ppn [pt' [HF' [HT' [HL' [Bp' [Ea [Hn' [S' [Lp E']]]]]]]]]]]]]].
  pose proof Hn as [_ [Ln _]]. pose proof Hn' as [_ [Ln' _]]. rewrite K2 in Ln, Ln'.
  destruct (open_law P HP _ _ _ _ _ _ K1 Ln Bp S) as [L1 [L2 _]].
  rewrite E in E'. apply cons_eq in E' as [_ E0]. rewrite <- !app_assoc in E0.
  destruct (long_fields_split _ _ _ _ _ _ HF HF' E0) as [_ [_ [_ [_ [_ [<- E1]]]]]].
  destruct (varint_split _ _ _ _ _ _ HT HT' E1) as [_ E2].
  assert (tl = tl') as <-. { rewrite E2 in E1. apply app_inv_tail in E1. exact E1. }
  apply app_inv_head in E2. destruct (varint_split _ _ _ _ _ _ HL HL' E2) as [Ll E4].
  assert (ll = ll') as <-. { rewrite E4 in E2. apply app_inv_tail in E2. exact E2. }
  destruct (app_split (xor_bytes (pi_pn_bytes p) mask) ppn _ _ ltac:(rewrite xor_len_le by lia; lia) E4) as [_ E5].
  destruct (open_law P HP _ _ _ _ _ _ K1 Ln' Bp' S') as [L1' [L2' _]].
  destruct (app_split ct' ct tag' tag ltac:(lia) E5) as [-> ->].
  exists f, tl, ll, m0, mask, more. rewrite <- !app_assoc in *. repeat (split; auto); apply Hn'.
Qed.

Lemma sealed_exists P k p pt wire : prims_ok P -> keys_ok k -> initial_wire P k p pt wire ->
  exists nonce aad ct tag, sealed P k p wire nonce aad ct tag.
Proof.
  intros HP [K1 [K2 _]] [f [tl [ll [B1 [B2 [B3 [B4 [B5 [HF [HT [BT [HL [Bp HW]]]]]]]]]]]]].
  destruct HW as [[PF _] [F [nonce [ct [tag [m0 [mask [more [Hn [S [_ [M [Lm E]]]]]]]]]]]]].
  eexists nonce, _, ct, tag, f, tl, ll, _, (xor_bytes (pi_pn_bytes p) mask), pt.
  rewrite <- !app_assoc in *. repeat (split; eauto); try apply Hn. rewrite xor_len_le by lia. reflexivity.
Qed.

(** A sealed text arriving as part of an accepted packet arrives with the rest of
    its packet. *)
Lemma accepted_sealed P oc b d l c k s p rest q pt' wire nonce ct tag fields tl ll b0 ppn m0 mask more pt :
  prims_ok P -> keys_ok k ->
  s = b0 :: fields ++ tl ++ pi_token p ++ ll ++ ppn ++ ct ++ tag ++ rest -> len ppn = 4 -> len tag = 16 ->
  long_fields (pi_header p) fields -> varint_enc (len (pi_token p)) tl ->
  varint_enc (len (pi_pn_bytes p) + len ct + len tag) ll ->
  p_ecb_encrypt P (k_hp k) (firstn 16 (ct ++ tag ++ rest)) = Some (m0 :: mask ++ more) -> len mask = 4 ->
  lh_byte (pi_header p) = N.lxor b0 (N.land m0 0x0f) ->
  len (pi_pn_bytes p) = N.land (lh_byte (pi_header p)) 0x03 + 1 ->
  pi_pn_bytes p = firstn (N.to_nat (len (pi_pn_bytes p))) (xor_bytes ppn mask) ->
  reachable P oc b d l c -> p_gcm_open P (k_key k) nonce
      (lh_byte (pi_header p) :: fields ++ tl ++ pi_token p ++ ll ++ pi_pn_bytes p) ct tag = Some pt ->
  initial_wire P k q pt' wire -> len (pi_pn_bytes q) = 4 ->
  sealed P k q wire nonce (lh_byte (pi_header p) :: fields ++ tl ++ pi_token p ++ ll ++ pi_pn_bytes p) ct tag ->
  s = wire ++ rest.
Proof.
  intros HP HK Es L4 Lt HF HT HL Me Lm Eb Ln Ep R O W Lq SE. pose proof W as W0.
  destruct W0 as [_ [_ [_ [_ [_ [_ [_ [_ [_ [_ [_ [_ [_ [_ [Fq _]]]]]]]]]]]]]]].
  destruct (sealed_wire _ _ _ _ _ _ _ _ _ HP HK W SE)
    as [f' [tl' [ll' [m0' [mask' [more' [HF' [HT' [HL' [Lc [_ [Ea [_ [Me' [Lm' ->]]]]]]]]]]]]]]].
  apply cons_eq in Ea as [Eq Ea].
  destruct (long_fields_split _ _ _ _ _ _ HF HF' Ea) as [_ [_ [_ [_ [_ [<- E1]]]]]].
  destruct (varint_split _ _ _ _ _ _ HT HT' E1) as [Lk E2].
  assert (tl = tl') as <-. { rewrite E2 in E1. apply app_inv_tail in E1. exact E1. }
  destruct (app_split _ _ _ _ Lk E2) as [Et E3]. rewrite <- Et.
  destruct (varint_split _ _ _ _ _ _ HL HL' E3) as [Ll E4].
  assert (ll = ll') as <-. { rewrite E4 in E3. apply app_inv_tail in E3. exact E3. }
  rewrite <- E4 in *. rewrite <- Eq in *.
  rewrite Lq in Ep. rewrite firstn_all2 in Ep by (rewrite <- (Nat2N.id (length _)); fold (len (xor_bytes ppn mask)); rewrite xor_len_le; lia).
  rewrite (skipn_app_exact (pi_pn_bytes p)) in Me' by (unfold len in Lq; lia).
  rewrite app_assoc, firstn_app in Me.
  replace (16 - length (ct ++ tag))%nat with 0%nat in Me by (rewrite app_length; unfold len in Lt; lia).
  change (firstn 0 rest) with (@nil N) in Me. rewrite app_nil_r in Me. rewrite Me in Me'. injection Me' as <- Em.
  destruct (app_split mask mask' _ _ ltac:(congruence) Em) as [<- _].
  rewrite Es, Ep, xor_bytes_invol by (unfold len in *; lia).
  rewrite Eb, N.lxor_assoc, N.lxor_nilpotent, N.lxor_0_r. cbn [app]. rewrite <- !app_assoc. reflexivity.
Qed.

Lemma find_sent es b (x : list N) :
  (exists p, In (Sent b p x) es) \/ forall p wire, In (Sent b p wire) es -> wire <> x.
Proof.
  induction es as [|e es IH]; [right; intros ? ? []|].
  destruct IH as [[p H]|N]; [left; exists p; right; auto|].
  destruct e as [b' y|b' p|b' p wire|b' s r].
  1,2,4: right; intros p' wire' [Q|H]; [discriminate Q|eauto].
  destruct (Bool.bool_dec b' b) as [->|NB].
  - destruct (list_eq_dec N.eq_dec wire x) as [->|NX]; [left; exists p; left; auto|].
    right. intros p' wire' [Q|H]; [injection Q as <- <-; auto|eauto].
  - right. intros p' wire' [Q|H]; [congruence|eauto].
Qed.

Theorem C112_sent_or_forged : forall P oc d l es w b k s ps p,
  prims_ok P -> id_fits d l -> initial_keys P (negb b) (be_bytes (N.to_nat l) (cid_val d)) k ->
  talk P oc d l (es ++ [Given b s (Ok ps)]) w -> In (PInitial p) ps ->
  exists before wire rest, s = before ++ wire ++ rest /\
    (In (Sent (negb b) p wire) es \/
     exists nonce aad ct tag visible, wire = visible ++ ct ++ tag /\ forged P k b es nonce aad ct tag).
Proof.
  intros P oc d l es w b k s ps p HP ID IK T HI.
  inversion T as [c0 s0 C S Q|es0 w0 b' x T0 U Q|es0 w0 b' fs t c q T0 Bt Fs E Q|es0 w0 b' q wire T0 M E Q|es0 w0 b' s0 r T0 Bs Ls E Q].
  { destruct es; discriminate Q. }
  all: apply app_inj_tail in Q as [-> Q]; try discriminate Q.
  injection Q as -> -> ->. clear T. rename T0 into T.
  destruct (talk_sides _ _ _ _ _ _ HP T b) as [R _].
  destruct (ci_keys _ _ _ _ _ _ (reachable_inv _ _ _ _ _ _ HP R)) as [cid [kl [kr [U [_ [A [_ K]]]]]]].
  pose proof ID as [D1 [D2 D3]]. rewrite u160_to_var_bytes_ok in U by auto. injection U as <-.
  rewrite (C32_keys_determined _ _ _ _ _ A IK) in K.
  apply (C56_packets_partition P oc b d l (side w b) k s ps HP R K Bs Ls) in E.
  assert (X : exists before x rest, s = before ++ x ++ rest /\ decode_next_packet oc (side w b) (x ++ rest) = Ok (PInitial p, rest)).
  { clear Bs Ls. induction E as [|x s' p' ps' NE D E' IH]; [destruct HI|].
    destruct HI as [->|HI]; [exists [], x, s'; auto|].
    destruct (IH HI) as [be [x' [rest [-> D']]]]. exists (x ++ be), x', rest. rewrite <- app_assoc. auto. }
  destruct X as [before [x [rest [-> D]]]]. exists before, x, rest. split; [reflexivity|].
  apply bytes_ok_app in Bs as [_ Bs]. rewrite len_app in Ls.
  assert (Ls' : len (x ++ rest) < 2 ^ 63) by lia.
  destruct (find_sent es (negb b) x) as [[q HS]|NS].
  - left. assert (QQ : PInitial q = PInitial p); [|injection QQ as <-; auto].
    destruct (talk_sent _ _ _ _ _ _ _ _ _ HP T HS) as [c1 [c2 [fs [t [R1 [R2 [SF [BT [FS [EN ES]]]]]]]]]].
    assert (R' : reachable P oc (negb (negb b)) d l (side w b)) by (rewrite negb_involutive; exact R).
    destruct (C20_initial_travels P oc (negb b) d l c1 c2 (side w b) fs t q x rest HP R1 R2 R' ID SF BT FS EN ES) as [D' _].
    congruence.
  - right.
    destruct (C25_accepted_is_authentic P oc b d l (side w b) k _ p rest HP R K Bs Ls' D)
      as [b0 [fields [tl [ll [ppn [ct [tag [m0 [mask [more [nonce [pt [Es [L4 [Lt [HF [HT [HL [Me [Lm [Eb [Ln [Ep [_ [Hn [O Df]]]]]]]]]]]]]]]]]]]]]]]]]].
    exists nonce, (lh_byte (pi_header p) :: fields ++ tl ++ pi_token p ++ ll ++ pi_pn_bytes p), ct, tag,
      (b0 :: fields ++ tl ++ pi_token p ++ ll ++ ppn).
    split.
    { apply (app_inv_tail rest). rewrite Es. cbn [app]. rewrite <- !app_assoc. reflexivity. }
    split; [eauto|]. intros q wire HS SE. apply (NS q wire HS).
    pose proof (talk_sent _ _ _ _ _ _ _ _ _ HP T HS) as ST.
    destruct (sent_wire _ _ _ _ _ _ _ _ HP ID IK ST) as [pt' [W [Lq _]]].
    destruct K as [sec [_ [_ [_ [_ [_ HK]]]]]].
    pose proof (accepted_sealed P oc b d l (side w b) k _ p rest q pt' wire nonce ct tag fields tl ll b0 ppn m0 mask more pt
      HP HK Es L4 Lt HF HT HL Me Lm Eb Ln Ep R O W Lq SE) as Z.
    apply app_inv_tail in Z. congruence.
Qed.
Print Assumptions C112_sent_or_forged.

(** ** C112: a side does not give one packet number to two packets, so the numbers
    of what is accepted tell sent packets apart. *)
Definition counter (c : connection) : N := next_pn (borrow_pn_info c SpInitial).

Lemma pn_step P oc b d l c sp : prims_ok P -> reachable P oc b d l c ->
  oc = true \/ counter c + 1 < 2 ^ 64 ->
  counter c <= counter (fst (get_next_pn oc c sp)) <= counter c + 1.
Proof.
  intros HP R H. pose proof (reachable_inv _ _ _ _ _ _ HP R) as I. unfold counter in *.
  destruct (get_next_pn oc c sp) as [c' r] eqn:E. cbn [fst].
  assert (X : sp = SpInitial \/ borrow_pn_info c' SpInitial = borrow_pn_info c SpInitial).
  { destruct sp; auto; right; destruct (get_next_pn_step _ _ _ _ _ E) as [_ [_ [_ [Q _]]]]; apply Q; congruence. }
  destruct X as [->| ->]; [|lia].
  pose proof (get_next_pn_no_ack _ _ _ _ _ E (proj2 (ci_acks _ _ _ _ _ _ I _)) (ci_next _ _ _ _ _ _ I _)) as N.
  cbv zeta in N. destruct (N.ltb_spec (next_pn (borrow_pn_info c SpInitial) + 1) (2 ^ 64)) as [L|L].
  - destruct N as [-> _]. lia.
  - destruct oc; [destruct N as [-> _]; lia|]. destruct H as [Q|Q]; [discriminate Q|lia].
Qed.

Lemma made_number P oc b d l c fs t c' p : prims_ok P -> reachable P oc b d l c ->
  oc = true \/ counter c + 1 < 2 ^ 64 ->
  initial_new oc fs t c = (c', Ok p) -> pi_pn p = counter c + 1 /\ counter c' = counter c + 1.
Proof.
  intros HP R H E. pose proof (reachable_inv _ _ _ _ _ _ HP R) as I. unfold counter in *.
  unfold initial_new in E. destruct (get_next_pn oc c SpInitial) as [c1 r] eqn:G. injection E as -> E.
  apply bind_ok in E as [[n bs] [-> E]].
  assert (pi_pn p = n) as ->.
  { destruct (negb _); [discriminate E|]. apply bind_ok in E as [h [_ E]].
    injection E as <-. reflexivity. }
  pose proof (get_next_pn_no_ack _ _ _ _ _ G (proj2 (ci_acks _ _ _ _ _ _ I _)) (ci_next _ _ _ _ _ _ I _)) as N.
  cbv zeta in N. destruct (N.ltb_spec (next_pn (borrow_pn_info c SpInitial) + 1) (2 ^ 64)) as [L|L].
  - destruct N as [-> Q]. destruct (0xffffffff <? _); [discriminate Q|]. injection Q as -> _. auto.
  - destruct oc; [destruct N as [_ N]; discriminate N|]. destruct H as [Q|Q]; [discriminate Q|lia].
Qed.

Lemma talk_counters P oc d l es w : prims_ok P -> talk P oc d l es w -> oc = true \/ len es < 2 ^ 64 - 1 ->
  forall b, counter (side w b) <= len es /\ (forall p, In (Made b p) es -> pi_pn p <= counter (side w b)) /\
    forall p q, In (Made b p) es -> In (Made b q) es -> pi_pn p = pi_pn q -> p = q.
Proof.
  intros HP T. induction T as [c s C S|es w b x T IH U|es w b fs t c p T IH Bt Fs E|es w b p wire T IH M E|es w b s r T IH Bs Ls E]; intros H b'.
  - split; [|split; [intros p []|intros p q []]].
    destruct b'; cbn [side client server]; unfold counter.
    + destruct (connection_new_inv _ _ _ _ _ _ _ HP S) as [_ [_ Q]]. rewrite Q. lia.
    + destruct (connection_new_inv _ _ _ _ _ _ _ HP C) as [_ [_ Q]]. rewrite Q. lia.
  - rewrite len_app in *. change (len [Used b x]) with 1 in *.
    destruct (IH ltac:(destruct H; [auto|right; lia]) b') as [C1 [C2 C3]].
    assert (X : forall p, In (Made b' p) (es ++ [Used b x]) -> In (Made b' p) es).
    { intros p HI. apply in_app_or in HI as [HI|[HI|[]]]; auto. discriminate HI. }
    rewrite side_with. destruct (Bool.eqb b b') eqn:Eb.
    2:{ split; [lia|]. split; eauto. }
    apply Bool.eqb_prop in Eb as <-. destruct (talk_sides _ _ _ _ _ _ HP T b) as [R _].
    assert (Y : counter (side w b) <= counter (do_call oc (side w b) x) <= counter (side w b) + 1).
    { destruct x as [id il|sp|fs t|fs].
      - cbn [do_call]. unfold counter. cbn. lia.
      - apply (pn_step P oc b d l); auto. destruct H; [auto|right; lia].
      - rewrite (do_call_pn oc _ _ SpInitial) by eauto 8. apply (pn_step P oc b d l); auto. destruct H; [auto|right; lia].
      - rewrite (do_call_pn oc _ _ SpHandshake) by eauto 8. apply (pn_step P oc b d l); auto. destruct H; [auto|right; lia]. }
    split; [lia|]. split; eauto. intros p HI. specialize (C2 p (X p HI)). lia.
  - rewrite len_app in *. change (len [Made b p]) with 1 in *.
    destruct (IH ltac:(destruct H; [auto|right; lia]) b') as [C1 [C2 C3]].
    rewrite side_with. destruct (Bool.eqb b b') eqn:Eb.
    2:{ assert (X : forall q, In (Made b' q) (es ++ [Made b p]) -> In (Made b' q) es).
        { intros q HI. apply in_app_or in HI as [HI|[HI|[]]]; auto. injection HI as -> _.
          rewrite Bool.eqb_reflx in Eb. discriminate Eb. }
        split; [lia|]. split; eauto. }
    apply Bool.eqb_prop in Eb as <-. destruct (talk_sides _ _ _ _ _ _ HP T b) as [R _].
    destruct (made_number P oc b d l (side w b) fs t c p HP R ltac:(destruct H; [auto|right; lia]) E) as [N1 N2].
    split; [lia|]. split.
    + intros q HI. apply in_app_or in HI as [HI|[HI|[]]]; [specialize (C2 q HI); lia|]. injection HI as <-. lia.
    + intros q q' HI HI' Q. apply in_app_or in HI as [HI|[HI|[]]]; apply in_app_or in HI' as [HI'|[HI'|[]]].
      * eauto.
      * injection HI' as <-. specialize (C2 q HI). lia.
      * injection HI as <-. specialize (C2 q' HI'). lia.
      * congruence.
  - rewrite len_app in *. change (len [Sent b p wire]) with 1 in *.
    destruct (IH ltac:(destruct H; [auto|right; lia]) b') as [C1 [C2 C3]].
    assert (X : forall q, In (Made b' q) (es ++ [Sent b p wire]) -> In (Made b' q) es).
    { intros q HI. apply in_app_or in HI as [HI|[HI|[]]]; auto. discriminate HI. }
    split; [lia|]. split; eauto.
  - rewrite len_app in *. change (len [Given b s r]) with 1 in *.
    destruct (IH ltac:(destruct H; [auto|right; lia]) b') as [C1 [C2 C3]].
    assert (X : forall q, In (Made b' q) (es ++ [Given b s r]) -> In (Made b' q) es).
    { intros q HI. apply in_app_or in HI as [HI|[HI|[]]]; auto. discriminate HI. }
    split; [lia|]. split; eauto.
Qed.

Lemma sent_made P oc d l es w b p wire : talk P oc d l es w -> In (Sent b p wire) es -> In (Made b p) es.
Proof.
  intros T. induction T as [c s C S|es w b' x T IH U|es w b' fs t c q T IH Bt Fs E|es w b' q wire' T IH M E|es w b' s r T IH Bs Ls E].
  1: intros [].
  all: intros H; apply in_app_or in H as [H|[H|[]]]; apply in_or_app; auto; try discriminate H.
  injection H as -> -> ->. auto.
Qed.

Theorem C112_numbers : forall P oc d l es w b p q wire wire',
  prims_ok P -> talk P oc d l es w -> oc = true \/ len es < 2 ^ 64 - 1 ->
  In (Sent b p wire) es -> In (Sent b q wire') es -> pi_pn p = pi_pn q -> p = q.
Proof.
  intros P oc d l es w b p q wire wire' HP T H Sp Sq E.
  destruct (talk_counters _ _ _ _ _ _ HP T H b) as [_ [_ X]]. apply X; auto; eapply sent_made; eauto.
Qed.
Print Assumptions C112_numbers.

(** ** A conversation.  The client sends two packets; the server, which has sent one
    of its own meanwhile, is given a damaged copy, then in one datagram the second
    twice and the first. *)
Lemma make_eq oc fs t c p : snd (initial_new oc fs t c) = Ok p -> initial_new oc fs t c = (do_call oc c (CInitial fs t), Ok p).
Proof. cbn [do_call]. destruct (initial_new oc fs t c). cbn. congruence. Qed.

Lemma plain_survive oc fs pt : Forall frame_wf fs -> serialize_frames fs false = Ok pt ->
  len pt < 2 ^ 63 -> deserialize_frames oc pt = Ok fs -> frames_survive oc fs.
Proof. intros F E L D. split; auto. intros pt' E'. rewrite E in E'. injection E' as <-. auto. Qed.

Example C112_case : exists p q wp wq ps es w,
  talk real_prims true sample_id 8 (es ++ [Given true (wq ++ wq ++ wp) (Ok ps)]) w /\
  In (Sent false p wp) es /\ In (Sent false q wq) es /\ (exists e, In (Given true (removelast wp ++ [N.lxor (last wp 0) 1]) (Err e)) es) /\
  (exists r wr, In (Sent true r wr) es) /\
  pi_payload p = sample_payload /\ pi_pn p = 1 /\ pi_payload q = [Ping] /\ pi_pn q = 2 /\
  map (fun r => match r with PInitial r => (pi_pn r, pi_payload r) | _ => (0, []) end) ps =
    [(2, [Ping]); (2, [Ping]); (1, sample_payload)] /\
  exists k, initial_keys real_prims false (be_bytes 8 (cid_val sample_id)) k.
Proof.
  destruct (connection_new_ok real_prims true false sample_id 8 (real_prims_ok) ltac:(lia)) as [c0 C].
  destruct (connection_new_ok real_prims true true sample_id 8 (real_prims_ok) ltac:(lia)) as [s0 S].
  set (id := U160 0 0x0102030405060708).
  assert (E : (let? c := connection_new real_prims true false V1 sample_id 8 in
     let? s := connection_new real_prims true true V1 sample_id 8 in
     let c := do_call true c (CSetScid id 8) in
     let s := do_call true s (CSetScid id 8) in
     let? r := snd (initial_new true [Ping] None s) in
     let s := do_call true s (CInitial [Ping] None) in
     let? wr := initial_serialize true r s in
     let? p := snd (initial_new true sample_payload (Some [9; 9]) c) in
     let c := do_call true c (CInitial sample_payload (Some [9; 9])) in
     let? q := snd (initial_new true [Ping] None c) in
     let c := do_call true c (CInitial [Ping] None) in
     let? wp := initial_serialize true p c in
     let? wq := initial_serialize true q c in
     let? ps := decode_packets true s (wq ++ wq ++ wp) in
     Ok (pi_payload p, pi_pn p, pi_payload q, pi_pn q,
       map (fun r => match r with PInitial r => (pi_pn r, pi_payload r) | _ => (0, []) end) ps,
       match decode_packets true s (removelast wp ++ [N.lxor (last wp 0) 1]) with Err e => true | _ => false end,
       forallb (fun x => x <? 256) (wp ++ wq), len wp, len wq)) =
     Ok (sample_payload, 1, [Ping], 2, [(2, [Ping]); (2, [Ping]); (1, sample_payload)],
         true, true, 55, 46)) by (vm_compute; reflexivity).
  rewrite C, S in E. cbn [bind] in E.
  set (c1 := do_call true c0 (CSetScid id 8)) in *. set (s1 := do_call true s0 (CSetScid id 8)) in *.
  apply bind_ok in E as [r [Er E]]. apply bind_ok in E as [wr [Ewr E]].
  apply bind_ok in E as [p [Ep E]]. apply bind_ok in E as [q [Eq E]].
  apply bind_ok in E as [wp [Ewp E]]. apply bind_ok in E as [wq [Ewq E]]. apply bind_ok in E as [ps [Eps E]].
  injection E as F1 F2 F3 F4 F5 F6 F7 F8 F9.
  destruct (decode_packets true _ (removelast wp ++ _)) as [?|e|?|] eqn:Ed; try discriminate F6. clear F6.
  set (s2 := do_call true s1 (CInitial [Ping] None)) in *.
  set (c2 := do_call true c1 (CInitial sample_payload (Some [9; 9]))) in *.
  set (c3 := do_call true c2 (CInitial [Ping] None)) in *.
  assert (FP : frames_survive true [Ping]).
  { apply (plain_survive true [Ping] [1]); [repeat constructor|reflexivity|reflexivity|reflexivity]. }
  assert (IF : id_fits id 8) by (repeat split; vm_compute; congruence).
  assert (T0 := tk_start real_prims true sample_id 8 c0 s0 C S).
  assert (T1 := tk_use _ _ _ _ _ _ false (CSetScid id 8) T0 IF).
  assert (T2 := tk_use _ _ _ _ _ _ true (CSetScid id 8) T1 IF).
  change (with_side _ true _) with (Pair c1 s1) in T2.
  assert (T3 := tk_make _ _ _ _ _ _ true [Ping] None s2 r T2 ltac:(constructor) FP (make_eq _ _ _ _ _ Er)).
  change (with_side _ true _) with (Pair c1 s2) in T3.
  assert (T4 := tk_make _ _ _ _ _ _ false sample_payload (Some [9; 9]) c2 p T3
    ltac:(repeat constructor) C20_survive_case (make_eq _ _ _ _ _ Ep)).
  change (with_side _ false _) with (Pair c2 s2) in T4.
  assert (T5 := tk_make _ _ _ _ _ _ false [Ping] None c3 q T4 ltac:(constructor) FP (make_eq _ _ _ _ _ Eq)).
  change (with_side _ false _) with (Pair c3 s2) in T5.
  assert (T6 := tk_send _ _ _ _ _ _ true r wr T5 ltac:(cbn; auto 10) Ewr).
  assert (T7 := tk_send _ _ _ _ _ _ false q wq T6 ltac:(cbn; auto 10) Ewq).
  assert (T8 := tk_send _ _ _ _ _ _ false p wp T7 ltac:(cbn; auto 10) Ewp).
  assert (B : bytes_ok (wp ++ wq)).
  { apply Forall_forall. intros x HI. rewrite forallb_forall in F7. specialize (F7 x HI). apply N.ltb_lt in F7. exact F7. }
  apply bytes_ok_app in B as [Bp Bq].
  assert (Ld : len (removelast wp ++ [N.lxor (last wp 0) 1]) = 55).
  { destruct wp as [|x wp] using rev_ind; [discriminate F8|]. rewrite removelast_last, len_app in *. exact F8. }
  assert (Bd : bytes_ok (removelast wp ++ [N.lxor (last wp 0) 1])).
  { destruct wp as [|x wp'] using rev_ind; [discriminate F8|]. rewrite removelast_last, last_last.
    apply bytes_ok_app in Bp as [Bp Bx]. apply bytes_ok_app. split; auto. constructor; [|constructor].
    apply bytes_ok_cons in Bx as [Bx _]. apply (xor_mask_byte x 1 1); auto. lia. }
  assert (T9 := tk_given _ _ _ _ _ _ true _ _ T8 Bd ltac:(rewrite Ld; pows; lia) Ed).
  assert (T10 := tk_given _ _ _ _ _ _ true (wq ++ wq ++ wp) _ T9
    ltac:(apply bytes_ok_app; split; auto; apply bytes_ok_app; auto) ltac:(rewrite !len_app, F8, F9; pows; lia) Eps).
  eexists p, q, wp, wq, ps, _, _. split; [exact T10|].
  split; [cbn; auto 20|]. split; [cbn; auto 20|]. split; [exists e; cbn; auto 20|].
  split; [exists r, wr; cbn; auto 20|]. repeat (split; auto).
  destruct (C32_initial_keys real_prims true false sample_id 8 real_prims_ok ltac:(repeat split; vm_compute; congruence) ltac:(lia))
    as [c [cid [kl [kr [_ [-> [K _]]]]]]]. exists kl. exact K.
Qed.
