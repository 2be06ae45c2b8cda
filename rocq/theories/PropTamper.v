(** C55 continued: which bytes of an accepted packet can be changed at all. *)
From Verif Require Import Base Utils Frame CipherSuite Secrets Connection Packet Histories Spec SpecPacket
  Tactics UtilsFacts ParserFacts FrameFacts SecretsFacts HeaderFacts PacketFacts ConnectionFacts SendFacts PacketInv ProtectedInv
  CryptoInst PropFrame PropConn PropPacket PropDecode PropSameWire PropInjective PropFrameSound PropWire.

(** One changed byte in two strings cut at the same place. *)
Lemma diff_split (a b u v u' v' : list N) x y : a ++ x :: b = u ++ v -> a ++ y :: b = u' ++ v' -> len u = len u' ->
  (u = u' /\ exists a2, a = u ++ a2 /\ v = a2 ++ x :: b /\ v' = a2 ++ y :: b) \/
  (v = v' /\ exists b1, u = a ++ x :: b1 /\ u' = a ++ y :: b1).
Proof.
  revert u u'. induction a as [|z a IH]; intros u u' E E' L.
  - destruct u as [|w u]; destruct u' as [|w' u']; try (unfold len in L; cbn [length] in L; lia).
    + left. split; [reflexivity|]. exists []. auto.
    + right. cbn [app] in E, E'. apply cons_eq in E as [-> E]. apply cons_eq in E' as [-> E'].
      subst b. destruct (app_split u u' v v') as [-> ->]; [unfold len in *; cbn [length] in L; lia|exact E'|].
      split; [reflexivity|]. exists u'. auto.
  - destruct u as [|w u]; destruct u' as [|w' u']; try (unfold len in L; cbn [length] in L; lia).
    + left. split; [reflexivity|]. exists (z :: a). auto.
    + cbn [app] in E, E'. apply cons_eq in E as [-> E]. apply cons_eq in E' as [-> E'].
      destruct (IH u u' E E') as [[-> [a2 [-> H]]]|[-> [b1 [-> ->]]]]; [unfold len in *; cbn [length] in L; lia| |].
      * left. split; [reflexivity|]. exists a2. auto.
      * right. split; [reflexivity|]. exists b1. auto.
Qed.

Lemma cid_enc_fun c l a b : cid_enc c l a -> cid_enc c l b -> a = b.
Proof. intros [_ [A1 [A2 A3]]] [_ [B1 [B2 B3]]]. apply be_val_inj; auto; [unfold len in *; lia|congruence]. Qed.

Lemma long_fields_fun h f g : long_fields h f -> long_fields h g -> f = g.
Proof.
  intros [v [d [s [[V1 [V2 V3]] [_ [D [_ [S ->]]]]]]]] [v' [d' [s' [[V1' [V2' V3']] [_ [D' [_ [S' ->]]]]]]]].
  rewrite (cid_enc_fun _ _ _ _ D D'), (cid_enc_fun _ _ _ _ S S').
  rewrite (be_val_inj v v'); auto; [unfold len in *; lia|congruence].
Qed.

(** A length and its first byte: the first byte says how many bytes there are. *)
Lemma varint_first x y b r r' : varint_enc x (b :: r) -> varint_enc y (b :: r') -> len r = len r'.
Proof.
  assert (X : forall x r k, k <= 3 -> len (b :: r) = 2 ^ k -> bytes_ok (b :: r) -> x < 2 ^ (8 * 2 ^ k - 2) ->
    be_val (b :: r) = k * 2 ^ (8 * 2 ^ k - 2) + x -> b / 64 = k).
  { intros x0 r0 k K L B X E. change (b :: r0) with ([b] ++ r0) in E. rewrite be_val_app in E. rewrite PropFrameSound.be_val_1 in E. apply bytes_ok_cons in B as [B0 B].
    pose proof (be_val_bound r0 B) as LT. assert (LR : len r0 = 2 ^ k - 1) by (unfold len in *; cbn [length] in L; lia).
    rewrite LR in E, LT. assert (C : k = 0 \/ k = 1 \/ k = 2 \/ k = 3) by lia.
    destruct C as [-> | [-> | [-> | ->]]].
    - change (2 ^ (8 * 2 ^ 0 - 2)) with 64 in *. change (256 ^ (2 ^ 0 - 1)) with 1 in *. lia.
    - change (2 ^ (8 * 2 ^ 1 - 2)) with 0x4000 in *. change (256 ^ (2 ^ 1 - 1)) with 256 in *. lia.
    - change (2 ^ (8 * 2 ^ 2 - 2)) with 0x40000000 in *. change (256 ^ (2 ^ 2 - 1)) with 0x1000000 in *. lia.
    - change (2 ^ (8 * 2 ^ 3 - 2)) with 0x4000000000000000 in *. change (256 ^ (2 ^ 3 - 1)) with 0x100000000000000 in *. lia. }
  intros [k [K1 [K2 [K3 [K4 K5]]]]] [k' [K1' [K2' [K3' [K4' K5']]]]].
  pose proof (X _ _ _ K1 K2 K3 K4 K5) as E. pose proof (X _ _ _ K1' K2' K3' K4' K5') as E'. subst k k'.
  rewrite <- K2' in K2. unfold len in *. cbn [length] in K2. lia.
Qed.

(** Two encodings of one value that take the same space are the same bytes. *)
Lemma varint_fun x a b : varint_enc x a -> varint_enc x b -> len a = len b -> a = b.
Proof.
  intros [k [K1 [K2 [K3 [K4 K5]]]]] [k' [K1' [K2' [K3' [K4' K5']]]]] L.
  assert (k = k') as <-.
  { assert (C : k = 0 \/ k = 1 \/ k = 2 \/ k = 3) by lia. assert (C' : k' = 0 \/ k' = 1 \/ k' = 2 \/ k' = 3) by lia.
    rewrite K2, K2' in L.
    destruct C as [-> | [-> | [-> | ->]]]; destruct C' as [-> | [-> | [-> | ->]]]; try reflexivity; vm_compute in L; discriminate L. }
  apply be_val_inj; auto; [unfold len in *; lia|congruence].
Qed.

(** A changed byte of a length that leaves the value alone is its first byte. *)
Lemma varint_changed x a b v v' u u' y z : varint_enc x u -> varint_enc x u' ->
  a ++ y :: b = u ++ v -> a ++ z :: b = u' ++ v' -> y <> z ->
  a = [] \/ (u = u' /\ exists a2, a = u ++ a2 /\ v = a2 ++ y :: b /\ v' = a2 ++ z :: b).
Proof.
  intros U U' E E' NE. destruct a as [|w a]; [left; reflexivity|right].
  destruct u as [|c u]; [apply varint_nonempty in U; contradiction|]. destruct u' as [|c' u']; [apply varint_nonempty in U'; contradiction|].
  assert (C : w = c) by (cbn [app] in E; congruence). assert (C' : w = c') by (cbn [app] in E'; congruence). subst c c'.
  pose proof (varint_first _ _ _ _ _ U U') as L.
  assert (LU : len (w :: u) = len (w :: u')) by (unfold len in *; cbn [length]; lia).
  pose proof (varint_fun _ _ _ U U' LU) as EU.
  destruct (diff_split _ _ _ _ _ _ _ _ E E' LU) as [H|[_ [b1 [H1 H2]]]]; [exact H|].
  rewrite EU, H2 in H1. apply app_inv_head in H1. congruence.
Qed.

Lemma xor_cancel m : forall a b, len a = len b -> (length a <= length m)%nat -> xor_bytes a m = xor_bytes b m -> a = b.
Proof.
  intros a b L La E. rewrite <- (xor_bytes_invol a m La), E, xor_bytes_invol; auto. unfold len in L. lia.
Qed.

(** If one byte of an accepted Initial packet can be changed and the very same packet still comes
    out, then this byte lies between the packet number and the ciphertext, or the changed packet is a
    forgery: other associated data, ciphertext or tag that open under the same key and nonce.  A forgery
    changes the first byte of one of the two length fields, or a byte of the ciphertext or tag; no other
    byte can be changed at all: not the first byte, the version, the ids, the token, the rest of the
    lengths or the packet number. *)
Theorem C55_change_partial : forall P oc srv d l c k a x y b p rest,
  prims_ok P -> reachable P oc srv d l c -> remote_keys P oc c SpInitial k ->
  bytes_ok (a ++ x :: b) -> len (a ++ x :: b) < 2 ^ 63 -> y < 256 -> x <> y ->
  decode_next_packet oc c (a ++ x :: b) = Ok (PInitial p, rest) ->
  decode_next_packet oc c (a ++ y :: b) = Ok (PInitial p, rest) ->
  exists b0 fields tl ll ppn gap ct tag nonce pt,
    a ++ x :: b = b0 :: fields ++ tl ++ pi_token p ++ ll ++ ppn ++ gap ++ ct ++ tag ++ rest /\
    long_fields (pi_header p) fields /\ varint_enc (len (pi_token p)) tl /\
    varint_enc (len (pi_pn_bytes p) + len ct + len tag) ll /\
    len ppn = len (pi_pn_bytes p) /\ len ppn + len gap = 4 /\ len tag = 16 /\
    nonce_for (k_iv k) (pi_pn p) nonce /\
    let aad := lh_byte (pi_header p) :: fields ++ tl ++ pi_token p ++ ll ++ pi_pn_bytes p in
    p_gcm_open P (k_key k) nonce aad ct tag = Some pt /\
    let start := 1 + len fields in
    let number := start + len tl + len (pi_token p) + len ll in
    (number + len ppn <= len a < number + 4 \/
     exists aad' ct' tag' pt', (aad', ct' ++ tag') <> (aad, ct ++ tag) /\ len tag' = 16 /\
       p_gcm_open P (k_key k) nonce aad' ct' tag' = Some pt' /\ deserialize_frames oc pt' = Ok (pi_payload p) /\
       (len a = start \/ len a = start + len tl + len (pi_token p) \/
        aad' = aad /\ len ct' = len ct /\ number + 4 <= len a < number + 4 + len ct + 16)).
Proof.
  intros P oc srv d l c k a x y b p rest HP R K B LS Hy NE D D'.
  assert (B' : bytes_ok (a ++ y :: b)).
  { apply bytes_ok_app in B as [B1 B2]. apply bytes_ok_cons in B2 as [_ B2]. apply bytes_ok_app. split; [auto|apply bytes_ok_cons; auto]. }
  assert (LS' : len (a ++ y :: b) < 2 ^ 63).
  { replace (len (a ++ y :: b)) with (len (a ++ x :: b)); [exact LS|]. rewrite !len_app. reflexivity. }
  destruct (C25_accepted_is_authentic P oc srv d l c k _ p rest HP R K B LS D)
    as [b0 [fields [tl [ll [ppn [ct [tag [m0 [mask [more [nonce [pt [E [L4 [L16 [HF [HT [HL [EC [LM [EB [LN [EN [EV [HN [OP DF]]]]]]]]]]]]]]]]]]]]]]]]]].
  destruct (C25_accepted_is_authentic P oc srv d l c k _ p rest HP R K B' LS' D')
    as [b0' [fields' [tl' [ll' [ppn' [ct' [tag' [m0' [mask' [more' [nonce' [pt' [E' [L4' [L16' [HF' [HT' [HL' [EC' [LM' [EB' [LN' [EN' [EV' [HN' [OP' DF']]]]]]]]]]]]]]]]]]]]]]]]]].
  pose proof (long_fields_fun _ _ _ HF HF') as EF. subst fields'.
  rewrite <- (nonce_for_fun _ _ _ _ HN HN') in OP'. clear nonce' HN'.
  pose proof (land3_le (lh_byte (pi_header p))) as L3.
  set (n := N.to_nat (len (pi_pn_bytes p))) in *.
  assert (Ln4 : (n <= 4)%nat) by (unfold n; lia).
  assert (Lf : length (firstn n ppn) = n) by (rewrite firstn_length; unfold len in L4; lia).
  exists b0, fields, tl, ll, (firstn n ppn), (skipn n ppn), ct, tag, nonce, pt.
  split. { rewrite E, (app_assoc (firstn n ppn)), firstn_skipn. reflexivity. }
  split; [exact HF|]. split; [exact HT|]. split; [exact HL|].
  split. { unfold len at 1. rewrite Lf. unfold n. lia. }
  split. { unfold len. rewrite Lf, skipn_length. unfold len in L4. lia. }
  split; [exact L16|]. split; [exact HN|]. cbv zeta. split; [exact OP|].
  (* walk along the two byte strings *)
  assert (SAME : ct ++ tag ++ rest = ct' ++ tag' ++ rest -> m0 = m0' /\ mask = mask').
  { intros Q.
    replace (firstn 16 (ct' ++ tag' ++ rest)) with (firstn 16 (ct ++ tag ++ rest)) in EC' by (rewrite Q; reflexivity). rewrite EC in EC'. injection EC' as <- EC'.
    apply app_split in EC' as [<- _]; [auto|congruence]. }
  change (b0 :: fields ++ tl ++ pi_token p ++ ll ++ ppn ++ ct ++ tag ++ rest)
    with ([b0] ++ fields ++ tl ++ pi_token p ++ ll ++ ppn ++ ct ++ tag ++ rest) in E.
  change (b0' :: fields ++ tl' ++ pi_token p ++ ll' ++ ppn' ++ ct' ++ tag' ++ rest)
    with ([b0'] ++ fields ++ tl' ++ pi_token p ++ ll' ++ ppn' ++ ct' ++ tag' ++ rest) in E'.
  destruct (diff_split _ _ _ _ _ _ _ _ E E' eq_refl) as [[E0 [a1 [-> [E1 E1']]]]|[Q [b1 [Q1 Q2]]]].
  2: { exfalso. apply app_inv_head in Q. destruct (varint_split _ _ _ _ _ _ HT HT' Q) as [_ Q3]. apply app_inv_head in Q3.
    destruct (varint_split _ _ _ _ _ _ HL HL' Q3) as [_ Q4]. apply app_split in Q4 as [_ Q4]; [|congruence].
    destruct (SAME Q4) as [<- _]. rewrite EB in EB'. apply lxor_cancel in EB'. subst b0'. rewrite Q1 in Q2. apply app_inv_head in Q2. congruence. }
  clear E0 E E'. symmetry in E1, E1'.
  destruct (diff_split _ _ _ _ _ _ _ _ E1 E1' eq_refl) as [[_ [a2 [-> [E2 E2']]]]|[_ [b1 [Q1 Q2]]]].
  2: { exfalso. rewrite Q1 in Q2. apply app_inv_head in Q2. congruence. }
  symmetry in E2, E2'.
  destruct (varint_changed _ _ _ _ _ _ _ _ _ HT HT' E2 E2' NE) as [->|[<- [a3 [-> [E3 E3']]]]].
  { right. exists (lh_byte (pi_header p) :: fields ++ tl' ++ pi_token p ++ ll' ++ pi_pn_bytes p), ct', tag', pt'.
    split. { intros Q. apply (f_equal fst) in Q. cbn [fst] in Q. apply cons_eq in Q as [_ Q]. apply app_inv_head in Q.
      destruct tl as [|c1 tl]; [apply varint_nonempty in HT; contradiction|]. destruct tl' as [|c2 tl']; [apply varint_nonempty in HT'; contradiction|].
      cbn [app] in E2, E2', Q. congruence. }
    split; [exact L16'|]. split; [exact OP'|]. split; [exact DF'|]. left. rewrite app_nil_r. unfold len. cbn [app length]. lia. }
  symmetry in E3, E3'.
  destruct (diff_split _ _ _ _ _ _ _ _ E3 E3' eq_refl) as [[_ [a4 [-> [E4 E4']]]]|[_ [b1 [Q1 Q2]]]].
  2: { exfalso. rewrite Q1 in Q2. apply app_inv_head in Q2. congruence. }
  symmetry in E4, E4'.
  destruct a4 as [|w a4].
  { right. exists (lh_byte (pi_header p) :: fields ++ tl ++ pi_token p ++ ll' ++ pi_pn_bytes p), ct', tag', pt'.
    split. { intros Q. apply (f_equal fst) in Q. cbn [fst] in Q. apply cons_eq in Q as [_ Q]. do 3 apply app_inv_head in Q.
      destruct ll as [|c1 ll]; [apply varint_nonempty in HL; contradiction|]. destruct ll' as [|c2 ll']; [apply varint_nonempty in HL'; contradiction|].
      cbn [app] in E4, E4', Q. congruence. }
    split; [exact L16'|]. split; [exact OP'|]. split; [exact DF'|]. right. left.
    rewrite app_nil_r. unfold len. cbn [app length]. rewrite !app_length. lia. }
  assert (LL : len ll = len ll').
  { destruct ll as [|c1 ll]; [apply varint_nonempty in HL; contradiction|]. destruct ll' as [|c2 ll']; [apply varint_nonempty in HL'; contradiction|].
    assert (w = c1) as <- by (cbn [app] in E4; congruence). assert (w = c2) as <- by (cbn [app] in E4'; congruence).
    pose proof (varint_first _ _ _ _ _ HL HL') as L. unfold len in *. cbn [length]. lia. }
  assert (LC : len ct = len ct').
  { apply (f_equal len) in E4. apply (f_equal len) in E4'. rewrite !len_app in E4, E4'. unfold len in *. cbn [length] in *. lia. }
  rewrite L16, LC in HL. rewrite L16' in HL'. pose proof (varint_fun _ _ _ HL HL' LL) as EL. subst ll'.
  destruct (diff_split _ _ _ _ _ _ _ _ E4 E4' eq_refl) as [[_ [a5 [-> [E5 E5']]]]|[_ [b1 [Q1 Q2]]]].
  2: { exfalso. rewrite Q1 in Q2. apply app_inv_head in Q2. congruence. }
  symmetry in E5, E5'.
  destruct (diff_split _ _ _ _ _ _ _ _ E5 E5' ltac:(congruence)) as [[<- [a6 [-> [E6 E6']]]]|[Q [b1 [Q1 Q2]]]].
  2: { left. destruct (SAME Q) as [<- <-].
    assert (EX : firstn n ppn = firstn n ppn').
    { apply (xor_cancel (firstn n mask)).
      - unfold len. rewrite !firstn_length. unfold len in L4, L4'. lia.
      - rewrite !firstn_length. unfold len in L4, LM. lia.
      - rewrite <- !xor_firstn. congruence. }
    assert (LA : (n <= length a5)%nat).
    { destruct (Nat.le_gt_cases n (length a5)) as [H|H]; [exact H|exfalso]. rewrite Q1, Q2 in EX.
      rewrite !firstn_app in EX. apply app_inv_head in EX. destruct (n - length a5)%nat as [|j] eqn:J; [lia|].
      cbn [firstn] in EX. congruence. }
    assert (LB : len a5 < 4) by (rewrite <- L4, Q1, len_app; unfold len; cbn [length]; lia).
    unfold len in *. cbn [app length]. rewrite !app_length. lia. }
  right. exists (lh_byte (pi_header p) :: fields ++ tl ++ pi_token p ++ ll ++ pi_pn_bytes p), ct', tag', pt'.
  split.
  { intros Q. apply (f_equal snd) in Q. cbn [snd] in Q. rewrite !app_assoc in E6, E6'. rewrite Q in E6'. rewrite E6 in E6'. apply app_inv_head in E6'. congruence. }
  split; [exact L16'|]. split; [exact OP'|]. split; [exact DF'|]. right. right.
  split; [reflexivity|]. split; [auto|].
  symmetry in E6, E6'. rewrite !app_assoc in E6, E6'.
  destruct (diff_split _ _ _ _ _ _ _ _ E6 E6' ltac:(rewrite !len_app; lia)) as [[_ [a7 [_ [Q1 Q2]]]]|[_ [b1 [Q1 _]]]].
  { exfalso. rewrite Q1 in Q2. apply app_inv_head in Q2. congruence. }
  apply (f_equal len) in Q1. rewrite len_app, len_app in Q1. unfold len in *. cbn [app length] in *. rewrite !app_length. lia.
Qed.
Print Assumptions C55_change_partial.
(** In this packet the byte of the packet number is at position 17, the free bytes at 18 to 20. *)
Example C55_change_case :
  (let? (c, s) := sample_pair true in
   let? w := gap_datagram c [0; 0; 0] in
   let flip i := firstn i w ++ N.lxor (nth i w 0) 1 :: skipn (S i) w in
   Ok (length w, filter (fun i => match decode_next_packet true s (flip i) with
                                  | Ok (PInitial q, []) => pi_pn q =? 7
                                  | _ => false
                                  end) (seq 0 (length w)))) = Ok (38%nat, [18; 19; 20]%nat).
Proof. vm_compute. reflexivity. Qed.
