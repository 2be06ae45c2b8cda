(** Property C141: Retry packets. *)
From Verif Require Import Base Utils Frame CipherSuite Secrets Connection Packet Histories Spec SpecPacket
  Tactics UtilsFacts FrameFacts HeaderFacts PacketFacts ConnectionFacts PacketInv DecodeFacts SendFacts CryptoInst
  PropConn PropPacket PropDecode PropWire PropHeader PropCoalesce PropBuilt PropSend PropLimits.
From Coq Require Import Lia ZifyN ZifyBool ZifyNat.
Open Scope N_scope.

(** RFC 9001 section 5.8: the fixed key and nonce of version 1. *)
Definition retry_key : list N :=
  [0xbe; 0x0c; 0x69; 0x0b; 0x9f; 0x66; 0x57; 0x5a; 0x1d; 0x76; 0x6b; 0x54; 0xe3; 0x68; 0xc8; 0x4e].
Definition retry_nonce : list N := [0x46; 0x15; 0x99; 0xd3; 0x5d; 0x63; 0x2b; 0xf2; 0x23; 0x98; 0x25; 0xbb].

(** RFC 9000 section 17.2.5: [s] is the Retry packet [q], sent in answer to an Initial
    packet to the id [odcid]. *)
Definition retry_wire (P : prims) (odcid : list N) (q : packet_retry) (s : list N) : Prop :=
  exists b v d sc tag,
    let front := b :: v ++ pr_dcid_len q :: d ++ pr_scid_len q :: sc ++ pr_token q in
    s = front ++ tag /\ 0xf0 <= b < 256 /\ fixed_enc 4 1 v /\ pr_version q = 1 /\
    pr_dcid_len q <= 20 /\ pr_scid_len q <= 20 /\
    cid_enc (pr_dcid q) (pr_dcid_len q) d /\ cid_enc (pr_scid q) (pr_scid_len q) sc /\
    bytes_ok (pr_token q) /\ pr_token q <> [] /\ fixed_enc 16 (pr_integrity_tag q) tag /\
    p_gcm_seal P retry_key retry_nonce (len odcid :: odcid ++ front) [] = Some ([], tag).

(** Full statement: a client reads the Retry packet a server answers it with. *)
Definition C141_statement : Prop := forall P oc d l c q s,
  prims_ok P -> reachable P oc false d l c -> id_fits d l ->
  retry_wire P (be_bytes (N.to_nat l) (cid_val d)) q s ->
  decode_packets oc c s = Ok [PRetry q].

Lemma retry_announced P o q s : retry_wire P o q s -> bytes_ok s /\ announces s TRetry.
Proof.
  intros (b & v & d & sc & tag & -> & Hb & (V1 & V2 & V3) & _ & Ld & Ls & (_ & D1 & D2 & _) & (_ & S1 & S2 & _) & Bt & _ & (T1 & _) & _).
  split.
  - apply bytes_ok_app. split; [|exact T1]. constructor; [lia|]. apply bytes_ok_app. split; [exact V1|].
    constructor; [lia|]. apply bytes_ok_app. split; [exact D1|]. constructor; [lia|]. apply bytes_ok_app. auto.
  - replace ((b :: v ++ pr_dcid_len q :: d ++ pr_scid_len q :: sc ++ pr_token q) ++ tag)
      with (b :: v ++ len d :: d ++ len sc :: sc ++ (pr_token q ++ tag)).
    + apply an_long; try lia.
      replace (b / 16) with 15; [reflexivity|]. apply N.div_unique with (b - 240); lia.
    + rewrite D2, S2. cbn [app]. rewrite <- !app_assoc. cbn [app]. rewrite <- !app_assoc. cbn [app]. rewrite <- !app_assoc. reflexivity.
Qed.

(** Everything whose header says Retry panics, on every connection, valid or not, alone
    or behind packets that can be read. *)
Theorem C141_always_panics : forall oc c s,
  bytes_ok s -> announces s TRetry -> decode_next_packet oc c s = Panic "not yet implemented".
Proof.
  intros oc c s B A.
  destruct (announces_header _ _ B A) as [h [r [E K]]].
  destruct (decode_next_cases oc c s B) as [[w [e [Eh _]]]|[[b [s1 [h' [r' [-> [Hb [El [E0 D]]]]]]]]|[b [s1 [h' [r' [-> [Hb [El D]]]]]]]]].
  - congruence.
  - rewrite D. unfold next_header_from_stream in E. cbn [next bind] in E. rewrite land_128 in E by lia.
    destruct (N.leb_spec 128 b); [|lia]. rewrite El in E. cbn [bind] in E. injection E as <- <-.
    rewrite E0 in K. rewrite <- K. reflexivity.
  - unfold next_header_from_stream in E. cbn [next bind] in E. rewrite land_128 in E by lia.
    destruct (N.leb_spec 128 b); [lia|]. rewrite El in E. cbn [bind] in E. injection E as <- <-. discriminate K.
Qed.
Print Assumptions C141_always_panics.
Lemma first_panics oc c s w : s <> [] -> decode_next_packet oc c s = Panic w -> decode_packets oc c s = Panic w.
Proof. intros NE D. unfold decode_packets. destruct s as [|b s]; [contradiction|]. cbn [length decode_packets_loop]. rewrite D. reflexivity. Qed.
Theorem C141_datagram_panics : forall P oc srv d l c k a ps s,
  prims_ok P -> reachable P oc srv d l c -> remote_keys P oc c SpInitial k ->
  bytes_ok (a ++ s) -> len (a ++ s) < 2 ^ 63 ->
  decode_packets oc c a = Ok (map PInitial ps) -> announces s TRetry ->
  decode_packets oc c (a ++ s) = Panic "not yet implemented".
Proof.
  intros P oc srv d l c k a ps s HP R K B L D A.
  rewrite (C82_datagrams_compose P oc srv d l c k a s ps HP R K B L D).
  apply bytes_ok_app in B as [_ B]. rewrite (first_panics oc c s "not yet implemented"); [reflexivity| |].
  - intros ->. inversion A.
  - apply C141_always_panics; auto.
Qed.
Print Assumptions C141_datagram_panics.

(** The Retry packet of RFC 9001 appendix A.4. *)
Definition rfc_odcid : u160 := U160 0 0x8394c8f03e515708.
Definition rfc_retry : list N :=
  [0xff; 0x00; 0x00; 0x00; 0x01; 0x00; 0x08; 0xf0; 0x67; 0xa5; 0x50; 0x2a; 0x42; 0x62; 0xb5; 0x74; 0x6f; 0x6b;
   0x65; 0x6e; 0x04; 0xa2; 0x65; 0xba; 0x2e; 0xff; 0x4d; 0x82; 0x90; 0x58; 0xfb; 0x3f; 0x0f; 0x24; 0x96; 0xba].
Definition rfc_retry_packet : packet_retry :=
  PacketRetry 1 0 (U160 0 0) 8 (U160 0 0xf067a5502a4262b5) [0x74; 0x6f; 0x6b; 0x65; 0x6e] 0x04a265ba2eff4d829058fb3f0f2496ba.
Lemma rfc_retry_conforms : retry_wire real_prims (be_bytes 8 (cid_val rfc_odcid)) rfc_retry_packet rfc_retry.
Proof.
  exists 0xff, [0; 0; 0; 1], [], [0xf0; 0x67; 0xa5; 0x50; 0x2a; 0x42; 0x62; 0xb5],
    [0x04; 0xa2; 0x65; 0xba; 0x2e; 0xff; 0x4d; 0x82; 0x90; 0x58; 0xfb; 0x3f; 0x0f; 0x24; 0x96; 0xba].
  split; [reflexivity|]. split; [lia|]. split; [repeat split; apply bytes_ok_dec; reflexivity|]. split; [reflexivity|].
  split; [vm_compute; discriminate|]. split; [vm_compute; discriminate|].
  split; [repeat split; try (apply bytes_ok_dec); vm_compute; reflexivity|].
  split; [repeat split; try (apply bytes_ok_dec); vm_compute; reflexivity|].
  split; [apply bytes_ok_dec; reflexivity|]. split; [discriminate|].
  split; [repeat split; try (apply bytes_ok_dec); vm_compute; reflexivity|].
  vm_compute. reflexivity.
Qed.
Theorem C141_refuted : ~ C141_statement.
Proof.
  intros H. assert (ID : id_fits rfc_odcid 8) by (repeat split; vm_compute; (reflexivity || discriminate)).
  destruct (connection_new_ok real_prims true false rfc_odcid 8 real_prims_ok (proj1 (proj2 ID))) as [c E].
  assert (R : reachable real_prims true false rfc_odcid 8 c) by (exists c, []; auto). clear E.
  specialize (H _ _ _ _ _ _ _ real_prims_ok R ID rfc_retry_conforms).
  destruct (retry_announced _ _ _ _ rfc_retry_conforms) as [B A].
  rewrite (first_panics true c rfc_retry "not yet implemented") in H; [discriminate H|discriminate|].
  apply C141_always_panics; assumption.
Qed.
Print Assumptions C141_refuted.
(** The server's Initial packet is lost with the Retry packet behind it. *)
Example C141_case :
  (let? c := connection_new real_prims true false V1 rfc_odcid 8 in
   let? s := connection_new real_prims true true V1 rfc_odcid 8 in
   let? w := send_initial true [Ping] None (set_scid s (U160 0 7) 4) in
   let? ps := decode_packets true c w in
   Ok (length ps, decode_packets true c rfc_retry, decode_packets true c (w ++ rfc_retry))) =
  Ok (1%nat, Panic "not yet implemented", Panic "not yet implemented").
Proof. vm_compute. reflexivity. Qed.
