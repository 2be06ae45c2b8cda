(** C23 and C61 ask that every packet protected as RFC 9001 says is read, whatever its
    version, bits and frames; C52, C58-C60 and C117 ask that some of these are refused.
    Here the two families meet: the statements that ask only for packets that
    conform in every respect.  The code does not meet these either, and the decoder
    of PropRepairsChecks.v, which is not the code, does. *)
From Verif Require Import Base Utils Frame CipherSuite Secrets Connection Packet Histories Spec SpecPacket
  Tactics UtilsFacts ParserFacts FrameFacts SecretsFacts HeaderFacts PacketFacts ConnectionFacts PacketInv DecodeFacts SendFacts
  ProtectedInv CryptoInst BuildFacts PropFrame PropFrameSound PropPacket PropConn PropProtected PropDecode PropWire PropLimits PropMixed
  PropRepairs PropRepairsPn PropRepairsTotal PropRepairsExact PropRepairsFrames PropRepairsChecks.

Definition strict_initial (dec : bool -> bool -> connection -> parser packet) : Prop := forall P oc srv d l c k p pt wire rest,
  prims_ok P -> reachable P oc srv d l c -> remote_keys P oc c SpInitial k ->
  initial_wire P k p pt wire -> pi_pn p < 256 ^ len (pi_pn_bytes p) ->
  frames_enc (pi_payload p) pt -> Forall rfc_valid (pi_payload p) -> rules srv (PInitial p) -> bytes_ok rest ->
  dec srv oc c (wire ++ rest) = Ok (PInitial p, rest).
Definition strict_handshake (dec : bool -> bool -> connection -> parser packet) : Prop := forall P oc srv c k p pt wire rest,
  prims_ok P -> remote_keys P oc c SpHandshake k -> no_remote_ack c SpHandshake ->
  handshake_wire P k p pt wire -> ph_pn p < 256 ^ len (ph_pn_bytes p) ->
  frames_enc (ph_payload p) pt -> Forall rfc_valid (ph_payload p) -> rules srv (PHandshake p) -> bytes_ok rest ->
  dec srv oc c (wire ++ rest) = Ok (PHandshake p, rest).


Lemma three_pings_enc : frames_enc [Ping; Ping; Ping] [1; 1; 1].
Proof.
  apply (fenc_cons Ping Ping [Ping] [1] [1; 1]); [constructor|].
  apply (fenc_cons Ping Ping [] [1] [1]); [constructor|]. constructor. constructor.
Qed.
Lemma three_pings_valid : Forall rfc_valid [Ping; Ping; Ping].
Proof. repeat constructor. Qed.

(** C23 for packets that conform in every respect. *)
Theorem C23_strict_refuted : ~ strict_initial (fun _ => decode_next_packet).
Proof.
  intros H. destruct (sample_reachable false) as [c R]. destruct (sample_reachable true) as [s R'].
  destruct (peer_keys real_prims true false sample_id 8 c s real_prims_ok R R') as [k [K1 [K2 NA]]].
  assert (ID : id_fits sample_id 8) by (repeat split; vm_compute; (reflexivity || discriminate)).
  destruct (conformant_exists real_prims true false sample_id 8 c
    (LongHeader 0xc0 1 8 sample_id 8 sample_id None false) 7 [7] [] [Ping; Ping; Ping] [1; 1; 1] k) as [wire W];
    auto using real_prims_ok; try reflexivity; try (repeat constructor; discriminate).
  - apply header_of; auto; (reflexivity || discriminate).
  - set (p := PacketInitial (LongHeader 0xc0 1 8 sample_id 8 sample_id None false) [] 7 [7] [Ping; Ping; Ping]) in *.
    specialize (H real_prims true true sample_id 8 s k p [1; 1; 1] wire [] real_prims_ok R' K2 W eq_refl
      three_pings_enc three_pings_valid).
    rewrite app_nil_r, (C23_short_number_refused real_prims true true sample_id 8 s k p [1; 1; 1] wire) in H;
      auto using real_prims_ok; [|reflexivity].
    assert (A : rules true (PInitial p)).
    { apply allowed_rules. reflexivity. }
    specialize (H A ltac:(constructor)). discriminate H.
Qed.
Print Assumptions C23_strict_refuted.
(** C61, likewise. *)
Theorem C61_strict_refuted : ~ strict_handshake (fun _ => decode_next_packet).
Proof.
  intros H. destruct all_keys as [c0 [k [K [_ [NA [_ KO]]]]]]. set (c := with_all_keys c0) in *.
  assert (ID : id_fits sample_id 8) by (repeat split; vm_compute; (reflexivity || discriminate)).
  destruct ID as [D1 [D2 D3]]. destruct (cid_enc_exists sample_id 8) as [db Hd]; auto.
  set (h := LongHeader 0xe0 1 8 sample_id 8 sample_id None false).
  set (fields := be_bytes 4 1 ++ 8 :: db ++ 8 :: db).
  assert (HF : long_fields h fields).
  { exists (be_bytes 4 1), db, db. cbn. split; [apply (fixed_enc_be 4); reflexivity|]. auto. }
  set (p := PacketHandshake h [7] 7 [Ping; Ping; Ping]).
  pose proof (long_fields_len _ _ HF) as LF.
  destruct (protected_exists real_prims k 0x0f 0xe0 (fields ++ [20]) [7] 7 [1; 1; 1] real_prims_ok KO) as [wire W].
  { split; [vm_compute; split; discriminate|]. split; [repeat constructor|reflexivity]. }
  { reflexivity. }
  { reflexivity. }
  { repeat constructor. }
  { rewrite len_app. change (len [20]) with 1. pows. lia. }
  { reflexivity. }
  { discriminate. }
  assert (HW : handshake_wire real_prims k p [1; 1; 1] wire).
  { exists fields, [20]. cbn [p ph_header ph_pn ph_pn_bytes ph_payload h lh_byte lh_version lh_vn lh_protected].
    split; [reflexivity|]. split; [reflexivity|]. split; [discriminate|]. split; [reflexivity|]. split; [reflexivity|].
    split; [exact HF|]. split; [apply one_byte; reflexivity|]. split; [repeat constructor|]. exact W. }
  pose proof (C61_short_handshake_refused _ _ _ _ _ _ _ real_prims_ok K NA HW ltac:(reflexivity)) as E.
  assert (A : rules true (PHandshake p)) by (apply allowed_rules; reflexivity).
  assert (E2 : decode_next_packet true c (wire ++ []) = Ok (PHandshake p, [])).
  { exact (H real_prims true true c k p [1; 1; 1] wire [] real_prims_ok K NA HW eq_refl three_pings_enc three_pings_valid A (Forall_nil _)). }
  rewrite app_nil_r, E in E2. discriminate E2.
Qed.
Print Assumptions C61_strict_refuted.
(** The corrected decoder meets both, and by [initial_checked] and [protected_checked]
    it reads nothing else. *)
Theorem strict_repaired : strict_initial decode_checked /\ strict_handshake decode_checked.
Proof.
  split.
  - intros P oc srv d l c k p pt wire rest HP R K W Hp F V A Br.
    pose proof (reachable_inv _ _ _ _ _ _ HP R) as I.
    assert (KO : keys_ok k) by (destruct K as [? [_ K]]; apply K).
    apply (initial_checked srv P oc c k _ p rest HP K).
    + apply (ci_acks _ _ _ _ _ _ I SpInitial).
    + apply bytes_ok_app. split; [eapply initial_wire_bytes_ok; eauto|exact Br].
    + exists wire, pt. auto 10 using frames_enc_payload.
  - intros P oc srv c k p pt wire rest HP K NA W Hp F V A Br.
    assert (KO : keys_ok k) by (destruct K as [? [_ K]]; apply K).
    apply (proj1 protected_checked srv P oc c k _ p rest HP K NA).
    + apply bytes_ok_app. split; [eapply handshake_wire_bytes_ok; eauto|exact Br].
    + exists wire, pt. auto 10 using frames_enc_payload.
Qed.
Print Assumptions strict_repaired.
