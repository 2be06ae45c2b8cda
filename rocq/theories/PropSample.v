(** C36 for whole packets: whatever the length of the packet number field, a
    serialised packet is protected with the mask of the 16 bytes found four bytes
    after the start of its packet number - what RFC 9001 section 5.4.2 asks for and
    a receiver looks at.  (Packets made by [new] have four byte numbers, so C54
    does not tell the sample offsets apart.) *)
From Verif Require Import Base Utils Frame CipherSuite Secrets Connection Packet Constructors Histories Spec SpecPacket
  Tactics UtilsFacts FrameFacts SecretsFacts HeaderFacts PacketFacts ConnectionFacts SendFacts CryptoInst PropConn
  PropPacket.
From Coq Require Import Lia ZifyN ZifyBool ZifyNat.
Open Scope N_scope.

(** An unprotected long header of type [t] for a number of [n] bytes, whose
    fields can be written. *)
Definition long_value (h : long_header) (t n : N) : Prop :=
  (exists fields, long_fields h fields) /\ lh_byte h < 256 /\ N.land (lh_byte h) 0xb0 = 0x80 + 0x10 * t /\
  N.land (lh_byte h) 0x03 + 1 = n /\ lh_version h <> 0 /\ lh_vn h = None /\ lh_protected h = false.

Lemma long_value_ready h t pnb : long_value h t (len pnb) -> header_ready h pnb t.
Proof. intros [A [B [C [D [E [F G]]]]]]. repeat split; auto. Qed.

Lemma frames_enc_of_ser fs pt : Forall frame_wf fs -> serialize_frames fs false = Ok pt -> frames_enc fs pt.
Proof.
  intros W E. destruct (serialize_frames_enc fs false W) as [x [E' F]]. rewrite E' in E. injection E as <-. exact F.
Qed.

Theorem C36_initial_sample : forall P oc c k p wire,
  prims_ok P -> local_keys P oc c SpInitial k ->
  long_value (pi_header p) 0 (len (pi_pn_bytes p)) -> bytes_ok (pi_token p) ->
  pn_field (pi_pn p) (pi_pn_bytes p) -> pi_pn p < 2 ^ 64 -> Forall frame_wf (pi_payload p) ->
  (forall pt, frames_enc (pi_payload p) pt -> len pt < 2 ^ 63) ->
  initial_serialize oc p c = Ok wire ->
  exists pt, frames_enc (pi_payload p) pt /\ initial_wire P k p pt wire.
Proof.
  intros P oc c k p wire HP K H BT F Hn FW Sz E.
  destruct (initial_ser P oc c k p wire HP K (long_value_ready _ _ _ H) BT F Hn FW) as [pt [S W]]; auto.
  - intros bs S. apply Sz. eapply frames_enc_of_ser; eauto.
  - exists pt. split; [|exact W]. eapply frames_enc_of_ser; eauto.
Qed.

Theorem C36_handshake_sample : forall P oc c k p wire,
  prims_ok P -> local_keys P oc c SpHandshake k ->
  long_value (ph_header p) 2 (len (ph_pn_bytes p)) ->
  pn_field (ph_pn p) (ph_pn_bytes p) -> ph_pn p < 2 ^ 64 -> Forall frame_wf (ph_payload p) ->
  (forall pt, frames_enc (ph_payload p) pt -> len pt < 2 ^ 63) ->
  handshake_serialize oc p c = Ok wire ->
  exists pt, frames_enc (ph_payload p) pt /\ handshake_wire P k p pt wire.
Proof.
  intros P oc c k p wire HP K H F Hn FW Sz E.
  destruct (handshake_ser P oc c k p wire HP K (long_value_ready _ _ _ H) F Hn FW) as [pt [S W]]; auto.
  - intros bs S. apply Sz. eapply frames_enc_of_ser; eauto.
  - exists pt. split; [|exact W]. eapply frames_enc_of_ser; eauto.
Qed.
Print Assumptions C36_initial_sample.
Print Assumptions C36_handshake_sample.

(** A one byte number: unmasking with the sample found four bytes after the start
    of the number (29 bytes into the packet) gives back the first byte and the
    number; the sample right behind the number (26 bytes in) does not. *)
Definition one_byte_number : packet_initial :=
  PacketInitial (LongHeader 0xc0 1 8 sample_id 8 sample_id None false) [] 7 [7] [Ping; Ping; Ping].
Example C36_one_byte_case :
  long_value (pi_header one_byte_number) 0 1 /\ pn_field 7 [7] /\
  (let? (c, s) := sample_pair true in
   let? wire := initial_serialize true one_byte_number c in
   let unmask at_ := let? m := get_remote_hp_mask s SpInitial (skipn at_ wire) in
     Ok (N.lxor (nth 0 wire 0) (N.land (nth 0 m 0) 0x0f), N.lxor (nth 25 wire 0) (nth 1 m 0)) in
   let? a := unmask 29%nat in let? b := unmask 26%nat in Ok (len wire, a, b)) = Ok (45, (0xc0, 7), (203, 212)).
Proof.
  split; [|split].
  - split; [|repeat split; vm_compute; congruence].
    destruct (header_of 0xc0 1 sample_id 8 sample_id 8 [7]) as [F _]; try reflexivity; try discriminate;
      try (repeat split; vm_compute; (reflexivity || discriminate)). exact F.
  - repeat split; try (vm_compute; congruence). apply bytes_ok_dec. reflexivity.
  - vm_compute. reflexivity.
Qed.

(** The length of the packet number field: the helper and the accessors of both
    kinds of header give the length of the field of every RFC packet with that
    first byte; a header that is still protected does not tell. *)
Theorem C101_number_length : forall P k bits first mid pnb pn pt wire,
  protected P k bits first mid pnb pn pt wire ->
  pn_length_from_header_byte first = len pnb /\
  (forall h, lh_byte h = first -> if lh_protected h then exists e, long_packet_number_length h = Err e else long_packet_number_length h = Ok (len pnb)) /\
  (forall h, sh_byte h = first -> if sh_protected h then exists e, short_packet_number_length h = Err e else short_packet_number_length h = Ok (len pnb)).
Proof.
  intros P k bits first mid pnb pn pt wire [_ [L _]]. unfold pn_length_from_header_byte, long_packet_number_length, short_packet_number_length.
  split; [exact L|]. split; intros h <-; [destruct (lh_protected h)|destruct (sh_protected h)]; eauto; rewrite L; reflexivity.
Qed.
Print Assumptions C101_number_length.

(** The packet with a one byte number. *)
Example C101_number_length_case : exists k mid pt wire, protected real_prims k 0x0f 0xc0 mid [7] 7 pt wire /\
  pn_length_from_header_byte 0xc0 = 1 /\ long_packet_number_length (pi_header one_byte_number) = Ok 1.
Proof.
  destruct (C32_initial_keys real_prims true false sample_id 8 real_prims_ok) as [c [cid [kl [kr [EC [-> [K1 [_ [LK _]]]]]]]]]; [split; reflexivity|lia|].
  assert (ES : exists wire, initial_serialize true one_byte_number c = Ok wire).
  { assert (K : exists wire, (let? c := connection_new real_prims true false V1 sample_id 8 in initial_serialize true one_byte_number c) = Ok wire) by (eexists; vm_compute; reflexivity).
    rewrite EC in K. exact K. }
  destruct ES as [wire ES]. destruct C36_one_byte_case as [A [B _]].
  destruct (C36_initial_sample real_prims true c kl one_byte_number wire real_prims_ok LK) as [pt [_ W]];
    [exact A|constructor|exact B|vm_compute; reflexivity|repeat constructor| |exact ES|].
  - clear. intros pt F. cbn [one_byte_number pi_payload] in F.
    repeat match goal with
    | H : frames_enc (_ :: _) _ |- _ => inversion H; clear H; subst
    | H : frames_enc [] _ |- _ => inversion H; clear H; subst
    | H : frame_enc _ Ping _ |- _ => inversion H; clear H; subst
    end; vm_compute; reflexivity.
  - destruct W as [fields [tl [ll [_ [_ [_ [_ [_ [_ [_ [_ [_ [_ PR]]]]]]]]]]]]]. exists kl, (fields ++ tl ++ pi_token one_byte_number ++ ll), pt, wire. split; [exact PR|]. split; reflexivity.
Qed.
