(** Property C146: acknowledgements for packets that were never sent. *)
From Verif Require Import Base Utils Frame CipherSuite Secrets Connection Packet Histories Spec SpecPacket
  Tactics UtilsFacts ParserFacts FrameFacts SecretsFacts HeaderFacts PacketFacts ConnectionFacts PacketInv
  DecodeFacts SendFacts CryptoInst PropFrame PropHeader PropConn PropPacket PropDecode PropWire PropAck.
From Coq Require Import Lia ZifyN ZifyBool ZifyNat.
Open Scope N_scope.

(** Full statement (RFC 9000 section 13.1): a connection that, after the calls
    [xs], reads an Initial packet with an ACK frame, has sent the packets that the
    frame acknowledges. *)
Definition C146_statement : Prop := forall P oc srv d l c0 xs s p rest x n,
  prims_ok P -> connection_new P oc srv V1 d l = Ok c0 -> id_fits d l -> bytes_ok s ->
  decode_next_packet oc (run oc c0 xs) s = Ok (PInitial p, rest) ->
  In (Ack x) (pi_payload p) -> acknowledges x n -> In n (issued_in oc c0 SpInitial xs).

(** Whatever a connection has done, it reads a packet that acknowledges all
    numbers from [n] to [m], whatever they are. *)
Theorem C146_any_acknowledged : forall P oc srv d l c n m,
  prims_ok P -> reachable P oc srv d l c -> id_fits d l -> n <= m -> m < 2 ^ 62 ->
  exists s p x, bytes_ok s /\ decode_packets oc c s = Ok [PInitial p] /\ pi_payload p = [Ack x] /\
    forall i, acknowledges x i <-> n <= i <= m.
Proof.
  intros P oc srv d l c n m HP R ID NM M. set (x := FrameAck m 0 0 (m - n) [] None).
  assert (W : frame_wf (Ack x)).
  { cbn. unfold v62 in *. repeat split; auto; try (pows; lia); constructor. }
  destruct (C07_frames_roundtrip oc [Ack x] false) as [pt [E D]]; [repeat constructor; auto; apply W|repeat constructor|].
  assert (L : len pt + 16 < 2 ^ 31).
  { unfold x, serialize_frames in E. cbn in E. inv_bind. injection E as <-. injection E0 as <-.
    assert (V : forall v w, encode_var_int v = Ok w -> len w <= 8) by (intros v w H; eapply varint_enc_len, (encode_var_int_inv v w H)).
    repeat match goal with H : encode_var_int _ = Ok _ |- _ => apply V in H end. subst.
    rewrite ?len_app, ?len_cons, ?len_app, ?len_nil in *. pows. lia. }
  destruct (C58_every_payload_accepted P oc srv d l c [Ack x] pt HP R ID) as [s [p [B [DN PL]]]]; auto.
  { repeat constructor. }
  exists s, p, x. split; [exact B|]. split.
  { unfold decode_packets. destruct s as [|b s]; [discriminate DN|]. cbn [length decode_packets_loop]. rewrite DN. cbn [bind].
    destruct (length s); reflexivity. }
  split; [exact PL|]. intros i. unfold acknowledges. cbn. split.
  - intros [H|[_ H]]; [lia|inversion H].
  - intros H. left. lia.
Qed.
Print Assumptions C146_any_acknowledged.

Theorem C146_refuted : ~ C146_statement.
Proof.
  intros H. destruct (connection_new_ok real_prims true false sample_id 8 real_prims_ok ltac:(lia)) as [c0 E].
  assert (ID : id_fits sample_id 8) by (split; [split; vm_compute; reflexivity|split; [lia|vm_compute; reflexivity]]).
  destruct (C146_any_acknowledged real_prims true false sample_id 8 c0 7 7 real_prims_ok (ex_intro _ c0 (ex_intro _ [] (conj E eq_refl))) ID) as [s [p [x [B [D [PL A]]]]]]; [lia|pows; lia|].
  unfold decode_packets in D. destruct s as [|b s]; [discriminate D|]. cbn [length decode_packets_loop] in D.
  apply bind_ok in D as [[q rest] [D1 D2]]. apply bind_ok in D2 as [qs [_ D2]]. injection D2 as -> _.
  exact (H real_prims true false sample_id 8 c0 [] (b :: s) p rest x 7 real_prims_ok E ID B D1
    ltac:(rewrite PL; left; reflexivity) (proj2 (A 7) ltac:(lia))).
Qed.
Print Assumptions C146_refuted.

(** A server that has sent nothing reads an acknowledgement of packets 5 to 9. *)
Example C146_case :
  (let? (c, s) := sample_pair true in
   let? p := snd (initial_new true [Ack (FrameAck 9 0 0 4 [] None)] None c) in
   let? w := initial_serialize true p c in
   let? ps := decode_packets true s w in
   Ok (map (fun q => match q with PInitial q => pi_payload q | _ => [] end) ps)) = Ok [[Ack (FrameAck 9 0 0 4 [] None)]] /\
  (forall n, acknowledges (FrameAck 9 0 0 4 [] None) n <-> 5 <= n <= 9).
Proof.
  split; [vm_compute; reflexivity|]. intros n. unfold acknowledges. cbn. split; [intros [H|[_ H]]; [lia|inversion H]|intros H; left; lia].
Qed.
