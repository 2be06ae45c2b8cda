(** C129: the values of transport parameters. *)
From Verif Require Import Base Utils Frame Spec Tactics UtilsFacts ParserFacts TransportParams SpecTransport PropTransport.

(** RFC 9000 section 18.2: values a parameter may have (4.6 for stream limits, 5.1
    and 17.2 for the length of ids). *)
Definition rfc_range (p : transport_parameter) : Prop :=
  match p with
  | TpOriginalDestinationConnectionId x | TpInitialSourceConnectionId x | TpRetrySourceConnectionId x => len x <= 20
  | TpStatelessResetToken x => len x = 16
  | TpMaxUdpPayloadSize x => 1200 <= x < 2 ^ 62
  | TpInitialMaxStreamsBidi x | TpInitialMaxStreamsUni x => x <= 2 ^ 60
  | TpAckDelayExponent x => x <= 20
  | TpMaxAckDelay x => x < 2 ^ 14
  | TpActiveConnectionIdLimit x => 2 <= x < 2 ^ 62
  | TpPreferredAddress x => 1 <= len (pa_connection_id x) <= 20
  | TpMaxIdleTimeout x | TpInitialMaxData x | TpInitialMaxStreamDataBidiLocal x | TpInitialMaxStreamDataBidiRemote x
  | TpInitialMaxStreamDataUni x => x < 2 ^ 62
  | TpDisableActiveMigration => True
  end.

(** What Rust's types guarantee beyond [tp_wf]: a reset token is a [[u8; 16]]. *)
Definition token_typed (p : transport_parameter) : Prop :=
  match p with TpStatelessResetToken x => len x = 16 | _ => True end.

(** Full statement: a parameter out of its range is not written. *)
Definition C129_statement : Prop := forall p w, tp_wf p -> token_typed p -> tp_serialize p = Ok w -> rfc_range p.

(** Every parameter in its range is written, as identifier, length and value. *)
Theorem C129_range_sent : forall p, tp_wf p -> rfc_range p ->
  exists v a b, tp_serialize p = Ok (a ++ b ++ v) /\
    varint_enc (fst (tp_table p)) a /\ varint_enc (len v) b /\ tp_value (snd (tp_table p)) v.
Proof.
  intros p W R. apply C49_serialize_exact; auto.
  destruct p; cbn [tp_fits tp_table snd rfc_range] in *; unfold tp_fits; cbn [tp_table snd]; try exact Logic.I; try (pows; lia).
Qed.
Print Assumptions C129_range_sent.

(** Nothing but the width of the integer format is checked. *)
Theorem C129_only_width_checked : forall p, tp_wf p -> token_typed p ->
  ((exists w, tp_serialize p = Ok w) <->
   match snd (tp_table p) with CInt x => x < 2 ^ 62 | _ => True end).
Proof.
  intros p W _. destruct (C49_serialize_exact p W) as [A B]. split.
  - intros [w E]. change (tp_fits p). destruct p; unfold tp_fits; cbn [tp_table snd] in *; try exact Logic.I;
      match goal with |- ?x < _ => destruct (N.lt_ge_cases x (2 ^ 62)) as [L|L]; [exact L|] end;
      (destruct B as [e Q]; [unfold tp_fits; cbn [tp_table snd]; pows; lia|congruence]).
  - intros H. destruct (A H) as [v [a [b [E _]]]]. eauto.
Qed.
Print Assumptions C129_only_width_checked.

Theorem C129_range_refuted : ~ C129_statement.
Proof.
  intros H. specialize (H (TpAckDelayExponent 21) [0x0a; 1; 21] ltac:(cbn; pows; lia) Logic.I eq_refl). cbn in H. lia.
Qed.
Print Assumptions C129_range_refuted.

(** Each kind of limit, just inside and just outside, both written. *)
Example C129_case :
  map tp_serialize [TpMaxUdpPayloadSize 1200; TpMaxUdpPayloadSize 1199; TpMaxAckDelay 16383; TpMaxAckDelay 16384;
    TpActiveConnectionIdLimit 2; TpActiveConnectionIdLimit 1; TpInitialMaxStreamsUni (2 ^ 60); TpInitialMaxStreamsUni (2 ^ 60 + 1);
    TpInitialSourceConnectionId []; TpInitialSourceConnectionId (repeat 7 21)] =
  [Ok [3; 2; 0x44; 0xb0]; Ok [3; 2; 0x44; 0xaf]; Ok [0x0b; 2; 0x7f; 0xff]; Ok [0x0b; 4; 0x80; 0; 0x40; 0];
   Ok [0x0e; 1; 2]; Ok [0x0e; 1; 1]; Ok [9; 8; 0xd0; 0; 0; 0; 0; 0; 0; 0]; Ok [9; 8; 0xd0; 0; 0; 0; 0; 0; 0; 1];
   Ok [0x0f; 0]; Ok (0x0f :: 21 :: repeat 7 21)] /\
  tp_wf (TpInitialMaxStreamsUni (2 ^ 60 + 1)) /\ ~ rfc_range (TpInitialMaxStreamsUni (2 ^ 60 + 1)) /\
  tp_wf (TpInitialSourceConnectionId (repeat 7 21)) /\ ~ rfc_range (TpInitialSourceConnectionId (repeat 7 21)).
Proof.
  split; [reflexivity|]. split; [reflexivity|]. split; [intros H; vm_compute in H; apply H; reflexivity|].
  split; [split; [apply bytes_ok_dec|]; reflexivity|]. intros H. vm_compute in H. apply H. reflexivity.
Qed.
