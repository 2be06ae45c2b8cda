(** Independent specification of transport parameters (RFC 9000 section 18) and
    error codes (section 20.1).  No function of the model is used. *)
From Verif Require Import Base Utils Frame Spec TransportParams.

(** RFC 9000 section 18, Figures 20 and 21: a sequence of identifier, length,
    value triples. *)
Inductive tlv_enc : list (N * list N) -> list N -> Prop :=
| tlv_nil : tlv_enc [] []
| tlv_cons : forall id v items a b bs,
    varint_enc id a -> varint_enc (len v) b -> tlv_enc items bs ->
    tlv_enc ((id, v) :: items) (a ++ b ++ v ++ bs).

(** What a parameter carries. *)
Inductive tp_content :=
| CBytes (x : list N)             (* opaque bytes *)
| CInt (x : N)                    (* variable-length integer *)
| CFlag                           (* zero-length value *)
| CAddress (x : preferred_address).

(** RFC 9000 section 18.2: the registered identifier of each parameter. *)
Definition tp_table (p : transport_parameter) : N * tp_content :=
  match p with
  | TpOriginalDestinationConnectionId x => (0, CBytes x)
  | TpMaxIdleTimeout x => (1, CInt x)
  | TpStatelessResetToken x => (2, CBytes x)
  | TpMaxUdpPayloadSize x => (3, CInt x)
  | TpInitialMaxData x => (4, CInt x)
  | TpInitialMaxStreamDataBidiLocal x => (5, CInt x)
  | TpInitialMaxStreamDataBidiRemote x => (6, CInt x)
  | TpInitialMaxStreamDataUni x => (7, CInt x)
  | TpInitialMaxStreamsBidi x => (8, CInt x)
  | TpInitialMaxStreamsUni x => (9, CInt x)
  | TpAckDelayExponent x => (10, CInt x)
  | TpMaxAckDelay x => (11, CInt x)
  | TpDisableActiveMigration => (12, CFlag)
  | TpPreferredAddress x => (13, CAddress x)
  | TpActiveConnectionIdLimit x => (14, CInt x)
  | TpInitialSourceConnectionId x => (15, CBytes x)
  | TpRetrySourceConnectionId x => (16, CBytes x)
  end.

(** The four fixed-width address fields, in the order of RFC 9000 Figure 22. *)
Definition address_fields (x : preferred_address) (bs : list N) : Prop :=
  exists p4 p6, bs = pa_ipv4_address x ++ p4 ++ pa_ipv6_address x ++ p6 /\
    len (pa_ipv4_address x) = 4 /\ len (pa_ipv6_address x) = 16 /\
    fixed_enc 2 (pa_ipv4_port x) p4 /\ fixed_enc 2 (pa_ipv6_port x) p6.

(** RFC 9000 Figure 22, the whole value. *)
Definition rfc_preferred_address (x : preferred_address) (token v : list N) : Prop :=
  exists addr, address_fields x addr /\ len token = 16 /\ len (pa_connection_id x) < 256 /\
    v = addr ++ [len (pa_connection_id x)] ++ pa_connection_id x ++ token.

(** Value bytes of a parameter, except that addresses are as the code lays
    them out: address fields and then the id up to the end of the value. *)
Definition tp_value (c : tp_content) (v : list N) : Prop :=
  match c with
  | CBytes x => v = x
  | CInt x => varint_enc x v
  | CFlag => v = []
  | CAddress x => exists addr, address_fields x addr /\ v = addr ++ pa_connection_id x
  end.

(** Field widths of the Rust types, and lengths a [Vec] can have. *)
Definition tp_wf (p : transport_parameter) : Prop :=
  match snd (tp_table p) with
  | CBytes x => bytes_ok x /\ len x < 2 ^ 62
  | CInt x => x < 2 ^ 64
  | CFlag => True
  | CAddress x => bytes_ok (pa_ipv4_address x) /\ len (pa_ipv4_address x) = 4 /\ pa_ipv4_port x < 2 ^ 16 /\
      bytes_ok (pa_ipv6_address x) /\ len (pa_ipv6_address x) = 16 /\ pa_ipv6_port x < 2 ^ 16 /\
      bytes_ok (pa_connection_id x) /\ len (pa_connection_id x) < 2 ^ 61
  end.

Definition tp_fits (p : transport_parameter) : Prop :=
  match snd (tp_table p) with CInt x => x < 2 ^ 62 | _ => True end.

(** RFC 9000 section 20.1: error kinds in the order of their codes, which are
    consecutive from 0. *)
Definition same_kind (a b : error) : Prop :=
  match a, b with InternalError _, InternalError _ => True | _, _ => a = b end.
Definition rfc_error_order : list error :=
  [ NoError; InternalError ""; ConnectionRefused; FlowControlError; StreamLimitError;
    StreamStateError; FinalSizeError; FrameEncodingError; TransportParameterError;
    ConnectionIdLimitError; ProtocolViolation; InvalidToken; ApplicationError;
    CryptoBufferExceeded; KeyUpdateError; AeadLimitReached; NoViablePath ].
