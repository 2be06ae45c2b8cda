(** Model of src/transport_parameters.rs. *)
From Verif Require Import Base Utils.

(** transport_parameters.rs:5-11.  Addresses are kept as their octets
    ([Ipv4Addr::octets], [Ipv6Addr::octets]: 4 and 16 bytes). *)
Record preferred_address := PreferredAddress {
  pa_ipv4_address : list N;
  pa_ipv4_port : N;
  pa_ipv6_address : list N;
  pa_ipv6_port : N;
  pa_connection_id : list N }.

(** transport_parameters.rs:14-23. *)
Definition preferred_address_to_bytes (x : preferred_address) : list N :=
  pa_ipv4_address x ++ be_bytes 2 (pa_ipv4_port x) ++
  pa_ipv6_address x ++ be_bytes 2 (pa_ipv6_port x) ++ pa_connection_id x.

(** transport_parameters.rs:26-44. *)
Inductive transport_parameter :=
| TpOriginalDestinationConnectionId (x : list N)
| TpMaxIdleTimeout (x : N)
| TpStatelessResetToken (x : list N)
| TpMaxUdpPayloadSize (x : N)
| TpInitialMaxData (x : N)
| TpInitialMaxStreamDataBidiLocal (x : N)
| TpInitialMaxStreamDataBidiRemote (x : N)
| TpInitialMaxStreamDataUni (x : N)
| TpInitialMaxStreamsBidi (x : N)
| TpInitialMaxStreamsUni (x : N)
| TpAckDelayExponent (x : N)
| TpMaxAckDelay (x : N)
| TpDisableActiveMigration
| TpPreferredAddress (x : preferred_address)
| TpActiveConnectionIdLimit (x : N)
| TpInitialSourceConnectionId (x : list N)
| TpRetrySourceConnectionId (x : list N).

(** transport_parameters.rs:47-67. *)
Definition identifier_val (p : transport_parameter) : N :=
  match p with
  | TpOriginalDestinationConnectionId _ => 0x00
  | TpMaxIdleTimeout _ => 0x01
  | TpStatelessResetToken _ => 0x02
  | TpMaxUdpPayloadSize _ => 0x03
  | TpInitialMaxData _ => 0x04
  | TpInitialMaxStreamDataBidiLocal _ => 0x05
  | TpInitialMaxStreamDataBidiRemote _ => 0x06
  | TpInitialMaxStreamDataUni _ => 0x07
  | TpInitialMaxStreamsBidi _ => 0x08
  | TpInitialMaxStreamsUni _ => 0x09
  | TpAckDelayExponent _ => 0x0a
  | TpMaxAckDelay _ => 0x0b
  | TpDisableActiveMigration => 0x0c
  | TpPreferredAddress _ => 0x0d
  | TpActiveConnectionIdLimit _ => 0x0e
  | TpInitialSourceConnectionId _ => 0x0f
  | TpRetrySourceConnectionId _ => 0x10
  end.

(** transport_parameters.rs:70-88. *)
Definition tp_value_bytes (p : transport_parameter) : outcome (list N) :=
  match p with
  | TpOriginalDestinationConnectionId x => Ok x
  | TpMaxIdleTimeout x => encode_var_int x
  | TpStatelessResetToken x => Ok x
  | TpMaxUdpPayloadSize x => encode_var_int x
  | TpInitialMaxData x => encode_var_int x
  | TpInitialMaxStreamDataBidiLocal x => encode_var_int x
  | TpInitialMaxStreamDataBidiRemote x => encode_var_int x
  | TpInitialMaxStreamDataUni x => encode_var_int x
  | TpInitialMaxStreamsBidi x => encode_var_int x
  | TpInitialMaxStreamsUni x => encode_var_int x
  | TpAckDelayExponent x => encode_var_int x
  | TpMaxAckDelay x => encode_var_int x
  | TpDisableActiveMigration => Ok []
  | TpPreferredAddress x => Ok (preferred_address_to_bytes x)
  | TpActiveConnectionIdLimit x => encode_var_int x
  | TpInitialSourceConnectionId x => Ok x
  | TpRetrySourceConnectionId x => Ok x
  end.

(** transport_parameters.rs:68-91 [TransportParameter::serialize]. *)
Definition tp_serialize (p : transport_parameter) : outcome (list N) :=
  let? identifier_bytes := encode_var_int (identifier_val p) in
  let? value_bytes := tp_value_bytes p in
  let? length_bytes := encode_var_int (len value_bytes) in
  Ok (identifier_bytes ++ length_bytes ++ value_bytes).
