(** Model of src/connection.rs. *)
From Verif Require Import Base Utils CipherSuite Secrets.

(** connection.rs:7-11. *)
Inductive pn_space := SpInitial | SpHandshake | SpApplication.

(** connection.rs:14-20. *)
Record pn_info := PnInfo {
  largest_remote_ack : option N;
  largest_local_ack : option N;
  next_pn : N;
  local_tls_secrets : option secrets;
  remote_tls_secrets : option secrets }.

(** connection.rs:23-31. *)
Definition pn_info_new : pn_info := PnInfo None None 0 None None.

(** connection.rs:34-56 [truncate_pn].  [8 - byte_len] cannot underflow for a
    u64 ([byte_len <= 8], proved). *)
Definition truncate_pn (pn : N) (largest_ack : option N) : outcome (list N) :=
  match largest_ack with
  | None =>
      if 0xffffffff <? pn
      then Err (InternalError "too few bytes to encode truncated packet number")
      else Ok (be_bytes 4 (cast 32 pn))
  | Some x =>
      if pn <=? x
      then Err (InternalError "Cannot truncate packet number smaller than largest acknowledged packet number")
      else
        let diff := pn - x in
        let? bit_len := floor_log2 64 diff in
        let byte_len := bit_len / 8 + (if bit_len mod 8 =? 0 then 0 else 1) in
        if 8 <? byte_len then Panic "attempt to subtract with overflow"
        else Ok (skipn (N.to_nat (8 - byte_len)) (be_bytes 8 pn))
  end.

(** connection.rs:59-70. *)
Record connection := Connection {
  c_version : version;
  initial_pn_info : pn_info;
  handshake_pn_info : pn_info;
  application_pn_info : pn_info;
  c_dcid : u160 * N;
  c_scid : option (u160 * N) }.

(** connection.rs:73-99 [Connection::new]. *)
Definition connection_new (P : prims) (oc : bool) (is_server : bool) (v : version)
  (dcid : u160) (dcid_len : N) : outcome connection :=
  let? b1 := u160_to_var_bytes dcid dcid_len in
  let? server_secrets := from_initial P oc true b1 v in
  let? b2 := u160_to_var_bytes dcid dcid_len in
  let? client_secrets := from_initial P oc false b2 v in
  let '(local, remote) :=
    if is_server then (server_secrets, client_secrets) else (client_secrets, server_secrets) in
  Ok {| c_version := v;
        initial_pn_info := PnInfo None None 0 (Some local) (Some remote);
        handshake_pn_info := pn_info_new;
        application_pn_info := pn_info_new;
        c_dcid := (dcid, dcid_len);
        c_scid := None |}.

(** connection.rs:101-107 [borrow_pn_info]. *)
Definition borrow_pn_info (c : connection) (sp : pn_space) : pn_info :=
  match sp with
  | SpInitial => initial_pn_info c
  | SpHandshake => handshake_pn_info c
  | SpApplication => application_pn_info c
  end.

(** connection.rs:109-115 [borrow_mut_pn_info] (and the match of 233-237):
    writing through the mutable reference. *)
Definition set_pn_info (c : connection) (sp : pn_space) (i : pn_info) : connection :=
  match sp with
  | SpInitial =>
      Connection (c_version c) i (handshake_pn_info c) (application_pn_info c) (c_dcid c) (c_scid c)
  | SpHandshake =>
      Connection (c_version c) (initial_pn_info c) i (application_pn_info c) (c_dcid c) (c_scid c)
  | SpApplication =>
      Connection (c_version c) (initial_pn_info c) (handshake_pn_info c) i (c_dcid c) (c_scid c)
  end.

(** connection.rs:117-122. *)
Definition borrow_local_tls_secrets (c : connection) (sp : pn_space) : outcome secrets :=
  ok_or (local_tls_secrets (borrow_pn_info c sp))
        (InternalError "attempted to retrieve unset local tls secrets").

(** connection.rs:124-129. *)
Definition borrow_remote_tls_secrets (c : connection) (sp : pn_space) : outcome secrets :=
  ok_or (remote_tls_secrets (borrow_pn_info c sp))
        (InternalError "attempted to retrieve unset remote tls secrets").

(** connection.rs:131-133. *)
Definition set_scid (c : connection) (scid : u160) (scid_len : N) : connection :=
  Connection (c_version c) (initial_pn_info c) (handshake_pn_info c) (application_pn_info c)
             (c_dcid c) (Some (scid, scid_len)).

(** connection.rs:135-138. *)
Definition get_dcid (c : connection) : u160 * N :=
  let '(a, b) := c_dcid c in (a, cast 8 b).

(** connection.rs:140-143. *)
Definition get_scid (c : connection) : outcome (u160 * N) :=
  let? (a, b) := ok_or (c_scid c) (InternalError "scid not set") in
  Ok (a, cast 8 b).

(** connection.rs:145-155. *)
Definition get_local_hp_mask (c : connection) (sp : pn_space) (sample_stream : stream)
  : outcome (list N) :=
  let? s := borrow_local_tls_secrets c sp in
  get_header_protection_mask s sample_stream.

(** connection.rs:157-167. *)
Definition get_remote_hp_mask (c : connection) (sp : pn_space) (sample_stream : stream)
  : outcome (list N) :=
  let? s := borrow_remote_tls_secrets c sp in
  get_header_protection_mask s sample_stream.

(** connection.rs:169-179. *)
Definition decrypt_remote_payload (c : connection) (sp : pn_space)
  (payload associated_data : list N) (packet_number : N) : outcome (list N) :=
  let? s := borrow_remote_tls_secrets c sp in
  decrypt_payload s payload (Some associated_data) packet_number.

(** connection.rs:180-190. *)
Definition encrypt_local_payload (c : connection) (sp : pn_space)
  (payload associated_data : list N) (packet_number : N) : outcome (list N) :=
  let? s := borrow_local_tls_secrets c sp in
  encrypt_payload s payload (Some associated_data) packet_number.

(** connection.rs:191-220 [reconstruct_remote_pn]; [x >> pn_length] shifts by
    the number of BYTES, and [la_bytes] are the four HIGH bytes of [x]. *)
Definition reconstruct_remote_pn (oc : bool) (c : connection) (sp : pn_space)
  (pn_lsb : list N) : outcome N :=
  let pn_length := len pn_lsb in
  if 4 <? pn_length then Panic "assertion failed: pn_length <= 4"
  else
    let largest_ack := largest_remote_ack (borrow_pn_info c sp) in
    let tp_pn_bytes := repeat 0 (N.to_nat (4 - pn_length)) ++ pn_lsb in
    let tp_pn := from_be_bytes tp_pn_bytes in
    match largest_ack with
    | Some x =>
        let tp_la := from_be_bytes (firstn 4 (be_bytes 8 x)) in
        if tp_la <? tp_pn
        then add64 oc (shl 64 (N.shiftr x pn_length) pn_length) tp_pn
        else
          let? y := add64 oc (N.shiftr x pn_length) 1 in
          add64 oc (shl 64 y pn_length) tp_pn
    | None => Ok tp_pn
    end.

(** connection.rs:222-229. *)
Definition get_local_protected_payload_len (oc : bool) (c : connection) (sp : pn_space)
  (payload_len : N) : outcome N :=
  let? s := borrow_local_tls_secrets c sp in
  get_protected_payload_len oc s payload_len.

(** connection.rs:232-243 [get_next_pn] ([&mut self]: the new connection is
    returned beside the result; the increment survives an [Err] of
    [truncate_pn]). *)
Definition get_next_pn (oc : bool) (c : connection) (sp : pn_space)
  : connection * outcome (N * list N) :=
  let i := borrow_pn_info c sp in
  match add64 oc (next_pn i) 1 with
  | Ok n =>
      let i' := PnInfo (largest_remote_ack i) (largest_local_ack i) n
                       (local_tls_secrets i) (remote_tls_secrets i) in
      (set_pn_info c sp i',
       let? b := truncate_pn n (largest_local_ack i') in Ok (n, b))
  | Err e => (c, Err e)
  | Panic w => (c, Panic w)
  | Diverge => (c, Diverge)
  end.

(** connection.rs:245-247. *)
Definition get_version_field (c : connection) : N := get_version_field_val (c_version c).
