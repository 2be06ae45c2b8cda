(** What "{:?}" prints for the two types of the interface (interface.rs:6-15):
    [Debug] is derived there and for everything inside (routing.rs:12-33,
    connection.rs:13-20, 58-71, secrets.rs:12-18, version.rs:6-9); the [Debug]
    instances of [std] (Arc, Mutex, RwLock, HashMap, Sender, Receiver, tuples,
    Option) are modelled here.  The text for the [Mutex<UdpSocket>] is a
    parameter [os].  A lock that cannot be taken at once is printed as
    "<locked>"; [busy] says which.  The [HashMap] is printed in any order: the
    functions take the entries as a list [order].  While the table is printed
    its read guard is held, so that it does not change. *)
From Verif Require Import Base Utils Frame CipherSuite Secrets Connection Packet Routing LogText.
Local Open Scope char_scope.

(** A struct whose fields are given as texts. *)
Definition struct_text (name : string) (fields : list (string * text)) : text :=
  chars name ++ chars " { " ++
  join (map (fun f => match f with (k, v) => chars k ++ chars ": " ++ v end) fields) ++ chars " }".
Definition option_text (x : option text) : text :=
  match x with Some t => chars "Some(" ++ t ++ chars ")" | None => chars "None" end.

(** cipher_suite.rs:25-29: writes nothing. *)
Definition cipher_suite_text (cs : cipher_suite) : text := [].

(** secrets.rs:12-18. *)
Definition secrets_text (s : secrets) : text :=
  struct_text "Secrets"
    [("cipher_suite"%string, cipher_suite_text (s_cipher_suite s));
     ("hp"%string, render (d_bytes (s_hp s)));
     ("iv"%string, render (d_option d_bytes (s_iv s)));
     ("key"%string, render (d_bytes (s_key s)))].

(** connection.rs:13-20. *)
Definition pn_info_text (i : pn_info) : text :=
  struct_text "PacketNumberSpaceInfo"
    [("largest_remote_ack"%string, render (d_option DNum (largest_remote_ack i)));
     ("largest_local_ack"%string, render (d_option DNum (largest_local_ack i)));
     ("next_pn"%string, render (DNum (next_pn i)));
     ("local_tls_secrets"%string, option_text (option_map secrets_text (local_tls_secrets i)));
     ("remote_tls_secrets"%string, option_text (option_map secrets_text (remote_tls_secrets i)))].

(** A [(U160, usize)]. *)
Definition id_text (x : u160 * N) : text :=
  "(" :: render (d_u160 (fst x)) ++ chars ", " ++ number (snd x) ++ [")"].

(** version.rs:6-9. *)
Definition version_text (v : version) : text := match v with V1 => chars "V1" end.

(** connection.rs:58-71. *)
Definition connection_text (c : connection) : text :=
  struct_text "Connection"
    [("version"%string, version_text (c_version c));
     ("initial_pn_info"%string, pn_info_text (initial_pn_info c));
     ("handshake_pn_info"%string, pn_info_text (handshake_pn_info c));
     ("application_pn_info"%string, pn_info_text (application_pn_info c));
     ("dcid"%string, id_text (c_dcid c));
     ("scid"%string, option_text (option_map id_text (c_scid c)))].

(** [Debug] of an [RwLock]; the data is missing when it is write-locked. *)
Definition rwlock_text (locked poisoned : bool) (data : text) : text :=
  chars "RwLock { data: " ++ (if locked then chars "<locked>" else data) ++
  chars ", poisoned: " ++ render (d_bool poisoned) ++ chars ", .. }".

(** routing.rs:18-26. *)
Definition qstream_text (busy poisoned : lock -> bool) (k : u160) (s : qstream) : text :=
  struct_text "InternalQuicStream"
    [("receiver"%string, chars "Receiver { .. }");
     ("sender"%string, chars "Sender { .. }");
     ("connection"%string, rwlock_text (busy (LConn k)) (poisoned (LConn k)) (connection_text (q_conn s)))].

Definition table_text (busy poisoned : lock -> bool) (order : table) : text :=
  "{" :: join (map (fun e => match e with (k, s) =>
    render (d_u160 k) ++ chars ": " ++ qstream_text busy poisoned k s end) order) ++ ["}"].

(** routing.rs:28-33; the [Arc] around it adds nothing. *)
Definition isocket_text (os : text) (busy poisoned : lock -> bool) (order : table) (log : bool) : text :=
  struct_text "InternalQuicSocket"
    [("socket"%string, os);
     ("streams"%string, rwlock_text (busy LStreams) (poisoned LStreams) (table_text busy poisoned order));
     ("log_traffic"%string, rwlock_text (busy LLog) (poisoned LLog) (render (d_bool log)))].

(** interface.rs:6-9. *)
Definition quic_socket_text (os : text) (busy poisoned : lock -> bool) (order : table) (log : bool) : text :=
  struct_text "QuicSocket" [("socket"%string, isocket_text os busy poisoned order log)].

(** interface.rs:11-15. *)
Definition quic_stream_text (os : text) (busy poisoned : lock -> bool) (order : table) (log : bool) (id : u160) : text :=
  struct_text "QuicStream"
    [("socket"%string, isocket_text os busy poisoned order log);
     ("connection_id"%string, render (d_u160 id))].
