(** Model of src/routing.rs, src/interface.rs and src/quictls/utils.rs.

    Functions that take locks or talk to the network are programs: trees of
    lock operations, accesses to shared data, and inputs, in the order in which
    the Rust code performs them.  [Threads.v] gives them their meaning, alone
    or interleaved with others.  A function that returns to Rust code takes its
    continuation [k]. *)
From Verif Require Import Base Utils Frame CipherSuite Secrets Connection Packet Printing.

(** routing.rs:12-16.  The address is opaque. *)
Record datagram := Datagram { d_data : list N; d_addr : N }.

(** routing.rs:18-26.  [sender] and [receiver] are the two ends of one channel,
    here its queue (oldest first).  They are dropped together, so sending never
    fails; nothing in the crate receives. *)
Record qstream := QStream { q_queue : list datagram; q_conn : connection }.

(** utils.rs:6 [derive(PartialEq, Eq, Hash)]: all fields are compared. *)
Definition u160_eqb (a b : u160) : bool := (idx0 a =? idx0 b) && (idx1 a =? idx1 b).

(** The [HashMap<U160, InternalQuicStream>]: [get]/[contains_key], [insert]
    (replaces), [remove].  Iteration order is never used. *)
Definition table := list (u160 * qstream).
Fixpoint get (T : table) (k : u160) : option qstream :=
  match T with
  | [] => None
  | (k', s) :: T' => if u160_eqb k' k then Some s else get T' k
  end.
Definition contains_key (T : table) (k : u160) : bool :=
  match get T k with Some _ => true | None => false end.
Fixpoint remove_key (T : table) (k : u160) : table :=
  match T with
  | [] => []
  | (k', s) :: T' => if u160_eqb k' k then remove_key T' k else (k', s) :: remove_key T' k
  end.
Definition insert_key (T : table) (k : u160) (s : qstream) : table := (k, s) :: remove_key T k.

(** [Sender::send] on the stream registered under [k]. *)
Fixpoint send_key (T : table) (k : u160) (d : datagram) : table :=
  match T with
  | [] => []
  | (k', s) :: T' =>
      if u160_eqb k' k then (k', QStream (q_queue s ++ [d]) (q_conn s)) :: T'
      else (k', s) :: send_key T' k d
  end.

(** The locks: [socket : Mutex], [streams : RwLock], [log_traffic : RwLock]
    (routing.rs:29-33) and the [connection : RwLock] (routing.rs:25) of the
    stream registered, or about to be registered, under a key. *)
Inductive lock := LSocket | LStreams | LLog | LConn (k : u160).
(** Read guards are [Shared]; write guards and mutex guards [Exclusive]. *)
Inductive mode := Shared | Exclusive.

(** What [recv_from] returns; the data is what was sent, before it is cut to
    the size of the buffer. *)
Inductive net_event := NetDatagram (data : list N) (addr : N) | NetError (code : N).
(** [std::io::Result]; the error is opaque. *)
Inductive io (A : Type) := IoOk (a : A) | IoErr (code : N).
Arguments IoOk {A} a.
Arguments IoErr {A} code.

(** Lines printed: routing.rs:70, 145 and utils.rs:437 (stdout), routing.rs:99
    (stderr). *)
Inductive line :=
| LogHeader (r : outcome (packet_header * stream))
| LogPackets (ps : list packet)
| LogError (e : error)
| LogShort (i : N).

(** What a call returns, or the message it panicked with. *)
Inductive result :=
| RUnit (r : outcome unit)
| RPackets (r : outcome (list packet))
| RId (r : io u160)
| RNothing
| RPanic (why : string).

(** Heads of the two loops of [accept]. *)
Inductive label := LpReceive | LpChooseKey (s : qstream).

Inductive prog :=
| Done (r : result)
| Crash (why : string)                                     (* a panic starts *)
| Hang                                                     (* a [Diverge] *)
| Acq (l : lock) (m : mode) (p : prog)                     (* .lock()/.read()/.write(), then .unwrap() *)
| Rel (l : lock) (p : prog)                                (* guard dropped *)
| LookTable (k : table -> prog)
| Insert (key : u160) (s : qstream) (p : prog)
| Remove (key : u160) (p : prog)
| Send (key : u160) (d : datagram) (p : prog)
| LookLog (k : bool -> prog)
| SetLog (b : bool) (p : prog)
| Print (x : line) (p : prog)
| RecvFrom (k : net_event -> prog)
| Rand (k : option N -> prog)                              (* 8 random bytes, or failure *)
| Goto (l : label).

(** Use the result of a pure computation. *)
Definition lift {A} (m : outcome A) (on_err : error -> prog) (k : A -> prog) : prog :=
  match m with
  | Ok a => k a
  | Err e => on_err e
  | Panic w => Crash w
  | Diverge => Hang
  end.
(** The same for a computation that may print. *)
Definition say (ls : list N) (p : prog) : prog := fold_right (fun i p => Print (LogShort i) p) p ls.
Definition parse {A} (m : said A) (on_err : error -> prog) (k : A -> prog) : prog :=
  say (fst m) (lift (snd m) on_err k).
(** [.unwrap()] in a program. *)
Definition unwrap_or_crash {A} (m : outcome A) (k : A -> prog) : prog :=
  lift m (fun _ => Crash "unwrap on Err") k.

(** routing.rs:63. *)
Definition RECV_BUFFER : N := 4096.

(** routing.rs:60-73 [recv_datagram].  [recv_from] cuts the datagram to the
    buffer (Unix).  The read guard of line 67 is dropped before the body of the
    [if]; the mutex guard lives until the end of the function. *)
Definition recv_datagram (k : io datagram -> prog) : prog :=
  Acq LSocket Exclusive (RecvFrom (fun ev =>
    match ev with
    | NetError e => Rel LSocket (k (IoErr e))
    | NetDatagram sent addr =>
        let data := firstn (N.to_nat RECV_BUFFER) sent in
        Acq LLog Shared (LookLog (fun flag => Rel LLog (
          if flag
          then
            say (fst (next_header_said data)) (
              Print (LogHeader (snd (next_header_said data))) (Rel LSocket (k (IoOk (Datagram data addr)))))
          else Rel LSocket (k (IoOk (Datagram data addr))))))
    end)).

(** routing.rs:111-128 [route_datagram].  The read guard of line 121 lives until
    the end of the function. *)
Definition route_datagram (d : datagram) (k : outcome unit -> prog) : prog :=
  parse (next_header_said (d_data d)) (fun e => k (Err e)) (fun '(route_header, _) =>
    let connection_id := get_destination_id route_header in
    Acq LStreams Shared (LookTable (fun T =>
      match get T connection_id with
      | Some _ => Send connection_id d (Rel LStreams (k (Ok tt)))
      | None => Rel LStreams (k (Err (InternalError "missing connection")))
      end))).

(** routing.rs:74-110 [recv_new_initial_datagram]; [again] restarts the loop. *)
Definition recv_new_initial_datagram (again : prog) (k : io datagram -> prog) : prog :=
  recv_datagram (fun r =>
    match r with
    | IoErr e => k (IoErr e)
    | IoOk d =>
        let after (ret_datagram : bool) : prog :=
          if ret_datagram then k (IoOk d)
          else route_datagram d (fun r => unwrap_or_crash r (fun _ => again)) in
        parse (next_header_said (d_data d))
          (fun e => Print (LogError e) (after false))
          (fun '(x, _) => unwrap_or_crash (get_packet_type x) (fun packet_type =>
             match packet_type with
             | TInitial =>
                 Acq LStreams Shared (LookTable (fun T =>
                   Rel LStreams (after (negb (contains_key T (get_destination_id x))))))
             | _ => after false
             end))
    end).

(** routing.rs:130-148 [packets_from_datagram]. *)
Definition packets_from_datagram (oc : bool) (d : datagram) (k : outcome (list packet) -> prog) : prog :=
  parse (next_header_said (d_data d)) (fun e => k (Err e)) (fun '(header, _) =>
    let id := get_destination_id header in
    Acq LStreams Shared (LookTable (fun T =>
      match get T id with
      | None => Rel LStreams (k (Err (InternalError "connection not found")))
      | Some route_stream =>
          Acq (LConn id) Shared (
            let on_err e := Rel (LConn id) (Rel LStreams (k (Err e))) in
            parse (decode_packets_said oc (q_conn route_stream) (d_data d)) on_err (fun rv =>
              Rel (LConn id) (Rel LStreams (
                Acq LLog Shared (LookLog (fun flag => Rel LLog (
                  if flag then Print (LogPackets rv) (k (Ok rv)) else k (Ok rv))))))))
      end))).

(** routing.rs:150-155 [connect]: [unimplemented!()]. *)
Definition connect_prog : prog := Crash "not implemented".

(** routing.rs:35-44 [from_connection]. *)
Definition from_connection (c : connection) : qstream := QStream [] c.

(** quictls/utils.rs:3-7 [get_connection_id]. *)
Definition get_connection_id (k : N -> prog) : prog :=
  Rand (fun r => match r with Some v => k v | None => Crash "unwrap on Err" end).

(** routing.rs:170-185: the loop choosing a key, the lookup, [todo!()].  The
    stream is still local at line 177, its lock is written nevertheless. *)
Definition choose_key (s : qstream) (again : prog) : prog :=
  get_connection_id (fun src_id =>
    let key := u160_from_u64 src_id in
    Acq LStreams Exclusive (LookTable (fun T =>
      if negb (contains_key T key) then
        Acq (LConn key) Exclusive (Rel (LConn key) (
          Insert key (QStream (q_queue s) (set_scid (q_conn s) key 8)) (Rel LStreams (
            Acq LStreams Shared (LookTable (fun T' =>
              match get T' key with
              | Some _ => Rel LStreams (Crash "not yet implemented")
              | None => Crash "unwrap on None"
              end))))))
      else Rel LStreams again))).

(** routing.rs:157-169: the first half of [accept]. *)
Definition accept_with (P : prims) (oc : bool) (r : io datagram) : prog :=
  match r with
  | IoErr e => Done (RId (IoErr e))
  | IoOk initial_datagram =>
      parse (next_header_said (d_data initial_datagram)) (fun _ => Crash "unwrap on Err") (fun '(header, _) =>
        unwrap_or_crash (connection_new P oc true V1 (get_destination_id header) (get_destination_id_length header))
          (fun c => Goto (LpChooseKey (from_connection c))))
  end.

(** The loops of routing.rs:75 and 171. *)
Definition code (P : prims) (oc : bool) (l : label) : prog :=
  match l with
  | LpReceive => recv_new_initial_datagram (Goto LpReceive) (accept_with P oc)
  | LpChooseKey s => choose_key s (Goto (LpChooseKey s))
  end.

(** routing.rs:157-187 [accept]. *)
Definition accept_prog : prog := Goto LpReceive.

(** routing.rs:189-192 [InternalQuicSocket::set_log_traffic].  It takes
    [&mut self]; nothing in the crate calls it. *)
Definition set_log_prog (b : bool) : prog := Acq LLog Exclusive (SetLog b (Rel LLog (Done RNothing))).

(** routing.rs:194-197 [drop_connection]. *)
Definition drop_prog (cid : u160) : prog :=
  Acq LStreams Exclusive (Remove cid (Rel LStreams (Done RNothing))).

(** The functions a thread may be executing.  [CAccept], [CConnect],
    [CSwitchLog] (interface.rs:32-49, a no-op) and [CDropStream]
    (interface.rs:17-22, the destructor of a stream) are the public ones; the
    others are internal. *)
Inductive scall :=
| CAccept
| CConnect
| CSwitchLog (b : bool)
| CDropStream (cid : u160)
| CRoute (d : datagram)
| CPackets (d : datagram)
| CSetLog (b : bool).

Definition entry (oc : bool) (c : scall) : prog :=
  match c with
  | CAccept => accept_prog
  | CConnect => connect_prog
  | CSwitchLog _ => Done RNothing
  | CDropStream cid => drop_prog cid
  | CRoute d => route_datagram d (fun r => Done (RUnit r))
  | CPackets d => packets_from_datagram oc d (fun r => Done (RPackets r))
  | CSetLog b => set_log_prog b
  end.

(** The socket's shared data, and what has been printed. *)
Record isocket := ISocket { streams : table; log_traffic : bool; printed : list line }.

(** routing.rs:47-59 [bind], when the OS grants the address. *)
Definition bind_socket : isocket := ISocket [] false [].
