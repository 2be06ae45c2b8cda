(** Vocabulary for statements about executions (lists of actions) of the
    routing layer.  Only the data types of the model are used. *)
From Verif Require Import Base Utils Frame CipherSuite Secrets Connection Packet Routing Threads Spec.

(** What was received, sent to a connection's queue, registered, removed. *)
Definition recvs (acts : list action) : list net_event :=
  flat_map (fun a => match a with ARecv ev => [ev] | _ => [] end) acts.
Definition sends (acts : list action) : list (u160 * datagram) :=
  flat_map (fun a => match a with ASend k d => [(k, d)] | _ => [] end) acts.
Definition inserts (acts : list action) : list (u160 * qstream) :=
  flat_map (fun a => match a with AInsert k s => [(k, s)] | _ => [] end) acts.
Definition removes (acts : list action) : list u160 :=
  flat_map (fun a => match a with ARemove k => [k] | _ => [] end) acts.

(** The tables looked at since the last receive. *)
Definition looks (acts : list action) : list table :=
  fold_left (fun l a => match a with ARecv _ => [] | ALook T => l ++ [T] | _ => l end) acts [].

(** The actions of thread [t] in an execution. *)
Definition acts_of (t : N) (tr : list (N * action)) : list action :=
  map snd (filter (fun x => fst x =? t) tr).

(** A thread that is not inside a call. *)
Definition idle (th : thread) : Prop := exists r, th_prog th = Done r.

(** The datagram as the receiver sees it: at most 4096 bytes. *)
Definition seen (data : list N) (addr : N) : datagram := Datagram (firstn (N.to_nat 4096) data) addr.

(** Calls reachable through the public interface: everything but the internal
    switch that turns logging on. *)
Definition public_run (tr : list (N * action)) : Prop :=
  forall t, ~ In (t, ACall (CSetLog true)) tr.

(** ** What a call does, whatever other threads do meanwhile.  [acts] is
    everything its thread did during the call. *)
Definition header_is (data : list N) (h : packet_header) : Prop :=
  exists rest, next_header_from_stream data = Ok (h, rest).

(** A received datagram and the message it was turned into. *)
Definition routed (ev : net_event) (s : u160 * datagram) : Prop :=
  match ev with
  | NetDatagram data addr => exists h, header_is (firstn (N.to_nat 4096) data) h /\ s = (get_destination_id h, seen data addr)
  | NetError _ => False
  end.

(** The last datagram received is an Initial packet whose destination id was not
    in the table when first looked up; everything before was routed; [c] is a server
    connection for that id. *)
Definition opened (P : prims) (oc : bool) (acts : list action) (c : connection) : Prop :=
  exists pre data addr h T more,
    recvs acts = pre ++ [NetDatagram data addr] /\ Forall2 routed pre (sends acts) /\
    header_is (firstn (N.to_nat 4096) data) h /\ get_packet_type h = Ok TInitial /\
    looks acts = T :: more /\ get T (get_destination_id h) = None /\
    connection_new P oc true V1 (get_destination_id h) (get_destination_id_length h) = Ok c.

(** No connection was found for the datagram. *)
Definition unroutable (acts : list action) (data : list N) : Prop :=
  (forall h, ~ header_is data h) \/
  (exists h T, header_is data h /\ looks acts = [T] /\ get T (get_destination_id h) = None).

(** The same for [accept]: no header; no Initial and no connection; or an Initial
    whose connection disappeared between two lookups. *)
Definition stray (acts : list action) (data : list N) : Prop :=
  (forall h, ~ header_is data h) \/
  (exists h, header_is data h /\
    ((get_packet_type h <> Ok TInitial /\ exists T, looks acts = [T] /\ get T (get_destination_id h) = None) \/
     (get_packet_type h = Ok TInitial /\ exists T T', looks acts = [T; T'] /\
        get T (get_destination_id h) <> None /\ get T' (get_destination_id h) = None))).

Definition contract (P : prims) (oc : bool) (c : scall) (acts : list action) (r : result) : Prop :=
  match c with
  | CAccept =>
      removes acts = [] /\
      match r with
      | RId (IoErr e) => inserts acts = [] /\
          exists pre, recvs acts = pre ++ [NetError e] /\ Forall2 routed pre (sends acts)
      | RPanic _ =>
          (exists key c0, opened P oc acts c0 /\ inserts acts = [(key, QStream [] (set_scid c0 key 8))]) \/
          (inserts acts = [] /\ In (ARand None) acts /\ exists c0, opened P oc acts c0) \/
          (inserts acts = [] /\ exists pre data addr,
             recvs acts = pre ++ [NetDatagram data addr] /\ Forall2 routed pre (sends acts) /\
             stray acts (firstn (N.to_nat 4096) data))
      | _ => False
      end
  | CConnect => r = RPanic "not implemented" /\ recvs acts = [] /\ sends acts = [] /\ inserts acts = [] /\ removes acts = []
  | CSwitchLog _ => r = RNothing /\ acts = []
  | CDropStream cid =>
      r = RNothing /\ recvs acts = [] /\ sends acts = [] /\ inserts acts = [] /\ removes acts = [cid]
  | CRoute d =>
      recvs acts = [] /\ inserts acts = [] /\ removes acts = [] /\
      match r with
      | RUnit (Ok _) => exists h T, header_is (d_data d) h /\ sends acts = [(get_destination_id h, d)] /\
          looks acts = [T] /\ get T (get_destination_id h) <> None
      | RUnit (Err _) => sends acts = [] /\ unroutable acts (d_data d)
      | RPanic w => w = "failed printing" /\ sends acts = [] /\ (forall h, ~ header_is (d_data d) h) /\
          exists i, In (APrintFailed (LogShort i)) acts
      | _ => False
      end
  | CPackets d =>
      recvs acts = [] /\ sends acts = [] /\ inserts acts = [] /\ removes acts = [] /\
      match r with
      | RPackets (Err _) | RPackets (Ok _) | RPanic _ =>
          (exists e, unroutable acts (d_data d) /\ r = RPackets (Err e)) \/
          (exists h T q, header_is (d_data d) h /\ looks acts = [T] /\ get T (get_destination_id h) = Some q /\
             match decode_packets oc (q_conn q) (d_data d) with
             | Panic w => r = RPanic w
             | x => r = RPackets x
             end) \/
          (r = RPanic "failed printing" /\ (exists i, In (APrintFailed (LogShort i)) acts) /\
             ((forall h, ~ header_is (d_data d) h) \/
              exists h T q, header_is (d_data d) h /\ looks acts = [T] /\ get T (get_destination_id h) = Some q /\
                forall ps, decode_packets oc (q_conn q) (d_data d) <> Ok ps))
      | _ => False
      end
  | CSetLog _ => r = RNothing /\ recvs acts = [] /\ sends acts = [] /\ inserts acts = [] /\ removes acts = []
  end.

(** Arguments that are byte strings (every Rust value is). *)
Definition well_typed (tr : list (N * action)) : Prop :=
  forall t d, In (t, ACall (CPackets d)) tr -> bytes_ok (d_data d) /\ len (d_data d) < 2 ^ 63.

Definition same_id (a b : u160) : {a = b} + {a <> b}.
Proof. decide equality; apply N.eq_dec. Defined.

(** The datagrams sent to the connection registered under [k], in order. *)
Definition sent_to (k : u160) (tr : list (N * action)) : list datagram :=
  flat_map (fun x => match snd x with ASend k' d => if same_id k' k then [d] else [] | _ => [] end) tr.

(** The datagram thread [t] received last. *)
Definition received_last (t : N) (tr : list (N * action)) (data : list N) (addr : N) : Prop :=
  exists pre, recvs (acts_of t tr) = pre ++ [NetDatagram data addr].

(** Thread [t] waits for an exclusive guard of [l]. *)
Definition wants_exclusive (w : world) (t : N) (l : lock) : Prop :=
  exists p, th_prog (w_threads w t) = Acq l Exclusive p.

(** The destination connection id in a datagram's first header (RFC 9000 section
    17); this implementation's own ids have 8 bytes. *)
Inductive wire_dcid : list N -> list N -> Prop :=
| wd_long : forall b v d rest, 128 <= b -> len v = 4 -> wire_dcid (b :: v ++ len d :: d ++ rest) d
| wd_short : forall b d rest, b < 128 -> len d = 8 -> wire_dcid (b :: d ++ rest) d.
