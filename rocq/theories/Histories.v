(** Histories of API calls on a connection (src/connection.rs, the only
    [&mut self] methods: connection.rs:131-133 [set_scid], 232-243
    [get_next_pn], reached through packet.rs:223-244 [PacketInitial::new] and
    409-424 [PacketHandshake::new]; every other method takes [&self]). *)
From Verif Require Import Base Utils Frame CipherSuite Secrets Connection Packet Spec.

Inductive call :=
| CSetScid (id : u160) (l : N)
| CNextPn (sp : pn_space)
| CInitial (fs : list frame) (token : option (list N))
| CHandshake (fs : list frame).

Definition do_call (oc : bool) (c : connection) (x : call) : connection :=
  match x with
  | CSetScid id l => set_scid c id l
  | CNextPn sp => fst (get_next_pn oc c sp)
  | CInitial fs token => fst (initial_new oc fs token c)
  | CHandshake fs => fst (handshake_new oc fs c)
  end.

(** The packet number issued by a call, if any, with its space. *)
Definition issued_by (oc : bool) (c : connection) (x : call) : list (pn_space * N) :=
  match x with
  | CSetScid _ _ => []
  | CNextPn sp => match snd (get_next_pn oc c sp) with Ok (n, _) => [(sp, n)] | _ => [] end
  | CInitial fs token =>
      match snd (initial_new oc fs token c) with Ok p => [(SpInitial, pi_pn p)] | _ => [] end
  | CHandshake fs =>
      match snd (handshake_new oc fs c) with Ok p => [(SpHandshake, ph_pn p)] | _ => [] end
  end.

Fixpoint run (oc : bool) (c : connection) (xs : list call) : connection :=
  match xs with
  | [] => c
  | x :: xs => run oc (do_call oc c x) xs
  end.

(** All packet numbers issued over a history, in order. *)
Fixpoint issued (oc : bool) (c : connection) (xs : list call) : list (pn_space * N) :=
  match xs with
  | [] => []
  | x :: xs => issued_by oc c x ++ issued oc (do_call oc c x) xs
  end.

(** A connection obtained through the API: created for role [srv] and original
    destination id [d] of [l] bytes, then used in any way. *)
Definition reachable (P : prims) (oc srv : bool) (d : u160) (l : N) (c : connection) : Prop :=
  exists c0 xs, connection_new P oc srv V1 d l = Ok c0 /\ c = run oc c0 xs.
