(** Meaning of the programs of [Routing.v]: any number of threads, each
    executing one call at a time, interleaved arbitrarily; one step is one lock
    operation, one access to shared data or one input.  Models the parts of
    [std::sync] that the code uses: mutual exclusion, and poisoning of a lock
    whose exclusive guard is dropped by a panic. *)
From Verif Require Import Base Utils Frame CipherSuite Secrets Connection Packet Routing.

(** What a step does, for traces. *)
Inductive action :=
| ACall (c : scall)
| AAcq (l : lock) (m : mode)
| APoisoned (l : lock)
| ARel (l : lock)
| ALook (T : table)
| AInsert (key : u160) (s : qstream)
| ARemove (key : u160)
| ASend (key : u160) (d : datagram)
| ALookLog (b : bool)
| ASetLog (b : bool)
| APrint (x : line)
| APrintFailed (x : line)
| ARecv (ev : net_event)
| ARand (r : option N)
| AGoto (l : label)
| APanic (why : string).

(** A thread: what remains to be executed, the guards it holds (most recent
    first), its current or last call, and what it did since that call began. *)
Record thread := Thread {
  th_prog : prog;
  th_held : list (lock * mode);
  th_call : option scall;
  th_acts : list action }.
Definition fresh_thread : thread := Thread (Done RNothing) [] None [].

Record world := World {
  w_sock : isocket;
  w_threads : N -> thread;
  w_poisoned : lock -> bool }.

Definition start : world := World bind_socket (fun _ => fresh_thread) (fun _ => false).

Definition set_thread (f : N -> thread) (t : N) (x : thread) : N -> thread :=
  fun t' => if t' =? t then x else f t'.

(** [l] can be granted in mode [m].  (A thread that asks for a lock it already
    holds waits for itself.) *)
Definition grantable (w : world) (l : lock) (m : mode) : Prop :=
  forall t m', In (l, m') (th_held (w_threads w t)) -> m = Shared /\ m' = Shared.

Definition lock_eqb (a b : lock) : bool :=
  match a, b with
  | LSocket, LSocket | LStreams, LStreams | LLog, LLog => true
  | LConn x, LConn y => u160_eqb x y
  | _, _ => false
  end.

(** A panic drops all guards; exclusive ones poison their lock. *)
Definition poison (held : list (lock * mode)) (f : lock -> bool) : lock -> bool :=
  fun l => f l || existsb (fun h => match snd h with Exclusive => lock_eqb (fst h) l | Shared => false end) held.

Section Machine.
Variables (P : prims) (oc : bool).

(** One step of a thread's program that concerns shared data, inputs and
    control: shared data before, program; action; shared data after, program. *)
Inductive pstep (k : isocket) : prog -> action -> isocket -> prog -> Prop :=
| p_look : forall f, pstep k (LookTable f) (ALook (streams k)) k (f (streams k))
| p_insert : forall key s p, pstep k (Insert key s p) (AInsert key s)
    (ISocket (insert_key (streams k) key s) (log_traffic k) (printed k)) p
| p_remove : forall key p, pstep k (Remove key p) (ARemove key)
    (ISocket (remove_key (streams k) key) (log_traffic k) (printed k)) p
| p_send : forall key d p q, get (streams k) key = Some q -> pstep k (Send key d p) (ASend key d)
    (ISocket (send_key (streams k) key d) (log_traffic k) (printed k)) p
| p_look_log : forall f, pstep k (LookLog f) (ALookLog (log_traffic k)) k (f (log_traffic k))
| p_set_log : forall b p, pstep k (SetLog b p) (ASetLog b) (ISocket (streams k) b (printed k)) p
| p_print : forall x p, pstep k (Print x p) (APrint x) (ISocket (streams k) (log_traffic k) (printed k ++ [x])) p
| p_print_failed : forall x p, pstep k (Print x p) (APrintFailed x) k (Crash "failed printing")
| p_recv : forall f ev, pstep k (RecvFrom f) (ARecv ev) k (f ev)
| p_rand : forall f r, pstep k (Rand f) (ARand r) k (f r)
| p_goto : forall l, pstep k (Goto l) (AGoto l) k (code P oc l).

(** One step of thread [t]. *)
Inductive step (w : world) (t : N) : action -> world -> Prop :=
| s_call : forall c r, th_prog (w_threads w t) = Done r ->
    step w t (ACall c)
      (World (w_sock w) (set_thread (w_threads w) t (Thread (entry oc c) (th_held (w_threads w t)) (Some c) []))
             (w_poisoned w))
| s_data : forall p a k p', th_prog (w_threads w t) = p -> pstep (w_sock w) p a k p' ->
    step w t a
      (World k (set_thread (w_threads w) t
                  (Thread p' (th_held (w_threads w t)) (th_call (w_threads w t)) (th_acts (w_threads w t) ++ [a])))
             (w_poisoned w))
| s_acq : forall l m p, th_prog (w_threads w t) = Acq l m p ->
    w_poisoned w l = false -> grantable w l m ->
    step w t (AAcq l m)
      (World (w_sock w) (set_thread (w_threads w) t
         (Thread p ((l, m) :: th_held (w_threads w t)) (th_call (w_threads w t)) (th_acts (w_threads w t) ++ [AAcq l m])))
         (w_poisoned w))
| s_poisoned : forall l m p, th_prog (w_threads w t) = Acq l m p -> w_poisoned w l = true ->
    step w t (APoisoned l)
      (World (w_sock w) (set_thread (w_threads w) t
         (Thread (Crash "PoisonError") (th_held (w_threads w t)) (th_call (w_threads w t))
                 (th_acts (w_threads w t) ++ [APoisoned l])))
         (w_poisoned w))
| s_rel : forall l m p held, th_prog (w_threads w t) = Rel l p -> th_held (w_threads w t) = (l, m) :: held ->
    step w t (ARel l)
      (World (w_sock w) (set_thread (w_threads w) t
         (Thread p held (th_call (w_threads w t)) (th_acts (w_threads w t) ++ [ARel l])))
         (w_poisoned w))
| s_panic : forall why, th_prog (w_threads w t) = Crash why ->
    step w t (APanic why)
      (World (w_sock w) (set_thread (w_threads w) t
         (Thread (Done (RPanic why)) [] (th_call (w_threads w t)) (th_acts (w_threads w t) ++ [APanic why])))
         (poison (th_held (w_threads w t)) (w_poisoned w))).

(** An execution: who did what, oldest first. *)
Inductive execution (w : world) : list (N * action) -> world -> Prop :=
| ex_nil : execution w [] w
| ex_snoc : forall tr w1 t a w2, execution w tr w1 -> step w1 t a w2 -> execution w (tr ++ [(t, a)]) w2.

End Machine.
