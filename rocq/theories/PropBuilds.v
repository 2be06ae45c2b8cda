(** C81: debug and release builds. *)
From Verif Require Import Base Utils Frame CipherSuite Secrets Connection Packet Histories Spec SpecPacket
  Tactics UtilsFacts ConnectionFacts BuildFacts CryptoInst.

(** ** C81: a release build (overflow checks off) does what a debug build does.

    Two processes create a connection with the same arguments and make the same
    calls on it. *)
Definition C81_statement : Prop := forall P srv d l c c' xs s,
  prims_ok P -> connection_new P true srv V1 d l = Ok c -> connection_new P false srv V1 d l = Ok c' ->
  len xs + 1 < 2 ^ 64 -> bytes_ok s -> len s < 2 ^ 63 ->
  decode_packets true (run true c xs) s = decode_packets false (run false c' xs) s.

(** Received datagrams: the same result, except that where the debug build
    panics the release build may return an error instead. *)
Theorem C81_receiving_partial : forall P srv d l c c' xs s,
  prims_ok P -> connection_new P true srv V1 d l = Ok c -> connection_new P false srv V1 d l = Ok c' ->
  len xs + 1 < 2 ^ 64 -> bytes_ok s -> len s < 2 ^ 63 ->
  decode_packets true (run true c xs) s = decode_packets false (run false c' xs) s \/
  ((exists w, decode_packets true (run true c xs) s = Panic w) /\
   ((exists w, decode_packets false (run false c' xs) s = Panic w) \/
    (exists e, decode_packets false (run false c' xs) s = Err e))).
Proof.
  intros P srv d l c c' xs s HP E E' L B LS. pose proof (new_twin P srv d l c c' HP E E') as T.
  assert (G : twins P (run true c xs) (run false c' xs)).
  { apply run_twin; auto. intros sp. destruct (connection_new_inv _ _ _ _ _ _ _ HP E) as [_ [_ N0]].
    rewrite N0. lia. }
  exact (decode_loop_twin P _ _ (length s) HP G s B LS).
Qed.
Print Assumptions C81_receiving_partial.

(** In particular both builds accept the same datagrams, with the same packets. *)
Theorem C81_same_packets : forall P srv d l c c' xs s ps,
  prims_ok P -> connection_new P true srv V1 d l = Ok c -> connection_new P false srv V1 d l = Ok c' ->
  len xs + 1 < 2 ^ 64 -> bytes_ok s -> len s < 2 ^ 63 ->
  (decode_packets true (run true c xs) s = Ok ps <-> decode_packets false (run false c' xs) s = Ok ps).
Proof.
  intros P srv d l c c' xs s ps HP E E' L B LS.
  destruct (C81_receiving_partial P srv d l c c' xs s HP E E' L B LS) as [-> |[[w ->] [[v ->]|[e ->]]]];
    split; congruence.
Qed.
Print Assumptions C81_same_packets.

(** Sending: the same packet numbers, packets and bytes. *)
Theorem C81_sending : forall P srv d l c c' xs,
  prims_ok P -> connection_new P true srv V1 d l = Ok c -> connection_new P false srv V1 d l = Ok c' ->
  len xs + 1 < 2 ^ 64 ->
  let k := run true c xs in let k' := run false c' xs in
  issued true c xs = issued false c' xs /\
  (forall fs tok, snd (initial_new true fs tok k) = snd (initial_new false fs tok k')) /\
  (forall fs, snd (handshake_new true fs k) = snd (handshake_new false fs k')) /\
  (forall p, (forall bs, serialize_frames (pi_payload p) false = Ok bs -> len bs < 2 ^ 63) ->
     initial_serialize true p k = initial_serialize false p k') /\
  (forall p, (forall bs, serialize_frames (ph_payload p) false = Ok bs -> len bs < 2 ^ 63) ->
     handshake_serialize true p k = handshake_serialize false p k').
Proof.
  intros P srv d l c c' xs HP E E' L k k'. pose proof (new_twin P srv d l c c' HP E E') as T.
  destruct (connection_new_inv _ _ _ _ _ _ _ HP E) as [_ [_ N0]].
  destruct (run_twin P xs c c' T) as [G N].
  { intros sp. rewrite N0. lia. }
  assert (N1 : forall sp, next_pn (borrow_pn_info k sp) + 1 < 2 ^ 64).
  { intros sp. specialize (N sp). rewrite N0 in N. unfold k. lia. }
  split; [|split; [|split; [|split]]].
  - apply (issued_twin P); auto. intros sp. rewrite N0. lia.
  - intros. apply (initial_new_twin P); auto. apply (N1 SpInitial).
  - intros. apply (handshake_new_twin P); auto. apply (N1 SpHandshake).
  - intros. apply (initial_serialize_twin P); auto.
  - intros. apply (handshake_serialize_twin P); auto.
Qed.
Print Assumptions C81_sending.

(** Both builds accept the same arguments. *)
Theorem C81_creating : forall P srv d l, prims_ok P ->
  ((exists c, connection_new P true srv V1 d l = Ok c) <-> (exists c', connection_new P false srv V1 d l = Ok c')).
Proof.
  intros P srv d l HP. destruct (N.le_gt_cases l 20) as [L|L].
  - split; intros _; apply connection_new_ok; auto.
  - unfold connection_new, u160_to_var_bytes. destruct (N.ltb_spec 20 l); [|lia].
    split; intros [c X]; discriminate X.
Qed.
Print Assumptions C81_creating.

(** The exact equality fails: an Initial packet whose Length is 0 makes the
    debug build panic and the release build return an error. *)
Definition no_length : list N := 0xc0 :: be_bytes 4 1 ++ [0; 0; 0; 0] ++ repeat 0 20.
Definition class {A} (m : outcome A) : N :=
  match m with Ok _ => 0 | Err _ => 1 | Panic _ => 2 | Diverge => 3 end.
Lemma no_length_class :
  (let? c := connection_new real_prims true true V1 (u160_from_u64 7) 8 in
   let? c' := connection_new real_prims false true V1 (u160_from_u64 7) 8 in
   Ok (class (decode_packets true c no_length), class (decode_packets false c' no_length))) = Ok (2, 1).
Proof. vm_compute. reflexivity. Qed.
Theorem C81_builds_refuted : ~ C81_statement.
Proof.
  intros H. pose proof no_length_class as C.
  destruct (connection_new_ok real_prims true true (u160_from_u64 7) 8 real_prims_ok ltac:(discriminate)) as [c E].
  destruct (connection_new_ok real_prims false true (u160_from_u64 7) 8 real_prims_ok ltac:(discriminate)) as [c' E'].
  rewrite E, E' in C. cbn [bind] in C.
  pose proof (H real_prims true (u160_from_u64 7) 8 c c' [] no_length real_prims_ok E E') as Q.
  cbn [run] in Q. rewrite Q in C.
  - apply (f_equal (fun m => match m with Ok (a, b) => a =? b | _ => true end)) in C.
    cbv iota beta in C. rewrite N.eqb_refl in C. discriminate C.
  - reflexivity.
  - apply bytes_ok_dec. reflexivity.
  - reflexivity.
Qed.
Print Assumptions C81_builds_refuted.

(** Two builds, two calls each; the Initial packet each of them then sends. *)
Example C81_case :
  (let? c := connection_new real_prims true false V1 (u160_from_u64 7) 8 in
   let? c' := connection_new real_prims false false V1 (u160_from_u64 7) 8 in
   let xs := [CSetScid (u160_from_u64 9) 8; CNextPn SpInitial] in
   let k := run true c xs in let k' := run false c' xs in
   let? p := snd (initial_new true [Ping; Crypto (FrameCrypto 0 3 [1; 2; 3])] None k) in
   let? p' := snd (initial_new false [Ping; Crypto (FrameCrypto 0 3 [1; 2; 3])] None k') in
   let? w := initial_serialize true p k in
   let? w' := initial_serialize false p' k' in
   Ok (pi_pn p, pi_pn p', len w, forallb (fun x => fst x =? snd x) (combine w w'), len w')) =
  Ok (2, 2, 52, true, 52).
Proof. vm_compute. reflexivity. Qed.
