(** Property C126: the code of an error says what went wrong (RFC 9000 section 20.1). *)
From Verif Require Import Base Utils Frame CipherSuite Secrets Connection Packet Printing Constructors TransportParams Routing Threads Histories
  Spec SpecPacket SpecRouting Tactics UtilsFacts FrameFacts HeaderFacts PacketFacts ConnectionFacts PacketInv DecodeFacts
  RoutingFacts RoutingSafe SoloFacts LocalFacts
  CryptoInst SampleRuns PropFrame PropPacket PropDecode PropConn PropRouting PropThreads PropAtomic.
From Coq Require Import Lia ZifyN ZifyBool ZifyNat.
Open Scope N_scope.

(** Errors returned have code 1, INTERNAL_ERROR. *)
Definition internal {A} (m : outcome A) : Prop := forall e, m = Err e -> to_error_byte e = 0x01.

Lemma int_ok {A} (a : A) : internal (Ok a). Proof. discriminate. Qed.
Lemma int_err {A} m : internal (Err (InternalError m) : outcome A). Proof. intros e [= <-]. reflexivity. Qed.
Lemma int_panic {A} m : internal (Panic m : outcome A). Proof. discriminate. Qed.
Lemma int_diverge {A} : internal (Diverge : outcome A). Proof. discriminate. Qed.
Lemma int_bind {A B} (m : outcome A) (k : A -> outcome B) : internal m -> (forall a, internal (k a)) -> internal (bind m k).
Proof. intros H K e E. destruct m; cbn [bind] in E; try discriminate E; [exact (K _ _ E)|]. injection E as ->. apply H. reflexivity. Qed.
Lemma int_unwrap {A} (m : outcome A) : internal (unwrap m). Proof. destruct m; discriminate. Qed.
Lemma int_ok_or {A} (o : option A) m : internal (ok_or o (InternalError m)).
Proof. destruct o; [apply int_ok|apply int_err]. Qed.
Lemma int_add oc a b : internal (add64 oc a b). Proof. unfold add64. destruct (_ <? _), oc; discriminate. Qed.
Lemma int_sub oc a b : internal (sub64 oc a b). Proof. unfold sub64. destruct (_ <=? _), oc; discriminate. Qed.
#[local] Hint Resolve int_ok int_err int_panic int_diverge int_unwrap int_ok_or int_add int_sub : int.

Ltac int1 :=
  intros; cbv beta zeta;
  first [ solve [auto with int nocore]
  | match goal with
    | |- internal (bind _ _) => apply int_bind
    | |- internal (match ?x with _ => _ end) => destruct x
    | |- internal ?m => let rec hd t := lazymatch t with ?f _ => hd f | _ => t end in let h := hd m in unfold h
    end ].
Ltac int := repeat int1.

(** Loops. *)
Lemma int_read_array n msg : forall s, internal (read_array n msg s).
Proof. induction n as [|n IH]; intros s; cbn [read_array]; int. Qed.
Lemma int_u160_loop n msg : forall a b s, internal (u160_read_loop n msg a b s).
Proof. induction n as [|n IH]; intros a b s; cbn [u160_read_loop]; int. Qed.
Lemma int_var_int_loop' oc n : forall r s, internal (var_int_loop' oc n r s).
Proof. induction n as [|n IH]; intros r s; cbn [var_int_loop']; int. Qed.
Lemma int_var_u32_loop n : forall r s, internal (var_u32_loop n r s).
Proof. induction n as [|n IH]; intros r s; cbn [var_u32_loop]; int. Qed.
Lemma int_var_bytes_loop s : forall n, internal (var_bytes_loop s n).
Proof. induction s as [|b s IH]; intros n; cbn [var_bytes_loop]; int. Qed.
Lemma int_log_loop f : forall r t, internal (floor_log2_loop f r t).
Proof. induction f as [|f IH]; intros r t; cbn [floor_log2_loop]; int. Qed.
#[local] Hint Resolve int_read_array int_u160_loop int_var_int_loop' int_var_u32_loop int_var_bytes_loop int_log_loop : int.
Lemma int_var_int_loop oc n : forall r b s, internal (var_int_loop oc n r b s).
Proof. induction n as [|n IH]; intros r b s; cbn [var_int_loop]; int. Qed.
Lemma int_ack_ranges oc f : forall n s, internal (ack_ranges_loop oc f n s).
Proof. induction f as [|f IH]; intros n s; cbn [ack_ranges_loop]; int. Qed.
Lemma int_ack_bytes rs : internal (ack_ranges_to_bytes rs).
Proof. induction rs as [|r rs IH]; cbn [ack_ranges_to_bytes]; int. Qed.
#[local] Hint Resolve int_var_int_loop int_ack_ranges int_ack_bytes : int.

Lemma int_frame oc s : internal (deserialize_frame oc s). Proof. int. Qed.
#[local] Hint Resolve int_frame : int.
Lemma int_frames_loop oc f : forall s, internal (deserialize_frames_loop oc f s).
Proof. induction f as [|f IH]; intros s; destruct s; cbn [deserialize_frames_loop]; int. Qed.
Lemma int_frames oc s : internal (deserialize_frames oc s). Proof. apply int_frames_loop. Qed.
Lemma int_frame_bytes f b : internal (frame_to_bytes f b). Proof. destruct f; int. Qed.
#[local] Hint Resolve int_frames int_frame_bytes : int.
Lemma int_serialize_loop b n fs : forall i, internal (serialize_frames_loop b n i fs).
Proof. induction fs as [|f fs IH]; intros i; cbn [serialize_frames_loop]; int. Qed.
Lemma int_serialize fs b : internal (serialize_frames fs b). Proof. apply int_serialize_loop. Qed.
#[local] Hint Resolve int_serialize : int.
Lemma int_tp p : internal (tp_serialize p). Proof. destruct p; int. Qed.

(** Headers. *)
Lemma int_vn_chunks f : forall bs, internal (vn_chunks f bs).
Proof. induction f as [|f IH]; intros bs; cbn [vn_chunks]; int. Qed.
Lemma int_xor_pn bs : forall i m, internal (xor_pn_loop bs i m).
Proof. induction bs as [|b bs IH]; intros i m; cbn [xor_pn_loop]; int. Qed.
#[local] Hint Resolve int_vn_chunks int_xor_pn : int.
Lemma int_header s : internal (next_header_from_stream s). Proof. int. Qed.
Lemma int_vn s : internal (vn_from_stream s). Proof. int. Qed.

(** Keys.  All secrets are made for the one cipher suite there is. *)
Definition suite_ok (P : prims) (oc : bool) (c : connection) : Prop := forall sp s,
  local_tls_secrets (borrow_pn_info c sp) = Some s \/ remote_tls_secrets (borrow_pn_info c sp) = Some s ->
  s_cipher_suite s = TLS13_AES_128_GCM_SHA256 P oc.
Lemma int_update f v : forall i, internal (update_at i f v).
Proof. induction v as [|x v IH]; intros [|i]; cbn [update_at]; int. Qed.
Lemma int_iv n : forall i p v, internal (xor_iv_loop n i p v).
Proof. induction n as [|n IH]; intros i p v; cbn [xor_iv_loop]; int; apply int_update. Qed.
#[local] Hint Resolve int_update int_iv : int.
Lemma int_from_initial P oc srv b v : internal (from_initial P oc srv b v).
Proof. unfold from_initial, from_secret, get_hp_secret, get_iv_secret, get_key. cbn -[hkdf_expand_label_sha256]. int. Qed.
#[local] Hint Resolve int_from_initial : int.
Lemma int_new P oc srv v d l : internal (connection_new P oc srv v d l). Proof. int. Qed.

Lemma borrow_local P oc c sp : suite_ok P oc c -> internal (borrow_local_tls_secrets c sp) /\
  forall s, borrow_local_tls_secrets c sp = Ok s -> s_cipher_suite s = TLS13_AES_128_GCM_SHA256 P oc.
Proof.
  intros H. split; [int|]. unfold borrow_local_tls_secrets. intros s E.
  destruct (local_tls_secrets (borrow_pn_info c sp)) eqn:F; cbn in E; [|discriminate E]. injection E as ->. eauto.
Qed.
Lemma borrow_remote P oc c sp : suite_ok P oc c -> internal (borrow_remote_tls_secrets c sp) /\
  forall s, borrow_remote_tls_secrets c sp = Ok s -> s_cipher_suite s = TLS13_AES_128_GCM_SHA256 P oc.
Proof.
  intros H. split; [int|]. unfold borrow_remote_tls_secrets. intros s E.
  destruct (remote_tls_secrets (borrow_pn_info c sp)) eqn:F; cbn in E; [|discriminate E]. injection E as ->. eauto.
Qed.
Lemma int_bind' {A B} (m : outcome A) (k : A -> outcome B) (Q : A -> Prop) : internal m -> (forall a, m = Ok a -> Q a) ->
  (forall a, Q a -> internal (k a)) -> internal (bind m k).
Proof. intros H HQ K e E. destruct m; cbn [bind] in E; try discriminate E; [exact (K _ (HQ _ eq_refl) _ E)|]. injection E as ->. apply H. reflexivity. Qed.

Lemma int_hp s x P oc : s_cipher_suite s = TLS13_AES_128_GCM_SHA256 P oc -> internal (get_header_protection_mask s x).
Proof. intros E. unfold get_header_protection_mask. rewrite E. cbn -[hp_mask_aes_128_ecb var_bytes_from_stream]. int. Qed.
Lemma int_decrypt s p a n P oc : s_cipher_suite s = TLS13_AES_128_GCM_SHA256 P oc -> internal (decrypt_payload s p a n).
Proof. intros E. unfold decrypt_payload. rewrite E. cbn -[decrypt_aes_128_gcm make_iv]. int. Qed.
Lemma int_encrypt s p a n P oc : s_cipher_suite s = TLS13_AES_128_GCM_SHA256 P oc -> internal (encrypt_payload s p a n).
Proof. intros E. unfold encrypt_payload. rewrite E. cbn -[encrypt_aes_128_gcm make_iv]. int. Qed.

Section Suite.
Variables (P : prims) (oc : bool) (c : connection).
Hypothesis HS : suite_ok P oc c.
Lemma int_local_mask sp x : internal (get_local_hp_mask c sp x).
Proof. destruct (borrow_local P oc c sp HS) as [H K]. eapply int_bind'; [exact H|exact K|]. intros s E. exact (int_hp s x P oc E). Qed.
Lemma int_remote_mask sp x : internal (get_remote_hp_mask c sp x).
Proof. destruct (borrow_remote P oc c sp HS) as [H K]. eapply int_bind'; [exact H|exact K|]. intros s E. exact (int_hp s x P oc E). Qed.
Lemma int_decrypt_remote sp p a n : internal (decrypt_remote_payload c sp p a n).
Proof. destruct (borrow_remote P oc c sp HS) as [H K]. eapply int_bind'; [exact H|exact K|]. intros s E. exact (int_decrypt s p _ n P oc E). Qed.
Lemma int_encrypt_local sp p a n : internal (encrypt_local_payload c sp p a n).
Proof. destruct (borrow_local P oc c sp HS) as [H K]. eapply int_bind'; [exact H|exact K|]. intros s E. exact (int_encrypt s p _ n P oc E). Qed.
#[local] Hint Resolve int_local_mask int_remote_mask int_decrypt_remote int_encrypt_local int_header int_vn : int.

Lemma int_initial s : internal (initial_from_stream oc c s). Proof. int. Qed.
Lemma int_handshake s : internal (handshake_from_stream oc c s). Proof. int. Qed.
Lemma int_zero_rtt s : internal (zero_rtt_from_stream oc c s). Proof. int. Qed.
Lemma int_one_rtt s : internal (one_rtt_from_stream oc c s). Proof. int. Qed.
#[local] Hint Resolve int_initial int_handshake int_zero_rtt int_one_rtt : int.
Lemma int_next_packet s : internal (decode_next_packet oc c s). Proof. int. Qed.
#[local] Hint Resolve int_next_packet : int.
Lemma int_packets_loop f : forall s, internal (decode_packets_loop oc c f s).
Proof. induction f as [|f IH]; intros s; destruct s; cbn [decode_packets_loop]; int. Qed.
Lemma int_packets s : internal (decode_packets oc c s). Proof. apply int_packets_loop. Qed.
Lemma int_initial_serialize p : internal (initial_serialize oc p c). Proof. int. Qed.
Lemma int_handshake_serialize p : internal (handshake_serialize oc p c). Proof. int. Qed.
End Suite.

Lemma reachable_suite P oc srv d l c : prims_ok P -> reachable P oc srv d l c -> suite_ok P oc c.
Proof.
  intros HP R. pose proof (reachable_inv _ _ _ _ _ _ HP R) as I. intros sp s H.
  destruct sp.
  - destruct (ci_keys _ _ _ _ _ _ I) as [cid [kl [kr [_ [_ [_ [[sl [E1 K1]] [sr [E2 K2]]]]]]]]].
    destruct H as [H|H]; [rewrite E1 in H|rewrite E2 in H]; injection H as <-; [apply K1|apply K2].
  - destruct (ci_none _ _ _ _ _ _ I SpHandshake ltac:(discriminate)) as [E1 E2]. destruct H as [H|H]; congruence.
  - destruct (ci_none _ _ _ _ _ _ I SpApplication ltac:(discriminate)) as [E1 E2]. destruct H as [H|H]; congruence.
Qed.

(** ** RFC 9000 section 12.4: a payload that is no sequence of frames is a
    FRAME_ENCODING_ERROR (code 7, section 20.1). *)
Definition C126_statement : Prop := forall oc s e, bytes_ok s -> (forall fs, ~ frames_enc fs s) ->
  deserialize_frames oc s = Err e -> to_error_byte e = 0x07.

(** Whatever is decoded, encoded or created, every error has code 1. *)
Theorem C126_always_internal : forall P oc, prims_ok P ->
  (forall s e, deserialize_frames oc s = Err e -> to_error_byte e = 0x01) /\
  (forall fs b e, serialize_frames fs b = Err e -> to_error_byte e = 0x01) /\
  (forall p e, tp_serialize p = Err e -> to_error_byte e = 0x01) /\
  (forall s e, next_header_from_stream s = Err e -> to_error_byte e = 0x01) /\
  (forall srv v d l e, connection_new P oc srv v d l = Err e -> to_error_byte e = 0x01) /\
  forall srv d l c, reachable P oc srv d l c ->
    (forall s e, decode_packets oc c s = Err e -> to_error_byte e = 0x01) /\
    (forall s e, decode_next_packet oc c s = Err e -> to_error_byte e = 0x01) /\
    (forall sp e, snd (get_next_pn oc c sp) = Err e -> to_error_byte e = 0x01) /\
    (forall fs token e, snd (initial_new oc fs token c) = Err e -> to_error_byte e = 0x01) /\
    (forall fs e, snd (handshake_new oc fs c) = Err e -> to_error_byte e = 0x01) /\
    (forall p e, initial_serialize oc p c = Err e -> to_error_byte e = 0x01) /\
    (forall p e, handshake_serialize oc p c = Err e -> to_error_byte e = 0x01).
Proof.
  intros P oc HP. split; [intros; eapply int_frames; eauto|]. split; [intros; eapply int_serialize; eauto|].
  split; [intros; eapply int_tp; eauto|]. split; [intros; eapply int_header; eauto|]. split; [intros; eapply int_new; eauto|].
  intros srv d l c R. pose proof (reachable_suite _ _ _ _ _ _ HP R) as HS.
  split; [intros s; exact (int_packets P oc c HS s)|]. split; [intros s; exact (int_next_packet P oc c HS s)|].
  assert (NP : forall sp, internal (snd (get_next_pn oc c sp))).
  { intros sp. unfold get_next_pn. pose proof (int_add oc (next_pn (borrow_pn_info c sp)) 1) as H.
    destruct (add64 _ _ _) eqn:E; cbn [snd]; [int|exact (fun e X => H e ltac:(injection X as <-; reflexivity))|int|int]. }
  split; [exact NP|].
  split; [|split; [|split; [intros p; exact (int_initial_serialize P oc c HS p)|intros p; exact (int_handshake_serialize P oc c HS p)]]].
  - intros fs token. unfold initial_new. specialize (NP SpInitial). destruct (get_next_pn oc c SpInitial) as [c' r]. cbn [snd] in *.
    apply int_bind; [exact NP|]. int.
  - intros fs. unfold handshake_new. specialize (NP SpHandshake). destruct (get_next_pn oc c SpHandshake) as [c' r]. cbn [snd] in *.
    apply int_bind; [exact NP|]. int.
Qed.
Print Assumptions C126_always_internal.

Lemma frame_type_byte last f bs : frame_enc last f bs -> exists t r, bs = t :: r /\ t <= 0x1e.
Proof.
  intros H. destruct H; eexists _, _; (split; [reflexivity|]); try lia;
    repeat match goal with |- context [bit ?b ?x] => destruct b; cbn [bit] end; lia.
Qed.
Lemma unknown_type_no_frames t s fs : 0x1e < t -> ~ frames_enc fs (t :: s).
Proof.
  intros Ht F. inversion F as [|f bs H|f g fs' a bs H H2]; subst; destruct (frame_type_byte _ _ _ H) as [t' [r [E L]]].
  - injection E as -> ->. lia.
  - subst a. cbn [app] in *. match goal with H : _ :: _ = _ :: _ |- _ => injection H as -> _ end. lia.
Qed.
Theorem C126_refuted : ~ C126_statement.
Proof.
  intros H. assert (B : bytes_ok [0x1f]) by (apply bytes_ok_dec; reflexivity).
  assert (E : deserialize_frames true [0x1f] = Err (InternalError "Invalid type byte")) by (vm_compute; reflexivity).
  specialize (H true [0x1f] (InternalError "Invalid type byte") B). cbn [to_error_byte] in H.
  enough (0x01 = 0x07) as X by discriminate X. apply H; [|exact E].
  intros fs. apply unknown_type_no_frames. lia.
Qed.
Print Assumptions C126_refuted.

(** ** The socket *)
Definition coded (r : result) : Prop :=
  match r with RUnit (Err e) | RPackets (Err e) => to_error_byte e = 0x01 | _ => True end.
Definition tables (P : prims) (oc : bool) (T : table) : Prop := forall key s, get T key = Some s -> suite_ok P oc (q_conn s).
Fixpoint ends (P : prims) (oc : bool) (p : prog) : Prop :=
  match p with
  | Done r => coded r
  | Crash _ | Hang | Goto _ => True
  | Acq _ _ p | Rel _ p | Insert _ _ p | Remove _ p | Send _ _ p | SetLog _ p | Print _ p => ends P oc p
  | LookTable k => forall T, tables P oc T -> ends P oc (k T)
  | LookLog k => forall b, ends P oc (k b)
  | RecvFrom k => forall ev, ends P oc (k ev)
  | Rand k => forall r, ends P oc (k r)
  end.

Lemma route_ends P oc d k : ends P oc (k (Ok tt)) -> (forall e, to_error_byte e = 0x01 -> ends P oc (k (Err e))) -> ends P oc (route_datagram d k).
Proof.
  intros K1 K2. unfold route_datagram. header_cases h rest EH; cbn [ends].
  - intros T HT. destruct (get T _); cbn [ends]; auto.
  - apply K2. eapply int_header; eauto.
  - apply K2. eapply int_header; eauto.
Qed.
Lemma entry_ends P oc c : ends P oc (entry oc c).
Proof.
  destruct c; cbn [entry]; try exact I.
  - apply route_ends; cbn [ends coded]; auto.
  - unfold packets_from_datagram. header_cases h rest EH; [|cbn [ends coded]; eapply int_header; eauto..].
    cbn [ends]. intros T HT. destruct (get T _) as [s|] eqn:G; cbn [ends]; [|reflexivity].
    assert (L : forall x, internal x -> ends P oc (lift x (fun e => Rel (LConn (get_destination_id h)) (Rel LStreams (Done (RPackets (Err e)))))
      (fun rv => Rel (LConn (get_destination_id h)) (Rel LStreams (Acq LLog Shared (LookLog (fun flag => Rel LLog
         (if flag then Print (LogPackets rv) (Done (RPackets (Ok rv))) else Done (RPackets (Ok rv)))))))))).
    { intros [ps|e|w|] HX; cbn [lift ends coded]; auto. intros []; cbn; auto. }
    pose proof (int_packets P oc (q_conn s) (HT _ _ G) (d_data d)) as HX.
    packets_cases; cbn [ends]; apply L; exact HX.
Qed.
Lemma code_ends P oc l : ends P oc (code P oc l).
Proof.
  destruct l; cbn [code].
  - unfold recv_new_initial_datagram, recv_datagram. cbn [ends]. intros [sent addr|e]; cbn [ends]; [|exact I].
    assert (A : forall d (b : bool), ends P oc (if b then accept_with P oc (IoOk d) else route_datagram d (fun r => unwrap_or_crash r (fun _ => Goto LpReceive)))).
    { intros d []; [|apply route_ends; cbn; auto].
      cbn [accept_with]. header_cases h rest EH; cbn [ends]; auto.
      destruct (connection_new _ _ _ _ _ _); cbn; auto. }
    assert (B : forall d, ends P oc (parse (next_header_said (d_data d))
          (fun e => Print (LogError e) (if false then accept_with P oc (IoOk d) else route_datagram d (fun r => unwrap_or_crash r (fun _ => Goto LpReceive))))
          (fun '(x, _) => unwrap_or_crash (get_packet_type x) (fun packet_type =>
             match packet_type with
             | TInitial =>
                 Acq LStreams Shared (LookTable (fun T =>
                   Rel LStreams (if negb (contains_key T (get_destination_id x)) then accept_with P oc (IoOk d) else route_datagram d (fun r => unwrap_or_crash r (fun _ => Goto LpReceive)))))
             | _ => if false then accept_with P oc (IoOk d) else route_datagram d (fun r => unwrap_or_crash r (fun _ => Goto LpReceive))
             end)))).
    { intros d. header_cases h rest EH; cbn [ends]; try exact (A d false).
      rewrite ET. unfold unwrap_or_crash at 1. cbn [lift]. destruct t; try exact (A d false). cbn [ends]. intros T _. apply A. }
    intros []; [|apply B]. log_cases EN; cbn [ends]; apply B.
  - unfold choose_key, get_connection_id. cbn [ends]. intros [v|]; cbn [ends]; [|exact I].
    intros T HT. destruct (negb _); cbn [ends]; [|exact I]. intros T' _. destruct (get T' _); cbn; exact I.
Qed.

(** No call of any thread reports anything else. *)
Theorem C126_socket : forall P oc tr w t e, prims_ok P -> execution P oc start tr w -> well_typed tr ->
  th_prog (w_threads w t) = Done (RUnit (Err e)) \/ th_prog (w_threads w t) = Done (RPackets (Err e)) ->
  to_error_byte e = 0x01.
Proof.
  intros P oc tr w t e HP X T.
  assert (G : forall t, ends P oc (th_prog (w_threads w t))).
  { clear t e. induction X as [|tr w t a w' X IH S]; [intros t; exact I|]. apply typed_app in T as [T _]. specialize (IH T).
    assert (TB : tables P oc (streams (w_sock w))).
    { intros key s Gs. pose proof (inv_reached P oc tr w HP X T) as W. apply get_in in Gs.
      destruct (entry_reachable P oc HP key s ltac:(eapply wi_entry; [exact W|exact Gs])) as [d [l [kr [R _]]]].
      eapply reachable_suite; eauto. }
    intros t0. destruct (N.eq_dec t0 t) as [->|N].
    - specialize (IH t). inversion S as [c r Ep|p a' k p' Ep PS|l m p Ep Np Gr|l m p Ep Np|l m p held Ep Eh|why Ep]; subst; cbn [w_threads];
        rewrite set_thread_same; cbn [th_prog]; try (rewrite Ep in IH; exact IH); try exact I; [apply entry_ends|].
      destruct PS; cbn [ends] in IH; auto; try exact I. apply code_ends.
    - specialize (IH t0). inversion S; subst; cbn [w_threads]; rewrite set_thread_other by exact N; exact IH. }
  intros [E|E]; specialize (G t); rewrite E in G; exact G.
Qed.
Print Assumptions C126_socket.

(** Three payloads that are no frames, an empty packet, a datagram for nobody. *)
Example C126_case :
  (forall fs, ~ frames_enc fs [0x1f]) /\
  deserialize_frames true [0x1f] = Err (InternalError "Invalid type byte") /\
  deserialize_frames true [0x06; 0; 5; 1] = Err (InternalError "not enough bytes for var_bytes") /\
  deserialize_frames true [0x01; 0x10; 0x40] = Err (InternalError "not enough bytes for varint") /\
  (exists c, reachable real_prims true false sample_id 8 c /\
     snd (initial_new true [] None c) = Err (InternalError "scid not set")) /\
  exists tr w e, execution real_prims true start tr w /\ well_typed tr /\ th_prog (w_threads w 0) = Done (RUnit (Err e)).
Proof.
  split; [intros fs; apply unknown_type_no_frames; lia|]. split; [vm_compute; reflexivity|]. split; [vm_compute; reflexivity|].
  split; [vm_compute; reflexivity|]. split.
  - destruct (connection_new_ok real_prims true false sample_id 8 real_prims_ok ltac:(lia)) as [c0 EC]. exists c0.
    split; [exists c0, []; split; [exact EC|reflexivity]|].
    assert (Z : (let? c := connection_new real_prims true false V1 sample_id 8 in snd (initial_new true [] None c)) = Err (InternalError "scid not set")) by (vm_compute; reflexivity).
    rewrite EC in Z. exact Z.
  - assert (S : exists acts r, solo real_prims true bind_socket (entry true (CRoute (Datagram [] 5))) [] acts bind_socket
        (Done (RUnit (Err r))) []).
    { eexists _, _. cbn. apply so_nil. }
    destruct S as [acts [r S]].
    destruct (next_call _ _ _ _ _ _ _ _ _ _ (between_start real_prims true 0) (I : plain_call (CRoute (Datagram [] 5))) S) as [w [X [T [PR [_ [ET _]]]]]].
    eexists _, w, _. split; [exact X|]. split; [exact T|]. rewrite ET. reflexivity.
Qed.
