(** C87 for whole datagrams: which of them print a line. *)
From Verif Require Import Base Utils Frame CipherSuite Secrets Connection Packet Buffers Printing Histories
  Spec SpecPacket Tactics UtilsFacts HeaderFacts PacketFacts ConnectionFacts DecodeFacts PropBuffers PrintingFacts PropPrinting
  CryptoInst SampleRuns PropPacket PropSend PropDecode PropHold PropMixed PropErrors.
From Coq Require Import Lia ZifyN ZifyBool ZifyNat.
Open Scope N_scope.

(** The error of a read that found too few bytes. *)
Definition cut_msg : string := "not enough bytes for var_bytes".
Definition cut_short {A} : outcome A := Err (InternalError cut_msg).

(** A computation that never reports that error. *)
Definition calm {A} (m : outcome A) : Prop := m <> cut_short.
Lemma calm_ok {A} (a : A) : calm (Ok a). Proof. discriminate. Qed.
Lemma calm_err {A} m : m <> cut_msg -> calm (Err (InternalError m) : outcome A). Proof. intros H [= E]. auto. Qed.
Lemma calm_panic {A} m : calm (Panic m : outcome A). Proof. discriminate. Qed.
Lemma calm_diverge {A} : calm (Diverge : outcome A). Proof. discriminate. Qed.
Lemma calm_bind {A B} (m : outcome A) (k : A -> outcome B) : calm m -> (forall a, calm (k a)) -> calm (bind m k).
Proof. intros H K E. destruct m; cbn [bind] in E; try discriminate E; [exact (K _ E)|]. apply H. unfold cut_short in *. injection E as ->. reflexivity. Qed.
Lemma calm_unwrap {A} (m : outcome A) : calm (unwrap m). Proof. destruct m; discriminate. Qed.
Lemma calm_ok_or {A} (o : option A) m : m <> cut_msg -> calm (ok_or o (InternalError m)).
Proof. intros. destruct o; [apply calm_ok|apply calm_err; assumption]. Qed.
Lemma calm_add oc a b : calm (add64 oc a b). Proof. unfold add64. destruct (_ <? _), oc; discriminate. Qed.
Lemma calm_sub oc a b : calm (sub64 oc a b). Proof. unfold sub64. destruct (_ <=? _), oc; discriminate. Qed.
#[local] Hint Resolve calm_ok calm_panic calm_diverge calm_unwrap calm_add calm_sub : calm.

Ltac calm1 :=
  intros; cbv beta zeta;
  first [ solve [auto with calm nocore]
  | match goal with
    | |- calm (Err (InternalError _)) => apply calm_err; first [assumption | discriminate]
    | |- calm (ok_or _ (InternalError _)) => apply calm_ok_or; first [assumption | discriminate]
    | |- _ <> cut_msg => first [assumption | discriminate]
    | |- calm (bind _ _) => apply calm_bind
    | |- calm (match ?x with _ => _ end) => destruct x
    | |- calm ?m => let rec hd t := lazymatch t with ?f _ => hd f | _ => t end in let h := hd m in unfold h
    end ].
Ltac calm := repeat calm1.

Lemma calm_read_array n msg : msg <> cut_msg -> forall s, calm (read_array n msg s).
Proof. intros H. induction n as [|n IH]; intros s; cbn [read_array]; calm. Qed.
Lemma calm_u160_loop n msg : msg <> cut_msg -> forall a b s, calm (u160_read_loop n msg a b s).
Proof. intros H. induction n as [|n IH]; intros a b s; cbn [u160_read_loop]; calm. Qed.
Lemma calm_var_int_loop' oc n : forall r s, calm (var_int_loop' oc n r s).
Proof. induction n as [|n IH]; intros r s; cbn [var_int_loop']; calm. Qed.
Lemma calm_var_u32_loop n : forall r s, calm (var_u32_loop n r s).
Proof. induction n as [|n IH]; intros r s; cbn [var_u32_loop]; calm. Qed.
Lemma calm_log_loop f : forall r t, calm (floor_log2_loop f r t).
Proof. induction f as [|f IH]; intros r t; cbn [floor_log2_loop]; calm. Qed.
#[local] Hint Resolve calm_var_int_loop' calm_var_u32_loop calm_log_loop : calm.
#[local] Hint Extern 2 (calm (read_array _ _ _)) => apply calm_read_array; first [assumption | discriminate] : calm.
#[local] Hint Extern 2 (calm (u160_read_loop _ _ _ _ _)) => apply calm_u160_loop; first [assumption | discriminate] : calm.
Lemma calm_var_int_loop oc n : forall r b s, calm (var_int_loop oc n r b s).
Proof. induction n as [|n IH]; intros r b s; cbn [var_int_loop]; calm. Qed.
Lemma calm_ack_ranges oc f : forall n s, calm (ack_ranges_loop oc f n s).
Proof. induction f as [|f IH]; intros n s; cbn [ack_ranges_loop]; calm. Qed.
Lemma calm_ack_bytes rs : calm (ack_ranges_to_bytes rs).
Proof. induction rs as [|r rs IH]; cbn [ack_ranges_to_bytes]; calm. Qed.
#[local] Hint Resolve calm_var_int_loop calm_ack_ranges calm_ack_bytes : calm.
Lemma calm_frame_bytes f b : calm (frame_to_bytes f b). Proof. destruct f; calm. Qed.
#[local] Hint Resolve calm_frame_bytes : calm.
Lemma calm_serialize_loop b n fs : forall i, calm (serialize_frames_loop b n i fs).
Proof. induction fs as [|f fs IH]; intros i; cbn [serialize_frames_loop]; calm. Qed.
Lemma calm_serialize fs b : calm (serialize_frames fs b). Proof. apply calm_serialize_loop. Qed.
#[local] Hint Resolve calm_serialize : calm.
Lemma calm_vn_chunks f : forall bs, calm (vn_chunks f bs).
Proof. induction f as [|f IH]; intros bs; cbn [vn_chunks]; calm. Qed.
Lemma calm_xor_pn bs : forall i m, calm (xor_pn_loop bs i m).
Proof. induction bs as [|b bs IH]; intros i m; cbn [xor_pn_loop]; calm. Qed.
Lemma calm_update f v : forall i, calm (update_at i f v).
Proof. induction v as [|x v IH]; intros [|i]; cbn [update_at]; calm. Qed.
#[local] Hint Resolve calm_vn_chunks calm_xor_pn calm_update : calm.
Lemma calm_iv n : forall i p v, calm (xor_iv_loop n i p v).
Proof. induction n as [|n IH]; intros i p v; cbn [xor_iv_loop]; calm. Qed.
#[local] Hint Resolve calm_iv : calm.

(** A line is printed exactly when the error is returned. *)
Definition exact {A} (m : said A) : Prop := fst m <> [] <-> snd m = cut_short.
Lemma exact_quiet {A} (r : outcome A) : calm r -> exact (Printing.quiet r).
Proof. intros H. split; cbn; intros E; [congruence|]. destruct (H E). Qed.
Lemma exact_then {A B} (m : said A) (k : A -> said B) : exact m -> (forall a, exact (k a)) -> exact (then_ m k).
Proof.
  intros H K. destruct m as [l [a|e|w|]]; unfold exact in *; cbn [then_ fst snd] in *.
  - assert (L : l = []). { destruct l; [reflexivity|]. assert (D : @Ok A a = cut_short) by (apply H; discriminate). discriminate D. }
    subst l. specialize (K a). destruct (k a) as [l' r]. cbn [fst snd app] in *. exact K.
  - unfold cut_short in *. split; intros E; [apply H in E; injection E as ->; reflexivity|]. apply H. injection E as ->. reflexivity.
  - split; intros E; [apply H in E|]; discriminate E.
  - split; intros E; [apply H in E|]; discriminate E.
Qed.
Lemma exact_bytes n s : exact (var_bytes_said n s).
Proof.
  unfold exact. destruct (N.lt_ge_cases (len s) n) as [L|L].
  - rewrite (bytes_said_short _ _ L). split; [reflexivity|discriminate].
  - rewrite (bytes_said_ok _ _ L). cbn [fst snd]. split; [congruence|]. intros E.
    destruct (bytes_read _ _ L) as [d [r [_ [_ F]]]]. rewrite F in E. discriminate E.
Qed.
Create HintDb exact.
#[local] Hint Resolve exact_bytes : exact.
Ltac exact1 :=
  intros; cbv beta zeta;
  first [ solve [auto with exact nocore]
  | match goal with
    | |- exact (Printing.quiet _) => apply exact_quiet; solve [calm]
    | |- exact (then_ _ _) => apply exact_then
    | |- exact (match ?x with _ => _ end) => destruct x
    end ].
Ltac exacts := repeat exact1.

Lemma exact_crypto oc s : exact (crypto_said oc s). Proof. unfold crypto_said. exacts. Qed.
Lemma exact_new_token oc s : exact (new_token_said oc s). Proof. unfold new_token_said. exacts. Qed.
Lemma exact_stream oc t s : exact (stream_said oc t s). Proof. unfold stream_said. exacts. Qed.
Lemma exact_close oc t s : exact (connection_close_said oc t s). Proof. unfold connection_close_said. exacts. Qed.
#[local] Hint Resolve exact_crypto exact_new_token exact_stream exact_close : exact.
Lemma exact_frame oc s : exact (deserialize_frame_said oc s).
Proof.
  unfold deserialize_frame_said. apply exact_then; [apply exact_quiet; calm|]. intros [t r]. cbv zeta.
  set (b := cast 8 _). clearbody b.
  destruct (b =? 6) eqn:E6; [unfold wrap_said; exacts|].
  destruct (b =? 7) eqn:E7; [unfold wrap_said; exacts|].
  destruct (in_range 8 15 b) eqn:E8; [unfold wrap_said; exacts|].
  destruct (in_range 28 29 b) eqn:E9; [unfold wrap_said; exacts|].
  apply exact_quiet. unfold deserialize_frame_body. rewrite E6, E7, E8, E9. calm.
Qed.
#[local] Hint Resolve exact_frame : exact.
Lemma exact_frames_loop oc f : forall s, exact (deserialize_frames_said_loop oc f s).
Proof. induction f as [|f IH]; intros [|b s]; cbn [deserialize_frames_said_loop]; exacts. Qed.
Lemma exact_frames oc s : exact (deserialize_frames_said oc s). Proof. apply exact_frames_loop. Qed.
Lemma exact_long b s : exact (long_from_stream_said b s).
Proof. unfold long_from_stream_said. exacts. Qed.
#[local] Hint Resolve exact_frames exact_long : exact.
Lemma exact_vn s : exact (vn_said s). Proof. unfold vn_said. exacts. Qed.
Lemma exact_header s : exact (next_header_said s). Proof. unfold next_header_said. exacts. Qed.
#[local] Hint Resolve exact_vn : exact.

Section Suite.
Variables (P : prims) (oc : bool) (c : connection).
Hypothesis HS : suite_ok P oc c.
Lemma calm_decrypt_remote sp p a n : calm (decrypt_remote_payload c sp p a n).
Proof.
  destruct (borrow_remote P oc c sp HS) as [_ K]. unfold decrypt_remote_payload.
  destruct (borrow_remote_tls_secrets c sp) as [s|e|w|] eqn:E; cbn [bind]; try discriminate.
  - specialize (K s eq_refl). unfold decrypt_payload. rewrite K. cbn -[decrypt_aes_128_gcm make_iv]. calm.
  - revert E. unfold borrow_remote_tls_secrets. destruct (remote_tls_secrets _); [discriminate|]. intros [= <-]. calm.
Qed.
Lemma calm_encrypt_local sp p a n : calm (encrypt_local_payload c sp p a n).
Proof.
  destruct (borrow_local P oc c sp HS) as [_ K]. unfold encrypt_local_payload.
  destruct (borrow_local_tls_secrets c sp) as [s|e|w|] eqn:E; cbn [bind]; try discriminate.
  - specialize (K s eq_refl). unfold encrypt_payload. rewrite K. cbn -[encrypt_aes_128_gcm make_iv]. calm.
  - revert E. unfold borrow_local_tls_secrets. destruct (local_tls_secrets _); [discriminate|]. intros [= <-]. calm.
Qed.
Lemma exact_mask s x : s_cipher_suite s = TLS13_AES_128_GCM_SHA256 P oc -> exact (get_header_protection_mask_said s x).
Proof. intros E. unfold get_header_protection_mask_said. rewrite E. cbn -[hp_mask_aes_128_ecb var_bytes_said then_]. exacts. Qed.
Lemma exact_remote_mask sp x : exact (get_remote_hp_mask_said c sp x).
Proof.
  destruct (borrow_remote P oc c sp HS) as [_ K]. unfold get_remote_hp_mask_said.
  destruct (borrow_remote_tls_secrets c sp) as [s|e|w|] eqn:E.
  - rewrite said_ok. apply exact_mask. auto.
  - revert E. unfold borrow_remote_tls_secrets. destruct (remote_tls_secrets _); [discriminate|]. intros [= <-]. split; cbn; [congruence|discriminate].
  - split; cbn; [congruence|discriminate].
  - split; cbn; [congruence|discriminate].
Qed.
Lemma exact_local_mask sp x : exact (get_local_hp_mask_said c sp x).
Proof.
  destruct (borrow_local P oc c sp HS) as [_ K]. unfold get_local_hp_mask_said.
  destruct (borrow_local_tls_secrets c sp) as [s|e|w|] eqn:E.
  - rewrite said_ok. apply exact_mask. auto.
  - revert E. unfold borrow_local_tls_secrets. destruct (local_tls_secrets _); [discriminate|]. intros [= <-]. split; cbn; [congruence|discriminate].
  - split; cbn; [congruence|discriminate].
  - split; cbn; [congruence|discriminate].
Qed.
#[local] Hint Resolve calm_decrypt_remote calm_encrypt_local : calm.
#[local] Hint Resolve exact_remote_mask exact_local_mask : exact.
Lemma exact_initial s : exact (initial_said oc c s). Proof. unfold initial_said. exacts. Qed.
Lemma exact_handshake s : exact (handshake_said oc c s). Proof. unfold handshake_said. exacts. Qed.
Lemma exact_zero_rtt s : exact (zero_rtt_said oc c s). Proof. unfold zero_rtt_said. exacts. Qed.
Lemma exact_one_rtt s : exact (one_rtt_said oc c s). Proof. unfold one_rtt_said. exacts. Qed.
Lemma exact_initial_serialize p : exact (initial_serialize_said oc p c).
Proof. unfold initial_serialize_said. exacts. Qed.
Lemma exact_handshake_serialize p : exact (handshake_serialize_said oc p c).
Proof. unfold handshake_serialize_said. exacts. Qed.
#[local] Hint Resolve exact_initial exact_handshake exact_zero_rtt exact_one_rtt : exact.
End Suite.

(** ** The theorems *)
Lemma exact_one {A} (m : said A) r : exact m -> tells m r -> ((exists i, fst m = [i]) <-> r = cut_short).
Proof.
  intros E [T1 T2]. rewrite <- T1. split.
  - intros [i F]. apply E. rewrite F. discriminate.
  - intros F. apply E in F. destruct T2 as [T2|[i [T2 _]]]; [congruence|eauto].
Qed.

(** Frames: a line is printed exactly when the error says that data of a frame is missing. *)
Theorem C87_frames_lines : forall oc s,
  (exists i, fst (deserialize_frames_said oc s) = [i]) <->
  deserialize_frames oc s = Err (InternalError "not enough bytes for var_bytes").
Proof. intros. apply (exact_one _ _ (exact_frames oc s) (frames_tells oc s)). Qed.
Print Assumptions C87_frames_lines.

(** Packets being sent. *)
Theorem C87_sending_lines : forall P oc srv d l c, prims_ok P -> reachable P oc srv d l c ->
  (forall p, (exists i, fst (initial_serialize_said oc p c) = [i]) <->
     initial_serialize oc p c = Err (InternalError "not enough bytes for var_bytes")) /\
  (forall p, (exists i, fst (handshake_serialize_said oc p c) = [i]) <->
     handshake_serialize oc p c = Err (InternalError "not enough bytes for var_bytes")).
Proof.
  intros P oc srv d l c HP R. pose proof (reachable_suite _ _ _ _ _ _ HP R) as S. split; intros p.
  - apply (exact_one _ _ (exact_initial_serialize P oc c S p) (initial_serialize_tells oc p c)).
  - apply (exact_one _ _ (exact_handshake_serialize P oc c S p) (handshake_serialize_tells oc p c)).
Qed.
Print Assumptions C87_sending_lines.

Lemma next_lines P oc c s : suite_ok P oc c -> bytes_ok s ->
  ((exists i, fst (decode_next_packet_said oc c s) = [i]) <->
   decode_next_packet oc c s = cut_short \/ exists i, cut_negotiation s i).
Proof.
  intros S B. pose proof (exact_header s) as H. pose proof (C87_header_lines s) as L.
  pose proof (header_tells s) as [T1 T2]. pose proof (next_packet_tells oc c s) as N.
  revert N. unfold decode_next_packet_said, decode_next_packet. rewrite <- T1.
  unfold unwrap_said. destruct (next_header_said s) as [l [[h r]|e|w|]]; cbn [fst snd unwrap] in *; intros N.
  - assert (l = []) as ->. { destruct l; [reflexivity|]. exfalso. assert (D : @Ok (packet_header * stream) (h, r) = cut_short) by (apply H; discriminate). discriminate D. }
    rewrite said_nil in N |- *. cbn [bind] in N |- *.
    eassert (X : exact _); [|rewrite (exact_one _ _ X N)].
    { destruct h; exacts; eauto using exact_one_rtt, exact_handshake, exact_initial, exact_zero_rtt. }
    split; [auto|]. intros [E|[i C]]; [exact E|]. apply L in C; [discriminate C|exact B].
  - cbn [then_ fst bind]. split.
    + intros [i E]. right. exists i. apply L; assumption.
    + intros [E|[i C]]; [discriminate E|]. exists i. apply L; assumption.
  - cbn [then_ fst bind]. split.
    + intros [i E]. right. exists i. apply L; assumption.
    + intros [E|[i C]]; [discriminate E|]. exists i. apply L; assumption.
  - cbn [then_ fst bind]. split.
    + intros [i E]. right. exists i. apply L; assumption.
    + intros [E|[i C]]; [discriminate E|]. exists i. apply L; assumption.
Qed.

(** Datagrams: a line is printed exactly when decoding returns this error, or when
    a Version Negotiation packet cut inside a connection id stands where a packet
    is looked for.  (Decoding panics then.) *)
Theorem C87_datagram_lines : forall P oc srv d l c s,
  prims_ok P -> reachable P oc srv d l c -> bytes_ok s -> len s < 2 ^ 63 ->
  ((exists i, fst (decode_packets_said oc c s) = [i]) <->
   decode_packets oc c s = Err (InternalError "not enough bytes for var_bytes") \/
   exists r i, reaches oc c s r /\ cut_negotiation r i).
Proof.
  intros P oc srv d l c s HP R. pose proof (reachable_suite _ _ _ _ _ _ HP R) as S.
  destruct (reachable_keyed _ _ _ _ _ _ HP R) as [[k K] _].
  unfold decode_packets, decode_packets_said.
  assert (G : forall n s, (length s <= n)%nat -> bytes_ok s -> len s < 2 ^ 63 ->
    ((exists i, fst (decode_packets_said_loop oc c n s) = [i]) <->
     decode_packets_loop oc c n s = cut_short \/ exists r i, reaches oc c s r /\ cut_negotiation r i)).
  2:{ intros. apply G; auto. }
  assert (NIL : forall s', reaches oc c [] s' -> s' = []).
  { intros s' X. inversion X as [|? p s1 ? D]; subst; auto. discriminate. }
  assert (N0 : forall n, (exists i, fst (decode_packets_said_loop oc c n []) = [i]) <->
     decode_packets_loop oc c n [] = cut_short \/ exists r i, reaches oc c [] r /\ cut_negotiation r i).
  { intros n. replace (decode_packets_said_loop oc c n []) with (Printing.quiet (Ok (@nil packet))) by (destruct n; reflexivity).
    replace (decode_packets_loop oc c n []) with (Ok (@nil packet)) by (destruct n; reflexivity).
    split; [intros [i E]; discriminate E|]. intros [E|[r [i [X C]]]]; [discriminate E|]. apply NIL in X as ->. inversion C. }
  clear s. induction n as [|n IH]; intros s Hn B LS.
  - destruct s; [apply N0|cbn in Hn; lia].
  - destruct s as [|b s0]; [apply N0|].
    remember (b :: s0) as s eqn:Es.
    assert (U : decode_packets_loop oc c (Datatypes.S n) s =
      let? (p, s) := decode_next_packet oc c s in let? ps := decode_packets_loop oc c n s in Ok (p :: ps))
      by (subst s; reflexivity).
    assert (V : decode_packets_said_loop oc c (Datatypes.S n) s =
      let! (p, s) := decode_next_packet_said oc c s in let! ps := decode_packets_said_loop oc c n s in Printing.quiet (Ok (p :: ps)))
      by (subst s; reflexivity).
    rewrite U, V. clear U V.
    pose proof (next_lines P oc c s S B) as L. destruct (next_packet_tells oc c s) as [T1 T2].
    assert (HERE : forall w, decode_next_packet oc c s = w -> (forall x, w <> Ok x) ->
      ((exists r i, reaches oc c s r /\ cut_negotiation r i) <-> exists i, cut_negotiation s i)).
    { intros w Ew Nw. split; [|intros [i C]; exists s, i; split; [constructor|exact C]].
      intros [r [i [X C]]]. inversion X as [|? p s1 ? D X']; subst; [eauto|]. exfalso. exact (Nw _ D). }
    destruct (decode_next_packet_said oc c s) as [ln rs]. cbn [fst snd] in *. subst rs.
    destruct (decode_next_packet oc c s) as [[p rest]|e|w|] eqn:D.
    + destruct (accepted_suffix P oc srv d l c k s p rest HP R K B LS D) as [used [Eu NE]].
      assert (Hr : (length rest <= n)%nat).
      { rewrite Eu, app_length in Hn. destruct used; [contradiction|]. cbn [length] in Hn. lia. }
      assert (Br : bytes_ok rest) by (rewrite Eu in B; apply bytes_ok_app in B; tauto).
      assert (Lr : len rest < 2 ^ 63) by (rewrite Eu, len_app in LS; lia).
      destruct T2 as [->|[i [_ [Q|Q]]]]; [|discriminate Q..].
      rewrite said_nil. cbn [bind]. specialize (IH rest Hr Br Lr).
      assert (NC : ~ exists i, cut_negotiation s i).
      { intros C. destruct (proj2 L (or_intror C)) as [i Q]. discriminate Q. }
      assert (STEP : (exists r i, reaches oc c s r /\ cut_negotiation r i) <-> (exists r i, reaches oc c rest r /\ cut_negotiation r i)).
      { split; intros [r [i [X C]]].
        - inversion X as [|? p' s1 ? D' X']; subst r; [exfalso; eauto|]. assert (s1 = rest) as -> by congruence. eauto.
        - exists r, i. split; [econstructor; eauto|exact C]. }
      rewrite STEP. clear STEP.
      destruct (packets_loop_tells oc c n rest) as [M1 M2].
      destruct (decode_packets_said_loop oc c n rest) as [l2 r2]. cbn [fst snd] in *. subst r2.
      destruct (decode_packets_loop oc c n rest) as [ps|e|w|] eqn:F; cbn [then_ fst bind].
      * cbn [Printing.quiet fst]. rewrite ?app_nil_r. rewrite IH. split; (intros [Q|Q]; [discriminate Q|auto]).
      * rewrite IH. unfold cut_short. split; (intros [Q|Q]; [left; congruence|auto]).
      * rewrite IH. split; (intros [Q|Q]; [discriminate Q|auto]).
      * rewrite IH. split; (intros [Q|Q]; [discriminate Q|auto]).
    + cbn [then_ fst bind]. rewrite L. rewrite (HERE _ eq_refl) by discriminate.
      unfold cut_short. split; (intros [Q|Q]; [left; congruence|auto]).
    + cbn [then_ fst bind]. rewrite L. rewrite (HERE _ eq_refl) by discriminate. split; (intros [Q|Q]; [discriminate Q|auto]).
    + cbn [then_ fst bind]. rewrite L. rewrite (HERE _ eq_refl) by discriminate. split; (intros [Q|Q]; [discriminate Q|auto]).
Qed.
Print Assumptions C87_datagram_lines.

(** Frames cut in a token and in CRYPTO data print, a cut number does not; an
    Initial packet too short for the sample prints, as does a cut Version
    Negotiation packet behind it. *)
Example C87_lines_case :
  fst (deserialize_frames_said true [0x01; 0x07; 3; 1; 2]) = [2] /\
  fst (deserialize_frames_said true [0x06; 0; 5; 1]) = [1] /\
  fst (deserialize_frames_said true [0x10; 0x40]) = [] /\
  (let? (c, s) := sample_pair true in
   let? w := send_initial true [Ping] None c in
   Ok (map (fun x => fst (decode_packets_said true s x))
         [w; (0xc0 :: be_bytes 4 1 ++ [0; 0; 0; 20] ++ repeat 0 14)%list; (w ++ [0x80; 0; 0; 0; 0; 2; 7])%list]))
  = Ok [[]; [10]; [1]].
Proof. repeat split; vm_compute; reflexivity. Qed.
(** With a packet number of one byte, as another implementation may send it. *)
Example C87_sending_case :
  (let? (c, s) := sample_pair true in
   let (c1, r) := initial_new true [] None c in
   let? p := r in
   let h := pi_header p in
   let h1 := LongHeader 0xc0 (lh_version h) (lh_dcid_len h) (lh_dcid h) (lh_scid_len h) (lh_scid h) (lh_vn h) (lh_protected h) in
   Ok (fst (initial_serialize_said true p c1), fst (initial_serialize_said true (PacketInitial h1 [] (pi_pn p) [0] []) c1)))
  = Ok ([], [13]).
Proof. vm_compute. reflexivity. Qed.
