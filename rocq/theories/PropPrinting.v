(** What is printed: C87 for whole datagrams, and C106. *)
From Verif Require Import Base Utils Frame CipherSuite Secrets Connection Packet Buffers Printing Routing Threads
  Spec SpecPacket SpecRouting Tactics UtilsFacts HeaderFacts PacketFacts ConnectionFacts DecodeFacts PropBuffers PrintingFacts
  RoutingFacts RoutingSafe SoloFacts CryptoInst SampleRuns PropRouting LocalFacts PropThreads PropAtomic PropIntake.

(** ** C87: the decoder *)
(** The lines printed while a datagram is decoded: none, or one, and then
    decoding failed.  The result is the one of the silent model. *)
Theorem C87_decoder_partial : forall oc c s,
  snd (decode_packets_said oc c s) = decode_packets oc c s /\
  (fst (decode_packets_said oc c s) = [] \/
   exists i, fst (decode_packets_said oc c s) = [i] /\ forall ps, decode_packets oc c s <> Ok ps).
Proof.
  intros oc c s. destruct (packets_tells oc c s) as [E [Q|[i [Q S]]]]; split; auto.
  right. exists i. split; [exact Q|]. intros ps H. rewrite H in S. destruct S as [S|S]; discriminate S.
Qed.
Print Assumptions C87_decoder_partial.

(** A Version Negotiation packet whose datagram ends inside one of its connection
    ids, [i] bytes into it. *)
Inductive cut_negotiation : list N -> N -> Prop :=
| cut_dcid : forall b n d, 128 <= b -> len d < n -> cut_negotiation (b :: [0; 0; 0; 0] ++ n :: d) (len d)
| cut_scid : forall b d n e, 128 <= b -> len e < n -> cut_negotiation (b :: [0; 0; 0; 0] ++ len d :: d ++ n :: e) (len e).

Lemma said_ok {A B} (a : A) (k : A -> said B) : then_ (Printing.quiet (Ok a)) k = k a.
Proof. cbn. destruct (k a). reflexivity. Qed.
Lemma said_nil {A B} (a : A) (k : A -> said B) : then_ ([], Ok a) k = k a.
Proof. apply said_ok. Qed.
Lemma bytes_said_ok n s : n <= len s -> var_bytes_said n s = ([], var_bytes_from_stream n s).
Proof. intros L. unfold var_bytes_said. rewrite C87_printed. destruct (N.leb_spec n (len s)); [reflexivity|lia]. Qed.
Lemma bytes_said_short n s : len s < n ->
  var_bytes_said n s = ([len s], Err (InternalError "not enough bytes for var_bytes")).
Proof. intros L. unfold var_bytes_said. rewrite C87_printed. destruct (N.leb_spec n (len s)); [lia|reflexivity]. Qed.
Lemma bytes_read n s : n <= len s -> exists d r, s = d ++ r /\ len d = n /\ var_bytes_from_stream n s = Ok (d, r).
Proof.
  intros L. exists (firstn (N.to_nat n) s), (skipn (N.to_nat n) s). split; [symmetry; apply firstn_skipn|].
  split; [unfold len in *; rewrite firstn_length; lia|]. rewrite var_bytes_spec. destruct (N.leb_spec n (len s)); [reflexivity|lia].
Qed.
Lemma zero_version v : fixed_enc 4 0 v -> v = [0; 0; 0; 0].
Proof.
  intros [B [L V]]. assert (Z : be_val v = be_val [0; 0; 0; 0]) by (rewrite V; reflexivity).
  apply be_val_inj in Z; auto; [apply bytes_ok_dec; reflexivity|apply len_length; exact L].
Qed.

(** Exactly these are the datagrams whose header cannot be read without printing. *)
Theorem C87_header_lines : forall s i, bytes_ok s -> (fst (next_header_said s) = [i] <-> cut_negotiation s i).
Proof.
  intros s i B. split.
  - destruct s as [|b s]; [discriminate|]. unfold next_header_said. unfold next at 1. rewrite said_ok.
    apply bytes_ok_cons in B as [Hb B]. rewrite land_128 by exact Hb.
    destruct (N.leb_spec 128 b) as [L|L].
    2:{ destruct (short_from_stream b s) as [[h r]|e|w|]; discriminate. }
    unfold long_from_stream_said.
    destruct (u32_from_datagram s) as [[v s1]|e|w|] eqn:E0; try discriminate. rewrite said_ok.
    apply u32_inv in E0 as [vb [-> Fv]]; auto. apply bytes_ok_app in B as [_ B].
    unfold VERSION_NEGOTIATION_VERSION_VALUE. destruct (N.eqb_spec v 0) as [->|NV]; cbn [negb].
    2:{ match goal with |- fst (then_ (then_ (Printing.quiet ?m) _) _) = _ -> _ => destruct m as [[[[[[vn a1] a2] a3] a4] a5]|e|w|] end;
          rewrite ?said_ok; try discriminate.
        match goal with |- context [long_packet_type ?h] => destruct (long_packet_type h) as [t|x|w|] end; rewrite ?said_ok; discriminate. }
    rewrite (zero_version _ Fv). clear vb Fv.
    destruct (u8_from_datagram s1) as [[n s2]|e|w|] eqn:E1; try discriminate. rewrite said_ok.
    apply u8_inv in E1 as [-> Hn]; auto. apply bytes_ok_cons in B as [_ B].
    destruct (N.lt_ge_cases (len s2) n) as [S|S].
    { rewrite (bytes_said_short _ _ S). cbn [then_ fst]. intros [= <-]. apply cut_dcid; assumption. }
    rewrite (bytes_said_ok _ _ S). destruct (bytes_read _ _ S) as [d [r [-> [<- ->]]]]. rewrite said_nil.
    apply bytes_ok_app in B as [_ B].
    destruct (u8_from_datagram r) as [[m s3]|e|w|] eqn:E2; try discriminate. rewrite said_ok.
    apply u8_inv in E2 as [-> Hm]; auto.
    destruct (N.lt_ge_cases (len s3) m) as [S3|S3].
    { rewrite (bytes_said_short _ _ S3). cbn [then_ fst app]. intros [= <-]. apply cut_scid; assumption. }
    rewrite (bytes_said_ok _ _ S3). destruct (bytes_read _ _ S3) as [e [r [-> [<- ->]]]]. rewrite said_nil.
    rewrite !said_ok. match goal with |- context [long_packet_type ?h] => destruct (long_packet_type h) as [t|x|w|] end;
      rewrite ?said_ok; discriminate.
  - intros C. destruct C as [b n d Hb L|b d n e Hb L]; unfold next_header_said; unfold next at 1; rewrite said_ok;
      apply bytes_ok_cons in B as [Bb B]; rewrite land_128 by exact Bb; (destruct (N.leb_spec 128 b); [|lia]);
      unfold long_from_stream_said; apply bytes_ok_app in B as [_ B]; apply bytes_ok_cons in B as [Bn B].
    + rewrite (u32_dec 0) by (repeat split; apply bytes_ok_dec; reflexivity). rewrite said_ok. rewrite N.eqb_refl. cbn [negb].
      rewrite u8_dec by exact Bn. rewrite said_ok. rewrite (bytes_said_short _ _ L). reflexivity.
    + rewrite (u32_dec 0) by (repeat split; apply bytes_ok_dec; reflexivity). rewrite said_ok. rewrite N.eqb_refl. cbn [negb].
      rewrite u8_dec by exact Bn. rewrite said_ok. apply bytes_ok_app in B as [_ B]. apply bytes_ok_cons in B as [Bm _].
      rewrite bytes_said_ok by (rewrite len_app; lia). rewrite var_bytes_app by reflexivity. rewrite said_nil.
      rewrite u8_dec by exact Bm. rewrite said_ok. rewrite (bytes_said_short _ _ L). reflexivity.
Qed.
Print Assumptions C87_header_lines.
Example C87_header_case : cut_negotiation [0x80; 0; 0; 0; 0; 2; 7; 7; 5; 9] 1 /\
  next_header_said [0x80; 0; 0; 0; 0; 2; 7; 7; 5; 9] = ([1], Err (InternalError "not enough bytes for var_bytes")) /\
  fst (next_header_said [0x80; 0; 0; 0; 1; 2; 7; 7; 5; 9]) = [].
Proof.
  split; [exact (cut_scid 0x80 [7; 7] 5 [9] ltac:(lia) ltac:(reflexivity))|]. split; reflexivity.
Qed.

(** Sending prints nothing when it succeeds. *)
Theorem C87_sending_partial : forall oc c bytes,
  (forall p, initial_serialize oc p c = Ok bytes -> initial_serialize_said oc p c = ([], Ok bytes)) /\
  (forall p, handshake_serialize oc p c = Ok bytes -> handshake_serialize_said oc p c = ([], Ok bytes)).
Proof.
  intros oc c bytes. split; intros p E.
  - destruct (initial_serialize_tells oc p c) as [R T]. rewrite E in *.
    destruct (initial_serialize_said oc p c) as [l r]. cbn [fst snd] in *. subst r.
    destruct T as [->|[i [_ [T|T]]]]; [reflexivity|discriminate T..].
  - destruct (handshake_serialize_tells oc p c) as [R T]. rewrite E in *.
    destruct (handshake_serialize_said oc p c) as [l r]. cbn [fst snd] in *. subst r.
    destruct T as [->|[i [_ [T|T]]]]; [reflexivity|discriminate T..].
Qed.
Print Assumptions C87_sending_partial.

(** ** C106: calls that succeed print nothing *)
(** Lines a call printed or tried to print. *)
Definition lines (acts : list action) : list line :=
  flat_map (fun a => match a with APrint x | APrintFailed x => [x] | _ => [] end) acts.
Lemma lines_app a b : lines (a ++ b) = lines a ++ lines b. Proof. apply flat_map_app. Qed.

Definition failure (r : result) : Prop :=
  match r with RUnit (Err _) | RPackets (Err _) | RPanic _ => True | _ => False end.

(** With logging off, [p] prints at most [n] lines; once something was printed
    ([bad]) it can only fail. *)
Fixpoint terse (n : nat) (bad : bool) (p : prog) : Prop :=
  match p with
  | Done r => bad = true -> failure r
  | Crash _ | Hang => True
  | Print _ p => match n with O => False | S n' => terse n' true p end
  | Acq _ _ p | Rel _ p | Insert _ _ p | Remove _ p | Send _ _ p | SetLog _ p => terse n bad p
  | LookTable f => forall T, terse n bad (f T)
  | LookLog f => terse n bad (f false)
  | RecvFrom f => forall ev, terse n bad (f ev)
  | Rand f => forall r, terse n bad (f r)
  | Goto _ => bad = false /\ n = 3%nat
  end.
Definition allowance (c : scall) : nat :=
  match c with CAccept => 3 | CRoute _ | CPackets _ => 1 | _ => 0 end.

Lemma loop_terse P oc l : terse 3 false (code P oc l).
Proof.
  destruct l; cbn [code].
  - unfold recv_new_initial_datagram, recv_datagram. cbn [terse].
    intros [sent addr|e]; cbn [terse accept_with]; [|discriminate].
    assert (ROUTE : terse 3 false (route_datagram (Datagram (firstn (N.to_nat RECV_BUFFER) sent) addr) (fun r => unwrap_or_crash r (fun _ => Goto LpReceive)))).
    { unfold route_datagram. cbn [d_data]. header_cases h r EH; cbn; auto.
      intros T. destruct (get T (get_destination_id h)); cbn; auto. }
    assert (REFUSED : forall n e, next_header_from_stream (firstn (N.to_nat RECV_BUFFER) sent) = Err e ->
      terse (S n) true (route_datagram (Datagram (firstn (N.to_nat RECV_BUFFER) sent) addr) (fun r => unwrap_or_crash r (fun _ => Goto LpReceive)))).
    { intros n e E. unfold route_datagram. cbn [d_data]. header_cases h r EH; [congruence| |]; cbn; auto. }
    cbn [d_data]. header_cases x r EH; cbn [terse].
    + unfold unwrap_or_crash at 1. rewrite ET. cbn [lift]. destruct t; auto. cbn [terse]. intros T. destruct (negb _); auto.
      cbn [accept_with d_data]. rewrite (parse_header_ok _ _ _ _ _ EH). unfold unwrap_or_crash.
      destruct (connection_new _ _ _ _ _ _); cbn; auto.
    + eapply REFUSED. exact EH.
    + eapply REFUSED. exact EH.
  - unfold choose_key, get_connection_id. cbn [terse]. intros [v|]; cbn [terse]; auto. intros T.
    destruct (negb _); cbn [terse]; auto. intros T'. destruct (get T' _); cbn; auto.
Qed.
Lemma entry_terse oc c : terse (allowance c) false (entry oc c).
Proof.
  destruct c; cbn [entry accept_prog connect_prog drop_prog set_log_prog terse allowance]; auto; try discriminate.
  - unfold route_datagram. header_cases h r EH; cbn; auto. intros T. destruct (get T (get_destination_id h)); cbn; auto; discriminate.
  - unfold packets_from_datagram. header_cases h r EH; cbn [terse failure]; auto; try discriminate.
    intros T. destruct (get T (get_destination_id h)) as [q|]; cbn [terse]; auto; try discriminate.
    match goal with |- context [parse (decode_packets_said ?oc ?c ?s) ?oe ?kk] =>
      destruct (parse_packets oc c s oe kk) as [X|[N [i X]]]; rewrite X; clear X; cbv beta iota zeta end.
    + destruct (decode_packets oc _ _); cbn [lift terse]; auto; discriminate.
    + cbn [terse]. destruct (decode_packets oc _ _); cbn [lift terse failure]; auto. destruct (N _ eq_refl).
Qed.

(** A call that saw logging off prints only if it then fails, and at most three lines. *)
Definition terse_inv (c : scall) (p : prog) (held : list (lock * mode)) (acts : list action) : Prop :=
  In (ALookLog true) acts \/
  exists n, terse n (match lines acts with [] => false | _ => true end) p /\ (length (lines acts) + n <= allowance c)%nat.

Lemma terse_reached P oc tr w t c : prims_ok P -> execution P oc start tr w -> well_typed tr ->
  th_call (w_threads w t) = Some c ->
  terse_inv c (th_prog (w_threads w t)) (th_held (w_threads w t)) (th_acts (w_threads w t)).
Proof.
  intros HP X T. revert t c.
  destruct (local_inv P oc terse_inv (fun _ _ => True)) with (tr := tr) (w := w) as [L _]; auto.
  - intros c. right. exists (allowance c). split; [apply entry_terse|cbn; lia].
  - intros c k p held acts a k' p' PS [I|[n [W B]]]; [left; apply in_or_app; auto|].
    assert (Q : lines [a] = [] -> terse n (match lines acts with [] => false | _ => true end) p' -> terse_inv c p' held (acts ++ [a])).
    { intros E W'. right. exists n. rewrite lines_app, E, app_nil_r. auto. }
    destruct PS; cbn [terse] in W; try (apply Q; [reflexivity|solve [auto]]).
    + destruct (log_traffic k) eqn:E; [left; apply in_or_app; right; left; congruence|]. apply Q; [reflexivity|]. exact W.
    + destruct n as [|n]; [contradiction|]. right. exists n. rewrite lines_app. cbn [lines flat_map app].
      destruct (lines acts) as [|y l]; cbn [app length] in *; rewrite ?app_length; cbn [length]; split; auto; lia.
    + destruct n as [|n]; [contradiction|]. right. exists n. rewrite lines_app. cbn [lines flat_map app terse].
      split; [exact I|]. rewrite app_length. cbn [length]. lia.
    + destruct W as [E ->]. apply Q; [reflexivity|]. rewrite E. apply loop_terse.
  - intros c l m p held acts [I|[n [W B]]]; [left; apply in_or_app; auto|]. right. exists n. rewrite lines_app. cbn. rewrite app_nil_r. auto.
  - intros c l m p held acts acts' [I|[n [W B]]] _; [left; apply in_or_app; auto|]. right. exists n. rewrite lines_app. cbn. rewrite app_nil_r. auto.
  - intros c l m p held acts [I|[n [W B]]]; [left; apply in_or_app; auto|]. right. exists n. rewrite lines_app. cbn. rewrite app_nil_r. auto.
  - intros c why held acts [I|[n [W B]]]; (split; [|auto]); [left; apply in_or_app; auto|]. right. exists n. rewrite lines_app. cbn. rewrite app_nil_r. auto.
Qed.

Lemma log_seen_off P oc tr w t c : prims_ok P -> execution P oc start tr w -> well_typed tr -> public_run tr ->
  th_call (w_threads w t) = Some c -> ~ In (ALookLog true) (th_acts (w_threads w t)).
Proof.
  intros HP X T PR Ec I. apply in_split in I as [x [y E]].
  destruct (PropAtomic.at_action P oc tr w t c x _ y X Ec E) as [tr1 [w1 [w2 [tr2 [-> [X1 [S _]]]]]]].
  apply typed_app in T as [T _]. apply public_app in PR as [PR _].
  destruct (C48_logging_stays_off P oc tr1 w1 HP X1 T PR) as [L _].
  inversion S; subst. match goal with H : pstep _ _ _ _ _ _ _ |- _ => inversion H end. congruence.
Qed.

(** The public calls. *)
Theorem C106_success_silent : forall P oc tr w t c r, prims_ok P -> execution P oc start tr w -> well_typed tr -> public_run tr ->
  th_call (w_threads w t) = Some c -> th_prog (w_threads w t) = Done r -> ~ failure r ->
  lines (th_acts (w_threads w t)) = [].
Proof.
  intros P oc tr w t c r HP X T PR Ec Ed NF.
  destruct (terse_reached P oc tr w t c HP X T Ec) as [I|[n [W _]]]; [destruct (log_seen_off P oc tr w t c HP X T PR Ec I)|].
  rewrite Ed in W. cbn [terse] in W. destruct (lines _); [reflexivity|]. destruct (NF (W eq_refl)).
Qed.
Print Assumptions C106_success_silent.
(** Also one that fails prints at most one line, [accept] three; and what drops a
    connection or switches logging prints nothing. *)
Theorem C106_few_lines : forall P oc tr w t c, prims_ok P -> execution P oc start tr w -> well_typed tr -> public_run tr ->
  th_call (w_threads w t) = Some c ->
  len (lines (th_acts (w_threads w t))) <=
  match c with CAccept => 3 | CRoute _ | CPackets _ => 1 | _ => 0 end.
Proof.
  intros P oc tr w t c HP X T PR Ec.
  destruct (terse_reached P oc tr w t c HP X T Ec) as [I|[n [_ B]]]; [destruct (log_seen_off P oc tr w t c HP X T PR Ec I)|].
  unfold len. destruct c; cbn [allowance] in B; lia.
Qed.
Print Assumptions C106_few_lines.

(** [accept] stops, having printed three lines, over a datagram cut inside a
    connection id; a call that delivers prints nothing. *)
Definition cut_datagram : list N := [0x80; 0; 0; 0; 0; 2].
Example C106_case :
  (exists tr w, execution real_prims true start tr w /\ well_typed tr /\ public_run tr /\
     th_call (w_threads w 0) = Some CAccept /\ th_prog (w_threads w 0) = Done (RPanic "unwrap on Err") /\
     len (lines (th_acts (w_threads w 0))) = 3) /\
  (exists tr w, execution real_prims true start tr w /\ well_typed tr /\ public_run tr /\
     th_call (w_threads w 0) = Some (CRoute short_77b) /\ th_prog (w_threads w 0) = Done (RUnit (Ok tt)) /\
     ~ failure (RUnit (Ok tt))).
Proof.
  split.
  - assert (S : exists acts k, solo real_prims true bind_socket (entry true CAccept) [] acts k (Done (RPanic "unwrap on Err")) [] /\
      len (lines acts) = 3).
    { eexists _, _. split.
      - cbn [entry accept_prog]. eapply so_data; [apply p_goto|]. cbn [code]. unfold recv_new_initial_datagram, recv_datagram.
        apply so_acq; [intros m []|]. eapply so_data; [apply (p_recv _ _ _ _ (NetDatagram cut_datagram 0))|]. cbn beta iota zeta.
        apply so_acq; [intros m [H|[]]; discriminate H|]. eapply so_data; [apply p_look_log|]. cbn [log_traffic bind_socket].
        apply so_rel. apply so_rel. change (firstn (N.to_nat RECV_BUFFER) cut_datagram) with cut_datagram. cbn [d_data].
        unfold parse. change (next_header_said cut_datagram) with ([0], @Err (packet_header * stream) (InternalError "not enough bytes for var_bytes")).
        cbn [fst snd lift say fold_right]. eapply so_data; [constructor|]. eapply so_data; [constructor|].
        unfold route_datagram, parse. cbn [d_data].
        change (next_header_said cut_datagram) with ([0], @Err (packet_header * stream) (InternalError "not enough bytes for var_bytes")).
        cbn [fst snd lift say fold_right unwrap_or_crash]. eapply so_data; [constructor|].
        apply so_panic. intros l [].
      - reflexivity. }
    destruct S as [acts [k [S L]]].
    destruct (next_call _ _ 0 _ _ _ CAccept _ _ _ (between_start real_prims true 0) I S) as [w1 [X [T [PR [_ [ET _]]]]]].
    eexists _, w1. rewrite ET. repeat (split; [eassumption || reflexivity|]). exact L.
  - destruct C38_route_case as [tr [w [X [T [PR [Ec Ed]]]]]]. exists tr, w. repeat (split; [assumption|]). intros [].
Qed.
