(** The programs of the routing layer meet their specifications under every
    interleaving. *)
From Verif Require Import Base Utils Frame CipherSuite Secrets Connection Packet Routing Threads
  Spec SpecPacket SpecRouting Tactics UtilsFacts HeaderFacts Printing PrintingFacts PacketFacts ConnectionFacts RoutingFacts.
From Verif Require Histories PropDecode.

(** ** Headers, for arbitrary data *)
Lemma read_array_total n msg : forall s,
  (exists bs rest, read_array n msg s = Ok (bs, rest) /\ length bs = n) \/ (exists e, read_array n msg s = Err e).
Proof.
  induction n as [|n IH]; intros s; cbn [read_array]; [left; exists [], s; auto|].
  destruct s as [|b s]; cbn [next bind]; [right; eauto|].
  destruct (IH s) as [[bs [rest [E L]]]|[e E]]; rewrite E; cbn [bind]; [left|right; eauto].
  exists (b :: bs), rest. cbn. auto.
Qed.
Lemma from_datagram_total n msg s :
  (exists x rest, from_datagram n msg s = Ok (x, rest)) \/ (exists e, from_datagram n msg s = Err e).
Proof.
  unfold from_datagram. destruct (read_array_total n msg s) as [[bs [rest [E L]]]|[e E]]; rewrite E; cbn [bind]; [|eauto].
  unfold decode_from_bytes. destruct (_ <? _); cbn [bind]; eauto.
Qed.
Lemma long_total' b s :
  (exists h rest, long_from_stream b s = Ok (h, rest) /\ (lh_version h <> 0 -> lh_dcid_len h <= 20)) \/
  (exists e, long_from_stream b s = Err e).
Proof.
  unfold long_from_stream, u32_from_datagram, u8_from_datagram, VERSION_NEGOTIATION_VERSION_VALUE.
  destruct (from_datagram_total 4 "not enough bytes for u32" s) as [[v [s1 E]]|[e E]]; rewrite E; cbn [bind]; [|eauto].
  destruct (from_datagram_total 1 "not enough bytes for u8" s1) as [[dl [s2 E2]]|[e E2]];
    destruct (N.eqb_spec v 0) as [Z|Z]; cbn [negb]; rewrite E2; cbn [bind]; eauto.
  - rewrite var_bytes_spec. destruct (dl <=? len s2); cbn [bind]; eauto.
    destruct (from_datagram_total 1 "not enough bytes for u8" (skipn (N.to_nat dl) s2)) as [[sl [s3 E3]]|[e E3]];
      rewrite E3; cbn [bind]; eauto.
    rewrite var_bytes_spec. destruct (sl <=? len s3); cbn [bind]; eauto.
    rewrite packet_type_cases. cbn [bind lh_version]. left. do 2 eexists. split; [reflexivity|]. cbn. contradiction.
  - destruct (N.ltb_spec 20 dl); cbn [bind]; eauto.
    destruct (var_u160_total dl s2) as [[d [s3 E3]]|[e E3]]; rewrite E3; cbn [bind]; eauto.
    destruct (from_datagram_total 1 "not enough bytes for u8" s3) as [[sl [s4 E4]]|[e E4]]; rewrite E4; cbn [bind]; eauto.
    destruct (20 <? sl); cbn [bind]; eauto.
    destruct (var_u160_total sl s4) as [[sc [s5 E5]]|[e E5]]; rewrite E5; cbn [bind]; eauto.
    rewrite packet_type_cases. cbn [bind lh_version]. left. do 2 eexists. split; [reflexivity|]. cbn. auto.
Qed.
Lemma next_header_total s :
  (exists h rest t, next_header_from_stream s = Ok (h, rest) /\ get_packet_type h = Ok t /\
     (t = TInitial -> get_destination_id_length h <= 20)) \/
  (exists e, next_header_from_stream s = Err e).
Proof.
  unfold next_header_from_stream. destruct s as [|b s]; cbn [next bind]; [eauto|].
  destruct (N.land b 128 =? 128).
  - destruct (long_total' b s) as [[h [r [E L]]]|[e E]]; rewrite E; cbn [bind]; [|eauto].
    left. exists (HLong h), r. cbn [get_packet_type get_destination_id_length]. rewrite packet_type_cases.
    eexists. split; [reflexivity|]. split; [reflexivity|]. destruct (N.eqb_spec (lh_version h) 0); [discriminate|]. auto.
  - unfold short_from_stream, fixed_len_dcid_from_stream, u64_from_datagram.
    destruct (from_datagram_total 8 "not enough bytes for u64" s) as [[d [s3 E3]]|[e E3]]; rewrite E3; cbn [bind]; [|eauto].
    left. do 3 eexists. split; [reflexivity|]. split; [reflexivity|]. discriminate.
Qed.

(** Reading a header, with what is printed. *)
Lemma parse_header s on_err k :
  (exists h rest t, next_header_from_stream s = Ok (h, rest) /\ get_packet_type h = Ok t /\
     (t = TInitial -> get_destination_id_length h <= 20) /\ parse (next_header_said s) on_err k = k (h, rest)) \/
  (exists e, next_header_from_stream s = Err e /\
     (parse (next_header_said s) on_err k = on_err e \/
      exists i, parse (next_header_said s) on_err k = Print (LogShort i) (on_err e))).
Proof.
  unfold parse. destruct (header_tells s) as [-> T].
  destruct (next_header_total s) as [[h [r [t [E [Et L]]]]]|[e E]]; rewrite E in *; cbn [lift].
  - left. exists h, r, t. repeat split; auto. destruct T as [->|[i [_ [T|T]]]]; try discriminate T. reflexivity.
  - right. exists e. split; [reflexivity|]. destruct T as [->|[i [-> _]]]; [left|right; exists i]; reflexivity.
Qed.
Lemma parse_header_ok s on_err k h rest : next_header_from_stream s = Ok (h, rest) ->
  parse (next_header_said s) on_err k = k (h, rest).
Proof.
  intros E. destruct (parse_header s on_err k) as [[h' [r [t [E' [_ [_ X]]]]]]|[e [E' _]]]; rewrite E in E'; [|discriminate].
  injection E' as <- <-. exact X.
Qed.
(** Reading all packets. *)
Lemma parse_packets oc c s on_err k :
  parse (decode_packets_said oc c s) on_err k = lift (decode_packets oc c s) on_err k \/
  ((forall ps, decode_packets oc c s <> Ok ps) /\
   exists i, parse (decode_packets_said oc c s) on_err k = Print (LogShort i) (lift (decode_packets oc c s) on_err k)).
Proof.
  unfold parse. destruct (packets_tells oc c s) as [-> [->|[i [-> T]]]]; [left; reflexivity|right].
  split; [|exists i; reflexivity]. intros ps E. rewrite E in T. destruct T as [T|T]; discriminate T.
Qed.
Lemma parse_packets_ok oc c s on_err k ps : decode_packets oc c s = Ok ps ->
  parse (decode_packets_said oc c s) on_err k = k ps.
Proof.
  intros E. destruct (parse_packets oc c s on_err k) as [X|[N _]]; [|exfalso; eapply N; eauto]. rewrite X, E. reflexivity.
Qed.
(** What logging prints about a datagram. *)
Definition log_header (s : stream) (p : prog) : prog :=
  say (fst (next_header_said s)) (Print (LogHeader (snd (next_header_said s))) p).
Lemma said_header s p : log_header s p = Print (LogHeader (next_header_from_stream s)) p \/
  exists i, log_header s p = Print (LogShort i) (Print (LogHeader (next_header_from_stream s)) p) /\
    forall x, next_header_from_stream s <> Ok x.
Proof.
  unfold log_header. destruct (header_tells s) as [-> T].
  destruct T as [->|[i [-> H]]]; [left; reflexivity|right; exists i; split; [reflexivity|]].
  intros x E. rewrite E in H. destruct H as [H|H]; discriminate H.
Qed.
(** The cases of the three. *)
Ltac header_cases h rest EH :=
  match goal with |- context [parse (next_header_said ?s) ?oe ?kk] =>
    let X := fresh in
    destruct (parse_header s oe kk) as [[h [rest [?t [EH [?ET [_ X]]]]]]|[?e [EH [X|[?i X]]]]]; rewrite X; clear X; cbv beta iota zeta
  end.
Ltac packets_cases :=
  match goal with |- context [parse (decode_packets_said ?oc ?c ?s) ?oe ?kk] =>
    let X := fresh in destruct (parse_packets oc c s oe kk) as [X|[_ [?i X]]]; rewrite X; clear X; cbv beta iota zeta
  end.
Ltac log_cases EN :=
  match goal with |- context [say (fst (next_header_said ?s)) (Print (LogHeader (snd (next_header_said ?s))) ?p)] =>
    let X := fresh in
    destruct (said_header s p) as [X|[?i [X EN]]]; unfold log_header in X; rewrite X; clear X
  end.

(** ** Bookkeeping *)
Lemma recvs_app a b : recvs (a ++ b) = recvs a ++ recvs b. Proof. apply flat_map_app. Qed.
Lemma sends_app a b : sends (a ++ b) = sends a ++ sends b. Proof. apply flat_map_app. Qed.
Lemma inserts_app a b : inserts (a ++ b) = inserts a ++ inserts b. Proof. apply flat_map_app. Qed.
Lemma removes_app a b : removes (a ++ b) = removes a ++ removes b. Proof. apply flat_map_app. Qed.
Ltac acts :=
  repeat (rewrite recvs_app || rewrite sends_app || rewrite inserts_app || rewrite removes_app);
  cbn [recvs sends inserts removes flat_map app]; rewrite ?app_nil_r.

Lemma looks_app a b : recvs b = [] -> looks (a ++ b) = looks a ++ looks b.
Proof.
  unfold looks. rewrite fold_left_app. generalize (fold_left (fun l a => match a with ARecv _ => [] | ALook T => l ++ [T] | _ => l end) a []).
  assert (X : forall b (l l' : list table), recvs b = [] ->
    fold_left (fun l a => match a with ARecv _ => [] | ALook T => l ++ [T] | _ => l end) b (l ++ l') =
    l ++ fold_left (fun l a => match a with ARecv _ => [] | ALook T => l ++ [T] | _ => l end) b l').
  { induction b0 as [|x b0 IH]; intros l l' R; [reflexivity|].
    destruct x; cbn [fold_left]; cbn in R; try (apply IH; exact R); [|discriminate]. rewrite <- app_assoc. apply IH. exact R. }
  intros l R. rewrite <- (app_nil_r l) at 1. apply X. exact R.
Qed.
Lemma looks_recv a e b : recvs b = [] -> looks (a ++ ARecv e :: b) = looks b.
Proof.
  intros R. change (ARecv e :: b) with ([ARecv e] ++ b). rewrite app_assoc, looks_app by exact R.
  unfold looks at 1. rewrite fold_left_app. reflexivity.
Qed.
Lemma opened_more P oc acts more c : recvs more = [] -> sends more = [] ->
  opened P oc acts c -> opened P oc (acts ++ more) c.
Proof.
  intros R S [pre [data [addr [h [T [mr [E1 [E2 [E3 [E4 [E5 [E6 E7]]]]]]]]]]]].
  exists pre, data, addr, h, T, (mr ++ looks more). rewrite recvs_app, sends_app, R, S, !app_nil_r. repeat split; auto.
  rewrite looks_app, E5 by auto. reflexivity.
Qed.

(** Table entries. *)
Definition entry_ok (P : prims) (oc : bool) (k : u160) (s : qstream) : Prop :=
  exists d l c0, connection_new P oc true V1 d l = Ok c0 /\ q_conn s = set_scid c0 k 8.

Definition loop_inv (P : prims) (oc : bool) (c : scall) (l : label) (acts : list action) : Prop :=
  c = CAccept /\ inserts acts = [] /\ removes acts = [] /\
  match l with
  | LpReceive => Forall2 routed (recvs acts) (sends acts)
  | LpChooseKey s => exists c0, opened P oc acts c0 /\ s = QStream [] c0
  end.

(** What a thread may do to shared data, after having done [acts] in call [c]. *)
Definition effect_ok (P : prims) (oc lg : bool) (c : scall) (acts : list action) (a : action) : Prop :=
  match a with
  | AInsert k s => c = CAccept /\ inserts acts = [] /\
      exists c0 v, opened P oc acts c0 /\ In (ARand (Some v)) acts /\ k = u160_from_u64 v /\
        s = QStream [] (set_scid c0 k 8)
  | ARemove k => c = CDropStream k /\ removes acts = []
  | ASend k d => (exists h, header_is (d_data d) h /\ k = get_destination_id h) /\
      ((c = CRoute d /\ sends acts = []) \/
       (c = CAccept /\ exists pre data addr, recvs acts = pre ++ [NetDatagram data addr] /\ d = seen data addr /\
          Forall2 routed pre (sends acts)))
  | APrint x => lg = true \/ (exists e, x = LogError e) \/ exists i, x = LogShort i
  | _ => True
  end.

(** Arguments of calls: bytes, and logging only if [lg]. *)
Definition call_ok (lg : bool) (c : scall) : Prop :=
  match c with
  | CSetLog true => lg = true
  | CPackets d => bytes_ok (d_data d) /\ len (d_data d) < 2 ^ 63
  | _ => True
  end.

Section Programs.
Variables (P : prims) (oc lg np : bool).
Hypothesis HP : prims_ok P.
Hypothesis quiet : np = true -> lg = false.

Let Q c acts r : Prop := np = true -> contract P oc c acts r.
Let sf c := safe lg np (Q c) (loop_inv P oc c) (effect_ok P oc lg c) (entry_ok P oc).

Ltac ranks := intros [? ?] Hin; cbn in Hin; repeat (destruct Hin as [[= <- <-]|Hin]; [cbn; lia|]); contradiction.
Ltac noex := intros _ ? Hin; cbn in Hin; repeat (destruct Hin as [[= ? ?]|Hin]); contradiction.

Lemma route_safe d k acts c :
  (forall e acts', (forall h, ~ header_is (d_data d) h) \/
       (exists h T, header_is (d_data d) h /\ looks acts' = looks acts ++ [T] /\ get T (get_destination_id h) = None) ->
     recvs acts' = recvs acts -> inserts acts' = inserts acts ->
     removes acts' = removes acts -> sends acts' = sends acts -> sf c (k (Err e)) [] None acts') ->
  (forall h T acts', header_is (d_data d) h -> recvs acts' = recvs acts -> inserts acts' = inserts acts ->
     removes acts' = removes acts -> sends acts' = sends acts ++ [(get_destination_id h, d)] ->
     looks acts' = looks acts ++ [T] -> get T (get_destination_id h) <> None -> sf c (k (Ok tt)) [] None acts') ->
  (np = false -> forall acts', Q c acts' (RPanic "PoisonError")) ->
  (forall acts' h, header_is (d_data d) h -> recvs acts' = recvs acts -> sends acts' = sends acts ->
     effect_ok P oc lg c acts' (ASend (get_destination_id h) d)) ->
  (forall i, (forall h, ~ header_is (d_data d) h) ->
     Q c ((acts ++ [APrintFailed (LogShort i)]) ++ [APanic "failed printing"]) (RPanic "failed printing")) ->
  sf c (route_datagram d k) [] None acts.
Proof.
  intros KE KO KP KS KF. unfold route_datagram.
  match goal with |- sf c (parse (next_header_said (d_data d)) ?f ?g) _ _ _ =>
    destruct (parse_header (d_data d) f g) as [[h [rest [t [E [_ [_ ->]]]]]]|[e [E [->|[i ->]]]]] end.
  2:{ apply KE; auto. left. intros h [r H]. congruence. }
  2:{ assert (NH : forall h, ~ header_is (d_data d) h) by (intros h [r H]; congruence).
      cbn [sf safe]. split; [right; right; eauto|]. split; [apply KE; acts; auto|]. split; [noex|]. apply KF. exact NH. }
  assert (HI : header_is (d_data d) h) by (exists rest; exact E).
  cbn [sf safe]. split; [ranks|]. split; [intros X; apply KP; auto|].
  intros ks ND T EK _. destruct (get T (get_destination_id h)) eqn:G; cbn [safe].
  - split; [rewrite <- EK; apply get_some; eauto|]. split; [apply KS; acts; auto|]. split; [reflexivity|].
    apply (KO h T); auto; acts; auto; [|congruence].
    rewrite <- !app_assoc. apply looks_app. reflexivity.
  - split; [reflexivity|]. apply KE; acts; auto.
    right. exists h, T. repeat split; auto. rewrite <- !app_assoc. apply looks_app. reflexivity.
Qed.

Ltac vacuous := let X := fresh in let Y := fresh in intros X Y; congruence.

Lemma packet_type_dec (t : packet_type) : t = TInitial \/ t <> TInitial.
Proof. destruct t; auto; right; discriminate. Qed.

Lemma receive_safe acts : loop_inv P oc CAccept LpReceive acts ->
  sf CAccept (code P oc LpReceive) [] None (acts ++ [AGoto LpReceive]).
Proof.
  intros [_ [HI [HR HS]]]. unfold code, recv_new_initial_datagram, recv_datagram.
  cbn [sf safe]. split; [ranks|]. split; [vacuous|]. split; [left; reflexivity|].
  intros [sent addr|e].
  2:{ cbn [safe accept_with]. split; [reflexivity|]. split; [reflexivity|]. intros _. cbn [contract]. acts.
      rewrite HI, HR. split; [reflexivity|]. split; [reflexivity|]. eexists. split; [reflexivity|exact HS]. }
  cbn [safe]. split; [ranks|]. split; [vacuous|]. split; [exists Shared; left; reflexivity|].
  intros flag HF. cbn [safe]. split; [reflexivity|].
  unfold RECV_BUFFER. set (data := firstn (N.to_nat 4096) sent). set (d := Datagram data addr).
  (* the rest, after receiving *)
  assert (REST : forall acts1, recvs acts1 = recvs acts ++ [NetDatagram sent addr] -> inserts acts1 = [] ->
    removes acts1 = [] -> sends acts1 = sends acts -> looks acts1 = [] ->
    safe lg np (Q CAccept) (loop_inv P oc CAccept) (effect_ok P oc lg CAccept) (entry_ok P oc)
      (let after ret := if ret : bool then accept_with P oc (IoOk d)
         else route_datagram d (fun r => unwrap_or_crash r (fun _ => Goto LpReceive)) in
       parse (next_header_said (d_data d))
          (fun e => Print (LogError e) (after false))
          (fun '(x, _) => unwrap_or_crash (get_packet_type x) (fun packet_type =>
             match packet_type with
             | TInitial =>
                 Acq LStreams Shared (LookTable (fun T =>
                   Rel LStreams (after (negb (contains_key T (get_destination_id x))))))
             | _ => after false
             end))) [] None acts1).
  { intros acts1 R1 I1 M1 S1 L1. cbv zeta.
    assert (ROUTE : forall acts2, recvs acts2 = recvs acts ++ [NetDatagram sent addr] -> inserts acts2 = [] ->
      removes acts2 = [] -> sends acts2 = sends acts ->
      (looks acts2 = [] /\ (forall h, header_is data h -> get_packet_type h <> Ok TInitial)) \/
      (exists T1, looks acts2 = [T1] /\ forall h, header_is data h -> get_packet_type h = Ok TInitial /\ get T1 (get_destination_id h) <> None) ->
      sf CAccept (route_datagram d (fun r => unwrap_or_crash r (fun _ => Goto LpReceive))) [] None acts2).
    { intros acts2 R2 I2 M2 S2 L2. apply route_safe.
      - intros e acts3 U R3 I3 M3 S3. cbn. split; [noex|]. intros _. cbn [contract]. acts. rewrite R3, I3, M3, S3, R2, I2, M2, S2.
        split; [reflexivity|]. right. right. split; [reflexivity|]. exists (recvs acts), sent, addr.
        split; [reflexivity|]. split; [exact HS|]. cbn in U. fold data.
        destruct U as [U|[h [T [U1 [U2 U3]]]]]; [left; exact U|right]. exists h. split; [exact U1|].
        rewrite (looks_app acts3 [APanic _]) by reflexivity. rewrite app_nil_r, U2.
        destruct L2 as [[-> N]|[T1 [-> N]]]; [left|right].
        + split; [exact (N h U1)|]. exists T. auto.
        + destruct (N h U1). split; [auto|]. exists T1, T. auto.
      - intros h T acts3 HH R3 I3 M3 S3 _ _. cbn. split; [reflexivity|]. unfold loop_inv. rewrite R3, I3, M3, S3, R2, I2, M2, S2.
        repeat split; auto. apply Forall2_app; auto. constructor; [|constructor].
        exists h. split; [exact HH|reflexivity].
      - intros X a Y. congruence.
      - intros acts3 h HH R3 S3. split; [eauto|]. right. split; [reflexivity|]. exists (recvs acts), sent, addr.
        rewrite R3, S3, R2, S2. auto.
      - intros i NH _. cbn [contract]. acts. rewrite R2, I2, M2, S2. split; [reflexivity|]. right. right. split; [reflexivity|].
        exists (recvs acts), sent, addr. split; [reflexivity|]. split; [exact HS|]. left. exact NH. }
    change (d_data d) with data.
    assert (STRAY : forall e x acts2, next_header_from_stream data = Err e -> recvs acts2 = recvs acts1 -> inserts acts2 = inserts acts1 ->
      removes acts2 = removes acts1 -> sends acts2 = sends acts1 -> Q CAccept ((acts2 ++ [APrintFailed x]) ++ [APanic "failed printing"]) (RPanic "failed printing")).
    { intros e x acts2 E R2 I2 M2 S2 _. cbn [contract]. acts. rewrite R2, I2, M2, S2, R1, I1, M1, S1. split; [reflexivity|]. right. right. split; [reflexivity|].
      exists (recvs acts), sent, addr. split; [reflexivity|]. split; [exact HS|]. left. intros h [r H]. fold data in H. congruence. }
    assert (BAD : forall e acts2, next_header_from_stream data = Err e -> recvs acts2 = recvs acts1 -> inserts acts2 = inserts acts1 ->
      removes acts2 = removes acts1 -> sends acts2 = sends acts1 -> looks acts2 = [] ->
      safe lg np (Q CAccept) (loop_inv P oc CAccept) (effect_ok P oc lg CAccept) (entry_ok P oc)
        (Print (LogError e) (route_datagram d (fun r => unwrap_or_crash r (fun _ => Goto LpReceive)))) [] None acts2).
    { intros e acts2 E R2 I2 M2 S2 L2. cbn [safe]. split; [right; left; eauto|]. split; [|split; [noex|apply (STRAY e); auto]].
      apply ROUTE; acts; rewrite ?R2, ?I2, ?M2, ?S2; auto. left. split; [rewrite looks_app, L2 by reflexivity; reflexivity|].
      intros h [r H]. fold data in H. congruence. }
    match goal with |- safe _ _ _ _ _ _ (parse (next_header_said data) ?f ?g) _ _ _ =>
      destruct (parse_header data f g) as [[h [rest [t [E [Et [L ->]]]]]]|[e [E [->|[i ->]]]]] end.
    2:{ apply BAD; auto. }
    2:{ cbn [safe]. split; [right; right; eauto|]. split; [|split; [noex|apply (STRAY e); auto]].
        apply BAD; acts; auto. rewrite looks_app, L1 by reflexivity. reflexivity. }
    unfold unwrap_or_crash at 1. rewrite Et. cbn [lift].
    destruct (packet_type_dec t) as [->|NT].
    2:{ replace (match t with TInitial => _ | _ => _ end) with (route_datagram d (fun r => unwrap_or_crash r (fun _ => Goto LpReceive)))
          by (destruct t; congruence).
        apply ROUTE; auto. left. split; [exact L1|]. intros h' [r' H']. rewrite E in H'. injection H' as <- <-. congruence. }
    cbn [safe]. split; [ranks|]. split; [vacuous|]. intros ks ND T EK _. split; [reflexivity|].
    destruct (contains_key T (get_destination_id h)) eqn:CK; cbn [negb].
    { apply ROUTE; acts; auto. right. exists T. rewrite <- !app_assoc, looks_app, L1 by reflexivity. split; [reflexivity|].
      intros h' [r' H']. rewrite E in H'. injection H' as <- <-. split; [exact Et|]. unfold contains_key in CK. destruct (get T (get_destination_id h)); congruence. }
    unfold accept_with. change (d_data d) with data. rewrite (parse_header_ok _ _ _ _ _ E).
    destruct (connection_new_ok P oc true (get_destination_id h) (get_destination_id_length h) HP (L eq_refl)) as [c0 EC].
    unfold unwrap_or_crash. rewrite EC. cbn [lift safe]. split; [reflexivity|]. unfold loop_inv. acts.
    rewrite I1, M1. repeat split; auto. exists c0. split; [|reflexivity].
    exists (recvs acts), sent, addr, h, T, []. acts. rewrite R1, S1. repeat split; auto; try (exists rest; exact E).
    - rewrite <- !app_assoc, looks_app, L1 by reflexivity. reflexivity.
    - unfold contains_key in CK. destruct (get T (get_destination_id h)); [discriminate|reflexivity]. }
  destruct flag; cbn [safe].
  - assert (np = false) by (destruct np; auto; rewrite quiet in HF by auto; discriminate (HF eq_refl)).
    assert (LG : lg = true) by auto.
    match goal with |- sf _ (say _ (Print _ ?p)) _ _ _ => fold (log_header data p); destruct (said_header data p) as [->|[i [-> _]]] end; cbn [sf safe].
    + split; [left; auto|]. split; [|split; [congruence|intros Y; congruence]]. split; [reflexivity|]. apply REST; acts; auto; rewrite ?HI, ?HR; auto; unfold looks; rewrite !fold_left_app; reflexivity.
    + split; [left; auto|]. split; [|split; [congruence|intros Y; congruence]].
      split; [left; auto|]. split; [|split; [congruence|intros Y; congruence]]. split; [reflexivity|]. apply REST; acts; auto; rewrite ?HI, ?HR; auto; unfold looks; rewrite !fold_left_app; reflexivity.
  - split; [reflexivity|]. apply REST; acts; auto; rewrite ?HI, ?HR; auto; unfold looks; rewrite !fold_left_app; reflexivity.
Qed.

Lemma choose_safe s acts : loop_inv P oc CAccept (LpChooseKey s) acts ->
  sf CAccept (code P oc (LpChooseKey s)) [] None (acts ++ [AGoto (LpChooseKey s)]).
Proof.
  intros [_ [HI [HR [c0 [O ->]]]]]. unfold code, choose_key, get_connection_id.
  cbn [sf safe]. intros [v|].
  2:{ cbn [safe]. split; [noex|]. intros _. cbn [contract]. acts. rewrite HI, HR. split; [reflexivity|]. right. left.
      split; [reflexivity|]. split; [rewrite <- !app_assoc; apply in_or_app; right; cbn; auto|].
      exists c0. do 3 (apply opened_more; [reflexivity|reflexivity|]). exact O. }
  cbn [safe]. split; [ranks|]. split; [vacuous|]. intros ks ND T EK EN.
  set (key := u160_from_u64 v).
  destruct (contains_key T key) eqn:CK; cbn [negb safe q_queue q_conn].
  - split; [reflexivity|]. split; [reflexivity|]. unfold loop_inv. acts. rewrite HI, HR. repeat split; auto.
    exists c0. split; [|reflexivity]. rewrite <- !app_assoc. apply opened_more; auto.
  - split; [ranks|]. split; [vacuous|]. split; [reflexivity|]. split; [left; reflexivity|].
    split; [rewrite <- EK; apply contains_key_out; exact CK|].
    split.
    { split; [reflexivity|]. split; [acts; exact HI|]. exists c0, v. split; [rewrite <- !app_assoc; apply opened_more; auto|].
      split; [rewrite <- !app_assoc; apply in_or_app; right; cbn; auto|]. split; reflexivity. }
    split; [reflexivity|].
    assert (DONE : forall w more, recvs more = [] -> sends more = [] -> inserts more = [(key, QStream [] (set_scid c0 key 8))] ->
      removes more = [] -> Q CAccept (acts ++ more) (RPanic w)).
    { intros w more M1 M2 M3 M4 _. cbn [contract]. acts. rewrite HI, HR, M3, M4. split; [reflexivity|]. left.
      exists key, c0. split; [apply opened_more; auto|reflexivity]. }
    split; [ranks|]. split.
    { intros X Y. congruence. }
    intros ks2 ND2 T2 EK2 EN2. destruct (get T2 key); cbn [safe].
    + split; [reflexivity|]. split; [noex|]. rewrite <- !app_assoc. apply DONE; reflexivity.
    + split; [noex|]. rewrite <- !app_assoc. apply DONE; reflexivity.
Qed.

Lemma entry_reachable k s : entry_ok P oc k s -> exists d l kr,
  Histories.reachable P oc true d l (q_conn s) /\ remote_keys P oc (q_conn s) SpInitial kr.
Proof.
  intros [d [l [c0 [E ->]]]].
  assert (R : Histories.reachable P oc true d l (set_scid c0 k 8)) by (exists c0, [Histories.CSetScid k 8]; split; auto).
  pose proof (reachable_inv _ _ _ _ _ _ HP R) as I. destruct (ci_keys _ _ _ _ _ _ I) as [cid [kl [kr [_ [_ [_ [_ K]]]]]]].
  exists d, l, kr. auto.
Qed.

Lemma decode_not_diverge k s data : entry_ok P oc k s -> bytes_ok data -> len data < 2 ^ 63 ->
  decode_packets oc (q_conn s) data <> Diverge.
Proof.
  intros E B L. destruct (entry_reachable k s E) as [d [l [kr [R K]]]].
  destruct (PropDecode.C24_datagram_exact P oc true d l (q_conn s) kr data HP R K B L) as [[_ [w X]]|[_ [[ps X]|[e X]]]];
    rewrite X; discriminate.
Qed.

Lemma packets_safe d : bytes_ok (d_data d) -> len (d_data d) < 2 ^ 63 ->
  sf (CPackets d) (entry oc (CPackets d)) [] None [].
Proof.
  intros B L. unfold entry, packets_from_datagram.
  match goal with |- sf _ (parse (next_header_said (d_data d)) ?f ?g) _ _ _ =>
    destruct (parse_header (d_data d) f g) as [[h [rest [t [E [_ [_ ->]]]]]]|[e [E [->|[i ->]]]]] end.
  2:{ cbn [sf safe]. split; [reflexivity|]. intros _. cbn [contract]. acts. repeat split; auto.
      left. exists e. split; [|reflexivity]. left. intros h [r H]. congruence. }
  2:{ cbn [sf safe]. split; [right; right; eauto|]. split; [|split; [noex|]].
      - split; [reflexivity|]. intros _. cbn [contract]. acts. repeat split; auto.
        left. exists e. split; [|reflexivity]. left. intros h [r H]. congruence.
      - intros _. cbn [contract]. acts. repeat split; auto. right. right. split; [reflexivity|]. split; [exists i; cbn; auto|].
        left. intros h [r H]. congruence. }
  assert (HI : header_is (d_data d) h) by (exists rest; exact E).
  cbn [sf safe]. split; [ranks|]. split; [vacuous|]. intros ks ND T EK EN.
  destruct (get T (get_destination_id h)) as [q|] eqn:G; cbn [safe].
  2:{ split; [reflexivity|]. split; [reflexivity|]. intros _. cbn [contract]. acts. repeat split; auto.
      left. eexists. split; [|reflexivity]. right. exists h, T. cbn. auto 6. }
  pose proof (EN _ _ (get_in _ _ _ G)) as EQ.
  split; [ranks|]. split; [vacuous|].
  pose proof (decode_not_diverge _ _ (d_data d) EQ B L) as ND'.
  assert (FIN : forall more r, recvs more = [] -> sends more = [] -> inserts more = [] -> removes more = [] ->
     looks more = [T] ->
     match decode_packets oc (q_conn q) (d_data d) with Panic w => r = RPanic w | x => r = RPackets x end ->
     Q (CPackets d) more r).
  { intros more r M1 M2 M3 M4 M5 M6 _. cbn [contract]. rewrite M1, M2, M3, M4. repeat split; auto.
    destruct (decode_packets oc (q_conn q) (d_data d)) eqn:D; try contradiction; subst r;
      right; left; exists h, T, q; rewrite D; auto 7. }
  cbv zeta. match goal with |- sf _ (parse (decode_packets_said oc (q_conn q) (d_data d)) ?f ?g) ?hd ?kn ?ac =>
    assert (LIFT : forall acts2, recvs acts2 = [] -> sends acts2 = [] -> inserts acts2 = [] -> removes acts2 = [] -> looks acts2 = [T] ->
      sf (CPackets d) (lift (decode_packets oc (q_conn q) (d_data d)) f g) hd kn acts2);
    [|destruct (parse_packets oc (q_conn q) (d_data d) f g) as [->|[NO [i ->]]]; [apply LIFT; reflexivity|]] end.
  { intros acts2 R2 S2 I2 M2 L2.
    assert (MORE : forall m, recvs m = [] -> sends m = [] -> inserts m = [] -> removes m = [] -> looks m = [] ->
      recvs (acts2 ++ m) = [] /\ sends (acts2 ++ m) = [] /\ inserts (acts2 ++ m) = [] /\ removes (acts2 ++ m) = [] /\ looks (acts2 ++ m) = [T]).
    { intros m X1 X2 X3 X4 X5. rewrite recvs_app, sends_app, inserts_app, removes_app, looks_app, R2, S2, I2, M2, L2, X1, X2, X3, X4, X5 by auto. auto. }
    destruct (decode_packets oc (q_conn q) (d_data d)) as [rv|e|w|] eqn:D; [..|contradiction]; cbn [lift sf safe].
    - do 2 (split; [reflexivity|]). split; [ranks|]. split; [vacuous|]. split; [exists Shared; left; reflexivity|].
      intros flag HF. split; [reflexivity|]. destruct flag; cbn [safe].
      + assert (np = false) by (destruct np; auto; rewrite quiet in HF by auto; discriminate (HF eq_refl)).
        split; [left; auto|]. split; [split; [reflexivity|]|split; [congruence|intros Y; congruence]]. intros Y. congruence.
      + split; [reflexivity|]. rewrite <- !app_assoc. apply FIN; try reflexivity; apply MORE; reflexivity.
    - do 2 (split; [reflexivity|]). split; [reflexivity|]. rewrite <- !app_assoc. apply FIN; try reflexivity; apply MORE; reflexivity.
    - split; [noex|]. apply FIN; try reflexivity; apply MORE; reflexivity. }
  cbn [sf safe]. split; [right; right; eauto|]. split; [apply LIFT; reflexivity|]. split; [noex|].
  intros _. cbn [contract]. acts. repeat split; auto. right. right. split; [reflexivity|]. split; [exists i; cbn; auto|].
  right. exists h, T, q. repeat split; auto.
Qed.

Lemma entries_safe c : call_ok lg c -> sf c (entry oc c) [] None [].
Proof.
  intros A. destruct c.
  - cbn. split; [reflexivity|]. repeat split; auto. constructor.
  - cbn. split; [noex|]. intros _. repeat split; auto.
  - cbn. split; [reflexivity|]. intros _. cbn. auto.
  - cbn [sf entry drop_prog safe]. split; [ranks|]. split; [vacuous|]. intros ks ND. split; [left; reflexivity|].
    split; [split; reflexivity|]. split; [reflexivity|]. split; [reflexivity|]. intros _. cbn. auto 10.
  - unfold entry. apply route_safe.
    + intros e acts U R I M S. cbn [sf safe]. split; [reflexivity|]. intros _. cbn [contract]. rewrite R, I, M, S. auto 10.
    + intros h T acts H R I M S LK G. cbn [sf safe]. split; [reflexivity|]. intros _. cbn [contract]. rewrite R, I, M, S.
      repeat split; auto. exists h, T. auto.
    + intros X a Y. congruence.
    + intros acts h HH R S. split; [eauto|]. left. auto.
    + intros i NH _. cbn [contract]. acts. repeat split; auto. exists i. cbn. auto.
  - destruct A. apply packets_safe; auto.
  - cbn [sf entry set_log_prog safe]. split; [ranks|]. split; [vacuous|]. split; [left; reflexivity|].
    split; [destruct b; auto; discriminate|]. split; [reflexivity|]. split; [reflexivity|]. intros _. cbn. auto 10.
Qed.

Lemma loops_safe c l acts : loop_inv P oc c l acts -> sf c (code P oc l) [] None (acts ++ [AGoto l]).
Proof.
  intros H. assert (c = CAccept) as -> by apply H. destruct l; [apply receive_safe|apply choose_safe]; exact H.
Qed.

Lemma insert_entry_ok c acts k s : effect_ok P oc lg c acts (AInsert k s) -> entry_ok P oc k s.
Proof.
  intros [_ [_ [c0 [v [[pre [data [addr [h [T [mr [_ [_ [_ [_ [_ [_ E]]]]]]]]]]]] [_ [_ ->]]]]]]].
  do 3 eexists. split; [exact E|reflexivity].
Qed.
Lemma send_entry_ok k s d : entry_ok P oc k s -> entry_ok P oc k (QStream (q_queue s ++ [d]) (q_conn s)).
Proof. intros X. exact X. Qed.

(** The invariant holds in every reachable state. *)
Theorem reachable_winv tr w : execution P oc start tr w -> calls_ok (call_ok lg) tr ->
  winv lg np Q (loop_inv P oc) (effect_ok P oc lg) (entry_ok P oc) w.
Proof.
  intros X C. eapply run_winv; eauto.
  - apply entries_safe.
  - apply loops_safe.
  - apply insert_entry_ok.
Qed.

End Programs.
