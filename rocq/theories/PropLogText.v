(** C113: the log can be read back, and its text cannot be forged. *)
From Coq Require Import Lia.
From Verif Require Import Base Utils Frame CipherSuite Secrets Connection Packet Printing Routing Threads
  Spec SpecPacket SpecRouting Tactics RoutingFacts RoutingSafe SoloFacts SampleRuns CryptoInst LogText LogTextFacts.

(** What a line on the standard output tells its reader. *)
Inductive logged :=
| SawHeader (h : packet_header)     (* a datagram that begins with this header *)
| SawUnreadable (e : error)         (* a datagram without a readable header *)
| SawPackets (ps : list packet)     (* these packets were decoded *)
| SawShort (i : N).                 (* a read ended after this many bytes *)
Definition seen (x : line) : list logged :=
  match x with
  | LogHeader (Ok (h, _)) => [SawHeader h]
  | LogHeader (Err e) => [SawUnreadable e]
  | LogPackets ps => [SawPackets ps]
  | LogShort i => [SawShort i]
  | _ => []
  end.

(** ** Lines *)
Definition plain (c : ascii) : bool := negb (Ascii.eqb c newline).
Lemma plain_all (p : ascii -> bool) l : (forall c, p c = true -> plain c = true) -> forallb p l = true -> forallb plain l = true.
Proof. intros H F. rewrite forallb_forall in *. auto. Qed.
Lemma word_plain c : is_word c = true -> plain c = true.
Proof.
  intros H. assert (A : forallb (fun c => negb (is_word c) || plain c) all_chars = true) by (vm_compute; reflexivity).
  rewrite forallb_forall in A. specialize (A c (all_chars_in c)). rewrite H in A. exact A.
Qed.
Lemma digit_plain c : is_digit c = true -> plain c = true.
Proof. intros H. apply word_plain. unfold is_word. rewrite H, orb_true_r. reflexivity. Qed.
Lemma ident_plain name : ident name = true -> forallb plain (chars name) = true.
Proof. intros H. destruct (ident_spec _ H) as [_ [_ [_ [_ F]]]]. exact (plain_all _ _ word_plain F). Qed.
Lemma escape_plain c : forallb plain (escape c) = true.
Proof.
  assert (A : forallb (fun c => forallb plain (escape c)) all_chars = true) by (vm_compute; reflexivity).
  rewrite forallb_forall in A. exact (A c (all_chars_in c)).
Qed.
Lemma join_plain l : Forall (fun x => forallb plain x = true) l -> forallb plain (join l) = true.
Proof.
  induction l as [|x [|y l] IH]; intros F; inversion F as [|? ? Hx Fl]; subst; [reflexivity|exact Hx|].
  change (forallb plain (x ++ chars ", " ++ join (y :: l)) = true). rewrite forallb_app, Hx. cbn [andb]. exact (IH Fl).
Qed.
Lemma number_plain n : forallb plain (number n) = true.
Proof. exact (plain_all _ _ digit_plain (digits_digit _)). Qed.
Lemma render_plain d : named d = true -> forallb plain (render d) = true.
Proof.
  induction d as [n|s|s|s x IHx|s fs IHf|xs IHl] using dbg_rect'; cbn [named render]; intros W.
  - apply number_plain.
  - cbn [forallb]. rewrite forallb_app. cbn. rewrite andb_true_r. induction (chars s) as [|c l IH]; [reflexivity|].
    cbn [flat_map]. rewrite forallb_app, escape_plain. exact IH.
  - apply ident_plain. exact W.
  - apply andb_prop in W as [W X]. rewrite forallb_app, (ident_plain _ W). cbn [forallb]. rewrite forallb_app, (IHx X). reflexivity.
  - apply andb_prop in W as [W X]. apply andb_prop in W as [W _]. rewrite !forallb_app, (ident_plain _ W).
    change (forallb plain (chars " { ")) with true. change (forallb plain (chars " }")) with true. cbn [andb]. rewrite andb_true_r.
    apply join_plain. apply Forall_forall. intros t H. apply in_map_iff in H as [[k v] [<- H]].
    rewrite Forall_forall in IHf. rewrite forallb_forall in X. specialize (X _ H). apply andb_prop in X as [XK XV].
    specialize (IHf _ H XV). cbn [snd] in IHf. rewrite !forallb_app, (ident_plain _ XK), IHf. reflexivity.
  - cbn [forallb]. rewrite forallb_app. cbn [forallb]. change (plain "["%char) with true. change (plain "]"%char) with true. rewrite andb_true_r. cbn [andb].
    apply join_plain. apply Forall_forall. intros t H. apply in_map_iff in H as [x [<- H]].
    rewrite Forall_forall in IHl. rewrite forallb_forall in W. auto.
Qed.

Lemma some_eq {A} (a b : A) : Some a = Some b -> a = b.
Proof. congruence. Qed.
Lemma text_plain x t : line_text x = Some t -> forallb plain t = true.
Proof.
  destruct x as [r|ps|e|i]; cbn [line_text].
  - destruct r as [[h s]|e|w|]; cbn [header_text]; intros E; try discriminate E; apply some_eq in E as <-; apply render_plain.
    + exact (proj1 faithful_packet_header h).
    + exact (proj1 faithful_error e).
  - intros E; apply some_eq in E as <-. apply render_plain. exact (proj1 (faithful_map _ faithful_packet) ps).
  - intros E; apply some_eq in E as <-. apply render_plain. exact (proj1 faithful_error e).
  - intros E; apply some_eq in E as <-. rewrite forallb_app, number_plain. reflexivity.
Qed.

Lemma one_eq a b x y : DOne a x = DOne b y -> a = b /\ x = y.
Proof. intros [= -> ->]. auto. Qed.
Lemma render_inj d d' : named d = true -> named d' = true -> render d = render d' -> d = d'.
Proof. intros W W' E. apply (render_cut d d' [] []); try exact I; auto. rewrite E. reflexivity. Qed.

(** A line's text determines what was logged. *)
Lemma text_seen x y t : on_stdout x = true -> on_stdout y = true -> line_text x = Some t -> line_text y = Some t -> seen x = seen y.
Proof.
  intros OX OY EX EY.
  destruct x as [r|ps|e|i]; try discriminate OX; destruct y as [r'|ps'|e'|i']; try discriminate OY; clear OX OY; cbn [line_text] in EX, EY.
  - destruct r as [[h s]|e|w|]; cbn [header_text] in EX; try discriminate EX; apply some_eq in EX as <-;
    destruct r' as [[h' s']|e'|w'|]; cbn [header_text] in EY; try discriminate EY; apply some_eq in EY;
    apply render_inj in EY; try exact (proj1 faithful_packet_header _); try exact (proj1 faithful_error _);
    apply one_eq in EY as [EN EV]; try discriminate EN; cbn [seen].
    + apply (proj2 faithful_packet_header) in EV as ->. reflexivity.
    + apply (proj2 faithful_error) in EV as ->. reflexivity.
  - destruct r as [[h s]|e|w|]; cbn [header_text] in EX; try discriminate EX; apply some_eq in EX as <-; apply some_eq in EY; discriminate EY.
  - destruct r as [[h s]|e|w|]; cbn [header_text] in EX; try discriminate EX; apply some_eq in EX as <-; apply some_eq in EY; discriminate EY.
  - destruct r' as [[h s]|e|w|]; cbn [header_text] in EY; try discriminate EY; apply some_eq in EX as <-; apply some_eq in EY; discriminate EY.
  - apply some_eq in EX as <-. apply some_eq in EY. apply render_inj in EY; try exact (proj1 (faithful_map _ faithful_packet) _).
    apply (proj2 (faithful_map _ faithful_packet)) in EY as ->. reflexivity.
  - apply some_eq in EX as <-. apply some_eq in EY. discriminate EY.
  - destruct r' as [[h s]|e|w|]; cbn [header_text] in EY; try discriminate EY; apply some_eq in EX as <-; apply some_eq in EY; discriminate EY.
  - apply some_eq in EX as <-. apply some_eq in EY. discriminate EY.
  - apply some_eq in EX as <-. apply some_eq in EY. apply app_inv_head in EY. apply number_inj in EY as ->. reflexivity.
Qed.

Lemma seen_off x : on_stdout x = false -> seen x = [].
Proof. destruct x; try discriminate; reflexivity. Qed.
Lemma seen_one x t : on_stdout x = true -> line_text x = Some t -> exists y, seen x = [y].
Proof.
  destruct x as [[[h s]|e|w|]|ps|e|i]; cbn; intros O E; try discriminate O; try discriminate E; eauto.
Qed.

(** The first line of an output. *)
Definition first_line (xs : list line) (t : text) : Prop :=
  (flat_map seen xs = [] /\ t = []) \/
  exists x ys lt rest, flat_map seen xs = seen x ++ flat_map seen ys /\ on_stdout x = true /\
    line_text x = Some lt /\ stdout ys = Some rest /\ (List.length ys < List.length xs)%nat /\ t = lt ++ newline :: rest.
Lemma stdout_first : forall xs t, stdout xs = Some t -> first_line xs t.
Proof.
  induction xs as [|x xs IH]; cbn [stdout]; intros t E.
  - injection E as <-. left. auto.
  - destruct (on_stdout x) eqn:O.
    + destruct (line_text x) as [lx|] eqn:EL; [|discriminate E]. destruct (stdout xs) as [rest|] eqn:ER; [|discriminate E].
      apply some_eq in E as <-. right. exists x, xs, lx, rest. repeat split; auto.
    + destruct (IH t E) as [[H ->]|[y [ys [lt [rest [H1 [H2 [H3 [H4 [H5 ->]]]]]]]]]].
      * left. cbn [flat_map]. rewrite (seen_off x O), H. auto.
      * right. exists y, ys, lt, rest. cbn [flat_map]. rewrite (seen_off x O). repeat split; auto. cbn [List.length]. lia.
Qed.
Lemma stdout_seen : forall n xs ys t, (List.length xs <= n)%nat -> stdout xs = Some t -> stdout ys = Some t -> flat_map seen xs = flat_map seen ys.
Proof.
  induction n as [|n IH]; intros xs ys t L EX EY;
  destruct (stdout_first _ _ EX) as [[H ->]|[x [xs' [lt [rest [H1 [H2 [H3 [H4 [H5 ->]]]]]]]]]];
  destruct (stdout_first _ _ EY) as [[H' E]|[y [ys' [lt' [rest' [H1' [H2' [H3' [H4' [H5' E]]]]]]]]]];
  try congruence; try (exfalso; destruct lt; discriminate E); try (exfalso; destruct lt'; discriminate E); try lia.
  pose proof (text_plain _ _ H3) as P1. pose proof (text_plain _ _ H3') as P2.
  destruct (span_cut plain lt lt' (newline :: rest) (newline :: rest') P1 P2 eq_refl eq_refl E) as [-> E'].
  injection E' as <-. rewrite H1, H1'. rewrite (text_seen _ _ _ H2 H2' H3 H3'). f_equal. eapply IH; eauto. lia.
Qed.

(** ** What a call logs about a datagram comes from the datagram it received *)
Fixpoint logs (last : option (list N)) (p : prog) : Prop :=
  match p with
  | Done _ | Crash _ | Hang | Goto _ => True
  | Print x p =>
      match x with
      | LogHeader r => exists d, last = Some d /\ r = next_header_from_stream d
      | _ => True
      end /\ logs last p
  | Acq _ _ p | Rel _ p | Insert _ _ p | Remove _ p | Send _ _ p | SetLog _ p => logs last p
  | LookTable f => forall T, logs last (f T)
  | LookLog f => forall b, logs last (f b)
  | RecvFrom f => forall ev,
      logs (match ev with NetDatagram sent _ => Some (firstn (N.to_nat 4096) sent) | NetError _ => None end) (f ev)
  | Rand f => forall r, logs last (f r)
  end.

Lemma loop_logs P oc l last : logs last (code P oc l).
Proof.
  destruct l; cbn [code].
  - unfold recv_new_initial_datagram, recv_datagram. cbn [logs].
    intros [sent addr|e]; cbn [logs accept_with]; auto. change RECV_BUFFER with 4096. set (d := firstn (N.to_nat 4096) sent).
    assert (ROUTE : logs (Some d) (route_datagram (Datagram d addr) (fun r => unwrap_or_crash r (fun _ => Goto LpReceive)))).
    { unfold route_datagram. cbn [d_data]. header_cases h r EH; cbn; auto. intros T. destruct (get T (get_destination_id h)); cbn; auto. }
    assert (REST : logs (Some d) (parse (next_header_said (d_data (Datagram d addr)))
          (fun e => Print (LogError e) (route_datagram (Datagram d addr) (fun r => unwrap_or_crash r (fun _ => Goto LpReceive))))
          (fun '(x, _) => unwrap_or_crash (get_packet_type x) (fun packet_type =>
             match packet_type with
             | TInitial =>
                 Acq LStreams Shared (LookTable (fun T =>
                   Rel LStreams (if negb (contains_key T (get_destination_id x)) then accept_with P oc (IoOk (Datagram d addr))
                     else route_datagram (Datagram d addr) (fun r => unwrap_or_crash r (fun _ => Goto LpReceive)))))
             | _ => route_datagram (Datagram d addr) (fun r => unwrap_or_crash r (fun _ => Goto LpReceive))
             end)))).
    { header_cases x r EH; cbn [logs]; auto. unfold unwrap_or_crash at 1. rewrite ET. cbn [lift]. destruct t; auto.
      cbn [logs]. intros T. destruct (negb _); auto. cbn [accept_with d_data]. cbn [d_data] in EH. rewrite (parse_header_ok _ _ _ _ _ EH). unfold unwrap_or_crash.
      destruct (connection_new _ _ _ _ _ _); cbn; auto. }
    intros [|]; cbn [logs]; auto. log_cases EN; cbn [logs]; eauto 6.
  - unfold choose_key, get_connection_id. cbn [logs]. intros [v|]; cbn [logs]; auto. intros T.
    destruct (negb _); cbn [logs]; auto. intros T'. destruct (get T' _); cbn; auto.
Qed.
Lemma entry_logs oc c last : logs last (entry oc c).
Proof.
  destruct c; cbn [entry accept_prog connect_prog drop_prog set_log_prog logs]; auto.
  - unfold route_datagram. header_cases h r EH; cbn; auto. intros T. destruct (get T (get_destination_id h)); cbn; auto.
  - unfold packets_from_datagram. header_cases h r EH; cbn [logs]; auto.
    intros T. destruct (get T (get_destination_id h)) as [q|]; cbn [logs]; auto.
    packets_cases; cbn [logs]; try (split; [exact I|]); (destruct (decode_packets oc _ _); cbn [lift logs]; auto; intros [|]; cbn; auto).
Qed.

(** [d] is a datagram that thread [t] received, cut to the buffer. *)
Definition received (tr : list (N * action)) (t : N) (d : list N) : Prop :=
  exists sent addr, In (t, ARecv (NetDatagram sent addr)) tr /\ d = firstn (N.to_nat 4096) sent.
Definition arrived (tr : list (N * action)) (x : line) : Prop :=
  match x with
  | LogHeader r => exists t d, received tr t d /\ r = next_header_from_stream d
  | _ => True
  end.
Lemma received_app tr t d more : received tr t d -> received (tr ++ more) t d.
Proof. intros [s [a [H E]]]. exists s, a. split; [apply in_or_app; auto|exact E]. Qed.
Lemma arrived_app tr x more : arrived tr x -> arrived (tr ++ more) x.
Proof. destruct x; cbn; auto. intros [t [d [H E]]]. exists t, d. split; [apply received_app; exact H|exact E]. Qed.

Lemma logs_inv P oc tr w : execution P oc start tr w ->
  (forall t, exists last, logs last (th_prog (w_threads w t)) /\ (forall d, last = Some d -> received tr t d)) /\
  Forall (arrived tr) (printed (w_sock w)).
Proof.
  intros X. induction X as [|tr w t a w' X [IHt IHp] S].
  { split; [|constructor]. intros t. exists None. split; [exact I|discriminate]. }
  assert (OLD : Forall (arrived (tr ++ [(t, a)])) (printed (w_sock w))).
  { eapply Forall_impl; [|exact IHp]. intros x. apply arrived_app. }
  assert (KEEP : forall t', exists last, logs last (th_prog (w_threads w t')) /\ (forall d, last = Some d -> received (tr ++ [(t, a)]) t' d)).
  { intros t'. destruct (IHt t') as [last [L R]]. exists last. split; [exact L|]. intros d E. apply received_app. auto. }
  assert (SET : forall th w1, (exists last, logs last (th_prog th) /\ (forall d, last = Some d -> received (tr ++ [(t, a)]) t d)) ->
    w_threads w1 = set_thread (w_threads w) t th ->
    forall t', exists last, logs last (th_prog (w_threads w1 t')) /\ (forall d, last = Some d -> received (tr ++ [(t, a)]) t' d)).
  { intros th w1 H E t'. rewrite E. destruct (N.eq_dec t' t) as [->|N]; [rewrite set_thread_same; exact H|rewrite set_thread_other by auto; apply KEEP]. }
  destruct (KEEP t) as [last [L R]].
  destruct S as [c r Ep|p a k p' Ep PS|l m p Ep Np G|l m p Ep Np|l m p held Ep Eh|why Ep].
  - split; [|exact OLD]. eapply SET; [|reflexivity]. exists None. split; [apply entry_logs|discriminate].
  - rewrite Ep in L. split.
    + eapply SET; [|reflexivity]. cbn [th_prog]. destruct PS; cbn [logs] in L.
      all: try solve [exists last; split; [solve [auto | apply L | exact I]|exact R]].
      * eexists. split; [apply L|]. destruct ev as [sent addr|e]; [|discriminate]. intros d E. injection E as <-.
        exists sent, addr. split; [apply in_or_app; right; left; reflexivity|reflexivity].
      * exists last. split; [apply loop_logs|exact R].
    + cbn [w_sock]. destruct PS; cbn [printed]; auto. apply Forall_app. split; [exact OLD|]. constructor; [|constructor].
      cbn [logs] in L. destruct x; cbn [arrived]; auto. destruct L as [[d [-> E]] _]. exists t, d. split; [apply R; reflexivity|exact E].
  - split; [|exact OLD]. rewrite Ep in L. cbn [logs] in L. eapply SET; [|reflexivity]. eauto.
  - split; [|exact OLD]. eapply SET; [|reflexivity]. exists None. split; [exact I|discriminate].
  - split; [|exact OLD]. rewrite Ep in L. cbn [logs] in L. eapply SET; [|reflexivity]. eauto.
  - split; [|exact OLD]. eapply SET; [|reflexivity]. exists None. split; [exact I|discriminate].
Qed.

Lemma arrived_text tr x : arrived tr x -> exists t, line_text x = Some t.
Proof.
  destruct x as [r|ps|e|i]; cbn; eauto. intros [t [d [_ ->]]].
  destruct (next_header_total d) as [[h [rest [ty [E _]]]]|[e E]]; rewrite E; cbn; eauto.
Qed.
Definition count (c : ascii) (t : text) : nat := List.length (filter (Ascii.eqb c) t).
Lemma count_plain t : forallb plain t = true -> count newline t = O.
Proof.
  induction t as [|c t IH]; [reflexivity|]. cbn [forallb]. intros F. apply andb_prop in F as [F G]. unfold count. cbn [filter].
  unfold plain in F. rewrite Ascii.eqb_sym in F. destruct (Ascii.eqb newline c); [discriminate F|]. apply IH. exact G.
Qed.
Lemma count_app c a b : count c (a ++ b) = (count c a + count c b)%nat.
Proof. unfold count. rewrite filter_app, app_length. reflexivity. Qed.
Lemma stdout_total tr xs : Forall (arrived tr) xs ->
  exists t, stdout xs = Some t /\ count newline t = List.length (flat_map seen xs).
Proof.
  induction xs as [|x xs IH]; intros F; inversion F as [|? ? Hx Fl]; subst; [exists []; split; reflexivity|].
  destruct (IH Fl) as [t [E C]]. destruct (arrived_text _ _ Hx) as [lt EL]. cbn [stdout flat_map].
  destruct (on_stdout x) eqn:O.
  - rewrite EL, E. eexists. split; [reflexivity|]. destruct (seen_one _ _ O EL) as [y ->]. cbn [app List.length].
    change (newline :: t) with ([newline] ++ t). rewrite !count_app, (count_plain _ (text_plain _ _ EL)), C. reflexivity.
  - exists t. rewrite (seen_off _ O). auto.
Qed.

(** Each line is one entry of the log, whatever the datagrams contain. *)
Theorem C113_one_line_each : forall P oc tr w, execution P oc start tr w ->
  exists t, stdout (printed (w_sock w)) = Some t /\ count "010"%char t = List.length (flat_map seen (printed (w_sock w))).
Proof. intros P oc tr w X. exact (stdout_total _ _ (proj2 (logs_inv _ _ _ _ X))). Qed.
Print Assumptions C113_one_line_each.

(** The characters on the standard output determine the entries. *)
Theorem C113_log_reads_back : forall P oc tr w P' oc' tr' w',
  execution P oc start tr w -> execution P' oc' start tr' w' ->
  stdout (printed (w_sock w)) = stdout (printed (w_sock w')) ->
  flat_map seen (printed (w_sock w)) = flat_map seen (printed (w_sock w')).
Proof.
  intros P oc tr w P' oc' tr' w' X X' E. destruct (C113_one_line_each _ _ _ _ X) as [t [ET _]].
  eapply stdout_seen; [apply le_n|exact ET|]. rewrite <- E. exact ET.
Qed.
Print Assumptions C113_log_reads_back.

(** A logged header is that of a datagram which was received. *)
Theorem C113_headers_arrived : forall P oc tr w, execution P oc start tr w ->
  (forall h, In (SawHeader h) (flat_map seen (printed (w_sock w))) ->
     exists t sent addr rest, In (t, ARecv (NetDatagram sent addr)) tr /\ next_header_from_stream (firstn (N.to_nat 4096) sent) = Ok (h, rest)) /\
  (forall e, In (SawUnreadable e) (flat_map seen (printed (w_sock w))) ->
     exists t sent addr, In (t, ARecv (NetDatagram sent addr)) tr /\ next_header_from_stream (firstn (N.to_nat 4096) sent) = Err e).
Proof.
  intros P oc tr w X. pose proof (proj2 (logs_inv _ _ _ _ X)) as F. rewrite Forall_forall in F. split.
  - intros h H. apply in_flat_map in H as [x [H S]]. specialize (F x H).
    destruct x as [[[h' rest]|e|wh|]|ps|e|i]; cbn in S; try (destruct S as [S|[]]); try discriminate S; try contradiction.
    injection S as ->. destruct F as [t [d [[sent [addr [R ->]]] E]]]. exists t, sent, addr, rest. auto.
  - intros h H. apply in_flat_map in H as [x [H S]]. specialize (F x H).
    destruct x as [[[h' rest]|e|wh|]|ps|e|i]; cbn in S; try (destruct S as [S|[]]); try discriminate S; try contradiction.
    injection S as ->. destruct F as [t [d [[sent [addr [R ->]]] E]]]. exists t, sent, addr. auto.
Qed.
Print Assumptions C113_headers_arrived.

(** A client's Initial datagram, logged. *)
Definition initial_line : string :=
  "Ok(Long(LongPacketHeader { header_byte: 192, version: 1, destination_connection_id_length: 8, destination_connection_id: U160 { idx0: 0, idx1: 72623859790382856 }, source_connection_id_length: 1, source_connection_id: U160 { idx0: 0, idx1: 9 }, version_negotiation: None, is_protected: true }))".
Example C113_case : exists tr w, execution real_prims true start tr w /\
  printed (w_sock w) <> [] /\ stdout (printed (w_sock w)) = Some (chars initial_line ++ ["010"%char]) /\
  In (SawHeader initial_header) (flat_map seen (printed (w_sock w))).
Proof.
  assert (S1 : solo real_prims true bind_socket (entry true (CSetLog true)) [] [AAcq LLog Exclusive; ASetLog true; ARel LLog] (ISocket [] true []) (Done RNothing) []).
  { cbn [entry set_log_prog]. apply so_acq; [intros m []|]. eapply so_data; [apply p_set_log|]. apply so_rel. apply so_nil. }
  destruct (solo_call real_prims true start 0 (CSetLog true) RNothing _ _ _ eq_refl eq_refl (conj (fun _ _ => eq_refl) (fun _ => eq_refl)) S1) as [w1 [X1 [K1 [Y1 [O1 A1]]]]].
  assert (S2 : exists acts p rest, solo real_prims true (ISocket [] true []) (entry true CAccept) [] acts (ISocket [] true [LogHeader (Ok (initial_header, rest))]) p []).
  { assert (ED : exists rest, next_header_from_stream client_initial = Ok (initial_header, rest)) by (eexists; vm_compute; reflexivity).
    destruct ED as [rest ED].
    eexists _, _, rest. cbn [entry accept_prog]. eapply so_data; [apply p_goto|]. cbn [code]. unfold recv_new_initial_datagram, recv_datagram.
    apply so_acq; [intros m []|]. eapply so_data; [apply (p_recv _ _ _ _ (NetDatagram client_initial 5))|]. cbn beta iota zeta.
    apply so_acq; [intros m [H|[]]; discriminate H|]. eapply so_data; [apply p_look_log|]. cbn [log_traffic]. apply so_rel.
    change (firstn (N.to_nat RECV_BUFFER) client_initial) with client_initial.
    log_cases EN; [|destruct (EN _ ED)]. rewrite ED. eapply so_data; [apply p_print|]. cbn [streams log_traffic printed app]. apply so_rel. apply so_nil. }
  destruct S2 as [acts [p [rest S2]]]. rewrite <- K1 in S2.
  destruct (solo_call real_prims true w1 0 CAccept RNothing _ _ _ ltac:(rewrite Y1; reflexivity) ltac:(rewrite Y1; reflexivity) A1 S2) as [w2 [X2 [K2 _]]].
  eexists _, w2. split; [eapply execution_app; [exact X1|exact X2]|]. rewrite K2. cbn [printed].
  split; [discriminate|]. split; [|left; reflexivity].
  cbn [stdout on_stdout line_text header_text]. apply f_equal. vm_compute. reflexivity.
Qed.

(** Data that looks like the log does not end a line and does not close a
    bracket: bytes are printed as numbers. *)
Example C113_forgery_case : 
  line_text (LogPackets [PHandshake (PacketHandshake (LongHeader 0xe0 1 1 (U160 0 7) 0 (U160 0 0) None false) [0; 0; 0; 5] 5
     [Crypto (FrameCrypto 0 3 [10; 93; 93]); Padding])]) =
  Some (chars "[Handshake(PacketHandshake { header: LongPacketHeader { header_byte: 224, version: 1, destination_connection_id_length: 1, destination_connection_id: U160 { idx0: 0, idx1: 7 }, source_connection_id_length: 0, source_connection_id: U160 { idx0: 0, idx1: 0 }, version_negotiation: None, is_protected: false }, packet_number_bytes: [0, 0, 0, 5], packet_number: 5, packet_payload: [Crypto(FrameCrypto { offset: 0, length: 3, crypto_data: [10, 93, 93] }), Padding] })]").
Proof. vm_compute. reflexivity. Qed.
