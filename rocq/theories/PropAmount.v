(** Properties C142 and C143: payloads cut short, and how much a server may send. *)
From Verif Require Import Base Utils Frame CipherSuite Secrets Connection Packet Histories Spec SpecPacket
  Tactics UtilsFacts FrameFacts SecretsFacts HeaderFacts PacketFacts ConnectionFacts DecodeFacts SendFacts CryptoInst
  PropConn PropPacket PropBuilt PropSizes PropSend PropDecode PropWire PropHold PropHeader PropLimits PropStart PropMixed
  PropFrameSound PropCoalesce PropExact PropCut.
From Coq Require Import Lia ZifyN ZifyBool ZifyNat.
Open Scope N_scope.

(** ** C142: the first part of a payload shows the first frames of the payload; the last of
    them may be a STREAM frame with the first part of its data. *)
Inductive first_frames : list frame -> list frame -> Prop :=
| ff_whole : forall gs more, first_frames gs (gs ++ more)
| ff_stream : forall gs id offset fin data more,
    first_frames (gs ++ [Stream (FrameStream id offset (len data) data fin)])
                 (gs ++ [Stream (FrameStream id offset (len (data ++ more)) (data ++ more) fin)]).

Lemma stream_last oc fs : forall s, bytes_ok s -> deserialize_frames oc s = Ok fs ->
  Forall (fun f => is_stream f = false) fs \/
  exists gs x, fs = gs ++ [Stream x] /\ st_length x = len (st_data x).
Proof.
  induction fs as [|f fs IH]; intros s B D; [left; constructor|].
  destruct s as [|b s]; [discriminate D|].
  rewrite deserialize_frames_cons in D by (auto; congruence).
  apply bind_ok in D as [[y r] [E D]]. apply bind_ok in D as [ys [D D']]. injection D' as -> ->.
  destruct (is_stream f) eqn:SF.
  - destruct f as [| | | | | | |x| | | | | | | | | | | |]; try discriminate SF.
    apply C68_decoder_exact in E as [t [tb [body [_ [_ T]]]]]; auto. cbn in T. destruct T as [_ [-> [_ [L _]]]].
    cbn in D. injection D as <-. right. exists [], x. auto.
  - destruct (frame_alone oc _ _ _ B E SF) as [w [Ew _]]. rewrite Ew in B. apply bytes_ok_app in B as [_ B].
    destruct (IH r B D) as [F|[gs [x [-> L]]]]; [left; constructor; auto|]. right. exists (f :: gs), x. auto.
Qed.

Theorem C142_cut_payload : forall oc a b gs fs, bytes_ok (a ++ b) ->
  deserialize_frames oc (a ++ b) = Ok fs -> deserialize_frames oc a = Ok gs -> first_frames gs fs.
Proof.
  intros oc a b gs fs B D E. apply bytes_ok_app in B as [Ba Bb].
  destruct (stream_last oc gs a Ba E) as [F|[hs [x [-> L]]]].
  - rewrite (C83_payloads_partial oc a b gs Ba Bb E F) in D. apply bind_ok in D as [more [_ D]]. injection D as <-. constructor.
  - rewrite (C83_stream_swallows oc a b hs x Ba Bb E) in D. injection D as <-.
    rewrite L, <- len_app. destruct x as [id off n data fin]. cbn in *. subst n. apply ff_stream.
Qed.
Print Assumptions C142_cut_payload.
Example C142_case :
  (let s := [1; 0x06; 0; 2; 7; 8; 0x10; 5; 0x0a; 4; 1; 2; 3] in
   map (fun i => match deserialize_frames true (firstn i s) with Ok fs => Some (len fs) | _ => None end) (seq 0 14))
  = [Some 0; Some 1; None; None; None; None; Some 2; None; Some 3; None; Some 4; Some 4; Some 4; Some 4] /\
  deserialize_frames true [1; 0x0a; 4; 1; 2] = Ok ([Ping] ++ [Stream (FrameStream 4 0 2 [1; 2] false)]) /\
  deserialize_frames true [1; 0x0a; 4; 1; 2; 3] = Ok ([Ping] ++ [Stream (FrameStream 4 0 3 [1; 2; 3] false)]).
Proof. repeat split. Qed.

(** ** C143: RFC 9000 section 8.1, before the address of a client is validated a server sends
    at most three times as many bytes as it received.  Here for a server that received one
    datagram and sends one packet. *)
Definition C143_statement : Prop := forall P oc d l c0 xs s ps fs t wire, prims_ok P ->
  connection_new P oc true V1 d l = Ok c0 -> bytes_ok s -> decode_packets oc (run oc c0 xs) s = Ok ps ->
  send_initial oc fs t (run oc c0 xs) = Ok wire -> len wire <= 3 * len s.
(** Any datagram up to 700 MB can be answered with more than three times as much. *)
Theorem C143_no_limit : forall P oc d l c0 xs (s : list N), prims_ok P ->
  connection_new P oc true V1 d l = Ok c0 -> len xs < 2 ^ 64 - 1 ->
  id_fits d l -> (forall id n, In (CSetScid id n) xs -> id_fits id n) ->
  (exists id n, In (CSetScid id n) xs) -> count SpInitial xs < 2 ^ 32 - 1 -> len s < 700000000 ->
  exists fs wire, send_initial oc fs None (run oc c0 xs) = Ok wire /\ 3 * len s < len wire.
Proof. intros. eapply C139_any_size; eauto. pows. lia. Qed.
Print Assumptions C143_no_limit.
(** A PING of 46 bytes answered with 4142. *)
Definition answered (server client : outcome connection) : bool :=
  match server, client with
  | Ok s0, Ok c0 =>
      match send_initial true [Ping] None (run true c0 [CSetScid (U160 0 7) 8]) with
      | Ok w =>
          match decode_packets true (run true s0 [CSetScid (U160 0 9) 8]) w,
                send_initial true (repeat Padding (N.to_nat 4096)) None (run true s0 [CSetScid (U160 0 9) 8]) with
          | Ok [PInitial p], Ok wire => (len w =? 46) && (len wire =? 4142) && forallb (fun b => b <? 256) w
          | _, _ => false
          end
      | _ => false
      end
  | _, _ => false
  end.
Lemma answered_inv server client : answered server client = true ->
  exists s0 w ps wire, server = Ok s0 /\ bytes_ok w /\ decode_packets true (run true s0 [CSetScid (U160 0 9) 8]) w = Ok ps /\
    send_initial true (repeat Padding (N.to_nat 4096)) None (run true s0 [CSetScid (U160 0 9) 8]) = Ok wire /\
    len w = 46 /\ len wire = 4142.
Proof.
  unfold answered. generalize (repeat Padding (N.to_nat 4096)). intros fs. destruct server as [s0| | |]; try discriminate. destruct client as [c0| | |]; try discriminate.
  destruct (send_initial true [Ping] None _) as [w| | |]; try discriminate.
  destruct (decode_packets true _ w) as [ps| | |] eqn:D; try discriminate.
  destruct ps as [|[] []]; try discriminate.
  destruct (send_initial true fs None _) as [wire| | |] eqn:W; try discriminate.
  intros Y. apply andb_true_iff in Y as [Y B]. apply andb_true_iff in Y as [L1 L2]. apply N.eqb_eq in L1, L2.
  exists s0, w. eexists. exists wire. apply bytes_ok_dec in B. eauto 10.
Qed.
Lemma amplified : answered (connection_new real_prims true true V1 sample_id 8) (connection_new real_prims true false V1 sample_id 8) = true.
Proof. vm_compute. reflexivity. Qed.
Theorem C143_refuted : ~ C143_statement.
Proof.
  intros H. destruct (answered_inv _ _ amplified) as [s0 [w [ps [wire [E [B [D [W [L1 L2]]]]]]]]].
  specialize (H _ _ _ _ _ _ _ _ _ _ _ real_prims_ok E B D W). rewrite L1, L2 in H. clear - H. lia.
Qed.
Print Assumptions C143_refuted.
Example C143_case : exists s0 w wire, connection_new real_prims true true V1 sample_id 8 = Ok s0 /\ len w = 46 /\
  (exists ps, decode_packets true (run true s0 [CSetScid (U160 0 9) 8]) w = Ok ps) /\
  send_initial true (repeat Padding (N.to_nat 4096)) None (run true s0 [CSetScid (U160 0 9) 8]) = Ok wire /\ len wire = 4142.
Proof.
  destruct (answered_inv _ _ amplified) as [s0 [w [ps [wire [E [B [D [W [L1 L2]]]]]]]]].
  exists s0, w, wire. repeat split; [exact E|exact L1|exists ps; exact D|exact W|exact L2].
Qed.
