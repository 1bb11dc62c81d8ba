(* Lemmas for C100 *)
From Coq Require Import ZArith List Bool Lia ZifyBool ZifyNat.
From Verif Require Import Base Bits Packet PacketSpec PacketProofs PacketBytes Messages Sysex ByteStream ChannelVoice.
From Verif Require Import StreamSpec StreamProofs StreamLemmas StreamBytes StreamCalls BridgeSpec BridgeProofs WireSpec WireProofs.
From Verif Require Import Ports PortsSpec.
Import ListNotations.
Local Open Scope Z_scope.
Local Open Scope res_scope.

Section OfPort.
Context {A : Type}.
Implicit Type l : list (Z * A).
Lemma port_app k l1 l2 : of_port k (l1 ++ l2) = of_port k l1 ++ of_port k l2.
Proof. unfold of_port. now rewrite filter_app, map_app. Qed.
Lemma port_cons k x l : of_port k (x :: l) = (if fst x =? k then [snd x] else []) ++ of_port k l.
Proof. unfold of_port. cbn [filter]. now destruct (fst x =? k). Qed.
Lemma port_pair k i (xs : list A) : of_port k (map (pair i) xs) = if i =? k then xs else [].
Proof.
  induction xs as [|x xs IH]; cbn [map]; [now destruct (i =? k)|]. rewrite port_cons, IH. cbn [fst snd]. now destruct (i =? k).
Qed.
Lemma port_none k l : Forall (fun x => fst x <> k) l -> of_port k l = [].
Proof.
  intros F. induction F as [|x l H _ IH]; [reflexivity|]. rewrite port_cons, IH. now replace (fst x =? k) with false by lia.
Qed.
Lemma port_in k a l : In a (of_port k l) <-> In (k, a) l.
Proof.
  unfold of_port. rewrite in_map_iff. split.
  - intros ((i & b) & E & I). apply filter_In in I as [I F]. cbn in *. subst b. replace k with i by lia. exact I.
  - intros I. exists (k, a). split; [reflexivity|]. apply filter_In. split; [exact I|]. cbn. lia.
Qed.
End OfPort.

(* ---- ports to connection --------------------------------------------------------------------- *)

Lemma packets_events ps : to_connection (map EPacket ps) = ps.
Proof. unfold to_connection. induction ps as [|p ps IH]; [reflexivity|]. cbn. now rewrite IH. Qed.

Lemma ports_runs sched : forall P, (forall k, exists r, feed_all (P k) (of_port k sched) = Ok r) ->
  exists P' arr, ports_run P sched = Ok (P', map snd arr) /\
    (forall x, In x arr -> exists y, In y sched /\ fst y = fst x) /\
    forall k, exists ev, feed_all (P k) (of_port k sched) = Ok (P' k, ev) /\ of_port k arr = to_connection ev.
Proof.
  induction sched as [|[i y] sched IH]; intros P H.
  - exists P, []. split; [reflexivity|]. split; [intros x []|]. intros k. exists []. split; reflexivity.
  - cbn [ports_run]. unfold ports_step. cbn [fst snd]. destruct (H i) as (r0 & E0). rewrite port_cons in E0. cbn [fst snd] in E0.
    rewrite Z.eqb_refl in E0. cbn [app feed_all] in E0. destruct (feed (P i) y) as [[st1 o1]|] eqn:F; [|discriminate].
    cbn [bind fst snd] in *.
    destruct (IH (fun j => if j =? i then st1 else P j)) as (P' & arr & E1 & E2 & E3).
    { intros k. destruct (Z.eqb_spec k i) as [->|N].
      - destruct (feed_all st1 (of_port i sched)) as [r|]; [eauto|discriminate].
      - destruct (H k) as (r & E). rewrite port_cons in E. cbn [fst] in E. destruct (Z.eqb_spec i k); [congruence|]. eauto. }
    rewrite E1. cbn [bind fst snd]. exists P', (map (pair i) (to_connection o1) ++ arr). split; [|split].
    + rewrite map_app, map_map, map_id. reflexivity.
    + intros x I. apply in_app_or in I as [I|I].
      * exists (i, y). split; [now left|]. apply in_map_iff in I as (p & <- & _). reflexivity.
      * destruct (E2 x I) as (z & Z & F'). exists z. split; [now right|exact F'].
    + intros k. destruct (E3 k) as (ev & E4 & E5). rewrite port_cons, port_app, port_pair, E5. cbn [fst snd].
      destruct (Z.eqb_spec k i) as [->|N].
      * rewrite Z.eqb_refl. cbn [app feed_all]. rewrite F. cbn [bind]. rewrite E4. cbn [bind]. exists (o1 ++ ev). split; [reflexivity|].
        unfold to_connection. now rewrite map_app, concat_app.
      * destruct (Z.eqb_spec i k); [congruence|]. cbn [app]. exists ev. auto.
Qed.

(* ---- what the parsers send ------------------------------------------------------------------- *)

Lemma wf_out_group z k p : 0 <= k < 16 -> wf_output k (EPacket p) -> group (fz z p) = k.
Proof.
  intros K W.
  assert (SH : forall s ds, is_u8 s -> Forall is_u8 ds -> group (short_packet k s ds) = k).
  { intros s ds S D. rewrite group_spec. pose proof (nth_u8 ds 0 D). pose proof (nth_u8 ds 1 D).
    unfold short_packet, is_u8 in *. cbn [w0]. destruct (s <? 0xF0); dlia. }
  destruct W as [(m & V & ->)|[(r & R & _ & ->)|(f & ds & F & L & D & _ & ->)]].
  - pose proof (valid_message_status _ V) as [S0 _]. destruct (Z_lt_ge_dec (ms_status m) 0xF0) as [C|C].
    + destruct (fz_voice z m V C) as (m' & V' & C' & ->); [|exact K]. pose proof (valid_message_status _ V') as [S1 _].
      apply SH; [unfold is_u8; lia|]. apply Forall_u7_u8, V'.
    + assert (U := Forall_u7_u8 _ (proj2 V)). rewrite fz_system by (trivial; lia). apply SH; [unfold is_u8; lia|exact U].
  - rewrite fz_system by (trivial; lia || constructor). apply SH; [unfold is_u8; lia|constructor].
  - assert (U := Forall_u7_u8 _ D). rewrite fz_sx7 by trivial. rewrite group_spec.
    pose proof (nth_u8 ds 0 U). pose proof (nth_u8 ds 1 U). unfold sx7_packet, be32, is_u8 in *. cbn [w0]. dlia.
Qed.

Lemma wf_out_good k p : 0 <= k < 16 -> wf_output k (EPacket p) -> good p.
Proof.
  intros K [(m & V & ->)|[(r & R & _ & ->)|(f & ds & F & L & D & _ & ->)]].
  - pose proof (valid_message_status _ V) as [S0 _]. apply good_short; [exact K|unfold is_u8; lia|apply V].
  - apply good_short; [exact K|unfold is_u8; lia|constructor].
  - apply good_sx7; trivial. now apply Forall_u7_u8.
Qed.

(* ---- connection to ports --------------------------------------------------------------------- *)

Lemma in_pieces pieces : forall pending, receive_pieces pending pieces = receive pending (concat pieces).
Proof.
  induction pieces as [|ws rest IH]; intros pending; cbn [receive_pieces concat]; [reflexivity|].
  rewrite receive_app. now rewrite IH.
Qed.

Definition rx (p : packet) : packet := assembled (transmitted p).

Lemma out_among types h ps qs :
  (forall q, wf_packet q -> ~ In (w0 q / 268435456) types -> to_midi1_byte_stream (h (rx q)) = Ok []) ->
  among types ps qs -> ports_out (map h (map rx qs)) = ports_out (map h (map rx ps)).
Proof.
  intros O M. induction M as [|p ps qs M IH|q ps qs W N M IH]; cbn [map ports_out]; [reflexivity| |].
  - now rewrite IH.
  - rewrite (O q W N), IH. cbn [bind map app]. now destruct (ports_out (map h (map rx ps))).
Qed.

Lemma out_parts (f : packet -> packet) (arr : list (Z * packet)) :
  (forall k p, In (k, p) arr -> group (f p) = k) ->
  (forall k, exists b, stream_of_packets (map f (of_port k arr)) = Ok b) ->
  exists bytes, ports_out (map f (map snd arr)) = Ok bytes /\
    (forall x, In x bytes -> exists p, In (fst x, p) arr) /\
    forall k, stream_of_packets (map f (of_port k arr)) = Ok (of_port k bytes).
Proof.
  induction arr as [|[i p] arr IH]; intros G S.
  - exists []. split; [reflexivity|]. split; [intros x []|reflexivity].
  - destruct (S i) as (b & E). rewrite port_cons in E. cbn [fst snd] in E. rewrite Z.eqb_refl in E. cbn [app map stream_of_packets] in E.
    destruct (to_midi1_byte_stream (f p)) as [b0|] eqn:T; [|discriminate]. cbn [bind] in E.
    destruct IH as (bytes & E1 & R & E2).
    { intros k q I. apply (G k). now right. }
    { intros k. destruct (Z.eqb_spec i k) as [->|N].
      - destruct (stream_of_packets (map f (of_port k arr))) as [b1|]; [eauto|discriminate].
      - destruct (S k) as (b1 & E1). rewrite port_cons in E1. cbn [fst] in E1. destruct (Z.eqb_spec i k); [congruence|]. eauto. }
    cbn [map ports_out snd]. rewrite T, E1. cbn [bind]. rewrite (G i p (or_introl eq_refl)).
    eexists. split; [reflexivity|]. split.
    { intros x I. apply in_app_or in I as [I|I].
      - apply in_map_iff in I as (y & <- & _). exists p. now left.
      - destruct (R x I) as (q & Q). exists q. now right. }
    intros k. rewrite port_cons, port_app, port_pair. cbn [fst snd]. destruct (i =? k); cbn [app map stream_of_packets].
    + now rewrite T, E2.
    + apply E2.
Qed.

(* ---- all together ----------------------------------------------------------------------------- *)

Lemma sent_parts sched : Forall (fun x => 0 <= fst x < 16 /\ is_u8 (snd x)) sched ->
  exists P arr, ports_run new_ports sched = Ok (P, map snd arr) /\
    (forall k p, In (k, p) arr -> 0 <= k < 16 /\ wf_output k (EPacket p)) /\
    forall k, Forall is_u8 (of_port k sched) /\
      exists ev, feed_all (new_parser k false true) (of_port k sched) = Ok (P k, ev) /\ of_port k arr = to_connection ev.
Proof.
  intros V. rewrite Forall_forall in V.
  assert (U : forall k, Forall is_u8 (of_port k sched)).
  { intros k. apply Forall_forall. intros b I. apply port_in in I. exact (proj2 (V _ I)). }
  assert (NP : forall k, ~ 0 <= k < 16 -> of_port k sched = []).
  { intros k N. apply port_none, Forall_forall. intros x I X. apply N. rewrite <- X. apply (V x I). }
  destruct (ports_runs sched new_ports) as (P & arr & E & EI & EA).
  { intros k. destruct (Z_lt_ge_dec k 0) as [L|L]; [rewrite NP by lia; eexists; reflexivity|].
    destruct (Z_lt_ge_dec k 16) as [L'|L']; [|rewrite NP by lia; eexists; reflexivity].
    destruct (feed_all_outputs k false _ (conj (Z.ge_le _ _ L) L') (U k) [] _ (inv_new k k true false true)) as (st & X & _).
    unfold new_ports. eauto. }
  exists P, arr. split; [exact E|]. split; [|intros k; split; [apply U|exact (EA k)]].
  intros k p I. destruct (EI _ I) as (y & Y & FY). cbn [fst] in FY. assert (K : 0 <= k < 16) by (rewrite <- FY; apply (V y Y)).
  split; [exact K|]. apply port_in in I. destruct (EA k) as (ev & X & O). rewrite O in I.
  destruct (feed_all_outputs k false _ K (U k) [] _ (inv_new k k true false true)) as (st & X' & _).
  unfold new_ports in X. rewrite X in X'. injection X' as _ ->.
  pose proof (outputs_wf false k _ (U k) [] Logic.I) as W.
  rewrite Forall_forall in W. apply W. unfold to_connection in I. apply in_concat in I as (l & L & IP).
  apply in_map_iff in L as (e & <- & IE). destruct e; [|destruct IP]. destruct IP as [->|[]]. exact IE.
Qed.

Lemma through z f h types gr cb Q sched :
  (forall k p, 0 <= k < 16 -> wf_output k (EPacket p) -> good (f p) /\ h (f p) = fz z p) ->
  (forall q, wf_packet q -> ~ In (w0 q / 268435456) types -> to_midi1_byte_stream (h (rx q)) = Ok []) ->
  (forall k, 0 <= k < 16 -> reached (gr k) (cb k) (Q k)) ->
  Forall (fun x => 0 <= fst x < 16 /\ is_u8 (snd x)) sched ->
  exists P ps, ports_run new_ports sched = Ok (P, ps) /\
  forall qs pieces, among types (map f ps) qs -> concat pieces = transmission qs ->
  exists rs bytes, receive_pieces [] pieces = ([], rs) /\ ports_out (map h rs) = Ok bytes /\
    Forall (fun x => 0 <= fst x < 16) bytes /\
    forall k, 0 <= k < 16 -> exists st1 st2 out,
      feed_all (new_parser (gr k) (cb k) true) (of_port k sched) = Ok (st1, out) /\
      feed_all (Q k) (of_port k bytes) = Ok (st2, map (packet_map (fz z)) out).
Proof.
  intros FH OT RQ V. destruct (sent_parts sched V) as (P & arr & E & AR & EA).
  exists P, (map snd arr). split; [exact E|]. intros qs pieces M C.
  rewrite in_pieces, C, receive_all. exists (map rx qs).
  assert (CL : map h (map rx (map f (map snd arr))) = map (fz z) (map snd arr)).
  { rewrite !map_map. apply map_ext_in. intros (k & p) I. cbn [snd]. destruct (AR k p I) as [K W].
    destruct (FH k p K W) as [[_ G] H]. unfold rx, clean in *. now rewrite G. }
  rewrite (out_among types h _ qs OT M), CL.
  assert (BR : forall k, 0 <= k < 16 -> exists bs' out st2 st3,
     stream_of_packets (map (fz z) (of_port k arr)) = Ok bs' /\
     feed_all (new_parser (gr k) (cb k) true) (of_port k sched) = Ok (st2, out) /\
     feed_all (Q k) bs' = Ok (st3, map (packet_map (fz z)) out)).
  { intros k K. destruct (bridge z (cb k) k (gr k) (Q k) (of_port k sched) K (RQ k K) (proj1 (EA k))) as (ps & bs' & out & s1 & s2 & s3 & B1 & B2 & _ & B3 & B4).
    destruct (EA k) as (_ & ev & X & O). rewrite B1 in X. injection X as _ <-. rewrite packets_events in O. rewrite O.
    exists bs', out, s2, s3. auto. }
  destruct (out_parts (fz z) arr) as (bytes & O1 & O2 & O3).
  { intros k p I. destruct (AR k p I) as [K W]. now apply wf_out_group. }
  { intros k. assert (D : 0 <= k < 16 \/ ~ 0 <= k < 16) by lia. destruct D as [K|K].
    - destruct (BR k K) as (bs' & _ & _ & _ & B & _). eauto.
    - rewrite (port_none k arr); [eexists; reflexivity|]. apply Forall_forall. intros (i & p) I. cbn. destruct (AR i p I). lia. }
  exists bytes. split; [reflexivity|]. split; [exact O1|]. split.
  { apply Forall_forall. intros x I. destruct (O2 x I) as (p & IP). now destruct (AR _ _ IP). }
  intros k K. destruct (BR k K) as (bs' & out & s2 & s3 & B1 & B2 & B3). rewrite O3 in B1. injection B1 as <-. exists s2, s3, out. auto.
Qed.

Lemma rx_w0 q : w0 (rx q) = w0 q.
Proof. unfold rx. destruct (transmitted_head q) as (l & ->). reflexivity. Qed.

Lemma other_silent q : wf_packet q -> ~ In (w0 q / 268435456) [1; 2; 3] -> to_midi1_byte_stream (rx q) = Ok [].
Proof.
  intros W N. rewrite <- (type_spec q W) in N. assert (T : type (rx q) = type q) by (unfold type; now rewrite rx_w0).
  unfold to_midi1_byte_stream. rewrite T.
  change pt_system with 1. change pt_midi1_channel_voice with 2. change pt_data with 3. cbn [In] in N.
  replace (type q =? 1) with false by lia. replace (type q =? 2) with false by lia. now replace (type q =? 3) with false by lia.
Qed.

Theorem ports gr cb Q sched :
  (forall k, 0 <= k < 16 -> reached (gr k) (cb k) (Q k)) ->
  Forall (fun x => 0 <= fst x < 16 /\ is_u8 (snd x)) sched ->
  exists P ps, ports_run new_ports sched = Ok (P, ps) /\
  forall qs pieces, among [1; 2; 3] ps qs -> concat pieces = transmission qs ->
  exists rs bytes, receive_pieces [] pieces = ([], rs) /\ ports_out rs = Ok bytes /\
    Forall (fun x => 0 <= fst x < 16) bytes /\
    forall k, 0 <= k < 16 -> exists st1 st2 out,
      feed_all (new_parser (gr k) (cb k) true) (of_port k sched) = Ok (st1, out) /\
      feed_all (Q k) (of_port k bytes) = Ok (st2, out).
Proof.
  intros R V. destruct (through false (fun p => p) (fun p => p) [1; 2; 3] gr cb Q sched) as (P & ps & E & H); trivial.
  { intros k p K W. split; [exact (wf_out_good k p K W)|reflexivity]. }
  { intros q W N. now apply other_silent. }
  exists P, ps. split; [exact E|]. intros qs pieces M C. rewrite map_id in H.
  destruct (H qs pieces M C) as (rs & bytes & E1 & E2 & E3 & E4). rewrite map_id in E2.
  exists rs, bytes. split; [exact E1|]. split; [exact E2|]. split; [exact E3|]. intros k K.
  destruct (E4 k K) as (s1 & s2 & out & F1 & F2). exists s1, s2, out. split; [exact F1|].
  rewrite (map_ext _ (fun e => e)), map_id in F2 by (intros []; reflexivity). exact F2.
Qed.

Theorem ports_midi2 gr cb Q sched :
  (forall k, 0 <= k < 16 -> reached (gr k) (cb k) (Q k)) ->
  Forall (fun x => 0 <= fst x < 16 /\ is_u8 (snd x)) sched ->
  exists P ps, ports_run new_ports sched = Ok (P, ps) /\
  forall qs pieces, among [1; 2; 3; 4] (map towards_midi2 ps) qs -> concat pieces = transmission qs ->
  exists rs bytes, receive_pieces [] pieces = ([], rs) /\ ports_out (map towards_midi1 rs) = Ok bytes /\
    Forall (fun x => 0 <= fst x < 16) bytes /\
    forall k, 0 <= k < 16 -> exists st1 st2 out,
      feed_all (new_parser (gr k) (cb k) true) (of_port k sched) = Ok (st1, out) /\
      feed_all (Q k) (of_port k bytes) = Ok (st2, map (packet_map off_for_zero) out).
Proof.
  intros R V. apply (through true towards_midi2 towards_midi1 [1; 2; 3; 4] gr cb Q sched); trivial.
  - intros k p K W. pose proof (wf_out_good k p K W) as G. split; [|exact (up_down k p K W)].
    unfold towards_midi2. destruct (to_midi2 p) as [[q|]|] eqn:E; trivial. exact (good_to_midi2 p q (proj1 G) E).
  - intros q W N. assert (T : type (rx q) = type q) by (unfold type; now rewrite rx_w0).
    rewrite no_view_down.
    + apply other_silent; [exact W|]. cbn [In] in *. tauto.
    + rewrite T, (type_spec q W). cbn [In] in N. lia.
Qed.

(* ---- a receiver that works with packets ---------------------------------------------------------- *)

Lemma wf_out_type k p : 0 <= k < 16 -> wf_output k (EPacket p) -> from_port k p = true.
Proof.
  intros K W. unfold from_port. assert (G := wf_out_group false k p K W). cbn [fz] in G. rewrite group_spec in G. rewrite G, Z.eqb_refl, andb_true_r.
  assert (SH : forall s ds, is_u8 s -> Forall is_u8 ds -> 1 <= w0 (short_packet k s ds) / 268435456 <= 3).
  { intros s ds S D. pose proof (nth_u8 ds 0 D). pose proof (nth_u8 ds 1 D).
    unfold short_packet, is_u8 in *. cbn [w0]. destruct (s <? 0xF0); dlia. }
  assert (X : 1 <= w0 p / 268435456 <= 3); [|lia].
  destruct W as [(m & V & ->)|[(r & R & _ & ->)|(f & ds & F & L & D & _ & ->)]].
  - pose proof (valid_message_status _ V) as [S0 _]. apply SH; [unfold is_u8; lia|]. apply Forall_u7_u8, V.
  - apply SH; [unfold is_u8; lia|constructor].
  - assert (U := Forall_u7_u8 _ D).
    pose proof (nth_u8 ds 0 U). pose proof (nth_u8 ds 1 U). unfold sx7_packet, be32, is_u8 in *. cbn [w0]. dlia.
Qed.

Theorem packets_of_port sched : Forall (fun x => 0 <= fst x < 16 /\ is_u8 (snd x)) sched ->
  exists P ps, ports_run new_ports sched = Ok (P, ps) /\
  forall qs pieces, among [1; 2; 3] ps qs -> concat pieces = transmission qs ->
  exists rs, receive_pieces [] pieces = ([], rs) /\
    forall k, 0 <= k < 16 -> feed_all (new_parser k false true) (of_port k sched) = Ok (P k, map EPacket (filter (from_port k) rs)).
Proof.
  intros V. destruct (sent_parts sched V) as (P & arr & E & AR & EA).
  exists P, (map snd arr). split; [exact E|]. intros qs pieces M C. rewrite in_pieces, C, receive_all.
  eexists. split; [reflexivity|]. intros k K. destruct (EA k) as (U & ev & X & O). rewrite X. f_equal. f_equal.
  destruct (bridge_plain false k k _ _ K (reached_fresh k false K) U) as (ps & _ & _ & s1 & _ & _ & B & _).
  rewrite X in B. injection B as _ ->. rewrite packets_events in O. f_equal. rewrite <- O.
  assert (FQ : filter (from_port k) (map rx qs) = filter (from_port k) (map snd arr)).
  { assert (GD : forall p, In p (map snd arr) -> rx p = p).
    { intros p I. apply in_map_iff in I as ((i & q) & <- & I). destruct (AR i q I) as [K' W]. exact (proj2 (wf_out_good i q K' W)). }
    clear - M GD. induction M as [|p ps qs M IH|q ps qs W N M IH]; cbn [map filter]; [reflexivity| |].
    - rewrite (GD p (or_introl eq_refl)), IH; [reflexivity|]. intros q I. apply GD. now right.
    - rewrite IH by exact GD. replace (from_port k (rx q)) with false; [reflexivity|]. unfold from_port. rewrite rx_w0. cbn [In] in N. lia. }
  unfold rx in FQ. rewrite FQ. clear - AR K. induction arr as [|[i p] arr IH]; [reflexivity|].
  rewrite port_cons, IH by (intros j q I; apply AR; now right). cbn [map filter fst snd].
  destruct (AR i p (or_introl eq_refl)) as [KI W]. pose proof (wf_out_type i p KI W) as T. unfold from_port in *.
  apply andb_prop in T as [-> T]. cbn [andb]. replace (w0 p / 16777216 mod 16) with i by lia. now destruct (i =? k).
Qed.
