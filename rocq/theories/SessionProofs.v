(* A session through to_midi1_byte_stream and back through the parser *)
From Coq Require Import ZArith List Bool Lia ZifyBool ZifyNat.
From Verif Require Import Base Bits Packet PacketSpec PacketProofs PacketBytes
  Messages Sysex ByteStream StreamSpec StreamProofs StreamLemmas StreamCalls StreamBytes SessionSpec.
Import ListNotations.
Local Open Scope Z_scope.
Local Open Scope res_scope.

(* a packet's bytes; the packet is emitted at the last one *)
Definition packet_bytes (p : packet) : list Z :=
  match to_midi1_byte_stream p with Ok bs => bs | Fault _ => [] end.
Definition ann (p : packet) : annotated := annotate_data (packet_bytes p) (EPacket p).
Definition anns (ps : list packet) : annotated := concat (map ann ps).

Definition sends (p : packet) : Prop := exists b bs, to_midi1_byte_stream p = Ok (b :: bs).

Lemma anns_app a b : anns (a ++ b) = anns a ++ anns b.
Proof. unfold anns. now rewrite map_app, concat_app. Qed.

Lemma anns_stream ps : Forall sends ps -> stream_of_packets ps = Ok (map fst (anns ps)).
Proof.
  induction 1 as [|p ps (b & bs & E) _ IH]; [reflexivity|]. cbn [stream_of_packets].
  rewrite E, IH. cbn [bind]. change (anns (p :: ps)) with (ann p ++ anns ps). rewrite map_app.
  assert (X : map fst (ann p) = b :: bs) by (unfold ann, packet_bytes; now rewrite E, annotate_data_fst).
  now rewrite X.
Qed.
Lemma anns_events ps : Forall sends ps -> concat (map snd (anns ps)) = map EPacket ps.
Proof.
  induction 1 as [|p ps (b & bs & E) _ IH]; [reflexivity|]. unfold anns. cbn [map concat].
  rewrite map_app, concat_app. unfold anns in IH. rewrite IH. unfold ann, packet_bytes.
  now rewrite E, annotate_data_events.
Qed.

Lemma annotate_data_last bs b e : annotate_data (bs ++ [b]) e = map (fun x => (x, [])) bs ++ [(b, [e])].
Proof.
  induction bs as [|x bs IH]; [reflexivity|]. cbn [app map]. rewrite <- IH.
  destruct (bs ++ [b]) eqn:E; [now destruct bs|reflexivity].
Qed.
Lemma quiet_annotates cb g bs : forall h, outputs cb g h bs = [] -> annotates cb g h (map (fun x => (x, [])) bs).
Proof.
  induction bs as [|b bs IH]; intros h O; [constructor|]. cbn [outputs map] in *.
  apply app_eq_nil in O as [O1 O2]. constructor; [now rewrite O1|auto].
Qed.
Lemma mark cb g h bs b e : outputs cb g h bs = [] -> emission cb g (fold_left remember bs h) b = [e] ->
  annotates cb g h (annotate_data (bs ++ [b]) e).
Proof.
  intros O E. rewrite annotate_data_last. apply annotates_app; [now apply quiet_annotates|].
  rewrite map_map. cbn [fst]. rewrite map_id. constructor; [now rewrite E|constructor].
Qed.

(* ---- the packets of a filled SysEx ----------------------------------------------------- *)

Lemma six_annotated g h ds0 q c : context h = Some (0xF0, ds0) -> length ds0 = (6 * q)%nat ->
  Forall is_u7 c -> length c = 6%nat ->
  annotates false g h (annotate_data c (EPacket (sx7_packet g (if (q =? 0)%nat then 1 else 2) c))) /\
  context (fold_left remember c h) = Some (0xF0, ds0 ++ c).
Proof.
  intros C L F N. destruct c as [|a [|b [|c [|d [|e [|f [|]]]]]]]; try discriminate.
  destruct (six_bytes g h ds0 q a b c d e f C L F) as [O6 C6]. split; [|exact C6].
  change [a; b; c; d; e; f] with ([a; b; c; d; e] ++ [f]) in O6, F |- *. apply Forall_app in F as [F5 _].
  destruct (short_tail g h ds0 q [a; b; c; d; e] C L F5 ltac:(cbn; lia)) as [O5 _].
  apply mark; [exact O5|]. rewrite outputs_app, O5 in O6. cbn [app outputs] in O6. now rewrite app_nil_r in O6.
Qed.

Lemma last_emission g h ds0 q c : context h = Some (0xF0, ds0) -> length ds0 = (6 * q)%nat ->
  Forall is_u7 c -> (length c < 6)%nat -> (q <> 0 \/ c <> [])%nat ->
  outputs false g h c = [] /\
  emission false g (fold_left remember c h) 0xF7 = [EPacket (sx7_packet g (if (q =? 0)%nat then 0 else 3) c)].
Proof.
  intros C L F S NE. destruct (short_tail g h ds0 q c C L F S) as [O C']. split; [exact O|].
  rewrite (emission_f7 _ _ _ _ C'). unfold on_sysex_end. rewrite app_length, L.
  destruct (Nat.eqb_spec q 0) as [->|Q].
  - destruct ds0; [|discriminate]. cbn [app].
    replace (6 * 0 + length c =? 0)%nat with false by (destruct c; [tauto|reflexivity]).
    replace (6 * 0 + length c <? 6)%nat with true by lia. reflexivity.
  - replace (6 * q + length c =? 0)%nat with false by lia.
    replace (6 * q + length c <? 6)%nat with false by lia.
    replace ((6 * q + length c) mod 6)%nat with (length c)
      by (replace (6 * q + length c)%nat with (length c + q * 6)%nat by lia;
          rewrite Nat.mod_add, Nat.mod_small by lia; reflexivity).
    replace (lastn (length c) (ds0 ++ c)) with c; [reflexivity|].
    unfold lastn. rewrite app_length. replace (length ds0 + length c - length c)%nat with (length ds0) by lia.
    rewrite skipn_app, skipn_all, Nat.sub_diag. reflexivity.
Qed.

Lemma sx7_packet_bytes g f ds : 0 <= g < 16 -> 0 <= f < 4 -> (length ds <= 6)%nat -> Forall is_u7 ds ->
  packet_bytes (sx7_packet g f ds) =
  (if (f =? 0) || (f =? 1) then [0xF0] else []) ++ ds ++ (if (f =? 0) || (f =? 3) then [0xF7] else []).
Proof. intros. unfold packet_bytes. rewrite sx7_to_bytes; trivial. now apply Forall_u7_u8. Qed.

Lemma filled_tail g chunks : 0 <= g < 16 -> forall h ds0 q, context h = Some (0xF0, ds0) ->
  length ds0 = (6 * S q)%nat -> filled chunks -> Forall (Forall is_u7) chunks ->
  annotates false g h (anns (sx7_tail g chunks)).
Proof.
  intros G. induction chunks as [|c [|c' rest] IH]; intros h ds0 q C L FI F; [destruct FI| |].
  - inversion_clear F as [|? ? Fc _]. cbn [filled] in FI. cbn [sx7_tail]. unfold anns. cbn [map concat].
    rewrite app_nil_r. unfold ann. rewrite sx7_packet_bytes by (trivial; lia). cbn [Z.eqb Pos.eqb orb app].
    destruct (last_emission g h ds0 (S q) c C L Fc FI ltac:(left; lia)) as [O E].
    apply mark; [exact O|exact E].
  - inversion_clear F as [|? ? Fc F']. destruct FI as [N FI].
    change (sx7_tail g (c :: c' :: rest)) with (sx7_packet g 2 c :: sx7_tail g (c' :: rest)).
    destruct (six_annotated g h ds0 (S q) c C L Fc N) as [A C'].
    change (anns (sx7_packet g 2 c :: sx7_tail g (c' :: rest)))
      with (ann (sx7_packet g 2 c) ++ anns (sx7_tail g (c' :: rest))).
    assert (B : packet_bytes (sx7_packet g 2 c) = c).
    { rewrite sx7_packet_bytes by (trivial; lia). cbn [Z.eqb Pos.eqb orb app]. apply app_nil_r. }
    apply annotates_app.
    + unfold ann. rewrite B. exact A.
    + unfold ann. rewrite B, annotate_data_fst. apply (IH _ _ (S q) C'); trivial.
      rewrite app_length, L, N. lia.
Qed.

Lemma annotates_cons_quiet cb g h b a e : emission cb g h b = [] -> annotates cb g (remember h b) (annotate_data a e) ->
  a <> [] -> annotates cb g h (annotate_data (b :: a) e).
Proof. intros E A N. destruct a; [congruence|]. constructor; [now rewrite E|exact A]. Qed.

Lemma filled_sequence g chunks h : 0 <= g < 16 -> filled chunks -> Forall (Forall is_u7) chunks ->
  concat chunks <> [] -> annotates false g h (anns (sx7_sequence g chunks)).
Proof.
  intros G FI F NE.
  assert (C : context (remember h 0xF0) = Some (0xF0, [])) by (apply context_status; lia).
  assert (EF : emission false g h 0xF0 = []) by reflexivity.
  destruct chunks as [|c [|c' rest]]; [destruct FI| |].
  - inversion_clear F as [|? ? Fc _]. cbn [filled] in FI. cbn [concat] in NE. rewrite app_nil_r in NE.
    cbn [sx7_sequence]. unfold anns. cbn [map concat].
    rewrite app_nil_r. unfold ann. rewrite sx7_packet_bytes by (trivial; lia). cbn [Z.eqb Pos.eqb orb app].
    destruct (last_emission g _ [] 0 c C eq_refl Fc FI ltac:(right; exact NE)) as [O E].
    apply annotates_cons_quiet; [exact EF| |now destruct c]. now apply mark.
  - inversion_clear F as [|? ? Fc F']. destruct FI as [N FI].
    change (sx7_sequence g (c :: c' :: rest)) with (sx7_packet g 1 c :: sx7_tail g (c' :: rest)).
    destruct (six_annotated g _ [] 0 c C eq_refl Fc N) as [A C'].
    change (anns (sx7_packet g 1 c :: sx7_tail g (c' :: rest)))
      with (ann (sx7_packet g 1 c) ++ anns (sx7_tail g (c' :: rest))).
    assert (B : packet_bytes (sx7_packet g 1 c) = 0xF0 :: c).
    { rewrite sx7_packet_bytes by (trivial; lia). cbn [Z.eqb Pos.eqb orb app]. now rewrite app_nil_r. }
    apply annotates_app; unfold ann; rewrite B.
    + apply annotates_cons_quiet; [exact EF|exact A|now destruct c].
    + rewrite annotate_data_fst. cbn [fold_left]. apply (filled_tail g (c' :: rest) G _ _ 0%nat C'); trivial.
Qed.

(* ---- bytes of the packets of a message ---------------------------------------------------- *)

Definition message_bytes (m : midi_message) : list Z :=
  match m with
  | Short m => ms_status m :: ms_data m
  | SysExBytes ds => 0xF0 :: ds ++ [0xF7]
  end.

Lemma stream_app a b x y : stream_of_packets a = Ok x -> stream_of_packets b = Ok y ->
  stream_of_packets (a ++ b) = Ok (x ++ y).
Proof.
  revert x. induction a as [|p a IH]; intros x A B; cbn [app stream_of_packets] in *.
  - now injection A as <-.
  - destruct (to_midi1_byte_stream p) as [bp|]; [|discriminate]. cbn [bind] in *.
    destruct (stream_of_packets a) as [xa|]; [|discriminate]. cbn [bind] in *. injection A as <-.
    rewrite (IH xa eq_refl B). cbn [bind]. now rewrite app_assoc.
Qed.

Lemma tail_stream g chunks : 0 <= g < 16 -> divided chunks -> Forall (Forall is_u7) chunks ->
  stream_of_packets (sx7_tail g chunks) = Ok (concat chunks ++ [0xF7]).
Proof.
  intros G [N D]. revert N. induction D as [|c rest L D IH]; intros N F; [congruence|]. clear N.
  inversion_clear F as [|? ? F1 F2]. destruct rest as [|c' rest].
  - cbn [sx7_tail stream_of_packets]. rewrite sx7_to_bytes by (trivial; try lia; now apply Forall_u7_u8).
    cbn. now rewrite !app_nil_r.
  - change (sx7_tail g (c :: c' :: rest)) with (sx7_packet g 2 c :: sx7_tail g (c' :: rest)).
    cbn [stream_of_packets]. rewrite sx7_to_bytes by (trivial; try lia; now apply Forall_u7_u8). cbn [bind].
    rewrite IH by (trivial; discriminate). cbn [bind]. cbn [Z.eqb Pos.eqb orb app concat].
    now rewrite app_nil_r, <- !app_assoc.
Qed.
Lemma sequence_stream g chunks : 0 <= g < 16 -> divided chunks -> Forall (Forall is_u7) chunks ->
  stream_of_packets (sx7_sequence g chunks) = Ok (0xF0 :: concat chunks ++ [0xF7]).
Proof.
  intros G [N D] F. destruct D as [|c rest L D]; [congruence|]. inversion_clear F as [|? ? F1 F2].
  destruct rest as [|c' rest].
  - cbn [sx7_sequence stream_of_packets]. rewrite sx7_to_bytes by (trivial; try lia; now apply Forall_u7_u8).
    cbn. now rewrite !app_nil_r.
  - change (sx7_sequence g (c :: c' :: rest)) with (sx7_packet g 1 c :: sx7_tail g (c' :: rest)).
    cbn [stream_of_packets]. rewrite sx7_to_bytes by (trivial; try lia; now apply Forall_u7_u8). cbn [bind].
    assert (DV : divided (c' :: rest)) by (split; [discriminate|assumption]).
    rewrite (tail_stream g (c' :: rest) G DV F2). cbn [bind].
    cbn [Z.eqb Pos.eqb orb app concat]. now rewrite app_nil_r, <- !app_assoc.
Qed.

Lemma filled_divided chunks : filled chunks -> divided chunks.
Proof.
  induction chunks as [|c [|c' rest] IH]; intros F; [destruct F| |].
  - cbn in F. split; [discriminate|constructor; [lia|constructor]].
  - destruct F as [N F]. destruct (IH F) as [_ D]. split; [discriminate|constructor; [lia|exact D]].
Qed.

Lemma session_bytes gms ps : session divided gms ps ->
  stream_of_packets ps = Ok (concat (map (fun gm => message_bytes (snd gm)) gms)).
Proof.
  induction 1 as [|[g m] gms ps qs (G & V & CR) _ IH]; [reflexivity|]. cbn [map concat].
  apply stream_app; [|exact IH]. cbn [fst snd] in *. destruct m as [m|ds].
  - subst ps. cbn [stream_of_packets]. destruct (short_to_bytes g m G V) as [-> _]. cbn [bind].
    now rewrite app_nil_r.
  - destruct CR as (chunks & D & <- & ->). apply sequence_stream; trivial. apply Forall_concat, V.
Qed.

Lemma filled_session gms ps : session filled gms ps -> session divided gms ps.
Proof.
  induction 1 as [|[g m] gms ps qs (G & V & CR) _ IH]; [constructor|]. constructor; [|exact IH].
  split; [exact G|]. split; [exact V|]. cbn [fst snd] in *. destruct m as [m|ds]; [exact CR|].
  destruct CR as (chunks & D & E). exists chunks. split; [now apply filled_divided|exact E].
Qed.

(* every payload can be filled up *)
Lemma fill ds : exists chunks, filled chunks /\ concat chunks = ds.
Proof.
  remember (length ds) as n eqn:E. revert ds E. induction n as [n IH] using lt_wf_ind. intros ds E.
  destruct (Nat.lt_ge_cases (length ds) 6) as [S|S].
  - exists [ds]. split; [exact S|apply app_nil_r].
  - destruct (IH (length (skipn 6 ds))) with (ds := skipn 6 ds) as (chunks & F & C); trivial.
    { rewrite skipn_length. lia. }
    exists (firstn 6 ds :: chunks). split.
    + destruct chunks; [destruct F|]. split; [rewrite firstn_length; lia|exact F].
    + cbn [concat]. rewrite C. apply firstn_skipn.
Qed.

Lemma refill g gms ps : 0 <= g < 16 -> session divided gms ps -> exists ps', session filled (regroup g gms) ps'.
Proof.
  intros G. induction 1 as [|[g' m] gms ps qs (G' & V & CR) _ (qs' & IH)]; [exists []; constructor|].
  cbn [fst snd] in *. destruct m as [m|ds].
  - eexists. apply session_cons; [|exact IH]. split; [exact G|]. split; [exact V|]. reflexivity.
  - destruct (fill ds) as (chunks & F & C). eexists. apply session_cons; [|exact IH].
    split; [exact G|]. split; [exact V|]. exists chunks. split; [exact F|]. split; [exact C|reflexivity].
Qed.

Lemma regroup_bytes g (gms : list (Z * midi_message)) :
  map (fun gm => message_bytes (snd gm)) (regroup g gms) = map (fun gm => message_bytes (snd gm)) gms.
Proof. unfold regroup. rewrite map_map. reflexivity. Qed.

(* ---- the filled session is annotated by its own packets -------------------------------------- *)

Lemma sends_short g m : 0 <= g < 16 -> valid_message m -> sends (short_packet g (ms_status m) (ms_data m)).
Proof. intros G V. destruct (short_to_bytes g m G V) as [E _]. eexists; eexists; exact E. Qed.

Lemma sends_tail g chunks : 0 <= g < 16 -> filled chunks -> Forall (Forall is_u7) chunks -> Forall sends (sx7_tail g chunks).
Proof.
  intros G. induction chunks as [|c [|c' rest] IH]; intros FI F; [destruct FI| |].
  - inversion_clear F as [|? ? Fc _]. cbn [filled] in FI. cbn [sx7_tail]. constructor; [|constructor].
    unfold sends. rewrite sx7_to_bytes by (trivial; try lia; now apply Forall_u7_u8).
    cbn [Z.eqb Pos.eqb orb app]. destruct c; eexists; eexists; reflexivity.
  - inversion_clear F as [|? ? Fc F']. destruct FI as [N FI].
    change (sx7_tail g (c :: c' :: rest)) with (sx7_packet g 2 c :: sx7_tail g (c' :: rest)).
    constructor; [|auto]. unfold sends. rewrite sx7_to_bytes by (trivial; try lia; now apply Forall_u7_u8).
    cbn [Z.eqb Pos.eqb orb app]. destruct c; [discriminate|]. eexists; eexists; reflexivity.
Qed.
Lemma sends_sequence g chunks : 0 <= g < 16 -> filled chunks -> Forall (Forall is_u7) chunks -> Forall sends (sx7_sequence g chunks).
Proof.
  intros G FI F. destruct chunks as [|c [|c' rest]]; [destruct FI| |]; inversion_clear F as [|? ? Fc F'].
  - cbn [filled] in FI. constructor; [|constructor]. unfold sends.
    rewrite sx7_to_bytes by (trivial; try lia; now apply Forall_u7_u8). eexists; eexists; reflexivity.
  - destruct FI as [N FI].
    change (sx7_sequence g (c :: c' :: rest)) with (sx7_packet g 1 c :: sx7_tail g (c' :: rest)).
    constructor; [|now apply sends_tail]. unfold sends.
    rewrite sx7_to_bytes by (trivial; try lia; now apply Forall_u7_u8). eexists; eexists; reflexivity.
Qed.

Lemma ann_short g m : 0 <= g < 16 -> valid_message m ->
  ann (short_packet g (ms_status m) (ms_data m)) = render_full g m.
Proof.
  intros G V. unfold ann, packet_bytes. destruct (short_to_bytes g m G V) as [-> _]. unfold render_full.
  destruct (ms_data m); reflexivity.
Qed.

Lemma session_annotated g gms ps : session filled gms ps -> Forall (fun gm => fst gm = g) gms ->
  Forall sends ps /\ forall h, annotates false g h (anns ps).
Proof.
  induction 1 as [|[g' m] gms ps qs (G & V & CR) _ IH]; intros E; [split; [constructor|constructor]|].
  inversion_clear E as [|? ? E1 E2]. cbn [fst snd] in *. subst g'. destruct (IH E2) as [S A].
  destruct m as [m|ds].
  - subst ps. split; [constructor; [now apply sends_short|exact S]|]. intros h. rewrite anns_app.
    apply annotates_app; [|apply A]. unfold anns. cbn [map concat]. rewrite app_nil_r, ann_short by trivial.
    apply annotate_full, V.
  - destruct CR as (chunks & D & <- & ->). destruct V as [NE U].
    assert (F := Forall_concat _ _ U). split.
    + apply Forall_app; split; [now apply sends_sequence|exact S].
    + intros h. rewrite anns_app. apply annotates_app; [now apply filled_sequence|apply A].
Qed.

Lemma between_sends rs ps qs : realtime_between rs ps qs -> Forall sends ps -> Forall sends qs.
Proof.
  induction 1 as [|rs p ps qs _ IH|g r rs ps qs G R D _ IH]; intros S; [constructor| |].
  - inversion_clear S. constructor; auto.
  - constructor; [|auto]. destruct (rt_to_bytes g r G R D) as [E _]. eexists; eexists; exact E.
Qed.

Lemma with_realtime_app g x a b : with_realtime g a b -> with_realtime g (x ++ a) (x ++ b).
Proof. intros W. induction x; [exact W|]. now constructor. Qed.

Lemma between_annotated g rs ps qs : realtime_between rs ps qs -> Forall (fun gr => fst gr = g) rs ->
  with_realtime g (anns ps) (anns qs).
Proof.
  induction 1 as [|rs p ps qs _ IH|g' r rs ps qs G R D _ IH]; intros E; [constructor| |].
  - apply (with_realtime_app g (ann p)). auto.
  - inversion_clear E as [|? ? E1 E2]. cbn [fst] in E1. subst g'.
    assert (X : anns (short_packet g r [] :: qs) = (r, if rt_defined r then [EPacket (short_packet g r [])] else []) :: anns qs).
    { unfold anns. cbn [map concat]. unfold ann at 1, packet_bytes. destruct (rt_to_bytes g r G R D) as [-> _].
      rewrite D. reflexivity. }
    rewrite X. constructor; [unfold is_rt; lia|lia|auto].
Qed.

Lemma message_bytes_u8 m : valid_midi_message m -> Forall is_u8 (message_bytes m).
Proof.
  destruct m as [m|ds]; [apply annotate_u8|]. intros [_ U]. unfold message_bytes.
  constructor; [unfold is_u8; lia|]. apply Forall_app; split; [now apply Forall_u7_u8|repeat constructor; unfold is_u8; lia].
Qed.
Lemma message_bytes_starts m : valid_midi_message m ->
  exists b bs, message_bytes m = b :: bs /\ 0x80 <= b < 0xF7 /\ Forall (fun b => is_rt b = false) (message_bytes m).
Proof.
  assert (U7 : forall l, Forall is_u7 l -> Forall (fun b => is_rt b = false) l)
    by (intros l; apply Forall_impl; unfold is_u7, is_rt; intros; lia).
  destruct m as [m|ds]; intros V.
  - destruct (valid_message_status m V). eexists; eexists. split; [reflexivity|]. split; [lia|].
    constructor; [unfold is_rt; lia|apply U7, V].
  - destruct V as [_ U]. eexists; eexists. split; [reflexivity|]. split; [lia|].
    constructor; [reflexivity|]. apply Forall_app; split; [auto|repeat constructor].
Qed.

Lemma session_valid D gms ps : session D gms ps -> Forall (fun gm => valid_midi_message (snd gm)) gms.
Proof. induction 1 as [|gm gms ps qs (G & V & CR) _ IH]; constructor; trivial. Qed.

Definition session_stream (gms : list (Z * midi_message)) : list Z := concat (map (fun gm => message_bytes (snd gm)) gms).

Lemma stream_ok gms : Forall (fun gm => valid_midi_message (snd gm)) gms ->
  Forall is_u8 (session_stream gms) /\ filter not_rt (session_stream gms) = session_stream gms /\
  starts_with_status (session_stream gms).
Proof.
  intros V. assert (N : filter not_rt (session_stream gms) = session_stream gms /\ Forall is_u8 (session_stream gms)).
  { unfold session_stream. induction V as [|gm gms V _ [IH1 IH2]]; [split; [reflexivity|constructor]|].
    cbn [map concat]. rewrite filter_app, IH1. destruct (message_bytes_starts _ V) as (b & bs & _ & _ & R). split.
    - f_equal. apply filter_all. eapply Forall_impl; [|exact R]. unfold not_rt. intros a ->. reflexivity.
    - apply Forall_app; split; [now apply message_bytes_u8|exact IH2]. }
  destruct N as [N1 N2]. split; [exact N2|]. split; [exact N1|]. unfold starts_with_status. rewrite N1.
  unfold session_stream. destruct V as [|gm gms V _]; [exact I|]. cbn [map concat].
  destruct (message_bytes_starts _ V) as (b & bs & -> & R & _). cbn [app]. lia.
Qed.

Lemma app_eq_app_len {A} (a b c d : list A) : a ++ b = c ++ d -> length a = length c -> a = c /\ b = d.
Proof.
  revert c. induction a as [|x a IH]; intros [|y c] E L; cbn in *; try discriminate; [auto|].
  injection E as -> E. injection L as L. destruct (IH c E L) as [-> ->]. auto.
Qed.

(* real-time bytes of the inserted packets *)
Lemma between_stream rs ps qs bs : realtime_between rs ps qs -> stream_of_packets ps = Ok bs ->
  Forall is_u8 bs -> filter not_rt bs = bs ->
  exists cs, stream_of_packets qs = Ok cs /\ filter not_rt cs = bs /\ filter is_rt cs = map snd rs /\ Forall is_u8 cs.
Proof.
  intros B. revert bs. induction B as [|rs p ps qs _ IH|g r rs ps qs G R D _ IH]; intros bs E U N.
  - injection E as <-. exists []. repeat split; constructor.
  - cbn [stream_of_packets] in *. destruct (to_midi1_byte_stream p) as [bp|]; [|discriminate]. cbn [bind] in *.
    destruct (stream_of_packets ps) as [xa|]; [|discriminate]. cbn [bind] in *. injection E as <-.
    apply Forall_app in U as [U1 U2]. rewrite filter_app in N.
    assert (LEN : forall l : list Z, (length (filter not_rt l) <= length l)%nat).
    { intros l. induction l as [|x l IHl]; cbn; [lia|]. destruct (not_rt x); cbn; lia. }
    assert (N1 : filter not_rt bp = bp /\ filter not_rt xa = xa).
    { assert (Q : length (filter not_rt bp) = length bp).
      { pose proof (LEN bp). pose proof (LEN xa). apply (f_equal (@length Z)) in N. rewrite !app_length in N. lia. }
      apply app_eq_app_len in N; auto. }
    destruct N1 as [N1 N2]. destruct (IH xa eq_refl U2 N2) as (cs & E & F1 & F2 & U3).
    exists (bp ++ cs). rewrite E. cbn [bind]. split; [reflexivity|]. rewrite !filter_app, N1, F1, F2.
    split; [reflexivity|]. split; [|now apply Forall_app].
    replace (filter is_rt bp) with (@nil Z); [reflexivity|]. symmetry. apply filter_none.
    rewrite <- N1. apply Forall_forall. intros x X. apply filter_In in X as [_ X]. unfold not_rt in X. now destruct (is_rt x).
  - destruct (IH bs E U N) as (cs & E' & F1 & F2 & U3). cbn [stream_of_packets].
    destruct (rt_to_bytes g r G R D) as [-> _]. rewrite E'. cbn [bind]. exists (r :: cs). split; [reflexivity|].
    assert (RT : is_rt r = true) by (unfold is_rt; lia).
    cbn [filter map snd]. unfold not_rt at 1. rewrite RT. cbn [negb].
    rewrite F1, F2. repeat split. constructor; [unfold is_u8; lia|exact U3].
Qed.

(* ---- the theorems -------------------------------------------------------------------------- *)

Lemma session_unchanged g st ms ps rs qs : reached g false st ->
  session filled (map (fun m => (g, m)) ms) ps -> realtime_between (map (fun r => (g, r)) rs) ps qs ->
  exists bs st', stream_of_packets qs = Ok bs /\ feed_all st bs = Ok (st', map EPacket qs).
Proof.
  intros R S B.
  assert (E1 : Forall (fun gm => fst gm = g) (map (fun m : midi_message => (g, m)) ms))
    by (apply Forall_forall; intros x X; apply in_map_iff in X as (y & <- & _); reflexivity).
  assert (E2 : Forall (fun gm => fst gm = g) (map (fun r : Z => (g, r)) rs))
    by (apply Forall_forall; intros x X; apply in_map_iff in X as (y & <- & _); reflexivity).
  destruct (session_annotated g _ ps S E1) as [SP A]. assert (SQ := between_sends _ _ _ B SP).
  assert (W := between_annotated g _ _ _ B E2). assert (AQ := annotates_rt false g _ _ W [] (A [])).
  assert (SB := session_bytes _ _ (filled_session _ _ S)). fold (session_stream (map (fun m => (g, m)) ms)) in SB.
  destruct (stream_ok _ (session_valid _ _ _ S)) as (U & N & ST).
  destruct (between_stream _ _ _ _ B SB U N) as (cs & EC & F1 & F2 & UC).
  exists cs. assert (SC : starts_with_status cs) by (unfold starts_with_status in *; rewrite F1; rewrite N in ST; exact ST).
  destruct (resync g false st cs R UC SC) as (st' & E). exists st'. split; [exact EC|]. rewrite E.
  rewrite (anns_stream qs SQ) in EC. injection EC as EC. rewrite <- EC.
  rewrite (annotates_outputs _ _ _ _ AQ), anns_events by exact SQ. reflexivity.
Qed.

(* an event list is determined by its two parts *)
Lemma between_join (ps : list packet) rs : forall out, filter not_rt_event out = map EPacket ps ->
  filter is_realtime_event out = map (fun gr => EPacket (short_packet (fst gr) (snd gr) [])) rs ->
  Forall (fun gr => 0 <= fst gr < 16 /\ 0xF8 <= snd gr < 256 /\ rt_defined (snd gr) = true) rs ->
  exists qs, out = map EPacket qs /\ realtime_between rs ps qs.
Proof.
  intros out. revert ps rs. induction out as [|e out IH]; intros ps rs E1 E2 F.
  - destruct ps; [|discriminate]. destruct rs; [|discriminate]. exists []. split; [reflexivity|constructor].
  - cbn [filter] in E1, E2. unfold not_rt_event in E1 at 1. destruct (is_realtime_event e); cbn [negb] in E1.
    + destruct rs as [|[g r] rs]; [discriminate|]. cbn [map fst snd] in E2. injection E2 as -> E2.
      inversion_clear F as [|? ? (G & R & D) F']. destruct (IH ps rs E1 E2 F') as (qs & -> & B).
      eexists (_ :: qs). split; [reflexivity|]. now constructor.
    + destruct ps as [|p ps]; [discriminate|]. cbn [map] in E1. injection E1 as -> E1.
      destruct (IH ps rs E1 E2 F) as (qs & -> & B). exists (p :: qs). split; [reflexivity|]. now constructor.
Qed.

Lemma outputs_only_rt cb g bs : 0 <= g < 16 -> Forall is_u8 bs -> Forall (fun r => rt_defined r = true) (filter is_rt bs) ->
  forall h, ctx_ok (context h) ->
  filter is_realtime_event (outputs cb g h bs) = map (fun r => EPacket (short_packet g r [])) (filter is_rt bs).
Proof.
  intros G. induction 1 as [|b bs B _ IH]; intros D h C; cbn [outputs filter map]; [reflexivity|].
  rewrite filter_app. unfold is_u8 in B. cbn [filter] in D. destruct (is_rt b) eqn:R.
  - inversion_clear D as [|? ? D1 D2]. cbn [map]. rewrite IH by (trivial; rewrite context_remember; now apply ctx_ok_next).
    unfold emission. rewrite R, D1. cbn [filter]. unfold is_rt in R. rewrite rt_is_rt by lia. reflexivity.
  - rewrite IH by (trivial; rewrite context_remember; now apply ctx_ok_next).
    replace (filter is_realtime_event (emission cb g h b)) with (@nil event); [reflexivity|].
    symmetry. apply filter_none. unfold is_rt in R.
    assert (X := emit_not_rt cb g (context h) b G ltac:(lia) C). rewrite <- emission_ctx in X. rewrite <- X.
    apply Forall_forall. intros e Y. apply filter_In in Y as [_ Y]. unfold not_rt_event in Y.
    now destruct (is_realtime_event e).
Qed.

Lemma between_valid rs ps qs : realtime_between rs ps qs ->
  Forall (fun gr => 0 <= fst gr < 16 /\ 0xF8 <= snd gr < 256 /\ rt_defined (snd gr) = true) rs.
Proof. induction 1; try constructor; auto. Qed.

Lemma session_events cb g st gms ps rs qs : reached g cb st -> session divided gms ps -> realtime_between rs ps qs ->
  exists bs st' out, stream_of_packets qs = Ok bs /\ feed_all st bs = Ok (st', out) /\
    filter not_rt_event out = outputs cb g [] (session_stream gms) /\
    filter is_realtime_event out = map (fun gr => EPacket (short_packet (fst gr) (snd gr) [])) (regroup g rs).
Proof.
  intros R S B. assert (G := reached_group _ _ _ R). assert (SB := session_bytes _ _ S). fold (session_stream gms) in SB.
  destruct (stream_ok _ (session_valid _ _ _ S)) as (U & N & ST).
  destruct (between_stream _ _ _ _ B SB U N) as (cs & EC & F1 & F2 & UC).
  assert (SC : starts_with_status cs) by (unfold starts_with_status in *; rewrite F1; rewrite N in ST; exact ST).
  destruct (resync g cb st cs R UC SC) as (st' & E). exists cs, st', (outputs cb g [] cs).
  split; [exact EC|]. split; [exact E|]. split.
  - rewrite outputs_filter_rt by (trivial; exact I). now rewrite F1.
  - rewrite outputs_only_rt; trivial; [|rewrite F2; apply Forall_forall; intros x X;
      apply in_map_iff in X as (y & <- & Y); assert (V := between_valid _ _ _ B); rewrite Forall_forall in V; apply (V y Y)|exact I].
    rewrite F2. unfold regroup. rewrite !map_map. reflexivity.
Qed.

Lemma session_refilled g st gms ps rs qs : reached g false st -> session divided gms ps -> realtime_between rs ps qs ->
  exists bs st' ps' qs', stream_of_packets qs = Ok bs /\ feed_all st bs = Ok (st', map EPacket qs') /\
    session filled (regroup g gms) ps' /\ realtime_between (regroup g rs) ps' qs'.
Proof.
  intros R S B. assert (G := reached_group _ _ _ R).
  destruct (session_events false g st gms ps rs qs R S B) as (bs & st' & out & E1 & E2 & E3 & E4).
  destruct (refill g gms ps G S) as (ps' & S').
  assert (EG : Forall (fun gm => fst gm = g) (regroup g gms))
    by (apply Forall_forall; intros x X; apply in_map_iff in X as (y & <- & _); reflexivity).
  destruct (session_annotated g _ ps' S' EG) as [SP A].
  assert (SB := session_bytes _ _ (filled_session _ _ S')). rewrite regroup_bytes in SB. fold (session_stream gms) in SB.
  assert (O : outputs false g [] (session_stream gms) = map EPacket ps').
  { rewrite (anns_stream ps' SP) in SB. injection SB as SB. rewrite <- SB.
    rewrite (annotates_outputs _ _ _ _ (A [])), anns_events by exact SP. reflexivity. }
  rewrite O in E3.
  assert (V : Forall (fun gr => 0 <= fst gr < 16 /\ 0xF8 <= snd gr < 256 /\ rt_defined (snd gr) = true) (regroup g rs)).
  { apply Forall_forall. intros x X. apply in_map_iff in X as (y & <- & Y). cbn [fst snd].
    assert (V := between_valid _ _ _ B). rewrite Forall_forall in V. split; [exact G|apply (V y Y)]. }
  destruct (between_join ps' _ out E3 E4 V) as (qs' & -> & B').
  exists bs, st', ps', qs'. auto.
Qed.

Lemma session_delivered g st gms ps rs qs : reached g true st -> session divided gms ps -> realtime_between rs ps qs ->
  exists bs st' out, stream_of_packets qs = Ok bs /\ feed_all st bs = Ok (st', out) /\
    filter not_rt_event out = concat (map (delivered g) gms) /\
    filter is_realtime_event out = map (fun gr => EPacket (short_packet (fst gr) (snd gr) [])) (regroup g rs).
Proof.
  intros R S B.
  destruct (session_events true g st gms ps rs qs R S B) as (bs & st' & out & E1 & E2 & E3 & E4).
  exists bs, st', out. split; [exact E1|]. split; [exact E2|]. split; [|exact E4]. rewrite E3.
  assert (V := session_valid _ _ _ S). clear - V.
  assert (X : forall h, outputs true g h (session_stream gms) = concat (map (delivered g) gms)).
  { unfold session_stream. induction V as [|[g' m] gms V _ IH]; intros h; [reflexivity|]. cbn [map concat snd].
    rewrite outputs_app, IH. f_equal. cbn [snd] in V. unfold delivered. cbn [snd]. destruct m as [m|ds].
    - cbn [message_bytes]. destruct (annotate_full true g m h V) as (A & M & _). rewrite <- M.
      rewrite (annotates_outputs _ _ _ _ A). unfold render_full.
      destruct (ms_data m) as [|a l]; [reflexivity|]. cbn [map concat snd app]. apply annotate_data_events.
    - cbn [message_bytes]. apply outputs_sysex_cb, V. }
  apply X.
Qed.

Lemma filled_chunks_unique a : forall b, filled a -> filled b -> concat a = concat b -> a = b.
Proof.
  induction a as [|x a IH]; intros b FA FB E; [destruct FA|]. destruct b as [|y b]; [destruct FB|].
  assert (LA : (length x <= 6)%nat) by (destruct a; cbn in FA; lia).
  assert (LB : (length y <= 6)%nat) by (destruct b; cbn in FB; lia).
  cbn [concat] in E. assert (N := f_equal (@length Z) E). rewrite !app_length in N.
  assert (P : forall l, filled l -> (0 <= length (concat l))%nat) by (intros; lia).
  destruct a as [|x' a]; destruct b as [|y' b].
  - cbn [concat] in E. rewrite !app_nil_r in E. now subst.
  - destruct FB as [L6 _]. cbn in FA, N. lia.
  - destruct FA as [L6 _]. cbn in FB, N. lia.
  - destruct FA as [L6 FA]. destruct FB as [L6' FB].
    destruct (app_eq_app_len _ _ _ _ E ltac:(lia)) as [-> E']. f_equal. now apply IH.
Qed.

Lemma filled_unique gms ps qs : session filled gms ps -> session filled gms qs -> ps = qs.
Proof.
  intros A. revert qs. induction A as [|[g m] gms p ps (G & V & CR) _ IH]; intros qs B; inversion B as [|? ? q qs' (G' & V' & CR') B']; subst; [reflexivity|].
  rewrite (IH _ B'). f_equal. cbn [fst snd] in *. destruct m as [m|ds]; [congruence|].
  destruct CR as (c & F & E & ->). destruct CR' as (c' & F' & E' & ->). f_equal.
  apply filled_chunks_unique; trivial. congruence.
Qed.
