(* C108: a merge box with limited memory leaves out whole messages *)
From Coq Require Import ZArith List Bool Lia.
From Verif Require Import Base Packet PacketSpec ByteStream Sysex StreamSpec SessionSpec StreamProofs PropsStream Merge MergeSpec LimitBox LimitBoxSpec LimitBoxProofs.
Import ListNotations.
Local Open Scope Z_scope.

(* Every connection s sends any messages (ms s) and any real-time messages (rts s), the packets of all connections arrive
   in any order, and the box keeps at most n packets waiting: what comes out of the wire behind it are some of the messages,
   whole, each connection's in their order, all real-time messages in the order of arrival, and nothing else. *)
Theorem C108_whole : forall n g st ms rts l, reached g true st -> (forall s, sent_as (ms s) (rts s) (of_source s l)) ->
  exists b out order ros, limited_run n new_limited l = (b, out) /\ mg_waiting (lm_merger b) = [] /\
    (forall s, some_of (of_source s order) (ms s)) /\ (forall s, of_source s ros = rts s) /\
    filter (fun x => realtime_packet (snd x)) out = filter (fun x => realtime_packet (snd x)) l /\
    arrives g st (map snd order) (map snd ros) (map snd out).
Proof. exact limited_merged. Qed.
Print Assumptions C108_whole.

(* The same from MIDI 1 bytes, arriving in any order, with running status and real-time bytes anywhere. *)
Theorem C108_bytes : forall n g st gr P ms rts sched, reached g true st -> (forall s, reached (gr s) false (P s)) ->
  (forall s, on_cable (ms s) (rts s) (of_source s sched)) ->
  exists b out order ros, lbox_run n (mkLBox P new_limited) sched = Ok (b, out) /\ mg_waiting (lm_merger (lb_limited b)) = [] /\
    (forall s, some_of (of_source s order) (ms s)) /\ (forall s, of_source s ros = rts s) /\
    arrives g st (map snd order) (map snd ros) (map snd out).
Proof. exact limited_bytes. Qed.
Print Assumptions C108_bytes.

(* Never more than n packets are waiting, whatever packets arrive. *)
Theorem C108_bounded : forall n l, (length (mg_waiting (lm_merger (fst (limited_run n new_limited l)))) <= n)%nat.
Proof. exact bounded. Qed.
Print Assumptions C108_bounded.

(* ... and whatever bytes arrive; no call has undefined behaviour. *)
Theorem C108_any_bytes : forall n gr cb P sched, (forall s, reached (gr s) (cb s) (P s)) -> Forall (fun x => is_u8 (snd x)) sched ->
  exists b out, lbox_run n (mkLBox P new_limited) sched = Ok (b, out) /\ (length (mg_waiting (lm_merger (lb_limited b))) <= n)%nat.
Proof. exact limited_any_bytes. Qed.
Print Assumptions C108_any_bytes.

(* Nothing is left out as long as the box without a limit (C99) keeps no more than n packets waiting. *)
Theorem C108_enough : forall n l, (forall k, (length (mg_waiting (fst (merge_run new_merger (firstn k l)))) <= n)%nat) ->
  lm_merger (fst (limited_run n new_limited l)) = fst (merge_run new_merger l) /\ snd (limited_run n new_limited l) = snd (merge_run new_merger l).
Proof. exact enough. Qed.
Print Assumptions C108_enough.

(* A message that begins while no other connection is within a SysEx is sent at once, however little memory there is. *)
Theorem C108_served : forall n l s p, Forall (fun x => wf_packet (snd x)) l -> wf_packet p -> realtime_packet p = false -> ~ follows_on p ->
  (forall a o z, filter (fun x => negb (realtime_packet (snd x))) (snd (limited_run n new_limited l)) = a ++ [(o, z)] -> o = s \/ ~ unfinished z) ->
  exists r, snd (limited_run n new_limited (l ++ [(s, p)])) = snd (limited_run n new_limited l) ++ (s, p) :: r.
Proof. exact served. Qed.
Print Assumptions C108_served.

(* Any packets whatever, also broken SysEx: what is sent are some of the packets of each connection in their order and all
   real-time packets, and no connection gets between the packets of another's SysEx. *)
Theorem C108_any_packets : forall n l, Forall (fun x => wf_packet (snd x)) l ->
  exists b out, limited_run n new_limited l = (b, out) /\
    (forall s, some_of (filter (fun p => negb (realtime_packet p)) (of_source s out)) (filter (fun p => negb (realtime_packet p)) (of_source s l))) /\
    filter (fun x => realtime_packet (snd x)) out = filter (fun x => realtime_packet (snd x)) l /\
    (forall a s z s' z' c, filter (fun x => negb (realtime_packet (snd x))) out = a ++ (s, z) :: (s', z') :: c -> unfinished z -> s' = s).
Proof. exact limited_any. Qed.
Print Assumptions C108_any_packets.

(* ---- a concrete case: room for one packet; a SysEx of three packets is left out, and a note ------------------------ *)

Definition c108_arrivals : list (nat * packet) :=
  [(0%nat, mkP 0x30167E01 0x02030405 0 0); (1%nat, mkP 0x31167D01 0x02030405 0 0); (2%nat, mkP 0x22904040 0 0 0);
   (1%nat, mkP 0x31260607 0x08090A0B 0 0); (1%nat, mkP 0x11F80000 0 0 0); (0%nat, mkP 0x30320607 0 0 0);
   (1%nat, mkP 0x31310C00 0 0 0); (1%nat, mkP 0x21903C40 0 0 0)].
Definition c108_messages (s : nat) : list midi_message :=
  match s with
  | 0%nat => [SysExBytes [0x7E; 1; 2; 3; 4; 5; 6; 7]]
  | 1%nat => [SysExBytes [0x7D; 1; 2; 3; 4; 5; 6; 7; 8; 9; 10; 11; 12]; Short (mkMsg 0x90 [0x3C; 0x40])]
  | 2%nat => [Short (mkMsg 0x90 [0x40; 0x40])]
  | _ => []
  end.
Definition c108_realtime (s : nat) : list Z := match s with 1%nat => [0xF8] | _ => [] end.
Lemma c108_sent s : sent_as (c108_messages s) (c108_realtime s) (of_source s c108_arrivals).
Proof.
  assert (V : forall a b, is_u7 a -> is_u7 b -> valid_message (mkMsg 0x90 [a; b]))
    by (intros a b A B; split; [left; split; [cbn; lia|reflexivity]|constructor; [exact A|constructor; [exact B|constructor]]]).
  destruct s as [|[|[|s]]].
  - exists [(0, SysExBytes [0x7E; 1; 2; 3; 4; 5; 6; 7])], [], (of_source 0 c108_arrivals). split; [reflexivity|]. split; [reflexivity|]. split.
    + refine (session_cons _ _ _ [_; _] [] _ (session_nil _)). split; [cbn; lia|]. split; [split; [discriminate|repeat constructor; unfold is_u7; lia]|].
      exists [[0x7E; 1; 2; 3; 4; 5]; [6; 7]]. split; [|split; reflexivity]. split; [discriminate|]. repeat constructor; cbn; lia.
    + cbn. repeat constructor.
  - exists [(1, SysExBytes [0x7D; 1; 2; 3; 4; 5; 6; 7; 8; 9; 10; 11; 12]); (1, Short (mkMsg 0x90 [0x3C; 0x40]))], [(1, 0xF8)],
      [mkP 0x31167D01 0x02030405 0 0; mkP 0x31260607 0x08090A0B 0 0; mkP 0x31310C00 0 0 0; mkP 0x21903C40 0 0 0].
    split; [reflexivity|]. split; [reflexivity|]. split.
    + refine (session_cons _ _ _ [_; _; _] [_] _ (session_cons _ _ _ [_] [] _ (session_nil _))).
      * split; [cbn; lia|]. split; [split; [discriminate|repeat constructor; unfold is_u7; lia]|].
        exists [[0x7D; 1; 2; 3; 4; 5]; [6; 7; 8; 9; 10; 11]; [12]]. split; [|split; reflexivity]. split; [discriminate|]. repeat constructor; cbn; lia.
      * split; [cbn; lia|]. split; [apply V; unfold is_u7; lia|reflexivity].
    + cbn. constructor. constructor. apply (between_insert 1 0xF8); [lia|lia|reflexivity|]. repeat constructor.
  - exists [(2, Short (mkMsg 0x90 [0x40; 0x40]))], [], [mkP 0x22904040 0 0 0]. split; [reflexivity|]. split; [reflexivity|]. split.
    + refine (session_cons _ _ _ [_] [] _ (session_nil _)). split; [cbn; lia|]. split; [apply V; unfold is_u7; lia|reflexivity].
    + cbn. repeat constructor.
  - exists [], [], []. repeat split; constructor.
Qed.

Example C108_ex : (forall s, sent_as (c108_messages s) (c108_realtime s) (of_source s c108_arrivals)) /\ reached 5 true (sample_state true) /\
  (* room for one packet *)
  snd (limited_run 1 new_limited c108_arrivals) =
    [(0%nat, mkP 0x30167E01 0x02030405 0 0); (1%nat, mkP 0x11F80000 0 0 0); (0%nat, mkP 0x30320607 0 0 0); (1%nat, mkP 0x21903C40 0 0 0)] /\
  (* for two: the SysEx is left out, not the note of connection 2 *)
  snd (limited_run 2 new_limited c108_arrivals) =
    [(0%nat, mkP 0x30167E01 0x02030405 0 0); (1%nat, mkP 0x11F80000 0 0 0); (0%nat, mkP 0x30320607 0 0 0); (2%nat, mkP 0x22904040 0 0 0);
     (1%nat, mkP 0x21903C40 0 0 0)] /\
  (* three are enough *)
  (forall k, (length (mg_waiting (fst (merge_run new_merger (firstn k c108_arrivals)))) <= 3)%nat) /\
  snd (limited_run 3 new_limited c108_arrivals) = snd (merge_run new_merger c108_arrivals).
Proof.
  split; [exact c108_sent|]. split; [apply sample_reached|]. split; [reflexivity|]. split; [reflexivity|]. split; [|reflexivity].
  intros k. do 9 (destruct k as [|k]; [vm_compute; lia|]). vm_compute. destruct k; lia.
Qed.
(* the last packet of the case meets the hypotheses of C108_served *)
Example C108_ex_served : let l := firstn 7 c108_arrivals in Forall (fun x => wf_packet (snd x)) l /\ wf_packet (mkP 0x21903C40 0 0 0) /\
  realtime_packet (mkP 0x21903C40 0 0 0) = false /\ ~ follows_on (mkP 0x21903C40 0 0 0) /\
  (forall a o z, filter (fun x => negb (realtime_packet (snd x))) (snd (limited_run 1 new_limited l)) = a ++ [(o, z)] -> o = 1%nat \/ ~ unfinished z).
Proof.
  cbv zeta. split; [repeat constructor; unfold is_u32; cbn; lia|]. split; [repeat constructor; unfold is_u32; cbn; lia|]. split; [reflexivity|].
  split; [intros [H _]; vm_compute in H; discriminate|]. intros a o z E. right. vm_compute in E.
  change [(0%nat, mkP 0x30167E01 0x02030405 0 0); (0%nat, mkP 0x30320607 0 0 0)] with ([(0%nat, mkP 0x30167E01 0x02030405 0 0)] ++ [(0%nat, mkP 0x30320607 0 0 0)]) in E.
  apply app_inj_tail in E as [_ E]. injection E as <- <-. intros (_ & [H|H] & _); vm_compute in H; discriminate.
Qed.
(* the same as bytes *)
Definition c108_schedule : list (nat * Z) :=
  map (pair 0%nat) [0xF0; 0x7E; 1; 2; 3; 4; 5; 6] ++ map (pair 1%nat) [0x90; 0x3C; 0x40; 0x3C; 0xF8; 0] ++ map (pair 0%nat) [7; 0xF7].
Example C108_ex_bytes : exists b, lbox_run 1 (mkLBox (fun _ => sample_state false) new_limited) c108_schedule = Ok (b,
    [(0%nat, mkP 0x35167E01 0x02030405 0 0); (1%nat, mkP 0x15F80000 0 0 0); (0%nat, mkP 0x35320607 0 0 0); (1%nat, mkP 0x25903C40 0 0 0)]) /\
  Forall (fun x => is_u8 (snd x)) c108_schedule /\ reached 5 false (sample_state false).
Proof. eexists. split; [vm_compute; reflexivity|]. split; [repeat constructor; discriminate|apply sample_reached]. Qed.

(* A box that leaves out just the packets for which there is no room does not do: the receiver gets a SysEx that nobody sent. *)
Theorem C108_careless_refuted : exists n l ms rts, (forall s, sent_as (ms s) (rts s) (of_source s l)) /\
  ~ exists order (ros : list (nat * Z)), (forall s, some_of (of_source s order) (ms s)) /\
      arrives 0 (new_parser 0 true true) (map snd order) (map snd ros) (map snd (snd (careless_run n new_merger l))).
Proof.
  exists 1%nat, c108_arrivals, c108_messages, c108_realtime. split; [exact c108_sent|]. intros (order & ros & O & bs & st' & ev & E1 & E2 & E3 & _).
  vm_compute in E1. injection E1 as <-. vm_compute in E2. injection E2 as _ <-.
  assert (I : In (ESysex (mkSx 0x7D0000 [1; 2; 3; 4; 5; 12])) (concat (map (reported 0) (map snd order)))).
  { rewrite <- E3. vm_compute. intuition. }
  apply in_concat in I as (r & I & J). apply in_map_iff in I as (m & <- & I). apply in_map_iff in I as ([s m'] & X & I). cbn [snd] in X. subst m'.
  assert (K : In m (of_source s order)).
  { unfold of_source. apply in_map_iff. exists (s, m). split; [reflexivity|]. apply filter_In. split; [exact I|]. cbn [fst]. apply PeanoNat.Nat.eqb_refl. }
  assert (Q : forall A (x : A) k k', some_of k k' -> In x k -> In x k').
  { clear. induction 1; intros I; cbn [In] in *; intuition. }
  apply (Q _ _ _ _ (O s)) in K. destruct s as [|[|[|s]]]; cbn [c108_messages In] in K.
  - destruct K as [<-|[]]. vm_compute in J. intuition discriminate.
  - destruct K as [<-|[<-|[]]]; vm_compute in J; intuition discriminate.
  - destruct K as [<-|[]]. vm_compute in J. intuition discriminate.
  - contradiction.
Qed.
Print Assumptions C108_careless_refuted.
