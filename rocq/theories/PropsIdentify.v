(* Property C111: a host finds the devices that are connected *)
From Coq Require Import ZArith List Bool Lia.
From Verif Require Import Base Packet Messages Sysex SysexSpec UniversalSysex ByteStream StreamSpec SessionSpec Merge MergeSpec LimitBox
  Identify IdentifySpec IdentifyProofs PropsStream.
Import ListNotations.
Local Open Scope Z_scope.

(* The bytes of any messages reach a device: it answers every request that is for it or for everyone, in their order, and
   nothing else. *)
Theorem C111_answers : forall dbg g st d ms rts bs, reached g true st -> device_ok d -> on_cable ms rts bs ->
  exists st' ev rs, feed_all st bs = Ok (st', ev) /\ for_each (answer dbg d) ev = Ok rs /\
    map wire rs = map (fun _ => presents d) (filter (asked d) ms).
Proof. exact answers_right. Qed.
Print Assumptions C111_answers.

(* Its replies can be sent as packets; these are the bytes. *)
Theorem C111_sent : forall dbg d e rs r g, device_ok d -> for_each (answer dbg d) [e] = Ok rs -> In r rs -> 0 <= g < 16 ->
  exists ps, send_sysex7 r g = Ok ps /\
    stream_of_packets ps = Ok (0xF0 :: (match wire r with SysExBytes ds => ds | _ => [] end) ++ [0xF7]).
Proof. exact reply_sent. Qed.
Print Assumptions C111_sent.

(* The host's bytes hb reach k devices; each sends its replies among any other messages, and anything else may be connected as
   well.  All of it comes back through the merge box of C99: the host has every device's id and identity as often as the
   device was asked, and no other. *)
Theorem C111_found : forall dbg k g st gq Q gr P dv hm hr hb ms rts sched, reached g true st ->
  (forall s, device_ok (dv s)) -> (forall s, reached (gq s) true (Q s)) -> (forall s, reached (gr s) false (P s)) -> on_cable hm hr hb ->
  (forall s, (s < k)%nat -> exists st' ev rs, feed_all (Q s) hb = Ok (st', ev) /\ for_each (answer dbg (dv s)) ev = Ok rs /\
     filter reply_shape (ms s) = map wire rs) ->
  (forall s, (k <= s)%nat -> filter reply_shape (ms s) = []) ->
  (forall s, on_cable (ms s) (rts s) (of_source s sched)) ->
  exists b out bs st' ev who, box_run (mkBox P new_merger) sched = Ok (b, out) /\ stream_of_packets (map snd out) = Ok bs /\
    feed_all st bs = Ok (st', ev) /\ for_each (note_reply dbg) ev = Ok (map (fun s => (dv_id (dv s), dv_identity (dv s))) who) /\
    forall s, count_occ Nat.eq_dec who s = if (s <? k)%nat then length (filter (asked (dv s)) hm) else 0%nat.
Proof. exact found. Qed.
Print Assumptions C111_found.

(* Through the box of C108, which has room for n packets: replies may be lost, but none is wrong or comes too often. *)
Theorem C111_limited : forall dbg k n g st gq Q gr P dv hm hr hb ms rts sched, reached g true st ->
  (forall s, device_ok (dv s)) -> (forall s, reached (gq s) true (Q s)) -> (forall s, reached (gr s) false (P s)) -> on_cable hm hr hb ->
  (forall s, (s < k)%nat -> exists st' ev rs, feed_all (Q s) hb = Ok (st', ev) /\ for_each (answer dbg (dv s)) ev = Ok rs /\
     filter reply_shape (ms s) = map wire rs) ->
  (forall s, (k <= s)%nat -> filter reply_shape (ms s) = []) ->
  (forall s, on_cable (ms s) (rts s) (of_source s sched)) ->
  exists b out bs st' ev who, lbox_run n (mkLBox P new_limited) sched = Ok (b, out) /\ stream_of_packets (map snd out) = Ok bs /\
    feed_all st bs = Ok (st', ev) /\ for_each (note_reply dbg) ev = Ok (map (fun s => (dv_id (dv s), dv_identity (dv s))) who) /\
    forall s, (count_occ Nat.eq_dec who s <= if (s <? k)%nat then length (filter (asked (dv s)) hm) else 0)%nat.
Proof. exact found_some. Qed.
Print Assumptions C111_limited.

(* Any calls of a parser whatever, with any bytes: neither program fails, and a device sends nothing but its own identity. *)
Theorem C111_any_calls : forall dbg d g cb on cs, device_ok d -> 0 <= g < 16 -> Forall valid_call cs ->
  exists st ev rs l, parser_calls (new_parser g cb on) cs = Ok (st, ev) /\ for_each (answer dbg d) ev = Ok rs /\
    for_each (note_reply dbg) ev = Ok l /\ Forall (fun r => wire r = presents d) rs.
Proof. exact any_calls. Qed.
Print Assumptions C111_any_calls.

(* Two devices; the host asks everyone, plays a note with a clock within, and asks device 3.  The replies cross. *)
Definition c111_device (s : nat) : device :=
  match s with
  | 0%nat => mkDevice 3 (mkDevId 0x410000 0x1234 0x0081 0x0ABCDEF)
  | _ => mkDevice 9 (mkDevId 0x002109 0x0001 0x3FFF 0x1020304)
  end.
Definition c111_asking : list midi_message :=
  [SysExBytes [0x7E; 0x7F; 6; 1]; Short (mkMsg 0x90 [0x3C; 0x40]); SysExBytes [0x7E; 3; 6; 1]].
Definition c111_asking_bytes : list Z := [0xF0; 0x7E; 0x7F; 6; 1; 0xF7; 0x90; 0x3C; 0xF8; 0x40; 0xF0; 0x7E; 3; 6; 1; 0xF7].
Definition c111_reply (s : nat) : list Z := match presents (c111_device s) with SysExBytes ds => ds | _ => [] end.
Definition c111_messages (s : nat) : list midi_message :=
  match s with
  | 0%nat => [presents (c111_device 0); presents (c111_device 0)]
  | 1%nat => [Short (mkMsg 0x91 [0x3C; 0x40]); presents (c111_device 1)]
  | _ => []
  end.
Definition c111_schedule : list (nat * Z) :=
  map (pair 0%nat) (0xF0 :: firstn 9 (c111_reply 0)) ++ map (pair 1%nat) ([0x91; 0x3C; 0x40; 0xF0] ++ firstn 7 (c111_reply 1)) ++
  map (pair 0%nat) (skipn 9 (c111_reply 0) ++ [0xF7; 0xF0] ++ firstn 8 (c111_reply 0)) ++
  map (pair 1%nat) (skipn 7 (c111_reply 1) ++ [0xF7]) ++ map (pair 0%nat) (skipn 8 (c111_reply 0) ++ [0xF7]).

Lemma c111_ok s : device_ok (c111_device s).
Proof.
  destruct s; unfold device_ok, is_u7, is_u14, is_u28, valid_id; cbn [c111_device dv_id dv_identity di_manufacturer di_family di_model di_revision];
    (split; [lia|]); (split; [|lia]).
  - left. exists 0x41. lia.
  - right. exists 0x21, 9. unfold is_u7. lia.
Qed.
Lemma c111_asked : on_cable c111_asking [0xF8] c111_asking_bytes.
Proof.
  split; [vm_compute; repeat constructor; discriminate|]. split; [|reflexivity].
  apply (cable_sysex None [0x7E; 0x7F; 6; 1]); [discriminate|repeat (apply Forall_cons; [unfold is_u7; lia|]); constructor|].
  apply (cable_full None (mkMsg 0x90 [0x3C; 0x40])); [split; [left; split; [cbn; lia|reflexivity]|repeat (apply Forall_cons; [unfold is_u7; lia|]); constructor]|].
  apply (cable_sysex _ [0x7E; 3; 6; 1]); [discriminate|repeat (apply Forall_cons; [unfold is_u7; lia|]); constructor|constructor].
Qed.
Lemma c111_answered s : on_cable (c111_messages s) [] (of_source s c111_schedule).
Proof.
  assert (U : forall s, Forall is_u7 (c111_reply s)) by (intros [|t]; vm_compute; repeat constructor; discriminate).
  assert (N : forall s, c111_reply s <> []) by (intros [|t]; discriminate).
  destruct s as [|[|s]].
  - split; [vm_compute; repeat constructor; discriminate|]. split; [|reflexivity].
    exact (cable_sysex None (c111_reply 0) _ _ (N _) (U _) (cable_sysex None (c111_reply 0) _ _ (N _) (U _) (cable_nil _))).
  - split; [vm_compute; repeat constructor; discriminate|]. split; [|reflexivity].
    apply (cable_full None (mkMsg 0x91 [0x3C; 0x40])); [split; [left; split; [cbn; lia|reflexivity]|repeat (apply Forall_cons; [unfold is_u7; lia|]); constructor]|].
    exact (cable_sysex _ (c111_reply 1) _ _ (N _) (U _) (cable_nil _)).
  - split; [constructor|]. split; [constructor|reflexivity].
Qed.
Lemma c111_due s : (s < 2)%nat -> exists st' ev rs, feed_all (sample_state true) c111_asking_bytes = Ok (st', ev) /\
  for_each (answer true (c111_device s)) ev = Ok rs /\ filter reply_shape (c111_messages s) = map wire rs.
Proof.
  intros L. destruct s as [|[|s]]; [| |lia]; do 3 eexists; (split; [vm_compute; reflexivity|]); (split; [vm_compute; reflexivity|]); reflexivity.
Qed.

Example C111_ex : (forall s, device_ok (c111_device s)) /\ reached 5 true (sample_state true) /\ reached 5 false (sample_state false) /\
  on_cable c111_asking [0xF8] c111_asking_bytes /\
  (forall s, (s < 2)%nat -> exists st' ev rs, feed_all (sample_state true) c111_asking_bytes = Ok (st', ev) /\
    for_each (answer true (c111_device s)) ev = Ok rs /\ filter reply_shape (c111_messages s) = map wire rs) /\
  (forall s, (2 <= s)%nat -> filter reply_shape (c111_messages s) = []) /\
  (forall s, on_cable (c111_messages s) [] (of_source s c111_schedule)) /\
  (* device 3 is asked twice, device 9 once *)
  length (filter (asked (c111_device 0)) c111_asking) = 2%nat /\ length (filter (asked (c111_device 1)) c111_asking) = 1%nat /\
  exists b out bs st' ev, box_run (mkBox (fun _ => sample_state false) new_merger) c111_schedule = Ok (b, out) /\
    stream_of_packets (map snd out) = Ok bs /\ feed_all (sample_state true) bs = Ok (st', ev) /\
    for_each (note_reply true) ev = Ok [(3, mkDevId 0x410000 0x1234 0x0081 0x0ABCDEF); (9, mkDevId 0x002109 0x0001 0x3FFF 0x1020304);
      (3, mkDevId 0x410000 0x1234 0x0081 0x0ABCDEF)].
Proof.
  split; [exact c111_ok|]. split; [apply sample_reached|]. split; [apply sample_reached|]. split; [exact c111_asked|]. split; [exact c111_due|].
  split; [intros [|[|s]] L; [lia|lia|reflexivity]|]. split; [exact c111_answered|]. split; [reflexivity|]. split; [reflexivity|].
  do 5 eexists. split; [vm_compute; reflexivity|]. split; [vm_compute; reflexivity|]. split; [vm_compute; reflexivity|vm_compute; reflexivity].
Qed.

(* With the connections joined to one wire and no merge box between, both devices answer and the host finds neither. *)
Theorem C111_joined_refuted : exists hb ms sched, on_cable c111_asking [0xF8] hb /\
  (forall s, (s < 2)%nat -> exists st' ev rs, feed_all (new_parser 0 true true) hb = Ok (st', ev) /\
    for_each (answer true (c111_device s)) ev = Ok rs /\ filter reply_shape (ms s) = map wire rs /\ rs <> []) /\
  (forall s, on_cable (ms s) [] (of_source s sched)) /\
  exists st' ev l, feed_all (new_parser 0 true true) (map snd sched) = Ok (st', ev) /\ for_each (note_reply true) ev = Ok l /\
    forall s, ~ In (dv_id (c111_device s), dv_identity (c111_device s)) l.
Proof.
  exists c111_asking_bytes, c111_messages, c111_schedule. split; [exact c111_asked|]. split.
  { intros s L. destruct s as [|[|s]]; [| |lia]; do 3 eexists; (split; [vm_compute; reflexivity|]); (split; [vm_compute; reflexivity|]);
      (split; [reflexivity|discriminate]). }
  split; [exact c111_answered|]. do 3 eexists. split; [vm_compute; reflexivity|]. split; [vm_compute; reflexivity|].
  intros [|s] I; vm_compute in I; intuition discriminate.
Qed.
Print Assumptions C111_joined_refuted.
