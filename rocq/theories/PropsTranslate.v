(* Property C109: translators between MIDI 1 and MIDI 2 that also carry parameters and programs *)
From Coq Require Import ZArith List Bool Lia.
From Verif Require Import Base Packet PacketSpec ByteStream StreamSpec ChannelVoice VoiceSpec ReceiverSpec Engine EngineSpec EngineBytesSpec
  Translate TranslateSpec TranslateProofs TranslateBytes TranslateEngine.
Import ListNotations.
Local Open Scope Z_scope.

(* From MIDI 1 to MIDI 2: after any messages on any groups and channels, with packets of other types between them, every
   registered and assignable parameter has its MIDI 1 value in 32 bits, the same programs of the same banks play, and all
   other messages and packets have come through in their order, translated one by one. *)
Theorem C109_up : forall xs, Forall (item_ok m1_ok) xs ->
  exists st ys, up_run new_up (map (item_packet layout1) xs) = Ok (st, map (item_packet layout2) ys) /\ Forall item2_ok ys /\
    (forall g ch k b i, parameter2 k b i (said g ch (rev ys)) = option_map (min_center_max 14 32) (parameter1 k b i (said g ch (rev xs)))) /\
    (forall g ch, program2 (said g ch (rev ys)) = program1 (said g ch (rev xs))) /\
    filter plain2 ys = filter plain2 (each translate_to_midi2 xs).
Proof. exact up_holds. Qed.
Print Assumptions C109_up.

(* The same with any bytes from a MIDI 1 connection, in any calls of the parser *)
Theorem C109_any_bytes : forall g cb on cs, 0 <= g < 16 -> Forall valid_call cs ->
  exists ps out xs st ys, parser_calls (new_parser g cb on) cs = Ok (ps, out) /\
    packets_out out = map (item_packet layout1) xs /\ Forall (item_ok m1_ok) xs /\
    up_run new_up (packets_out out) = Ok (st, map (item_packet layout2) ys) /\ Forall item2_ok ys /\
    (forall g ch k b i, parameter2 k b i (said g ch (rev ys)) = option_map (min_center_max 14 32) (parameter1 k b i (said g ch (rev xs)))) /\
    (forall g ch, program2 (said g ch (rev ys)) = program1 (said g ch (rev xs))) /\
    filter plain2 ys = filter plain2 (each translate_to_midi2 xs).
Proof. exact bytes_up. Qed.
Print Assumptions C109_any_bytes.

(* no packets at all make it fail *)
Theorem C109_any_packets : forall ps, exists st qs, up_run new_up ps = Ok (st, qs).
Proof. exact any_up_new. Qed.
Print Assumptions C109_any_packets.

(* From MIDI 2 to MIDI 1: parameters keep 14 bits, programs and banks stay, all other messages and packets come through in
   their order.  Parameter 127/127 cannot be said in MIDI 1. *)
Theorem C109_down : forall ys, Forall item2_ok ys ->
  exists xs, down_run (map (item_packet layout2) ys) = map (item_packet layout1) xs /\ Forall (item_ok m1_ok) xs /\
    (forall g ch k b i, (b, i) <> (127, 127) ->
       parameter1 k b i (said g ch (rev xs)) = option_map (fun v => v / 2 ^ 18) (parameter2 k b i (said g ch (rev ys)))) /\
    (forall g ch, program1 (said g ch (rev xs)) = program2 (said g ch (rev ys))) /\
    filter plain1 xs = filter plain1 (each translate_to_midi1 ys).
Proof. exact down_holds. Qed.
Print Assumptions C109_down.

(* From MIDI 1 to MIDI 2 and back nothing is lost: the same parameters, programs and banks, and the same other messages, with
   notes on of velocity 0 as notes off *)
Theorem C109_there_and_back : forall xs, Forall (item_ok m1_ok) xs ->
  exists st ys zs, up_run new_up (map (item_packet layout1) xs) = Ok (st, ys) /\ down_run ys = map (item_packet layout1) zs /\
    Forall (item_ok m1_ok) zs /\
    (forall g ch k b i, parameter1 k b i (said g ch (rev zs)) = parameter1 k b i (said g ch (rev xs))) /\
    (forall g ch, program1 (said g ch (rev zs)) = program1 (said g ch (rev xs))) /\
    filter plain1 zs =
      map (fun x => match x with Message g ch m => Message g ch (without_zero_velocity m) | Other p => Other p end) (filter plain1 xs).
Proof. exact there_and_back. Qed.
Print Assumptions C109_there_and_back.

(* Two MIDI 2 devices with a MIDI 1 cable between them, a translator at each end, and a parser in any state: parameters arrive with
   14 bits, programs and banks unchanged. *)
Theorem C109_cable : forall g st ys, reached g false st -> Forall item2_ok ys -> (forall y, In y ys -> exists ch m, y = Message g ch m) ->
  exists bs st' ps up zs, stream_of_packets (down_run (map (item_packet layout2) ys)) = Ok bs /\
    feed_all st bs = Ok (st', map EPacket ps) /\ up_run new_up ps = Ok (up, map (item_packet layout2) zs) /\ Forall item2_ok zs /\
    (forall g ch k b i, (b, i) <> (127, 127) ->
       parameter2 k b i (said g ch (rev zs)) = option_map (fun v => min_center_max 14 32 (v / 2 ^ 18)) (parameter2 k b i (said g ch (rev ys)))) /\
    (forall g ch, program2 (said g ch (rev zs)) = program2 (said g ch (rev ys))).
Proof. exact over_cable. Qed.
Print Assumptions C109_cable.

(* A MIDI 2 sound engine behind the translator plays each key at the pitch that the MIDI 1 messages say, with the bend range
   that they set as registered parameter 0. *)
Theorem C109_bend_range : forall xs, Forall (item_ok m1_ok) xs ->
  exists st ps e, up_run new_up (map (item_packet layout1) xs) = Ok (st, ps) /\ play ps = Ok e /\
  forall g ch n, let l := said g ch (rev xs) in
    heard e g ch n = Ok (if key_down n l
      then Some (limited 0 4294967295 (n * 33554432 + moved (min_center_max 14 32 (bend1 l)) (262144 * range1 l))) else None).
Proof. exact engine_up. Qed.
Print Assumptions C109_bend_range.

(* bend range 12, then another parameter, a program of bank 3/5, the fine value of the bend range, a note and its bend *)
Definition cc (n v : Z) : item m1msg := Message 2 9 (ControlChange1 n v).
Definition c109_items : list (item m1msg) :=
  [cc 101 0; cc 100 0; cc 6 12; cc 100 1; cc 6 64; cc 38 3; cc 0 3; cc 32 5; Other (mkP 0x12F80000 0 0 0); Message 2 9 (ProgramChange1 7);
   cc 100 0; cc 38 50; cc 7 100; Message 2 9 (NoteOn1 60 0); Message 2 9 (NoteOn1 61 80); Message 2 9 (PitchBend1 12288)].

Example C109_ex : Forall (item_ok m1_ok) c109_items /\
  let l := said 2 9 (rev c109_items) in
  (parameter1 true 0 0 l, parameter1 true 0 1 l, parameter1 false 0 0 l) = (Some (12 * 128 + 50), Some (64 * 128 + 3), None) /\
  program1 l = Some (Some (3 * 128 + 5), 7) /\
  match up_run new_up (map (item_packet layout1) c109_items) with
  | Ok (_, ps) => ps =
      [mkP 0x42290000 0x18000000 0 0; mkP 0x42290001 0x80000000 0 0; mkP 0x42290001 0x800C0060 0 0; mkP 0x12F80000 0 0 0; mkP 0x42C90001 0x07000305 0 0;
       mkP 0x42290000 0x18C80000 0 0; mkP 0x42B90700 0xC9249249 0 0; mkP 0x42893C00 0x80000000 0 0; mkP 0x42993D00 0xA0820000 0 0; mkP 0x42E90000 0xC0020010 0 0] /\
      match play ps with Ok e => heard e 2 9 61 = Ok (Some (61 * 33554432 + moved 0xC0020010 (262144 * (12 * 128 + 50)))) | Fault _ => False end
  | Fault _ => False
  end.
Proof.
  split.
  - unfold c109_items, cc. repeat (constructor; [cbn; unfold address, wf_packet, is_u7, is_u14, is_u32; cbn; repeat split; lia || intuition congruence|]). constructor.
  - vm_compute. repeat split; reflexivity.
Qed.

Definition c109_items2 : list (item m2msg) :=
  [Message 5 1 (RegisteredCtrl 0 0 0x18C8FFFF); Message 5 1 (ProgramChange2 9 (Some 300)); Message 5 1 (NoteOn2 60 0x1234 0 0);
   Message 5 1 (AssignableCtrl 1 2 0xFFFFFFFF); Message 5 1 (ProgramChange2 8 None)].
Example C109_down_ex : Forall item2_ok c109_items2 /\ reached 5 false (new_parser 5 false true) /\
  stream_of_packets (down_run (map (item_packet layout2) c109_items2)) =
    Ok [0xB1; 101; 0; 0xB1; 100; 0; 0xB1; 6; 12; 0xB1; 38; 50; 0xB1; 0; 2; 0xB1; 32; 44; 0xC1; 9; 0x91; 60; 9;
        0xB1; 99; 1; 0xB1; 98; 2; 0xB1; 6; 127; 0xB1; 38; 127; 0xC1; 8] /\
  (parameter2 true 0 0 (said 5 1 (rev c109_items2)), program2 (said 5 1 (rev c109_items2))) = (Some 0x18C8FFFF, Some (Some 300, 8)).
Proof.
  split.
  - unfold c109_items2. repeat (constructor; [cbn; unfold address, is_u7, is_u8, is_u14, is_u16, is_u32; repeat split; lia|]). constructor.
  - split; [exists 5, true, [], []; repeat split; try lia; constructor|]. split; vm_compute; reflexivity.
Qed.

(* parameter 127/127 of MIDI 2 is lost *)
Theorem C109_null_parameter_refuted : exists ys xs, Forall item2_ok ys /\
  down_run (map (item_packet layout2) ys) = map (item_packet layout1) xs /\
  parameter2 true 127 127 (said 0 0 (rev ys)) = Some 0x40000000 /\ parameter1 true 127 127 (said 0 0 (rev xs)) = None.
Proof.
  exists [Message 0 0 (RegisteredCtrl 127 127 0x40000000)],
    [Message 0 0 (ControlChange1 101 127); Message 0 0 (ControlChange1 100 127); Message 0 0 (ControlChange1 6 32); Message 0 0 (ControlChange1 38 0)].
  split; [repeat (constructor; [cbn; unfold address, is_u7, is_u32; repeat split; lia|]); constructor|]. repeat split.
Qed.
Print Assumptions C109_null_parameter_refuted.

(* A translator that knows only the latest data entry gives a parameter the upper bits of another one. *)
Theorem C109_hasty_refuted : exists xs st ys, Forall (item_ok m1_ok) xs /\
  hasty_run new_up (map (item_packet layout1) xs) = Ok (st, map (item_packet layout2) ys) /\
  parameter1 true 0 0 (said 2 9 (rev xs)) = Some (12 * 128 + 50) /\
  option_map (fun v => v / 2 ^ 18) (parameter2 true 0 0 (said 2 9 (rev ys))) = Some (64 * 128 + 50).
Proof.
  exists [cc 101 0; cc 100 0; cc 6 12; cc 100 1; cc 6 64; cc 100 0; cc 38 50]. eexists _,
    [Message 2 9 (RegisteredCtrl 0 0 0x18000000); Message 2 9 (RegisteredCtrl 0 1 0x80000000); Message 2 9 (RegisteredCtrl 0 0 0x80C80640)].
  split; [unfold cc; repeat (constructor; [cbn; unfold address, is_u7; repeat split; lia|]); constructor|].
  split; [vm_compute; reflexivity|]. split; vm_compute; reflexivity.
Qed.
Print Assumptions C109_hasty_refuted.
