(* C97: MIDI message reports. *)
From Coq Require Import ZArith List Bool Lia.
From Verif Require Import Base Packet PacketSpec Sysex SysexSpec Messages ChannelVoice Collector CapInq CapCalls CiNetSpec ProfilesSpec ManySpec
  PropsCollect Snapshot SnapshotSpec SnapshotProofs.
Import ListNotations.
Local Open Scope Z_scope.
Local Open Scope res_scope.

(* An inquiry made by [me] and answered by [device]: the inquirer obtains, once, exactly the settings asked for and supported,
   in their order, with the device id and the message types, whatever arrived before, whichever other packets and whole messages
   of others come between, and after the end message it listens no more. *)
Theorem C97_report : forall a dbg me device g supported settings dc sys c n dev,
  std_alloc a -> muid_ok me -> muid_ok device -> me <> device -> 0 <= g < 16 -> is_u7 (fst supported) -> is_u7 (snd supported) ->
  is_u7 dc -> is_u7 sys -> is_u7 c -> is_u7 n -> is_u7 dev -> Forall setting_ok settings ->
  exists q own, make_midi_message_report_inquiry dbg me device dc sys c n dev = Ok q /\
    answer dbg device g supported settings q = Ok own /\
    forall before us ps, Forall wf_packet ps -> Forall wf_packet before ->
      filter (counts g) ps = before ++ concat (map snd us) -> mixed device g own us ->
      exists r0 rs r, record_packets a dbg me device g new_recorder before = Ok (r0, rs) /\
        record_packets a dbg me device g new_recorder ps =
          Ok (r, rs ++ [mkRep dev (Z.land c (fst supported)) (Z.land n (snd supported))
                          (if dc =? 0 then [] else filter (wanted dev c n supported) settings)]) /\
        re_open r = None.
Proof. exact exchange. Qed.
Print Assumptions C97_report.

(* The device answers inquiries of others to it or to everybody, and nothing else; no message of seven-bit bytes harms it. *)
Theorem C97_asked : forall dbg me g supported settings s, muid_ok me -> 0 <= g < 16 -> is_u7 (fst supported) -> is_u7 (snd supported) ->
  all7 (sx_data s) ->
  exists own, answer dbg me g supported settings s = Ok own /\ (own <> [] <-> asks_report me s = true).
Proof. exact answers. Qed.
Print Assumptions C97_asked.

(* No packets harm the inquirer. *)
Theorem C97_safe : forall a dbg me device g ps, std_alloc a -> 0 <= g < 16 -> Forall wf_packet ps ->
  exists x, record_packets a dbg me device g new_recorder ps = Ok x.
Proof.
  intros a dbg me device g ps A G W. destruct (run_any a dbg me device g A G ps W _ (new_good a A)) as (r & o & E & _). eauto.
Qed.
Print Assumptions C97_safe.

(* Without a message of the device there is no report, whatever others send. *)
Theorem C97_nothing : forall a dbg me device g us, std_alloc a -> 0 <= g < 16 ->
  Forall (fun qs => foreign device g qs \/ exists p, wf_packet p /\ type p = 4 /\ qs = [p]) us -> forall ps, Forall wf_packet ps ->
  filter (counts g) ps = filter (counts g) (concat us) -> Forall wf_packet (concat us) ->
  exists r, record_packets a dbg me device g new_recorder ps = Ok (r, []) /\ re_open r = None.
Proof. exact nothing. Qed.
Print Assumptions C97_nothing.

(* a device with five settings, asked for pitch bend, controllers, program and notes of channel 2, and not supporting programs *)
Definition c97_settings : list (Z * setting) :=
  [(2, PitchBendIs 0x90000000); (2, ControllerIs 7 0xC0000000); (1, ControllerIs 7 1); (2, ProgramIs 5); (2, NoteIs 60 0x8000)].
Definition c97_own : res (list (list packet)) :=
  q <- make_midi_message_report_inquiry true 5 9 0x7F 0 0x13 0x01 2 ;; answer true 9 3 (0x0F, 0x7F) c97_settings q.
(* the end of somebody's message before, a whole message of somebody in between, and a note of another group *)
Definition c97_before : list packet := [mkP 0x33310600 0 0 0; mkP 0x43902A00 0x12340000 0 0].
Definition c97_foreign : sysex := mkSx 0x7D0000 [1; 2; 3; 4; 5; 6; 7].
Definition c97_between : list packet := [mkP 0x33167D01 0x02030405 0 0; mkP 0x33320607 0 0 0].
Example C97_settings_ex : Forall setting_ok c97_settings.
Proof. repeat constructor; cbn; unfold is_u7, is_u16, is_u32; lia. Qed.
Example C97_foreign_ex : foreign 9 3 c97_between.
Proof.
  exists c97_foreign. split; [|split; reflexivity]. split; [left; exists 0x7D; cbn; lia|]. split; [discriminate|].
  repeat constructor; unfold is_u7; lia.
Qed.
Example C97_ex : exists own r,
  c97_own = Ok own /\
  record_packets plain_alloc true 5 9 3 new_recorder
    (c97_before ++ nth 0 own [] ++ nth 1 own [] ++ c97_between ++ mkP 0x44902A00 0x12340000 0 0 :: concat (skipn 2 own)) =
  Ok (r, [mkRep 2 0x03 0x01 [(2, PitchBendIs 0x90000000); (2, ControllerIs 7 0xC0000000); (2, NoteIs 60 0x8000)]]) /\
  re_open r = None.
Proof. eexists _, _. split; [vm_compute; reflexivity|]. split; vm_compute; reflexivity. Qed.
