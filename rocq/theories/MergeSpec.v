(* What is expected of a merge box: every connection's messages arrive, whole and in their order. *)
From Coq Require Import ZArith List Bool.
From Verif Require Import Base Packet ByteStream StreamSpec SessionSpec.
Import ListNotations.
Local Open Scope Z_scope.

(* what belongs to connection s *)
Definition of_source {A} (s : nat) (l : list (nat * A)) : list A :=
  map snd (filter (fun x => Nat.eqb (fst x) s) l).

(* real-time packets, by the bits *)
Definition realtime_packet (p : packet) : bool :=
  (w0 p / 268435456 =? 1) && (0xF8 <=? w0 p / 65536 mod 256).

(* the packets of a connection: messages on any groups with real-time messages anywhere *)
Definition sent_as (ms : list midi_message) (rts : list Z) (qs : list packet) : Prop :=
  exists gms rs ps, map snd gms = ms /\ map snd rs = rts /\ session divided gms ps /\ realtime_between rs ps qs.

(* what a parser of group g with a SysEx callback reports, real-time messages apart *)
Definition reported (g : Z) (m : midi_message) : list event :=
  match m with
  | Short m => [EPacket (short_packet g (ms_status m) (ms_data m))]
  | SysExBytes ds => match sx_decode ds with Some s => [ESysex s] | None => [] end
  end.
(* the merged messages come out of the wire behind the merge box *)
Definition arrives (g : Z) (st : parser) (order : list midi_message) (rts : list Z) (qs : list packet) : Prop :=
  exists bs st' ev, stream_of_packets qs = Ok bs /\ feed_all st bs = Ok (st', ev) /\
    filter not_rt_event ev = concat (map (reported g) order) /\
    filter is_realtime_event ev = map (fun r => EPacket (short_packet g r [])) rts.

(* ---- MIDI 1 cables -------------------------------------------------------------------------- *)

(* bytes of messages, with the status byte left out wherever that is permitted *)
Inductive cable : option Z -> list midi_message -> list Z -> Prop :=
| cable_nil rs : cable rs [] []
| cable_full rs m ms bs : valid_message m -> cable (if is_cv m then Some (ms_status m) else None) ms bs ->
    cable rs (Short m :: ms) (ms_status m :: ms_data m ++ bs)
| cable_running m ms bs : valid_message m -> is_cv m = true -> cable (Some (ms_status m)) ms bs ->
    cable (Some (ms_status m)) (Short m :: ms) (ms_data m ++ bs)
| cable_sysex rs ds ms bs : ds <> [] -> Forall is_u7 ds -> cable None ms bs ->
    cable rs (SysExBytes ds :: ms) (0xF0 :: ds ++ 0xF7 :: bs).
(* and with real-time bytes anywhere, the undefined ones among them without meaning *)
Definition on_cable (ms : list midi_message) (rts : list Z) (bs : list Z) : Prop :=
  Forall is_u8 bs /\ cable None ms (filter (fun b => b <? 0xF8) bs) /\
  rts = filter rt_defined (filter (fun b => 0xF8 <=? b) bs).
(* the packets among the events of a parser *)
Definition packets_of (out : list event) : list packet :=
  concat (map (fun e => match e with EPacket p => [p] | ESysex _ => [] end) out).

(* a SysEx packet that is followed by more of its message *)
Definition unfinished (p : packet) : Prop :=
  w0 p / 268435456 = 3 /\ (w0 p / 1048576 mod 16 = 1 \/ w0 p / 1048576 mod 16 = 2) /\ w0 p / 65536 mod 16 <= 6.
