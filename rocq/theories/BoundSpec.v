(* How much input accounts for how much output. *)
From Coq Require Import ZArith List Bool.
From Verif Require Import Base Packet Sysex ByteStream Collector StreamSpec CollectSpec.
Import ListNotations.
Local Open Scope Z_scope.

Definition total (l : list Z) : Z := fold_right Z.add 0 l.

(* bytes of the MIDI 1 stream an event stands for, at least: the payload of a SysEx packet,
   manufacturer id and data of a SysEx, one byte of any other message *)
Definition carried (e : event) : Z :=
  match e with
  | ESysex s => size (id_bytes (sx_id s)) + size (sx_data s)
  | EPacket p => match content7 p with Some x => size (ct_payload x) | None => 1 end
  end.

Definition bytes_fed (cs : list parser_call) : Z :=
  total (map (fun c => match c with CFeed bs => size bs | _ => 0 end) cs).

(* SysEx packets fed to a collector, and their payload *)
Definition packets_fed (rd : packet -> option content) (ks : list collector_call) : list content :=
  flat_map (fun k => match k with
                     | KFeed p => match rd p with Some x => [x] | None => [] end
                     | _ => []
                     end) ks.
Definition payload_fed (rd : packet -> option content) (ks : list collector_call) : Z :=
  total (map (fun x => size (ct_payload x)) (packets_fed rd ks)).
