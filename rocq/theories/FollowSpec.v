(* What is expected of a leader and a follower: the follower is where the leader is. *)
From Coq Require Import ZArith List Bool.
From Verif Require Import Base Packet PacketSpec ByteStream StreamSpec Follow.
Import ListNotations.
Local Open Scope Z_scope.

(* ---- the song, from what the user of the leader did, latest first ----------------------------- *)

Fixpoint rolling (h : list move) : bool :=
  match h with
  | [] | Halt :: _ => false
  | Play :: _ | Resume :: _ => true
  | Tick :: t | Locate _ :: t => rolling t
  end.
Fixpoint clocks (h : list move) : Z :=
  match h with
  | [] | Play :: _ => 0
  | Locate p :: _ => 6 * p
  | Tick :: t => if rolling t then clocks t + 1 else clocks t
  | Resume :: t | Halt :: t => clocks t
  end.
Definition move_ok (m : move) : Prop := match m with Locate p => is_u14 p | _ => True end.
Definition no_locate (m : move) : Prop := match m with Locate _ => False | _ => True end.

(* ---- what a MIDI 1 connection says about the song ---------------------------------------------- *)

(* status bytes, of a song position with its value; w: data bytes of a song position under way.  Real-time bytes may come
   anywhere, any other status byte ends a message that is under way. *)
Fixpoint heard (w : option (list Z)) (bs : list Z) : list (Z * Z) :=
  match bs with
  | [] => []
  | b :: t =>
      if 0xF8 <=? b then (b, 0) :: heard w t
      else if 0x80 <=? b then heard (if b =? 0xF2 then Some [] else None) t
      else match w with
           | None => heard None t
           | Some [] => heard (Some [b]) t
           | Some (lo :: _) => (0xF2, lo + 128 * b) :: heard None t
           end
  end.
(* the song position told by (status, value): a state is (played, clocks) *)
Definition told (s : bool * Z) (x : Z * Z) : bool * Z :=
  match fst x with
  | 0xFA => (true, 0)
  | 0xFB => (true, snd s)
  | 0xFC => (false, snd s)
  | 0xF8 => (fst s, snd s + if fst s then 1 else 0)
  | 0xF2 => (fst s, if fst s then snd s else 6 * snd x)
  | _ => s
  end.

(* ---- packets ------------------------------------------------------------------------------------ *)

(* clock, start, continue, stop and song position, by the bits *)
Definition transport_packet (p : packet) : bool :=
  (w0 p / 268435456 =? 1) && existsb (Z.eqb (w0 p / 65536 mod 256)) [0xF2; 0xF8; 0xFA; 0xFB; 0xFC].
(* messages and pieces of SysEx messages of any group, and packets that have no MIDI 1 bytes *)
Inductive sendable : packet -> Prop :=
| sendable_short g m : 0 <= g < 16 -> valid_message m -> sendable (short_packet g (ms_status m) (ms_data m))
| sendable_realtime g r : 0 <= g < 16 -> 0xF8 <= r < 256 -> rt_defined r = true -> sendable (short_packet g r [])
| sendable_sysex g f ds : 0 <= g < 16 -> 0 <= f < 4 -> (length ds <= 6)%nat -> Forall is_u7 ds -> sendable (sx7_packet g f ds)
| sendable_other p : wf_packet p -> ~ In (w0 p / 268435456) [1; 2; 3] -> sendable p.
