(* A sequencer that leads and one that follows over a MIDI 1 connection: users' programs that work with system messages
   (inc/midi/system_message.h).  They have no counterpart in /repo. *)
From Coq Require Import ZArith List Bool.
From Verif Require Import Base Packet Messages.
Import ListNotations.
Local Open Scope Z_scope.

(* whether the song is played, and the position in timing clocks from its beginning *)
Record transport := mkTransport { tp_rolling : bool; tp_clock : Z }.
Definition new_transport : transport := mkTransport false 0.

(* ---- the follower: listens to one group ------------------------------------------------------ *)

(* a song position counts sixteenths, six timing clocks each; while the song is played it is not taken over *)
Definition follow_step (g : Z) (s : transport) (p : packet) : transport :=
  match as_system_message_view p with
  | None => s
  | Some m =>
      if negb (group m =? g) then s
      else if status m =? 0xFA then mkTransport true 0
      else if status m =? 0xFB then mkTransport true (tp_clock s)
      else if status m =? 0xFC then mkTransport false (tp_clock s)
      else if status m =? 0xF8 then (if tp_rolling s then mkTransport true (tp_clock s + 1) else s)
      else if status m =? 0xF2 then (if tp_rolling s then s else mkTransport false (6 * get_song_position m))
      else s
  end.
Definition follow_run (g : Z) (s : transport) (ps : list packet) : transport := fold_left (follow_step g) ps s.

(* ---- the leader ------------------------------------------------------------------------------- *)

(* from the beginning, from here, stop, a timing clock, go to a sixteenth *)
Inductive move := Play | Resume | Halt | Tick | Locate (p : Z).

(* the song is stopped while its position is sent *)
Definition lead_step (g : Z) (s : transport) (m : move) : transport * list packet :=
  match m with
  | Play => (mkTransport true 0, [make_system_message g 0xFA 0 0])
  | Resume => (mkTransport true (tp_clock s), [make_system_message g 0xFB 0 0])
  | Halt => (mkTransport false (tp_clock s), [make_system_message g 0xFC 0 0])
  | Tick => (mkTransport (tp_rolling s) (if tp_rolling s then tp_clock s + 1 else tp_clock s), [make_system_message g 0xF8 0 0])
  | Locate p =>
      (mkTransport (tp_rolling s) (6 * p),
       if tp_rolling s
       then [make_system_message g 0xFC 0 0; make_song_position_message g p; make_system_message g 0xFB 0 0]
       else [make_song_position_message g p])
  end.
(* a leader that does not stop for it *)
Definition hasty_lead_step (g : Z) (s : transport) (m : move) : transport * list packet :=
  match m with
  | Locate p => (mkTransport (tp_rolling s) (6 * p), [make_song_position_message g p])
  | _ => lead_step g s m
  end.
Fixpoint lead_with (step : transport -> move -> transport * list packet) (s : transport) (ms : list move) : transport * list packet :=
  match ms with
  | [] => (s, [])
  | m :: ms' => let r := step s m in let r' := lead_with step (fst r) ms' in (fst r', snd r ++ snd r')
  end.
Definition lead_run (g : Z) : transport -> list move -> transport * list packet := lead_with (lead_step g).
Definition hasty_lead_run (g : Z) : transport -> list move -> transport * list packet := lead_with (hasty_lead_step g).
