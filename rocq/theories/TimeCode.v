(* A machine that sends its time as MIDI time code and one that reads it: users' programs that work with system messages
   (inc/midi/system_message.h).  They have no counterpart in /repo. *)
From Coq Require Import ZArith List Bool.
From Verif Require Import Base Packet Messages.
Import ListNotations.
Local Open Scope Z_scope.

(* hours, minutes, seconds, frames, and the code of the frame rate *)
Record timecode := mkTime { tc_h : Z; tc_m : Z; tc_s : Z; tc_f : Z; tc_rate : Z }.

(* ---- the sender: a time is eight quarter frames, each with its number and four bits --------------- *)

Definition nibbles (t : timecode) : list Z :=
  [Z.land (tc_f t) 0xF; Z.shiftr (tc_f t) 4; Z.land (tc_s t) 0xF; Z.shiftr (tc_s t) 4;
   Z.land (tc_m t) 0xF; Z.shiftr (tc_m t) 4; Z.land (tc_h t) 0xF; Z.lor (Z.shiftl (tc_rate t) 1) (Z.shiftr (tc_h t) 4)].
Fixpoint send_from (g k : Z) (vs : list Z) : list packet :=
  match vs with
  | [] => []
  | v :: vs' => make_system_message g 0xF1 (u8 (Z.lor (Z.shiftl k 4) v)) 0 :: send_from g (k + 1) vs'
  end.
Definition send_time (g : Z) (t : timecode) : list packet := send_from g 0 (nibbles t).

(* ---- the receiver: listens to one group, and takes a time when its pieces come in a row ----------- *)

Record tc_receiver := mkRx { rx_pieces : list Z; rx_times : list timecode }.
Definition new_rx : tc_receiver := mkRx [] [].
Definition assemble (vs : list Z) : timecode :=
  let v i := nth i vs 0 in
  mkTime (Z.lor (v 6%nat) (Z.shiftl (Z.land (v 7%nat) 1) 4)) (Z.lor (v 4%nat) (Z.shiftl (Z.land (v 5%nat) 3) 4))
         (Z.lor (v 2%nat) (Z.shiftl (Z.land (v 3%nat) 3) 4)) (Z.lor (v 0%nat) (Z.shiftl (Z.land (v 1%nat) 1) 4))
         (Z.land (Z.shiftr (v 7%nat) 1) 3).
Definition read_quarter (s : tc_receiver) (d : Z) : tc_receiver :=
  let k := Z.shiftr d 4 in
  let v := Z.land d 0xF in
  if k =? size (rx_pieces s)
  then let vs := rx_pieces s ++ [v] in
       if size vs =? 8 then mkRx [] (rx_times s ++ [assemble vs]) else mkRx vs (rx_times s)
  else mkRx (if k =? 0 then [v] else []) (rx_times s).
Definition rx_step (g : Z) (s : tc_receiver) (p : packet) : tc_receiver :=
  match as_system_message_view p with
  | None => s
  | Some m => if (group m =? g) && (status m =? 0xF1) then read_quarter s (system_data_byte_1 m) else s
  end.
Definition rx_run (g : Z) (s : tc_receiver) (ps : list packet) : tc_receiver := fold_left (rx_step g) ps s.

(* a receiver that stores each piece by its number and takes the time at the last of them *)
Definition put (l : list Z) (i : nat) (v : Z) : list Z := firstn i l ++ v :: skipn (S i) l.
Definition careless_step (g : Z) (s : tc_receiver) (p : packet) : tc_receiver :=
  match as_system_message_view p with
  | None => s
  | Some m =>
      if (group m =? g) && (status m =? 0xF1)
      then let d := system_data_byte_1 m in
           let vs := put (rx_pieces s) (Z.to_nat (Z.shiftr d 4)) (Z.land d 0xF) in
           mkRx vs (if Z.shiftr d 4 =? 7 then rx_times s ++ [assemble vs] else rx_times s)
      else s
  end.
Definition careless_run (g : Z) (ps : list packet) : tc_receiver := fold_left (careless_step g) ps (mkRx [0; 0; 0; 0; 0; 0; 0; 0] []).
