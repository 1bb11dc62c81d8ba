(* A merge box as in Merge.v that keeps at most a given number of packets waiting.  A client program without counterpart in
   /repo, composed of the predicates of universal_packet.h and data_message.h and one parser per connection. *)
From Coq Require Import ZArith List Bool.
From Verif Require Import Base Packet Messages ByteStream Merge.
Import ListNotations.
Local Open Scope Z_scope.
Local Open Scope res_scope.

(* continue and end packets belong to a SysEx that began before *)
Definition goes_on (p : packet) : bool := is_sysex7_packet p && (2 <=? sysex7_format p).

(* the connections whose present SysEx is being left out *)
Record limited := mkLimited { lm_merger : merger; lm_skip : nat -> bool }.
Definition new_limited : limited := mkLimited new_merger (fun _ => false).
Definition skip_at (s : nat) (v : bool) (f : nat -> bool) (i : nat) : bool := if Nat.eqb i s then v else f i.

(* without the beginning of the SysEx that connection s is within; the list has the latest packet first *)
Fixpoint retract_rev (s : nat) (w : list (nat * packet)) : list (nat * packet) :=
  match w with
  | [] => []
  | x :: r =>
      if Nat.eqb (fst x) s then if keeps_line (snd x) then retract_rev s r else w
      else x :: retract_rev s r
  end.
Definition retract (s : nat) (w : list (nat * packet)) : list (nat * packet) := rev (retract_rev s (rev w)).

Definition limited_step (n : nat) (b : limited) (x : nat * packet) : limited * list (nat * packet) :=
  let m := lm_merger b in
  if passes_at_once (snd x) then (b, [x])
  else if lm_skip b (fst x) && goes_on (snd x) then (mkLimited m (skip_at (fst x) (keeps_line (snd x)) (lm_skip b)), [])
  else if may_send (mg_line m) (fst x) || Nat.ltb (length (mg_waiting m)) n then
    let r := merge_step m x in (mkLimited (fst r) (skip_at (fst x) false (lm_skip b)), snd r)
  else (mkLimited (mkMerger (mg_line m) (retract (fst x) (mg_waiting m))) (skip_at (fst x) (keeps_line (snd x)) (lm_skip b)), []).
Fixpoint limited_run (n : nat) (b : limited) (l : list (nat * packet)) : limited * list (nat * packet) :=
  match l with
  | [] => (b, [])
  | x :: l' => let r := limited_step n b x in let r' := limited_run n (fst r) l' in (fst r', snd r ++ snd r')
  end.

(* a box that leaves out just the packets for which there is no room *)
Definition careless_step (n : nat) (m : merger) (x : nat * packet) : merger * list (nat * packet) :=
  if passes_at_once (snd x) || may_send (mg_line m) (fst x) || Nat.ltb (length (mg_waiting m)) n then merge_step m x else (m, []).
Fixpoint careless_run (n : nat) (m : merger) (l : list (nat * packet)) : merger * list (nat * packet) :=
  match l with
  | [] => (m, [])
  | x :: l' => let r := careless_step n m x in let r' := careless_run n (fst r) l' in (fst r', snd r ++ snd r')
  end.

(* ---- with parsers in front of it ----------------------------------------------------------- *)

Record limited_box := mkLBox { lb_parsers : nat -> parser; lb_limited : limited }.
Definition lbox_step (n : nat) (b : limited_box) (x : nat * Z) : res (limited_box * list (nat * packet)) :=
  r <- feed (lb_parsers b (fst x)) (snd x) ;;
  let r' := limited_run n (lb_limited b) (box_packets (fst x) (snd r)) in
  Ok (mkLBox (fun i => if Nat.eqb i (fst x) then fst r else lb_parsers b i) (fst r'), snd r').
Fixpoint lbox_run (n : nat) (b : limited_box) (l : list (nat * Z)) : res (limited_box * list (nat * packet)) :=
  match l with
  | [] => Ok (b, [])
  | x :: l' => r <- lbox_step n b x ;; r' <- lbox_run n (fst r) l' ;; Ok (fst r', snd r ++ snd r')
  end.
