(* Two ways to receive SysEx from MIDI 1 bytes: a parser with SysEx callback, and a parser
   without, whose packets are fed to a sysex7_collector. *)
From Coq Require Import ZArith List Bool.
From Verif Require Import Base Packet PacketSpec Sysex ByteStream Collector.
Import ListNotations.
Local Open Scope Z_scope.
Local Open Scope res_scope.

(* A receiver that feeds every packet to the collector and handles all others than SysEx
   (message type 3) itself; what it sees, in order. *)
Fixpoint collecting (a : allocator) (c : collector7) (es : list event) : res (collector7 * list event) :=
  match es with
  | [] => Ok (c, [])
  | ESysex s :: es' => r <- collecting a c es' ;; Ok (fst r, ESysex s :: snd r)
  | EPacket p :: es' =>
      r <- c7_feed a c p ;;
      r' <- collecting a (fst r) es' ;;
      Ok (fst r', (if w0 p / 268435456 =? 3 then [] else [EPacket p]) ++ map ESysex (snd r) ++ snd r')
  end.

(* A SysEx that ends before its manufacturer id does: F0 00 F7, F0 00 xx F7 *)
Definition cut_id (s : sysex) : Prop := sx_data s = [] /\ sx_id s < 65536 /\ sx_id s mod 256 = 0.

(* [l'] is [l] without some of the SysEx messages with incomplete id *)
Inductive pruned : list event -> list event -> Prop :=
| pruned_nil : pruned [] []
| pruned_keep e l l' : pruned l l' -> pruned (e :: l) (e :: l')
| pruned_drop s l l' : cut_id s -> pruned l l' -> pruned (ESysex s :: l) l'.

Definition whole_id (e : event) : Prop := match e with ESysex s => ~ cut_id s | EPacket _ => True end.

(* calls other than enable_callbacks *)
Definition keeps_enabled (k : parser_call) : Prop := match k with CEnable on => on = true | _ => True end.

(* ---- a collector with a limit ------------------------------------------------------------- *)

(* the bytes since F0, if a SysEx is in progress *)
Definition run_step (r : option Z) (b : Z) : option Z :=
  if 0xF8 <=? b then r
  else if b <? 0x80 then match r with Some n => Some (n + 1) | None => None end
  else if b =? 0xF0 then Some 0 else None.
Fixpoint run_bytes (r : option Z) (bs : list Z) : option Z :=
  match bs with [] => r | b :: bs' => run_bytes (run_step r b) bs' end.
(* no SysEx has more than n bytes, whether it is completed or not *)
Fixpoint short_bytes (n : Z) (r : option Z) (bs : list Z) : Prop :=
  match bs with
  | [] => True
  | b :: bs' => match run_step r b with Some k => k <= n | None => True end /\ short_bytes n (run_step r b) bs'
  end.
Fixpoint short_calls (n : Z) (r : option Z) (cs : list parser_call) : Prop :=
  match cs with
  | [] => True
  | CFeed bs :: cs' => short_bytes n r bs /\ short_calls n (run_bytes r bs) cs'
  | CReset :: cs' => short_calls n None cs'
  | _ :: cs' => short_calls n r cs'
  end.
