(* What is expected of calls during which the allocator refuses memory, and of how often memory
   is asked for. *)
From Coq Require Import ZArith List Bool.
From Verif Require Import Base Packet PacketSpec Sysex ByteStream Collector StreamSpec CollectSpec Memory.
Import ListNotations.
Local Open Scope Z_scope.

(* the same calls, with memory *)
Definition plain_call (k : mem_call) : parser_call :=
  match k with MFeed b _ => CFeed [b] | MEnable on => CEnable on | MSetGroup g => CSetGroup g | MReset => CReset end.
Definition plain_collect (k : mem_collect) : collector_call :=
  match k with MKFeed p _ => KFeed p | MKReset => KReset | MKSetMax s _ => KSetMax s | MKSetCallback cb => KSetCallback cb end.

(* The calls of a client that gives packets up, [ms] is what happened to memory during them:
   the next SysEx packet after a packet given up begins a message, unless reset() is called. *)
Fixpoint begins_anew (rd : packet -> option content) (ks : list try_collect) : Prop :=
  match ks with
  | [] | TKReset :: _ => True
  | TKFeed p _ :: ks' => match rd p with None => begins_anew rd ks' | Some x => ct_format x < 2 end
  end.
Fixpoint gives_up_messages (rd : packet -> option content) (ks : list try_collect) (ms : list memory) : Prop :=
  match ks, ms with
  | TKFeed p _ :: ks', m :: ms' =>
      wf_packet p /\ (m = Refused -> begins_anew rd ks') /\ gives_up_messages rd ks' ms'
  | TKReset :: ks', _ :: ms' => gives_up_messages rd ks' ms'
  | _, _ => True
  end.

(* the calls without the packets given up *)
Fixpoint without_refused (ks : list try_collect) (ms : list memory) : list collector_call :=
  match ks, ms with
  | TKFeed _ _ :: ks', Refused :: ms' => without_refused ks' ms'
  | TKFeed p _ :: ks', _ :: ms' => KFeed p :: without_refused ks' ms'
  | TKReset :: ks', _ :: ms' => KReset :: without_refused ks' ms'
  | _, _ => []
  end.

(* how often memory was asked for *)
Fixpoint requests (ms : list memory) : nat :=
  match ms with
  | [] => 0
  | Untouched :: ms' => requests ms'
  | _ :: ms' => S (requests ms')
  end%nat.

(* the bytes fed *)
Definition fed_bytes (ks : list parser_call) : list Z :=
  concat (map (fun k => match k with CFeed bs => bs | _ => [] end) ks).
(* No more than [limit] data bytes follow each other; real-time bytes between them do not count. *)
Definition short_runs (limit : Z) (bs : list Z) : Prop :=
  forall before run after, bs = before ++ run ++ after ->
    (forall b, In b run -> b < 0x80 \/ 0xF8 <= b) -> size (filter (fun b => b <? 0x80) run) <= limit.

(* calls that do not raise the limit [n] of a collector, nor remove it *)
Definition lowers_limit (n : Z) (k : collector_call) : Prop :=
  match k with KSetMax s => 1 <= s <= n | _ => True end.

(* Calls that leave the limit alone, and no more than [limit] bytes in packets that continue or
   end a message, together with the packet that began it; [n] bytes were fed before. *)
Fixpoint messages_within (rd : packet -> option content) (limit n : Z) (ks : list collector_call) : Prop :=
  match ks with
  | [] => True
  | KFeed p :: ks' =>
      wf_packet p /\
      match rd p with
      | None => messages_within rd limit n ks'
      | Some x =>
          let n' := (if ct_format x <? 2 then 0 else n) + size (ct_payload x) in
          n' <= limit /\ messages_within rd limit n' ks'
      end
  | KReset :: ks' => messages_within rd limit 0 ks'
  | KSetMax _ :: _ => False
  | KSetCallback _ :: ks' => messages_within rd limit n ks'
  end.

(* the status byte last fed, since reset(); real-time bytes are none *)
Definition status_after (s : option Z) (bs : list Z) : option Z :=
  fold_left (fun s b => if (0x80 <=? b) && (b <? 0xF8) then Some b else s) bs s.
Definition last_status (s : option Z) (ks : list parser_call) : option Z :=
  fold_left (fun s k => match k with CFeed bs => status_after s bs | CReset => None | _ => s end) ks s.
