(* Collectors whose size limit is changed while they are in use: which calls are meant *)
From Coq Require Import ZArith List Bool.
From Verif Require Import Base Packet PacketSpec Sysex Collector CollectSpec.
Import ListNotations.
Local Open Scope Z_scope.

(* calls with arguments of the parameter types *)
Definition any_call (k : collector_call) : Prop :=
  match k with KFeed p => wf_packet p | KSetMax s => 0 <= s | KReset | KSetCallback _ => True end.

(* the limit in force after [ks]; 0 means none *)
Fixpoint last_limit (l : Z) (ks : list collector_call) : Z :=
  match ks with
  | [] => l
  | KSetMax s :: ks' => last_limit s ks'
  | _ :: ks' => last_limit l ks'
  end.

(* Limits are removed or set to [n] or more, and no message has more than [n] bytes; [b] bytes
   were fed since the last packet that begins a message. *)
Fixpoint roomy (rd : packet -> option content) (n b : Z) (ks : list collector_call) : Prop :=
  match ks with
  | [] => True
  | KFeed p :: ks' =>
      wf_packet p /\
      match rd p with
      | None => roomy rd n b ks'
      | Some x =>
          let b' := (if ct_format x <? 2 then 0 else b) + size (ct_payload x) in
          b' <= n /\ roomy rd n b' ks'
      end
  | KReset :: ks' => roomy rd n 0 ks'
  | KSetMax s :: ks' => 0 <= s /\ (s = 0 \/ n <= s) /\ roomy rd n b ks'
  | KSetCallback _ :: ks' => roomy rd n b ks'
  end.

Definition without_limits (ks : list collector_call) : list collector_call :=
  filter (fun k => match k with KSetMax _ => false | _ => true end) ks.

(* limits from 1 to [m] *)
Definition limited (m : Z) (k : collector_call) : Prop := match k with KSetMax s => 0 < s <= m | _ => True end.
