(* What callbacks that throw do to the parser or collector that invoked them: nothing, with
   the exceptions stated here. *)
From Coq Require Import ZArith List Bool.
From Verif Require Import Base Packet Sysex ByteStream Collector CollectSpec Throwing.
Import ListNotations.
Local Open Scope Z_scope.

(* the callback does not throw when it is given a packet of a SysEx *)
Definition spares_sysex (t : event -> bool) : Prop := forall p, type p = 3 -> t (EPacket p) = false.
Definition careful (k : guarded_call) : Prop :=
  match k with
  | XFeed b t => is_u8 b /\ spares_sysex t
  | XSetGroup g => 0 <= g < 16
  | XEnable _ | XReset => True
  end.

(* the same calls if nothing throws *)
Definition call_of (k : guarded_call) : parser_call :=
  match k with XFeed b _ => CFeed [b] | XEnable on => CEnable on | XSetGroup g => CSetGroup g | XReset => CReset end.
Definition collect_of (k : guarded_collect) : collector_call :=
  match k with XKFeed p _ => KFeed p | XKReset => KReset end.

(* what is observed of an execution *)
Definition observed {S E : Type} (r : res (S * list E)) : res (list E) :=
  match r with Ok (_, out) => Ok out | Fault f => Fault f end.

(* After an exception the client of a collector calls reset() before it feeds the next SysEx
   packet; after a message of several packets ([several]) it need not if that packet begins a
   message. *)
Fixpoint resumes_clean (rd : packet -> option content) (several : bool) (ks : list guarded_collect) : Prop :=
  match ks with
  | [] | XKReset :: _ => True
  | XKFeed p _ :: ks' =>
      match rd p with
      | None => resumes_clean rd several ks'
      | Some x => several = true /\ ct_format x < 2
      end
  end.
Fixpoint recovers (rd : packet -> option content) (dec : list Z -> sysex) (max : Z)
  (st : astate) (ks : list guarded_collect) : Prop :=
  match ks with
  | [] => True
  | XKReset :: ks' => recovers rd dec max a_idle ks'
  | XKFeed p t :: ks' =>
      wf_packet p /\
      match rd p with
      | None => recovers rd dec max st ks'
      | Some x =>
          let '(st', e) := a_step dec max st x in
          (existsb t (map fst e) = true -> resumes_clean rd (ct_format x =? 3) ks') /\
          recovers rd dec max st' ks'
      end
  end.
