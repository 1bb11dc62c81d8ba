(* What the callbacks of SysEx collectors may do to the collector that invoked them.

   A collector is described as in CollectSpec.v. *)
From Coq Require Import ZArith List Bool.
From Verif Require Import Base Packet Sysex Collector CollectSpec Reentrant.
Import ListNotations.
Local Open Scope Z_scope.

(* the packets and resets a client makes, those for a message after the message *)
Fixpoint collect_spec (rd : packet -> option content) (dec : list Z -> sysex) (max : Z)
  (st : astate) (k : nested_collect) {struct k} : astate * list (sysex * Z) :=
  match k with
  | KNFeed p during =>
      match rd p with
      | None => (st, [])
      | Some x =>
          match a_step dec max st x with
          | (st', []) => (st', [])
          | (st', e) =>
              let r := (fix go (st : astate) (ks : list nested_collect) {struct ks} :=
                          match ks with
                          | [] => (st, [])
                          | k :: ks' =>
                              let r := collect_spec rd dec max st k in
                              let r' := go (fst r) ks' in (fst r', snd r ++ snd r')
                          end) st' during in
              (fst r, e ++ snd r)
          end
      end
  | KNReset => (a_idle, [])
  end.
Definition collect_specs (rd : packet -> option content) (dec : list Z -> sysex) (max : Z) :=
  fix go (st : astate) (ks : list nested_collect) {struct ks} : astate * list (sysex * Z) :=
  match ks with
  | [] => (st, [])
  | k :: ks' => let r := collect_spec rd dec max st k in
                let r' := go (fst r) ks' in (fst r', snd r ++ snd r')
  end.

(* Packets of other kinds may be fed at any time.  After the callback for a message of
   several packets ([several]) the first SysEx packet fed begins a message; otherwise reset()
   is called before any SysEx packet is fed. *)
Fixpoint begins_clean (rd : packet -> option content) (several : bool) (ks : list nested_collect) : Prop :=
  match ks with
  | [] | KNReset :: _ => True
  | KNFeed p _ :: ks' =>
      match rd p with
      | None => begins_clean rd several ks'
      | Some x => several = true /\ ct_format x < 2
      end
  end.

(* no part of a message has been received *)
Definition nothing_pending (st : astate) : Prop := a_bytes st = [] /\ a_open st = false.

(* Which calls a callback may make: any that begin clean and leave no message unfinished. *)
Fixpoint may_collect (rd : packet -> option content) (dec : list Z -> sysex) (max : Z)
  (st : astate) (k : nested_collect) {struct k} : Prop :=
  match k with
  | KNFeed p during =>
      wf_packet p /\
      match rd p with
      | None => True
      | Some x =>
          let '(st', e) := a_step dec max st x in
          e <> [] ->
          (fix go (st : astate) (ks : list nested_collect) {struct ks} : Prop :=
             match ks with
             | [] => True
             | k :: ks' => may_collect rd dec max st k /\ go (fst (collect_spec rd dec max st k)) ks'
             end) st' during /\
          begins_clean rd (ct_format x =? 3) during /\
          nothing_pending (fst (collect_specs rd dec max st' during))
      end
  | KNReset => True
  end.
Definition all_may_collect (rd : packet -> option content) (dec : list Z -> sysex) (max : Z) :=
  fix go (st : astate) (ks : list nested_collect) {struct ks} : Prop :=
  match ks with
  | [] => True
  | k :: ks' => may_collect rd dec max st k /\ go (fst (collect_spec rd dec max st k)) ks'
  end.

(* ---- the same client making its calls after feed() has returned --------------------------- *)

Section Afterwards.
  Context {C E : Type} (feed : C -> packet -> res (C * list E)) (reset : C -> C).

  Fixpoint collect_afterwards_step (c : C) (k : nested_collect) {struct k} : res (C * list E) :=
    match k with
    | KNFeed p during =>
        bind (feed c p) (fun r =>
          match snd r with
          | [] => Ok r
          | out =>
              bind ((fix go (c : C) (ks : list nested_collect) {struct ks} : res (C * list E) :=
                       match ks with
                       | [] => Ok (c, [])
                       | k :: ks' =>
                           bind (collect_afterwards_step c k) (fun r =>
                             bind (go (fst r) ks') (fun r' => Ok (fst r', snd r ++ snd r')))
                       end) (fst r) during)
                   (fun r' => Ok (fst r', out ++ snd r'))
          end)
    | KNReset => Ok (reset c, [])
    end.
  Fixpoint collect_afterwards (c : C) (ks : list nested_collect) {struct ks} : res (C * list E) :=
    match ks with
    | [] => Ok (c, [])
    | k :: ks' =>
        bind (collect_afterwards_step c k) (fun r =>
          bind (collect_afterwards (fst r) ks') (fun r' => Ok (fst r', snd r ++ snd r')))
    end.
End Afterwards.
