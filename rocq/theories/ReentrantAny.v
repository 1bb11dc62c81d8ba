(* Callbacks of SysEx collectors that call the collector that invoked them in any way: packets, reset(), and limits; as in
   Reentrant.v, with set_max_sysex_data_size() and set_callback().  A callback that replaces itself must not use what it captured afterwards, as
   the function object it runs in is gone; that is not modelled. *)
From Coq Require Import ZArith List Bool.
From Verif Require Import Base Packet Messages Sysex Collector Reentrant.
Import ListNotations.
Local Open Scope Z_scope.
Local Open Scope res_scope.

(* sysex_collector.h:46-50 and 69-73: calls of a collector, with the calls of the callback during feed() *)
Inductive free_collect : Type :=
| GFeed (p : packet) (during : list free_collect)
| GReset
| GSetMax (s : Z)
| GSetCallback (cb : bool).

Fixpoint free7_step (a : allocator) (c : collector7) (k : free_collect) {struct k} : result7 :=
  match k with
  | GFeed p during =>
      c7_feed_in a (fun c =>
        (fix go (c : collector7) (ks : list free_collect) {struct ks} : result7 :=
           match ks with
           | [] => Ok (c, [])
           | k :: ks' =>
               r <- free7_step a c k ;; r' <- go (fst r) ks' ;; Ok (fst r', snd r ++ snd r')
           end) c during) c p
  | GReset => Ok (c7_reset a c, [])
  | GSetMax s => Ok (c7_set_max a c s, [])
  | GSetCallback cb => Ok (c7_set_callback c cb, [])
  end.
Definition free7_calls (a : allocator) :=
  fix go (c : collector7) (ks : list free_collect) {struct ks} : result7 :=
  match ks with
  | [] => Ok (c, [])
  | k :: ks' =>
      r <- free7_step a c k ;; r' <- go (fst r) ks' ;; Ok (fst r', snd r ++ snd r')
  end.

Fixpoint free8_step (a : allocator) (c : collector8) (k : free_collect) {struct k} : result8 :=
  match k with
  | GFeed p during =>
      c8_feed_in a (fun c =>
        (fix go (c : collector8) (ks : list free_collect) {struct ks} : result8 :=
           match ks with
           | [] => Ok (c, [])
           | k :: ks' =>
               r <- free8_step a c k ;; r' <- go (fst r) ks' ;; Ok (fst r', snd r ++ snd r')
           end) c during) c p
  | GReset => Ok (c8_reset a c, [])
  | GSetMax s => Ok (c8_set_max a c s, [])
  | GSetCallback cb => Ok (c8_set_callback c cb, [])
  end.
Definition free8_calls (a : allocator) :=
  fix go (c : collector8) (ks : list free_collect) {struct ks} : result8 :=
  match ks with
  | [] => Ok (c, [])
  | k :: ks' =>
      r <- free8_step a c k ;; r' <- go (fst r) ks' ;; Ok (fst r', snd r ++ snd r')
  end.
