(* C80: the limit of a collector may be changed while the collector is in use *)
From Coq Require Import ZArith List Bool Lia.
From Verif Require Import Base Packet PacketSpec Messages Sysex Collector CollectSpec Reentrant ThrowingSpec LimitSpec LimitProofs PropsCollect.
Import ListNotations.
Local Open Scope Z_scope.
Local Open Scope res_scope.

(* 5 bytes of data in one packet; 5 and 4 bytes of data in two packets *)
Definition short7 : packet := mkP 0x30067D01 0x02030405 0 0.
Definition long7 : list collector_call := [KFeed (mkP 0x30167D01 0x02030405 0 0); KFeed (mkP 0x30340607 0x08090000 0 0)].
Definition short8 : packet := mkP 0x50080100 0x7D010203 0x04050000 0.
Definition mixed7 : list collector_call := [KSetMax 4; KFeed short7; KSetCallback true; KSetMax 6; KFeed short7; KSetMax 0] ++ long7.

(* A limit L set after a reset limits messages to the larger of L and the memory the collector
   holds: exactly like this limit set before first use.  Memory of more than 16 KiB may be
   given up later, so that it must not exceed L. *)
Theorem C80_in_use7 : forall a cb ks c o L ks', exact_alloc a -> Forall any_call ks ->
  c7_calls a (new_collector7 cb) ks = Ok (c, o) -> 0 < L -> (c7_capacity c <= 16384 \/ c7_capacity c <= L) -> Forall keeps_limit ks' ->
  observed (c7_calls a c (KReset :: KSetMax L :: ks')) =
  observed (c7_calls a (new_collector7 (c7_has_cb c)) (KSetMax (Z.max L (c7_capacity c)) :: ks')).
Proof. exact in_use7. Qed.
Print Assumptions C80_in_use7.
Theorem C80_in_use8 : forall a cb ks c o L ks', exact_alloc a -> Forall any_call ks ->
  c8_calls a (new_collector8 cb) ks = Ok (c, o) -> 0 < L -> (c8_capacity c <= 16384 \/ c8_capacity c <= L) -> Forall keeps_limit ks' ->
  observed (c8_calls a c (KReset :: KSetMax L :: ks')) =
  observed (c8_calls a (new_collector8 (c8_has_cb c)) (KSetMax (Z.max L (c8_capacity c)) :: ks')).
Proof. exact in_use8. Qed.
Print Assumptions C80_in_use8.
Example C80_in_use_ex : Forall any_call mixed7 /\
  match c7_calls plain_alloc (new_collector7 true) mixed7 with
  | Ok (c, o) => o = [mkSx 0x7D0000 [1; 2; 3; 4; 5]; mkSx 0x7D0000 [1; 2; 3; 4; 5; 6; 7; 8; 9]] /\ c7_capacity c = 128 /\
      observed (c7_calls plain_alloc c [KReset; KSetMax 2; KFeed short7]) = Ok [mkSx 0x7D0000 [1; 2; 3; 4; 5]]
  | Fault _ => False
  end.
Proof. split; [repeat constructor; cbn; lia|]. vm_compute. auto. Qed.

(* If the limit was set before first use and never removed, raising it to L has the effect of
   setting L before first use. *)
Theorem C80_raised7 : forall a cb s ks c o L ks', exact_alloc a -> Forall any_call ks -> Forall (limited L) (KSetMax s :: ks) ->
  c7_calls a (new_collector7 cb) (KSetMax s :: ks) = Ok (c, o) -> Forall keeps_limit ks' ->
  observed (c7_calls a c (KReset :: KSetMax L :: ks')) = observed (c7_calls a (new_collector7 (c7_has_cb c)) (KSetMax L :: ks')).
Proof. exact raised7. Qed.
Print Assumptions C80_raised7.
Theorem C80_raised8 : forall a cb s ks c o L ks', exact_alloc a -> Forall any_call ks -> Forall (limited L) (KSetMax s :: ks) ->
  c8_calls a (new_collector8 cb) (KSetMax s :: ks) = Ok (c, o) -> Forall keeps_limit ks' ->
  observed (c8_calls a c (KReset :: KSetMax L :: ks')) = observed (c8_calls a (new_collector8 (c8_has_cb c)) (KSetMax L :: ks')).
Proof. exact raised8. Qed.
Print Assumptions C80_raised8.
Example C80_raised_ex : Forall (limited 6) [KSetMax 3; KFeed short7; KSetMax 5] /\
  observed (c7_calls plain_alloc (new_collector7 true) ([KSetMax 3; KFeed short7; KSetMax 5] ++ [KReset; KSetMax 6; KFeed short7] ++ long7)) =
  Ok [mkSx 0x7D0000 [1; 2; 3; 4; 5]].
Proof. split; [repeat constructor; cbn; lia|]. vm_compute. reflexivity. Qed.

(* Whatever happened before, a limit L bounds messages by the larger of L and the memory held;
   that memory is at most the largest limit if there always was one. *)
Theorem C80_bound7 : forall a cb ks c o L ks', exact_alloc a -> Forall any_call ks ->
  c7_calls a (new_collector7 cb) ks = Ok (c, o) -> 0 < L -> Forall keeps_limit ks' ->
  exists c' o', c7_calls a c (KSetMax L :: ks') = Ok (c', o') /\ Forall (fun s => size (sx_data s) <= Z.max L (c7_capacity c)) o'.
Proof. exact bound7. Qed.
Print Assumptions C80_bound7.
Theorem C80_lowered7 : forall a cb M s ks c o L ks', exact_alloc a -> Forall any_call ks -> Forall (limited M) (KSetMax s :: ks) ->
  c7_calls a (new_collector7 cb) (KSetMax s :: ks) = Ok (c, o) -> 0 < L <= M -> Forall keeps_limit ks' ->
  exists c' o', c7_calls a c (KSetMax L :: ks') = Ok (c', o') /\ Forall (fun s => size (sx_data s) <= M) o'.
Proof. exact lowered7. Qed.
Print Assumptions C80_lowered7.
Theorem C80_bound8 : forall a cb ks c o L ks', exact_alloc a -> Forall any_call ks ->
  c8_calls a (new_collector8 cb) ks = Ok (c, o) -> 0 < L -> Forall keeps_limit ks' ->
  exists c' o', c8_calls a c (KSetMax L :: ks') = Ok (c', o') /\ Forall (fun s => size (sx_data (fst s)) <= Z.max L (c8_capacity c)) o'.
Proof. exact bound8. Qed.
Print Assumptions C80_bound8.
Theorem C80_lowered8 : forall a cb M s ks c o L ks', exact_alloc a -> Forall any_call ks -> Forall (limited M) (KSetMax s :: ks) ->
  c8_calls a (new_collector8 cb) (KSetMax s :: ks) = Ok (c, o) -> 0 < L <= M -> Forall keeps_limit ks' ->
  exists c' o', c8_calls a c (KSetMax L :: ks') = Ok (c', o') /\ Forall (fun s => size (sx_data (fst s)) <= M) o'.
Proof. exact lowered8. Qed.
Print Assumptions C80_lowered8.
Example C80_lowered_ex : Forall (limited 7) [KSetMax 7; KFeed short8; KSetMax 1] /\
  observed (c8_calls plain_alloc (new_collector8 true) ([KSetMax 7; KFeed short8; KSetMax 1] ++ [KSetMax 2; KFeed short8])) =
  Ok [(mkSx 0x7D0000 [1; 2; 3; 4; 5], 1); (mkSx 0x7D0000 [1; 2; 3; 4; 5], 1)].
Proof. split; [repeat constructor; cbn; lia|]. vm_compute. reflexivity. Qed.

(* Limits of n or more, changed at any time, are not noticed by messages of up to n bytes. *)
Theorem C80_unnoticed7 : forall a cb ks c o n ks', std_alloc a -> Forall any_call ks ->
  c7_calls a (new_collector7 cb) ks = Ok (c, o) ->
  (last_limit 0 ks = 0 \/ n <= last_limit 0 ks) -> roomy content7 n 0 ks' ->
  observed (c7_calls a c (KReset :: ks')) = observed (c7_calls a (new_collector7 (c7_has_cb c)) (without_limits ks')).
Proof. exact unnoticed7. Qed.
Print Assumptions C80_unnoticed7.
Theorem C80_unnoticed8 : forall a cb ks c o n ks', std_alloc a -> Forall any_call ks ->
  c8_calls a (new_collector8 cb) ks = Ok (c, o) ->
  (last_limit 0 ks = 0 \/ n <= last_limit 0 ks) -> roomy content8 n 0 ks' ->
  observed (c8_calls a c (KReset :: ks')) = observed (c8_calls a (new_collector8 (c8_has_cb c)) (without_limits ks')).
Proof. exact unnoticed8. Qed.
Print Assumptions C80_unnoticed8.
Example C80_unnoticed_ex : roomy content7 10 0 (KSetMax 10 :: long7 ++ KSetMax 0 :: KFeed short7 :: KSetMax 11 :: long7) /\
  observed (c7_calls plain_alloc (new_collector7 true) (KReset :: KSetMax 10 :: long7 ++ KSetMax 0 :: KFeed short7 :: KSetMax 11 :: long7)) =
  Ok [mkSx 0x7D0000 [1; 2; 3; 4; 5; 6; 7; 8; 9]; mkSx 0x7D0000 [1; 2; 3; 4; 5]; mkSx 0x7D0000 [1; 2; 3; 4; 5; 6; 7; 8; 9]].
Proof. split; [|vm_compute; reflexivity]. vm_compute. intuition discriminate. Qed.

(* A limit set by the callback has the effect of setting it when feed() has returned. *)
Theorem C80_from_callback7 : forall a cb ks c o p c1 o1 L ks', exact_alloc a -> Forall any_call ks ->
  c7_calls a (new_collector7 cb) ks = Ok (c, o) -> c7_feed a c p = Ok (c1, o1) -> o1 <> [] -> 0 <= L -> Forall keeps_limit ks' ->
  exists c2, c7_feed_in a (fun d => Ok (c7_set_max a d L, [])) c p = Ok (c2, o1) /\
    observed (c7_calls a c2 ks') = observed (c7_calls a c1 (KSetMax L :: ks')).
Proof. exact from_callback7. Qed.
Print Assumptions C80_from_callback7.
Theorem C80_from_callback8 : forall a cb ks c o p c1 o1 L ks', exact_alloc a -> Forall any_call ks ->
  c8_calls a (new_collector8 cb) ks = Ok (c, o) -> c8_feed a c p = Ok (c1, o1) -> o1 <> [] -> 0 <= L -> Forall keeps_limit ks' ->
  exists c2, c8_feed_in a (fun d => Ok (c8_set_max a d L, [])) c p = Ok (c2, o1) /\
    observed (c8_calls a c2 ks') = observed (c8_calls a c1 (KSetMax L :: ks')).
Proof. exact from_callback8. Qed.
Print Assumptions C80_from_callback8.
Example C80_from_callback_ex :
  match c7_feed plain_alloc (new_collector7 true) short7,
        c7_feed_in plain_alloc (fun d => Ok (c7_set_max plain_alloc d 20000, [])) (new_collector7 true) short7 with
  | Ok (c1, o1), Ok (c2, o2) => o1 = o2 /\ o1 = [mkSx 0x7D0000 [1; 2; 3; 4; 5]] /\
      c7_capacity c2 = 0 /\ c7_capacity (c7_set_max plain_alloc c1 20000) = 20000
  | _, _ => False
  end.
Proof. vm_compute. auto. Qed.

(* While more memory than the limit is held, what is accepted may change: the same message is
   delivered and then refused. *)
Theorem C80_memory_given_up_refuted : exists c v, 4 < size (sx_data v) /\
  c7_calls plain_alloc (new_collector7 true) [KSetMax 16385; KSetMax 4] = Ok (c, []) /\
  observed (c7_calls plain_alloc c [KFeed short7]) = Ok [v] /\
  observed (c7_calls plain_alloc c [KFeed short7; KFeed short7]) = Ok [v].
Proof. exists (mkC7 sysex_empty_value 16385 4 0x10 0 true), (mkSx 0x7D0000 [1; 2; 3; 4; 5]). split; [reflexivity|]. split; [reflexivity|]. split; vm_compute; reflexivity. Qed.
Print Assumptions C80_memory_given_up_refuted.
