(* C71, continued: callbacks that call the collector in any way, changes of the limit and the callback among it *)
From Coq Require Import ZArith List Bool Lia.
From Verif Require Import Base Packet PacketSpec Messages Sysex Collector CollectSpec Reentrant ReentrantCollectProofs ThrowingSpec
  LimitSpec LimitProofs ReentrantAny ReentrantAnySpec ReentrantAnyProofs PropsCollect PropsLimit.
Import ListNotations.
Local Open Scope Z_scope.
Local Open Scope res_scope.

(* Whatever callbacks feed, whether they reset the collector, change its limit or its callback, at any depth, there is no access out of bounds and no violated assertion.
   After reset() the collector then works like a new one, if limits (one set then) leave room for the messages. After a callback
   has been invoked it does so without reset(). *)
Theorem C71_anything7 : forall a cb ks, std_alloc a -> Forall free_ok ks ->
  exists c o, free7_calls a (new_collector7 cb) ks = Ok (c, o) /\
    (forall n L ks', roomy content7 n 0 (KSetMax L :: ks') ->
      observed (c7_calls a c (KReset :: KSetMax L :: ks')) = observed (c7_calls a (new_collector7 (c7_has_cb c)) (without_limits ks'))) /\
    (forall p during, free_ok (GFeed p during) ->
      exists c' o', free7_step a c (GFeed p during) = Ok (c', o') /\
        (o' <> [] -> forall n L ks', roomy content7 n 0 (KSetMax L :: ks') ->
          observed (c7_calls a c' (KSetMax L :: ks')) = observed (c7_calls a (new_collector7 (c7_has_cb c')) (without_limits ks')))).
Proof.
  intros a cb ks A K. assert (SA := A).
  destruct (free7_calls_total a ks SA K _ (weak7_new cb)) as (c & o & E & W). exists c, o. split; [exact E|]. split.
  - intros n L ks' R. rewrite <- (idle7_like_new a _ _ _ n L ks' A (weak7_idle a c SA W) R).
    cbn [c7_calls c7_call bind]. destruct (c7_calls a _ ks') as [[? ?]|]; reflexivity.
  - intros p during P. destruct (free7_total a SA _ P c W) as (c' & o' & E' & _ & D). exists c', o'. split; [exact E'|].
    intros NE n L ks' R. destruct (D NE) as (d & WD & ->). exact (idle7_like_new a _ _ _ n L ks' A (weak7_idle a d SA WD) R).
Qed.
Print Assumptions C71_anything7.

Theorem C71_anything8 : forall a cb ks, std_alloc a -> Forall free_ok ks ->
  exists c o, free8_calls a (new_collector8 cb) ks = Ok (c, o) /\
    (forall n L ks', roomy content8 n 0 (KSetMax L :: ks') ->
      observed (c8_calls a c (KReset :: KSetMax L :: ks')) = observed (c8_calls a (new_collector8 (c8_has_cb c)) (without_limits ks'))) /\
    (forall p during, free_ok (GFeed p during) ->
      exists c' o', free8_step a c (GFeed p during) = Ok (c', o') /\
        (o' <> [] -> forall n L ks', roomy content8 n 0 (KSetMax L :: ks') ->
          observed (c8_calls a c' (KSetMax L :: ks')) = observed (c8_calls a (new_collector8 (c8_has_cb c')) (without_limits ks')))).
Proof.
  intros a cb ks A K. assert (SA := A).
  destruct (free8_calls_total a ks SA K _ (weak8_new cb)) as (c & o & E & W). exists c, o. split; [exact E|]. split.
  - intros n L ks' R. rewrite <- (idle8_like_new a _ _ _ n L ks' A (weak8_idle a c SA W) R).
    cbn [c8_calls c8_call bind]. destruct (c8_calls a _ ks') as [[? ?]|]; reflexivity.
  - intros p during P. destruct (free8_total a SA _ P c W) as (c' & o' & E' & _ & D). exists c', o'. split; [exact E'|].
    intros NE n L ks' R. destruct (D NE) as (d & WD & ->). exact (idle8_like_new a _ _ _ n L ks' A (weak8_idle a d SA WD) R).
Qed.
Print Assumptions C71_anything8.

(* These calls are those of the other theorems if callbacks make none. *)
Definition unnested (k : collector_call) : free_collect :=
  match k with KFeed p => GFeed p [] | KReset => GReset | KSetMax s => GSetMax s | KSetCallback cb => GSetCallback cb end.
Theorem C71_anything_plain : forall a ks,
  (forall c, free7_calls a c (map unnested ks) = c7_calls a c ks) /\ (forall c, free8_calls a c (map unnested ks) = c8_calls a c ks).
Proof.
  intros a ks. split; induction ks as [|k ks IH]; intros c; try reflexivity.
  - change (free7_calls a c (map unnested (k :: ks))) with
      (r <- free7_step a c (unnested k) ;; r' <- free7_calls a (fst r) (map unnested ks) ;; Ok (fst r', snd r ++ snd r')).
    cbn [c7_calls]. replace (free7_step a c (unnested k)) with (c7_call a c k).
    2: { destruct k; try reflexivity. symmetry. exact (c7_feed_idle a c p). }
    destruct (c7_call a c k) as [[c1 o1]|f]; [|reflexivity]. cbn [bind fst snd]. rewrite IH. now destruct (c7_calls a c1 ks) as [[c2 o2]|].
  - change (free8_calls a c (map unnested (k :: ks))) with
      (r <- free8_step a c (unnested k) ;; r' <- free8_calls a (fst r) (map unnested ks) ;; Ok (fst r', snd r ++ snd r')).
    cbn [c8_calls]. replace (free8_step a c (unnested k)) with (c8_call a c k).
    2: { destruct k; try reflexivity. symmetry. exact (c8_feed_idle a c p). }
    destruct (c8_call a c k) as [[c1 o1]|f]; [|reflexivity]. cbn [bind fst snd]. rewrite IH. now destruct (c8_calls a c1 ks) as [[c2 o2]|].
Qed.
Print Assumptions C71_anything_plain.

(* the callback of a message in one packet feeds half a message without a reset, lowers the limit and continues *)
Definition c71_any : list free_collect :=
  [GSetMax 9; GFeed short7 [GFeed (mkP 0x30167D01 0x02030405 0 0) []; GSetMax 2; GFeed (mkP 0x30340607 0x08090000 0 0) [GSetMax 6; GFeed short7 []]; GSetCallback false; GFeed short7 [GReset]; GSetCallback true]].
Example C71_anything_ex : std_alloc plain_alloc /\ Forall free_ok c71_any /\ roomy content7 10 0 (KSetMax 10 :: long7) /\
  match free7_calls plain_alloc (new_collector7 true) c71_any with
  | Ok (c, o) => length o = 1%nat /\
      observed (c7_calls plain_alloc c (KSetMax 10 :: long7)) = Ok [mkSx 0x7D0000 [1; 2; 3; 4; 5; 6; 7; 8; 9]]
  | Fault _ => False
  end.
Proof.
  split; [apply plain_alloc_exact|]. split.
  { assert (forall a b c d, 0 <= a < 2^32 -> 0 <= b < 2^32 -> 0 <= c < 2^32 -> 0 <= d < 2^32 -> wf_packet (mkP a b c d)) as H
      by (intros; unfold wf_packet, is_u32; cbn; lia).
    repeat constructor; cbn; lia. }
  split; [vm_compute; intuition discriminate|]. vm_compute. auto.
Qed.
