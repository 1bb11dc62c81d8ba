(* Theorems about the clocks a clock follower depends on. *)
From Coq Require Import ZArith List Bool Lia.
From Verif Require Import Base Jitter EpochSpec EpochProofs.
Import ListNotations.
Local Open Scope Z_scope.

(* ---- C86 -------------------------------------------------------------------------------- *)

(* If the receiver's clock shows d more, all messages are scheduled d later, with the same
   security offset, unless the arithmetic overflows. *)
Theorem C86_receiver_clock : forall z d es s o s' o',
  run (new_follower z) es = Ok (s, o) ->
  run (new_follower (z + d)) (map (received_later d) es) = Ok (s', o') ->
  o' = map (fun x => (fst x + d, snd x)) o /\ jitter s' = jitter s.
Proof.
  intros z d es s o s' o' A B.
  assert (L0 : later d (new_follower z) (new_follower (z + d))) by (unfold later, new_follower; cbn; auto 10).
  destruct (later_run d es _ _ _ _ _ _ L0 A B) as (L & E).
  split; [exact E|]. apply L.
Qed.
Print Assumptions C86_receiver_clock.

(* If the sender's clock shows k ticks more, nothing changes. *)
Theorem C86_sender_clock : forall z k es, Forall stamps_ok es ->
  returned (run (new_follower z) (map (stamped_later k) es)) = returned (run (new_follower z) es).
Proof.
  intros z k es F. apply alike_returned with (R := restamped k).
  apply runs_alike with (P := stamps_ok); trivial; [intros; now apply restamped_step|].
  unfold restamped, new_follower. cbn. auto 12.
Qed.
Print Assumptions C86_sender_clock.

(* When the follower was constructed does not matter, if that was before the first clock. *)
Theorem C86_construction : forall z z' es, Forall (clock_after z) es -> Forall (clock_after z') es ->
  returned (run (new_follower z') es) = returned (run (new_follower z) es).
Proof.
  intros z z' es F F'. apply alike_returned with (R := same_history z z').
  replace (run (new_follower z') es) with (run (new_follower z') (map (fun e => e) es)) by now rewrite map_id.
  apply runs_alike with (P := fun e => clock_after z e /\ clock_after z' e).
  - intros s s' e L (U & U'). now apply same_history_step.
  - unfold same_history, new_follower. cbn. auto 12.
  - apply Forall_forall. intros e I. rewrite Forall_forall in F, F'. auto.
Qed.
Print Assumptions C86_construction.

Definition sample_history : list event :=
  [Message 1500 7; Clock 2000000 65000; Message 2500000 65400; SetOffset 3000000; Clock 34000000 600; Message 40000000 900;
   Reset; Message 41000000 5; Clock 42000000 1].
Example C86_ex : Forall stamps_ok sample_history /\ Forall (clock_after 100) sample_history /\ Forall (clock_after 1000) sample_history /\
  returned (run (new_follower 100) sample_history) =
    Ok [(2001500, 2000000); (16800000, 2000000); (48822400, 5222400); (43000000, 2000000)] /\
  returned (run (new_follower 1100) (map (received_later 1000) sample_history)) =
    Ok [(2002500, 2000000); (16801000, 2000000); (48823400, 5222400); (43001000, 2000000)] /\
  returned (run (new_follower 100) (map (stamped_later 50000) sample_history)) =
    Ok [(2001500, 2000000); (16800000, 2000000); (48822400, 5222400); (43000000, 2000000)].
Proof.
  split; [|split; [|split]]; [repeat constructor; unfold stamps_ok, is_u16; lia|repeat constructor; cbn; lia..|].
  split; [vm_compute; reflexivity|]. split; vm_compute; reflexivity.
Qed.

(* The time of construction matters if the first clock is received at that very time. *)
Theorem C86_construction_refuted : exists z z' es, Forall (clock_after z) es /\ Forall (clock_after (z' - 1)) es /\
  returned (run (new_follower z') es) <> returned (run (new_follower z) es).
Proof. exists 100, 200, [Clock 200 0; Message 300 1000]. split; [|split]; [repeat constructor; cbn; lia..|vm_compute; discriminate]. Qed.
Print Assumptions C86_construction_refuted.
