(* C92: MIDI-CI devices find each other *)
From Coq Require Import ZArith List Bool Permutation Lia.
From Verif Require Import Base Sysex UniversalSysex SysexSpec CapInq CapSpec CapCalls CiNet CiNetSpec CiNetProofs.
Import ListNotations.
Local Open Scope Z_scope.
Local Open Scope res_scope.

(* A device asks; another, whatever it knows, then knows it, keeps what it knows of others, and answers.  Whatever the first
   receives before and after the answer, it then knows the other, as long as nothing else is said of that device. *)
Theorem C92_discovery : forall dbg a d k,
  device_ok a -> device_ok d -> cd_muid a <> cd_muid d ->
  exists q k' r,
    ask dbg a = Ok q /\ handle dbg d k q = Ok (k', [r]) /\
    look_up (cd_muid a) k' = Some (peer_of a) /\
    (forall m, m <> cd_muid a -> look_up m k' = look_up m k) /\
    Forall is_u7 (sx_data q) /\ Forall is_u7 (sx_data r) /\
    forall ka before after,
      Forall (fun s => Forall is_u7 (sx_data s)) (before ++ after) ->
      Forall (fun s => concerns (cd_muid d) s = false) after ->
      exists ka' rs, handle_all dbg a ka (before ++ r :: after) = Ok (ka', rs) /\
                     look_up (cd_muid d) ka' = Some (peer_of d).
Proof.
  intros dbg a d k OA OD N.
  exists (inquiry_of a), (peer_of a :: forget (cd_muid a) k), (answer_of d (cd_muid a)).
  split; [now apply ask_eq|]. split; [now apply on_inquiry|].
  split; [rewrite (look_up_learn _ (peer_of a)); cbn; now rewrite Z.eqb_refl|].
  split. { intros m E. rewrite (look_up_learn _ (peer_of a)). cbn [peer_of pr_muid]. destruct (Z.eqb_spec (cd_muid a) m); congruence. }
  split; [exact (wire_seven _ (inquiry_range a OA))|].
  split; [exact (wire_seven _ (answer_range d _ OD (muid28 a OA)))|].
  intros ka before after F C. apply Forall_app in F. destruct F as [F1 F2].
  destruct (handle_all_replies dbg a before OA F1 ka) as (k1 & H1).
  destruct (quiet_look dbg a (cd_muid d) after OA F2 C (peer_of d :: forget (cd_muid d) k1)) as (k2 & rs & H2 & E).
  exists k2. eexists. split.
  - eapply handle_all_app; [exact H1|]. cbn [handle_all]. rewrite (on_answer dbg a d k1 OA OD N). cbn [bind fst snd].
    rewrite H2. reflexivity.
  - rewrite E, (look_up_learn _ (peer_of d)). cbn. now rewrite Z.eqb_refl.
Qed.
Print Assumptions C92_discovery.

(* One inquiry, answered by any number of devices in any order: the asker knows exactly these devices. *)
Theorem C92_everybody : forall dbg a ds q answers,
  device_ok a -> Forall device_ok ds -> NoDup (map cd_muid (a :: ds)) ->
  ask dbg a = Ok q ->
  Forall2 (fun d r => forall k, exists k', handle dbg d k q = Ok (k', [r])) ds answers ->
  forall arrived, Permutation answers arrived ->
  exists known, handle_all dbg a [] arrived = Ok (known, []) /\
    forall m p, look_up m known = Some p <-> exists d, In d ds /\ cd_muid d = m /\ peer_of d = p.
Proof.
  intros dbg a ds q answers OA OD N Q A arrived P. rewrite (ask_eq dbg a OA) in Q. injection Q as <-.
  cbn [map] in N. inversion_clear N as [|? ? N1 N2].
  assert (E : answers = map (fun d => answer_of d (cd_muid a)) ds).
  { clear N2 P. induction A as [|d r ds rs H A IH]; [reflexivity|]. inversion_clear OD as [|? ? O1 O2]. cbn [map].
    f_equal; [|apply IH; [exact O2|intros I; apply N1; right; exact I]].
    destruct (H []) as (k' & H'). rewrite on_inquiry in H'; trivial; [now injection H'|].
    intros X. apply N1. left. now symmetry. }
  subst answers. apply Permutation_sym, Permutation_map_inv in P. destruct P as (ds' & -> & P).
  assert (P' : Permutation (map cd_muid ds) (map cd_muid ds')) by now apply Permutation_map.
  destruct (all_answers dbg a ds' OA) with (k := @nil ci_peer) as (k & H & L).
  - rewrite Forall_forall in *. intros x X. apply OD. eapply Permutation_in; [apply Permutation_sym; exact P|exact X].
  - intros X. apply N1. eapply Permutation_in; [apply Permutation_sym; exact P'|exact X].
  - eapply Permutation_NoDup; eauto.
  - exists k. split; [exact H|]. intros m p. rewrite L. split.
    + intros [(d & I & X)|[_ X]]; [|discriminate X]. exists d. split; [|exact X].
      eapply Permutation_in; [apply Permutation_sym; exact P|exact I].
    + intros (d & I & X). left. exists d. split; [|exact X]. eapply Permutation_in; eauto.
Qed.
Print Assumptions C92_everybody.

(* A device that leaves is forgotten, and only that device. *)
Theorem C92_left : forall dbg a d k,
  device_ok a -> device_ok d -> cd_muid a <> cd_muid d ->
  exists s k', leave dbg d = Ok s /\ handle dbg a k s = Ok (k', []) /\
    look_up (cd_muid d) k' = None /\ forall m, m <> cd_muid d -> look_up m k' = look_up m k.
Proof.
  intros dbg a d k OA OD N. exists (farewell_of d), (forget (cd_muid d) k).
  split; [now apply leave_eq|]. split; [now apply on_farewell|]. split.
  - rewrite look_up_forget. now rewrite Z.eqb_refl.
  - intros m E. rewrite look_up_forget. destruct (Z.eqb_spec (cd_muid d) m); congruence.
Qed.
Print Assumptions C92_left.

(* What is known of a device depends on the messages about it only, whatever else arrives between them. *)
Theorem C92_apart : forall dbg a m k k0 ss,
  device_ok a -> Forall (fun s => Forall is_u7 (sx_data s)) ss -> look_up m k0 = look_up m k ->
  exists k1 rs1 k2 rs2,
    handle_all dbg a k ss = Ok (k1, rs1) /\ handle_all dbg a k0 (filter (concerns m) ss) = Ok (k2, rs2) /\
    look_up m k2 = look_up m k1.
Proof.
  intros dbg a m k k0 ss OA F E. destruct (handle_all_look dbg a m ss OA F k) as (k1 & rs1 & _ & _ & H1 & H2 & _).
  destruct (H2 k0 E) as (k2 & rs2 & H3 & H4). exists k1, rs1, k2, rs2. auto.
Qed.
Print Assumptions C92_apart.

(* Each inquiry from another device to this one or to everybody is answered once, in order and to its sender; nothing
   else is answered. *)
Theorem C92_replies : forall dbg d k ss,
  device_ok d -> Forall (fun s => Forall is_u7 (sx_data s)) ss ->
  exists k', handle_all dbg d k ss = Ok (k', map (fun s => answer_of d (muid_at 4 s)) (filter (asks d) ss)).
Proof. intros dbg d k ss O F. exact (handle_all_replies dbg d ss O F k). Qed.
Print Assumptions C92_replies.

(* No messages, of whatever bytes and size, bring a device to an assertion or an access out of bounds. *)
Theorem C92_safe : forall dbg d k ss,
  device_ok d -> Forall (fun s => Forall is_u8 (sx_data s)) ss -> exists k' rs, handle_all dbg d k ss = Ok (k', rs).
Proof. intros dbg d k ss O F. exact (handle_all_total dbg d ss O F k). Qed.
Print Assumptions C92_safe.

(* ---- three devices, and messages of others between ------------------------------------------ *)

Definition c92_dev (m : Z) : ci_device := mkCiDevice m (mkDevId 0x002109 300 5 77) 0x1C 4096 0 0x7F.
Definition c92_a := c92_dev 0x01234567. Definition c92_b := c92_dev 0x0765432. Definition c92_c := c92_dev 0x0FFFFFFE.
(* a short capability inquiry message, another universal message, and one of a manufacturer *)
Definition c92_junk : list sysex :=
  [mkSx 0x7E0000 [0x7F; 0x0D; 0x70]; mkSx 0x7E0000 [0x7F; 0x06; 0x01]; mkSx 0x002109 [0x7F; 0x0D; 0x70; 2; 1; 2; 3; 4]].

Example C92_ok : device_ok c92_a /\ device_ok c92_b /\ device_ok c92_c /\ NoDup (map cd_muid [c92_a; c92_b; c92_c]).
Proof.
  assert (forall m, 0 <= m < 0x0FFFFFFF -> device_ok (c92_dev m)) as H.
  { intros m M. unfold device_ok, c92_dev, is_u7, is_u28. cbn. repeat apply conj; try lia.
    exists 0, 0x21, 9. unfold identity_in_range, is_u7, is_u14, is_u28. cbn. repeat apply conj; try lia; reflexivity. }
  repeat split; try apply H; try lia.
  unfold c92_a, c92_b, c92_c, c92_dev. cbn. repeat (constructor; [cbn; lia|]). constructor.
Qed.

Example C92_ex :
  (q <- ask true c92_a ;;
   rb <- handle true c92_b [] q ;;
   rc <- handle false c92_c (fst rb) q ;;
   l <- leave true c92_b ;;
   x <- handle_all true c92_a [] (c92_junk ++ snd rc ++ c92_junk ++ snd rb ++ q :: c92_junk) ;;
   y <- handle_all true c92_a (fst x) (l :: c92_junk) ;;
   Ok (map pr_muid (fst rb), map pr_muid (fst rc), map pr_muid (fst x), length (snd x), map pr_muid (fst y),
       map (concerns (cd_muid c92_b)) (snd rb ++ snd rc ++ l :: q :: c92_junk), map (asks c92_b) (q :: c92_junk)))
  = Ok ([0x01234567], [0x01234567], [0x0765432; 0x0FFFFFFE], 0%nat, [0x0FFFFFFE],
        [true; false; true; false; false; false; false], [true; false; false; false]).
Proof. now vm_compute. Qed.
