(* C95: views of messages that are edited. *)
From Coq Require Import ZArith List Bool Lia.
From Verif Require Import Base Sysex UniversalSysex SysexSpec CapInq CapSpec CapCalls Views ViewsSpec ViewsProofs.
Import ListNotations.
Local Open Scope Z_scope.

(* An edit of a message does not make a view of it invalid: it is still accepted, the view tells the new device or id,
   and everything else as before. *)
Theorem C95_edit : forall dbg k s e, validate_of k s = Ok true -> proper_edit e ->
  exists s' r, edit_message dbg s e = Ok s' /\ validate_of k s' = Ok true /\
    read_view dbg k s = Ok r /\ read_view dbg k s' = Ok (after_edit r e).
Proof. exact edits_accepted. Qed.
Print Assumptions C95_edit.

(* Whatever is received, edited, viewed and read in whatever order, nothing is undefined. *)
Theorem C95_safe : forall dbg l, Forall proper_op l -> exists d out, desk_run dbg empty_desk l = Ok (d, out).
Proof. exact desk_safe. Qed.
Print Assumptions C95_safe.

(* A view that was made tells later what it told at first, with the device and the ids of the message as it is then;
   edits of other messages and other views do not matter. *)
Theorem C95_views_follow : forall dbg before between d o v k i, Forall proper_op before -> Forall proper_op between ->
  desk_run dbg empty_desk before = Ok (d, o) -> nth_error (dk_views d) v = Some (k, i) ->
  exists r d' o', look_at dbg d v = Ok (Some r) /\ desk_run dbg d between = Ok (d', o') /\
    look_at dbg d' v = Ok (Some (fold_left after_edit (edits_of i between) r)).
Proof. exact desk_reads. Qed.
Print Assumptions C95_views_follow.

(* A view of a message that was made by the library and has arrived, whatever arrived and was edited before, tells the
   arguments of the call that made it, with the device and the ids of the edits made since. *)
Theorem C95_arguments : forall dbg before c k i d o s, Forall proper_op before ->
  in_range c -> header_in_first_chunk c -> In k (kinds_of c) ->
  desk_run dbg empty_desk before = Ok (d, o) -> i = length (dk_messages d) -> build dbg c = Ok s ->
  forall between, Forall proper_op between ->
  exists d' o', desk_run dbg d (Receive s :: View k i :: between) = Ok (d', o') /\
    look_at dbg d' (length (dk_views d)) = Ok (Some (fold_left after_edit (edits_of i between) (reading_of c k))).
Proof. exact told. Qed.
Print Assumptions C95_arguments.
Example C95_ex_arguments : exists s, build true (CDiscoveryReply 1 2 (mkDevId 0x002109 0x1730 0x23 0x01020304) 0x1C 0x200000 5 6) = Ok s /\
  In KDiscoveryReply (kinds_of (CDiscoveryReply 1 2 (mkDevId 0x002109 0x1730 0x23 0x01020304) 0x1C 0x200000 5 6)) /\
  exists d, desk_run true empty_desk [Receive s; View KDiscoveryReply 0; Edit 0 (SetSource 7); Look 0] =
    Ok (d, [(0%nat, mkReading 0x7F 0x7E0D 0x71 2 7 2
      [FIdentity (mkDevId 0x002109 0x1730 0x23 0x01020304); FNumber 0x1C; FNumber 0x200000; FNumber 5; FNumber 6])]).
Proof. eexists. split; [reflexivity|]. split; [now left|eexists; reflexivity]. Qed.

(* If another message is assigned to the one a view refers to, reading the view can be undefined. *)
Theorem C95_assigned_refuted : forall dbg, exists l d o, desk_run dbg empty_desk l = Ok (d, o) /\
  look_at dbg d 0 = Fault OutOfBounds.
Proof.
  intros dbg. exists [Receive (mkSx 0x7E0000 [0x7F; 0x0D; 0x28; 2; 1; 0; 0; 0; 2; 0; 0; 0; 0x7E; 1; 2; 3; 4; 5]);
    View KDetailsInquiry 0; Look 0; Assign 0 (mkSx 0x7E0000 [0x7F; 0x0D; 0x20; 2; 1; 0; 0; 0; 2; 0; 0; 0])].
  destruct dbg; eexists _, _; split; reflexivity.
Qed.
Print Assumptions C95_assigned_refuted.

(* two views of one message, one of which shows the device, and edits in between *)
Definition desk_example : list desk_op :=
  [Receive (mkSx 0x7E0000 [0x7F; 0x0D; 0x22; 2; 1; 0; 0; 0; 2; 0; 0; 0; 0x7E; 1; 2; 3; 4; 16; 0]);
   View KProfileId 0; View KProfileDestination 0; View KAck 0; Look 1; Edit 0 (SetDevice 3); Edit 0 (Insert [1; 2; 255]);
   Look 1; Edit 0 (SetSource 268435455); Edit 0 (Add14 16383); Look 0].
Example C95_ex : Forall proper_op desk_example /\
  desk_run true empty_desk desk_example =
    Ok (mkDesk [mkSx 0x7E0000 [3; 0x0D; 0x22; 2; 127; 127; 127; 127; 2; 0; 0; 0; 0x7E; 1; 2; 3; 4; 16; 0; 1; 2; 255; 127; 127]]
          [(KProfileId, 0%nat); (KProfileDestination, 0%nat)],
        [(1%nat, mkReading 0x7F 0x7E0D 0x22 2 1 2 [FProfile (mkProf 0x7E 1 2 3 4); FNumber 16; FDestination (mkDest 0x7F 16)]);
         (1%nat, mkReading 3 0x7E0D 0x22 2 1 2 [FProfile (mkProf 0x7E 1 2 3 4); FNumber 16; FDestination (mkDest 3 16)]);
         (0%nat, mkReading 3 0x7E0D 0x22 2 268435455 2 [FProfile (mkProf 0x7E 1 2 3 4)])]).
Proof. split; [repeat constructor; unfold is_u7; cbn; unfold is_u28, is_u14; lia|reflexivity]. Qed.
