(* Properties C70 and C71: callbacks that call back into the object that invoked them *)
From Coq Require Import ZArith List Bool Lia.
From Verif Require Import Base Packet PacketSpec Sysex ByteStream StreamSpec Reentrant ReentrantSpec ReentrantProofs.
From Verif Require Import Collector CollectSpec CollectProofs ReentrantCollectSpec ReentrantCollectProofs PropsCollect.
Import ListNotations.
Local Open Scope Z_scope.

(* a byte whose callback, if any, makes no calls *)
Notation F b := (NFeed b []).

(* ---- C70 -------------------------------------------------------------------------------- *)

(* Any calls of a parser, with permitted calls from the callbacks, and from the callbacks
   these lead to, and so on: no fault, and what is posted is what the specification says. *)
Theorem C70_nested_calls : forall g cb on ks, 0 <= g < 16 -> all_permitted cb (g, on, None) ks ->
  exists st, nested_calls (new_parser g cb on) ks = Ok (st, snd (nested_specs cb (g, on, None) ks)).
Proof. exact nested_new. Qed.
Print Assumptions C70_nested_calls.

(* the callback of a clock feeds a note on; the callback of this note changes the group and
   feeds a second note with running status *)
Definition c70_ex : list nested_call :=
  [F 0xF0; F 1; F 0xF7; F 0x80; F 0x11;
   NFeed 0xF8 [F 0x93; F 0x3C; NFeed 0x40 [NSetGroup 5; F 0x3D; NFeed 0x41 [NReset; NEnable true]]];
   F 0x22; NFeed 0xF6 [NSetGroup 2]; F 0xC1; F 0x07].
Ltac permitted_example :=
  repeat match goal with
  | |- _ /\ _ => split
  | |- True => exact I
  | |- is_u8 _ => unfold is_u8; lia
  | |- [] <> [] -> _ => let H := fresh in intros H; now elim H
  | |- _ <> [] -> _ => intros _
  | |- _ = true -> _ => intros ?; try discriminate
  | |- Forall is_control _ \/ _ => first [left; solve [repeat constructor] | right]
  | |- ~ _ => let H := fresh in intros H; now elim H
  end; try lia.

Example C70_ex : all_permitted false (0, true, None) c70_ex /\
  snd (nested_specs false (0, true, None) c70_ex) =
    map EPacket [mkP 0x30010100 0 0 0; mkP 0x10F80000 0 0 0; mkP 0x20933C40 0 0 0; mkP 0x20933D41 0 0 0;
                 mkP 0x15F60000 0 0 0; mkP 0x22C10700 0 0 0].
Proof.
  split; [|vm_compute; reflexivity].
  cbv -[is_u8 Z.le Z.lt Z.eq not is_control]. permitted_example.
Qed.

(* If they leave a SysEx that arrives in packets alone, the calls could as well be made
   after feed() has returned: the same is posted. *)
Theorem C70_like_afterwards : forall g cb on ks, 0 <= g < 16 ->
  all_permitted cb (g, on, None) ks -> all_undisturbed cb (g, on, None) ks ->
  exists st1 st2 out, nested_calls (new_parser g cb on) ks = Ok (st1, out) /\
    afterwards (new_parser g cb on) ks = Ok (st2, out).
Proof. exact nested_like_afterwards. Qed.
Print Assumptions C70_like_afterwards.
Example C70_like_afterwards_ex : all_permitted false (0, true, None) c70_ex /\ all_undisturbed false (0, true, None) c70_ex.
Proof.
  split; [apply C70_ex|]. cbv -[is_u8 Z.le Z.lt Z.eq not is_control]. permitted_example.
Qed.

(* in particular, if callbacks call set_group(), enable_callbacks() and reset() only, and
   without SysEx callback enable_callbacks() only *)
Theorem C70_controls : forall g cb on ks, 0 <= g < 16 -> Forall (controls_only cb) ks ->
  exists st1 st2 out, nested_calls (new_parser g cb on) ks = Ok (st1, out) /\
    afterwards (new_parser g cb on) ks = Ok (st2, out).
Proof. exact controls_like_afterwards. Qed.
Print Assumptions C70_controls.
Example C70_controls_ex :
  Forall (controls_only true) [F 0xF0; F 0x7D; NFeed 0xF8 [NSetGroup 3]; F 1; NFeed 0xF7 [NReset]; NFeed 0xF8 [NEnable false]; F 0xF8].
Proof. repeat constructor; unfold is_u8; try lia; discriminate. Qed.

(* callbacks that make no calls *)
Theorem C70_no_calls : forall st bs, nested_calls st (map (fun b => F b) bs) = feed_all st bs.
Proof. intros st bs. exact (nested_plain bs st). Qed.
Print Assumptions C70_no_calls.
Example C70_no_calls_ex : exists st, feed_all (new_parser 0 false true) [0x93; 1; 2; 0xF8] =
  Ok (st, [EPacket (mkP 0x20930102 0 0 0); EPacket (mkP 0x10F80000 0 0 0)]).
Proof. eexists. vm_compute. reflexivity. Qed.

(* Not permitted: feeding data bytes from the callback for a packet of a SysEx writes them
   after the end of this packet, and the ninth outside of the buffer. *)
Theorem C70_feed_in_sysex_refuted : exists before bs, Forall is_u7 bs /\
  nested_calls (new_parser 0 false true) (map (fun b => F b) before ++ [NFeed 6 (map (fun b => F b) bs)]) = Fault AssertFail /\
  exists st out, feed_all (new_parser 0 false true) (before ++ 6 :: bs) = Ok (st, out).
Proof.
  exists [0xF0; 1; 2; 3; 4; 5], [7; 8; 9; 10; 11; 12; 13; 14; 15]. split; [repeat constructor; unfold is_u7; lia|].
  split; [vm_compute; reflexivity|]. eexists _, _. vm_compute. reflexivity.
Qed.
Print Assumptions C70_feed_in_sysex_refuted.

(* Permitted but different: reset() from the callback for a packet of a SysEx has no effect,
   the SysEx goes on. *)
Theorem C70_reset_in_sysex_refuted : exists ks, all_permitted false (0, true, None) ks /\
  (exists st, nested_calls (new_parser 0 false true) ks =
    Ok (st, [EPacket (mkP 0x30160102 0x03040506 0 0); EPacket (mkP 0x30310700 0 0 0)])) /\
  (exists st, afterwards (new_parser 0 false true) ks = Ok (st, [EPacket (mkP 0x30160102 0x03040506 0 0)])).
Proof.
  exists (map (fun b => F b) [0xF0; 1; 2; 3; 4; 5] ++ [NFeed 6 [NReset]; F 7; F 0xF7]). split.
  - cbv -[is_u8 Z.le Z.lt Z.eq not is_control]. permitted_example.
  - split; eexists; vm_compute; reflexivity.
Qed.
Print Assumptions C70_reset_in_sysex_refuted.

(* Not permitted: a SysEx begun in the callback for a SysEx loses its beginning. *)
Theorem C70_sysex_in_sysex_refuted : exists ks st1 st2 v w,
  nested_calls (new_parser 0 true true) ks = Ok (st1, [v; w]) /\
  afterwards (new_parser 0 true true) ks = Ok (st2, [v; ESysex (mkSx 0x7D0000 [1; 2; 3])]) /\
  w <> ESysex (mkSx 0x7D0000 [1; 2; 3]).
Proof.
  exists (map (fun b => F b) [0xF0; 1; 2] ++ [NFeed 0xF7 (map (fun b => F b) [0xF0; 0x7D; 1]); F 2; F 3; F 0xF7]).
  eexists _, _, _, _. split; [vm_compute; reflexivity|]. split; [vm_compute; reflexivity|]. discriminate.
Qed.
Print Assumptions C70_sysex_in_sysex_refuted.

(* Not permitted: the callback for a system common message loses the running status it
   establishes. *)
Theorem C70_running_status_refuted : exists ks st1 st2 p q r,
  nested_calls (new_parser 0 false true) ks = Ok (st1, [p; q]) /\
  afterwards (new_parser 0 false true) ks = Ok (st2, [p; q; r]).
Proof.
  exists [NFeed 0xF6 (map (fun b => F b) [0x90; 1; 2]); F 2; F 3].
  eexists _, _, _, _, _. split; vm_compute; reflexivity.
Qed.
Print Assumptions C70_running_status_refuted.

(* ---- C71 -------------------------------------------------------------------------------- *)

Notation K p := (KNFeed p []).

(* Any calls of a collector with any size limit, with permitted calls from its callback: the
   same messages are delivered as if the calls were made after feed() has returned. *)
Theorem C71_sysex7_like_afterwards : forall a max ks, limit_alloc a max ->
  all_may_collect content7 decode7 max a_idle ks ->
  exists c1 c2 out, nested7_calls a (c7_set_max a (new_collector7 true) max) ks = Ok (c1, out) /\
    collect_afterwards (c7_feed a) (c7_reset a) (c7_set_max a (new_collector7 true) max) ks = Ok (c2, out).
Proof. exact collect7_like_afterwards. Qed.
Print Assumptions C71_sysex7_like_afterwards.

Theorem C71_sysex8_like_afterwards : forall a max ks, limit_alloc a max ->
  all_may_collect content8 decode8 max a_idle ks ->
  exists c1 c2 out, nested8_calls a (c8_set_max a (new_collector8 true) max) ks = Ok (c1, out) /\
    collect_afterwards (c8_feed a) (c8_reset a) (c8_set_max a (new_collector8 true) max) ks = Ok (c2, out).
Proof. exact collect8_like_afterwards. Qed.
Print Assumptions C71_sysex8_like_afterwards.

(* a message of two packets, whose callback feeds a note on and two messages, the callback
   of the second calls reset() and feeds another one *)
Definition c71_ex : list nested_collect :=
  [K (mkP 0x30167D01 0x02030405 0 0);
   KNFeed (mkP 0x30310600 0 0 0)
     [K (mkP 0x20903C40 0 0 0); K (mkP 0x30027D07 0 0 0);
      KNFeed (mkP 0x30027D08 0 0 0) [KNReset; K (mkP 0x30027D09 0 0 0)]];
   K (mkP 0x30027D0A 0 0 0)].
Definition c71_ex8 : list nested_collect :=
  [K (mkP 0x5014027D 0x01020000 0 0); KNFeed (mkP 0x50320203 0 0 0) [K (mkP 0x50030300 0x7D0A0000 0 0)]].
Lemma plain_limit max : 0 <= max -> limit_alloc plain_alloc max.
Proof. intros M. split; [exact M|]. split; [apply plain_alloc_exact|]. intros _. apply plain_alloc_exact. Qed.

Example C71_sysex7_ex : limit_alloc plain_alloc 10 /\ all_may_collect content7 decode7 10 a_idle c71_ex /\
  (exists c, nested7_calls plain_alloc (c7_set_max plain_alloc (new_collector7 true) 10) c71_ex =
    Ok (c, map (mkSx 0x7D0000) [[1; 2; 3; 4; 5; 6]; [7]; [8]; [9]; [10]])).
Proof.
  split; [apply plain_limit; lia|]. split; [|eexists; vm_compute; reflexivity].
  cbv -[wf_packet Z.le Z.lt Z.eq not]. repeat match goal with
  | |- _ /\ _ => split
  | |- wf_packet _ => unfold wf_packet, is_u32; cbn; lia
  | |- [] <> [] -> _ => let H := fresh in intros H; now elim H
  | |- _ <> [] -> _ => intros _
  end; trivial; try lia.
Qed.
Example C71_sysex8_ex : limit_alloc plain_alloc 0 /\ all_may_collect content8 decode8 0 a_idle c71_ex8 /\
  (exists c out, nested8_calls plain_alloc (c8_set_max plain_alloc (new_collector8 true) 0) c71_ex8 = Ok (c, out) /\
    map snd out = [2; 3]).
Proof.
  split; [apply plain_limit; lia|]. split; [|eexists _, _; vm_compute; split; reflexivity].
  cbv -[wf_packet Z.le Z.lt Z.eq not]. repeat match goal with
  | |- _ /\ _ => split
  | |- wf_packet _ => unfold wf_packet, is_u32; cbn; lia
  | |- [] <> [] -> _ => let H := fresh in intros H; now elim H
  | |- _ <> [] -> _ => intros _
  end; trivial; try lia.
Qed.

(* callbacks that make no calls *)
Theorem C71_no_calls : forall a ps,
  (forall c, nested7_calls a c (map (fun p => K p) ps) = c7_calls a c (map KFeed ps)) /\
  (forall c, nested8_calls a c (map (fun p => K p) ps) = c8_calls a c (map KFeed ps)).
Proof. intros a ps. split; [apply nested7_plain|apply nested8_plain]. Qed.
Print Assumptions C71_no_calls.
Example C71_no_calls_ex : exists c, c7_calls plain_alloc (new_collector7 true) (map KFeed [mkP 0x30027D07 0 0 0]) =
  Ok (c, [mkSx 0x7D0000 [7]]).
Proof. eexists. vm_compute. reflexivity. Qed.

(* Not permitted: a message fed from the callback for a message of a single packet, without
   reset(), is appended to that message. *)
Theorem C71_single_packet_refuted : exists p q v w,
  (exists c, nested7_calls plain_alloc (new_collector7 true) [K p; K q] = Ok (c, [v; w])) /\
  (exists c, nested7_calls plain_alloc (new_collector7 true) [KNFeed p [KNReset; K q]] = Ok (c, [v; w])) /\
  (exists c out, nested7_calls plain_alloc (new_collector7 true) [KNFeed p [K q]] = Ok (c, [v; out]) /\ out <> w).
Proof.
  exists (mkP 0x30027D07 0 0 0), (mkP 0x30027D08 0 0 0). eexists _, _.
  split; [eexists; vm_compute; reflexivity|]. split; [eexists; vm_compute; reflexivity|].
  eexists _, _. split; [vm_compute; reflexivity|]. discriminate.
Qed.
Print Assumptions C71_single_packet_refuted.

Theorem C71_single_packet8_refuted : exists p q v w,
  (exists c, nested8_calls plain_alloc (new_collector8 true) [K p; K q] = Ok (c, [v; w])) /\
  (exists c, nested8_calls plain_alloc (new_collector8 true) [KNFeed p [KNReset; K q]] = Ok (c, [v; w])) /\
  (exists c out, nested8_calls plain_alloc (new_collector8 true) [KNFeed p [K q]] = Ok (c, [v; out]) /\ out <> w).
Proof.
  exists (mkP 0x50040200 0x7D070000 0 0), (mkP 0x50040200 0x7D080000 0 0). eexists _, _.
  split; [eexists; vm_compute; reflexivity|]. split; [eexists; vm_compute; reflexivity|].
  eexists _, _. split; [vm_compute; reflexivity|]. discriminate.
Qed.
Print Assumptions C71_single_packet8_refuted.

(* Not permitted: a message begun in a callback and ended after it is lost. *)
Theorem C71_begun_in_callback_refuted : exists p q r v w,
  (exists c, nested7_calls plain_alloc (new_collector7 true) [K p; K q; K r] = Ok (c, [v; w])) /\
  (exists c, nested7_calls plain_alloc (new_collector7 true) [KNFeed p [KNReset; K q]; K r] = Ok (c, [v])).
Proof.
  exists (mkP 0x30027D07 0 0 0), (mkP 0x30167D01 0x02030405 0 0), (mkP 0x30310600 0 0 0). eexists _, _.
  split; eexists; vm_compute; reflexivity.
Qed.
Print Assumptions C71_begun_in_callback_refuted.
