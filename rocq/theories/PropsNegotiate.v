(* C98: Two sides agree on a protocol and keep to it *)
From Coq Require Import ZArith List Bool Lia.
From Verif Require Import Base Packet VoiceSpec EngineSpec Endpoint Negotiate NegotiateSpec NegotiateProofs.
Import ListNotations.
Local Open Scope Z_scope.

(* an endpoint never fails on such a history and ends up in the configuration of the specification ... *)
Theorem C98_endpoint : forall dbg a l is c, Forall happening_ok l -> Forall2 (put dbg) l is -> sound a c ->
  exists out, endpoint_run dbg a c is = Ok (fst (fst (course a c None l)), out) /\ Forall wf_packet out.
Proof.
  intros dbg a l is c H P S. destruct (conversation dbg a l is H P c S) as (out & E & W & _). now exists out.
Qed.
Print Assumptions C98_endpoint.

(* ... and the host hears exactly the messages of the specification, whatever other packets are on the line *)
Theorem C98_conversation : forall dbg a l is c out x, Forall happening_ok l -> Forall2 (put dbg) l is -> sound a c ->
  endpoint_run dbg a c is = Ok (x, out) -> forall known ps, Forall wf_packet ps -> filter noted ps = out ->
  x = fst (fst (course a c known l)) /\
  host_run dbg (mkHost known None) ps = Ok (mkHost (snd (fst (course a c known l))) None, snd (course a c known l)).
Proof. exact conversation_between. Qed.
Print Assumptions C98_conversation.

(* the host's knowledge is right, in the end and for every message *)
Theorem C98_keeps_to_it : forall dbg a l is c out x known ps h hs, Forall happening_ok l -> Forall2 (put dbg) l is -> sound a c ->
  known = None \/ known = Some c -> endpoint_run dbg a c is = Ok (x, out) -> Forall wf_packet ps -> filter noted ps = out ->
  host_run dbg (mkHost known None) ps = Ok (h, hs) ->
  Forall in_order hs /\ (ho_known h = None \/ ho_known h = Some x).
Proof.
  intros dbg a l is c out x known ps h hs H P S K E W F R.
  destruct (conversation_between dbg a l is c out x H P S E known ps W F) as [-> R'].
  rewrite R in R'. injection R' as -> ->. exact (course_in_order a l H c known S K).
Qed.
Print Assumptions C98_keeps_to_it.

(* the last request counts: a protocol the endpoint has is granted, otherwise it stays with its own; and the host knows *)
Theorem C98_granted : forall dbg a l pr e r is c out x known ps h hs,
  Forall happening_ok (l ++ Asked pr e :: r) -> existsb is_asked r = false -> Forall2 (put dbg) (l ++ Asked pr e :: r) is -> sound a c ->
  endpoint_run dbg a c is = Ok (x, out) -> Forall wf_packet ps -> filter noted ps = out ->
  host_run dbg (mkHost known None) ps = Ok (h, hs) ->
  ho_known h = Some x /\ able a (cf_protocol x) /\ cf_extensions x = common e (ab_extensions a) /\ (able a pr -> cf_protocol x = pr).
Proof.
  intros dbg a l pr e r is c out x known ps h hs H N P S E W F R.
  destruct (conversation_between dbg a _ is c out x H P S E known ps W F) as [-> R'].
  rewrite R in R'. injection R' as -> ->.
  destruct (granted a l pr e r H N c known S) as (k & K & A & X & G & _). rewrite K. cbn [fst snd ho_known]. auto.
Qed.
Print Assumptions C98_granted.
Theorem C98_refused : forall a l pr e r, Forall happening_ok (l ++ Asked pr e :: r) -> existsb is_asked r = false ->
  forall c known, sound a c -> ~ able a pr ->
  cf_protocol (fst (fst (course a c known (l ++ Asked pr e :: r)))) = cf_protocol (fst (fst (course a c known l))).
Proof.
  intros a l pr e r H N c known S A. destruct (granted a l pr e r H N c known S) as (k & K & _ & _ & _ & G).
  rewrite K. now apply G.
Qed.
Print Assumptions C98_refused.

(* requests for protocols that do not exist and any other packets do no harm: the endpoint stays with a protocol it has,
   and the host believes notifications only *)
Theorem C98_any_input : forall dbg a is, Forall input_ok is -> forall c, sound a c ->
  exists c' out, endpoint_run dbg a c is = Ok (c', out) /\ sound a c'.
Proof. exact endpoint_safe. Qed.
Print Assumptions C98_any_input.
Theorem C98_any_packets : forall dbg ps h, exists h' out, host_run dbg h ps = Ok (h', out) /\
  forall k, ho_known h' = Some k -> ho_known h = Some k \/
    exists p, In p ps /\ w0 p / 65536 mod 256 = 6 /\ type p = 15 /\
      cf_protocol k = w0 p / 256 mod 4 /\ cf_extensions k = w0 p mod 4.
Proof. exact host_safe. Qed.
Print Assumptions C98_any_packets.

(* an endpoint of both protocols that transmits timestamps; it starts with MIDI 1 *)
Definition C98_a := mkAbilities 3 1.
Definition C98_c := mkConfiguration 1 0.
Definition C98_history : list happening :=
  [Said 7 (Midi2 0 3 (NoteOn2 60 0x8000 0 0)); Asked 2 3; Stray (mkP 0xF0020102 0 0 0);
   Said 0x1234 (Midi1 0 3 (NoteOn1 61 64)); Said 9 (Midi1 0 3 (ControlChange1 0 5)); Asked 1 0; Said 10 (Midi2 0 3 (PitchBend2 0x80000000))].
Definition C98_inputs : list endpoint_input :=
  [Outgoing 7 (mkP 0x40933C00 0x80000000 0 0); Incoming (mkP 0xF0050203 0 0 0); Incoming (mkP 0xF0020102 0 0 0);
   Outgoing 0x1234 (mkP 0x20933D40 0 0 0); Outgoing 9 (mkP 0x20B30005 0 0 0); Incoming (mkP 0xF0050100 0 0 0);
   Outgoing 10 (mkP 0x40E30000 0x80000000 0 0)].
Example C98_ex :
  Forall happening_ok C98_history /\ (forall dbg, Forall2 (put dbg) C98_history C98_inputs) /\ sound C98_a C98_c /\
  endpoint_run true C98_a C98_c C98_inputs = Ok (mkConfiguration 1 0,
    [mkP 0x20933C40 0 0 0; mkP 0xF0060201 0 0 0; mkP 0x00201234 0 0 0; mkP 0x40933D00 0x80000000 0 0; mkP 0xF0060100 0 0 0; mkP 0x20E30040 0 0 0]) /\
  host_run true (mkHost None None)
    [mkP 0x20933C40 0 0 0; mkP 0xF0060201 0 0 0; mkP 0x00201234 0 0 0; mkP 0x40933D00 0x80000000 0 0; mkP 0xF0060100 0 0 0; mkP 0x20E30040 0 0 0] =
  Ok (mkHost (Some (mkConfiguration 1 0)) None,
    [mkArrival None None (mkP 0x20933C40 0 0 0);
     mkArrival (Some (mkConfiguration 2 1)) (Some 0x1234) (mkP 0x40933D00 0x80000000 0 0);
     mkArrival (Some (mkConfiguration 1 0)) None (mkP 0x20E30040 0 0 0)]).
Proof.
  split; [|split; [|split; [|split]]].
  - unfold C98_history. repeat (apply Forall_cons || apply Forall_nil); cbn [happening_ok];
      unfold fine_message, message_ok, address, m1_ok, m2_ok, is_request, wf_packet, is_u32, is_u16, is_u7, is_u8; cbn; unfold is_u7; try lia.
  - intros dbg. repeat constructor; destruct dbg; reflexivity.
  - unfold sound, able, C98_a, C98_c. cbn. lia.
  - vm_compute. reflexivity.
  - vm_compute. reflexivity.
Qed.
