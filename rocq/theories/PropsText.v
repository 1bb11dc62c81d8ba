(* C04: packets survive being printed and parsed. *)
From Coq Require Import ZArith List Bool Lia ZifyBool.
From Verif Require Import Base Packet PacketSpec PacketProofs TextIO TextSpec TextProofs.
Import ListNotations.
Local Open Scope Z_scope.

Ltac wfs := repeat constructor; unfold is_u32, whitespace; cbn; lia.

(* a packet prints as its words, eight hexadecimal digits each, separated by single spaces,
   whatever the stream held, its width and its fill character; the stream's flags stay *)
Theorem C04_printed_text p o : wf_packet p -> ff_adjust (o_flags o) <> AdjLeft -> ff_showbase (o_flags o) = false ->
  exists o', put_packet p o = Ok o' /\ o_text o' = o_text o ++ packet_text (ff_uppercase (o_flags o)) p /\
    o_flags o' = o_flags o /\ o_width o' = 0.
Proof.
  intros W A B. destruct (put_packet_text p o W) as (ts & _ & P & _ & T); [right; split; assumption|].
  rewrite P. eexists. split; [reflexivity|]. cbn [o_text o_flags o_width]. rewrite (T B). repeat split.
Qed.
Print Assumptions C04_printed_text.
Example C04_printed_text_example :
  let p := mkP 0x40903C00 0xC0DE0001 0 0 in wf_packet p /\
  (* "40903c00 c0de0001" *)
  packet_text false p = [52; 48; 57; 48; 51; 99; 48; 48; 32; 99; 48; 100; 101; 48; 48; 48; 49].
Proof. split; [wfs|]. vm_compute. reflexivity. Qed.

(* any sequence of packets, separated by white space, is read back as equal packets, consuming
   exactly the printed text and leaving the flags of both streams alone; end of file is reported
   only if nothing follows *)
Theorem C04_round_trip l o rest f q : l <> [] -> Forall wf_packet (map fst l) -> wf_packet q ->
  safe_flags (o_flags o) -> separated l rest -> ff_skipws f = true ->
  exists o' text, put_all l o = Ok o' /\ o_text o' = o_text o ++ text /\ o_flags o' = o_flags o /\
  exists qs i, get_all (length l) (mkIn (text ++ rest) f false false) q = (qs, i) /\
    Forall2 (fun q p => packet_eq q p = Ok true) qs (map fst l) /\ map wire qs = map wire (map fst l) /\
    i_rest i = last (map snd l) [] ++ rest /\ i_flags i = f /\ i_fail i = false /\
    (i_eof i = true <-> last (map snd l) [] ++ rest = []).
Proof.
  intros NE W Q S SE F.
  destruct (put_get_all l o rest f [] q W S SE F (Forall_nil _) NE) as (o' & text & P & T & FL & qs & G & M & WQ).
  exists o', text. split; [exact P|]. split; [exact T|]. split; [exact FL|].
  eexists qs, _. split; [exact G|]. cbn [i_rest i_flags i_fail i_eof].
  split; [apply wires_equal; [now apply WQ|exact W|exact M]|]. split; [exact M|]. do 3 (split; [reflexivity|]).
  set (r := last _ _ ++ rest). destruct r; cbn [is_nil]; split; congruence.
Qed.
Print Assumptions C04_round_trip.
Example C04_round_trip_example :
  let l := [(mkP 0x40903C00 0xC0DE0001 0 0, [10]); (mkP 0xF0000101 2 3 0xFFFFFFFF, [32; 9]); (mkP 0x2090407F 0 0 0, [])] in
  l <> [] /\ Forall wf_packet (map fst l) /\ separated l [59] /\ safe_flags default_flags.
Proof.
  split; [discriminate|]. split; [wfs|]. split; [|right; split; [discriminate|reflexivity]].
  cbn [separated no_digit]. split; [wfs|]. split; [discriminate|]. split; [wfs|]. split; [discriminate|]. split; [constructor|lia].
Qed.

(* reading one printed packet, white space in front or not: the words the packet has are stored,
   those of the variable beyond them stay as they were *)
Theorem C04_read_one p q o sp rest f : wf_packet p -> safe_flags (o_flags o) -> Forall whitespace sp -> no_digit rest ->
  ff_skipws f = true ->
  exists o' text i q', put_packet p o = Ok o' /\ o_text o' = o_text o ++ text /\
    get_packet (mkIn (sp ++ text ++ rest) f false false) q = (i, q') /\ i_rest i = rest /\ i_fail i = false /\
    forall k, nth k (words q') 0 = if (k <? length (wire p))%nat then nth k (words p) 0 else nth k (words q) 0.
Proof.
  intros W S SP ND F. destruct (put_packet_text p o W S) as (ts & L & P & R & _).
  eexists _, _, _, _. split; [exact P|]. cbn [o_text]. split; [reflexivity|].
  split; [exact (get_packet_text p q ts sp rest f W R SP ND F)|]. cbn [i_rest i_fail]. split; [reflexivity|]. split; [reflexivity|].
  intros k. rewrite merged_words. rewrite (wire_size p W).
  pose proof (psize_range p). replace (Nat.max 1 (psize p)) with (psize p) by lia. reflexivity.
Qed.
Print Assumptions C04_read_one.
Example C04_read_one_example :
  let f := mkFlags BaseDec true true AdjInternal true in safe_flags f /\
  put_packet (mkP 0x1F 0 0 0) (mkOut [] f 0 32) = Ok (mkOut [48; 88; 48; 48; 48; 48; 49; 70] f 0 48) /\
  get_packet (mkIn ([32; 10] ++ [48; 88; 48; 48; 48; 48; 49; 70] ++ [44]) f false false) (mkP 1 2 3 4) =
    (mkIn [44] f false false, mkP 0x1F 2 3 4).
Proof. split; [now left|]. split; reflexivity. Qed.

(* reading from a stream that is at its end or has failed fails and changes nothing *)
Theorem C04_no_input i q : i_good i = false -> get_packet i q = (mkIn (i_rest i) (i_flags i) (i_eof i) true, q).
Proof. exact (get_not_good i q). Qed.
Print Assumptions C04_no_input.
Example C04_no_input_example : i_good (mkIn [48] default_flags false true) = false.
Proof. reflexivity. Qed.

(* reading from a stream with nothing but white space left fails at its end and changes nothing *)
Theorem C04_only_space sp f q : Forall whitespace sp -> ff_skipws f = true ->
  get_packet (mkIn sp f false false) q = (mkIn [] f true true, q).
Proof. exact (get_only_space sp f q). Qed.
Print Assumptions C04_only_space.
Example C04_only_space_example : Forall whitespace [32; 10] /\ ff_skipws default_flags = true.
Proof. split; [wfs|reflexivity]. Qed.

(* reading anything else that does not start a number fails without consuming it, and clears the
   first word of the variable *)
Theorem C04_garbage sp c t f q : Forall whitespace sp -> ff_skipws f = true -> starts_no_number c ->
  get_packet (mkIn (sp ++ c :: t) f false false) q = (mkIn (c :: t) f false true, mkP 0 (w1 q) (w2 q) (w3 q)).
Proof. intros S F C. unfold starts_no_number, whitespace in C.
  apply get_garbage; try assumption; unfold is_space, hex_value; try lia.
  repeat match goal with |- context [if ?b then _ else _] => destruct b eqn:? end; lia || reflexivity. Qed.
Print Assumptions C04_garbage.
Example C04_garbage_example : Forall whitespace [9] /\ starts_no_number 122 /\ starts_no_number 0xB0.
Proof. split; [wfs|]. unfold starts_no_number, whitespace. lia. Qed.

(* the stream flags matter: with adjustment to the left the zeros are appended, and the packet is
   read back as another one *)
Theorem C04_left_adjusted_refuted : exists p o o', wf_packet p /\ ff_adjust (o_flags o) = AdjLeft /\
  put_packet p o = Ok o' /\ wire (snd (get_packet (mkIn (o_text o') default_flags false false) packet0)) <> wire p.
Proof.
  exists (mkP 1 0 0 0), (mkOut [] (mkFlags BaseDec false false AdjLeft true) 0 32).
  eexists. split; [wfs|]. split; [reflexivity|]. split; [reflexivity|]. now vm_compute.
Qed.
Print Assumptions C04_left_adjusted_refuted.

(* with the base shown, the zeros precede "0x" and the packet cannot be read back *)
Theorem C04_showbase_refuted : exists p o o', wf_packet p /\ ff_adjust (o_flags o) = AdjNone /\ ff_showbase (o_flags o) = true /\
  put_packet p o = Ok o' /\ wire (snd (get_packet (mkIn (o_text o') default_flags false false) packet0)) <> wire p.
Proof.
  exists (mkP 0x1F 0 0 0), (mkOut [] (mkFlags BaseDec true false AdjNone true) 0 32).
  eexists. split; [wfs|]. split; [reflexivity|]. split; [reflexivity|]. split; [reflexivity|]. now vm_compute.
Qed.
Print Assumptions C04_showbase_refuted.

(* printing changes the fill character of the caller's stream for good *)
Theorem C04_fill_kept_refuted : exists p o o', wf_packet p /\ o_flags o = default_flags /\ put_packet p o = Ok o' /\ o_fill o' <> o_fill o.
Proof.
  exists (mkP 1 0 0 0), (mkOut [] default_flags 0 32).
  eexists. split; [wfs|]. split; [reflexivity|]. split; [reflexivity|]. discriminate.
Qed.
Print Assumptions C04_fill_kept_refuted.

(* a text that ends after the first of two words is accepted: no failure is reported, and the
   second word is what the variable held before *)
Theorem C04_truncated_rejected_refuted : exists p q o o' n i q', wf_packet p /\ o_flags o = default_flags /\ put_packet p o = Ok o' /\
  (n < length (o_text o'))%nat /\ get_packet (mkIn (firstn n (o_text o')) default_flags false false) q = (i, q') /\
  i_fail i = false /\ wire q' <> wire p.
Proof.
  exists (mkP 0x40903C00 0xC0DE0001 0 0), (mkP 0 7 0 0), (mkOut [] default_flags 0 32).
  eexists. exists 8%nat. eexists _, _. split; [wfs|]. split; [reflexivity|]. split; [reflexivity|]. split; [cbn; lia|].
  split; [reflexivity|]. split; [reflexivity|]. now vm_compute.
Qed.
Print Assumptions C04_truncated_rejected_refuted.

(* a text that is not a packet fails, but clears the first word of the variable *)
Theorem C04_failure_keeps_packet_refuted : exists text q i q',
  get_packet (mkIn text default_flags false false) q = (i, q') /\ i_fail i = true /\ wire q' <> wire q.
Proof.
  exists [122], (mkP 0x2090407F 0 0 0). eexists _, _. split; [reflexivity|]. split; [reflexivity|]. now vm_compute.
Qed.
Print Assumptions C04_failure_keeps_packet_refuted.
