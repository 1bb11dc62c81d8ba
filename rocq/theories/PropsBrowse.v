(* Property C90: what an endpoint says of itself is found out *)
From Coq Require Import ZArith List Bool Lia.
From Verif Require Import Base Packet PacketSpec Sysex SysexSpec Endpoint EndpointSpec Browse BrowseSpec BrowseProofs.
Import ListNotations.
Local Open Scope Z_scope.
Local Open Scope res_scope.

(* The endpoint answers a discovery request with packets from which the browser finds out exactly what it asked for, in
   this order, whatever it has received before and whatever packets of other types arrive between the answers. *)
Theorem C90_endpoint : forall dbg d f major minor, endpoint_ok d -> 0 <= f < 32 -> is_u8 major -> is_u8 minor ->
  exists q rs, make_endpoint_discovery_message f major minor = Ok q /\ answer dbg d q = Ok rs /\
    forall u qs, Forall wf_packet qs -> filter stream_type qs = rs ->
    exists u', browse dbg u qs = Ok (u', endpoint_findings d f).
Proof.
  intros dbg d f ma mi D F A B. destruct (answer_endpoint_ok dbg d f ma mi D (conj F (conj A B))) as (q & M & H).
  destruct (answers_among dbg _ _ H) as (rs & E & G). exists q, rs. auto.
Qed.
Print Assumptions C90_endpoint.

Theorem C90_blocks : forall dbg d b f, endpoint_ok d -> 0 <= b < 32 \/ b = 255 -> 0 <= f < 16 ->
  exists q rs, make_function_block_discovery_message dbg b f = Ok q /\ answer dbg d q = Ok rs /\
    forall u qs, Forall wf_packet qs -> filter stream_type qs = rs ->
    exists u', browse dbg u qs = Ok (u', blocks_findings d b f).
Proof.
  intros dbg d b f D B F. destruct (answer_blocks_ok dbg d b f D (conj B F)) as (q & M & H).
  destruct (answers_among dbg _ _ H) as (rs & E & G). exists q, rs. auto.
Qed.
Print Assumptions C90_blocks.

(* The endpoint answers any packet, also one the library has not made, by the bits in its bytes: never undefined
   behaviour, and nothing is said unasked. *)
Theorem C90_any_request : forall dbg d q, endpoint_ok d -> wf_packet q ->
  exists rs, answer dbg d q = Ok rs /\
    (stream_type q = false -> rs = []) /\
    forall u qs, Forall wf_packet qs -> filter stream_type qs = rs ->
    exists u', browse dbg u qs = Ok (u',
      if stream_type q && (nth 1 (bytes q) 0 =? 0) then endpoint_findings d (nth 7 (bytes q) 0 mod 32)
      else if stream_type q && (nth 1 (bytes q) 0 =? 16) then blocks_findings d (nth 2 (bytes q) 0) (nth 3 (bytes q) 0 mod 16)
      else []).
Proof. exact any_request. Qed.
Print Assumptions C90_any_request.

(* A text of any length is found out once, whatever arrives between its packets: other texts, also names of other blocks,
   and any other message. *)
Theorem C90_text_among : forall dbg s t, match s with TBlock b => is_u7 b | _ => True end ->
  Forall is_char7 t -> (s = TProduct -> size t <= 16) ->
  exists ps, send_text dbg s t = Ok ps /\ Forall (fun p => carries s p = true) ps /\
    forall u qs, Forall wf_packet qs -> filter (carries s) qs = ps ->
    exists u' out, browse dbg u qs = Ok (u', out) /\ filter (about_text s) out = [FText s t].
Proof. exact text_received. Qed.
Print Assumptions C90_text_among.

(* What is found out about one text depends on the packets that carry it only, also for packets the library has not made.
   The browser never meets undefined behaviour. *)
Theorem C90_apart : forall dbg s u u' qs qs', Forall wf_packet qs -> Forall wf_packet qs' ->
  find (fun x => text_key_eqb s (fst x)) u = find (fun x => text_key_eqb s (fst x)) u' ->
  filter (carries s) qs = filter (carries s) qs' ->
  exists v o v' o', browse dbg u qs = Ok (v, o) /\ browse dbg u' qs' = Ok (v', o') /\
    filter (about_text s) o = filter (about_text s) o'.
Proof. exact texts_apart. Qed.
Print Assumptions C90_apart.

(* ---- a concrete case --------------------------------------------------------------------------------------------- *)

Definition c90_block (i : Z) (n : list Z) : block_desc := mkBlockDesc i (mkFbOptions true 3 0 1 2 8) i 1 n.
Definition c90_name : list Z := [83; 121; 110; 116; 104; 101; 115; 105; 122; 101; 114; 32; 77; 107; 50; 32; 112; 114; 111; 32; 83; 69; 43; 43; 32; 98; 101; 116; 97; 33].
Definition c90_d : endpoint_desc :=
  mkEndpointDesc true 3 1 1 1 (mkDevId 0x002109 300 5 77) c90_name [49; 50; 51] 2 1
    [c90_block 0 [77; 97; 105; 110]; c90_block 1 c90_name].
(* a note on between the answers *)
Definition c90_note : packet := mkP 0x20903C7F 0 0 0.
Fixpoint among (ps : list packet) : list packet := match ps with [] => [c90_note] | p :: r => c90_note :: p :: among r end.
Definition c90_run (dbg : bool) (q : res packet) : res (nat * list finding) :=
  q <- q ;; rs <- answer dbg c90_d q ;; b <- browse dbg [(TName, [1; 2]); (TBlock 1, [3])] (among rs) ;; Ok (length rs, snd b).

Example C90_ok : endpoint_ok c90_d.
Proof.
  unfold endpoint_ok, block_ok, c90_d, c90_block, c90_name, is_char7. cbn -[Z.mul].
  repeat apply conj; try lia; try (exists 0, 0x21, 9; unfold is_u7; lia); try (unfold is_u8, is_u14, is_u28; cbn; lia);
    repeat constructor; try (cbn; lia); unfold is_u8; cbn; lia.
Qed.
Example C90_ex :
  c90_run true (make_endpoint_discovery_message 31 1 1) =
    Ok (7%nat, [FReport (RInfo 1 1 257 2 true 3 1); FReport (RIdentity (mkDevId 0x002109 300 5 77)); FText TName c90_name;
         FText TProduct [49; 50; 51]; FReport (RConfiguration 2 1)]) /\
  c90_run false (make_endpoint_discovery_message 4 1 1) = Ok (3%nat, [FText TName c90_name]) /\
  c90_run true (make_function_block_discovery_message true 255 2) =
    Ok (4%nat, [FText (TBlock 0) [77; 97; 105; 110]; FText (TBlock 1) c90_name]) /\
  c90_run true (make_function_block_discovery_message true 1 1) =
    Ok (1%nat, [FReport (RBlockInfo true 1 3 0 1 1 1 2 8)]) /\
  c90_run true (Ok c90_note) = Ok (0%nat, []).
Proof. now vm_compute. Qed.

(* two names whose packets are interleaved *)
Example C90_among_ex :
  match send_text true (TBlock 0) c90_name, send_text true (TBlock 1) (rev c90_name) with
  | Ok [a1; a2; a3], Ok [b1; b2; b3] =>
      match browse true [] [a1; b1; c90_note; b2; a2; a3; b3] with
      | Ok (_, o) => o = [FText (TBlock 0) c90_name; FText (TBlock 1) (rev c90_name)] /\
          filter (carries (TBlock 0)) [a1; b1; c90_note; b2; a2; a3; b3] = [a1; a2; a3]
      | Fault _ => False
      end
  | _, _ => False
  end.
Proof. vm_compute. split; reflexivity. Qed.
