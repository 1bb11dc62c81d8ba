(* What is claimed of property transfers *)
From Coq Require Import ZArith List Bool.
From Verif Require Import Base Sysex SysexSpec UniversalSysex ByteStream StreamSpec SessionSpec CapInq CapSpec JsonSpec Transfer.
Import ListNotations.
Local Open Scope Z_scope.
Local Open Scope res_scope.

Definition opening_subtype (o : opening) : Z :=
  match o with
  | OReply _ | OReplyStatus _ | OReplyMessage _ _ => 0x35
  | OSet _ | OSetOptions _ _ => 0x36
  | OSubscribe _ _ _ => 0x38
  end.
Definition transfer_key (x : transfer) : tkey :=
  (opening_subtype (tr_opening x), pc_src (tr_common x), pc_request (tr_common x)).

(* arguments as documented; any number of pieces that 14 bits can count, of any size up to 16383 *)
Definition piece_ok (p : list Z) : Prop := all7 p /\ size p < 16384.
Definition transfer_ok (x : transfer) : Prop :=
  is_u28 (pc_src (tr_common x)) /\ is_u28 (pc_dst (tr_common x)) /\
  is_u7 (pc_request (tr_common x)) /\ is_u7 (pc_device (tr_common x)) /\
  pe_proper (first_call (tr_opening x) (mkChunk 1 1 None)) /\
  all7 (pe_texts (first_call (tr_opening x) (mkChunk 1 1 None))) /\
  Forall piece_ok (tr_first x :: tr_rest x) /\ tr_count x < 16384.

(* the whole body *)
Definition body_of (x : transfer) : list Z := tr_first x ++ concat (tr_rest x).

(* messages that the library takes for property data of this kind, sender and request, addressed to [me] *)
Definition belongs (me : Z) (k : tkey) (s : sysex) : bool :=
  match property_data_validate s, view_subtype s, source_muid s, destination_muid s, request_id s with
  | Ok true, Ok t, Ok a, Ok b, Ok r => (t =? fst (fst k)) && (a =? snd (fst k)) && (b =? me) && (r =? snd k)
  | _, _, _, _, _ => false
  end.
(* what was received of this transfer *)
Definition about (k : tkey) (r : received) : bool := tkey_eqb k (rv_key r).

(* the SysEx messages of a MIDI 1 session, and those among the events of a parser *)
Definition sysexes_sent (gms : list (Z * midi_message)) : list sysex :=
  concat (map (fun gm => match snd gm with
                         | SysExBytes ds => match sx_decode ds with Some s => [s] | None => [] end
                         | Short _ => []
                         end) gms).
Definition sysexes_of (es : list event) : list sysex :=
  concat (map (fun e => match e with ESysex s => [s] | EPacket _ => [] end) es).

(* the receiver obtains the property from these messages, whatever it has received before *)
Definition came_through (dbg : bool) (x : transfer) (h : list Z) (ss : list sysex) : Prop :=
  forall ps, exists ps' out, receive_all dbg (pc_dst (tr_common x)) ps ss = Ok (ps', out) /\
    filter (about (transfer_key x)) out = [mkRecv (transfer_key x) h (body_of x)].
