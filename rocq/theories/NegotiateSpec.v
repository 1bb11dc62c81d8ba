(* What a host hears from an endpoint with which it negotiates the protocol (C98). *)
From Coq Require Import ZArith List Bool.
From Verif Require Import Base Packet Utility VoiceSpec VoiceTranslate EngineSpec Endpoint Negotiate.
Import ListNotations.
Local Open Scope Z_scope.

(* what happens on the endpoint's side, in order *)
Inductive happening : Type :=
| Asked (protocol extensions : Z)      (* the host requests a configuration *)
| Said (t : Z) (m : heard_message)     (* the application of the endpoint has a message at time t *)
| Stray (p : packet).                  (* some other packet comes in *)

Definition fine_message (m : heard_message) : Prop :=
  message_ok m /\ match m with Midi1 _ _ _ => True | Midi2 _ _ m => attribute_7bit m end.
(* byte 1 of a stream message carries the type in its upper four bits, byte 2 the status *)
Definition is_request (p : packet) : Prop := w0 p / 268435456 = 15 /\ w0 p / 65536 mod 256 = 5.
Definition happening_ok (x : happening) : Prop :=
  match x with
  | Asked pr e => (pr = 1 \/ pr = 2) /\ 0 <= e < 4
  | Said t m => is_u16 t /\ fine_message m
  | Stray p => wf_packet p /\ ~ is_request p
  end.

(* the input of the endpoint *)
Inductive put (dbg : bool) : happening -> endpoint_input -> Prop :=
| put_asked pr e p : make_stream_configuration_request dbg pr e = Ok p -> put dbg (Asked pr e) (Incoming p)
| put_said t m : put dbg (Said t m) (Outgoing t (message_packet m))
| put_stray p : put dbg (Stray p) (Incoming p).

(* an endpoint supports one or both protocols and is set to one of them *)
Definition able (a : abilities) (pr : Z) : Prop :=
  match pr with 1 => ab_protocols a = 1 \/ ab_protocols a = 3 | 2 => ab_protocols a = 2 \/ ab_protocols a = 3 | _ => False end.
Definition sound (a : abilities) (c : configuration) : Prop :=
  1 <= ab_protocols a <= 3 /\ 0 <= ab_extensions a <= 3 /\ able a (cf_protocol c) /\ 0 <= cf_extensions c <= 3.

(* those of the extensions asked for which there are *)
Definition common (e f : Z) : Z := (if Z.odd e && Z.odd f then 1 else 0) + (if (2 <=? e) && (2 <=? f) then 2 else 0).
Definition answered (a : abilities) (c : configuration) (pr e : Z) : configuration :=
  mkConfiguration
    (if ab_protocols a =? 3 then pr else if ab_protocols a =? pr then pr else cf_protocol c)
    (common e (ab_extensions a)).

(* a message in a protocol *)
Definition spoken (pr : Z) (m : heard_message) : option heard_message :=
  match m with
  | Midi1 g ch m => if pr =? 1 then Some (Midi1 g ch m) else option_map (Midi2 g ch) (translate_to_midi2 m)
  | Midi2 g ch m => if pr =? 2 then Some (Midi2 g ch m) else option_map (Midi1 g ch) (translate_to_midi1 m)
  end.

(* the configuration in the end, and what the host hears *)
Fixpoint course (a : abilities) (c : configuration) (known : option configuration) (l : list happening)
  : configuration * option configuration * list arrival :=
  match l with
  | [] => (c, known, [])
  | Asked pr e :: r => let c' := answered a c pr e in course a c' (Some c') r
  | Said t m :: r =>
      match spoken (cf_protocol c) m with
      | None => course a c known r
      | Some m' =>
          let x := course a c known r in
          (fst x, mkArrival known (if Z.odd (cf_extensions c) then Some t else None) (message_packet m') :: snd x)
      end
  | Stray _ :: r => course a c known r
  end.

(* the packets the host takes note of: notifications, timestamps, channel voice messages *)
Definition noted (p : packet) : bool :=
  let t := w0 p / 268435456 in let s := w0 p / 65536 mod 256 in
  (t =? 2) || (t =? 4) || ((t =? 15) && (s =? 6)) || ((t =? 0) && (s =? 32)).

(* a message that comes in after a notification is of the protocol and with or without timestamp as notified *)
Definition in_order (x : arrival) : Prop :=
  match ar_known x with
  | Some k => w0 (ar_packet x) / 268435456 = 2 * cf_protocol k /\ (ar_stamp x <> None <-> Z.odd (cf_extensions k) = true)
  | None => True
  end.

Definition is_asked (x : happening) : bool := match x with Asked _ _ => true | _ => false end.

(* any input at all *)
Definition input_ok (i : endpoint_input) : Prop :=
  match i with Incoming p => wf_packet p | Outgoing t p => is_u16 t /\ wf_packet p end.
