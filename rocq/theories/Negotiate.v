(* Protocol negotiation between two clients of the library: an endpoint that answers configuration requests and speaks the
   protocol agreed upon, and a host that keeps track of what was agreed.  Both are users' programs composed of the modelled
   functions of stream_message.h, channel_voice_message.h, jitter_reduction_timestamps.h; they have no counterpart in /repo. *)
From Coq Require Import ZArith List Bool.
From Verif Require Import Base Packet Utility ChannelVoice Endpoint.
Import ListNotations.
Local Open Scope Z_scope.
Local Open Scope res_scope.

(* a protocol of inc/midi/universal_packet.h:149-152 and extensions of :154-157: 1 transmits, 2 receives jitter reduction timestamps *)
Record configuration := mkConfiguration { cf_protocol : Z; cf_extensions : Z }.
(* the sets of protocols and extensions an endpoint supports, as masks *)
Record abilities := mkAbilities { ab_protocols : Z; ab_extensions : Z }.

(* ---- the endpoint ---------------------------------------------------------------------- *)

Definition supports (a : abilities) (pr : Z) : bool := (1 <=? pr) && (pr <? 3) && negb (Z.land (ab_protocols a) pr =? 0).
Definition reconfigure (a : abilities) (c : configuration) (pr e : Z) : configuration :=
  mkConfiguration (if supports a pr then pr else cf_protocol c) (Z.land e (ab_extensions a)).

(* A view does not tell a request from a notification (stream_message.h:231-250), so the endpoint looks at the status. *)
Definition endpoint_receive (dbg : bool) (a : abilities) (c : configuration) (p : packet) : res (configuration * list packet) :=
  v <- as_stream_configuration_view dbg p ;;
  match v with
  | Some v =>
      if status p =? st_stream_configuration_request then
        let c' := reconfigure a c (configuration_protocol v) (configuration_extensions v) in
        n <- make_stream_configuration_notification dbg (cf_protocol c') (cf_extensions c') ;; Ok (c', [n])
      else Ok (c, [])
  | None => Ok (c, [])
  end.

(* a message of the application in the given protocol; None if it has none there *)
Definition in_protocol (pr : Z) (p : packet) : res (option packet) :=
  if is_midi1_channel_voice_message p then (if pr =? 1 then Ok (Some p) else to_midi2 p)
  else if is_midi2_channel_voice_message p then (if pr =? 2 then Ok (Some p) else Ok (to_midi1 p))
  else Ok (Some p).

Definition endpoint_say (c : configuration) (t : Z) (p : packet) : res (list packet) :=
  o <- in_protocol (cf_protocol c) p ;;
  match o with
  | None => Ok []
  | Some q =>
      if Z.land (cf_extensions c) 1 =? 0 then Ok [q]
      else j <- jr_timestamp_message t ;; Ok [j; q]
  end.

(* a packet comes in, or the application has a message at the time given in ticks *)
Inductive endpoint_input : Type :=
| Incoming (p : packet)
| Outgoing (t : Z) (p : packet).
Definition endpoint_step (dbg : bool) (a : abilities) (c : configuration) (i : endpoint_input) : res (configuration * list packet) :=
  match i with
  | Incoming p => endpoint_receive dbg a c p
  | Outgoing t p => ps <- endpoint_say c t p ;; Ok (c, ps)
  end.
Fixpoint endpoint_run (dbg : bool) (a : abilities) (c : configuration) (l : list endpoint_input) : res (configuration * list packet) :=
  match l with
  | [] => Ok (c, [])
  | i :: r =>
      x <- endpoint_step dbg a c i ;;
      y <- endpoint_run dbg a (fst x) r ;; Ok (fst y, snd x ++ snd y)
  end.

(* ---- the host -------------------------------------------------------------------------- *)

(* what the host knows of the configuration, and a timestamp waiting for its message *)
Record host := mkHost { ho_known : option configuration; ho_stamp : option Z }.
(* a channel voice message with what the host knows when it comes in *)
Record arrival := mkArrival { ar_known : option configuration; ar_stamp : option Z; ar_packet : packet }.

Definition host_step (dbg : bool) (h : host) (p : packet) : res (host * list arrival) :=
  v <- as_stream_configuration_view dbg p ;;
  match v with
  | Some v =>
      if status p =? st_stream_configuration_notify
      then Ok (mkHost (Some (mkConfiguration (configuration_protocol v) (configuration_extensions v))) (ho_stamp h), [])
      else Ok (h, [])
  | None =>
      if is_utility_message p && (status p =? us_jr_timestamp)
      then t <- jr_get_timestamp p ;; Ok (mkHost (ho_known h) (Some t), [])
      else if is_channel_voice_message p
      then Ok (mkHost (ho_known h) None, [mkArrival (ho_known h) (ho_stamp h) p])
      else Ok (h, [])
  end.
Fixpoint host_run (dbg : bool) (h : host) (ps : list packet) : res (host * list arrival) :=
  match ps with
  | [] => Ok (h, [])
  | p :: r =>
      x <- host_step dbg h p ;;
      y <- host_run dbg (fst x) r ;; Ok (fst y, snd x ++ snd y)
  end.
