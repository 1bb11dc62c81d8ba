(* Endpoint discovery between two clients of the library: an endpoint that answers requests, and a browser that finds out
   what the endpoint says.  Both are users' programs composed of the modelled functions of stream_message.h; they have no
   counterpart in /repo.  [as_stream_view] and [stream_read] of EndpointSpec.v call the view functions and all accessors
   of inc/midi/stream_message.h:90-361, 438-509. *)
From Coq Require Import ZArith List Bool.
From Verif Require Import Base Packet Sysex Endpoint EndpointSpec.
Import ListNotations.
Local Open Scope Z_scope.
Local Open Scope res_scope.

(* ---- the endpoint ---------------------------------------------------------------------- *)

Record block_desc := mkBlockDesc {
  bd_index : Z; bd_options : fb_options; bd_first_group : Z; bd_groups : Z; bd_name : list Z }.
Record endpoint_desc := mkEndpointDesc {
  ed_static : bool; ed_protocols : Z; ed_extensions : Z; ed_major : Z; ed_minor : Z;
  ed_identity : device_identity; ed_name : list Z; ed_product : list Z;
  ed_protocol : Z; ed_timestamps : Z; ed_blocks : list block_desc }.

Definition if_asked (b : bool) (r : res (list packet)) : res (list packet) := if b then r else Ok [].
Definition single (r : res packet) : res (list packet) := p <- r ;; Ok [p].

Definition answer_endpoint (dbg : bool) (d : endpoint_desc) (v : packet) : res (list packet) :=
  a <- if_asked (requests_info v)
         (single (make_endpoint_info_message (size (ed_blocks d)) (ed_static d) (ed_protocols d) (ed_extensions d)
            (ed_major d) (ed_minor d))) ;;
  b <- if_asked (requests_device_identity v) (Ok [make_device_identity_message (ed_identity d)]) ;;
  c <- if_asked (requests_name v) (send_endpoint_name dbg (ed_name d)) ;;
  e <- if_asked (requests_product_instance_id v) (send_product_instance_id dbg (ed_product d)) ;;
  f <- if_asked (requests_stream_configuration v)
         (single (make_stream_configuration_notification dbg (ed_protocol d) (ed_timestamps d))) ;;
  Ok (a ++ b ++ c ++ e ++ f).

Definition answer_block (dbg : bool) (v : packet) (k : block_desc) : res (list packet) :=
  if requests_function_block v (bd_index k) then
    a <- if_asked (fb_requests_info v)
           (single (make_function_block_info_message_options dbg (bd_index k) (bd_options k) (bd_first_group k) (bd_groups k))) ;;
    b <- if_asked (fb_requests_name v) (send_function_block_name dbg (bd_index k) (bd_name k)) ;;
    Ok (a ++ b)
  else Ok [].
Fixpoint answer_blocks (dbg : bool) (v : packet) (ks : list block_desc) : res (list packet) :=
  match ks with
  | [] => Ok []
  | k :: r => a <- answer_block dbg v k ;; b <- answer_blocks dbg v r ;; Ok (a ++ b)
  end.

Definition answer (dbg : bool) (d : endpoint_desc) (p : packet) : res (list packet) :=
  e <- as_endpoint_discovery_view dbg p ;;
  match e with
  | Some v => answer_endpoint dbg d v
  | None =>
      b <- as_function_block_discovery_view dbg p ;;
      match b with
      | Some v => answer_blocks dbg v (ed_blocks d)
      | None => Ok []
      end
  end.

(* ---- the browser ----------------------------------------------------------------------- *)

Definition text_key_eqb (a b : text_sender) : bool :=
  match a, b with
  | TName, TName | TProduct, TProduct => true
  | TBlock x, TBlock y => x =? y
  | _, _ => false
  end.

(* what it finds out: the contents of a message, or a text, which may come in several messages *)
Inductive finding := FReport (r : stream_report) | FText (s : text_sender) (t : list Z).
(* texts not yet complete *)
Definition unfinished : Type := list (text_sender * list Z).

Definition browse_text (u : unfinished) (s : text_sender) (format : Z) (t : list Z) : unfinished * list finding :=
  let others := filter (fun x => negb (text_key_eqb s (fst x))) u in
  if format =? 0 then (others, [FText s t])
  else if format =? 1 then ((s, t) :: others, [])
  else match find (fun x => text_key_eqb s (fst x)) u with
       | None => (others, [])
       | Some x => if format =? 2 then ((s, snd x ++ t) :: others, []) else (others, [FText s (snd x ++ t)])
       end.
Definition browse_report (u : unfinished) (r : stream_report) : unfinished * list finding :=
  match r with
  | RName f t => browse_text u TName f t
  | RProduct f t => browse_text u TProduct f t
  | RBlockName f b t => browse_text u (TBlock b) f t
  | _ => (u, [FReport r])
  end.

(* the first view that accepts the packet *)
Fixpoint browse_views (dbg : bool) (ks : list stream_kind) (p : packet) : res (option stream_report) :=
  match ks with
  | [] => Ok None
  | k :: r =>
      v <- as_stream_view dbg k p ;;
      match v with
      | Some v => x <- stream_read k v ;; Ok (Some x)
      | None => browse_views dbg r p
      end
  end.
Definition browse_packet (dbg : bool) (u : unfinished) (p : packet) : res (unfinished * list finding) :=
  r <- browse_views dbg [KInfo; KIdentity; KName; KProduct; KConfiguration; KBlockInfo; KBlockName] p ;;
  match r with
  | Some x => Ok (browse_report u x)
  | None => Ok (u, [])
  end.
Fixpoint browse (dbg : bool) (u : unfinished) (ps : list packet) : res (unfinished * list finding) :=
  match ps with
  | [] => Ok (u, [])
  | p :: r =>
      a <- browse_packet dbg u p ;;
      b <- browse dbg (fst a) r ;;
      Ok (fst b, snd a ++ snd b)
  end.
