(* Subscriptions to a property: a device that publishes it, and any number of others that subscribe to it and keep a copy.
   They are users' programs composed of the modelled functions of capability_inquiry.h and have no counterpart in /repo,
   where the constructors and views are inc/midi/capability_inquiry.h:815-857, 1824-1867, 2211-2298.  The header of a
   received message is read by a JSON parser of the user, here the one of JsonSpec.v. *)
From Coq Require Import ZArith String List Bool.
From Verif Require Import Base Sysex UniversalSysex CapInq PropEx CapSpec JsonSpec Transfer.
Import ListNotations.
Local Open Scope Z_scope.
Local Open Scope res_scope.
Local Open Scope list_scope.

(* the commands of MIDI-CI *)
Definition cmd_start : list Z := str "start".
Definition cmd_end : list Z := str "end".
Definition cmd_full : list Z := str "full".

(* command and subscription id of a header for the resource *)
Definition text_eqb (a b : list Z) : bool := if list_eq_dec Z.eq_dec a b then true else false.
Definition subscription_header (resource h : list Z) : option (list Z * list Z) :=
  match parse_object h with
  | Some [(k1, JText r); (k2, JText c); (k3, JText i)] =>
      if text_eqb k1 (str "resource") && text_eqb k2 (str "command") && text_eqb k3 (str "subscribeId") && text_eqb r resource
      then Some (c, i) else None
  | _ => None
  end.

(* ---- the publisher ------------------------------------------------------------------------ *)

(* what is published; the value is divided into pieces somehow *)
Record publication := mkPub {
  pu_muid : Z; pu_resource : list Z;
  pu_value : list Z * list (list Z);
  pu_subs : list (Z * list Z);    (* muid and subscription id *)
  pu_request : Z                  (* the request id of the next message *)
}.
Definition update_for (p : publication) (s : Z * list Z) : transfer :=
  mkTransfer (mkCommon (pu_muid p) (fst s) (pu_request p) 0x7F) (OSubscribe (pu_resource p) cmd_full (snd s))
    (fst (pu_value p)) (snd (pu_value p)).
Definition next_request (p : publication) : publication :=
  mkPub (pu_muid p) (pu_resource p) (pu_value p) (pu_subs p) ((pu_request p + 1) mod 128).
(* the value is sent to some subscribers *)
Fixpoint send_updates (dbg : bool) (p : publication) (ss : list (Z * list Z)) : res (publication * list sysex) :=
  match ss with
  | [] => Ok (p, [])
  | s :: r =>
      ms <- transfer_messages dbg (update_for p s) ;;
      q <- send_updates dbg (next_request p) r ;;
      Ok (fst q, ms ++ snd q)
  end.
Definition with_subs (p : publication) (ss : list (Z * list Z)) : publication :=
  mkPub (pu_muid p) (pu_resource p) (pu_value p) ss (pu_request p).
(* a new value goes to all *)
Definition publish (dbg : bool) (p : publication) (v : list Z * list (list Z)) : res (publication * list sysex) :=
  send_updates dbg (mkPub (pu_muid p) (pu_resource p) v (pu_subs p) (pu_request p)) (pu_subs p).

(* a message arrives; a new subscriber gets the value *)
Definition others (m : Z) (ss : list (Z * list Z)) : list (Z * list Z) := filter (fun s => negb (fst s =? m)) ss.
Definition pub_receive (dbg : bool) (p : publication) (s : sysex) : res (publication * list sysex) :=
  r <- read_chunk dbg s ;;
  match r with
  | Some m =>
      if (cm_destination m =? pu_muid p) && (cm_subtype m =? 0x38) then
        match subscription_header (pu_resource p) (cm_header m) with
        | Some (c, i) =>
            if text_eqb c cmd_start then
              send_updates dbg (with_subs p ((cm_source m, i) :: others (cm_source m) (pu_subs p))) [(cm_source m, i)]
            else if text_eqb c cmd_end then Ok (with_subs p (others (cm_source m) (pu_subs p)), [])
            else Ok (p, [])
        | None => Ok (p, [])
        end
      else Ok (p, [])
  | None => Ok (p, [])
  end.

(* ---- a subscriber -------------------------------------------------------------------------- *)

(* incomplete transfers, the values received so far, the last one at the end *)
Record subscriber := mkSub { sb_pending : list pending; sb_values : list (list Z) }.
(* the value of a property that was received, if it is an update of the subscription *)
Definition update_value (from : Z) (resource id : list Z) (r : received) : list (list Z) :=
  let '(t, a, _) := rv_key r in
  if (t =? 0x38) && (a =? from) then
    match subscription_header resource (rv_header r) with
    | Some (c, i) => if text_eqb c cmd_full && text_eqb i id then [rv_body r] else []
    | None => []
    end
  else [].
Definition sub_receive (dbg : bool) (me from : Z) (resource id : list Z) (b : subscriber) (s : sysex) : res subscriber :=
  r <- receive_sysex dbg me (sb_pending b) s ;;
  Ok (mkSub (fst r) (sb_values b ++ flat_map (update_value from resource id) (snd r))).
Definition command (dbg : bool) (me to : Z) (resource c id : list Z) : res sysex :=
  pe_build dbg (mkCommon me to 0 0x7F) (PSubscribe resource c id).

(* ---- all of them --------------------------------------------------------------------------- *)

(* What the publisher sends reaches everyone, what a subscriber sends reaches the publisher; each connection keeps the
   order.  Subscriber m has the subscription id [ids m]. *)
Record network := mkNet {
  nt_pub : publication;
  nt_up : Z -> list sysex;
  nt_down : Z -> list sysex;
  nt_sub : Z -> subscriber
}.
Inductive happening :=
| HSet (v : list Z * list (list Z))   (* the property changes *)
| HStart (m : Z)                       (* m subscribes *)
| HEnd (m : Z)                         (* m ends its subscription *)
| HUp (m : Z)                          (* a message of m reaches the publisher *)
| HDown (m : Z)                        (* a message of the publisher reaches m *)
| HOther (s : sysex)                   (* another message reaches the publisher *)
| HOtherTo (m : Z) (s : sysex)         (* another message reaches m *)
| HElse (m : Z) (x c i : list Z)       (* a command of m for another resource reaches the publisher *)
(* the publisher sends m something about another resource, another subscription, or with another command *)
| HAlso (m : Z) (x c i : list Z) (v : list Z * list (list Z)).

Definition at_ {A} (f : Z -> A) (m : Z) (x : A) (k : Z) : A := if k =? m then x else f k.
Definition spread (f : Z -> list sysex) (ms : list sysex) (k : Z) : list sysex := f k ++ ms.

Definition happen (dbg : bool) (ids : Z -> list Z) (n : network) (h : happening) : res network :=
  let p := nt_pub n in
  let say m c :=
    s <- command dbg m (pu_muid p) (pu_resource p) c (ids m) ;;
    Ok (mkNet p (at_ (nt_up n) m (nt_up n m ++ [s])) (nt_down n) (nt_sub n)) in
  match h with
  | HSet v => q <- publish dbg p v ;; Ok (mkNet (fst q) (nt_up n) (spread (nt_down n) (snd q)) (nt_sub n))
  | HStart m => say m cmd_start
  | HEnd m => say m cmd_end
  | HUp m =>
      match nt_up n m with
      | [] => Ok n
      | s :: r =>
          q <- pub_receive dbg p s ;;
          Ok (mkNet (fst q) (at_ (nt_up n) m r) (spread (nt_down n) (snd q)) (nt_sub n))
      end
  | HDown m =>
      match nt_down n m with
      | [] => Ok n
      | s :: r =>
          b <- sub_receive dbg m (pu_muid p) (pu_resource p) (ids m) (nt_sub n m) s ;;
          Ok (mkNet p (nt_up n) (at_ (nt_down n) m r) (at_ (nt_sub n) m b))
      end
  | HOther s => q <- pub_receive dbg p s ;; Ok (mkNet (fst q) (nt_up n) (spread (nt_down n) (snd q)) (nt_sub n))
  | HOtherTo m s =>
      b <- sub_receive dbg m (pu_muid p) (pu_resource p) (ids m) (nt_sub n m) s ;;
      Ok (mkNet p (nt_up n) (nt_down n) (at_ (nt_sub n) m b))
  | HElse m x c i =>
      s <- command dbg m (pu_muid p) x c i ;;
      q <- pub_receive dbg p s ;;
      Ok (mkNet (fst q) (nt_up n) (spread (nt_down n) (snd q)) (nt_sub n))
  | HAlso m x c i v =>
      ms <- transfer_messages dbg (mkTransfer (mkCommon (pu_muid p) m (pu_request p) 0x7F) (OSubscribe x c i) (fst v) (snd v)) ;;
      Ok (mkNet (next_request p) (nt_up n) (spread (nt_down n) ms) (nt_sub n))
  end.
Fixpoint run (dbg : bool) (ids : Z -> list Z) (n : network) (hs : list happening) : res network :=
  match hs with
  | [] => Ok n
  | h :: r => n' <- happen dbg ids n h ;; run dbg ids n' r
  end.
Definition quiet_net (muid : Z) (resource : list Z) (v : list Z * list (list Z)) : network :=
  mkNet (mkPub muid resource v [] 0) (fun _ => []) (fun _ => []) (fun _ => mkSub [] []).
