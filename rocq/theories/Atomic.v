(* Reading and writing the properties of a device: a device that holds them, and any number of others that ask for their
   values and for changes, each with up to 128 requests at a time.  They are users' programs composed of the modelled
   functions of capability_inquiry.h and have no counterpart in /repo, where the constructors and views are
   inc/midi/capability_inquiry.h:1824-1867, 1944-2199.  The header of a received message is read by a JSON parser of the
   user, here the one of JsonSpec.v. *)
From Coq Require Import ZArith String List Bool.
From Verif Require Import Base Sysex UniversalSysex CapInq PropEx CapSpec JsonSpec Transfer Subscribe.
Import ListNotations.
Local Open Scope Z_scope.
Local Open Scope res_scope.
Local Open Scope list_scope.

Inductive request :=
| RGet (resource : list Z)
| RSet (resource value : list Z).
Inductive answer :=
| AValue (value : list Z)
| ADone.

(* ---- the device --------------------------------------------------------------------------- *)

Record device := mkDevice { dv_pending : list pending; dv_store : list Z -> list Z }.

(* the resource a header names *)
Definition resource_header (h : list Z) : option (list Z) :=
  match parse_object h with
  | Some [(k, JText r)] => if text_eqb k (str "resource") then Some r else None
  | _ => None
  end.
Definition store_at (f : list Z -> list Z) (x v : list Z) (k : list Z) : list Z := if text_eqb k x then v else f k.

(* [cutting] divides a value into the first and the other pieces *)
Definition reply_value (dbg : bool) (cutting : list Z -> list Z * list (list Z)) (me to request : Z) (v : list Z) : res (list sysex) :=
  transfer_messages dbg (mkTransfer (mkCommon me to request 0x7F) (OReplyStatus 200) (fst (cutting v)) (snd (cutting v))).
Definition reply_done (dbg : bool) (me to request : Z) : res (list sysex) :=
  m <- pe_build dbg (mkCommon me to request 0x7F) (PSetReply 200) ;; Ok [m].

(* what the device does with a complete inquiry; the reply goes to the device and request given *)
Definition serve (dbg : bool) (cutting : list Z -> list Z * list (list Z)) (me : Z) (d : device) (r : received)
  : res (device * list (Z * Z * list sysex)) :=
  let '(t, m, q) := rv_key r in
  match resource_header (rv_header r) with
  | None => Ok (d, [])
  | Some x =>
      if t =? 0x34 then
        ms <- reply_value dbg cutting me m q (dv_store d x) ;; Ok (d, [(m, q, ms)])
      else if t =? 0x36 then
        ms <- reply_done dbg me m q ;; Ok (mkDevice (dv_pending d) (store_at (dv_store d) x (rv_body r)), [(m, q, ms)])
      else Ok (d, [])
  end.
Fixpoint serve_all (dbg : bool) (cutting : list Z -> list Z * list (list Z)) (me : Z) (d : device) (rs : list received)
  : res (device * list (Z * Z * list sysex)) :=
  match rs with
  | [] => Ok (d, [])
  | r :: l =>
      a <- serve dbg cutting me d r ;;
      b <- serve_all dbg cutting me (fst a) l ;;
      Ok (fst b, snd a ++ snd b)
  end.
Definition device_receive (dbg : bool) (cutting : list Z -> list Z * list (list Z)) (me : Z) (d : device) (s : sysex)
  : res (device * list (Z * Z * list sysex)) :=
  r <- receive_sysex dbg me (dv_pending d) s ;;
  serve_all dbg cutting me (mkDevice (fst r) (dv_store d)) (snd r).

(* ---- those who ask -------------------------------------------------------------------------- *)

(* incomplete transfers, the requests without an answer by their id *)
Record client := mkClient { cl_pending : list pending; cl_waiting : Z -> option request }.

Definition inquiry (dbg : bool) (cutting : list Z -> list Z * list (list Z)) (me to q : Z) (r : request) : res (list sysex) :=
  match r with
  | RGet x => m <- pe_build dbg (mkCommon me to q 0x7F) (PGetInquiry x) ;; Ok [m]
  | RSet x v => transfer_messages dbg (mkTransfer (mkCommon me to q 0x7F) (OSet x) (fst (cutting v)) (snd (cutting v)))
  end.

(* status 200 *)
Definition succeeded (h : list Z) : bool :=
  match parse_object h with
  | Some [(k, JInt n)] => text_eqb k (str "status") && (n =? 200)
  | _ => false
  end.
Definition expected (r : request) : Z := match r with RGet _ => 0x35 | RSet _ _ => 0x37 end.
Definition answer_of (r : request) (body : list Z) : answer := match r with RGet _ => AValue body | RSet _ _ => ADone end.
(* the new requests without an answer, and the answer with the id of its request *)
Definition take (from : Z) (w : Z -> option request) (r : received) : (Z -> option request) * list (Z * answer) :=
  let '(t, a, q) := rv_key r in
  match w q with
  | Some x =>
      if (a =? from) && (t =? expected x) && succeeded (rv_header r)
      then (at_ w q None, [(q, answer_of x (rv_body r))]) else (w, [])
  | None => (w, [])
  end.
Fixpoint take_all (from : Z) (w : Z -> option request) (rs : list received) : (Z -> option request) * list (Z * answer) :=
  match rs with
  | [] => (w, [])
  | r :: l => let a := take from w r in let b := take_all from (fst a) l in (fst b, snd a ++ snd b)
  end.
Definition client_receive (dbg : bool) (me from : Z) (c : client) (s : sysex) : res (client * list (Z * answer)) :=
  r <- receive_sysex dbg me (cl_pending c) s ;;
  let b := take_all from (cl_waiting c) (snd r) in
  Ok (mkClient (fst r) (fst b), snd b).

(* ---- all of them ----------------------------------------------------------------------------- *)

(* Messages on the way, by client and request: the messages of a request keep their order, others may overtake them. *)
Record system := mkSystem {
  sy_device : device;
  sy_client : Z -> client;
  sy_up : Z -> Z -> list sysex;
  sy_down : Z -> Z -> list sysex
}.
Inductive action :=
| DoAsk (m q : Z) (r : request)        (* m asks, with request id q if that is not in use *)
| DoUp (m q : Z)                        (* a message of the request reaches the device *)
| DoDown (m q : Z)                      (* a message of the answer reaches m *)
| DoLoseUp (m q : Z)                    (* a message of the request is lost *)
| DoLoseDown (m q : Z)                  (* a message of the answer is lost *)
| DoGiveUp (m q : Z)                    (* m waits for the answer no longer *)
| DoOther (s : sysex)                   (* some other message reaches the device *)
| DoOtherTo (m : Z) (s : sysex).        (* some other message reaches m *)
(* what users see *)
Inductive seen :=
| Asks (m q : Z) (r : request)
| Gets (m q : Z) (a : answer).

Definition at2 {A} (f : Z -> Z -> A) (m q : Z) (x : A) (k l : Z) : A := if (k =? m) && (l =? q) then x else f k l.
Definition post_all (f : Z -> Z -> list sysex) (rs : list (Z * Z * list sysex)) : Z -> Z -> list sysex :=
  fold_left (fun f r => at2 f (fst (fst r)) (snd (fst r)) (f (fst (fst r)) (snd (fst r)) ++ snd r)) rs f.

Definition act (dbg : bool) (cutting : list Z -> list Z * list (list Z)) (P : Z) (n : system) (h : action) : res (system * list seen) :=
  match h with
  | DoAsk m q r =>
      match cl_waiting (sy_client n m) q with
      | Some _ => Ok (n, [])
      | None =>
          ms <- inquiry dbg cutting m P q r ;;
          let c := mkClient (cl_pending (sy_client n m)) (at_ (cl_waiting (sy_client n m)) q (Some r)) in
          Ok (mkSystem (sy_device n) (at_ (sy_client n) m c) (at2 (sy_up n) m q (sy_up n m q ++ ms)) (sy_down n), [Asks m q r])
      end
  | DoUp m q =>
      match sy_up n m q with
      | [] => Ok (n, [])
      | s :: r =>
          d <- device_receive dbg cutting P (sy_device n) s ;;
          Ok (mkSystem (fst d) (sy_client n) (at2 (sy_up n) m q r) (post_all (sy_down n) (snd d)), [])
      end
  | DoDown m q =>
      match sy_down n m q with
      | [] => Ok (n, [])
      | s :: r =>
          c <- client_receive dbg m P (sy_client n m) s ;;
          Ok (mkSystem (sy_device n) (at_ (sy_client n) m (fst c)) (sy_up n) (at2 (sy_down n) m q r),
              map (fun x => Gets m (fst x) (snd x)) (snd c))
      end
  | DoLoseUp m q => Ok (mkSystem (sy_device n) (sy_client n) (at2 (sy_up n) m q (tl (sy_up n m q))) (sy_down n), [])
  | DoLoseDown m q => Ok (mkSystem (sy_device n) (sy_client n) (sy_up n) (at2 (sy_down n) m q (tl (sy_down n m q))), [])
  | DoGiveUp m q =>
      let c := mkClient (cl_pending (sy_client n m)) (at_ (cl_waiting (sy_client n m)) q None) in
      Ok (mkSystem (sy_device n) (at_ (sy_client n) m c) (sy_up n) (sy_down n), [])
  | DoOther s =>
      d <- device_receive dbg cutting P (sy_device n) s ;;
      Ok (mkSystem (fst d) (sy_client n) (sy_up n) (post_all (sy_down n) (snd d)), [])
  | DoOtherTo m s =>
      c <- client_receive dbg m P (sy_client n m) s ;;
      Ok (mkSystem (sy_device n) (at_ (sy_client n) m (fst c)) (sy_up n) (sy_down n), map (fun x => Gets m (fst x) (snd x)) (snd c))
  end.
Fixpoint acts (dbg : bool) (cutting : list Z -> list Z * list (list Z)) (P : Z) (n : system) (hs : list action) : res (system * list seen) :=
  match hs with
  | [] => Ok (n, [])
  | h :: r =>
      a <- act dbg cutting P n h ;;
      b <- acts dbg cutting P (fst a) r ;;
      Ok (fst b, snd a ++ snd b)
  end.
Definition quiet_system (store : list Z -> list Z) : system :=
  mkSystem (mkDevice [] store) (fun _ => mkClient [] (fun _ => None)) (fun _ _ => []) (fun _ _ => []).
