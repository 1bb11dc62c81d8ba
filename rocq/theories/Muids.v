(* MIDI-CI devices that chose the same MUID.  A device that receives a message with its own MUID as source says that the
   MUID is invalid, chooses another one and asks again who is there.  Otherwise it does what the devices of CiNet.v do.  These
   are users' programs composed of the modelled functions of capability_inquiry.h and have no counterpart in /repo, where
   the constructors and views are inc/midi/capability_inquiry.h:1012-1133 and 1330-1360. *)
From Coq Require Import ZArith List Bool.
From Verif Require Import Base Sysex UniversalSysex CapInq CiNet.
Import ListNotations.
Local Open Scope Z_scope.
Local Open Scope res_scope.
Local Open Scope list_scope.

(* a device, what it knows of others, and how often it has chosen another MUID *)
Record node := mkNode { nd_device : ci_device; nd_known : list ci_peer; nd_turn : nat }.

Definition with_muid (d : ci_device) (m : Z) : ci_device :=
  mkCiDevice m (cd_identity d) (cd_categories d) (cd_max_size d) (cd_path d) (cd_block d).

(* the message has the MUID of the device as source *)
Definition collides (d : ci_device) (s : sysex) : res bool :=
  ci <- is_capability_inquiry_message s ;;
  if ci then src <- source_muid s ;; Ok (src =? cd_muid d) else Ok false.

(* [choose] tells the MUIDs the device chooses, one after the other *)
Definition node_receive (dbg : bool) (choose : nat -> Z) (n : node) (s : sysex) : res (node * list sysex) :=
  c <- collides (nd_device n) s ;;
  if c then
    bye <- leave dbg (nd_device n) ;;
    let d := with_muid (nd_device n) (choose (nd_turn n)) in
    q <- ask dbg d ;;
    Ok (mkNode d (nd_known n) (S (nd_turn n)), [bye; q])
  else
    r <- handle dbg (nd_device n) (nd_known n) s ;;
    Ok (mkNode (nd_device n) (fst r) (nd_turn n), snd r).

(* ---- several of them ------------------------------------------------------------------------- *)

(* the messages on the way from one to another, in their order *)
Record net := mkNet { nt_node : Z -> node; nt_link : Z -> Z -> list sysex }.

Definition node_at {A} (f : Z -> A) (i : Z) (x : A) (k : Z) : A := if k =? i then x else f k.
Definition link_at {A} (f : Z -> Z -> A) (a b : Z) (x : A) (k l : Z) : A := if (k =? a) && (l =? b) then x else f k l.
(* what i sends gets to all others *)
Definition broadcast {A} (ids : list Z) (i : Z) (ms : list A) (f : Z -> Z -> list A) (a b : Z) : list A :=
  if (a =? i) && negb (b =? i) && existsb (Z.eqb b) ids then f a b ++ ms else f a b.

Inductive event :=
| EvAsk (i : Z)             (* i asks who is there *)
| EvSay (i : Z) (f : Z -> sysex)   (* i sends something else, the message [f m] if its MUID is m *)
| EvArrive (a b : Z).       (* the next message from a arrives at b *)

Definition happen (dbg : bool) (ids : list Z) (choose : Z -> nat -> Z) (n : net) (e : event) : res net :=
  match e with
  | EvAsk i =>
      q <- ask dbg (nd_device (nt_node n i)) ;;
      Ok (mkNet (nt_node n) (broadcast ids i [q] (nt_link n)))
  | EvSay i f => Ok (mkNet (nt_node n) (broadcast ids i [f (cd_muid (nd_device (nt_node n i)))] (nt_link n)))
  | EvArrive a b =>
      match nt_link n a b with
      | [] => Ok n
      | s :: r =>
          x <- node_receive dbg (choose b) (nt_node n b) s ;;
          Ok (mkNet (node_at (nt_node n) b (fst x)) (broadcast ids b (snd x) (link_at (nt_link n) a b r)))
      end
  end.
Fixpoint history (dbg : bool) (ids : list Z) (choose : Z -> nat -> Z) (n : net) (es : list event) : res net :=
  match es with
  | [] => Ok n
  | e :: r => n' <- happen dbg ids choose n e ;; history dbg ids choose n' r
  end.
Definition silent_net (dev : Z -> ci_device) : net := mkNet (fun i => mkNode (dev i) [] 0) (fun _ _ => []).
