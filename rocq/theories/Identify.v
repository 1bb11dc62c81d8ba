(* A host that finds out which devices are connected, and the devices that answer: users' programs around the identity request and
   reply of inc/midi/universal_sysex.h:248-329.  They have no counterpart in /repo. *)
From Coq Require Import ZArith List Bool.
From Verif Require Import Base Sysex UniversalSysex ByteStream.
Import ListNotations.
Local Open Scope Z_scope.
Local Open Scope res_scope.

Record device := mkDevice { dv_id : Z; dv_identity : device_identity }.

(* a device answers requests that are for it or for everyone *)
Definition answer (dbg : bool) (d : device) (e : event) : res (list sysex) :=
  match e with
  | EPacket _ => Ok []
  | ESysex s =>
      q <- is_identity_request s ;;
      if q then
        i <- universal_sysex_device_id_of s ;;
        if (i =? 0x7F) || (i =? dv_id d) then
          let n := dv_identity d in
          r <- identity_reply dbg (di_manufacturer n) (di_family n) (di_model n) (di_revision n) (dv_id d) ;;
          Ok [r]
        else Ok []
      else Ok []
  end.
(* the host notes device id and identity of each reply *)
Definition note_reply (dbg : bool) (e : event) : res (list (Z * device_identity)) :=
  match e with
  | EPacket _ => Ok []
  | ESysex s =>
      v <- as_identity_reply_view dbg s ;;
      match v with
      | None => Ok []
      | Some v => d <- view_device_id v ;; i <- reply_identity v ;; Ok [(d, i)]
      end
  end.
(* what a function returns for each of several events *)
Fixpoint for_each {A} (f : event -> res (list A)) (evs : list event) : res (list A) :=
  match evs with
  | [] => Ok []
  | e :: t => a <- f e ;; b <- for_each f t ;; Ok (a ++ b)
  end.
