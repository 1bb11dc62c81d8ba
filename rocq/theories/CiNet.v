(* Discovery among MIDI-CI devices: a device that asks who is there, answers those who ask, and remembers the others.  It
   is a user's program composed of the modelled functions of capability_inquiry.h; it has no counterpart in /repo, where
   the constructors and views are inc/midi/capability_inquiry.h:1012-1133 and 1330-1360.  The device looks at
   is_capability_inquiry_message() first because the discovery views read the version before they check the size (C53). *)
From Coq Require Import ZArith List Bool.
From Verif Require Import Base Sysex UniversalSysex CapInq.
Import ListNotations.
Local Open Scope Z_scope.
Local Open Scope res_scope.

Record ci_device := mkCiDevice {
  cd_muid : Z; cd_identity : device_identity; cd_categories : Z; cd_max_size : Z; cd_path : Z; cd_block : Z }.
(* what is known of another device *)
Record ci_peer := mkCiPeer { pr_muid : Z; pr_identity : device_identity; pr_categories : Z; pr_max_size : Z }.

Definition peer_of (d : ci_device) : ci_peer := mkCiPeer (cd_muid d) (cd_identity d) (cd_categories d) (cd_max_size d).
Definition forget (m : Z) (k : list ci_peer) : list ci_peer := filter (fun p => negb (pr_muid p =? m)) k.
Definition look_up (m : Z) (k : list ci_peer) : option ci_peer := find (fun p => pr_muid p =? m) k.

(* the messages a device sends on its own *)
Definition ask (dbg : bool) (d : ci_device) : res sysex :=
  make_discovery_inquiry dbg (cd_muid d) (cd_identity d) (cd_categories d) (cd_max_size d) (cd_path d).
Definition leave (dbg : bool) (d : ci_device) : res sysex := make_invalidate_muid_message dbg (cd_muid d) (cd_muid d).

(* what both discovery views tell *)
Definition read_peer (v : sysex) : res ci_peer :=
  m <- source_muid v ;; i <- discovery_identity v ;; c <- discovery_categories v ;; n <- discovery_maximum_message_size v ;;
  Ok (mkCiPeer m i c n).
Definition reply_to (dbg : bool) (d : ci_device) (asker : Z) : res sysex :=
  make_discovery_reply dbg (cd_muid d) asker (cd_identity d) (cd_categories d) (cd_max_size d) (cd_path d) (cd_block d).

(* one message: what the device knows then, and what it sends *)
Definition handle (dbg : bool) (d : ci_device) (k : list ci_peer) (s : sysex) : res (list ci_peer * list sysex) :=
  ci <- is_capability_inquiry_message s ;;
  if negb ci then Ok (k, [])
  else
    src <- source_muid s ;;
    dst <- destination_muid s ;;
    if src =? cd_muid d then Ok (k, [])
    else if negb ((dst =? cd_muid d) || (dst =? broadcast_muid)) then Ok (k, [])
    else
      i <- as_view dbg discovery_inquiry_validate s ;;
      match i with
      | Some v => p <- read_peer v ;; r <- reply_to dbg d src ;; Ok (p :: forget src k, [r])
      | None =>
          a <- as_view dbg discovery_reply_validate s ;;
          match a with
          | Some v => p <- read_peer v ;; Ok (p :: forget src k, [])
          | None =>
              x <- as_view dbg invalidate_muid_validate s ;;
              match x with
              | Some v => t <- target_muid v ;; Ok (forget t k, [])
              | None => Ok (k, [])
              end
          end
      end.
Fixpoint handle_all (dbg : bool) (d : ci_device) (k : list ci_peer) (ss : list sysex) : res (list ci_peer * list sysex) :=
  match ss with
  | [] => Ok (k, [])
  | s :: r =>
      a <- handle dbg d k s ;;
      b <- handle_all dbg d (fst a) r ;;
      Ok (fst b, snd a ++ snd b)
  end.
