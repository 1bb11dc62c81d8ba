(* MIDI-CI profiles: a device that has profiles, answers inquiries, obeys requests and reports changes, and a controller
   that follows it.  Both are users' programs composed of the modelled functions of capability_inquiry.h; they have no
   counterpart in /repo, where the constructors and views are inc/midi/capability_inquiry.h:1395-1595. *)
From Coq Require Import ZArith List Bool.
From Verif Require Import Base Sysex UniversalSysex CapInq.
Import ListNotations.
Local Open Scope Z_scope.
Local Open Scope res_scope.

(* a profile of a channel, group or function block (the device id of a message) and whether it is enabled *)
Record prof_entry := mkEntry { pe_dev : Z; pe_id : profile_id; pe_on : bool }.

Definition same_profile (p q : profile_id) : bool := profile_id_eq p q.
Definition at_key (dev : Z) (p : profile_id) (e : prof_entry) : bool := (pe_dev e =? dev) && same_profile (pe_id e) p.
(* None: there is no such profile *)
Definition status_of (l : list prof_entry) (dev : Z) (p : profile_id) : option bool := option_map pe_on (find (at_key dev p) l).
Definition drop_entry (dev : Z) (p : profile_id) (l : list prof_entry) : list prof_entry :=
  filter (fun e => negb (at_key dev p e)) l.
Definition put_entry (dev : Z) (p : profile_id) (on : bool) (l : list prof_entry) : list prof_entry :=
  mkEntry dev p on :: drop_entry dev p l.
Definition of_dev (dev : Z) (l : list prof_entry) : list prof_entry := filter (fun e => pe_dev e =? dev) l.
Definition listed (dev : Z) (on : bool) (l : list prof_entry) : list profile_id :=
  map pe_id (filter (fun e => eqb (pe_on e) on) (of_dev dev l)).

(* ---- the device ----------------------------------------------------------------------------- *)

(* what happens to a device: a message arrives, or it adds or removes a profile on its own *)
Inductive dev_input : Type :=
| InMessage (s : sysex)
| InAdd (dev : Z) (p : profile_id)
| InRemove (dev : Z) (p : profile_id).

(* a message addressed to [me] that is not its own: its source *)
Definition for_me (me : Z) (s : sysex) : res (option Z) :=
  ci <- is_capability_inquiry_message s ;;
  if negb ci then Ok None
  else
    src <- source_muid s ;;
    dst <- destination_muid s ;;
    Ok (if (src =? me) || negb ((dst =? me) || (dst =? broadcast_muid)) then None else Some src).

Definition serve_message (dbg : bool) (me : Z) (st : list prof_entry) (s : sysex) : res (list prof_entry * list sysex) :=
  f <- for_me me s ;;
  match f with
  | None => Ok (st, [])
  | Some src =>
      i <- as_view dbg profile_inquiry_validate s ;;
      match i with
      | Some v =>
          dev <- view_device_id v ;;
          r <- make_profile_inquiry_reply dbg me src (listed dev true st) (listed dev false st) dev ;;
          Ok (st, [r])
      | None =>
          a <- as_view dbg profile_destination_validate s ;;
          match a with
          | Some v =>
              t <- view_subtype v ;; p <- view_profile v ;; d <- view_destination v ;;
              match status_of st (pd_scope d) p with
              | None => Ok (st, [])
              | Some _ =>
                  if t =? 0x22 then
                    n <- make_profile_enabled_notification dbg me broadcast_muid p d ;; Ok (put_entry (pd_scope d) p true st, [n])
                  else if t =? 0x23 then
                    n <- make_profile_disabled_notification dbg me broadcast_muid p d ;; Ok (put_entry (pd_scope d) p false st, [n])
                  else Ok (st, [])
              end
          | None => Ok (st, [])
          end
      end
  end.

(* a reply has room for 16383 profiles *)
Definition serve (dbg : bool) (me : Z) (st : list prof_entry) (i : dev_input) : res (list prof_entry * list sysex) :=
  match i with
  | InMessage s => serve_message dbg me st s
  | InAdd dev p =>
      match status_of st dev p with
      | Some _ => Ok (st, [])
      | None =>
          if 16383 <=? size (of_dev dev st) then Ok (st, [])
          else n <- make_profile_added_notification dbg me broadcast_muid p dev ;; Ok (put_entry dev p false st, [n])
      end
  | InRemove dev p =>
      match status_of st dev p with
      | None => Ok (st, [])
      | Some _ => n <- make_profile_removed_notification dbg me broadcast_muid p dev ;; Ok (drop_entry dev p st, [n])
      end
  end.
Fixpoint serve_all (dbg : bool) (me : Z) (st : list prof_entry) (is : list dev_input) : res (list prof_entry * list sysex) :=
  match is with
  | [] => Ok (st, [])
  | i :: r => a <- serve dbg me st i ;; b <- serve_all dbg me (fst a) r ;; Ok (fst b, snd a ++ snd b)
  end.

(* ---- the controller --------------------------------------------------------------------------- *)

(* what [me] knows of the profiles of [device] after a message *)
Definition follow (dbg : bool) (me device : Z) (m : list prof_entry) (s : sysex) : res (list prof_entry) :=
  f <- for_me me s ;;
  match f with
  | None => Ok m
  | Some src =>
      if negb (src =? device) then Ok m
      else
        r <- as_view dbg profile_inquiry_reply_validate s ;;
        match r with
        | Some v =>
            dev <- view_device_id v ;;
            e <- enabled_profiles dbg v ;;
            d <- disabled_profiles dbg v ;;
            Ok (map (fun p => mkEntry dev p true) e ++ map (fun p => mkEntry dev p false) d ++
                filter (fun x => negb (pe_dev x =? dev)) m)
        | None =>
            a <- as_view dbg profile_id_validate s ;;
            match a with
            | Some v =>
                t <- view_subtype v ;; p <- view_profile v ;; dev <- view_device_id v ;;
                Ok (if t =? 0x24 then put_entry dev p true m
                    else if (t =? 0x25) || (t =? 0x26) then put_entry dev p false m
                    else if t =? 0x27 then drop_entry dev p m
                    else m)
            | None => Ok m
            end
        end
  end.
Fixpoint follow_all (dbg : bool) (me device : Z) (m : list prof_entry) (ss : list sysex) : res (list prof_entry) :=
  match ss with
  | [] => Ok m
  | s :: r => m' <- follow dbg me device m s ;; follow_all dbg me device m' r
  end.
