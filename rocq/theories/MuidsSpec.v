(* What is claimed of devices that chose the same MUID *)
From Coq Require Import ZArith List Bool.
From Verif Require Import Base Sysex SysexSpec CiNet CiNetSpec Muids.
Import ListNotations.
Local Open Scope Z_scope.

(* the bytes of a MIDI-CI message *)
Definition ci_message (s : sysex) : bool := (sx_id s =? 0x7E0000) && (12 <=? size (sx_data s)) && (nth 1 (sx_data s) 0 =? 0x0D).
(* anything a device with MUID m may send besides discovery: other MIDI-CI messages from m, and all that are none *)
Definition other_message (m : Z) (s : sysex) : Prop :=
  all7 (sx_data s) /\ (ci_message s = true -> muid_at 4 s = m /\ ~ In (nth 2 (sx_data s) 0) [0x70; 0x71; 0x7E]).
Definition event_ok (ids : list Z) (e : event) : Prop :=
  match e with EvAsk i => In i ids | EvSay i f => In i ids /\ (forall m, 0 <= m < 0x0FFFFFFF -> other_message m (f m)) | EvArrive a b => In a ids /\ In b ids /\ a <> b end.

(* all MUIDs are possible ones *)
Definition choices_ok (dev : Z -> ci_device) (choose : Z -> nat -> Z) : Prop :=
  (forall i, device_ok (dev i)) /\ forall i n, 0 <= choose i n < 0x0FFFFFFF.
(* what a device chooses when it has to choose again is chosen by nobody else *)
Definition fresh (ids : list Z) (dev : Z -> ci_device) (choose : Z -> nat -> Z) : Prop :=
  (forall i j, In i ids -> In j ids -> choose i O <> cd_muid (dev j)) /\
  (forall i j, In i ids -> In j ids -> choose i O = choose j O -> i = j).

(* no messages on the way *)
Definition settled (ids : list Z) (n : net) : Prop := forall a b, In a ids -> In b ids -> a <> b -> nt_link n a b = [].
Definition muid_of (n : net) (i : Z) : Z := cd_muid (nd_device (nt_node n i)).
Definition knows (n : net) (i m : Z) : option ci_peer := look_up m (nd_known (nt_node n i)).
(* apart from the MUID a device is what it was *)
Definition same_but_muid (d d' : ci_device) : Prop := d' = with_muid d (cd_muid d').

(* messages arrive, nothing else happens *)
Fixpoint delivers (dbg : bool) (ids : list Z) (choose : Z -> nat -> Z) (n : net) (es : list event) : Prop :=
  match es with
  | [] => True
  | EvArrive a b :: r => nt_link n a b <> [] /\ exists n', happen dbg ids choose n (EvArrive a b) = Ok n' /\ delivers dbg ids choose n' r
  | _ :: _ => False
  end.
