(* What is expected when devices are asked who they are. *)
From Coq Require Import ZArith List Bool.
From Verif Require Import Base Sysex SysexSpec ByteStream StreamSpec SessionSpec Identify.
Import ListNotations.
Local Open Scope Z_scope.

Definition device_ok (d : device) : Prop :=
  is_u7 (dv_id d) /\ valid_id (di_manufacturer (dv_identity d)) /\ is_u14 (di_family (dv_identity d)) /\
  is_u14 (di_model (dv_identity d)) /\ is_u28 (di_revision (dv_identity d)).

(* a request for this device or for everyone, by the bytes *)
Definition asked (d : device) (m : midi_message) : bool :=
  match m with
  | SysExBytes (a :: x :: b :: c :: _) => (a =? 0x7E) && (b =? 6) && (c =? 1) && ((x =? 127) || (x =? dv_id d))
  | _ => false
  end.
(* its reply *)
Definition presents (d : device) : midi_message :=
  let i := dv_identity d in
  SysExBytes ([0x7E; dv_id d; 6; 2] ++ id_bytes (di_manufacturer i) ++ le7 2 (di_family i) ++ le7 2 (di_model i) ++ le7 4 (di_revision i)).
(* messages that have the shape of replies *)
Definition reply_shape (m : midi_message) : bool :=
  match m with
  | SysExBytes (a :: _ :: b :: c :: e :: rest) =>
      (a =? 0x7E) && (b =? 6) && (c =? 2) && (negb (e =? 0) && (length rest =? 8)%nat || (length rest =? 10)%nat)
  | _ => false
  end.

(* a SysEx on the wire *)
Definition wire (s : sysex) : midi_message := SysExBytes (id_bytes (sx_id s) ++ sx_data s).
