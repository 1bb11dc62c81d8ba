(* What is expected of a SysEx that grows while memory may run out. *)
From Coq Require Import ZArith List Bool.
From Verif Require Import Base Sysex SysexSpec Growing.
Import ListNotations.
Local Open Scope Z_scope.

Definition valid_piece (p : piece) : Prop :=
  match p with
  | Uint7 v => is_u7 v
  | Data ds => ds <> []
  | Uint14 v => is_u14 v
  | Uint28 v => is_u28 v
  | Uint32 v => is_u32 v
  | Identity d =>
      (exists m0 m1 m2, is_u7 m0 /\ is_u7 m1 /\ is_u7 m2 /\ di_manufacturer d = m0 * 65536 + m1 * 256 + m2) /\
      is_u14 (di_family d) /\ is_u14 (di_model d) /\ is_u28 (di_revision d)
  end.
(* the bytes of a value, in portions that are appended completely or not at all *)
Definition portions (p : piece) : list (list Z) :=
  match p with
  | Uint7 v => [[v]]
  | Data ds => [ds]
  | Uint14 v => [le7 2 v]
  | Uint28 v => [le7 4 v]
  | Uint32 v => [le7 5 v]
  | Identity d =>
      [[di_manufacturer d / 65536]; [di_manufacturer d / 256 mod 256]; [di_manufacturer d mod 256];
       le7 2 (di_family d); le7 2 (di_model d); le7 4 (di_revision d)]
  end.
Definition bytes_of (p : piece) : list Z := concat (portions p).
Definition all_bytes (ps : list piece) : list Z := concat (map bytes_of ps).
(* values that have one portion *)
Definition single (p : piece) : Prop := match p with Identity _ => False | _ => True end.

(* the data of the object *)
Definition content (st : growing) : list Z := sx_data (gr_sysex st).
(* a vector's size is at most its capacity *)
Definition sound (st : growing) : Prop := size (content st) <= gr_capacity st.
