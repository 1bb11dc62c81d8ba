(* What is claimed of properties divided to fit *)
From Coq Require Import ZArith List Bool.
From Verif Require Import Base Sysex SysexSpec StreamSpec CapInq CapSpec JsonSpec Transfer.
Import ListNotations.
Local Open Scope Z_scope.

(* the bytes of a message with 0xF0 and 0xF7 *)
Definition whole_size (m : sysex) : Z := size ([0xF0] ++ id_bytes (sx_id m) ++ sx_data m ++ [0xF7]).
Definition respects (max : Z) (m : sysex) : Prop := whole_size m <= max.

(* arguments as documented and a body of 7-bit bytes, of any size *)
Definition arguments_ok (c : pe_common) (o : opening) (body : list Z) : Prop :=
  is_u28 (pc_src c) /\ is_u28 (pc_dst c) /\ is_u7 (pc_request c) /\ is_u7 (pc_device c) /\
  pe_proper (first_call o (mkChunk 1 1 None)) /\ all7 (pe_texts (first_call o (mkChunk 1 1 None))) /\ all7 body.

(* the bytes of the body that a message may carry when the header has n bytes *)
Definition body_room (max n : Z) : Z := Z.min 16383 (max - 24 - n).
