(* A sender of properties that keeps to the maximum message size the receiver has declared.  It is a user's program composed
   of the modelled functions of /repo and has no counterpart there; the constructors are
   inc/midi/capability_inquiry.h:1944-2380, the size is inc/midi/sysex.h: sysex::total_data_size. *)
From Coq Require Import ZArith List Bool.
From Verif Require Import Base Sysex UniversalSysex CapInq CapSpec JsonSpec Transfer.
Import ListNotations.
Local Open Scope Z_scope.
Local Open Scope res_scope.

(* pieces of n bytes, the last one may be smaller *)
Fixpoint cut (fuel n : nat) (l : list Z) : list (list Z) :=
  match fuel, l with
  | O, _ | _, [] => []
  | S f, _ => firstn n l :: cut f n (skipn n l)
  end.

(* The sender makes the first message without data to see how many bytes are left in a message of [max] bytes, of which
   0xF0 and 0xF7 are two.  None: the property cannot be divided. *)
Definition divide (dbg : bool) (max : Z) (c : pe_common) (o : opening) (body : list Z) : res (option (list sysex)) :=
  m <- pe_build dbg c (first_call o (mkChunk 1 1 (Some []))) ;;
  let room := Z.min 16383 (max - (total_data_size m + 2)) in
  if room <? 1 then Ok None
  else
    let ps := cut (length body) (Z.to_nat room) body in
    if 16383 <? size ps then Ok None
    else
      ms <- transfer_messages dbg (match ps with
                                   | [] => mkTransfer c o [] []
                                   | p :: r => mkTransfer c o p r
                                   end) ;;
      Ok (Some ms).
