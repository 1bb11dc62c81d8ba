(* C73: what a SysEx says about itself. *)
From Coq Require Import ZArith List Bool Lia.
From Verif Require Import Base Packet Sysex Collector StreamSpec CollectSpec QueryProofs.
Import ListNotations.
Local Open Scope Z_scope.

(* == and != decide equality of manufacturer id and data; empty() is equality with a default
   constructed or cleared message *)
Theorem C73_equality : forall a b,
  (sysex_eq a b = true <-> sx_id a = sx_id b /\ sx_data a = sx_data b) /\ sysex_neq a b = negb (sysex_eq a b) /\
  (sysex_empty a = true <-> sx_id a = 0 /\ sx_data a = []) /\
  sysex_empty a = sysex_eq a sysex_empty_value.
Proof.
  intros [i d] [j e]. split; [|split; [|split]].
  - rewrite sysex_eq_iff. cbn. split; [now intros [= -> ->]|intros [-> ->]; reflexivity].
  - unfold sysex_neq, sysex_eq. now rewrite negb_andb.
  - rewrite sysex_empty_iff. cbn. split; [now intros [= -> ->]|intros [-> ->]; reflexivity].
  - apply eq_true_iff_eq. now rewrite sysex_empty_iff, sysex_eq_iff.
Qed.
Print Assumptions C73_equality.
Example C73_equality_ex : sysex_eq (mkSx 0x7D0000 [1; 2]) (mkSx 0x7D0000 [1; 2]) = true /\
  sysex_neq (mkSx 0x7D0000 [1; 2]) (mkSx 0x7D0000 [1; 2; 0]) = true /\ sysex_empty (mkSx 0 [0]) = false /\
  sysex_empty (mkSx 1 []) = false /\ sysex_empty (mkSx 0 []) = true.
Proof. now repeat split. Qed.

(* is_7bit(), is_8bit() and is_valid() for any bytes and any 32 bit manufacturer id *)
Theorem C73_seven_bits : forall s, is_u32 (sx_id s) -> Forall is_u8 (sx_data s) ->
  (is_7bit s = true <-> Forall is_u7 (sx_data s)) /\
  (is_8bit s = true <-> Exists (fun b => 128 <= b) (sx_data s)) /\
  (sysex7_is_valid s = true <->
     Forall is_u7 (sx_data s) /\
     exists a b c, is_u7 a /\ is_u7 b /\ is_u7 c /\ sx_id s = a * 65536 + b * 256 + c).
Proof.
  intros s I U. split; [now apply is_7bit_iff|]. split.
  - rewrite is_8bit_neg, negb_true_iff, <- not_true_iff_false, is_7bit_iff by assumption.
    rewrite <- Exists_Forall_neg by (intros x; unfold is_u7; lia). rewrite Forall_forall in U. rewrite !Exists_exists.
    split; intros (x & X & P); exists x; specialize (U x X); unfold is_u7, is_u8 in *; split; trivial; lia.
  - unfold sysex7_is_valid. rewrite andb_true_iff, Z.eqb_eq, is_7bit_iff, manu_mask_iff by assumption. tauto.
Qed.
Print Assumptions C73_seven_bits.
Example C73_seven_bits_ex : is_7bit (mkSx 0x7D0000 [0; 127]) = true /\ is_8bit (mkSx 0x7D0000 [0; 128; 1]) = true /\
  sysex7_is_valid (mkSx 0x002109 [1]) = true /\ sysex7_is_valid (mkSx 0x002189 [1]) = false /\
  sysex7_is_valid (mkSx 0x7D0000 [0xF7]) = false.
Proof. now repeat split. Qed.

(* total_data_size() is the number of bytes between 0xF0 and 0xF7, and determines the number
   of SysEx7 packets *)
Theorem C73_total_size : forall id d g, valid_id id -> id <> 0 -> Forall is_u8 d -> 0 <= g < 16 ->
  total_data_size (mkSx id d) = size (id_bytes id ++ d) /\
  exists ps, send_sysex7 (mkSx id d) g = Ok ps /\
    size (concat (map ct_payload (contents content7 ps))) = total_data_size (mkSx id d) /\
    6 * (size ps - 1) < total_data_size (mkSx id d) <= 6 * size ps.
Proof.
  intros id d g V NZ D G. split; [|now apply total_sent7].
  rewrite SendProofs.total_valid by assumption. unfold size. rewrite app_length. lia.
Qed.
Print Assumptions C73_total_size.
Example C73_total_size_ex : valid_id 0x002109 /\ total_data_size (mkSx 0x002109 [1; 2; 3; 4]) = 7 /\
  valid_id 0x420000 /\ total_data_size (mkSx 0x420000 [1; 2; 3; 4]) = 5.
Proof.
  split; [right; exists 0x21, 0x09; unfold is_u7; lia|]. split; [reflexivity|].
  split; [left; exists 0x42; lia|reflexivity].
Qed.

(* It is never the number of bytes a SysEx8 message has: these ids always have two bytes. *)
Theorem C73_total_size8_refuted : forall id d i g, valid_id id -> Forall is_u8 d -> is_u8 i -> 0 <= g < 16 ->
  exists ps, send_sysex8 (mkSx id d) i g = Ok ps /\
    size (concat (map ct_payload (contents content8 ps))) = size d + 2 /\
    size (concat (map ct_payload (contents content8 ps))) <> total_data_size (mkSx id d).
Proof. exact total_sent8. Qed.
Print Assumptions C73_total_size8_refuted.
