(* Model of inc/midi/universal_packet.h *)
From Coq Require Import ZArith List Bool.
From Verif Require Import Base.
Import ListNotations.
Local Open Scope Z_scope.
Local Open Scope res_scope.

(* universal_packet.h:322-324  struct universal_packet { uint32_t data[4]; }
   Each field is meant to hold a 32 bit unsigned value, see [wf_packet]. *)
Record packet : Set := mkP { w0 : Z; w1 : Z; w2 : Z; w3 : Z }.

(* universal_packet.h:324, the value range given by the C++ type of data[]. *)
Definition wf_packet (p : packet) : Prop :=
  is_u32 (w0 p) /\ is_u32 (w1 p) /\ is_u32 (w2 p) /\ is_u32 (w3 p).

(* universal_packet.h:355-374  constructors; missing words are 0 *)
Definition packet0 : packet := mkP 0 0 0 0.
Definition packet1 (a : Z) : packet := mkP a 0 0 0.
Definition packet2 (a b : Z) : packet := mkP a b 0 0.

(* universal_packet.h:439, data[i] for i < 4 (callers below check or establish the bound) *)
Definition word (p : packet) (i : nat) : res Z :=
  match i with
  | 0%nat => Ok (w0 p) | 1%nat => Ok (w1 p) | 2%nat => Ok (w2 p) | 3%nat => Ok (w3 p)
  | _ => Fault OutOfBounds
  end.

(* universal_packet.h:449, data[i] = v *)
Definition set_word (p : packet) (i : nat) (v : Z) : packet :=
  match i with
  | 0%nat => mkP v (w1 p) (w2 p) (w3 p)
  | 1%nat => mkP (w0 p) v (w2 p) (w3 p)
  | 2%nat => mkP (w0 p) (w1 p) v (w3 p)
  | 3%nat => mkP (w0 p) (w1 p) (w2 p) v
  | _ => p
  end.

(* universal_packet.h:38-49  enum class packet_type *)
Definition pt_utility : Z := 0x0.
Definition pt_system : Z := 0x1.
Definition pt_midi1_channel_voice : Z := 0x2.
Definition pt_data : Z := 0x3.
Definition pt_midi2_channel_voice : Z := 0x4.
Definition pt_extended_data : Z := 0x5.
Definition pt_flex_data : Z := 0xD.
Definition pt_stream : Z := 0xF.

(* universal_packet.h:54-59  enum class packet_format *)
Definition pf_complete : Z := 0.
Definition pf_start : Z := 1.
Definition pf_cont : Z := 2.
Definition pf_end : Z := 3.

(* universal_packet.h:326 *)
Definition type (p : packet) : Z := Z.land (Z.shiftr (w0 p) 28) 0x0F.
(* universal_packet.h:329 *)
Definition group (p : packet) : Z := Z.land (Z.shiftr (w0 p) 24) 0x0F.
(* universal_packet.h:332-334 *)
Definition byte2 (p : packet) : Z := Z.land (Z.shiftr (w0 p) 16) 0xFF.
Definition byte3 (p : packet) : Z := Z.land (Z.shiftr (w0 p) 8) 0xFF.
Definition byte4 (p : packet) : Z := Z.land (w0 p) 0xFF.
(* universal_packet.h:330 *)
Definition status (p : packet) : Z := byte2 p.

(* universal_packet.h:403-409; [t] is the enumerator value.  Includes the assertion. *)
Definition set_type (p : packet) (t : Z) : res packet :=
  assert_ (t <? 16) ;;;
  Ok (mkP (Z.lor (Z.land (w0 p) 0x0FFFFFFF) (u32 (Z.shiftl t 28))) (w1 p) (w2 p) (w3 p)).

(* universal_packet.h:413-418, release build: the assertion is compiled out.
   c << 24 is an int that is converted to uint32_t by the |. *)
Definition set_group_nd (p : packet) (c : Z) : packet :=
  mkP (Z.lor (Z.land (w0 p) 0xF0FFFFFF) (u32 (Z.shiftl c 24))) (w1 p) (w2 p) (w3 p).
(* universal_packet.h:413-418 with its assertion *)
Definition set_group (p : packet) (c : Z) : res packet :=
  assert_ (c <? 16) ;;; Ok (set_group_nd p c).

(* universal_packet.h:422-427; the lookup index is a 4 bit value *)
Definition size_lookup : list nat := [1; 1; 1; 2; 2; 4; 1; 1; 2; 2; 2; 3; 3; 4; 4; 4]%nat.
Definition psize (p : packet) : nat := nth (Z.to_nat (type p)) size_lookup 0%nat.

(* universal_packet.h:431-440.  In release builds an index >= 16 reads outside of
   data[], hence a fault in either build. *)
Definition get_byte (p : packet) (b : nat) : res Z :=
  assert_ (b <? 16)%nat ;;;
  w <- word p (b / 4)%nat ;;
  Ok (Z.land (Z.shiftr w (Z.of_nat ((3 - b mod 4) * 8)%nat)) 0xFF).

(* universal_packet.h:337 *)
Definition get_byte_7bit (p : packet) (b : nat) : res Z :=
  v <- get_byte p b ;; Ok (Z.land v 0x7F).

(* universal_packet.h:450-464  the switch *)
Definition put_byte (w : Z) (byte : nat) (v : Z) : Z :=
  match byte with
  | 0%nat => Z.lor (Z.land w 0x00FFFFFF) (u32 (Z.shiftl v 24))
  | 1%nat => Z.lor (Z.land w 0xFF00FFFF) (u32 (Z.shiftl v 16))
  | 2%nat => Z.lor (Z.land w 0xFFFF00FF) (u32 (Z.shiftl v 8))
  | 3%nat => Z.lor (Z.land w 0xFFFFFF00) v
  | _ => w
  end.

(* universal_packet.h:444-466 without the assertion (release build) *)
Definition set_byte_nd (p : packet) (b : nat) (v : Z) : packet :=
  if (b <? 16)%nat then
    match word p (b / 4)%nat with
    | Ok w => set_word p (b / 4)%nat (put_byte w (b mod 4)%nat v)
    | Fault _ => p
    end
  else p.

(* universal_packet.h:444-466 with the assertion *)
Definition set_byte (p : packet) (b : nat) (v : Z) : res packet :=
  assert_ (b <? 16)%nat ;;; Ok (set_byte_nd p b v).

(* universal_packet.h:353 *)
Definition set_byte_7bit (p : packet) (b : nat) (v : Z) : res packet :=
  set_byte p b (Z.land v 0x7F).

(* universal_packet.h:339-343 *)
Definition has_channel (p : packet) : bool :=
  (type p =? pt_midi1_channel_voice) || (type p =? pt_midi2_channel_voice) ||
  (type p =? pt_flex_data).
(* universal_packet.h:344-348 *)
Definition channel (p : packet) : res Z :=
  assert_ (has_channel p) ;;; Ok (Z.land (byte2 p) 0x0F).

(* universal_packet.h:470-483; comparing a packet with itself short-cuts to true,
   which is what the loop returns as well, so the address test is dropped. *)
Fixpoint eq_words (n i : nat) (p q : packet) : res bool :=
  match n with
  | O => Ok true
  | S m =>
      a <- word p i ;;
      b <- word q i ;;
      if negb (a =? b) then Ok false else eq_words m (S i) p q
  end.
Definition packet_eq (p q : packet) : res bool := eq_words (psize p) 0 p q.
(* universal_packet.h:383 *)
Definition packet_neq (p q : packet) : res bool := b <- packet_eq p q ;; Ok (negb b).

(* universal_packet.h:487-491 *)
Definition reset (_ : packet) : packet := packet0.

(* universal_packet.h:387-396 *)
Definition is_utility_message (p : packet) : bool := type p =? pt_utility.
Definition is_system_message (p : packet) : bool := type p =? pt_system.
Definition is_channel_voice_message (p : packet) : bool :=
  (type p =? pt_midi1_channel_voice) || (type p =? pt_midi2_channel_voice).
Definition is_data_message (p : packet) : bool :=
  (type p =? pt_data) || (type p =? pt_extended_data).

(* universal_packet.h:495-523 *)
Definition is_midi1_protocol_message (p : packet) : bool :=
  if type p =? pt_system then
    existsb (Z.eqb (status p))
      [0xF1; 0xF2; 0xF3; 0xF6; 0xF8; 0xFA; 0xFB; 0xFC; 0xFE; 0xFF]
  else if type p =? pt_midi1_channel_voice then
    (0x80 <=? status p) && (status p <? 0xF0)
  else false.
