(* Specification vocabulary for flex data messages. *)
From Coq Require Import ZArith List Bool.
From Verif Require Import Base Packet PacketSpec Sysex Endpoint EndpointSpec Flex.
Import ListNotations.
Local Open Scope Z_scope.
Local Open Scope res_scope.

(* the header common to all flex data messages *)
Record flex_head := mkHead { fh_group : Z; fh_format : Z; fh_address : Z; fh_channel : Z; fh_bank : Z; fh_status : Z }.

Inductive flex_call : Type :=
| FMessage (h : flex_head) (d1 d2 d3 : Z)
| FText (h : flex_head) (text : list Z)
| FTempo (group tempo : Z)
| FTimeSignature (group numerator denominator notes : Z)
| FMetronome (group clocks accent1 accent2 accent3 sub1 sub2 : Z)
| FKeySignature (group address channel sharps tonic : Z)
| FChord (group address channel d1 d2 d3 : Z).

Definition flex_make (dbg : bool) (c : flex_call) : res packet :=
  match c with
  | FMessage (mkHead g f a ch b s) d1 d2 d3 => make_flex_data_message dbg g f a ch b s d1 d2 d3
  | FText (mkHead g f a ch b s) t => make_flex_data_text_message dbg g f a ch b s t
  | FTempo g t => make_set_tempo_message dbg g t
  | FTimeSignature g n d k => make_set_time_signature_message dbg g n d k
  | FMetronome g c a1 a2 a3 s1 s2 => make_set_metronome_message dbg g c a1 a2 a3 s1 s2
  | FKeySignature g a ch s t => make_set_key_signature_message dbg g a ch s t
  | FChord g a ch d1 d2 d3 => make_set_chord_message dbg g a ch d1 d2 d3
  end.

(* the header of each message and its data: whole words or bytes *)
Definition flex_head_of (c : flex_call) : flex_head :=
  match c with
  | FMessage h _ _ _ => h
  | FText h _ => h
  | FTempo g _ => mkHead g 0 1 0 0 0
  | FTimeSignature g _ _ _ => mkHead g 0 1 0 0 1
  | FMetronome g _ _ _ _ _ _ => mkHead g 0 1 0 0 2
  | FKeySignature g a ch _ _ => mkHead g 0 a ch 0 5
  | FChord g a ch _ _ _ => mkHead g 0 a ch 0 6
  end.
Definition word_of (w : Z) : list Z := [word_byte 0 w; word_byte 1 w; word_byte 2 w; word_byte 3 w].
Definition flex_data_of (c : flex_call) : list Z :=
  match c with
  | FMessage _ d1 d2 d3 => word_of d1 ++ word_of d2 ++ word_of d3
  | FText _ t => firstn 12 t
  | FTempo _ t => word_of t
  | FTimeSignature _ n d k => [n; d; k]
  | FMetronome _ c a1 a2 a3 s1 s2 => [c; a1; a2; a3; s1; s2]
  | FKeySignature _ _ _ s t => [16 * (s mod 16) + t mod 16]
  | FChord _ _ _ d1 d2 d3 => word_of d1 ++ word_of d2 ++ word_of d3
  end.
Definition head_bytes (h : flex_head) : list Z :=
  [13 * 16 + fh_group h mod 16; 64 * fh_format h + 16 * fh_address h + fh_channel h mod 16; fh_bank h; fh_status h].
Definition flex_wire (c : flex_call) : packet := packet_of_bytes (head_bytes (flex_head_of c) ++ flex_data_of c).

(* what the C++ types admit; format and address are enumerations of two bits *)
Definition head_typed (h : flex_head) : Prop :=
  is_u8 (fh_group h) /\ 0 <= fh_format h < 4 /\ 0 <= fh_address h < 4 /\ is_u8 (fh_channel h) /\
  is_u8 (fh_bank h) /\ is_u8 (fh_status h).
Definition flex_typed (c : flex_call) : Prop :=
  head_typed (flex_head_of c) /\
  match c with
  | FMessage _ d1 d2 d3 => is_u32 d1 /\ is_u32 d2 /\ is_u32 d3
  | FText _ t => Forall is_u8 t
  | FTempo _ t => is_u32 t
  | FTimeSignature _ n d k => is_u8 n /\ is_u8 d /\ is_u8 k
  | FMetronome _ c a1 a2 a3 s1 s2 => is_u8 c /\ is_u8 a1 /\ is_u8 a2 /\ is_u8 a3 /\ is_u8 s1 /\ is_u8 s2
  | FKeySignature _ _ _ s t => is_u8 s /\ is_u8 t
  | FChord _ _ _ d1 d2 d3 => is_u32 d1 /\ is_u32 d2 /\ is_u32 d3
  end.

(* what builds with assertions insist on: a channel, and none unless the address is a channel;
   texts of up to 12 characters, and exactly 12 if more follow *)
Definition flex_checked (c : flex_call) : Prop :=
  let h := flex_head_of c in
  fh_channel h <= 15 /\ (fh_address h = 0 \/ fh_channel h = 0) /\
  match c with
  | FText h t => size t <= 12 /\ (fh_format h = 0 \/ fh_format h = 3 \/ size t = 12)
  | _ => True
  end.

(* ---- reading --------------------------------------------------------------------------------- *)

Record flex_report := mkFlexReport {
  fr_head : flex_head; fr_data1 : Z; fr_data2 : Z; fr_data3 : Z; fr_text : list Z }.
Definition flex_read (p : packet) : res flex_report :=
  t <- flex_payload_as_string p ;;
  Ok (mkFlexReport (mkHead (group p) (flex_format p) (flex_address p) (flex_channel p) (flex_status_bank p) (flex_status p))
        (flex_data1 p) (flex_data2 p) (flex_data3 p) t).
Definition head_meaning (l : list Z) : flex_head :=
  let b i := nth i l 0 in
  mkHead (b 0%nat mod 16) (b 1%nat / 64 mod 4) (b 1%nat / 16 mod 4) (b 1%nat mod 16) (b 2%nat) (b 3%nat).
Definition flex_meaning (l : list Z) : flex_report :=
  let b i := nth i l 0 in
  mkFlexReport (head_meaning l)
    (be32 (b 4) (b 5) (b 6) (b 7))%nat (be32 (b 8) (b 9) (b 10) (b 11))%nat (be32 (b 12) (b 13) (b 14) (b 15))%nat
    (until_zero (skipn 4 l)).

(* arguments in range *)
Definition head_in_range (h : flex_head) : Prop :=
  0 <= fh_group h < 16 /\ 0 <= fh_format h < 4 /\ 0 <= fh_channel h < 16 /\
  (fh_address h = 0 \/ (fh_address h = 1 /\ fh_channel h = 0)) /\ is_u8 (fh_bank h) /\ is_u8 (fh_status h).

(* the data words of messages that consist of words *)
Definition flex_words_of (c : flex_call) : option (Z * Z * Z) :=
  match c with
  | FMessage _ d1 d2 d3 => Some (d1, d2, d3)
  | FTempo _ t => Some (t, 0, 0)
  | FChord _ _ _ d1 d2 d3 => Some (d1, d2, d3)
  | _ => None
  end.
(* characters a flex data text can carry *)
Definition is_char8 (c : Z) : Prop := 1 <= c <= 255.
