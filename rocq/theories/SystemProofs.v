(* Proofs about system and utility messages. *)
From Coq Require Import ZArith List Bool Lia.
From Verif Require Import Base Bits Packet PacketSpec PacketProofs PacketBytes Messages Utility VoiceProofs VoiceTranslate.
Import ListNotations.
Local Open Scope Z_scope.
Local Open Scope res_scope.

Lemma system_layout g st d1 d2 : is_u8 g -> is_u8 st -> is_u8 d1 -> is_u8 d2 ->
  make_system_message g st d1 d2 = mkP (be32 (16 + g mod 16) st d1 d2) 0 0 0.
Proof.
  unfold is_u8. intros. unfold make_system_message, packet1, be32. f_equal.
  bitnorm. bitlia.
Qed.

Lemma system_view_ok g st d1 d2 : is_u8 g -> is_u8 st -> is_u7 d1 -> is_u7 d2 ->
  let p := make_system_message g st d1 d2 in
  as_system_message_view p = Some p /\ group p = g mod 16 /\ status p = st /\
  system_data_byte_1 p = d1 /\ system_data_byte_2 p = d2.
Proof.
  intros Hg Hs H1 H2 p. unfold p. rewrite system_layout by (unfold is_u7, is_u8 in *; lia).
  set (q := mkP _ 0 0 0).
  assert (G : 0 <= g mod 16 < 16) by (apply Z.mod_pos_bound; lia).
  assert (A : is_u8 (16 + g mod 16)) by (unfold is_u8; lia).
  pose proof (u7_u8 _ H1) as U1. pose proof (u7_u8 _ H2) as U2.
  assert (E : w0 q = be32 (16 + g mod 16) st d1 d2) by reflexivity.
  unfold as_system_message_view, system_data_byte_1, system_data_byte_2.
  rewrite (f_type _ _ _ _ _ E), (f_group _ _ _ _ _ E), (f_status _ _ _ _ _ E),
    (f_byte3 _ _ _ _ _ E), (f_byte4 _ _ _ _ _ E) by assumption.
  rewrite !land127 by assumption.
  replace ((16 + g mod 16) / 16) with 1 by dlia.
  replace ((16 + g mod 16) mod 16) with (g mod 16) by dlia.
  repeat split.
Qed.

Lemma song_position_ok g pos : is_u8 g -> is_u14 pos ->
  let p := make_song_position_message g pos in
  as_system_message_view p = Some p /\ group p = g mod 16 /\ status p = 0xF2 /\
  byte3 p = pos mod 128 /\ byte4 p = pos / 128 /\ get_song_position p = pos.
Proof.
  intros Hg Hp p. unfold is_u14 in Hp.
  assert (A : u8 (Z.land pos 127) = pos mod 128) by (unfold u8; bitlia).
  assert (B : u8 (Z.land (Z.shiftr pos 7) 127) = pos / 128) by (unfold u8; bitlia).
  assert (E : p = make_system_message g 0xF2 (pos mod 128) (pos / 128)).
  { unfold p, make_song_position_message. now rewrite A, B. }
  assert (HA : is_u7 (pos mod 128)) by (unfold is_u7; dlia).
  assert (HB : is_u7 (pos / 128)) by (unfold is_u7; dlia).
  destruct (system_view_ok g 0xF2 (pos mod 128) (pos / 128)) as (V & G & S & D1 & D2);
    [assumption|unfold is_u8; lia|assumption|assumption|].
  rewrite <- E in *.
  assert (W : w0 p = be32 (16 + g mod 16) 0xF2 (pos mod 128) (pos / 128)).
  { rewrite E, system_layout; [reflexivity|assumption|unfold is_u8; lia|now apply u7_u8..]. }
  assert (U : is_u8 (16 + g mod 16)) by (unfold is_u8; dlia).
  assert (U2 : is_u8 0xF2) by (unfold is_u8; lia).
  pose proof (u7_u8 _ HA). pose proof (u7_u8 _ HB).
  repeat split; try assumption.
  - now rewrite (f_byte3 _ _ _ _ _ W) by assumption.
  - now rewrite (f_byte4 _ _ _ _ _ W) by assumption.
  - unfold get_song_position. rewrite S, D1, D2. cbn [Z.eqb Pos.eqb].
    pose proof (join14 pos Hp) as J. unfold u16 in J. rewrite Z.mod_small in J; [assumption|].
    rewrite shiftl_mul by lia. pow2_simpl. pose proof (lor_bound 14 (pos mod 128) (pos / 128 * 128)).
    pow2_simpl. change (2 ^ 14) with 16384 in *. dlia.
Qed.

Lemma song_position_other p : status p <> 0xF2 -> get_song_position p = 0.
Proof. intros H. unfold get_song_position. now apply Z.eqb_neq in H as ->. Qed.

(* ---- utility messages ---------------------------------------------------------- *)

Lemma utility_layout st v : is_u8 st -> is_u16 v ->
  make_utility_message st v = mkP (be32 0 st (v / 256) (v mod 256)) 0 0 0.
Proof.
  unfold is_u8, is_u16. intros. unfold make_utility_message, packet1, be32, u32. f_equal. bitlia.
Qed.

Lemma utility_fields p st v : is_u8 st -> is_u16 v -> w0 p = be32 0 st (v / 256) (v mod 256) ->
  type p = 0 /\ group p = 0 /\ status p = st /\ utility_view p = Ok p /\ utility_payload p = v /\
  jr_get_timestamp p = Ok v.
Proof.
  intros Hs Hv E. unfold is_u16 in Hv.
  assert (Z0 : is_u8 0) by (unfold is_u8; lia).
  assert (A : is_u8 (v / 256)) by (unfold is_u8; dlia).
  assert (B : is_u8 (v mod 256)) by (unfold is_u8; dlia).
  assert (J : Z.lor (u16 (Z.shiftl (v / 256) 8)) (v mod 256) = v) by (unfold u16; bitlia).
  unfold utility_view, utility_payload, jr_get_timestamp.
  rewrite (f_type _ _ _ _ _ E), (f_group _ _ _ _ _ E), (f_status _ _ _ _ _ E),
    (f_byte3 _ _ _ _ _ E), (f_byte4 _ _ _ _ _ E) by assumption.
  repeat split; [assumption|].
  change (get_byte p 2) with (Ok (byte3 p)). change (get_byte p 3) with (Ok (byte4 p)).
  rewrite (f_byte3 _ _ _ _ _ E), (f_byte4 _ _ _ _ _ E) by assumption.
  cbn [bind]. now rewrite J.
Qed.

Lemma utility_ok st v : is_u8 st -> is_u16 v ->
  let p := make_utility_message st v in
  utility_view p = Ok p /\ type p = 0 /\ group p = 0 /\ status p = st /\ utility_payload p = v.
Proof.
  intros Hs Hv p. unfold p. rewrite utility_layout by assumption.
  destruct (utility_fields (mkP (be32 0 st (v / 256) (v mod 256)) 0 0 0) st v Hs Hv eq_refl)
    as (T & G & S & V & P & _). repeat split; assumption.
Qed.

Lemma jr_message_layout st v : is_u8 st -> is_u16 v ->
  jr_message st v = Ok (mkP (be32 0 st (v / 256) (v mod 256)) 0 0 0).
Proof.
  intros Hs Hv. unfold jr_message.
  change (set_type packet0 pt_utility) with (Ok packet0). cbn [bind].
  rewrite set_byte_ok by lia. cbn [bind]. unfold jr_set_timestamp.
  rewrite set_byte_ok by lia. cbn [bind]. rewrite set_byte_ok by lia. f_equal.
  unfold is_u16 in Hv.
  assert (A : u8 (Z.shiftr v 8) = v / 256) by (unfold u8; bitlia).
  assert (B : u8 (Z.land v 255) = v mod 256) by (unfold u8; bitlia).
  rewrite A, B.
  assert (HA : is_u8 (v / 256)) by (unfold is_u8; dlia).
  assert (HB : is_u8 (v mod 256)) by (unfold is_u8; dlia).
  assert (W0 : wf_packet packet0) by (unfold wf_packet, is_u32; cbn; lia).
  destruct (set_byte_nd_spec packet0 1 st W0 Hs ltac:(lia)) as [B1 W1].
  destruct (set_byte_nd_spec _ 2 (v / 256) W1 HA ltac:(lia)) as [B2 W2].
  destruct (set_byte_nd_spec _ 3 (v mod 256) W2 HB ltac:(lia)) as [B3 W3].
  apply bytes_inj; [assumption| |].
  - unfold wf_packet, is_u32, be32, is_u8 in *; cbn [w0 w1 w2 w3]. lia.
  - rewrite B3, B2, B1. unfold is_u8 in *. 
    transitivity ([0; st; v / 256; v mod 256] ++ repeat 0 12); [reflexivity|].
    unfold bytes. cbn [w0 w1 w2 w3]. destruct (word_bytes_be32 0 st (v / 256) (v mod 256)) as [-> _]; [unfold is_u8; lia..|]. reflexivity.
Qed.

Lemma jr_messages_ok ts : is_u16 ts ->
  jr_clock_message ts = Ok (make_utility_message 0x10 ts) /\
  jr_timestamp_message ts = Ok (make_utility_message 0x20 ts) /\
  jr_get_timestamp (make_utility_message 0x10 ts) = Ok ts /\
  jr_get_timestamp (make_utility_message 0x20 ts) = Ok ts.
Proof.
  intros H. assert (A : is_u8 0x10) by (unfold is_u8; lia). assert (B : is_u8 0x20) by (unfold is_u8; lia).
  unfold jr_clock_message, jr_timestamp_message, us_jr_clock, us_jr_timestamp.
  rewrite !jr_message_layout, !utility_layout by assumption.
  repeat split; (eapply utility_fields; [|eassumption|reflexivity]; assumption).
Qed.
