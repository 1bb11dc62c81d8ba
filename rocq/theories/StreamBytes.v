(* Serialising single packets (C20) *)
From Coq Require Import ZArith List Bool Lia ZifyBool ZifyNat.
From Verif Require Import Base Bits Packet PacketSpec PacketProofs PacketBytes
  Messages Sysex ByteStream StreamSpec StreamProofs StreamLemmas StreamCalls.
Import ListNotations.
Local Open Scope Z_scope.
Local Open Scope res_scope.

Lemma get_bytes_spec p n : forall i, (i + n <= 16)%nat ->
  get_bytes p i n = Ok (firstn n (skipn i (bytes p))).
Proof.
  assert (L : length (bytes p) = 16%nat) by reflexivity.
  induction n as [|n IH]; intros i H; cbn [get_bytes]; [reflexivity|].
  rewrite get_byte_spec by lia. cbn [bind]. rewrite IH by lia. cbn [bind].
  assert (E : skipn i (bytes p) = nth i (bytes p) 0 :: skipn (S i) (bytes p)).
  { clear - H L. revert i H L. generalize (bytes p) as l. intros l i H L. assert (K : (i < length l)%nat) by lia. clear H L.
    revert i K; induction l as [|a l IHl]; intros [|i] K; cbn in *; try lia; [reflexivity|]. apply IHl. lia. }
  rewrite E. reflexivity.
Qed.

Lemma size_spec p : wf_packet p -> type p <> pt_data ->
  midi1_byte_stream_size p = midi1_length (type p) (status p).
Proof.
  intros W N. unfold midi1_byte_stream_size, midi1_length.
  assert (S : is_u8 (status p)).
  { rewrite status_spec. unfold is_u8. dlia. }
  change pt_system with 1. change pt_midi1_channel_voice with 2. change pt_data with 3 in *.
  replace (type p =? 3) with false by lia.
  destruct (type p =? 1).
  - revert S. generalize (status p) as s. intros s S. unfold is_u8 in S.
    assert (X : forall s, 0 <= s < 256 -> Nat.eqb (if s =? 0xF2 then 3%nat
      else if (s =? 0xF1) || (s =? 0xF3) then 2%nat
      else if existsb (Z.eqb s) [0xF6; 0xF8; 0xFA; 0xFB; 0xFC; 0xFE; 0xFF] then 1%nat else 0%nat)
      (if 0xF8 <=? s then if rt_defined s then 1%nat else 0%nat
          else match sc_len s with Some n => Datatypes.S n | None => 0%nat end) = true).
    { by_sweep 256%nat 0. }
    apply Nat.eqb_eq, X, S.
  - destruct (type p =? 2); [|reflexivity].
    revert S. generalize (status p) as s. intros s S. unfold is_u8 in S.
    assert (X : forall s, 0 <= s < 256 -> Nat.eqb (if existsb (Z.eqb (Z.land s 0xF0)) [0x80; 0x90; 0xA0; 0xB0; 0xE0; 0xF2] then 3%nat
      else if (Z.land s 0xF0 =? 0xC0) || (Z.land s 0xF0 =? 0xD0) then 2%nat else 0%nat)
      (if (0x80 <=? s) && (s <? 0xF0) then Datatypes.S (cv_len s) else 0%nat) = true).
    { by_sweep 256%nat 0. }
    apply Nat.eqb_eq, X, S.
Qed.

Lemma midi1_length_bound ty s : (midi1_length ty s <= 3)%nat.
Proof.
  unfold midi1_length, cv_len. destruct (ty =? 1).
  - destruct (0xF8 <=? s); [destruct (rt_defined s); lia|]. destruct (sc_len s) eqn:E; [|lia].
    apply sc_len_cases in E. lia.
  - destruct (ty =? 2); [|lia]. destruct (_ && _); [|lia]. destruct (_ && _); lia.
Qed.

(* system and channel voice packets: a prefix of the bytes 1..3 *)
Lemma to_bytes_short p : wf_packet p -> type p = 1 \/ type p = 2 ->
  to_midi1_byte_stream p = Ok (firstn (midi1_length (type p) (status p)) (skipn 1 (bytes p))) /\
  midi1_byte_stream_size p = midi1_length (type p) (status p).
Proof.
  intros W T. assert (S := size_spec p W ltac:(unfold pt_data; lia)). split; [|exact S].
  unfold to_midi1_byte_stream. rewrite S.
  replace ((type p =? pt_system) || (type p =? pt_midi1_channel_voice)) with true by (unfold pt_system, pt_midi1_channel_voice; lia).
  apply get_bytes_spec. pose proof (midi1_length_bound (type p) (status p)). lia.
Qed.

Lemma to_bytes_other p : type p <> 1 -> type p <> 2 -> type p <> 3 ->
  to_midi1_byte_stream p = Ok [] /\ midi1_byte_stream_size p = 0%nat.
Proof.
  intros. unfold to_midi1_byte_stream, midi1_byte_stream_size.
  unfold pt_system, pt_midi1_channel_voice, pt_data.
  replace (type p =? 1) with false by lia. replace (type p =? 2) with false by lia.
  replace (type p =? 3) with false by lia. split; reflexivity.
Qed.

(* every SysEx7 packet, valid or not *)
Lemma to_bytes_data p : wf_packet p -> type p = 3 ->
  let f := status p / 16 in let n := status p mod 16 in
  if (f <? 4) && (n <=? 6) then
    to_midi1_byte_stream p = Ok ((if (f =? 0) || (f =? 1) then [0xF0] else [])
        ++ firstn (Z.to_nat n) (skipn 2 (bytes p)) ++ (if (f =? 0) || (f =? 3) then [0xF7] else []))
    /\ midi1_byte_stream_size p = Z.to_nat n
  else to_midi1_byte_stream p = Ok [] /\ midi1_byte_stream_size p = 0%nat.
Proof.
  intros W T f n.
  assert (S : is_u8 (status p)).
  { rewrite status_spec. unfold is_u8. dlia. }
  unfold is_u8 in S.
  assert (Z0 : midi1_byte_stream_size p = if (f <? 4) && (n <=? 6) then Z.to_nat n else 0%nat).
  { unfold midi1_byte_stream_size. rewrite T. change (3 =? pt_system) with false.
    change (3 =? pt_midi1_channel_voice) with false. change (3 =? pt_data) with true. cbv iota.
    rewrite land_15. fold n. rewrite land_240.
    replace (status p / 16 mod 16) with f by (unfold f; dlia).
    assert (F : 0 <= f < 16) by (unfold f; dlia).
    assert (X : existsb (Z.eqb (f * 16)) [0; 16; 48; 32] = (f <? 4)).
    { assert (Y : forall f, 0 <= f < 16 -> Bool.eqb (existsb (Z.eqb (f * 16)) [0; 16; 48; 32]) (f <? 4) = true)
        by (by_sweep 16%nat 0).
      apply eqb_prop, Y, F. }
    rewrite X. destruct (f <? 4); cbn [andb]; [|reflexivity]. destruct (n <=? 6); reflexivity. }
  unfold to_midi1_byte_stream. rewrite Z0, T. change (3 =? pt_system) with false.
  change (3 =? pt_midi1_channel_voice) with false. change (3 =? pt_data) with true. cbn [orb]. cbv iota.
  unfold is_sysex7_packet. rewrite T. change (3 =? pt_data) with true. cbn [andb].
  rewrite land_15, land_240. fold n.
  replace (status p / 16 mod 16) with f by (unfold f; dlia).
  assert (F : 0 <= f < 16) by (unfold f; dlia). assert (NN : 0 <= n < 16) by (unfold n; dlia).
  destruct (f <? 4) eqn:F4; cbn [andb].
  - destruct (n <=? 6) eqn:N6.
    + split; [|reflexivity].
      replace (f * 16 <=? 48) with true by lia. cbn [andb]. rewrite ?N6.
      rewrite get_bytes_spec by lia. cbn [bind].
      replace (f * 16 =? 0) with (f =? 0) by lia. replace (f * 16 =? 16) with (f =? 1) by lia.
      replace (f * 16 =? 48) with (f =? 3) by lia. reflexivity.
    + split; [|reflexivity]. replace (f * 16 <=? 48) with true by lia. cbn [andb]. rewrite ?N6. reflexivity.
  - split; [|reflexivity]. replace (f * 16 <=? 48) with false by lia. reflexivity.
Qed.

(* never more than 8 bytes, no out of bounds access *)
Lemma to_bytes_bound p : wf_packet p ->
  exists bs, to_midi1_byte_stream p = Ok bs /\ (length bs <= 8)%nat /\ Forall is_u8 bs.
Proof.
  intros W. assert (U := bytes_range p).
  assert (US : forall i n, Forall is_u8 (firstn n (skipn i (bytes p)))).
  { intros i n. apply Forall_firstn. rewrite <- (firstn_skipn i (bytes p)) in U. now apply Forall_app in U. }
  destruct (Z.eq_dec (type p) 3) as [T|T].
  - pose proof (to_bytes_data p W T) as H. cbv zeta in H. destruct ((_ <? _) && _) eqn:C.
    + destruct H as [H _]. eexists; split; [exact H|]. split.
      * rewrite !app_length, firstn_length. destruct (_ || _); destruct (_ || _); cbn [length]; lia.
      * apply Forall_app; split; [|apply Forall_app; split; [apply US|]]; apply Forall_one; unfold is_u8; lia.
    + destruct H as [H _]. exists []. split; [exact H|]. split; [cbn; lia|constructor].
  - destruct (Z.eq_dec (type p) 1) as [T1|T1]; [|destruct (Z.eq_dec (type p) 2) as [T2|T2]].
    1,2: destruct (to_bytes_short p W ltac:(lia)) as [H _]; eexists; split; [exact H|]; split;
      [rewrite firstn_length; pose proof (midi1_length_bound (type p) (status p)); lia|apply US].
    destruct (to_bytes_other p T1 T2 T) as [H _]. exists []. split; [exact H|]. split; [cbn; lia|constructor].
Qed.

(* round trip through a parser *)
Lemma short_to_bytes g m : 0 <= g < 16 -> valid_message m ->
  to_midi1_byte_stream (short_packet g (ms_status m) (ms_data m)) = Ok (ms_status m :: ms_data m) /\
  midi1_byte_stream_size (short_packet g (ms_status m) (ms_data m)) = S (length (ms_data m)).
Proof.
  intros G V. destruct (valid_message_status m V) as [S0 S1].
  assert (U : Forall is_u8 (ms_data m)) by (apply Forall_u7_u8, V).
  assert (SU : is_u8 (ms_status m)) by (unfold is_u8; lia).
  assert (W := short_wf g (ms_status m) (ms_data m) G SU U).
  assert (T := short_type g (ms_status m) (ms_data m) G SU U).
  assert (ST := short_status g (ms_status m) (ms_data m) G SU U).
  destruct (to_bytes_short _ W) as [E E'].
  { rewrite T. unfold short_ty. destruct (_ <? _); lia. }
  assert (L : midi1_length (type (short_packet g (ms_status m) (ms_data m))) (status (short_packet g (ms_status m) (ms_data m)))
    = S (length (ms_data m)) /\ (length (ms_data m) <= 2)%nat).
  { rewrite T, ST. unfold midi1_length, short_ty. destruct V as [[[R L]|L] _].
    - replace (ms_status m <? 0xF0) with true by lia. cbn [Z.eqb Pos.eqb].
      replace ((0x80 <=? ms_status m) && true) with true by lia. rewrite L. split; [reflexivity|].
      unfold cv_len. destruct (_ && _); lia.
    - pose proof (sc_len_range _ _ L). replace (ms_status m <? 0xF0) with false by lia. cbn [Z.eqb].
      replace (0xF8 <=? ms_status m) with false by lia. rewrite L. split; [reflexivity|].
      apply sc_len_cases in L. lia. }
  destruct L as [L L2]. rewrite L in E, E'. split; [|exact E'].
  rewrite E. do 2 f_equal. rewrite short_pob' by assumption.
  rewrite pob_bytes.
  2:{ constructor; [|constructor; trivial]. unfold short_ty, is_u8. destruct (_ <? _); lia. }
  destruct (ms_data m) as [|a [|b [|]]]; cbn in L2; try lia; reflexivity.
Qed.

Lemma rt_to_bytes g r : 0 <= g < 16 -> 0xF8 <= r < 256 -> rt_defined r = true ->
  to_midi1_byte_stream (short_packet g r []) = Ok [r] /\ midi1_byte_stream_size (short_packet g r []) = 1%nat.
Proof.
  intros G R D. assert (SU : is_u8 r) by (unfold is_u8; lia).
  assert (U : Forall is_u8 []) by constructor.
  assert (W := short_wf g r [] G SU U). assert (T := short_type g r [] G SU U). assert (ST := short_status g r [] G SU U).
  destruct (to_bytes_short _ W) as [E E'].
  { rewrite T. unfold short_ty. destruct (_ <? _); lia. }
  assert (L : midi1_length (type (short_packet g r [])) (status (short_packet g r [])) = 1%nat).
  { rewrite T, ST. unfold midi1_length, short_ty. replace (r <? 0xF0) with false by lia. cbn [Z.eqb Pos.eqb].
    replace (0xF8 <=? r) with true by lia. now rewrite D. }
  rewrite L in E, E'. split; [|exact E']. rewrite E. do 2 f_equal. rewrite short_pob' by (cbn; lia).
  rewrite pob_bytes; [reflexivity|].
  constructor; [|constructor; trivial]. unfold short_ty, is_u8. destruct (_ <? _); lia.
Qed.

Lemma parse_back g cb st p : reached g cb st -> midi1_packet g p ->
  exists bs st', to_midi1_byte_stream p = Ok bs /\ length bs = midi1_byte_stream_size p /\
    feed_all st bs = Ok (st', [EPacket p]).
Proof.
  intros R M. assert (G := reached_group _ _ _ R). destruct M as [(m & V & ->)|(r & RR & D & ->)].
  - destruct (short_to_bytes g m G V) as [E E'].
    destruct (legal_stream_anywhere g cb st [m] (render_full g m ++ []) (render_full g m ++ [])
      (length (render_full g m)) R) as (st' & F).
    + eapply renders_full; [assumption|constructor].
    + induction (render_full g m ++ []) as [|x l IH]; constructor; exact IH.
    + rewrite app_nil_r, firstn_all, render_full_fst in F by assumption.
      exists (ms_status m :: ms_data m), st'. split; [exact E|]. split; [now rewrite E'|].
      rewrite F. do 2 f_equal. unfold render_full.
      destruct (ms_data m) as [|a l] eqn:DE; [reflexivity|]. cbn [map concat snd app].
      assert (X : forall l a e, concat (map snd (annotate_data (a :: l) e)) = [e]).
      { clear. induction l as [|b l IH]; intros a e; [reflexivity|]. 
        change (annotate_data (a :: b :: l) e) with ((a, []) :: annotate_data (b :: l) e).
        cbn [map concat snd app]. apply IH. }
      apply X.
  - destruct (rt_to_bytes g r G RR D) as [E E'].
    destruct (legal_stream_anywhere g cb st [] [] [(r, rt_events g r)] 1 R) as (st' & F).
    + constructor.
    + unfold rt_events. constructor; [unfold is_rt; lia|lia|constructor].
    + exists [r], st'. split; [exact E|]. split; [now rewrite E'|].
      replace [EPacket (short_packet g r [])] with (rt_events g r ++ []); [exact F|].
      unfold rt_events. now rewrite D.
Qed.

(* from_midi1_byte_stream: group 0 packet with the given bytes *)
Lemma from_bytes_spec s d1 d2 : is_u8 s -> is_u7 d1 -> is_u7 d2 ->
  from_midi1_byte_stream s d1 d2 =
    if (s <? 0x80) || existsb (Z.eqb s) [0xF0; 0xF4; 0xF5; 0xF7; 0xF9; 0xFD] then packet0
    else short_packet 0 s [d1; d2].
Proof.
  unfold is_u8, is_u7. intros S D1 D2. unfold from_midi1_byte_stream.
  assert (MK : forall ty, 0 <= ty < 16 ->
    u32 (Z.lor (Z.lor (Z.lor (Z.shiftl ty 28) (Z.shiftl s 16)) (Z.shiftl d1 8)) d2) =
      ty * 268435456 + s * 65536 + d1 * 256 + d2).
  { intros ty T. rewrite !shiftl_mul by lia.
    rewrite (lor_add 28 (ty * 2 ^ 28)), (lor_add 16 (ty * 2 ^ 28 + s * 2 ^ 16)),
      (lor_add 8 (ty * 2 ^ 28 + s * 2 ^ 16 + d1 * 2 ^ 8)) by (pow2_simpl; dlia).
    pow2_simpl. unfold u32. rewrite Z.mod_small; lia. }
  rewrite !MK by (unfold pt_system, pt_midi1_channel_voice; lia).
  unfold packet1, short_packet, pt_system, pt_midi1_channel_voice. cbn [nth].
  rewrite land_240.
  destruct (Z.ltb_spec s 0x80) as [L|L]; cbn [orb].
  - replace (s / 16 mod 16 * 16 =? 0xF0) with false by dlia. reflexivity.
  - destruct (Z.ltb_spec s 0xF0) as [L'|L'].
    + replace (s / 16 mod 16 * 16 =? 0xF0) with false by dlia.
      replace (existsb (Z.eqb s) [0xF0; 0xF4; 0xF5; 0xF7; 0xF9; 0xFD]) with false by (cbn [existsb]; lia).
      f_equal.
    + replace (s / 16 mod 16 * 16 =? 0xF0) with true by dlia.
      replace (existsb (Z.eqb s) [0xF0; 0xF7; 0xF4; 0xF5; 0xF9; 0xFD]) with
        (existsb (Z.eqb s) [0xF0; 0xF4; 0xF5; 0xF7; 0xF9; 0xFD]) by (cbn [existsb]; lia).
      destruct (existsb _ _); reflexivity.
Qed.

Lemma from_to_bytes s ds : valid_message (mkMsg s ds) ->
  to_midi1_byte_stream (from_midi1_byte_stream s (nth 0 ds 0) (nth 1 ds 0)) = Ok (s :: ds).
Proof.
  intros V. destruct (valid_message_status _ V) as [S0 S1]. cbn [ms_status] in *.
  assert (D : Forall is_u7 ds) by apply V.
  assert (N7 : forall i, is_u7 (nth i ds 0)).
  { intros i. destruct (Nat.lt_ge_cases i (length ds)) as [L|L].
    - rewrite Forall_forall in D. now apply D, nth_In.
    - rewrite nth_overflow by assumption. unfold is_u7; lia. }
  rewrite from_bytes_spec by (trivial; unfold is_u8; lia).
  assert (F4 : s <> 0xF4 /\ s <> 0xF5).
  { destruct V as [[[R _]|L] _]; cbn in *; [lia|]. apply sc_len_cases in L. lia. }
  replace ((s <? 0x80) || existsb (Z.eqb s) [0xF0; 0xF4; 0xF5; 0xF7; 0xF9; 0xFD]) with false by (cbn [existsb]; lia).
  replace (short_packet 0 s [nth 0 ds 0; nth 1 ds 0]) with (short_packet 0 s ds) by reflexivity.
  apply (short_to_bytes 0 (mkMsg s ds)); [lia|assumption].
Qed.
