(* Lemmas about flex data messages. *)
From Coq Require Import ZArith List Bool Lia ZifyBool ZifyNat.
From Verif Require Import Base Bits Packet PacketSpec PacketProofs PacketBytes Sysex SysexSpec SysexProofs
  Endpoint EndpointSpec EndpointProofs CapWire Flex FlexSpec.
Import ListNotations.
Local Open Scope Z_scope.

Definition head_ok (h : flex_head) : bool :=
  (fh_channel h <=? 15) && ((fh_address h =? 0) || (fh_channel h =? 0)).

Lemma flex_word g f a ch b s : is_u8 g -> 0 <= f < 4 -> 0 <= a < 4 -> is_u8 ch -> is_u8 b -> is_u8 s ->
  Z.lor (Z.lor (Z.lor (Z.lor 0xD0000000 (Z.shiftl (Z.land g 0x0F) 24))
      (u32 (Z.shiftl (Z.lor (Z.lor (Z.shiftl f 6) (Z.shiftl a 4)) (Z.land ch 0x0F)) 16)))
      (Z.shiftl b 8)) s = be32 (13 * 16 + g mod 16) (64 * f + 16 * a + ch mod 16) b s.
Proof.
  unfold is_u8, be32. intros. rewrite !land_15, !shiftl_mul by lia. pow2_simpl.
  rewrite (lor_add 6 (f * 64)) by (pow2_simpl; dlia).
  rewrite (lor_add 4 (f * 64 + a * 16)) by (pow2_simpl; dlia).
  unfold u32. rewrite (Z.mod_small (_ * 65536)) by dlia.
  rewrite (lor_add 28 0xD0000000 (g mod 16 * 16777216)) by (pow2_simpl; dlia).
  rewrite (lor_add 24 (0xD0000000 + _) (_ * 65536)) by (pow2_simpl; dlia).
  rewrite (lor_add 16 _ (b * 256)) by (pow2_simpl; dlia).
  rewrite (lor_add 8 _ s) by (pow2_simpl; dlia). lia.
Qed.

Lemma flex_data_message_spec dbg h d1 d2 d3 : head_typed h -> is_u32 d1 -> is_u32 d2 -> is_u32 d3 ->
  flex_data_message dbg (fh_group h) (fh_format h) (fh_address h) (fh_channel h) (fh_bank h) (fh_status h) d1 d2 d3 =
  if dbg && negb (head_ok h) then Fault AssertFail
  else Ok (packet_of_bytes (head_bytes h ++ word_of d1 ++ word_of d2 ++ word_of d3)).
Proof.
  intros (G & F & A & C & B & S) D1 D2 D3. unfold flex_data_message. rewrite !check_iff, flex_word by assumption.
  unfold head_ok, pa_channel. destruct dbg; cbn [andb].
  - destruct (fh_channel h <=? 15); cbn [andb negb]; [|reflexivity]. destruct (_ || _); cbn [negb]; [|reflexivity].
    f_equal. unfold packet_of_bytes, head_bytes, word_of. cbn [app nth]. now rewrite !be32_word_bytes.
  - f_equal. unfold packet_of_bytes, head_bytes, word_of. cbn [app nth]. now rewrite !be32_word_bytes.
Qed.

Lemma word_of_0 : word_of 0 = [0; 0; 0; 0].
Proof. reflexivity. Qed.

Lemma flex_data_message_0 dbg h : head_typed h ->
  flex_data_message dbg (fh_group h) (fh_format h) (fh_address h) (fh_channel h) (fh_bank h) (fh_status h) 0 0 0 =
  if dbg && negb (head_ok h) then Fault AssertFail else Ok (packet_of_bytes (head_bytes h)).
Proof.
  intros T. rewrite flex_data_message_spec by (assumption || (unfold is_u32; lia)).
  rewrite word_of_0. change ([0;0;0;0] ++ [0;0;0;0] ++ [0;0;0;0]) with (repeat 0 12). now rewrite pob_app_zeros.
Qed.

Lemma head_bytes_u8 h : head_typed h -> Forall is_u8 (head_bytes h).
Proof. intros (G & F & A & C & B & S). unfold head_bytes. u8s. Qed.
Lemma word_of_u8 w : Forall is_u8 (word_of w).
Proof. unfold word_of. u8s; apply word_byte_u8. Qed.

Lemma flex_data_u8 c : flex_typed c -> Forall is_u8 (flex_data_of c).
Proof.
  intros (_ & T). destruct c; cbn [flex_data_of] in *.
  - repeat (apply Forall_app; split); apply word_of_u8.
  - rewrite <- (firstn_skipn 12 text) in T. apply Forall_app in T. tauto.
  - apply word_of_u8.
  - u8s; intuition auto.
  - u8s; intuition auto.
  - u8s.
  - repeat (apply Forall_app; split); apply word_of_u8.
Qed.

Lemma flex_bytes c : flex_typed c -> Forall is_u8 (head_bytes (flex_head_of c) ++ flex_data_of c).
Proof. intros T. apply Forall_app. split; [apply head_bytes_u8, T|now apply flex_data_u8]. Qed.

Lemma set_after h l v : Forall is_u8 (head_bytes h ++ l) -> is_u8 v -> (length l < 12)%nat ->
  set_byte (packet_of_bytes (head_bytes h ++ l)) (4 + length l) v = Ok (packet_of_bytes (head_bytes h ++ (l ++ [v]))).
Proof.
  intros H V L. replace (4 + length l)%nat with (length (head_bytes h ++ l)) by (rewrite app_length; reflexivity).
  rewrite set_append, app_assoc; trivial. rewrite app_length. cbn [length head_bytes]. lia.
Qed.

Ltac after H := first
  [ rewrite (set_after H []) by (rewrite ?app_nil_r; trivial; cbn [length]; lia)
  | rewrite (set_after H [_]) by (trivial; try (apply Forall_app; split; [assumption|u8s]); cbn [length]; lia)
  | rewrite (set_after H [_; _]) by (trivial; try (apply Forall_app; split; [assumption|u8s]); cbn [length]; lia)
  | rewrite (set_after H [_; _; _]) by (trivial; try (apply Forall_app; split; [assumption|u8s]); cbn [length]; lia)
  | rewrite (set_after H [_; _; _; _]) by (trivial; try (apply Forall_app; split; [assumption|u8s]); cbn [length]; lia)
  | rewrite (set_after H [_; _; _; _; _]) by (trivial; try (apply Forall_app; split; [assumption|u8s]); cbn [length]; lia) ];
  cbn [app bind].

Lemma ok_nil h : packet_of_bytes (head_bytes h) = packet_of_bytes (head_bytes h ++ []).
Proof. now rewrite app_nil_r. Qed.

Lemma tempo_zeros h t : packet_of_bytes (head_bytes h ++ word_of t ++ word_of 0 ++ word_of 0) = packet_of_bytes (head_bytes h ++ word_of t).
Proof. rewrite app_assoc, word_of_0. apply (pob_app_zeros _ 8). Qed.

Theorem flex_make_spec dbg c : flex_typed c ->
  flex_make dbg c =
  if dbg && negb match c with FText h t => (size t <=? 12) && ((fh_format h =? 0) || (fh_format h =? 3) || (size t =? 12)) | _ => true end
  then Fault AssertFail
  else if dbg && negb (head_ok (flex_head_of c)) then Fault AssertFail
  else Ok (flex_wire c).
Proof.
  intros TT. pose proof TT as (H & T). pose proof (head_bytes_u8 _ H) as HB. unfold flex_wire.
  destruct c as [h d1 d2 d3|h t|g t|g n d k|g c a1 a2 a3 s1 s2|g a ch s t|g a ch d1 d2 d3];
    cbn [flex_head_of flex_data_of negb] in *; rewrite ?andb_false_r; cbn [flex_make].
  - destruct T as (D1 & D2 & D3). pose proof (flex_data_message_spec dbg h d1 d2 d3 H D1 D2 D3) as E.
    destruct h as [g f a ch b s]. exact E.
  - pose proof (flex_data_message_0 dbg h H) as E. destruct h as [g f a ch b s].
    unfold make_flex_data_text_message. cbn [fh_group fh_format fh_address fh_channel fh_bank fh_status] in E. rewrite E. rewrite !check_iff.
    cbn [fh_format]. unfold pf_complete, pf_end.
    assert (P : put_chars set_byte (packet_of_bytes (head_bytes (mkHead g f a ch b s))) 4 t = Ok (packet_of_bytes (head_bytes (mkHead g f a ch b s) ++ firstn 12 t))).
    { rewrite pob_firstn by reflexivity. apply put_chars_8; trivial. cbn [length head_bytes]. lia. }
    destruct dbg; cbn [andb].
    + destruct (size t <=? 12); cbn [andb negb]; [|reflexivity]. destruct (_ || _); cbn [negb]; [|reflexivity].
      destruct (head_ok _); cbn [negb bind]; [|reflexivity]. exact P.
    + cbn [bind]. exact P.
  - unfold make_set_tempo_message, make_flex_data_message.
    pose proof (flex_data_message_spec dbg (mkHead g 0 1 0 0 0) t 0 0 H T) as E. cbn [fh_group fh_format fh_address fh_channel fh_bank fh_status] in E.
    change (head_ok _) with true in E. cbn [negb] in E. rewrite andb_false_r in E.
    unfold pf_complete, pa_group. rewrite E by (unfold is_u32; lia). now rewrite tempo_zeros.
  - unfold make_set_time_signature_message, make_flex_data_message.
    pose proof (flex_data_message_0 dbg _ H) as E. cbn [fh_group fh_format fh_address fh_channel fh_bank fh_status] in E.
    change (head_ok _) with true in E. cbn [negb] in E. rewrite andb_false_r in E.
    unfold pf_complete, pa_group. rewrite E. cbn [bind]. rewrite ok_nil.
    set (h := mkHead g 0 1 0 0 1) in *. destruct T as (N & D & K). repeat after h. reflexivity.
  - unfold make_set_metronome_message, make_flex_data_message.
    pose proof (flex_data_message_0 dbg _ H) as E. cbn [fh_group fh_format fh_address fh_channel fh_bank fh_status] in E.
    change (head_ok _) with true in E. cbn [negb] in E. rewrite andb_false_r in E.
    unfold pf_complete, pa_group. rewrite E. cbn [bind]. rewrite ok_nil.
    set (h := mkHead g 0 1 0 0 2) in *. destruct T as (C & A1 & A2 & A3 & S1 & S2). repeat after h. reflexivity.
  - unfold make_set_key_signature_message, make_flex_data_message.
    pose proof (flex_data_message_0 dbg _ H) as E. cbn [fh_group fh_format fh_address fh_channel fh_bank fh_status] in E.
    unfold pf_complete. rewrite E. destruct (dbg && _); [reflexivity|]. cbn [bind]. rewrite ok_nil.
    set (h := mkHead g 0 a ch 0 5) in *. destruct T as (S & T).
    replace (u8 (Z.lor (Z.shiftl s 4) (Z.land t 15))) with (16 * (s mod 16) + t mod 16).
    + rewrite (set_after h []); [reflexivity|now rewrite app_nil_r|unfold is_u8; lia|cbn [length]; lia].
    + rewrite land_15, shiftl_mul by lia. pow2_simpl. rewrite (lor_add 4) by (pow2_simpl; dlia). unfold u8. dlia.
  - destruct T as (D1 & D2 & D3). exact (flex_data_message_spec dbg (mkHead g 0 a ch 0 6) d1 d2 d3 H D1 D2 D3).
Qed.

Lemma head_ok_iff c : flex_typed c ->
  head_ok (flex_head_of c) = true <-> fh_channel (flex_head_of c) <= 15 /\ (fh_address (flex_head_of c) = 0 \/ fh_channel (flex_head_of c) = 0).
Proof. unfold head_ok. lia. Qed.

Theorem flex_make_wire dbg c : flex_typed c -> (dbg = true -> flex_checked c) -> flex_make dbg c = Ok (flex_wire c).
Proof.
  intros T C. rewrite flex_make_spec by assumption. destruct dbg; [|reflexivity]. cbn [andb].
  destruct (C eq_refl) as (C1 & C2 & C3).
  replace (head_ok _) with true by (symmetry; apply head_ok_iff; auto).
  destruct c; trivial. cbn [flex_head_of] in *. replace (_ && _) with true by lia. reflexivity.
Qed.
Theorem flex_make_unchecked c : flex_typed c -> ~ flex_checked c -> flex_make true c = Fault AssertFail.
Proof.
  intros T N. rewrite flex_make_spec by assumption. cbn [andb].
  destruct (negb match c with FText _ _ => _ | _ => _ end) eqn:E; [reflexivity|].
  destruct (head_ok (flex_head_of c)) eqn:E2; [|reflexivity]. exfalso. apply N.
  apply head_ok_iff in E2; [|assumption]. unfold flex_checked. destruct E2 as [A B]. refine (conj A (conj B _)).
  destruct c; trivial. lia.
Qed.

(* ---- reading --------------------------------------------------------------------------------- *)

Lemma flex_payload_spec p : forall n b, (b + n = 16)%nat ->
  flex_payload_loop p b n = Ok (until_zero (skipn b (bytes p))).
Proof.
  induction n as [|n IH]; intros b N; cbn [flex_payload_loop].
  - rewrite skipn_all2; [reflexivity|]. rewrite bytes_length. lia.
  - rewrite get_byte_spec by lia. cbn [bind].
    assert (E : skipn b (bytes p) = nth b (bytes p) 0 :: skipn (S b) (bytes p)).
    { assert (X : (b < length (bytes p))%nat) by (rewrite bytes_length; lia). revert X. clear.
      revert b. generalize (bytes p). induction l as [|x l IH]; intros b L; cbn [length] in L; [lia|].
      destruct b; [reflexivity|]. cbn [skipn nth]. rewrite IH by lia. reflexivity. }
    rewrite E. cbn [until_zero]. destruct (_ =? 0); [reflexivity|]. rewrite IH by lia. reflexivity.
Qed.

Theorem flex_read_meaning p : wf_packet p -> flex_read p = Ok (flex_meaning (bytes p)).
Proof.
  intros W. destruct (packet_is_bytes p W) as (l & L & U & B & E).
  unfold flex_read, flex_payload_as_string. rewrite flex_payload_spec by lia. cbn [bind]. rewrite B. unfold flex_meaning, head_meaning.
  f_equal. unfold flex_format, flex_address, flex_channel, flex_status_bank, flex_status, flex_data1, flex_data2, flex_data3.
  pose proof (pob_byte3 l U) as B3. pose proof (pob_byte4 l U) as B4. pose proof (pob_group l U) as GR. rewrite <- E in B3, B4, GR.
  assert (B2 : byte2 p = nth 1 l 0) by (rewrite <- (pob_status l U), <- E; reflexivity).
  rewrite B2, B3, B4, GR. pose proof (nth_u8 l 1 U) as N. unfold is_u8 in N.
  change 0xC0 with (Z.shiftl (Z.ones 2) 6). change 0x30 with (Z.shiftl (Z.ones 2) 4).
  rewrite !land_field, land_15, !shiftr_div by lia. rewrite !Z.div_mul by (pow2_simpl; lia). pow2_simpl.
  now rewrite E.
Qed.

Lemma flex_view_iff dbg p : wf_packet p ->
  (nth 0 (bytes p) 0 / 16 = 13 /\ flex_data_message_view dbg p = Ok p /\ as_flex_data_message_view dbg p = Ok (Some p)) \/
  (nth 0 (bytes p) 0 / 16 <> 13 /\ flex_data_message_view dbg p = (if dbg then Fault AssertFail else Ok p) /\ as_flex_data_message_view dbg p = Ok None).
Proof.
  intros W. destruct (packet_is_bytes p W) as (l & L & U & B & E).
  pose proof (pob_type l U) as T. rewrite <- E in T. rewrite B, <- T.
  unfold flex_data_message_view, as_flex_data_message_view, is_flex_data_message, flex_data_message_view, pt_flex_data. rewrite !check_iff.
  destruct (Z.eq_dec (type p) 13) as [->|N].
  - left. now destruct dbg.
  - right. replace (type p =? 0xD) with false by lia. now destruct dbg.
Qed.

Theorem flex_round_trip dbg c : flex_typed c -> head_in_range (flex_head_of c) -> (dbg = true -> flex_checked c) ->
  exists p, flex_make dbg c = Ok p /\ wf_packet p /\ as_flex_data_message_view dbg p = Ok (Some p) /\
  bytes p = (let l := head_bytes (flex_head_of c) ++ flex_data_of c in l ++ repeat 0 (16 - length l)) /\
  exists r, flex_read p = Ok r /\ fr_head r = flex_head_of c /\
   (forall d1 d2 d3, flex_words_of c = Some (d1, d2, d3) -> fr_data1 r = d1 /\ fr_data2 r = d2 /\ fr_data3 r = d3) /\
   (forall h t, c = FText h t -> (length t <= 12)%nat -> Forall is_char8 t -> fr_text r = t).
Proof.
  intros T R C. exists (flex_wire c). pose proof (flex_bytes c T) as F.
  assert (W : wf_packet (flex_wire c)) by now apply pob_wf.
  assert (LD : (length (flex_data_of c) <= 12)%nat).
  { destruct c; cbn [flex_data_of]; rewrite ?app_length, ?firstn_length; cbn [length word_of]; lia. }
  assert (B : bytes (flex_wire c) = pad16 (head_bytes (flex_head_of c) ++ flex_data_of c)) by now apply pob_bytes.
  split; [now apply flex_make_wire|]. split; [assumption|].
  assert (B0 : nth 0 (bytes (flex_wire c)) 0 = 13 * 16 + fh_group (flex_head_of c) mod 16) by (rewrite B; reflexivity).
  split. { destruct (flex_view_iff dbg _ W) as [(_ & _ & ->)|(N & _)]; [reflexivity|]. rewrite B0 in N. destruct N. dlia. }
  split. { rewrite B. cbv zeta. apply pad16_zeros. rewrite app_length. cbn [head_bytes length]. lia. }
  exists (flex_meaning (bytes (flex_wire c))). split; [now apply flex_read_meaning|]. split; [|split].
  - unfold flex_meaning, fr_head, head_meaning. rewrite B.
    destruct R as (G & FO & CH & A & BK & S). destruct (flex_head_of c) as [g f a ch b s].
    cbn [fh_group fh_format fh_address fh_channel fh_bank fh_status] in *.
    rewrite !nth_pad16 by lia. cbn [app head_bytes nth fh_group fh_format fh_address fh_channel fh_bank fh_status]. f_equal; dlia.
  - intros d1 d2 d3 E. unfold flex_meaning. cbn [fr_data1 fr_data2 fr_data3]. rewrite B. rewrite !nth_pad16 by lia.
    destruct T as (_ & T). destruct c; cbn [flex_words_of flex_data_of flex_head_of] in *; try discriminate; injection E as <- <- <-;
      unfold head_bytes, word_of; cbn [app nth]; rewrite ?be32_word_bytes; intuition auto.
  - intros h t -> L8 V. unfold flex_meaning. cbn [fr_text]. rewrite B. cbn [flex_head_of flex_data_of] in *. rewrite firstn_all2 in * by assumption.
    rewrite pad16_zeros by (rewrite app_length; cbn [head_bytes length]; lia).
    rewrite <- app_assoc. change (skipn 4 (head_bytes h ++ ?x)) with x. cbn [skipn head_bytes app].
    match goal with |- until_zero (_ ++ repeat 0 ?x) = _ => generalize x end. clear - V. intros m.
    induction V as [|c t C V IH]; cbn [app until_zero]; [now destruct m|].
    unfold is_char8 in C. replace (c =? 0) with false by lia. now rewrite IH.
Qed.

Lemma flex_default g : is_u8 g -> flex_data_message0 g = packet_of_bytes [0xD0 + g mod 16].
Proof.
  unfold is_u8, flex_data_message0, packet1, packet_of_bytes, be32. intros. cbn [nth]. f_equal.
  rewrite land_15, shiftl_mul by lia. pow2_simpl. rewrite (lor_add 28) by (pow2_simpl; dlia). lia.
Qed.
