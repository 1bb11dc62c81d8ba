(* Lemmas about stream messages. *)
From Coq Require Import ZArith List Bool Lia ZifyBool ZifyNat.
From Verif Require Import Base Bits Packet PacketSpec PacketProofs PacketBytes Sysex SysexSpec SysexProofs
  Endpoint EndpointSpec CapWire.
Import ListNotations.
Local Open Scope Z_scope.

(* ---- making -------------------------------------------------------------------------------- *)

Lemma check_iff dbg c (A : Type) (r : res A) :
  bind (check dbg c) (fun _ => r) = if dbg && negb c then Fault AssertFail else r.
Proof. now destruct dbg, c. Qed.

Lemma stream_message_bytes st f : is_u8 st -> 0 <= f < 4 ->
  stream_message st f = packet_of_bytes [15 * 16 + f * 4; st].
Proof.
  unfold is_u8. intros S F. unfold stream_message, packet1, packet_of_bytes, be32; cbn [nth].
  f_equal. rewrite !shiftl_mul by lia. change 0xF0000000 with (15 * 2 ^ 28).
  unfold u32. rewrite Z.mod_small by (pow2_simpl; lia).
  rewrite (lor_add 28 (15 * 2 ^ 28) (f * 2 ^ 26)) by (try apply Z_mod_mult; pow2_simpl; lia).
  replace (15 * 2 ^ 28 + f * 2 ^ 26) with ((15 * 4 + f) * 2 ^ 26) by (pow2_simpl; lia).
  rewrite (lor_add 26) by (try apply Z_mod_mult; pow2_simpl; lia). pow2_simpl. lia.
Qed.

Lemma u8_hd f : 0 <= f < 4 -> is_u8 (15 * 16 + f * 4).
Proof. unfold is_u8; lia. Qed.

Lemma set_append l v : Forall is_u8 l -> is_u8 v -> (length l < 16)%nat ->
  set_byte (packet_of_bytes l) (length l) v = Ok (packet_of_bytes (l ++ [v])).
Proof. intros. rewrite set_byte_ok by assumption. now rewrite pob_append. Qed.

Lemma set_append_gap l n v : Forall is_u8 l -> is_u8 v -> (length l + n < 16)%nat ->
  set_byte (packet_of_bytes l) (length l + n) v = Ok (packet_of_bytes (l ++ repeat 0 n ++ [v])).
Proof.
  intros L V N. rewrite <- (pob_app_zeros l n).
  replace (length l + n)%nat with (length (l ++ repeat 0 n)) by (rewrite app_length, repeat_length; lia).
  rewrite (set_append (l ++ repeat 0 n)).
  - now rewrite app_assoc.
  - apply Forall_app. split; [assumption|]. apply Forall_forall. intros x X. apply repeat_spec in X. unfold is_u8. lia.
  - assumption.
  - now rewrite app_length, repeat_length.
Qed.

Lemma put_chars_8 t : forall l, Forall is_u8 l -> Forall is_u8 t -> (length l < 16)%nat ->
  put_chars set_byte (packet_of_bytes l) (length l) t = Ok (packet_of_bytes (l ++ t)).
Proof.
  induction t as [|c t IH]; intros l L T N; cbn [put_chars].
  - now rewrite app_nil_r.
  - inversion T; subst. rewrite set_append by assumption. cbn [bind].
    destruct (16 <=? S (length l))%nat eqn:E.
    + f_equal. apply pob_eq. intros i I.
      destruct (Nat.lt_ge_cases i (length l)); [now rewrite !app_nth1 by lia|].
      assert (i = length l) as -> by lia. now rewrite !app_nth2, !Nat.sub_diag by lia.
    + specialize (IH (l ++ [c])). rewrite app_length in IH. cbn [length] in IH.
      rewrite Nat.add_1_r in IH. rewrite IH.
      * now rewrite <- app_assoc.
      * apply Forall_app. auto.
      * assumption.
      * lia.
Qed.

Lemma put_chars_7 t : forall l, Forall is_u8 l -> Forall is_u8 t -> (length l < 16)%nat ->
  put_chars set_byte_7bit (packet_of_bytes l) (length l) t = Ok (packet_of_bytes (l ++ map (fun c => c mod 128) t)).
Proof.
  intros l L T N. rewrite <- put_chars_8; trivial.
  - generalize (packet_of_bytes l). clear. revert l. induction t as [|c t IH]; intros l p; cbn [put_chars map]; [reflexivity|].
    unfold set_byte_7bit. rewrite land_127. destruct (set_byte p _ _) as [q|]; cbn [bind]; [|reflexivity].
    destruct (16 <=? S (length l))%nat; [reflexivity|]. apply (IH (0 :: l)).
  - rewrite Forall_map. apply Forall_forall. intros c _. unfold is_u8. lia.
Qed.

Lemma pob_firstn l n t : (length l + n = 16)%nat -> packet_of_bytes (l ++ firstn n t) = packet_of_bytes (l ++ t).
Proof.
  intros N. apply pob_eq. intros i I. destruct (Nat.lt_ge_cases i (length l)).
  - now rewrite !app_nth1 by lia.
  - rewrite !app_nth2 by lia. rewrite <- (firstn_skipn n t) at 2.
    destruct (Nat.lt_ge_cases (i - length l) (length (firstn n t))) as [X|X].
    + now rewrite app_nth1.
    + rewrite firstn_length in X. rewrite !nth_overflow; trivial; rewrite ?firstn_skipn, ?firstn_length; lia.
Qed.

Ltac u8s := repeat (apply Forall_cons || apply Forall_nil); trivial; try (cbn [length]; lia); try (unfold is_u8 in *; lia);
  try (unfold is_u8 in *; dlia).

Lemma lor_static n : is_u8 n -> u8 (Z.lor 0x80 n) = 128 + n mod 128.
Proof.
  revert n. enough (H : forall n, 0 <= n < 0 + Z.of_nat 256 -> (u8 (Z.lor 0x80 n) =? 128 + n mod 128) = true)
    by (unfold is_u8; intros n N; specialize (H n); lia).
  by_sweep 256%nat 0.
Qed.

Lemma field_24 x : Z.land x 0x7F000000 = x / 16777216 mod 128 * 16777216.
Proof. change 0x7F000000 with (Z.shiftl (Z.ones 7) 24). now rewrite land_field by lia. Qed.
Lemma field_16 x : Z.land x 0x007F0000 = x / 65536 mod 128 * 65536.
Proof. change 0x007F0000 with (Z.shiftl (Z.ones 7) 16). now rewrite land_field by lia. Qed.
Lemma field_8 x : Z.land x 0x00007F00 = x / 256 mod 128 * 256.
Proof. change 0x00007F00 with (Z.shiftl (Z.ones 7) 8). now rewrite land_field by lia. Qed.
Lemma field_7 x : Z.land x 0x3F80 = x / 128 mod 128 * 128.
Proof. change 0x3F80 with (Z.shiftl (Z.ones 7) 7). now rewrite land_field by lia. Qed.
Lemma field_14 x : Z.land x 0x1FC000 = x / 16384 mod 128 * 16384.
Proof. change 0x1FC000 with (Z.shiftl (Z.ones 7) 14). now rewrite land_field by lia. Qed.
Lemma field_21 x : Z.land x 0xFE00000 = x / 2097152 mod 128 * 2097152.
Proof. change 0xFE00000 with (Z.shiftl (Z.ones 7) 21). now rewrite land_field by lia. Qed.

(* a chain of fields, most significant first *)
Lemma lor_fields a b c d : is_u7 a -> is_u7 b -> is_u7 c -> is_u7 d ->
  Z.lor (Z.lor (Z.lor (a * 16777216) (b * 65536)) (c * 256)) d = be32 a b c d.
Proof.
  unfold is_u7, be32. intros.
  rewrite (lor_add 24 (a * 16777216) (b * 65536)) by (pow2_simpl; dlia).
  rewrite (lor_add 16 _ (c * 256)) by (pow2_simpl; dlia).
  rewrite (lor_add 8 _ d) by (pow2_simpl; dlia). lia.
Qed.

Lemma word_byte_u8 i w : is_u8 (word_byte i w).
Proof. unfold word_byte, is_u8. lia. Qed.

Lemma be32_word_bytes w : is_u32 w -> be32 (word_byte 0 w) (word_byte 1 w) (word_byte 2 w) (word_byte 3 w) = w.
Proof. unfold is_u32, be32, word_byte. intros. change (3 - 0) with 3. change (3 - 1) with 2. change (3-2) with 1. change (3-3) with 0.
  change (256 ^ 3) with 16777216. change (256 ^ 2) with 65536. change (256 ^ 1) with 256. change (256 ^ 0) with 1. dlia. Qed.

Lemma set_w1 a b c d w : is_u32 w ->
  set_word (packet_of_bytes [a; b; c; d]) 1 w =
  packet_of_bytes ([a; b; c; d] ++ [word_byte 0 w; word_byte 1 w; word_byte 2 w; word_byte 3 w]).
Proof. intros. unfold packet_of_bytes, set_word. cbn [nth app w0 w1 w2 w3]. now rewrite be32_word_bytes. Qed.

Ltac same l :=
  match goal with |- ?m = _ => let E := fresh in assert (E : m = packet_of_bytes l); [|rewrite E; clear E] end.

Theorem make_wire dbg c : stream_typed c -> (dbg = true -> stream_checked c) -> stream_make dbg c = Ok (stream_wire c).
Proof.
  intros T C.
  destruct c as [f ma mi|n s pr e ma mi|i|f t|f t|p e|p e|b f|b d g n|b o g n|f b t];
    cbn [stream_typed stream_checked] in T, C; cbn [stream_make stream_wire]; unfold stream_packet.
  - destruct T as (F & MA & MI). unfold make_endpoint_discovery_message.
    rewrite stream_message_bytes by (unfold is_u8, st_endpoint_discovery; lia).
    change st_endpoint_discovery with 0.
    rewrite (set_append [_; _]) by u8s. cbn [bind app].
    rewrite (set_append [_; _; _]) by u8s. cbn [bind app].
    rewrite set_w1 by (unfold is_u8, is_u32 in *; lia). f_equal. cbn [app]. unfold word_byte, is_u8 in *.
    replace (f / 256 ^ (3 - 0) mod 256) with 0 by (change (256 ^ (3 - 0)) with 16777216; dlia).
    replace (f / 256 ^ (3 - 1) mod 256) with 0 by (change (256 ^ (3 - 1)) with 65536; dlia).
    replace (f / 256 ^ (3 - 2) mod 256) with 0 by (change (256 ^ (3 - 2)) with 256; dlia).
    replace (f / 256 ^ (3 - 3) mod 256) with f by (change (256 ^ (3 - 3)) with 1; dlia).
    reflexivity.
  - destruct T as (N & PR & E & MA & MI). unfold make_endpoint_info_message.
    rewrite stream_message_bytes by (unfold is_u8, st_endpoint_info; lia).
    change st_endpoint_info with 1.
    assert (X : u8 (Z.lor (if s then 128 else 0) n) = (if s then 128 + n mod 128 else n)).
    { destruct s; [now apply lor_static|]. rewrite Z.lor_0_l. unfold u8, is_u8 in *. lia. }
    rewrite X. clear X. set (x := if s then _ else _).
    assert (is_u8 x) by (unfold x; destruct s; unfold is_u8 in *; lia). clearbody x.
    rewrite (set_append [_; _]) by u8s. cbn [bind app].
    rewrite (set_append [_; _; _]) by u8s. cbn [bind app].
    rewrite (set_append [_; _; _; _]) by u8s. cbn [bind app].
    rewrite (set_append_gap [_; _; _; _; _] 1) by u8s. cbn [bind app repeat].
    rewrite (set_append [_; _; _; _; _; _; _]) by u8s. cbn [bind app].
    reflexivity.
  - destruct T as (M & F & MO & R). unfold make_device_identity_message. f_equal.
    rewrite stream_message_bytes by (unfold is_u8, st_device_identity; lia).
    change st_device_identity with 2.
    unfold set_word, packet_of_bytes. cbn [nth app w0 w1 w2 w3 le7].
    rewrite be32_word_bytes by assumption.
    rewrite !field_24, !field_16, !field_8, !land_127, !shiftl_mul, !shiftr_div by lia. pow2_simpl.
    unfold is_u16, is_u32 in *.
    rewrite !lor_fields by (unfold is_u7; lia).
    unfold u32. f_equal.
    + f_equal; try dlia.
    + f_equal; try dlia.
  - destruct T as (F & T). unfold make_endpoint_name_message. rewrite check_iff.
    replace (dbg && _) with false by (destruct dbg; [specialize (C eq_refl)|]; lia).
    rewrite stream_message_bytes by (unfold is_u8, st_endpoint_name; lia).
    change st_endpoint_name with 3.
    rewrite (put_chars_8 t [_; _]); [|u8s|assumption|cbn [length]; lia].
    f_equal. symmetry. apply (pob_firstn [_; _] 14). reflexivity.
  - destruct T as (F & T). unfold make_product_instance_id_message. rewrite !check_iff.
    replace (dbg && negb (size t <=? 14)) with false by (destruct dbg; [specialize (C eq_refl)|]; lia).
    replace (dbg && _) with false by (unfold pf_cont; destruct dbg; [specialize (C eq_refl)|]; lia).
    rewrite stream_message_bytes by (unfold is_u8, st_product_instance_id; lia).
    change st_product_instance_id with 4.
    rewrite (put_chars_7 t [_; _]); [|u8s|assumption|cbn [length]; lia].
    f_equal. symmetry. apply (pob_firstn [_; _] 14). reflexivity.
  - destruct T as (P & E). unfold make_stream_configuration_request. rewrite check_iff.
    replace (dbg && _) with false by (unfold is_u8 in *; destruct dbg; [specialize (C eq_refl)|]; lia).
    rewrite stream_message_bytes by (unfold is_u8, st_stream_configuration_request; lia).
    change st_stream_configuration_request with 5.
    rewrite (set_append [_; _]) by u8s. cbn [bind app].
    now rewrite (set_append [_; _; _]) by u8s.
  - destruct T as (P & E). unfold make_stream_configuration_notification. rewrite check_iff.
    replace (dbg && _) with false by (unfold is_u8 in *; destruct dbg; [specialize (C eq_refl)|]; lia).
    rewrite stream_message_bytes by (unfold is_u8, st_stream_configuration_notify; lia).
    change st_stream_configuration_notify with 6.
    rewrite (set_append [_; _]) by u8s. cbn [bind app].
    now rewrite (set_append [_; _; _]) by u8s.
  - destruct T as (P & E). unfold make_function_block_discovery_message. rewrite check_iff.
    replace (dbg && _) with false by (unfold is_u8 in *; destruct dbg; [specialize (C eq_refl)|]; lia).
    rewrite stream_message_bytes by (unfold is_u8, st_function_block_discovery; lia).
    change st_function_block_discovery with 16.
    rewrite (set_append [_; _]) by u8s. cbn [bind app].
    now rewrite (set_append [_; _; _]) by u8s.
  - destruct T as (B & D & G & N). unfold make_function_block_info_message. rewrite !check_iff.
    replace (dbg && negb (b <? 32)) with false by (destruct dbg; [specialize (C eq_refl)|]; lia).
    replace (dbg && _) with false by (destruct dbg; [specialize (C eq_refl)|]; lia).
    rewrite stream_message_bytes by (unfold is_u8, st_function_block_info; lia).
    change st_function_block_info with 17.
    rewrite land_31, !land_3, !land_15, shiftl_mul by lia. pow2_simpl.
    rewrite (lor_add 5 128) by (pow2_simpl; dlia). rewrite (lor_add 4) by (pow2_simpl; dlia).
    unfold u8. rewrite (Z.mod_small (_ + _) 256) by dlia.
    rewrite (set_append [_; _]) by u8s. cbn [bind app].
    rewrite (set_append [_; _; _]) by u8s. cbn [bind app].
    rewrite (set_append [_; _; _; _]) by u8s. cbn [bind app].
    rewrite (set_append [_; _; _; _; _]) by u8s. cbn [bind app].
    do 2 f_equal. f_equal. f_equal. f_equal. f_equal. dlia.
  - destruct o as [ac di m1 ui ci s8]. cbn [fo_active fo_direction fo_midi1 fo_ui_hint fo_ci_version fo_sysex8] in *.
    destruct T as (B & D & M & U & CI & S8 & G & N). unfold make_function_block_info_message_options, ui_field.
    cbn [fo_active fo_direction fo_midi1 fo_ui_hint fo_ci_version fo_sysex8] in *. rewrite !check_iff.
    replace (dbg && negb (b <? 32)) with false by (destruct dbg; [specialize (C eq_refl)|]; lia).
    replace (dbg && negb ((0 <? di) && _)) with false by (destruct dbg; [specialize (C eq_refl)|]; lia).
    replace (dbg && negb (m1 <? 3)) with false by (destruct dbg; [specialize (C eq_refl)|]; lia).
    replace (dbg && negb (ui <? 4)) with false by (destruct dbg; [specialize (C eq_refl)|]; lia).
    replace (dbg && _) with false.
    2:{ destruct dbg; [specialize (C eq_refl)|reflexivity]. unfold is_u8 in *.
        assert (di = 1 \/ di = 2 \/ di = 3) as [-> | [-> | ->]] by lia;
        assert (ui = 0 \/ ui = 1 \/ ui = 2 \/ ui = 3) as [-> | [-> | [-> | ->]]] by lia; trivial; lia. }
    rewrite stream_message_bytes by (unfold is_u8, st_function_block_info; lia).
    change st_function_block_info with 17.
    rewrite land_31, !land_3, !land_15, !shiftl_mul by lia. pow2_simpl.
    rewrite (lor_add 5 (if ac then _ else _)) by (pow2_simpl; destruct ac; dlia).
    replace ((if negb (ui =? 0) then ui else di) mod 4) with (if ui =? 0 then di mod 4 else ui mod 4) by (destruct (ui =? 0); reflexivity).
    set (h := if ui =? 0 then _ else _). assert (0 <= h < 4) by (unfold h; destruct (ui =? 0); lia). clearbody h.
    rewrite (lor_add 4 (h * 16)) by (pow2_simpl; dlia). rewrite (lor_add 2) by (pow2_simpl; dlia).
    unfold u8. rewrite (Z.mod_small (_ + _) 256) by dlia.
    set (a := if ac then _ else _). assert (a = 128 \/ a = 0) by (unfold a; destruct ac; lia). clearbody a.
    rewrite (set_append [_; _]) by u8s. cbn [bind app].
    rewrite (set_append [_; _; _]) by u8s. cbn [bind app].
    rewrite (set_append [_; _; _; _]) by u8s. cbn [bind app].
    rewrite (set_append [_; _; _; _; _]) by u8s. cbn [bind app].
    rewrite (set_append [_; _; _; _; _; _]) by u8s. cbn [bind app].
    rewrite (set_append [_; _; _; _; _; _; _]) by u8s. cbn [bind app].
    do 5 f_equal. f_equal. dlia.
  - destruct T as (F & B & T). unfold make_function_block_name_message. rewrite check_iff.
    replace (dbg && _) with false by (destruct dbg; [specialize (C eq_refl)|]; lia).
    rewrite stream_message_bytes by (unfold is_u8, st_function_block_name; lia).
    change st_function_block_name with 18.
    rewrite (set_append [_; _]) by u8s. cbn [bind app].
    rewrite (put_chars_8 t [_; _; _]); [|u8s|assumption|cbn [length]; lia].
    f_equal. symmetry. apply (pob_firstn [_; _; _] 13). reflexivity.
Qed.

Theorem make_unchecked c : stream_typed c -> ~ stream_checked c -> stream_make true c = Fault AssertFail.
Proof.
  intros T N.
  destruct c as [f ma mi|n s pr e ma mi|i|f t|f t|p e|p e|b f|b d g n|b o g n|f b t];
    cbn [stream_typed stream_checked] in T, N; try (now exfalso; auto); cbn [stream_make].
  - unfold make_endpoint_name_message. rewrite check_iff. replace (true && _) with true by lia. reflexivity.
  - unfold make_product_instance_id_message. rewrite !check_iff. cbn [andb].
    destruct (size t <=? 14) eqn:A; [|reflexivity]. cbn [negb].
    replace (negb (negb (f =? pf_cont))) with true by (unfold pf_cont; lia). reflexivity.
  - unfold make_stream_configuration_request. unfold is_u8 in *. rewrite check_iff. replace (true && _) with true by lia. reflexivity.
  - unfold make_stream_configuration_notification. unfold is_u8 in *. rewrite check_iff. replace (true && _) with true by lia. reflexivity.
  - unfold make_function_block_discovery_message. rewrite check_iff. replace (true && _) with true by lia. reflexivity.
  - unfold make_function_block_info_message. rewrite !check_iff. cbn [andb].
    destruct (b <? 32) eqn:A; [|reflexivity]. cbn [negb].
    replace (negb ((0 <? d) && (d <? 4))) with true by lia. reflexivity.
  - destruct o as [ac di m1 ui ci s8]. unfold make_function_block_info_message_options.
    cbn [fo_active fo_direction fo_midi1 fo_ui_hint fo_ci_version fo_sysex8] in *. rewrite !check_iff. cbn [andb].
    destruct (b <? 32) eqn:A; [|reflexivity]. cbn [negb].
    destruct ((0 <? di) && (di <? 4)) eqn:B; [|reflexivity]. cbn [negb].
    destruct (m1 <? 3) eqn:C; [|reflexivity]. cbn [negb].
    destruct (ui <? 4) eqn:D; [|reflexivity]. cbn [negb].
    replace (negb _) with true; [reflexivity|].
    unfold is_u8 in *.
    assert (di = 1 \/ di = 2 \/ di = 3) as [-> | [-> | ->]] by lia;
    assert (ui = 0 \/ ui = 1 \/ ui = 2 \/ ui = 3) as [-> | [-> | [-> | ->]]] by lia; trivial; exfalso; lia.
  - unfold make_function_block_name_message. rewrite check_iff. replace (true && _) with true by lia. reflexivity.
Qed.

(* ---- reading -------------------------------------------------------------------------------- *)

Lemma packet_is_bytes p : wf_packet p -> exists l, length l = 16%nat /\ Forall is_u8 l /\ bytes p = l /\ p = packet_of_bytes l.
Proof.
  intros W. exists (bytes p). repeat split.
  - apply bytes_range.
  - now rewrite pob_of_bytes.
Qed.

Lemma view_iff dbg k p : wf_packet p ->
  (of_kind k p /\ stream_view dbg k p = Ok p /\ as_stream_view dbg k p = Ok (Some p)) \/
  (~ of_kind k p /\ stream_view dbg k p = (if dbg then Fault AssertFail else Ok p) /\ as_stream_view dbg k p = Ok None).
Proof.
  intros W. destruct (packet_is_bytes p W) as (l & L & U & B & E).
  pose proof (pob_type l U) as T. pose proof (pob_status l U) as S. rewrite <- E in T, S.
  unfold of_kind. rewrite B, <- T, <- S.
  destruct (Z.eq_dec (type p) 15) as [T1|T1].
  - assert (D : kind_status k (status p) \/ ~ kind_status k (status p)) by (destruct k; cbn [kind_status]; lia).
    destruct D as [D|D]; [left|right].
    + split; [tauto|].
      destruct k; cbn [kind_status stream_view as_stream_view] in *;
        unfold endpoint_discovery_view, endpoint_info_view, device_identity_view, endpoint_name_view, product_instance_id_view,
          stream_configuration_view, function_block_discovery_view, function_block_info_view, function_block_name_view,
          as_endpoint_discovery_view, as_endpoint_info_view, as_device_identity_view, as_endpoint_name_view, as_product_instance_id_view,
          as_stream_configuration_view, as_function_block_discovery_view, as_function_block_info_view, as_function_block_name_view,
          is_stream_message;
        unfold endpoint_discovery_view, endpoint_info_view, device_identity_view, endpoint_name_view, product_instance_id_view,
          stream_configuration_view, function_block_discovery_view, function_block_info_view, function_block_name_view;
        rewrite T1; [rewrite D|rewrite D|rewrite D|rewrite D|rewrite D|destruct D as [-> | ->]|rewrite D|rewrite D|rewrite D];
        now destruct dbg.
    + split; [tauto|].
      destruct k; cbn [kind_status stream_view as_stream_view] in *;
        unfold endpoint_discovery_view, endpoint_info_view, device_identity_view, endpoint_name_view, product_instance_id_view,
          stream_configuration_view, function_block_discovery_view, function_block_info_view, function_block_name_view,
          as_endpoint_discovery_view, as_endpoint_info_view, as_device_identity_view, as_endpoint_name_view, as_product_instance_id_view,
          as_stream_configuration_view, as_function_block_discovery_view, as_function_block_info_view, as_function_block_name_view,
          is_stream_message, pt_stream, st_endpoint_discovery, st_endpoint_info, st_device_identity, st_endpoint_name, st_product_instance_id,
          st_stream_configuration_request, st_stream_configuration_notify, st_function_block_discovery, st_function_block_info, st_function_block_name;
        rewrite T1, !check_iff, ?check_iff;
        match goal with |- context[15 =? 0xF] => change (15 =? 0xF) with true end;
        try (replace (status p =? _) with false by lia);
        try (replace (status p =? 0x05) with false by lia; replace (status p =? 0x06) with false by lia);
        cbn [andb orb negb]; destruct dbg; auto.
  - right. split; [lia|].
    destruct k; cbn [stream_view as_stream_view] in *;
        unfold endpoint_discovery_view, endpoint_info_view, device_identity_view, endpoint_name_view, product_instance_id_view,
          stream_configuration_view, function_block_discovery_view, function_block_info_view, function_block_name_view,
          as_endpoint_discovery_view, as_endpoint_info_view, as_device_identity_view, as_endpoint_name_view, as_product_instance_id_view,
          as_stream_configuration_view, as_function_block_discovery_view, as_function_block_info_view, as_function_block_name_view,
          is_stream_message, pt_stream;
      rewrite !check_iff; replace (type p =? 0xF) with false by lia; now destruct dbg.
Qed.

Lemma payload_spec p : forall n b, (b + n = 16)%nat ->
  payload_loop p b n = Ok (text7 (skipn b (bytes p))).
Proof.
  induction n as [|n IH]; intros b N; cbn [payload_loop].
  - rewrite skipn_all2; [reflexivity|]. rewrite bytes_length. lia.
  - rewrite get_byte_7bit_spec by lia. cbn [bind].
    assert (E : skipn b (bytes p) = nth b (bytes p) 0 :: skipn (S b) (bytes p)).
    { assert (X : (b < length (bytes p))%nat) by (rewrite bytes_length; lia). revert X. clear.
      revert b. generalize (bytes p). induction l as [|x l IH]; intros b L; cbn [length] in L; [lia|].
      destruct b; [reflexivity|]. cbn [skipn nth]. rewrite IH by lia. reflexivity. }
    rewrite E. unfold text7. cbn [map until_zero]. destruct (_ mod 128 =? 0); [reflexivity|].
    rewrite IH by lia. reflexivity.
Qed.

Lemma bit_test k (v : Z) : 0 <= k -> bit k v = negb (v / 2 ^ k mod 2 =? 0).
Proof. intros. unfold bit. rewrite Zmod_odd. now destruct (Z.odd _). Qed.

Lemma mask_test k (v : Z) : 0 <= k -> negb (Z.land v (2 ^ k) =? 0) = bit k v.
Proof.
  intros K. rewrite bit_test by assumption. f_equal.
  replace (2 ^ k) with (Z.shiftl (Z.ones 1) k) at 1 by (rewrite Z.shiftl_mul_pow2 by lia; change (Z.ones 1) with 1; lia).
  rewrite land_field by lia. change (2 ^ 1) with 2.
  assert (0 < 2 ^ k) by (apply Z.pow_pos_nonneg; lia). nia.
Qed.

Ltac word_u8 H := unfold be32 in *; unfold is_u8 in H.

Lemma be32_b0 a b c d : 0 <= a < 256 -> 0 <= b < 256 -> 0 <= c < 256 -> 0 <= d < 256 ->
  be32 a b c d / 16777216 mod 128 = a mod 128.
Proof. unfold be32. intros. dlia. Qed.
Lemma be32_b1 a b c d : 0 <= a < 256 -> 0 <= b < 256 -> 0 <= c < 256 -> 0 <= d < 256 ->
  be32 a b c d / 65536 mod 128 = b mod 128.
Proof. unfold be32. intros. dlia. Qed.
Lemma be32_b2 a b c d : 0 <= a < 256 -> 0 <= b < 256 -> 0 <= c < 256 -> 0 <= d < 256 ->
  be32 a b c d / 256 mod 128 = c mod 128.
Proof. unfold be32. intros. dlia. Qed.
Lemma be32_b3 a b c d : 0 <= a < 256 -> 0 <= b < 256 -> 0 <= c < 256 -> 0 <= d < 256 ->
  be32 a b c d mod 128 = d mod 128.
Proof. unfold be32. intros. dlia. Qed.
Lemma high_9 w : w / 512 / 128 mod 128 = w / 65536 mod 128.
Proof. now rewrite Z.div_div by lia. Qed.
Lemma low_7 w : (w * 128) mod 4294967296 / 128 mod 128 = w mod 128.
Proof. dlia. Qed.
Lemma low_6 w : (w * 64) mod 4294967296 / 16384 mod 128 = w / 256 mod 128.
Proof. dlia. Qed.
Lemma low_21 w : (w * 2097152) mod 4294967296 / 2097152 mod 128 = w mod 128.
Proof. dlia. Qed.

Theorem read_meaning k p : wf_packet p -> stream_read k p = Ok (stream_meaning k (bytes p)).
Proof.
  intros W. destruct (packet_is_bytes p W) as (l & L & U & B & E).
  assert (W0 : w0 p = be32 (nth 0 l 0) (nth 1 l 0) (nth 2 l 0) (nth 3 l 0)) by now rewrite E.
  assert (W1 : w1 p = be32 (nth 4 l 0) (nth 5 l 0) (nth 6 l 0) (nth 7 l 0)) by now rewrite E.
  assert (W2 : w2 p = be32 (nth 8 l 0) (nth 9 l 0) (nth 10 l 0) (nth 11 l 0)) by now rewrite E.
  assert (W3 : w3 p = be32 (nth 12 l 0) (nth 13 l 0) (nth 14 l 0) (nth 15 l 0)) by now rewrite E.
  pose proof (pob_byte3 l U) as B3. pose proof (pob_byte4 l U) as B4. rewrite <- E in B3, B4.
  pose proof (fun i => nth_u8 l i U) as N. unfold is_u8 in N.
  assert (G : forall i, (i < 16)%nat -> get_byte p i = Ok (nth i l 0)) by (intros; rewrite get_byte_spec, B by assumption; reflexivity).
  assert (VE : Z.land (w0 p) 65535 = 256 * nth 2 l 0 + nth 3 l 0).
  { rewrite land_65535, W0. unfold be32. pose proof (N 0%nat). pose proof (N 1%nat). pose proof (N 2%nat). pose proof (N 3%nat). dlia. }
  assert (FM : Z.land (Z.shiftr (w0 p) 26) 3 = nth 0 l 0 / 4 mod 4).
  { rewrite land_3, shiftr_div, W0 by lia. pow2_simpl. unfold be32. pose proof (N 0%nat). pose proof (N 1%nat). pose proof (N 2%nat). pose proof (N 3%nat). dlia. }
  destruct k; cbn [stream_read stream_meaning].
  - unfold requests_info, requests_device_identity, requests_name, requests_product_instance_id, requests_stream_configuration,
      discovery_ump_version, discovery_ump_version_major, discovery_ump_version_minor.
    assert (F : discovery_filter p = nth 7 l 0 mod 32).
    { unfold discovery_filter, u8. rewrite land_31, W1. unfold be32. pose proof (N 4%nat). pose proof (N 5%nat). pose proof (N 6%nat). pose proof (N 7%nat). dlia. }
    rewrite F, B3, B4, VE, B. unfold u16. rewrite Z.mod_small by (pose proof (N 2%nat); pose proof (N 3%nat); lia).
    rewrite (mask_test 0), (mask_test 1), (mask_test 2), (mask_test 3), (mask_test 4) by lia. reflexivity.
  - unfold num_function_blocks, static_function_blocks, info_protocols, info_extensions.
    rewrite !G by lia. cbn [bind]. unfold info_ump_version_major, info_ump_version_minor, info_ump_version.
    rewrite B3, B4, VE, B, land_127, !land_3, (mask_test 7) by lia.
    unfold u16. rewrite Z.mod_small by (pose proof (N 2%nat); pose proof (N 3%nat); lia). reflexivity.
  - rewrite B. f_equal. f_equal. unfold stream_identity. rewrite W1, W2, W3.
    change 0x007F7F7F with (Z.lor (Z.lor 0x7F0000 0x7F00) 0x7F).
    rewrite !Z.land_lor_distr_r, !field_16, !field_8, !land_127, !field_7, !field_14, !field_21, !shiftl_mul, !shiftr_div by lia.
    pow2_simpl.
    pose proof (N 4%nat). pose proof (N 5%nat). pose proof (N 6%nat). pose proof (N 7%nat).
    pose proof (N 8%nat). pose proof (N 9%nat). pose proof (N 10%nat). pose proof (N 11%nat).
    pose proof (N 12%nat). pose proof (N 13%nat). pose proof (N 14%nat). pose proof (N 15%nat).
    set (b4 := nth 4 l 0) in *. set (b5 := nth 5 l 0) in *. set (b6 := nth 6 l 0) in *. set (b7 := nth 7 l 0) in *.
    set (b8 := nth 8 l 0) in *. set (b9 := nth 9 l 0) in *. set (b10 := nth 10 l 0) in *. set (b11 := nth 11 l 0) in *.
    set (b12 := nth 12 l 0) in *. set (b13 := nth 13 l 0) in *. set (b14 := nth 14 l 0) in *. set (b15 := nth 15 l 0) in *.
    clearbody b4 b5 b6 b7 b8 b9 b10 b11 b12 b13 b14 b15. unfold be32, val7, u16, u32.
    fold (be32 b4 b5 b6 b7) (be32 b8 b9 b10 b11) (be32 b12 b13 b14 b15).
    rewrite !(be32_b3), !(be32_b1), !(be32_b2), !be32_b0, !high_9, !low_7, !low_6, !low_21 by lia.
    rewrite !be32_b3, !be32_b1, !be32_b2 by lia.
    f_equal.
    + rewrite (lor_add 16 (_ * 65536)) by (pow2_simpl; dlia). rewrite (lor_add 8) by (pow2_simpl; dlia). lia.
    + rewrite (lor_add_r 7) by (pow2_simpl; dlia). rewrite Z.mod_small by lia. lia.
    + rewrite (lor_add_r 7) by (pow2_simpl; dlia). rewrite Z.mod_small by lia. lia.
    + rewrite (lor_add_r 7 (b12 mod 128)) by (pow2_simpl; dlia).
      rewrite (lor_add_r 14 (b12 mod 128 + _)) by (pow2_simpl; dlia).
      rewrite (lor_add_r 21) by (pow2_simpl; dlia). lia.
  - unfold endpoint_name_payload, payload_as_string. rewrite payload_spec by lia. cbn [bind].
    unfold endpoint_name_format. now rewrite FM, B.
  - unfold product_instance_id_payload, payload_as_string. rewrite payload_spec by lia. cbn [bind].
    unfold product_instance_id_format. now rewrite FM, B.
  - unfold configuration_protocol, configuration_extensions. now rewrite !land_3, B3, B4, B.
  - unfold fb_requests_info, fb_requests_name, fb_discovery_filter, fb_discovery_block.
    now rewrite land_15, B3, B4, B, (mask_test 0), (mask_test 1) by lia.
  - unfold fb_block, fb_first_group, fb_num_groups, fb_ci_version, fb_max_sysex8.
    rewrite get_byte_7bit_spec, !G by lia. cbn [bind]. unfold fb_active, fb_direction, fb_midi1, fb_ui_hint.
    rewrite !land_3, !shiftr_div, B by lia. rewrite (mask_test 15), bit_test by lia. rewrite W0.
    pose proof (N 0%nat). pose proof (N 1%nat). pose proof (N 2%nat). pose proof (N 3%nat). unfold u8, be32. pow2_simpl.
    f_equal. f_equal; try dlia. rewrite bit_test by lia. f_equal. pow2_simpl. f_equal. dlia.
  - unfold fb_name_payload, payload_as_string. rewrite payload_spec by lia. cbn [bind].
    unfold fb_name_format, fb_name_block. now rewrite FM, B3, B, land_127.
Qed.

(* ---- round trip ------------------------------------------------------------------------------ *)

Lemma pad16_zeros l : (length l <= 16)%nat -> pad16 l = l ++ repeat 0 (16 - length l).
Proof.
  intros L. apply nth_ext0; [rewrite app_length, repeat_length, pad16_length; lia|].
  intros i I. rewrite pad16_length in I. rewrite nth_pad16 by assumption.
  destruct (Nat.lt_ge_cases i (length l)).
  - now rewrite app_nth1.
  - rewrite app_nth2, (nth_overflow l), nth_repeat by lia. reflexivity.
Qed.

Lemma text7_plain t n : Forall is_char7 t -> text7 (t ++ repeat 0 n) = t.
Proof.
  unfold text7. induction 1 as [|c t C T IH]; cbn [app map until_zero].
  - destruct n; reflexivity.
  - unfold is_char7 in C. rewrite Z.mod_small by lia. replace (c =? 0) with false by lia. now rewrite IH.
Qed.

Lemma char7_u8 t : Forall is_char7 t -> Forall is_u8 t.
Proof. apply Forall_impl. unfold is_char7, is_u8. lia. Qed.
Lemma char7_mod t : Forall is_char7 t -> map (fun c => c mod 128) t = t.
Proof. induction 1 as [|c t C T IH]; cbn [map]; [reflexivity|]. unfold is_char7 in C. rewrite IH. f_equal. lia. Qed.

Lemma in_range_typed c : stream_in_range c -> stream_typed c /\ stream_checked c.
Proof.
  destruct c; cbn [stream_in_range stream_typed stream_checked]; intros H.
  - unfold is_u8 in *; lia.
  - unfold is_u8 in *; lia.
  - destruct H as ((m0 & m1 & m2 & H0 & H1 & H2 & ->) & H). unfold is_u7, is_u14, is_u28, is_u16, is_u32 in *. lia.
  - intuition auto using char7_u8.
  - intuition auto using char7_u8.
  - unfold is_u8; lia.
  - unfold is_u8; lia.
  - unfold is_u8; lia.
  - unfold is_u8; lia.
  - unfold is_u8 in *. lia.
  - unfold is_u7, is_u8 in *. intuition auto using char7_u8; lia.
Qed.

Lemma wire_form c : stream_typed c -> exists f st r,
  stream_wire c = stream_packet f st r /\ kind_status (call_kind c) st /\ 0 <= f < 4 /\ Forall is_u8 ((15 * 16 + f * 4) :: st :: r).
Proof.
  intros T. destruct c as [f ma mi|n s pr e ma mi|i|f t|f t|p e|p e|b f|b d g n|b o g n|f b t];
    cbn [stream_wire stream_typed] in *; eexists _, _, _; (split; [reflexivity|split; [cbn [call_kind kind_status]; auto|split; [lia|]]]).
  - u8s; intuition auto.
  - destruct T as (N & PR & E & MA & MI). u8s; destruct s; unfold is_u8 in *; lia.
  - unfold le7. cbn [app]. u8s; apply word_byte_u8.
  - destruct T as (F & T). repeat apply Forall_cons; [now apply u8_hd|unfold is_u8; lia|].
    rewrite <- (firstn_skipn 14 t) in T. apply Forall_app in T. tauto.
  - destruct T as (F & T). repeat apply Forall_cons; [now apply u8_hd|unfold is_u8; lia|].
    assert (X : Forall is_u8 (map (fun c => c mod 128) t)) by (apply Forall_map, Forall_forall; unfold is_u8; intros; lia).
    rewrite <- (firstn_skipn 14 (map _ t)) in X. apply Forall_app in X. tauto.
  - u8s; intuition auto.
  - u8s; intuition auto.
  - u8s; intuition auto.
  - u8s.
  - destruct T as (B & D & M & U & CI & S8 & G & N). unfold ui_field. u8s; destruct (fo_active o), (fo_ui_hint o =? 0); unfold is_u8 in *; dlia.
  - destruct T as (F & B & T). repeat apply Forall_cons; [now apply u8_hd|unfold is_u8; lia|assumption|].
    rewrite <- (firstn_skipn 13 t) in T. apply Forall_app in T. tauto.
Qed.

Lemma wire_wf c : stream_typed c -> wf_packet (stream_wire c).
Proof. intros T. destruct (wire_form c T) as (f & st & r & -> & _ & _ & F). now apply pob_wf. Qed.

Lemma wire_kind c : stream_typed c -> of_kind (call_kind c) (stream_wire c).
Proof.
  intros T. destruct (wire_form c T) as (f & st & r & -> & K & F4 & F). unfold of_kind, stream_packet.
  rewrite pob_bytes by assumption. rewrite !nth_pad16 by lia. cbn [nth]. split; [dlia|assumption].
Qed.

Lemma fold_stream_text a b t : (length t <= 14)%nat -> skipn 2 (pad16 (a :: b :: t)) = t ++ repeat 0 (14 - length t).
Proof. intros. rewrite pad16_zeros by (cbn [length]; lia). reflexivity. Qed.
Lemma fold_stream_text3 a b c t : (length t <= 13)%nat -> skipn 3 (pad16 (a :: b :: c :: t)) = t ++ repeat 0 (13 - length t).
Proof. intros. rewrite pad16_zeros by (cbn [length]; lia). reflexivity. Qed.
Lemma pad16_hd a t : nth 0 (pad16 (a :: t)) 0 = a.
Proof. reflexivity. Qed.

Lemma format_back f : 0 <= f < 4 -> (15 * 16 + f * 4) / 4 mod 4 = f.
Proof. intros. dlia. Qed.

Theorem wire_meaning c : stream_in_range c -> stream_meaning (call_kind c) (bytes (stream_wire c)) = call_report c.
Proof.
  intros R. destruct (in_range_typed c R) as [T C]. pose proof (wire_wf c T) as W.
  assert (P : forall f st r, stream_wire c = stream_packet f st r -> Forall is_u8 ((15 * 16 + f * 4) :: st :: r) ->
    bytes (stream_wire c) = pad16 ((15 * 16 + f * 4) :: st :: r)) by (intros f st r -> F; now apply pob_bytes).
  destruct c as [f ma mi|n s pr e ma mi|i|f t|f t|p e|p e|b f|b d g n|b o g n|f b t];
    cbn [stream_in_range] in R; cbn [call_kind call_report stream_meaning].
  - cbn [stream_wire] in *. erewrite P; [|reflexivity|u8s].
    cbn -[Z.div Z.modulo Z.mul Z.add]. now rewrite Z.mod_small by lia.
  - cbn [stream_wire] in *. erewrite P; [|reflexivity|u8s; destruct s; unfold is_u8; lia].
    cbn -[Z.div Z.modulo Z.mul Z.add]. rewrite bit_test by lia. change (2 ^ 7) with 128.
    destruct R as (N & PR & E & MA & MI). unfold is_u8 in *.
    f_equal; try lia; destruct s; try dlia.
  - destruct R as ((m0 & m1 & m2 & H0 & H1 & H2 & M) & FA & MO & RE). cbn [stream_wire] in *.
    erewrite P; [|reflexivity|unfold le7; cbn [app]; u8s; apply word_byte_u8].
    destruct i as [m fa mo re]. cbn [di_manufacturer di_family di_model di_revision] in *.
    cbn -[Z.div Z.modulo Z.mul Z.add Z.pow Z.sub]. unfold word_byte.
    change (256 ^ (3 - 1)) with 65536. change (256 ^ (3 - 2)) with 256. change (256 ^ (3 - 3)) with 1.
    unfold is_u7, is_u14, is_u28 in *. subst m. f_equal. f_equal; dlia.
  - destruct R as (F & X & S). unfold size in S. cbn [stream_wire] in *. rewrite firstn_all2 in P by lia.
    rewrite firstn_all2 in * by lia.
    erewrite P; [|reflexivity|u8s; now apply char7_u8]. rewrite pad16_hd, fold_stream_text, text7_plain, format_back by (assumption || lia). reflexivity.
  - destruct R as (F & _ & X & S). unfold size in S. cbn [stream_wire] in *. rewrite char7_mod in * by assumption. rewrite firstn_all2 in * by lia.
    erewrite P; [|reflexivity|u8s; now apply char7_u8]. rewrite pad16_hd, fold_stream_text, text7_plain, format_back by (assumption || lia). reflexivity.
  - cbn [stream_wire] in *. erewrite P; [|reflexivity|u8s]. cbn -[Z.div Z.modulo Z.mul Z.add]. f_equal; lia.
  - cbn [stream_wire] in *. erewrite P; [|reflexivity|u8s]. cbn -[Z.div Z.modulo Z.mul Z.add]. f_equal; lia.
  - cbn [stream_wire] in *. erewrite P; [|reflexivity|u8s]. cbn -[Z.div Z.modulo Z.mul Z.add]. now rewrite Z.mod_small by lia.
  - cbn [stream_wire] in *. erewrite P; [|reflexivity|u8s]. cbn -[Z.div Z.modulo Z.mul Z.add].
    rewrite bit_test by lia. change (2 ^ 7) with 128. f_equal; try lia; dlia.
  - destruct o as [ac di m1 ui ci s8]. cbn [stream_wire fo_active fo_direction fo_midi1 fo_ui_hint fo_ci_version fo_sysex8] in *.
    unfold ui_field in *. cbn [fo_direction fo_ui_hint] in *.
    erewrite P; [|reflexivity|u8s; destruct ac, (ui =? 0); unfold is_u8 in *; dlia].
    cbn -[Z.div Z.modulo Z.mul Z.add Z.eqb]. rewrite bit_test by lia. change (2 ^ 7) with 128. unfold is_u8 in *.
    assert (E : (if ui =? 0 then di mod 4 else ui mod 4) = if ui =? 0 then di else ui) by (destruct (ui =? 0); lia).
    rewrite E. set (h := if ui =? 0 then di else ui). assert (0 <= h < 4) by (unfold h; destruct (ui =? 0) eqn:?; lia). clearbody h.
    f_equal; try lia; try dlia; destruct ac; dlia.
  - destruct R as (F & B & X & S). unfold size in S. cbn [stream_wire] in *. rewrite firstn_all2 in * by lia.
    erewrite P; [|reflexivity|unfold is_u7 in *; u8s; now apply char7_u8].
    rewrite pad16_hd, fold_stream_text3, text7_plain, format_back by (assumption || lia).
    change (nth 2 (pad16 _) 0) with b. unfold is_u7 in B. now rewrite Z.mod_small by lia.
Qed.


Lemma kind_status_inj k k' st : kind_status k st -> kind_status k' st -> k = k'.
Proof. destruct k, k'; cbn [kind_status]; trivial; lia. Qed.

Theorem stream_round_trip dbg c : stream_in_range c ->
  exists p, stream_make dbg c = Ok p /\ wf_packet p /\
  as_stream_view dbg (call_kind c) p = Ok (Some p) /\
  (forall k, k <> call_kind c -> as_stream_view dbg k p = Ok None) /\
  stream_read (call_kind c) p = Ok (call_report c).
Proof.
  intros R. destruct (in_range_typed c R) as [T C]. exists (stream_wire c).
  pose proof (wire_wf c T) as W. destruct (wire_kind c T) as [A B].
  refine (conj (make_wire dbg c T (fun _ => C)) (conj W (conj _ (conj _ _)))).
  - destruct (view_iff dbg (call_kind c) _ W) as [(_ & _ & ->)|(N & _ & _)]; [reflexivity|]. now destruct N.
  - intros k NE. destruct (view_iff dbg k _ W) as [((_ & K) & _ & _)|(_ & _ & ->)]; [|reflexivity].
    destruct NE. now apply kind_status_inj with (1 := K).
  - rewrite read_meaning by assumption. now rewrite wire_meaning.
Qed.

(* ---- senders ----------------------------------------------------------------------------------- *)

Lemma send_rest_spec (make : Z -> list Z -> res packet) (wire : Z -> list Z -> packet) k :
  (0 < k)%nat ->
  (forall f t, f = 2 \/ f = 3 -> (length t <= k)%nat -> Forall is_u8 t -> make f t = Ok (wire f t)) ->
  forall n t, (length t <= n)%nat -> (0 < length t)%nat -> Forall is_u8 t ->
  exists m cs, send_rest make k n t = Ok (map (fun fc => wire (fst fc) (snd fc)) (combine (repeat 2 m ++ [3]) cs)) /\
    length cs = S m /\ pieces k cs /\ cs <> [[]] /\ concat cs = t.
Proof.
  intros K M. induction n as [|n IH]; intros t L P U; [lia|]. cbn [send_rest].
  destruct (k <? length t)%nat eqn:E.
  - assert (U' := U). rewrite <- (firstn_skipn k t) in U'. apply Forall_app in U' as [U1 U2].
    rewrite M by (auto; rewrite firstn_length; lia). cbn [bind].
    destruct (IH (skipn k t)) as (m & cs & S & LC & PC & NC & CC); trivial; rewrite ?skipn_length; try lia.
    rewrite S. cbn [bind]. exists (Datatypes.S m), (firstn k t :: cs). repeat split.
    + cbn [length]. now rewrite LC.
    + destruct cs as [|d cs]; [cbn [length] in LC; lia|]. cbn [pieces]. split; [rewrite firstn_length; lia|]. split; assumption.
    + destruct cs; [cbn [length] in LC; lia|discriminate].
    + cbn [concat]. now rewrite CC, firstn_skipn.
  - rewrite M by (auto; lia). cbn [bind]. exists O, [t]. repeat split.
    + cbn [pieces]. lia.
    + intros X. injection X as ->. cbn [length] in P. lia.
    + cbn [concat]. apply app_nil_r.
Qed.

Lemma send_spec (make : Z -> list Z -> res packet) (wire : Z -> list Z -> packet) k t :
  (0 < k)%nat ->
  (forall f t, 0 <= f < 4 -> (length t <= k)%nat -> Forall is_u8 t -> make f t = Ok (wire f t)) ->
  Forall is_u8 t ->
  exists fs cs, text_formats fs /\ pieces k cs /\ concat cs = t /\
  bind (if (length t <=? k)%nat then bind (make 0 t) (fun p => Ok [p])
   else bind (make 1 (firstn k t)) (fun p => bind (send_rest make k (length t) (skipn k t)) (fun r => Ok (p :: r)))) (fun x => Ok x) =
  Ok (map (fun fc => wire (fst fc) (snd fc)) (combine fs cs)) /\ length fs = length cs.
Proof.
  intros K M U. destruct (length t <=? k)%nat eqn:E.
  - exists [0], [t]. rewrite M by (assumption || lia). repeat split.
    + constructor.
    + cbn [pieces]. lia.
    + cbn [concat]. apply app_nil_r.
  - assert (U' := U). rewrite <- (firstn_skipn k t) in U'. apply Forall_app in U' as [U1 U2].
    rewrite M by (trivial; rewrite ?firstn_length; lia). cbn [bind].
    destruct (send_rest_spec make wire k K) with (n := length t) (t := skipn k t) as (m & cs & S & LC & PC & NC & CC); trivial;
      rewrite ?skipn_length; try lia.
    { intros f u [-> | ->] Lu Uu; apply M; trivial; lia. }
    exists (1 :: repeat 2 m ++ [3]), (firstn k t :: cs). rewrite S. cbn [bind combine map fst snd]. repeat split.
    + constructor.
    + destruct cs as [|d cs]; [cbn [length] in LC; lia|]. cbn [pieces]. split; [rewrite firstn_length; lia|]. split; assumption.
    + cbn [concat]. now rewrite CC, firstn_skipn.
    + cbn [length]. rewrite app_length, repeat_length. cbn [length]. lia.
Qed.

Theorem send_packets dbg s t : Forall is_u8 t -> sender_typed s -> (s = TProduct -> size t <= 16) ->
  exists fs cs, text_formats fs /\ pieces (room s) cs /\ concat cs = t /\ length fs = length cs /\
    send_text dbg s t = Ok (map (fun fc => stream_wire (text_call s (fst fc) (snd fc))) (combine fs cs)).
Proof.
  intros U S P. destruct s as [| |b]; cbn [send_text room sender_typed text_call] in *.
  - destruct (send_spec (make_endpoint_name_message dbg) (fun f t => stream_wire (SName f t)) 14 t) as (fs & cs & F & PC & C & E & L); trivial; try lia.
    { intros f u F4 L V. apply (make_wire dbg (SName f u)); cbn [stream_typed stream_checked]; [tauto|unfold size; lia]. }
    exists fs, cs. repeat (split; [assumption|]). rewrite <- E.
    unfold send_endpoint_name, pf_complete, pf_start. destruct (length t <=? 14)%nat.
    + now destruct (make_endpoint_name_message dbg 0 t).
    + destruct (make_endpoint_name_message dbg 1 _); cbn [bind]; [|reflexivity]. now destruct (send_rest _ _ _ _).
  - specialize (P eq_refl). unfold size in P. unfold send_product_instance_id, pf_complete, pf_start, pf_end. rewrite check_iff.
    replace (dbg && _) with false by (unfold size; lia).
    assert (M : forall f u, 0 <= f < 4 -> f <> 2 -> (length u <= 14)%nat -> Forall is_u8 u ->
      make_product_instance_id_message dbg f u = Ok (stream_wire (SProduct f u))).
    { intros f u F4 F2 L V. apply (make_wire dbg (SProduct f u)); cbn [stream_typed stream_checked]; [tauto|unfold size; lia]. }
    destruct (length t <=? 14)%nat eqn:E.
    + exists [0], [t]. rewrite M by (assumption || lia). repeat split.
      * constructor.
      * cbn [pieces]. lia.
      * cbn [concat]. apply app_nil_r.
    + assert (U' := U). rewrite <- (firstn_skipn 14 t) in U'. apply Forall_app in U' as [U1 U2].
      rewrite (firstn_all2 (n := 2)) by (rewrite skipn_length; lia).
      rewrite !M by (trivial; rewrite ?firstn_length, ?skipn_length; lia). cbn [bind].
      exists [1; 3], [firstn 14 t; skipn 14 t]. repeat split.
      * apply (formats_many 0).
      * rewrite firstn_length. lia.
      * cbn [pieces]. rewrite skipn_length. lia.
      * intros X. apply (f_equal (fun l => length (hd [] l))) in X. cbn [hd] in X. rewrite skipn_length in X. cbn [length] in X. lia.
      * cbn [concat]. now rewrite app_nil_r, firstn_skipn.
  - destruct (send_spec (fun f => make_function_block_name_message dbg f b) (fun f t => stream_wire (SBlockName f b t)) 13 t) as (fs & cs & F & PC & C & E & L); trivial; try lia.
    { intros f u F4 L V. apply (make_wire dbg (SBlockName f b u)); cbn [stream_typed stream_checked]; [tauto|unfold size; lia]. }
    exists fs, cs. repeat (split; [assumption|]). rewrite <- E.
    unfold send_function_block_name, pf_complete, pf_start. destruct (length t <=? 13)%nat.
    + now destruct (make_function_block_name_message dbg 0 b t).
    + destruct (make_function_block_name_message dbg 1 b _); cbn [bind]; [|reflexivity]. now destruct (send_rest _ _ _ _).
Qed.

Lemma text7_visible t n : Forall visible t -> text7 (t ++ repeat 0 n) = map (fun c => c mod 128) t.
Proof.
  unfold text7. induction 1 as [|c t C T IH]; cbn [app map until_zero].
  - destruct n; reflexivity.
  - unfold visible in C. replace (c mod 128 =? 0) with false by lia. now rewrite IH.
Qed.
Lemma visible_u8 t : Forall visible t -> Forall is_u8 t.
Proof. apply Forall_impl. unfold visible. tauto. Qed.

Lemma text_wire s f t : 0 <= f < 4 -> sender_typed s -> (length t <= room s)%nat -> Forall visible t ->
  let p := stream_wire (text_call s f t) in
  wf_packet p /\ of_kind (text_kind s) p /\ text_format (text_kind s) p = f /\
  stream_text (text_kind s) p = Ok (map (fun c => c mod 128) t) /\
  (forall b, s = TBlock b -> fb_name_block p = b mod 128).
Proof.
  intros F S L V p. assert (T : stream_typed (text_call s f t)).
  { destruct s; cbn [text_call stream_typed sender_typed] in *; intuition auto using visible_u8. }
  assert (K : call_kind (text_call s f t) = text_kind s) by now destruct s.
  assert (W : wf_packet p) by now apply wire_wf.
  split; [assumption|]. split; [rewrite <- K; now apply wire_kind|].
  pose proof (read_meaning (text_kind s) p W) as R.
  assert (M : stream_meaning (text_kind s) (bytes p) =
    match s with TName => RName f (map (fun c => c mod 128) t) | TProduct => RProduct f (map (fun c => c mod 128) t)
    | TBlock b => RBlockName f (b mod 128) (map (fun c => c mod 128) t) end).
  { assert (Q : forall f st r, Forall is_u8 ((15 * 16 + f * 4) :: st :: r) ->
      bytes (stream_packet f st r) = pad16 ((15 * 16 + f * 4) :: st :: r)) by (intros; now apply pob_bytes).
    assert (X : Forall is_u8 (map (fun c => c mod 128) t)) by (apply Forall_map, Forall_forall; unfold is_u8; intros; lia).
    unfold p. destruct s as [| |b]; cbn [text_call stream_wire text_kind room sender_typed] in *;
      rewrite firstn_all2 by (rewrite ?map_length; lia); cbn [stream_meaning]; (rewrite Q; [|u8s; now apply visible_u8]).
    - rewrite pad16_hd, fold_stream_text, text7_visible, format_back by (assumption || lia). reflexivity.
    - rewrite pad16_hd, fold_stream_text, format_back by (rewrite ?map_length; assumption || lia).
      f_equal. rewrite text7_visible.
      + rewrite map_map. apply map_ext. intros c. now rewrite Z.mod_mod by lia.
      + apply Forall_map. revert V. apply Forall_impl. unfold visible, is_u8. intros. rewrite Z.mod_mod by lia. lia.
    - rewrite pad16_hd, fold_stream_text3, text7_visible, format_back by (assumption || lia). reflexivity. }
  rewrite M in R. clear M. clearbody p.
  destruct s as [| |b]; cbn [text_kind stream_read stream_text text_format] in *.
  - destruct (endpoint_name_payload p); [|discriminate]. cbn [bind] in R. apply ok_inj in R.
    injection R as <- <-. repeat split. discriminate.
  - destruct (product_instance_id_payload p); [|discriminate]. cbn [bind] in R. apply ok_inj in R.
    injection R as <- <-. repeat split. discriminate.
  - destruct (fb_name_payload p); [|discriminate]. cbn [bind] in R. apply ok_inj in R.
    injection R as <- E2 <-. repeat split. intros b0 E. now injection E as ->.
Qed.

Lemma pieces_short k cs : pieces k cs -> Forall (fun c => (length c <= k)%nat) cs.
Proof.
  induction cs as [|c cs IH]; [constructor|]. destruct cs as [|d cs].
  - cbn [pieces]. intros; repeat constructor; assumption.
  - intros (L & P & _). constructor; [lia|]. apply IH, P.
Qed.

Lemma formats_range fs : text_formats fs -> Forall (fun f => 0 <= f < 4) fs.
Proof.
  destruct 1.
  - repeat constructor; lia.
  - constructor; [lia|]. apply Forall_app. split; [|repeat constructor; lia].
    apply Forall_forall. intros x X. apply repeat_spec in X. lia.
Qed.

Lemma concat_visible cs : Forall visible (concat cs) -> Forall (Forall visible) cs.
Proof.
  induction cs as [|c cs IH]; cbn [concat]; intros H; constructor; apply Forall_app in H; tauto.
Qed.

Theorem send_reads dbg s t : Forall visible t -> sender_typed s -> (s = TProduct -> size t <= 16) ->
  exists ps, send_text dbg s t = Ok ps /\
  text_formats (map (text_format (text_kind s)) ps) /\
  Forall (fun p => as_stream_view dbg (text_kind s) p = Ok (Some p)) ps /\
  (forall b, s = TBlock b -> Forall (fun p => fb_name_block p = b mod 128) ps) /\
  exists ts, map (stream_text (text_kind s)) ps = map Ok ts /\ concat ts = map (fun c => c mod 128) t.
Proof.
  intros V S P. destruct (send_packets dbg s t (visible_u8 t V) S P) as (fs & cs & F & PC & C & L & E).
  eexists. split; [exact E|].
  pose proof (formats_range fs F) as FR. pose proof (pieces_short _ _ PC) as LR.
  rewrite <- C in V. pose proof (concat_visible cs V) as VR. subst t. clear E PC V P.
  assert (X : forall fs' cs', length fs' = length cs' -> Forall (fun f => 0 <= f < 4) fs' ->
    Forall (fun c => (length c <= room s)%nat) cs' -> Forall (Forall visible) cs' ->
    let ps := map (fun fc => stream_wire (text_call s (fst fc) (snd fc))) (combine fs' cs') in
    map (text_format (text_kind s)) ps = fs' /\
    Forall (fun p => as_stream_view dbg (text_kind s) p = Ok (Some p)) ps /\
    (forall b, s = TBlock b -> Forall (fun p => fb_name_block p = b mod 128) ps) /\
    map (stream_text (text_kind s)) ps = map Ok (map (map (fun c => c mod 128)) cs')).
  { clear fs cs F L FR LR VR. induction fs' as [|f fs IH]; intros [|c cs] L FR LR VR; cbn [length] in L; try lia.
    - cbn. repeat split; constructor.
    - inversion FR; subst. inversion LR; subst. inversion VR; subst.
      destruct (text_wire s f c) as (W & K & TF & TX & TB); trivial.
      destruct (IH cs) as (I1 & I2 & I3 & I4); trivial; [lia|].
      cbn [combine map fst snd]. repeat split.
      + now rewrite TF, I1.
      + constructor; [|assumption]. destruct (view_iff dbg (text_kind s) _ W) as [(_ & _ & ->)|(N & _ & _)]; [reflexivity|]. now destruct N.
      + intros b ->. constructor; [now apply TB|]. now apply I3.
      + now rewrite TX, I4. }
  destruct (X fs cs L FR LR VR) as (X1 & X2 & X3 & X4).
  refine (conj _ (conj X2 (conj X3 _))).
  - now rewrite X1.
  - exists (map (map (fun c => c mod 128)) cs). split; [assumption|]. now rewrite concat_map.
Qed.

Theorem send_long_product t : 16 < size t ->
  send_product_instance_id true t = Fault AssertFail /\
  send_product_instance_id false t = send_product_instance_id false (firstn 16 t).
Proof.
  unfold size. intros L. unfold send_product_instance_id, size. rewrite !check_iff. cbn [andb]. split.
  - replace (negb _) with true by lia. reflexivity.
  - rewrite firstn_length. replace (length t <=? 14)%nat with false by lia.
    replace (Nat.min 16 (length t) <=? 14)%nat with false by lia.
    rewrite firstn_firstn. change (Nat.min 14 16) with 14%nat.
    rewrite (skipn_firstn_comm 14 16). rewrite firstn_firstn. reflexivity.
Qed.

Lemma set_format_spec p f : wf_packet p -> 0 <= f < 4 ->
  let q := set_stream_format p f in let b0 := nth 0 (bytes p) 0 in
  wf_packet q /\ bytes q = upd (bytes p) 0 (b0 - 4 * (b0 / 4 mod 4) + 4 * f) /\ stream_format q = f.
Proof.
  intros W F q b0. destruct (packet_is_bytes p W) as (l & L & U & B & E).
  destruct l as [|a [|b [|c [|d r]]]]; try discriminate L.
  assert (A : is_u8 a) by now inversion U.
  assert (Q : q = packet_of_bytes ((a - 4 * (a / 4 mod 4) + 4 * f) :: b :: c :: d :: r)).
  { unfold q, set_stream_format. rewrite E. unfold packet_of_bytes, set_word. cbn [nth w0 w1 w2 w3]. f_equal.
    change 0xF3FFFFFF with (Z.lxor (Z.ones 32) (Z.shiftl (Z.ones 2) 26)).
    inversion U as [|? ? _ U1]; subst. inversion U1 as [|? ? UB U2]; subst. inversion U2 as [|? ? UC U3]; subst. inversion U3 as [|? ? UD U4]; subst.
    unfold be32, is_u8 in *. rewrite land_clear by (pow2_simpl; lia). rewrite shiftl_mul by lia. pow2_simpl. unfold u32.
    rewrite (Z.mod_small (f * _)) by lia.
    set (x := a * 16777216 + b * 65536 + c * 256 + d).
    assert (X : x / 67108864 mod 4 = a / 4 mod 4) by (unfold x; dlia). rewrite X.
    assert (Y : x - a / 4 mod 4 * 67108864 = (a / 16) * 2 ^ 28 + (a mod 4 * 2 ^ 24 + b * 65536 + c * 256 + d)).
    { unfold x. pow2_simpl. dlia. }
    rewrite Y.
    assert (Z1 : 0 <= a mod 4 * 2 ^ 24 + b * 65536 + c * 256 + d < 2 ^ 26) by (pow2_simpl; lia).
    set (y := a mod 4 * 2 ^ 24 + b * 65536 + c * 256 + d) in *.
    rewrite <- (lor_add 28 (a / 16 * 2 ^ 28) y) by (try apply Z_mod_mult; pow2_simpl; lia).
    rewrite <- Z.lor_assoc. rewrite (lor_add_r 26 y) by (pow2_simpl; dlia).
    rewrite (lor_add 28) by (try apply Z_mod_mult; pow2_simpl; lia).
    unfold y. pow2_simpl. dlia. }
  assert (U' : Forall is_u8 ((a - 4 * (a / 4 mod 4) + 4 * f) :: b :: c :: d :: r)).
  { inversion U; subst. constructor; [|assumption]. unfold is_u8 in *. dlia. }
  assert (W' : wf_packet q) by (rewrite Q; now apply pob_wf).
  split; [assumption|]. assert (BQ : bytes q = upd (bytes p) 0 (b0 - 4 * (b0 / 4 mod 4) + 4 * f)).
  { rewrite Q, pob_bytes by assumption. unfold b0. rewrite B. cbn [nth upd]. apply nth_ext0.
    - rewrite pad16_length. exact (eq_sym L).
    - intros i I. rewrite pad16_length in I. now rewrite nth_pad16. }
  split; [assumption|].
  pose proof (read_meaning KName q W') as R. cbn [stream_read stream_meaning] in R.
  destruct (endpoint_name_payload q); [|discriminate]. cbn [bind] in R. apply ok_inj in R.
  assert (FM : endpoint_name_format q = nth 0 (bytes q) 0 / 4 mod 4) by congruence.
  change (stream_format q) with (endpoint_name_format q). rewrite FM, BQ. unfold b0. rewrite B. cbn [nth upd]. unfold is_u8 in A. dlia.
Qed.
