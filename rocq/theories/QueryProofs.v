(* Lemmas for C73 *)
From Coq Require Import ZArith List Bool Lia ZifyBool ZifyNat.
From Verif Require Import Base Bits Packet PacketSpec Sysex Collector StreamSpec StreamProofs StreamLemmas CollectSpec CollectProofs CollectLemmas SendProofs CollectCalls SysexProofs.
Import ListNotations.
Local Open Scope Z_scope.

Lemma high_bit b : is_u8 b -> (Z.land b 0x80 =? 0) = (b <? 128).
Proof. unfold is_u8. intros B. rewrite land_128. destruct (Z.ltb_spec b 128); [apply Z.eqb_eq|apply Z.eqb_neq]; dlia. Qed.

Lemma is_7bit_iff s : Forall is_u8 (sx_data s) -> (is_7bit s = true <-> Forall is_u7 (sx_data s)).
Proof.
  intros U. unfold is_7bit. rewrite forallb_forall, Forall_forall. rewrite Forall_forall in U.
  split; intros H x X; specialize (H x X); specialize (U x X).
  - rewrite high_bit in H by assumption. unfold is_u7, is_u8 in *. lia.
  - rewrite high_bit by assumption. unfold is_u7 in H. lia.
Qed.
Lemma is_8bit_neg s : is_8bit s = negb (is_7bit s).
Proof. unfold is_8bit, is_7bit. induction (sx_data s) as [|x l IH]; [reflexivity|]. cbn [existsb forallb]. rewrite IH, negb_andb. reflexivity. Qed.

Lemma manu_mask_iff v : is_u32 v ->
  (Z.land v 0xFF808080 = 0 <-> exists a b c, is_u7 a /\ is_u7 b /\ is_u7 c /\ v = a * 65536 + b * 256 + c).
Proof.
  intros H. split.
  - intros E.
    replace 0xFF808080 with (Z.lor (Z.shiftl (Z.ones 9) 23) (Z.lor (Z.shiftl (Z.ones 1) 15) (Z.shiftl (Z.ones 1) 7))) in E by reflexivity.
    rewrite !Z.land_lor_distr_r in E. apply Z.lor_eq_0_iff in E. destruct E as [E1 E].
    apply Z.lor_eq_0_iff in E. destruct E as [E2 E3].
    rewrite land_field in E1, E2, E3 by lia. unfold is_u32 in H.
    change (2 ^ 23) with 8388608 in *. change (2 ^ 15) with 32768 in *. change (2 ^ 7) with 128 in *.
    change (2 ^ 9) with 512 in *. change (2 ^ 1) with 2 in *.
    exists (v / 65536), (v / 256 mod 256), (v mod 256). unfold is_u7. repeat apply conj; dlia.
  - intros (a & b & c & A & B & C & ->). now apply manu_mask.
Qed.

Lemma list_eqb_iff a : forall b, list_eqb a b = true <-> a = b.
Proof.
  induction a as [|x a IH]; intros [|y b]; cbn; try (split; [discriminate|discriminate]); [now split|].
  rewrite andb_true_iff, IH, Z.eqb_eq. split; [intros [-> ->]; reflexivity|intros [= -> ->]; now split].
Qed.
Lemma sysex_eq_iff a b : sysex_eq a b = true <-> a = b.
Proof.
  destruct a as [i d], b as [j e]. unfold sysex_eq. cbn [sx_id sx_data]. rewrite andb_true_iff, list_eqb_iff, Z.eqb_eq.
  split; [intros [-> ->]; reflexivity|intros [= -> ->]; now split].
Qed.
Lemma sysex_empty_iff s : sysex_empty s = true <-> s = mkSx 0 [].
Proof.
  destruct s as [i d]. unfold sysex_empty. cbn [sx_id sx_data]. rewrite andb_true_iff, Z.eqb_eq.
  split; [|intros [= -> ->]; now split]. destruct d; intros [-> E]; [reflexivity|discriminate].
Qed.

(* bytes carried by packets *)
Lemma payload_tail i chunks : concat (map ct_payload (message_tail i chunks)) = concat chunks.
Proof. induction chunks as [|c [|c' r] IH]; [reflexivity|reflexivity|]. cbn [message_tail map concat] in *. now rewrite IH. Qed.
Lemma payload_message i chunks : concat (map ct_payload (message_of i chunks)) = concat chunks.
Proof.
  destruct chunks as [|c [|c' r]]; [reflexivity|reflexivity|]. cbn [message_of map concat ct_payload].
  now rewrite payload_tail.
Qed.
Lemma tail7_length g chunks : length (sx7_tail g chunks) = length chunks.
Proof. induction chunks as [|c [|c' r] IH]; [reflexivity|reflexivity|]. cbn [sx7_tail length] in *. now rewrite IH. Qed.
Lemma sequence7_length g chunks : length (sx7_sequence g chunks) = length chunks.
Proof. destruct chunks as [|c [|c' r]]; [reflexivity|reflexivity|]. cbn [sx7_sequence length]. now rewrite tail7_length. Qed.
Lemma full_chunks_number k chunks : (0 < k)%nat -> full_chunks k chunks ->
  Z.of_nat k * (size chunks - 1) < size (concat chunks) <= Z.of_nat k * size chunks.
Proof.
  intros K. unfold size. induction chunks as [|c [|c' r] IH]; [intros []|cbn; rewrite app_nil_r; lia|].
  intros [L F]. specialize (IH F).
  replace (concat (c :: c' :: r)) with (c ++ concat (c' :: r)) by reflexivity. rewrite app_length, L.
  replace (length (c :: c' :: r)) with (S (length (c' :: r))) by reflexivity. nia.
Qed.

Lemma total_sent7 id d g : valid_id id -> id <> 0 -> Forall is_u8 d -> 0 <= g < 16 ->
  exists ps, send_sysex7 (mkSx id d) g = Ok ps /\
    size (concat (map ct_payload (contents content7 ps))) = total_data_size (mkSx id d) /\
    6 * (size ps - 1) < total_data_size (mkSx id d) <= 6 * size ps.
Proof.
  intros V NZ D G. destruct (send7_valid id d g V NZ D G) as (ch & F & C & E). exists (sx7_sequence g ch).
  assert (T : total_data_size (mkSx id d) = size (concat ch)).
  { rewrite total_valid by assumption. rewrite C. unfold size. rewrite app_length, map_length. lia. }
  split; [exact E|]. rewrite T. split.
  - destruct (contents7_sequence g ch G) as [-> _]; [|now rewrite payload_message].
    apply full_chunks_ok; [lia|exact F|]. rewrite C. apply Forall_u7_u8, Forall_app. split; [now apply id_bytes_u7|].
    apply Forall_map, Forall_forall. intros x _. unfold is_u7. apply Z.mod_pos_bound. lia.
  - replace (size (sx7_sequence g ch)) with (size ch) by (unfold size; now rewrite sequence7_length).
    exact (full_chunks_number 6 ch ltac:(lia) F).
Qed.

Lemma total_sent8 id d i g : valid_id id -> Forall is_u8 d -> is_u8 i -> 0 <= g < 16 ->
  exists ps, send_sysex8 (mkSx id d) i g = Ok ps /\
    size (concat (map ct_payload (contents content8 ps))) = size d + 2 /\
    size (concat (map ct_payload (contents content8 ps))) <> total_data_size (mkSx id d).
Proof.
  intros V D I G. destruct (send8_valid id d i g V D I G) as (c & rest & F & C & OK & E1 & E2).
  assert (N : size (concat (c :: rest)) = size d + 2).
  { rewrite C. unfold size. rewrite app_length, id_bytes8_length. lia. }
  assert (P : forall ps, concat (map ct_payload (contents content8 ps)) = concat (c :: rest) ->
    size (concat (map ct_payload (contents content8 ps))) = size d + 2 /\
    size (concat (map ct_payload (contents content8 ps))) <> total_data_size (mkSx id d)).
  { intros ps ->. split; [exact N|]. rewrite N, total8 by assumption. destruct (id =? 0), (65536 <=? id); lia. }
  assert (M : miscounted8 id (size d) \/ ~ miscounted8 id (size d)) by (unfold miscounted8; lia).
  destruct M as [M|M].
  - destruct (E2 M) as [(NE & _ & ->)|(RE & _ & ->)]; (eexists; split; [reflexivity|]); apply P.
    + destruct (contents8_first g i 0 c rest G I ltac:(lia) OK) as [-> _]. cbn [map concat ct_payload]. now rewrite payload_tail.
    + subst rest. destruct (contents8_first g i 1 c [] G I ltac:(lia) OK) as [H _]. cbn [sx8_tail] in H. rewrite H. reflexivity.
  - rewrite (E1 M). eexists; split; [reflexivity|]. apply P.
    destruct (contents8_sequence g i (c :: rest) G I OK) as [-> _]. apply payload_message.
Qed.
