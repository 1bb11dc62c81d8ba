(* Lemmas for C66. *)
From Coq Require Import ZArith List Bool Lia ZifyBool.
From Verif Require Import Base Bits Packet PacketSpec PacketProofs PacketBytes Messages DataPackets DataSpec.
Import ListNotations.
Local Open Scope Z_scope.

Lemma at_u8 p i : is_u8 (at_ p i).
Proof. apply nth_u8, bytes_range. Qed.
Lemma at_status p : status p = at_ p 1.
Proof. apply named_bytes. Qed.
Lemma at_type p : wf_packet p -> type p = at_ p 0 / 16.
Proof.
  intros W. rewrite type_spec by exact W. destruct W as (W & _). unfold at_, bytes, word_bytes. cbn [nth app]. unfold is_u32 in W. dlia.
Qed.
Lemma at_group p : group p = at_ p 0 mod 16.
Proof. rewrite group_spec. unfold at_, bytes, word_bytes. cbn [nth app]. dlia. Qed.
Lemma get_at p i : (i < 16)%nat -> get_byte p i = Ok (at_ p i).
Proof. apply get_byte_spec. Qed.

Lemma hi_le s n : is_u8 s -> (Z.land s 240 <=? n * 16) = (s / 16 <=? n).
Proof. intros H. unfold is_u8 in H. rewrite land_240. destruct (Z.leb_spec (s / 16) n); lia. Qed.

Lemma set_at p i v : wf_packet p -> is_u8 v -> (i < 16)%nat ->
  exists q, set_byte p i v = Ok q /\ wf_packet q /\ forall j, at_ q j = if (j =? i)%nat then v else at_ p j.
Proof.
  intros W V I. rewrite set_byte_ok by exact I. destruct (set_byte_nd_spec p i v W V I) as [E Q].
  eexists. split; [reflexivity|]. split; [exact Q|]. intros j. unfold at_. rewrite E.
  apply nth_upd. rewrite bytes_length. exact I.
Qed.

Lemma nth_first (l : list Z) n i : (i < n)%nat -> nth i (firstn n l) 0 = nth i l 0.
Proof. revert n i. induction l as [|a l IH]; intros [|n] [|i] H; cbn [firstn nth]; try reflexivity; try lia. apply IH. lia. Qed.
Lemma nth_skip (l : list Z) n i : nth i (skipn n l) 0 = nth (n + i) l 0.
Proof. revert l. induction n as [|n IH]; intros l; [reflexivity|]. destruct l as [|a l]; [now destruct i|]. apply IH. Qed.

Lemma slice_at p m n : (m + n <= 16)%nat -> firstn n (skipn m (bytes p)) = map (at_ p) (seq m n).
Proof.
  intros H. apply (nth_ext _ _ 0 (at_ p 0)).
  - rewrite map_length, seq_length, firstn_length, skipn_length, bytes_length. lia.
  - intros i I. rewrite firstn_length, skipn_length, bytes_length in I.
    rewrite map_nth, seq_nth by lia. unfold at_. rewrite nth_first by lia. apply nth_skip.
Qed.

(* the first and second bytes as fields *)
Lemma split_status p : is_u8 (at_ p 1) /\ at_ p 1 = 16 * (at_ p 1 / 16) + at_ p 1 mod 16.
Proof. split; [apply at_u8|]. dlia. Qed.

(* ---- reading ------------------------------------------------------------------------------------- *)

Lemma is7 p : wf_packet p -> (is_sysex7_packet p = true <-> sysex7_like p).
Proof.
  intros W. unfold is_sysex7_packet, sysex7_like. rewrite at_type, at_status by exact W.
  change 0x30 with (3 * 16). change 0xF0 with 240. rewrite hi_le by apply at_u8. rewrite land_15. unfold pt_data. lia.
Qed.
Lemma is8 p : wf_packet p -> (is_sysex8_packet p = true <-> sysex8_like p).
Proof.
  intros W. unfold is_sysex8_packet, sysex8_like. rewrite at_type, at_status by exact W.
  change 0x30 with (3 * 16). change 0xF0 with 240. rewrite hi_le by apply at_u8. rewrite land_15. unfold pt_extended_data. lia.
Qed.

Lemma format_at p : at_ p 1 / 16 <= 3 -> Z.land (Z.shiftr (status p) 4) 3 = at_ p 1 / 16.
Proof.
  intros H. rewrite at_status. pose proof (at_u8 p 1) as U. unfold is_u8 in U. rewrite shiftr_div, land_3 by lia.
  change (2 ^ 4) with 16. dlia.
Qed.

Lemma count7_le p : sysex7_like p -> (count7 p <= 6)%nat.
Proof. unfold sysex7_like, count7. lia. Qed.
Lemma count8_le p : sysex8_like p -> (count8 p <= 13)%nat.
Proof. unfold sysex8_like, count8. lia. Qed.
Lemma payload7_at p : sysex7_like p -> payload7 p = map (at_ p) (seq 2 (count7 p)).
Proof. intros L. pose proof (count7_le p L). unfold payload7. apply slice_at. lia. Qed.
Lemma payload8_at p : sysex8_like p -> payload8 p = map (at_ p) (seq 3 (count8 p)).
Proof. intros L. pose proof (count8_le p L). unfold payload8. apply slice_at. lia. Qed.
Lemma payload7_length p : sysex7_like p -> length (payload7 p) = count7 p.
Proof. intros L. now rewrite payload7_at, map_length, seq_length. Qed.
Lemma payload8_length p : sysex8_like p -> length (payload8 p) = count8 p.
Proof. intros L. now rewrite payload8_at, map_length, seq_length. Qed.

Lemma size7 p : sysex7_payload_size p = count7 p.
Proof. unfold sysex7_payload_size, count7. now rewrite at_status, land_15. Qed.
Lemma size8 p : sysex8_payload_size p = count8 p.
Proof. unfold sysex8_payload_size, count8. rewrite at_status, land_15. destruct (Z.ltb_spec 0 (at_ p 1 mod 16)); lia. Qed.

Lemma read7 p : sysex7_like p ->
  data_view_group p = at_ p 0 mod 16 /\ sysex7_format p = at_ p 1 / 16 /\ sysex7_view_status p = 16 * (at_ p 1 / 16) /\
  sysex7_payload_size p = length (payload7 p) /\ (length (payload7 p) <= 6)%nat /\
  forall i, (i < length (payload7 p))%nat -> sysex7_payload_byte p i = Ok (nth i (payload7 p) 0).
Proof.
  intros L. pose proof (count7_le p L) as C. rewrite payload7_length by exact L.
  split; [apply at_group|]. split; [exact (format_at p (proj1 (proj2 L)))|].
  split. { unfold sysex7_view_status. rewrite at_status. change 0xF0 with 240. rewrite land_240. unfold is_u8 in *; pose proof (at_u8 p 1) as U; unfold is_u8 in U; dlia. }
  split; [apply size7|]. split; [exact C|]. intros i I. unfold sysex7_payload_byte. rewrite get_at by lia.
  unfold payload7, at_. now rewrite nth_first, nth_skip.
Qed.
Lemma read8 p : sysex8_like p ->
  data_view_group p = at_ p 0 mod 16 /\ sysex8_format p = at_ p 1 / 16 /\ sysex8_stream_id p = Ok (at_ p 2) /\
  sysex8_payload_size p = length (payload8 p) /\ (length (payload8 p) <= 13)%nat /\
  forall i, (i < length (payload8 p))%nat -> sysex8_payload_byte p i = Ok (nth i (payload8 p) 0).
Proof.
  intros L. pose proof (count8_le p L) as C. rewrite payload8_length by exact L.
  split; [apply at_group|]. split; [exact (format_at p (proj1 (proj2 L)))|].
  split; [apply get_at; lia|].
  split; [apply size8|]. split; [exact C|]. intros i I. unfold sysex8_payload_byte. rewrite get_at by lia.
  unfold payload8, at_. now rewrite nth_first, nth_skip.
Qed.

(* ---- writing ------------------------------------------------------------------------------------- *)

Lemma set_size7 p n : wf_packet p -> (n <= 6)%nat -> exists q, sysex7_set_payload_size p n = Ok q /\ wf_packet q /\
  forall j, at_ q j = if (j =? 1)%nat then 16 * (at_ p 1 / 16) + Z.of_nat n else at_ p j.
Proof.
  intros W N. unfold sysex7_set_payload_size. replace (n <=? 6)%nat with true by (symmetry; apply Nat.leb_le; exact N). cbn [assert_ bind].
  pose proof (at_u8 p 1) as U. rewrite at_status. change 0xF0 with 240. rewrite land_240, land_15.
  unfold is_u8 in U. assert (0 <= at_ p 1 / 16 < 16) as U4 by dlia. replace (u8 ((at_ p 1 / 16) mod 16 * 16 + Z.of_nat n mod 16)) with (16 * (at_ p 1 / 16) + Z.of_nat n) by (unfold u8; dlia).
  apply set_at; [exact W|unfold is_u8; dlia|lia].
Qed.
Lemma set_size8 p n : wf_packet p -> (n <= 13)%nat -> exists q, sysex8_set_payload_size p n = Ok q /\ wf_packet q /\
  forall j, at_ q j = if (j =? 1)%nat then 16 * (at_ p 1 / 16) + Z.of_nat n + 1 else at_ p j.
Proof.
  intros W N. unfold sysex8_set_payload_size. replace (n <=? 13)%nat with true by (symmetry; apply Nat.leb_le; exact N). cbn [assert_ bind].
  pose proof (at_u8 p 1) as U. rewrite at_status. change 0xF0 with 240. rewrite land_240, land_15.
  unfold is_u8 in U. assert (0 <= at_ p 1 / 16 < 16) as U4 by dlia. replace (u8 ((at_ p 1 / 16) mod 16 * 16 + Z.of_nat (n + 1) mod 16)) with (16 * (at_ p 1 / 16) + Z.of_nat n + 1) by (unfold u8; dlia).
  apply set_at; [exact W|unfold is_u8; dlia|lia].
Qed.

Lemma add7 p b : wf_packet p -> sysex7_like p -> is_u8 b -> (length (payload7 p) < 6)%nat ->
  exists q, sysex7_add_payload_byte p b = Ok q /\ wf_packet q /\ sysex7_like q /\
    payload7 q = payload7 p ++ [b mod 128] /\ at_ q 1 / 16 = at_ p 1 / 16 /\ same_but [1; 2 + length (payload7 p)]%nat p q.
Proof.
  intros W L B. rewrite payload7_length by exact L. intros N. unfold sysex7_add_payload_byte. rewrite size7.
  replace (count7 p <? 6)%nat with true by (symmetry; apply Nat.ltb_lt; exact N). cbn [assert_ bind].
  unfold set_byte_7bit. rewrite land_127. unfold is_u8 in B.
  destruct (set_at p (2 + count7 p) (b mod 128) W) as (r & E & R & A); [unfold is_u8; dlia|lia|]. rewrite E. cbn [bind].
  destruct (set_size7 r (count7 p + 1) R) as (q & F & Q & D); [lia|]. exists q. split; [exact F|]. split; [exact Q|].
  assert (A1 : at_ r 1 = at_ p 1) by (rewrite A; reflexivity).
  rewrite A1 in D. assert (D' := fun j => eq_trans (D j) (f_equal (fun x => if (j =? 1)%nat then _ else x) (A j))). clear D A. rename D' into D. cbv beta in D.
  assert (D1 : at_ q 1 = 16 * (at_ p 1 / 16) + Z.of_nat (count7 p + 1)) by (rewrite D; reflexivity).
  assert (D0 : at_ q 0 = at_ p 0) by (rewrite D; reflexivity).
  assert (X : sysex7_like q /\ count7 q = S (count7 p) /\ at_ q 1 / 16 = at_ p 1 / 16).
  { unfold sysex7_like, count7 in *. rewrite D1, D0. unfold count7 in *. destruct L as (L0 & L1 & L2). dlia. }
  destruct X as (X & C & H). split; [exact X|]. split.
  - rewrite !payload7_at by assumption. rewrite C, seq_S, map_app. cbn [map]. f_equal.
    + apply map_ext_in. intros j J. apply in_seq in J. rewrite D.
      replace (j =? 1)%nat with false by lia. now replace (j =? 2 + count7 p)%nat with false by lia.
    + rewrite D. rewrite Nat.eqb_refl. now replace (2 + count7 p =? 1)%nat with false by lia.
  - split; [exact H|]. intros j J K. cbn [In] in K. rewrite D.
    replace (j =? 1)%nat with false by lia. now replace (j =? 2 + count7 p)%nat with false by lia.
Qed.
Lemma add8 p b : wf_packet p -> sysex8_like p -> is_u8 b -> (length (payload8 p) < 13)%nat ->
  exists q, sysex8_add_payload_byte p b = Ok q /\ wf_packet q /\ sysex8_like q /\
    payload8 q = payload8 p ++ [b] /\ at_ q 1 / 16 = at_ p 1 / 16 /\ same_but [1; 3 + length (payload8 p)]%nat p q.
Proof.
  intros W L B. rewrite payload8_length by exact L. intros N. unfold sysex8_add_payload_byte. rewrite size8.
  replace (count8 p <? 13)%nat with true by (symmetry; apply Nat.ltb_lt; exact N). cbn [assert_ bind].
  destruct (set_at p (3 + count8 p) b W) as (r & E & R & A); [exact B|lia|]. rewrite E. cbn [bind].
  destruct (set_size8 r (count8 p + 1) R) as (q & F & Q & D); [lia|]. exists q. split; [exact F|]. split; [exact Q|].
  assert (A1 : at_ r 1 = at_ p 1) by (rewrite A; reflexivity).
  rewrite A1 in D. assert (D' := fun j => eq_trans (D j) (f_equal (fun x => if (j =? 1)%nat then _ else x) (A j))). clear D A. rename D' into D. cbv beta in D.
  assert (D1 : at_ q 1 = 16 * (at_ p 1 / 16) + Z.of_nat (count8 p + 1) + 1) by (rewrite D; reflexivity).
  assert (D0 : at_ q 0 = at_ p 0) by (rewrite D; reflexivity).
  assert (X : sysex8_like q /\ count8 q = S (count8 p) /\ at_ q 1 / 16 = at_ p 1 / 16).
  { unfold sysex8_like, count8 in *. rewrite D1, D0. unfold count8 in *. destruct L as (L0 & L1 & L2). dlia. }
  destruct X as (X & C & H). split; [exact X|]. split.
  - rewrite !payload8_at by assumption. rewrite C, seq_S, map_app. cbn [map]. f_equal.
    + apply map_ext_in. intros j J. apply in_seq in J. rewrite D.
      replace (j =? 1)%nat with false by lia. now replace (j =? 3 + count8 p)%nat with false by lia.
    + rewrite D. rewrite Nat.eqb_refl. now replace (3 + count8 p =? 1)%nat with false by lia.
  - split; [exact H|]. intros j J K. cbn [In] in K. rewrite D.
    replace (j =? 1)%nat with false by lia. now replace (j =? 3 + count8 p)%nat with false by lia.
Qed.

Lemma full7 p b : sysex7_like p -> length (payload7 p) = 6%nat -> sysex7_add_payload_byte p b = Fault AssertFail.
Proof. intros L. rewrite payload7_length by exact L. intros E. unfold sysex7_add_payload_byte. now rewrite size7, E. Qed.
Lemma full8 p b : sysex8_like p -> length (payload8 p) = 13%nat -> sysex8_add_payload_byte p b = Fault AssertFail.
Proof. intros L. rewrite payload8_length by exact L. intros E. unfold sysex8_add_payload_byte. now rewrite size8, E. Qed.

(* ---- building ------------------------------------------------------------------------------------ *)

Lemma add_all7 l : forall p, wf_packet p -> sysex7_like p -> Forall is_u8 l -> (length (payload7 p) + length l <= 6)%nat ->
  exists q, add_all sysex7_add_payload_byte p l = Ok q /\ wf_packet q /\ sysex7_like q /\
    payload7 q = payload7 p ++ map (fun b => b mod 128) l /\ at_ q 0 = at_ p 0 /\ at_ q 1 / 16 = at_ p 1 / 16 /\
    forall i, (2 + length (payload7 p) + length l <= i < 16)%nat -> at_ q i = at_ p i.
Proof.
  induction l as [|b l IH]; intros p W L U N.
  - exists p. cbn [add_all map]. rewrite app_nil_r.
    split; [reflexivity|]. split; [exact W|]. split; [exact L|]. intuition reflexivity.
  - inversion U; subst. cbn [length] in N.
    destruct (add7 p b W L) as (r & E & R & LR & P & SB & B); [assumption|lia|].
    assert (LP : length (payload7 r) = S (length (payload7 p))) by (rewrite P, app_length; cbn [length]; lia).
    destruct (IH r R LR) as (q & F & Q & LQ & PQ & Q0 & Q1 & QB); [assumption|lia|].
    exists q. cbn [add_all]. rewrite E. cbn [bind]. split; [exact F|]. split; [exact Q|]. split; [exact LQ|].
    split; [rewrite PQ, P, <- app_assoc; reflexivity|].
    split; [rewrite Q0; apply B; [lia|cbn [In]; lia]|]. split; [lia|].
    intros i I. cbn [length] in I. rewrite QB by lia. apply B; [lia|cbn [In]; lia].
Qed.
Lemma add_all8 l : forall p, wf_packet p -> sysex8_like p -> Forall is_u8 l -> (length (payload8 p) + length l <= 13)%nat ->
  exists q, add_all sysex8_add_payload_byte p l = Ok q /\ wf_packet q /\ sysex8_like q /\
    payload8 q = payload8 p ++ l /\ at_ q 0 = at_ p 0 /\ at_ q 1 / 16 = at_ p 1 / 16 /\ at_ q 2 = at_ p 2 /\
    forall i, (3 + length (payload8 p) + length l <= i < 16)%nat -> at_ q i = at_ p i.
Proof.
  induction l as [|b l IH]; intros p W L U N.
  - exists p. cbn [add_all]. rewrite app_nil_r.
    split; [reflexivity|]. split; [exact W|]. split; [exact L|]. intuition reflexivity.
  - inversion U; subst. cbn [length] in N.
    destruct (add8 p b W L) as (r & E & R & LR & P & SB & B); [assumption|lia|].
    assert (LP : length (payload8 r) = S (length (payload8 p))) by (rewrite P, app_length; cbn [length]; lia).
    destruct (IH r R LR) as (q & F & Q & LQ & PQ & Q0 & Q1 & Q2 & QB); [assumption|lia|].
    exists q. cbn [add_all]. rewrite E. cbn [bind]. split; [exact F|]. split; [exact Q|]. split; [exact LQ|].
    split; [rewrite PQ, P, <- app_assoc; reflexivity|].
    split; [rewrite Q0; apply B; [lia|cbn [In]; lia]|]. split; [lia|].
    split; [rewrite Q2; apply B; [lia|cbn [In]; lia]|].
    intros i I. cbn [length] in I. rewrite QB by lia. apply B; [lia|cbn [In]; lia].
Qed.

(* a packet is known by its bytes *)
Lemma bytes_at p : bytes p = map (at_ p) (seq 0 16).
Proof. rewrite <- slice_at by lia. reflexivity. Qed.

Lemma header7 k g make : In (k, make) sysex7_makers -> 0 <= g <= 15 -> exists p, make g = Ok p /\ p = mkP (0x30000000 + g * 16777216 + k * 1048576) 0 0 0.
Proof.
  intros M G. assert (X : forall st, In st [0x00; 0x10; 0x20; 0x30] -> sysex7_packet st g = Ok (mkP (0x30000000 + g * 16777216 + st * 65536) 0 0 0)).
  { intros st S.
    revert g G. enough (forallb (fun g => match sysex7_packet st g with Ok p => (w0 p =? 0x30000000 + g * 16777216 + st * 65536) && (w1 p =? 0) && (w2 p =? 0) && (w3 p =? 0) | _ => false end) (zrange 16 0) = true) as F.
    { intros g G. rewrite forallb_forall in F. specialize (F g ltac:(apply in_zrange; lia)). destruct (sysex7_packet st g) as [[a b c d]|]; [|discriminate].
      cbn [w0 w1 w2 w3] in F. f_equal. f_equal; lia. }
    cbn [In] in S. destruct S as [<-|[<-|[<-|[<-|[]]]]]; vm_compute; reflexivity. }
  cbn [sysex7_makers In] in M. destruct M as [M|[M|[M|[M|[]]]]]; inversion M; subst; eexists; (split; [apply X; cbn [In]; tauto|]); f_equal; lia.
Qed.

Lemma header8 k g s make : In (k, make) sysex8_makers -> 0 <= g <= 15 -> is_u8 s ->
  make s g = mkP (0x50010000 + g * 16777216 + k * 1048576 + s * 256) 0 0 0.
Proof.
  intros M G S. unfold is_u8 in S.
  assert (X : forall k, 0 <= k <= 3 -> sysex8_packet (16 * k) s g = mkP (0x50010000 + g * 16777216 + k * 1048576 + s * 256) 0 0 0).
  { clear k M. intros k K. unfold sysex8_packet, packet1. f_equal.
    replace (Z.lor (Z.lor 0x50010000 (Z.shiftl g 24)) (Z.shiftl (16 * k) 16)) with (0x50010000 + g * 16777216 + k * 1048576).
    2:{ enough (forallb (fun k => forallb (fun g => 0x50010000 + g * 16777216 + k * 1048576 =? Z.lor (Z.lor 0x50010000 (Z.shiftl g 24)) (Z.shiftl (16 * k) 16)) (zrange 16 0)) (zrange 4 0) = true) as F.
        { rewrite forallb_forall in F. specialize (F k ltac:(apply in_zrange; lia)). cbv beta in F. rewrite forallb_forall in F.
          specialize (F g ltac:(apply in_zrange; lia)). cbv beta in F. now apply Z.eqb_eq. }
        vm_compute. reflexivity. }
    rewrite shiftl_mul by lia. rewrite (lor_add 16); [|lia|change (2 ^ 16) with 65536; dlia|change (2 ^ 8) with 256; change (2 ^ 16) with 65536; lia].
    change (2 ^ 8) with 256. unfold u32. rewrite Z.mod_small by lia. lia. }
  cbn [sysex8_makers In] in M. destruct M as [M|[M|[M|[M|[]]]]]; inversion M; subst; [exact (X 0 ltac:(lia))|exact (X 1 ltac:(lia))|exact (X 2 ltac:(lia))|exact (X 3 ltac:(lia))].
Qed.

Lemma fits_at p h l n : (length h + length l + n = 16)%nat ->
  (forall i, (i < length h)%nat -> at_ p i = nth i h 0) ->
  firstn (length l) (skipn (length h) (bytes p)) = l ->
  (forall i, (length h + length l <= i < 16)%nat -> at_ p i = 0) ->
  bytes p = h ++ l ++ repeat 0 n.
Proof.
  intros N H L Z. rewrite slice_at in L by lia. rewrite bytes_at. replace 16%nat with (length h + (length l + n))%nat by lia.
  rewrite !seq_app, !map_app. cbn [Nat.add]. rewrite L. f_equal; [|f_equal].
  - apply (nth_ext _ _ (at_ p 0) 0); [now rewrite map_length, seq_length|]. intros i I. rewrite map_length, seq_length in I.
    rewrite map_nth, seq_nth by exact I. now apply H.
  - apply (nth_ext _ _ (at_ p 0) 0); [now rewrite map_length, seq_length, repeat_length|]. intros i I. rewrite map_length, seq_length in I.
    rewrite map_nth, seq_nth, nth_repeat by exact I. apply Z. lia.
Qed.

Lemma build7 k make g l : In (k, make) sysex7_makers -> 0 <= g < 16 -> Forall is_u8 l -> (length l <= 6)%nat ->
  exists p q, make g = Ok p /\ add_all sysex7_add_payload_byte p l = Ok q /\ wf_packet q /\ sysex7_like q /\
    bytes q = [0x30 + g; 16 * k + Z.of_nat (length l)] ++ map (fun b => b mod 128) l ++ repeat 0 (14 - length l).
Proof.
  intros M G U N. destruct (header7 k g make M) as (p & E & P); [lia|].
  assert (K : 0 <= k <= 3) by (cbn [sysex7_makers In] in M; destruct M as [M|[M|[M|[M|[]]]]]; inversion M; lia). clear M.
  assert (A0 : at_ p 0 = 0x30 + g) by (subst p; unfold at_, bytes, word_bytes; cbn [nth app w0]; dlia).
  assert (A1 : at_ p 1 = 16 * k) by (subst p; unfold at_, bytes, word_bytes; cbn [nth app w0]; dlia).
  assert (AZ : forall i, (2 <= i)%nat -> at_ p i = 0).
  { intros i I. subst p. unfold at_, bytes. cbn [map w0 w1 w2 w3]. unfold word_bytes.
    do 2 (destruct i as [|i]; [lia|]). cbn [nth app]. do 2 (destruct i as [|i]; [dlia|]).
    do 12 (destruct i as [|i]; [reflexivity|]). now destruct i. }
  assert (W : wf_packet p) by (subst p; unfold wf_packet, is_u32; cbn [w0 w1 w2 w3]; dlia).
  assert (C0 : count7 p = 0%nat) by (unfold count7; rewrite A1; dlia).
  assert (L : sysex7_like p) by (unfold sysex7_like; rewrite A0, A1; dlia).
  assert (P0 : payload7 p = []) by (unfold payload7; rewrite C0; reflexivity).
  destruct (add_all7 l p W L U) as (q & F & Q & LQ & PQ & Q0 & Q1 & QB); [rewrite P0; exact N|].
  rewrite P0 in *. cbn [length app Nat.add] in *.
  exists p, q. split; [exact E|]. split; [exact F|]. split; [exact Q|]. split; [exact LQ|].
  assert (CQ : count7 q = length l) by (rewrite <- payload7_length, PQ, map_length by exact LQ; reflexivity).
  apply (fits_at q [0x30 + g; 16 * k + Z.of_nat (length l)]).
  - rewrite map_length. cbn [length]. lia.
  - cbn [length]. intros [|[|i]] I; [|clear I|lia]; cbn [nth]; [now rewrite Q0|].
    pose proof (at_u8 q 1) as V. unfold is_u8 in V. unfold count7 in CQ. rewrite A1 in Q1. dlia.
  - rewrite map_length. cbn [length]. rewrite <- CQ. exact PQ.
  - rewrite map_length. cbn [length]. intros i I. rewrite QB by lia. apply AZ. lia.
Qed.

Lemma build8 k make s g l : In (k, make) sysex8_makers -> is_u8 s -> 0 <= g < 16 -> Forall is_u8 l -> (length l <= 13)%nat ->
  exists q, add_all sysex8_add_payload_byte (make s g) l = Ok q /\ wf_packet q /\ sysex8_like q /\
    bytes q = [0x50 + g; 16 * k + 1 + Z.of_nat (length l); s] ++ l ++ repeat 0 (13 - length l).
Proof.
  intros M S G U N. rewrite (header8 k g s make M) by (assumption || lia).
  assert (K : 0 <= k <= 3) by (cbn [sysex8_makers In] in M; destruct M as [M|[M|[M|[M|[]]]]]; inversion M; lia). clear M make.
  remember (mkP _ 0 0 0) as p eqn:P. unfold is_u8 in S.
  assert (A0 : at_ p 0 = 0x50 + g) by (subst p; unfold at_, bytes, word_bytes; cbn [nth app w0]; dlia).
  assert (A1 : at_ p 1 = 16 * k + 1) by (subst p; unfold at_, bytes, word_bytes; cbn [nth app w0]; dlia).
  assert (A2 : at_ p 2 = s) by (subst p; unfold at_, bytes, word_bytes; cbn [nth app w0]; dlia).
  assert (AZ : forall i, (3 <= i)%nat -> at_ p i = 0).
  { intros i I. subst p. unfold at_, bytes. cbn [map w0 w1 w2 w3]. unfold word_bytes.
    do 3 (destruct i as [|i]; [lia|]). cbn [nth app]. destruct i as [|i]; [dlia|].
    do 12 (destruct i as [|i]; [reflexivity|]). now destruct i. }
  assert (W : wf_packet p) by (subst p; unfold wf_packet, is_u32; cbn [w0 w1 w2 w3]; dlia).
  assert (C0 : count8 p = 0%nat) by (unfold count8; rewrite A1; dlia).
  assert (L : sysex8_like p) by (unfold sysex8_like; rewrite A0, A1; dlia).
  assert (P0 : payload8 p = []) by (unfold payload8; rewrite C0; reflexivity).
  destruct (add_all8 l p W L U) as (q & F & Q & LQ & PQ & Q0 & Q1 & Q2 & QB); [rewrite P0; exact N|].
  rewrite P0 in *. cbn [length app Nat.add] in *.
  exists q. split; [exact F|]. split; [exact Q|]. split; [exact LQ|].
  assert (CQ : count8 q = length l) by (rewrite <- payload8_length, PQ by exact LQ; reflexivity).
  apply (fits_at q [0x50 + g; 16 * k + 1 + Z.of_nat (length l); s]).
  - cbn [length]. lia.
  - cbn [length]. intros [|[|[|i]]] I; [| | |lia]; clear I; cbn [nth]; [now rewrite Q0| |now rewrite Q2].
    pose proof (at_u8 q 1) as V. unfold is_u8 in V. unfold count8 in CQ. rewrite A1 in Q1.
    destruct LQ as (_ & _ & LQ). dlia.
  - cbn [length]. rewrite <- CQ. exact PQ.
  - cbn [length]. intros i I. rewrite QB by lia. apply AZ. lia.
Qed.

(* ---- other setters ------------------------------------------------------------------------------- *)

Lemma same_at l p q i v : (forall j, at_ q j = if (j =? i)%nat then v else at_ p j) -> In i l -> same_but l p q.
Proof. intros D I j J K. rewrite D. destruct (Nat.eqb_spec j i) as [->|_]; [now destruct K|reflexivity]. Qed.

Lemma set_sizes p n : wf_packet p ->
  ((n <= 6)%nat -> exists q, sysex7_set_payload_size p n = Ok q /\ wf_packet q /\
     at_ q 1 = 16 * (at_ p 1 / 16) + Z.of_nat n /\ same_but [1%nat] p q) /\
  ((6 < n)%nat -> sysex7_set_payload_size p n = Fault AssertFail) /\
  ((n <= 13)%nat -> exists q, sysex8_set_payload_size p n = Ok q /\ wf_packet q /\
     at_ q 1 = 16 * (at_ p 1 / 16) + Z.of_nat n + 1 /\ same_but [1%nat] p q) /\
  ((13 < n)%nat -> sysex8_set_payload_size p n = Fault AssertFail).
Proof.
  intros W. split; [|split; [|split]]; intros N.
  - destruct (set_size7 p n W N) as (q & E & Q & D). exists q. split; [exact E|]. split; [exact Q|].
    split; [apply D|]. eapply same_at; [exact D|]. now left.
  - unfold sysex7_set_payload_size. now replace (n <=? 6)%nat with false by lia.
  - destruct (set_size8 p n W N) as (q & E & Q & D). exists q. split; [exact E|]. split; [exact Q|].
    split; [apply D|]. eapply same_at; [exact D|]. now left.
  - unfold sysex8_set_payload_size. now replace (n <=? 13)%nat with false by lia.
Qed.

Lemma payload_outside p i d :
  ((14 <= i)%nat -> sysex7_set_payload_byte p i d = Fault AssertFail /\ sysex7_payload_byte p i = Fault AssertFail) /\
  ((13 <= i)%nat -> sysex8_set_payload_byte p i d = Fault AssertFail /\ sysex8_payload_byte p i = Fault AssertFail).
Proof.
  split; intro H; unfold sysex7_set_payload_byte, sysex7_payload_byte, sysex8_set_payload_byte, sysex8_payload_byte,
    set_byte_7bit, set_byte, get_byte;
    (rewrite (proj2 (Nat.ltb_ge _ _)) by lia); split; reflexivity.
Qed.

Lemma set_payload_bytes p i d : wf_packet p -> is_u8 d ->
  ((i < 14)%nat -> exists q, sysex7_set_payload_byte p i d = Ok q /\ wf_packet q /\
     sysex7_payload_byte q i = Ok (d mod 128) /\ same_but [(2 + i)%nat] p q) /\
  ((i < 13)%nat -> exists q, sysex8_set_payload_byte p i d = Ok q /\ wf_packet q /\
     sysex8_payload_byte q i = Ok d /\ same_but [(3 + i)%nat] p q).
Proof.
  intros W U. split; intros I.
  - unfold sysex7_set_payload_byte, set_byte_7bit, sysex7_payload_byte. rewrite land_127.
    destruct (set_at p (2 + i) (d mod 128) W) as (q & E & Q & D); [unfold is_u8 in *; dlia|lia|].
    exists q. split; [exact E|]. split; [exact Q|]. split; [rewrite get_at, D, Nat.eqb_refl by lia; reflexivity|].
    eapply same_at; [exact D|]. now left.
  - unfold sysex8_set_payload_byte, sysex8_payload_byte.
    destruct (set_at p (3 + i) d W U) as (q & E & Q & D); [lia|].
    exists q. split; [exact E|]. split; [exact Q|]. split; [rewrite get_at, D, Nat.eqb_refl by lia; reflexivity|].
    eapply same_at; [exact D|]. now left.
Qed.

Lemma set_stream p s : wf_packet p -> is_u8 s ->
  exists q, sysex8_set_stream_id p s = Ok q /\ wf_packet q /\ sysex8_stream_id q = Ok s /\ same_but [2%nat] p q.
Proof.
  intros W U. destruct (set_at p 2 s W U) as (q & E & Q & D); [lia|].
  exists q. split; [exact E|]. split; [exact Q|]. split; [unfold sysex8_stream_id; rewrite get_at, D by lia; reflexivity|].
  eapply same_at; [exact D|]. now left.
Qed.

Lemma group_asserted k make g : In (k, make) sysex7_makers -> 16 <= g -> make g = Fault AssertFail.
Proof.
  intros M G. assert (X : forall st, sysex7_packet st g = Fault AssertFail).
  { intros st. unfold sysex7_packet, set_group. now replace (g <? 16) with false by lia. }
  cbn [sysex7_makers In] in M. destruct M as [M|[M|[M|[M|[]]]]]; inversion M; subst; apply X.
Qed.

(* ---- plain data messages ---- *)

Lemma plain_messages st : is_u8 st ->
  bytes (data_message st) = [0x30; st] ++ repeat 0 14 /\ bytes data_message0 = 0x30 :: repeat 0 15 /\
  bytes (extended_data_message st) = [0x50; st] ++ repeat 0 14 /\ bytes extended_data_message0 = 0x50 :: repeat 0 15.
Proof.
  intros H. unfold is_u8 in H.
  assert (E : forall k, 0 <= k < 16 -> bytes (packet1 (Z.lor (k * 268435456) (Z.shiftl st 16))) = [k * 16; st] ++ repeat 0 14).
  { intros k K. rewrite shiftl_mul by lia. rewrite (lor_add 24) by (bitlia || dlia).
    unfold bytes, packet1, word_bytes. cbn [w0 w1 w2 w3 app repeat].
    apply f_equal2; [dlia|]. apply f_equal2; [dlia|]. apply f_equal2; [dlia|]. apply f_equal2; [dlia|]. reflexivity. }
  split; [exact (E 3 ltac:(lia))|]. split; [reflexivity|]. split; [exact (E 5 ltac:(lia))|]. reflexivity.
Qed.
Lemma plain_recognised p : wf_packet p ->
  (is_data_packet p = true <-> at_ p 0 / 16 = 3) /\ (is_extended_data_packet p = true <-> at_ p 0 / 16 = 5).
Proof.
  intros W. unfold is_data_packet, is_extended_data_packet. rewrite at_type by exact W. lia.
Qed.
