(* Lemmas for C80: limits changed while a collector is in use *)
From Coq Require Import ZArith List Bool Lia ZifyBool ZifyNat.
From Verif Require Import Base Bits Packet PacketSpec PacketProofs PacketBytes Messages Sysex Collector
  StreamSpec StreamLemmas StreamBytes CollectSpec CollectLemmas CollectProofs CollectCalls Reentrant ThrowingSpec LimitSpec.
Import ListNotations.
Local Open Scope Z_scope.
Local Open Scope res_scope.

(* ---- the limit that takes effect ------------------------------------------------------------- *)

(* with limit [l] and memory [cap] messages of up to eff l cap bytes are accepted; 0: any *)
Definition eff (l cap : Z) : Z := if l =? 0 then 0 else Z.max l cap.
(* reset() does not change what takes effect *)
Definition settled (l cap : Z) : Prop := l = 0 \/ cap <= 16384 \/ cap <= l.
Definition mem_le (l cap cap' : Z) : Prop :=
  (l <> 0 -> Z.max l cap' <= Z.max l cap) /\ (settled l cap -> settled l cap' /\ eff l cap' = eff l cap).

Lemma mem_le_refl l cap : mem_le l cap cap.
Proof. split; [lia|]. auto. Qed.
Lemma mem_le_trans l a b c : mem_le l a b -> mem_le l b c -> mem_le l a c.
Proof.
  intros [A1 A2] [B1 B2]. split; [intros N; specialize (A1 N); specialize (B1 N); lia|].
  intros S. destruct (A2 S) as [S' E]. destruct (B2 S') as [S'' E']. split; [exact S''|congruence].
Qed.
Lemma mem_le_clear a l cap : std_alloc a -> 0 <= cap -> mem_le l cap (clear_capacity a cap) /\ 0 <= clear_capacity a cap.
Proof.
  intros (S1 & S2 & S3) P. unfold clear_capacity. specialize (S3 cap P).
  destruct (Z.ltb_spec 16384 cap) as [B|B]; [|split; [apply mem_le_refl|lia]].
  split; [|lia]. split; [lia|]. unfold settled, eff. intros S. destruct (Z.eqb_spec l 0); [tauto|]. split; lia.
Qed.

Lemma make_room_vary a l len cap num : exact_alloc a -> 0 <= l -> 0 <= len <= cap -> 0 <= num <= 13 ->
  exists cap', make_room a len cap l num = (cap', negb ((0 <? eff l cap) && (eff l cap <? len + num))) /\
    len <= cap' /\ (((0 <? eff l cap) && (eff l cap <? len + num)) = false -> len + num <= cap') /\ mem_le l cap cap'.
Proof.
  intros ((S1 & S2 & S3) & EX) P L N. unfold make_room, eff.
  destruct (Z.ltb_spec cap (len + num)) as [LT|GE].
  - destruct (Z.eqb_spec l 0) as [->|NZ].
    + change (0 <? 0) with false. cbn [andb negb].
      assert (R : al_reserve a cap (Z.max 128 (2 * cap)) = Z.max 128 (2 * cap)) by (apply EX; lia).
      rewrite R. eexists. split; [reflexivity|]. split; [lia|]. split; [lia|]. split; [lia|].
      intros _. split; [now left|reflexivity].
    + replace (0 <? l) with true by lia. replace (0 <? Z.max l cap) with true by lia. cbn [andb].
      destruct (Z.lt_ge_cases cap (Z.min (Z.max 128 (2 * cap)) l)) as [Q|Q].
      * rewrite EX by assumption. eexists. split; [f_equal; f_equal; lia|]. split; [lia|]. split; [lia|].
        split; [lia|]. unfold settled, eff. intros _. destruct (Z.eqb_spec l 0); lia.
      * rewrite S1 by assumption. exists cap. split; [f_equal; f_equal; lia|]. split; [lia|]. split; [lia|]. apply mem_le_refl.
  - exists cap. split.
    + f_equal. destruct (Z.eqb_spec l 0); [reflexivity|]. lia.
    + split; [lia|]. split; [lia|]. apply mem_le_refl.
Qed.

(* with any allocator: the limit takes effect at E or not at all *)
Lemma make_room_std a l len cap num : std_alloc a -> 0 <= l -> 0 <= len <= cap -> 0 <= num <= 13 ->
  exists cap' E, make_room a len cap l num = (cap', negb ((0 <? E) && (E <? len + num))) /\
    len <= cap' /\ (((0 <? E) && (E <? len + num)) = false -> len + num <= cap') /\ (E = 0 \/ 0 < l <= E).
Proof.
  intros (S1 & S2 & S3) P L N. unfold make_room.
  destruct (Z.ltb_spec cap (len + num)) as [LT|GE].
  2:{ exists cap, 0. split; [reflexivity|]. split; [lia|]. split; [lia|now left]. }
  set (n := if 0 <? l then Z.min (Z.max 128 (2 * cap)) l else Z.max 128 (2 * cap)). cbv zeta.
  assert (R : cap <= al_reserve a cap n /\ n <= al_reserve a cap n).
  { destruct (Z.lt_ge_cases cap n) as [Q|Q]; [specialize (S2 cap n Q); lia|rewrite S1 by lia; lia]. }
  set (cap' := al_reserve a cap n) in *.
  exists cap', (if l =? 0 then 0 else Z.max l cap'). destruct (Z.eqb_spec l 0) as [->|NZ].
  - subst n. cbn [Z.ltb Z.compare] in R. split; [reflexivity|]. split; [lia|]. split; [lia|now left].
  - subst n. replace (0 <? l) with true in * by lia. clearbody cap'.
    split; [f_equal; f_equal; lia|]. split; [lia|]. split; lia.
Qed.

(* ---- sysex7 ----------------------------------------------------------------------------------- *)

Record vinv7 (l : Z) (cb : bool) (st : astate) (c : collector7) : Prop := {
  v7_sysex : c7_sysex c = decode7 (a_bytes st);
  v7_id : c7_id_bytes c = id_count (a_bytes st);
  v7_state : c7_state c = if a_open st then 0x20 else 0x10;
  v7_max : c7_max c = l;
  v7_cb : c7_has_cb c = cb;
  v7_cap : 0 <= size (sx_data (decode7 (a_bytes st))) <= c7_capacity c;
  v7_stream : a_open st = true -> a_stream st = 0 }.

Lemma vinv7_reset a l cb st c s : std_alloc a -> vinv7 l cb st c ->
  vinv7 l cb (mkA [] false s) (c7_reset a c) /\ mem_le l (c7_capacity c) (c7_capacity (c7_reset a c)).
Proof.
  intros A I. pose proof (v7_cap _ _ _ _ I) as C.
  destruct (mem_le_clear a l (c7_capacity c) A) as [M P]; [lia|].
  split; [|exact M]. constructor; try reflexivity; cbn.
  - apply (v7_max _ _ _ _ I).
  - apply (v7_cb _ _ _ _ I).
  - unfold size. cbn. lia.
  - discriminate.
Qed.

Lemma feed7_vary a l cb st c p x : exact_alloc a -> 0 <= l -> vinv7 l cb st c -> wf_packet p -> content7 p = Some x ->
  exists c' cap1, mem_le l (c7_capacity c) cap1 /\ mem_le l cap1 (c7_capacity c') /\
    c7_feed a c p = Ok (c', if cb then map fst (snd (a_step decode7 (eff l cap1) st x)) else []) /\
    vinv7 l cb (fst (a_step decode7 (eff l cap1) st x)) c'.
Proof.
  intros A L0 I W X. assert (SA : std_alloc a) by apply A. destruct (content7_some p x W X) as (IS & ST & F & SID & NUM & PL & SZ).
  unfold c7_feed. rewrite IS, ST. cbn [negb]. unfold a_step. rewrite SID.
  replace ((ct_format x * 16 =? 0) || (ct_format x * 16 =? 16)) with (ct_format x <? 2) by lia.
  set (opening := ct_format x <? 2).
  rewrite (v7_state _ _ _ _ I).
  replace (negb ((if a_open st then 32 else 16) =? 32)) with (negb (a_open st)) by now destruct (a_open st).
  destruct (negb opening && negb (a_open st)) eqn:E1.
  { destruct (vinv7_reset a l cb st c 0 SA I) as [I' M]. eexists _, (c7_capacity c).
    split; [apply mem_le_refl|]. split; [exact M|]. split; [now destruct cb|]. exact I'. }
  replace (negb opening && negb (0 =? a_stream st)) with false.
  2:{ destruct opening; [reflexivity|]. cbn [negb andb] in *. rewrite (v7_stream _ _ _ _ I) by (now destruct (a_open st)). reflexivity. }
  replace (negb ((if a_open st then 32 else 16) =? 16)) with (a_open st) by now destruct (a_open st).
  set (base := if opening && a_open st then [] else a_bytes st).
  set (c1 := if opening && a_open st then c7_reset a c else c).
  assert (I1 : exists st1, a_bytes st1 = base /\ vinv7 l cb st1 c1 /\ mem_le l (c7_capacity c) (c7_capacity c1)).
  { unfold base, c1. destruct (opening && a_open st).
    - exists (mkA [] false 0). split; [reflexivity|]. now apply (vinv7_reset a l cb st c).
    - exists st. split; [reflexivity|]. split; [exact I|apply mem_le_refl]. }
  destruct I1 as (st1 & B1 & I1 & M1).
  rewrite (v7_sysex _ _ _ _ I1), (v7_max _ _ _ _ I1), (v7_id _ _ _ _ I1), (v7_cb _ _ _ _ I1), B1.
  destruct (make_room_vary a l (size (sx_data (decode7 base))) (c7_capacity c1) (Z.of_nat (sysex7_payload_size p)) A L0)
    as (cap & MR & K1 & K2 & M2); [rewrite <- B1; apply (v7_cap _ _ _ _ I1)|lia|].
  rewrite MR. unfold data_size. rewrite SZ.
  destruct ((0 <? eff l (c7_capacity c1)) && (eff l (c7_capacity c1) <? size (sx_data (decode7 base)) + Z.of_nat (sysex7_payload_size p))) eqn:E2; cbn [negb].
  { exists (mkC7 (decode7 base) cap l 16 (id_count base) cb), (c7_capacity c1). split; [exact M1|]. rewrite E2. split; [exact M2|]. split; [now destruct cb|]. cbn [fst].
    pose proof (size_nonneg (sx_data (decode7 base))). constructor; cbn; trivial; lia. }
  rewrite c7_bytes_spec by lia. cbn [bind Nat.add]. rewrite <- PL.
  specialize (K2 eq_refl). rewrite <- SZ in K2.
  assert (K3 : 0 <= size (sx_data (decode7 (base ++ ct_payload x))) <= cap).
  { pose proof (decode7_size base (ct_payload x)).
    pose proof (size_nonneg (sx_data (decode7 (base ++ ct_payload x)))). lia. }
  replace ((ct_format x * 16 =? 0) || (ct_format x * 16 =? 48)) with ((ct_format x =? 0) || (ct_format x =? 3)) by lia.
  destruct ((ct_format x =? 0) || (ct_format x =? 3)) eqn:E3.
  - destruct (vinv7_reset a l cb (mkA (base ++ ct_payload x) (a_open st1) 0)
      (mkC7 (decode7 (base ++ ct_payload x)) cap l (c7_state c1) (id_count (base ++ ct_payload x)) cb) 0 SA) as [I' M3].
    { constructor; cbn; trivial. apply (v7_state _ _ _ _ I1). }
    exists (c7_reset a (mkC7 (decode7 (base ++ ct_payload x)) cap l (c7_state c1) (id_count (base ++ ct_payload x)) cb)), (c7_capacity c1). split; [exact M1|]. rewrite E2. split; [eapply mem_le_trans; [exact M2|exact M3]|].
    split; [now destruct cb|]. exact I'.
  - exists (mkC7 (decode7 (base ++ ct_payload x)) cap l 32 (id_count (base ++ ct_payload x)) cb), (c7_capacity c1). split; [exact M1|]. rewrite E2. split; [exact M2|].
    split; [now destruct cb|]. cbn [fst]. constructor; cbn; trivial.
Qed.

Lemma feed7_std a l cb st c p x : std_alloc a -> 0 <= l -> vinv7 l cb st c -> wf_packet p -> content7 p = Some x ->
  exists c' E, (E = 0 \/ 0 < l <= E) /\
    c7_feed a c p = Ok (c', if cb then map fst (snd (a_step decode7 E st x)) else []) /\
    vinv7 l cb (fst (a_step decode7 E st x)) c'.
Proof.
  intros A L0 I W X. assert (SA := A). destruct (content7_some p x W X) as (IS & ST & F & SID & NUM & PL & SZ).
  unfold c7_feed. rewrite IS, ST. cbn [negb]. unfold a_step. rewrite SID.
  replace ((ct_format x * 16 =? 0) || (ct_format x * 16 =? 16)) with (ct_format x <? 2) by lia.
  set (opening := ct_format x <? 2).
  rewrite (v7_state _ _ _ _ I).
  replace (negb ((if a_open st then 32 else 16) =? 32)) with (negb (a_open st)) by now destruct (a_open st).
  destruct (negb opening && negb (a_open st)) eqn:E1.
  { destruct (vinv7_reset a l cb st c 0 SA I) as [I' M]. eexists _, 0.
    split; [now left|]. split; [now destruct cb|]. exact I'. }
  replace (negb opening && negb (0 =? a_stream st)) with false.
  2:{ destruct opening; [reflexivity|]. cbn [negb andb] in *. rewrite (v7_stream _ _ _ _ I) by (now destruct (a_open st)). reflexivity. }
  replace (negb ((if a_open st then 32 else 16) =? 16)) with (a_open st) by now destruct (a_open st).
  set (base := if opening && a_open st then [] else a_bytes st).
  set (c1 := if opening && a_open st then c7_reset a c else c).
  assert (I1 : exists st1, a_bytes st1 = base /\ vinv7 l cb st1 c1 /\ mem_le l (c7_capacity c) (c7_capacity c1)).
  { unfold base, c1. destruct (opening && a_open st).
    - exists (mkA [] false 0). split; [reflexivity|]. now apply (vinv7_reset a l cb st c).
    - exists st. split; [reflexivity|]. split; [exact I|apply mem_le_refl]. }
  destruct I1 as (st1 & B1 & I1 & M1).
  rewrite (v7_sysex _ _ _ _ I1), (v7_max _ _ _ _ I1), (v7_id _ _ _ _ I1), (v7_cb _ _ _ _ I1), B1.
  destruct (make_room_std a l (size (sx_data (decode7 base))) (c7_capacity c1) (Z.of_nat (sysex7_payload_size p)) A L0)
    as (cap & E & MR & K1 & K2 & M2); [rewrite <- B1; apply (v7_cap _ _ _ _ I1)|lia|].
  rewrite MR. unfold data_size. rewrite SZ.
  destruct ((0 <? E) && (E <? size (sx_data (decode7 base)) + Z.of_nat (sysex7_payload_size p))) eqn:E2; cbn [negb].
  { exists (mkC7 (decode7 base) cap l 16 (id_count base) cb), E. rewrite E2. split; [exact M2|]. split; [now destruct cb|]. cbn [fst].
    pose proof (size_nonneg (sx_data (decode7 base))). constructor; cbn; trivial; lia. }
  rewrite c7_bytes_spec by lia. cbn [bind Nat.add]. rewrite <- PL.
  specialize (K2 eq_refl). rewrite <- SZ in K2.
  assert (K3 : 0 <= size (sx_data (decode7 (base ++ ct_payload x))) <= cap).
  { pose proof (decode7_size base (ct_payload x)).
    pose proof (size_nonneg (sx_data (decode7 (base ++ ct_payload x)))). lia. }
  replace ((ct_format x * 16 =? 0) || (ct_format x * 16 =? 48)) with ((ct_format x =? 0) || (ct_format x =? 3)) by lia.
  destruct ((ct_format x =? 0) || (ct_format x =? 3)) eqn:E3.
  - destruct (vinv7_reset a l cb (mkA (base ++ ct_payload x) (a_open st1) 0)
      (mkC7 (decode7 (base ++ ct_payload x)) cap l (c7_state c1) (id_count (base ++ ct_payload x)) cb) 0 SA) as [I' M3].
    { constructor; cbn; trivial. apply (v7_state _ _ _ _ I1). }
    exists (c7_reset a (mkC7 (decode7 (base ++ ct_payload x)) cap l (c7_state c1) (id_count (base ++ ct_payload x)) cb)), E. rewrite E2. split; [exact M2|].
    split; [now destruct cb|]. exact I'.
  - exists (mkC7 (decode7 (base ++ ct_payload x)) cap l 32 (id_count (base ++ ct_payload x)) cb), E. rewrite E2. split; [exact M2|].
    split; [now destruct cb|]. cbn [fst]. constructor; cbn; trivial.
Qed.

(* ---- sysex8 ----------------------------------------------------------------------------------- *)

Record vinv8 (l : Z) (cb : bool) (st : astate) (c : collector8) : Prop := {
  v8_sysex : c8_sysex c = decode8 (a_bytes st);
  v8_id : c8_id_state c = id_state8 (a_bytes st);
  v8_state : c8_state c = if a_open st then 2 else 1;
  v8_max : c8_max c = l;
  v8_cb : c8_has_cb c = cb;
  v8_cap : 0 <= size (sx_data (decode8 (a_bytes st))) <= c8_capacity c;
  v8_stream : a_stream st = c8_stream c;
  v8_u8 : Forall is_u8 (a_bytes st) }.

Lemma vinv8_reset a l cb st c : std_alloc a -> vinv8 l cb st c ->
  vinv8 l cb a_idle (c8_reset a c) /\ mem_le l (c8_capacity c) (c8_capacity (c8_reset a c)).
Proof.
  intros A I. pose proof (v8_cap _ _ _ _ I) as C.
  destruct (mem_le_clear a l (c8_capacity c) A) as [M P]; [lia|].
  split; [|exact M]. constructor; try reflexivity; cbn.
  - apply (v8_max _ _ _ _ I).
  - apply (v8_cb _ _ _ _ I).
  - unfold size. cbn. lia.
  - constructor.
Qed.

Lemma feed8_vary a l cb st c p x : exact_alloc a -> 0 <= l -> vinv8 l cb st c -> wf_packet p -> content8 p = Some x ->
  exists c' cap1, mem_le l (c8_capacity c) cap1 /\ mem_le l cap1 (c8_capacity c') /\
    c8_feed a c p = Ok (c', if cb then snd (a_step decode8 (eff l cap1) st x) else []) /\
    vinv8 l cb (fst (a_step decode8 (eff l cap1) st x)) c'.
Proof.
  intros A L0 I W X. assert (SA : std_alloc a) by apply A. destruct (content8_some p x W X) as (IS & ST & F & SID & NUM & PL & SZ).
  unfold c8_feed. rewrite IS, ST, SID. cbn [negb bind]. unfold a_step.
  replace ((ct_format x =? 0) || (ct_format x =? 1)) with (ct_format x <? 2) by lia.
  set (opening := ct_format x <? 2).
  rewrite (v8_state _ _ _ _ I), (v8_stream _ _ _ _ I).
  replace (negb ((if a_open st then 2 else 1) =? 2)) with (negb (a_open st)) by now destruct (a_open st).
  destruct (negb opening && negb (a_open st)) eqn:E1.
  { destruct (vinv8_reset a l cb st c SA I) as [I' M]. eexists _, (c8_capacity c).
    split; [apply mem_le_refl|]. split; [exact M|]. split; [now destruct cb|]. exact I'. }
  destruct (negb opening && negb (ct_stream x =? c8_stream c)) eqn:E0.
  { exists c, (c8_capacity c). split; [apply mem_le_refl|]. split; [apply mem_le_refl|]. split; [now destruct cb|]. exact I. }
  replace (negb ((if a_open st then 2 else 1) =? 1)) with (a_open st) by now destruct (a_open st).
  set (base := if opening && a_open st then [] else a_bytes st).
  set (c1 := if opening && a_open st then c8_reset a c else c).
  assert (I1 : exists st1, a_bytes st1 = base /\ vinv8 l cb st1 c1 /\ mem_le l (c8_capacity c) (c8_capacity c1)).
  { unfold base, c1. destruct (opening && a_open st).
    - exists a_idle. split; [reflexivity|]. now apply (vinv8_reset a l cb st c).
    - exists st. split; [reflexivity|]. split; [exact I|apply mem_le_refl]. }
  assert (SS : (if opening then ct_stream x else c8_stream c1) = ct_stream x).
  { unfold c1. destruct opening; [reflexivity|]. cbn [negb andb] in *. lia. }
  rewrite SS. destruct I1 as (st1 & B1 & I1 & M1).
  rewrite (v8_sysex _ _ _ _ I1), (v8_max _ _ _ _ I1), (v8_id _ _ _ _ I1), (v8_cb _ _ _ _ I1), B1.
  destruct (make_room_vary a l (size (sx_data (decode8 base))) (c8_capacity c1) (Z.of_nat (sysex8_payload_size p)) A L0)
    as (cap & MR & K1 & K2 & M2); [rewrite <- B1; apply (v8_cap _ _ _ _ I1)|lia|].
  assert (BU : Forall is_u8 base) by (rewrite <- B1; apply (v8_u8 _ _ _ _ I1)).
  rewrite MR. unfold data_size. rewrite SZ.
  destruct ((0 <? eff l (c8_capacity c1)) && (eff l (c8_capacity c1) <? size (sx_data (decode8 base)) + Z.of_nat (sysex8_payload_size p))) eqn:E2; cbn [negb].
  { exists (mkC8 (ct_stream x) (decode8 base) cap l 1 (id_state8 base) cb), (c8_capacity c1). split; [exact M1|]. rewrite E2. split; [exact M2|]. split; [now destruct cb|]. cbn [fst].
    pose proof (size_nonneg (sx_data (decode8 base))). constructor; cbn; trivial. lia. }
  rewrite c8_bytes_spec by (trivial; lia). cbn [bind Nat.add]. rewrite <- PL.
  specialize (K2 eq_refl). rewrite <- SZ in K2.
  assert (K3 : 0 <= size (sx_data (decode8 (base ++ ct_payload x))) <= cap).
  { pose proof (decode8_size base (ct_payload x)).
    pose proof (size_nonneg (sx_data (decode8 (base ++ ct_payload x)))). lia. }
  assert (PU : Forall is_u8 (base ++ ct_payload x)).
  { apply Forall_app; split; trivial. rewrite PL. apply Forall_firstn, Forall_skipn, bytes_range. }
  destruct ((ct_format x =? 0) || (ct_format x =? 3)) eqn:E3.
  - destruct (vinv8_reset a l cb (mkA (base ++ ct_payload x) (a_open st1) (ct_stream x))
      (mkC8 (ct_stream x) (decode8 (base ++ ct_payload x)) cap l (c8_state c1) (id_state8 (base ++ ct_payload x)) cb) SA) as [I' M3].
    { constructor; cbn; trivial. apply (v8_state _ _ _ _ I1). }
    exists (c8_reset a (mkC8 (ct_stream x) (decode8 (base ++ ct_payload x)) cap l (c8_state c1) (id_state8 (base ++ ct_payload x)) cb)), (c8_capacity c1). split; [exact M1|]. rewrite E2. split; [eapply mem_le_trans; [exact M2|exact M3]|].
    split; [now destruct cb|]. exact I'.
  - exists (mkC8 (ct_stream x) (decode8 (base ++ ct_payload x)) cap l 2 (id_state8 (base ++ ct_payload x)) cb), (c8_capacity c1). split; [exact M1|]. rewrite E2. split; [exact M2|].
    split; [now destruct cb|]. cbn [fst]. constructor; cbn; trivial.
Qed.

Lemma feed8_std a l cb st c p x : std_alloc a -> 0 <= l -> vinv8 l cb st c -> wf_packet p -> content8 p = Some x ->
  exists c' E, (E = 0 \/ 0 < l <= E) /\
    c8_feed a c p = Ok (c', if cb then snd (a_step decode8 E st x) else []) /\
    vinv8 l cb (fst (a_step decode8 E st x)) c'.
Proof.
  intros A L0 I W X. assert (SA := A). destruct (content8_some p x W X) as (IS & ST & F & SID & NUM & PL & SZ).
  unfold c8_feed. rewrite IS, ST, SID. cbn [negb bind]. unfold a_step.
  replace ((ct_format x =? 0) || (ct_format x =? 1)) with (ct_format x <? 2) by lia.
  set (opening := ct_format x <? 2).
  rewrite (v8_state _ _ _ _ I), (v8_stream _ _ _ _ I).
  replace (negb ((if a_open st then 2 else 1) =? 2)) with (negb (a_open st)) by now destruct (a_open st).
  destruct (negb opening && negb (a_open st)) eqn:E1.
  { destruct (vinv8_reset a l cb st c SA I) as [I' M]. eexists _, 0.
    split; [now left|]. split; [now destruct cb|]. exact I'. }
  destruct (negb opening && negb (ct_stream x =? c8_stream c)) eqn:E0.
  { exists c, 0. split; [now left|]. split; [now destruct cb|]. exact I. }
  replace (negb ((if a_open st then 2 else 1) =? 1)) with (a_open st) by now destruct (a_open st).
  set (base := if opening && a_open st then [] else a_bytes st).
  set (c1 := if opening && a_open st then c8_reset a c else c).
  assert (I1 : exists st1, a_bytes st1 = base /\ vinv8 l cb st1 c1 /\ mem_le l (c8_capacity c) (c8_capacity c1)).
  { unfold base, c1. destruct (opening && a_open st).
    - exists a_idle. split; [reflexivity|]. now apply (vinv8_reset a l cb st c).
    - exists st. split; [reflexivity|]. split; [exact I|apply mem_le_refl]. }
  assert (SS : (if opening then ct_stream x else c8_stream c1) = ct_stream x).
  { unfold c1. destruct opening; [reflexivity|]. cbn [negb andb] in *. lia. }
  rewrite SS. destruct I1 as (st1 & B1 & I1 & M1).
  rewrite (v8_sysex _ _ _ _ I1), (v8_max _ _ _ _ I1), (v8_id _ _ _ _ I1), (v8_cb _ _ _ _ I1), B1.
  destruct (make_room_std a l (size (sx_data (decode8 base))) (c8_capacity c1) (Z.of_nat (sysex8_payload_size p)) A L0)
    as (cap & E & MR & K1 & K2 & M2); [rewrite <- B1; apply (v8_cap _ _ _ _ I1)|lia|].
  assert (BU : Forall is_u8 base) by (rewrite <- B1; apply (v8_u8 _ _ _ _ I1)).
  rewrite MR. unfold data_size. rewrite SZ.
  destruct ((0 <? E) && (E <? size (sx_data (decode8 base)) + Z.of_nat (sysex8_payload_size p))) eqn:E2; cbn [negb].
  { exists (mkC8 (ct_stream x) (decode8 base) cap l 1 (id_state8 base) cb), E. rewrite E2. split; [exact M2|]. split; [now destruct cb|]. cbn [fst].
    pose proof (size_nonneg (sx_data (decode8 base))). constructor; cbn; trivial. lia. }
  rewrite c8_bytes_spec by (trivial; lia). cbn [bind Nat.add]. rewrite <- PL.
  specialize (K2 eq_refl). rewrite <- SZ in K2.
  assert (K3 : 0 <= size (sx_data (decode8 (base ++ ct_payload x))) <= cap).
  { pose proof (decode8_size base (ct_payload x)).
    pose proof (size_nonneg (sx_data (decode8 (base ++ ct_payload x)))). lia. }
  assert (PU : Forall is_u8 (base ++ ct_payload x)).
  { apply Forall_app; split; trivial. rewrite PL. apply Forall_firstn, Forall_skipn, bytes_range. }
  destruct ((ct_format x =? 0) || (ct_format x =? 3)) eqn:E3.
  - destruct (vinv8_reset a l cb (mkA (base ++ ct_payload x) (a_open st1) (ct_stream x))
      (mkC8 (ct_stream x) (decode8 (base ++ ct_payload x)) cap l (c8_state c1) (id_state8 (base ++ ct_payload x)) cb) SA) as [I' M3].
    { constructor; cbn; trivial. apply (v8_state _ _ _ _ I1). }
    exists (c8_reset a (mkC8 (ct_stream x) (decode8 (base ++ ct_payload x)) cap l (c8_state c1) (id_state8 (base ++ ct_payload x)) cb)), E. rewrite E2. split; [exact M2|].
    split; [now destruct cb|]. exact I'.
  - exists (mkC8 (ct_stream x) (decode8 (base ++ ct_payload x)) cap l 2 (id_state8 (base ++ ct_payload x)) cb), E. rewrite E2. split; [exact M2|].
    split; [now destruct cb|]. cbn [fst]. constructor; cbn; trivial.
Qed.

(* ---- the reference collector ------------------------------------------------------------------ *)

Lemma a_step_data dec E st x : (forall l y, size (sx_data (dec (l ++ y))) <= size (sx_data (dec l)) + size y) -> 0 < E ->
  Forall (fun s => size (sx_data (fst s)) <= E) (snd (a_step dec E st x)).
Proof.
  intros DS P. unfold a_step. destruct (negb _ && _); [constructor|]. destruct (negb _ && _); [constructor|].
  unfold data_size. set (base := if (ct_format x <? 2) && a_open st then [] else a_bytes st). specialize (DS base (ct_payload x)).
  destruct ((0 <? E) && _) eqn:E2; [constructor|]. destruct (_ || _); [|constructor].
  constructor; [cbn; lia|constructor].
Qed.
Lemma a_step8_bounded E st x : 0 < E -> Forall (fun s => size (sx_data (fst s)) <= E) (snd (a_step decode8 E st x)).
Proof. apply a_step_data, decode8_size. Qed.
Lemma a_step7_bounded E st x : 0 < E -> Forall (fun s => size (sx_data s) <= E) (map fst (snd (a_step decode7 E st x))).
Proof. intros P. apply Forall_map. now apply a_step_data; [apply decode7_size|]. Qed.

Lemma a_step_roomy dec n E b st x : a_clean st -> data_size dec (a_bytes st) <= b -> 0 <= b ->
  (if ct_format x <? 2 then 0 else b) + size (ct_payload x) <= n -> (E = 0 \/ n <= E) ->
  (forall l y, size (sx_data (dec (l ++ y))) <= size (sx_data (dec l)) + size y) -> dec [] = mkSx 0 [] ->
  a_step dec E st x = a_step dec 0 st x /\ a_clean (fst (a_step dec 0 st x)) /\
  data_size dec (a_bytes (fst (a_step dec 0 st x))) <= (if ct_format x <? 2 then 0 else b) + size (ct_payload x).
Proof.
  intros C D B N EN DS D0. unfold a_step. pose proof (size_nonneg (ct_payload x)) as PN.
  assert (Z0 : data_size dec [] = 0) by (unfold data_size; rewrite D0; reflexivity).
  destruct (ct_format x <? 2) eqn:O; cbn [negb andb].
  - set (base := if a_open st then [] else a_bytes st).
    assert (BE : base = []) by (unfold base; destruct C as [-> | ->]; [reflexivity|now destruct (a_open st)]).
    rewrite BE, Z0. cbn [app Z.add]. replace ((0 <? E) && _) with false by lia. cbn [Z.ltb Z.compare andb].
    specialize (DS [] (ct_payload x)). cbn [app] in DS. rewrite D0 in DS. unfold data_size. change (size (sx_data (mkSx 0 []))) with 0 in DS.
    destruct (_ || _); cbn [fst a_bytes a_clean a_open]; (split; [reflexivity|]); (split; [unfold a_clean; cbn; tauto|]).
    + fold (data_size dec []). lia.
    + lia.
  - destruct (a_open st) eqn:AO; cbn [negb andb].
    2:{ split; [reflexivity|]. split; [apply idle_clean|]. cbn. lia. }
    destruct (ct_stream x =? a_stream st); cbn [negb].
    2:{ split; [reflexivity|]. split; [exact C|]. cbn. lia. }
    unfold data_size in *. specialize (DS (a_bytes st) (ct_payload x)).
    replace ((0 <? E) && _) with false by lia. cbn [Z.ltb Z.compare andb].
    destruct (_ || _); cbn [fst a_bytes a_clean a_open]; (split; [reflexivity|]); (split; [unfold a_clean; cbn; tauto|]); lia.
Qed.

(* ---- sequences of calls, sysex7 --------------------------------------------------------------- *)

Lemma vinv7_set_max a l cb st c s : exact_alloc a -> vinv7 l cb st c -> 0 <= s -> vinv7 s cb st (c7_set_max a c s) /\
  c7_capacity (c7_set_max a c s) = Z.max (c7_capacity c) s.
Proof.
  intros ((S1 & S2 & S3) & EX) I N.
  assert (E : c7_capacity (c7_set_max a c s) = Z.max (c7_capacity c) s).
  { pose proof (v7_cap _ _ _ _ I). cbn. destruct (Z.eqb_spec s 0); cbn [negb]; [lia|].
    destruct (Z.lt_ge_cases (c7_capacity c) s); [rewrite EX by lia; lia|rewrite S1 by lia; lia]. }
  split; [|exact E]. pose proof (v7_cap _ _ _ _ I). destruct I.
  constructor; try assumption; [reflexivity|]. rewrite E. lia.
Qed.

Lemma vinv7_set_max_std a l cb st c s : std_alloc a -> vinv7 l cb st c -> 0 <= s -> vinv7 s cb st (c7_set_max a c s).
Proof.
  intros (S1 & S2 & S3) I N. pose proof (v7_cap _ _ _ _ I).
  assert (E : c7_capacity c <= c7_capacity (c7_set_max a c s)).
  { cbn. destruct (negb (s =? 0)); [|lia].
    destruct (Z.lt_ge_cases (c7_capacity c) s) as [Q|Q]; [specialize (S2 _ _ Q); lia|rewrite S1 by lia; lia]. }
  destruct I. constructor; try assumption; [reflexivity|]. lia.
Qed.

Lemma vinv7_set_cb l cb st c cb' : vinv7 l cb st c -> vinv7 l cb' st (c7_set_callback c cb').
Proof. intros []. now constructor. Qed.

Lemma vinv7_new cb : vinv7 0 cb a_idle (new_collector7 cb).
Proof. constructor; try reflexivity; cbn; try discriminate; try constructor; unfold size; cbn; lia. Qed.

Lemma calls7_any a ks : std_alloc a -> Forall any_call ks -> forall l cb st c, 0 <= l -> vinv7 l cb st c ->
  exists c' o st', c7_calls a c ks = Ok (c', o) /\ vinv7 (last_limit l ks) (c7_has_cb c') st' c' /\ 0 <= last_limit l ks.
Proof.
  intros A. assert (SA := A). induction 1 as [|k ks K _ IH]; intros l cb st c L0 I.
  { exists c, [], st. split; [reflexivity|]. rewrite (v7_cb _ _ _ _ I). split; [exact I|exact L0]. }
  cbn [c7_calls last_limit]. destruct k as [p| |s|cb']; cbn [c7_call].
  - destruct (content7 p) as [x|] eqn:X.
    + destruct (feed7_std a l cb st c p x A L0 I K X) as (c1 & E & _ & E1 & I1). rewrite E1. cbn [bind].
      destruct (IH _ _ _ _ L0 I1) as (c2 & o2 & st2 & E2 & I2). rewrite E2. cbn [bind]. eexists _, _, st2. split; [reflexivity|exact I2].
    + rewrite feed7_skip by assumption. cbn [bind].
      destruct (IH _ _ _ _ L0 I) as (c2 & o2 & st2 & E2 & I2). rewrite E2. cbn [bind]. eexists _, _, st2. split; [reflexivity|exact I2].
  - cbn [bind]. destruct (vinv7_reset a l cb st c 0 SA I) as [I1 _].
    destruct (IH _ _ _ _ L0 I1) as (c2 & o2 & st2 & E2 & I2). rewrite E2. cbn [bind]. eexists _, _, st2. split; [reflexivity|exact I2].
  - cbn [any_call] in K. pose proof (vinv7_set_max_std a l cb st c s A I K) as I1. cbn [bind].
    destruct (IH _ _ _ _ K I1) as (c2 & o2 & st2 & E2 & I2). rewrite E2. cbn [bind]. eexists _, _, st2. split; [reflexivity|exact I2].
  - cbn [bind]. destruct (IH _ _ _ _ L0 (vinv7_set_cb _ _ _ _ cb' I)) as (c2 & o2 & st2 & E2 & I2). rewrite E2. cbn [bind].
    eexists _, _, st2. split; [reflexivity|exact I2].
Qed.

(* the state after any calls *)
Lemma after7_any a cb ks c o : std_alloc a -> Forall any_call ks -> c7_calls a (new_collector7 cb) ks = Ok (c, o) ->
  exists st, vinv7 (last_limit 0 ks) (c7_has_cb c) st c /\ 0 <= last_limit 0 ks.
Proof.
  intros A K E. destruct (calls7_any a ks A K 0 cb a_idle _ (Z.le_refl 0) (vinv7_new cb)) as (c' & o' & st & E' & I).
  rewrite E in E'. injection E' as <- _. now exists st.
Qed.

(* the limit that takes effect stays the same *)
Lemma calls7_settled a ks : exact_alloc a -> Forall keeps_limit ks -> forall l cb st c, 0 <= l -> vinv7 l cb st c ->
  settled l (c7_capacity c) ->
  exists c', c7_calls a c ks = Ok (c', map fst (snd (a_calls content7 decode7 (eff l (c7_capacity c)) cb st ks))).
Proof.
  intros A. assert (SA : std_alloc a) by apply A. induction 1 as [|k ks K _ IH]; intros l cb st c L0 I S.
  { now exists c. }
  cbn [c7_calls]. destruct k as [p| |s|cb']; cbn [c7_call a_calls].
  - destruct (content7 p) as [x|] eqn:X.
    + destruct (feed7_vary a l cb st c p x A L0 I K X) as (c1 & cap1 & M1 & M2 & E1 & I1). rewrite E1. cbn [bind].
      destruct (proj2 M1 S) as [S1 F1]. destruct (proj2 M2 S1) as [S2 F2].
      destruct (IH _ _ _ _ L0 I1 S2) as (c2 & E2). rewrite E2. cbn [bind]. exists c2.
      rewrite F2, F1. cbn [snd]. rewrite map_app. now destruct cb.
    + rewrite feed7_skip by assumption. cbn [bind].
      destruct (IH _ _ _ _ L0 I S) as (c2 & E2). rewrite E2. now exists c2.
  - cbn [bind]. destruct (vinv7_reset a l cb st c 0 SA I) as [I1 M1]. destruct (proj2 M1 S) as [S1 F1].
    destruct (IH _ _ _ _ L0 I1 S1) as (c2 & E2). rewrite E2. cbn [bind]. exists c2. now rewrite F1.
  - destruct K.
  - cbn [bind]. destruct (IH _ _ _ _ L0 (vinv7_set_cb _ _ _ _ cb' I) S) as (c2 & E2). rewrite E2. now exists c2.
Qed.

(* no more is delivered than takes effect *)
Lemma calls7_bounded a ks : exact_alloc a -> Forall keeps_limit ks -> forall l cb st c, 0 < l -> vinv7 l cb st c ->
  exists c' o, c7_calls a c ks = Ok (c', o) /\ Forall (fun s => size (sx_data s) <= Z.max l (c7_capacity c)) o.
Proof.
  intros A. assert (SA : std_alloc a) by apply A. induction 1 as [|k ks K _ IH]; intros l cb st c L0 I.
  { exists c, []. split; [reflexivity|constructor]. }
  assert (L1 : 0 <= l) by lia. assert (L2 : l <> 0) by lia.
  cbn [c7_calls]. destruct k as [p| |s|cb']; cbn [c7_call].
  - destruct (content7 p) as [x|] eqn:X.
    + destruct (feed7_vary a l cb st c p x A L1 I K X) as (c1 & cap1 & M1 & M2 & E1 & I1). rewrite E1. cbn [bind].
      specialize (proj1 M1 L2) as B1. specialize (proj1 M2 L2) as B2.
      destruct (IH _ _ _ _ L0 I1) as (c2 & o2 & E2 & F2). rewrite E2. cbn [bind]. eexists _, _. split; [reflexivity|].
      apply Forall_app. split.
      * destruct cb; [|constructor]. apply (Forall_impl _ (P := fun s => size (sx_data s) <= eff l cap1)).
        { intros s. unfold eff. destruct (Z.eqb_spec l 0); lia. }
        apply a_step7_bounded. unfold eff. destruct (Z.eqb_spec l 0); lia.
      * revert F2. apply Forall_impl. intros s. lia.
    + rewrite feed7_skip by assumption. cbn [bind].
      destruct (IH _ _ _ _ L0 I) as (c2 & o2 & E2 & F2). rewrite E2. eexists _, _. split; [reflexivity|exact F2].
  - cbn [bind]. destruct (vinv7_reset a l cb st c 0 SA I) as [I1 M1]. specialize (proj1 M1 L2) as B1.
    destruct (IH _ _ _ _ L0 I1) as (c2 & o2 & E2 & F2). rewrite E2. cbn [bind]. eexists _, _. split; [reflexivity|].
    revert F2. apply Forall_impl. intros s. lia.
  - destruct K.
  - cbn [bind]. destruct (IH _ _ _ _ L0 (vinv7_set_cb _ _ _ _ cb' I)) as (c2 & o2 & E2 & F2). rewrite E2.
    eexists _, _. split; [reflexivity|exact F2].
Qed.

(* memory under limits of at most [m] *)
Lemma calls7_memory a m ks : exact_alloc a -> Forall any_call ks -> Forall (limited m) ks ->
  forall l cb st c, 0 < l <= m -> vinv7 l cb st c -> c7_capacity c <= m ->
  exists c' o, c7_calls a c ks = Ok (c', o) /\ c7_capacity c' <= m.
Proof.
  intros A AC. assert (SA : std_alloc a) by apply A. induction AC as [|k ks K _ IH]; intros LM l cb st c L0 I C.
  { exists c, []. split; [reflexivity|exact C]. }
  inversion_clear LM as [|? ? K' LM'].
  assert (L1 : 0 <= l) by lia. assert (L2 : l <> 0) by lia.
  cbn [c7_calls]. destruct k as [p| |s|cb']; cbn [c7_call].
  - destruct (content7 p) as [x|] eqn:X.
    + destruct (feed7_vary a l cb st c p x A L1 I K X) as (c1 & cap1 & M1 & M2 & E1 & I1). rewrite E1. cbn [bind].
      specialize (proj1 M1 L2) as B1. specialize (proj1 M2 L2) as B2.
      destruct (IH LM' _ _ _ _ L0 I1) as (c2 & o2 & E2 & F2); [lia|]. rewrite E2. cbn [bind]. eexists _, _. split; [reflexivity|exact F2].
    + rewrite feed7_skip by assumption. cbn [bind].
      destruct (IH LM' _ _ _ _ L0 I C) as (c2 & o2 & E2 & F2). rewrite E2. eexists _, _. split; [reflexivity|exact F2].
  - cbn [bind]. destruct (vinv7_reset a l cb st c 0 SA I) as [I1 M1]. specialize (proj1 M1 L2) as B1.
    destruct (IH LM' _ _ _ _ L0 I1) as (c2 & o2 & E2 & F2); [lia|]. rewrite E2. cbn [bind]. eexists _, _. split; [reflexivity|exact F2].
  - cbn [limited] in K'. destruct (vinv7_set_max a l cb st c s A I) as [I1 E1]; [lia|]. cbn [bind].
    destruct (IH LM' _ _ _ _ K' I1) as (c2 & o2 & E2 & F2); [lia|]. rewrite E2. cbn [bind]. eexists _, _. split; [reflexivity|exact F2].
  - cbn [bind]. destruct (IH LM' _ _ _ _ L0 (vinv7_set_cb _ _ _ _ cb' I) C) as (c2 & o2 & E2 & F2). rewrite E2.
    eexists _, _. split; [reflexivity|exact F2].
Qed.

Lemma memory7 a cb m s ks c o : exact_alloc a -> Forall any_call (KSetMax s :: ks) -> Forall (limited m) (KSetMax s :: ks) ->
  c7_calls a (new_collector7 cb) (KSetMax s :: ks) = Ok (c, o) -> c7_capacity c <= m.
Proof.
  intros A AC LM E. inversion_clear AC as [|? ? AC1 AC2]. inversion_clear LM as [|? ? LM1 LM2]. cbn [any_call limited] in *.
  cbn [c7_calls c7_call bind] in E. destruct (vinv7_set_max a 0 cb a_idle _ s A (vinv7_new cb) AC1) as [I1 E1].
  destruct (calls7_memory a m ks A AC2 LM2 s cb a_idle _ LM1 I1) as (c' & o' & E' & B); [rewrite E1; cbn; lia|].
  rewrite E' in E. cbn [bind] in E. injection E as <- _. exact B.
Qed.

(* limits that are not reached *)
Lemma calls7_roomy a n ks : std_alloc a -> forall b l cb st c, 0 <= b -> 0 <= l -> (l = 0 \/ n <= l) ->
  vinv7 l cb st c -> a_clean st -> data_size decode7 (a_bytes st) <= b -> roomy content7 n b ks ->
  exists c', c7_calls a c ks = Ok (c', map fst (snd (a_calls content7 decode7 0 cb st (without_limits ks)))).
Proof.
  intros A. assert (SA := A). induction ks as [|k ks IH]; intros b l cb st c B0 L0 LN I C D R.
  { now exists c. }
  cbn [c7_calls]. destruct k as [p| |s|cb']; cbn [c7_call without_limits filter a_calls roomy] in *; fold (without_limits ks).
  - destruct R as [W R]. destruct (content7 p) as [x|] eqn:X.
    + destruct R as [BN R]. destruct (feed7_std a l cb st c p x A L0 I W X) as (c1 & E & EL & E1 & I1). rewrite E1. cbn [bind].
      set (b' := (if ct_format x <? 2 then 0 else b) + size (ct_payload x)) in *.
      pose proof (size_nonneg (ct_payload x)) as PN.
      destruct (a_step_roomy decode7 n E b st x) as (ES & C1 & D1); trivial.
      { lia. }
      { apply decode7_size. }
      rewrite ES in I1 |- *.
      destruct (IH b' _ _ _ _ ltac:(unfold b'; destruct (_ <? 2); lia) L0 LN I1 C1 D1 R) as (c2 & E2). rewrite E2. cbn [bind]. exists c2.
      cbn [snd]. rewrite map_app. now destruct cb.
    + rewrite feed7_skip by assumption. cbn [bind].
      destruct (IH b _ _ _ _ B0 L0 LN I C D R) as (c2 & E2). rewrite E2. now exists c2.
  - cbn [bind]. destruct (vinv7_reset a l cb st c 0 SA I) as [I1 M1].
    destruct (IH 0 _ _ _ _ (Z.le_refl 0) L0 LN I1 idle_clean (Z.le_refl 0) R) as (c2 & E2). rewrite E2. now exists c2.
  - destruct R as (N & SN & R). pose proof (vinv7_set_max_std a l cb st c s A I N) as I1. cbn [bind].
    destruct (IH b _ _ _ _ B0 N SN I1 C D R) as (c2 & E2). rewrite E2. now exists c2.
  - cbn [bind]. destruct (IH b _ _ _ _ B0 L0 LN (vinv7_set_cb _ _ _ _ cb' I) C D R) as (c2 & E2). rewrite E2. now exists c2.
Qed.

(* ---- sequences of calls, sysex8 --------------------------------------------------------------- *)

Lemma vinv8_set_max a l cb st c s : exact_alloc a -> vinv8 l cb st c -> 0 <= s -> vinv8 s cb st (c8_set_max a c s) /\
  c8_capacity (c8_set_max a c s) = Z.max (c8_capacity c) s.
Proof.
  intros ((S1 & S2 & S3) & EX) I N.
  assert (E : c8_capacity (c8_set_max a c s) = Z.max (c8_capacity c) s).
  { pose proof (v8_cap _ _ _ _ I). cbn. destruct (Z.eqb_spec s 0); cbn [negb]; [lia|].
    destruct (Z.lt_ge_cases (c8_capacity c) s); [rewrite EX by lia; lia|rewrite S1 by lia; lia]. }
  split; [|exact E]. pose proof (v8_cap _ _ _ _ I). destruct I.
  constructor; try assumption; [reflexivity|]. rewrite E. lia.
Qed.

Lemma vinv8_set_max_std a l cb st c s : std_alloc a -> vinv8 l cb st c -> 0 <= s -> vinv8 s cb st (c8_set_max a c s).
Proof.
  intros (S1 & S2 & S3) I N. pose proof (v8_cap _ _ _ _ I).
  assert (E : c8_capacity c <= c8_capacity (c8_set_max a c s)).
  { cbn. destruct (negb (s =? 0)); [|lia].
    destruct (Z.lt_ge_cases (c8_capacity c) s) as [Q|Q]; [specialize (S2 _ _ Q); lia|rewrite S1 by lia; lia]. }
  destruct I. constructor; try assumption; [reflexivity|]. lia.
Qed.

Lemma vinv8_set_cb l cb st c cb' : vinv8 l cb st c -> vinv8 l cb' st (c8_set_callback c cb').
Proof. intros []. now constructor. Qed.

Lemma vinv8_new cb : vinv8 0 cb a_idle (new_collector8 cb).
Proof. constructor; try reflexivity; cbn; try discriminate; try constructor; unfold size; cbn; lia. Qed.

Lemma calls8_any a ks : std_alloc a -> Forall any_call ks -> forall l cb st c, 0 <= l -> vinv8 l cb st c ->
  exists c' o st', c8_calls a c ks = Ok (c', o) /\ vinv8 (last_limit l ks) (c8_has_cb c') st' c' /\ 0 <= last_limit l ks.
Proof.
  intros A. assert (SA := A). induction 1 as [|k ks K _ IH]; intros l cb st c L0 I.
  { exists c, [], st. split; [reflexivity|]. rewrite (v8_cb _ _ _ _ I). split; [exact I|exact L0]. }
  cbn [c8_calls last_limit]. destruct k as [p| |s|cb']; cbn [c8_call].
  - destruct (content8 p) as [x|] eqn:X.
    + destruct (feed8_std a l cb st c p x A L0 I K X) as (c1 & E & _ & E1 & I1). rewrite E1. cbn [bind].
      destruct (IH _ _ _ _ L0 I1) as (c2 & o2 & st2 & E2 & I2). rewrite E2. cbn [bind]. eexists _, _, st2. split; [reflexivity|exact I2].
    + rewrite feed8_skip by assumption. cbn [bind].
      destruct (IH _ _ _ _ L0 I) as (c2 & o2 & st2 & E2 & I2). rewrite E2. cbn [bind]. eexists _, _, st2. split; [reflexivity|exact I2].
  - cbn [bind]. destruct (vinv8_reset a l cb st c SA I) as [I1 _].
    destruct (IH _ _ _ _ L0 I1) as (c2 & o2 & st2 & E2 & I2). rewrite E2. cbn [bind]. eexists _, _, st2. split; [reflexivity|exact I2].
  - cbn [any_call] in K. pose proof (vinv8_set_max_std a l cb st c s A I K) as I1. cbn [bind].
    destruct (IH _ _ _ _ K I1) as (c2 & o2 & st2 & E2 & I2). rewrite E2. cbn [bind]. eexists _, _, st2. split; [reflexivity|exact I2].
  - cbn [bind]. destruct (IH _ _ _ _ L0 (vinv8_set_cb _ _ _ _ cb' I)) as (c2 & o2 & st2 & E2 & I2). rewrite E2. cbn [bind].
    eexists _, _, st2. split; [reflexivity|exact I2].
Qed.

(* the state after any calls *)
Lemma after8_any a cb ks c o : std_alloc a -> Forall any_call ks -> c8_calls a (new_collector8 cb) ks = Ok (c, o) ->
  exists st, vinv8 (last_limit 0 ks) (c8_has_cb c) st c /\ 0 <= last_limit 0 ks.
Proof.
  intros A K E. destruct (calls8_any a ks A K 0 cb a_idle _ (Z.le_refl 0) (vinv8_new cb)) as (c' & o' & st & E' & I).
  rewrite E in E'. injection E' as <- _. now exists st.
Qed.

(* the limit that takes effect stays the same *)
Lemma calls8_settled a ks : exact_alloc a -> Forall keeps_limit ks -> forall l cb st c, 0 <= l -> vinv8 l cb st c ->
  settled l (c8_capacity c) ->
  exists c', c8_calls a c ks = Ok (c', (snd (a_calls content8 decode8 (eff l (c8_capacity c)) cb st ks))).
Proof.
  intros A. assert (SA : std_alloc a) by apply A. induction 1 as [|k ks K _ IH]; intros l cb st c L0 I S.
  { now exists c. }
  cbn [c8_calls]. destruct k as [p| |s|cb']; cbn [c8_call a_calls].
  - destruct (content8 p) as [x|] eqn:X.
    + destruct (feed8_vary a l cb st c p x A L0 I K X) as (c1 & cap1 & M1 & M2 & E1 & I1). rewrite E1. cbn [bind].
      destruct (proj2 M1 S) as [S1 F1]. destruct (proj2 M2 S1) as [S2 F2].
      destruct (IH _ _ _ _ L0 I1 S2) as (c2 & E2). rewrite E2. cbn [bind]. exists c2.
      rewrite F2, F1. cbn [snd]. now destruct cb.
    + rewrite feed8_skip by assumption. cbn [bind].
      destruct (IH _ _ _ _ L0 I S) as (c2 & E2). rewrite E2. now exists c2.
  - cbn [bind]. destruct (vinv8_reset a l cb st c SA I) as [I1 M1]. destruct (proj2 M1 S) as [S1 F1].
    destruct (IH _ _ _ _ L0 I1 S1) as (c2 & E2). rewrite E2. cbn [bind]. exists c2. now rewrite F1.
  - destruct K.
  - cbn [bind]. destruct (IH _ _ _ _ L0 (vinv8_set_cb _ _ _ _ cb' I) S) as (c2 & E2). rewrite E2. now exists c2.
Qed.

(* no more is delivered than takes effect *)
Lemma calls8_bounded a ks : exact_alloc a -> Forall keeps_limit ks -> forall l cb st c, 0 < l -> vinv8 l cb st c ->
  exists c' o, c8_calls a c ks = Ok (c', o) /\ Forall (fun s => size (sx_data (fst s)) <= Z.max l (c8_capacity c)) o.
Proof.
  intros A. assert (SA : std_alloc a) by apply A. induction 1 as [|k ks K _ IH]; intros l cb st c L0 I.
  { exists c, []. split; [reflexivity|constructor]. }
  assert (L1 : 0 <= l) by lia. assert (L2 : l <> 0) by lia.
  cbn [c8_calls]. destruct k as [p| |s|cb']; cbn [c8_call].
  - destruct (content8 p) as [x|] eqn:X.
    + destruct (feed8_vary a l cb st c p x A L1 I K X) as (c1 & cap1 & M1 & M2 & E1 & I1). rewrite E1. cbn [bind].
      specialize (proj1 M1 L2) as B1. specialize (proj1 M2 L2) as B2.
      destruct (IH _ _ _ _ L0 I1) as (c2 & o2 & E2 & F2). rewrite E2. cbn [bind]. eexists _, _. split; [reflexivity|].
      apply Forall_app. split.
      * destruct cb; [|constructor]. apply (Forall_impl _ (P := fun s => size (sx_data (fst s)) <= eff l cap1)).
        { intros s. unfold eff. destruct (Z.eqb_spec l 0); lia. }
        apply a_step8_bounded. unfold eff. destruct (Z.eqb_spec l 0); lia.
      * revert F2. apply Forall_impl. intros s. lia.
    + rewrite feed8_skip by assumption. cbn [bind].
      destruct (IH _ _ _ _ L0 I) as (c2 & o2 & E2 & F2). rewrite E2. eexists _, _. split; [reflexivity|exact F2].
  - cbn [bind]. destruct (vinv8_reset a l cb st c SA I) as [I1 M1]. specialize (proj1 M1 L2) as B1.
    destruct (IH _ _ _ _ L0 I1) as (c2 & o2 & E2 & F2). rewrite E2. cbn [bind]. eexists _, _. split; [reflexivity|].
    revert F2. apply Forall_impl. intros s. lia.
  - destruct K.
  - cbn [bind]. destruct (IH _ _ _ _ L0 (vinv8_set_cb _ _ _ _ cb' I)) as (c2 & o2 & E2 & F2). rewrite E2.
    eexists _, _. split; [reflexivity|exact F2].
Qed.

(* memory under limits of at most [m] *)
Lemma calls8_memory a m ks : exact_alloc a -> Forall any_call ks -> Forall (limited m) ks ->
  forall l cb st c, 0 < l <= m -> vinv8 l cb st c -> c8_capacity c <= m ->
  exists c' o, c8_calls a c ks = Ok (c', o) /\ c8_capacity c' <= m.
Proof.
  intros A AC. assert (SA : std_alloc a) by apply A. induction AC as [|k ks K _ IH]; intros LM l cb st c L0 I C.
  { exists c, []. split; [reflexivity|exact C]. }
  inversion_clear LM as [|? ? K' LM'].
  assert (L1 : 0 <= l) by lia. assert (L2 : l <> 0) by lia.
  cbn [c8_calls]. destruct k as [p| |s|cb']; cbn [c8_call].
  - destruct (content8 p) as [x|] eqn:X.
    + destruct (feed8_vary a l cb st c p x A L1 I K X) as (c1 & cap1 & M1 & M2 & E1 & I1). rewrite E1. cbn [bind].
      specialize (proj1 M1 L2) as B1. specialize (proj1 M2 L2) as B2.
      destruct (IH LM' _ _ _ _ L0 I1) as (c2 & o2 & E2 & F2); [lia|]. rewrite E2. cbn [bind]. eexists _, _. split; [reflexivity|exact F2].
    + rewrite feed8_skip by assumption. cbn [bind].
      destruct (IH LM' _ _ _ _ L0 I C) as (c2 & o2 & E2 & F2). rewrite E2. eexists _, _. split; [reflexivity|exact F2].
  - cbn [bind]. destruct (vinv8_reset a l cb st c SA I) as [I1 M1]. specialize (proj1 M1 L2) as B1.
    destruct (IH LM' _ _ _ _ L0 I1) as (c2 & o2 & E2 & F2); [lia|]. rewrite E2. cbn [bind]. eexists _, _. split; [reflexivity|exact F2].
  - cbn [limited] in K'. destruct (vinv8_set_max a l cb st c s A I) as [I1 E1]; [lia|]. cbn [bind].
    destruct (IH LM' _ _ _ _ K' I1) as (c2 & o2 & E2 & F2); [lia|]. rewrite E2. cbn [bind]. eexists _, _. split; [reflexivity|exact F2].
  - cbn [bind]. destruct (IH LM' _ _ _ _ L0 (vinv8_set_cb _ _ _ _ cb' I) C) as (c2 & o2 & E2 & F2). rewrite E2.
    eexists _, _. split; [reflexivity|exact F2].
Qed.

Lemma memory8 a cb m s ks c o : exact_alloc a -> Forall any_call (KSetMax s :: ks) -> Forall (limited m) (KSetMax s :: ks) ->
  c8_calls a (new_collector8 cb) (KSetMax s :: ks) = Ok (c, o) -> c8_capacity c <= m.
Proof.
  intros A AC LM E. inversion_clear AC as [|? ? AC1 AC2]. inversion_clear LM as [|? ? LM1 LM2]. cbn [any_call limited] in *.
  cbn [c8_calls c8_call bind] in E. destruct (vinv8_set_max a 0 cb a_idle _ s A (vinv8_new cb) AC1) as [I1 E1].
  destruct (calls8_memory a m ks A AC2 LM2 s cb a_idle _ LM1 I1) as (c' & o' & E' & B); [rewrite E1; cbn; lia|].
  rewrite E' in E. cbn [bind] in E. injection E as <- _. exact B.
Qed.

(* limits that are not reached *)
Lemma calls8_roomy a n ks : std_alloc a -> forall b l cb st c, 0 <= b -> 0 <= l -> (l = 0 \/ n <= l) ->
  vinv8 l cb st c -> a_clean st -> data_size decode8 (a_bytes st) <= b -> roomy content8 n b ks ->
  exists c', c8_calls a c ks = Ok (c', (snd (a_calls content8 decode8 0 cb st (without_limits ks)))).
Proof.
  intros A. assert (SA := A). induction ks as [|k ks IH]; intros b l cb st c B0 L0 LN I C D R.
  { now exists c. }
  cbn [c8_calls]. destruct k as [p| |s|cb']; cbn [c8_call without_limits filter a_calls roomy] in *; fold (without_limits ks).
  - destruct R as [W R]. destruct (content8 p) as [x|] eqn:X.
    + destruct R as [BN R]. destruct (feed8_std a l cb st c p x A L0 I W X) as (c1 & E & EL & E1 & I1). rewrite E1. cbn [bind].
      set (b' := (if ct_format x <? 2 then 0 else b) + size (ct_payload x)) in *.
      pose proof (size_nonneg (ct_payload x)) as PN.
      destruct (a_step_roomy decode8 n E b st x) as (ES & C1 & D1); trivial.
      { lia. }
      { apply decode8_size. }
      rewrite ES in I1 |- *.
      destruct (IH b' _ _ _ _ ltac:(unfold b'; destruct (_ <? 2); lia) L0 LN I1 C1 D1 R) as (c2 & E2). rewrite E2. cbn [bind]. exists c2.
      cbn [snd]. now destruct cb.
    + rewrite feed8_skip by assumption. cbn [bind].
      destruct (IH b _ _ _ _ B0 L0 LN I C D R) as (c2 & E2). rewrite E2. now exists c2.
  - cbn [bind]. destruct (vinv8_reset a l cb st c SA I) as [I1 M1].
    destruct (IH 0 _ _ _ _ (Z.le_refl 0) L0 LN I1 idle_clean (Z.le_refl 0) R) as (c2 & E2). rewrite E2. now exists c2.
  - destruct R as (N & SN & R). pose proof (vinv8_set_max_std a l cb st c s A I N) as I1. cbn [bind].
    destruct (IH b _ _ _ _ B0 N SN I1 C D R) as (c2 & E2). rewrite E2. now exists c2.
  - cbn [bind]. destruct (IH b _ _ _ _ B0 L0 LN (vinv8_set_cb _ _ _ _ cb' I) C D R) as (c2 & E2). rewrite E2. now exists c2.
Qed.

(* ---- callbacks that change the limit ------------------------------------------------------------ *)

Lemma make_room_nonneg a len cap max num cap' r : std_alloc a -> 0 <= cap -> make_room a len cap max num = (cap', r) -> 0 <= cap'.
Proof.
  intros (S1 & S2 & S3) C. unfold make_room. destruct (cap <? len + num); intros E; [|congruence].
  apply (f_equal fst) in E. cbn [fst] in E. subst cap'. set (n := if 0 <? max then _ else _).
  destruct (Z.lt_ge_cases cap n); [specialize (S2 cap n H); lia|rewrite S1 by lia; lia].
Qed.
Lemma no_output {S E} {s s' : S} {o : list E} : Ok (s, []) = Ok (s', o) -> o = [].
Proof. congruence. Qed.
Lemma ok_pair {S O} {s s' : S} {o o' : O} : Ok (s, o) = Ok (s', o') -> s' = s /\ o' = o.
Proof. intros E. now injection E. Qed.

(* ---- the limit set by the callback, sysex7 ------------------------------------------------------ *)

Lemma reset_set_max7 a d L : exact_alloc a -> 0 <= c7_capacity d -> 0 <= L ->
  c7_reset a (c7_set_max a d L) = c7_set_max a (c7_reset a d) L \/
  (L <> 0 /\ c7_capacity (c7_reset a (c7_set_max a d L)) <= L /\ c7_capacity (c7_set_max a (c7_reset a d) L) <= L).
Proof.
  intros ((S1 & S2 & S3) & EX) C L0. unfold c7_reset, c7_set_max. cbn. unfold clear_capacity.
  destruct (Z.eqb_spec L 0) as [->|NZ]; cbn [negb]; [now left|].
  assert (R : forall x, 0 <= x -> al_reserve a x L = Z.max x L).
  { intros x X. destruct (Z.lt_ge_cases x L); [rewrite EX by lia; lia|rewrite S1 by lia; lia]. }
  rewrite (R (c7_capacity d)) by assumption. pose proof (S3 (c7_capacity d) C) as Q.
  destruct (Z.ltb_spec 16384 (c7_capacity d)) as [B|B].
  - rewrite (R (al_shrink a (c7_capacity d))) by lia. replace (16384 <? Z.max (c7_capacity d) L) with true by lia.
    destruct (Z.le_gt_cases L (al_shrink a (c7_capacity d))) as [K|K].
    + left. f_equal. replace (Z.max (c7_capacity d) L) with (c7_capacity d) by lia. lia.
    + right. split; [exact NZ|]. destruct (Z.le_gt_cases (c7_capacity d) L) as [M|M].
      * replace (Z.max (c7_capacity d) L) with L by lia. pose proof (S3 L L0). lia.
      * replace (Z.max (c7_capacity d) L) with (c7_capacity d) by lia. lia.
  - rewrite (R (c7_capacity d)) by assumption. destruct (Z.ltb_spec 16384 (Z.max (c7_capacity d) L)) as [M|M]; [|now left].
    right. split; [exact NZ|]. replace (Z.max (c7_capacity d) L) with L by lia. pose proof (S3 L L0). lia.
Qed.

Lemma feed7_in_set a c p c1 o1 L : std_alloc a -> 0 <= c7_capacity c -> c7_feed a c p = Ok (c1, o1) -> o1 <> [] ->
  exists d, 0 <= c7_capacity d /\ c1 = c7_reset a d /\ c7_has_cb d = c7_has_cb c /\
    c7_feed_in a (fun c => Ok (c7_set_max a c L, [])) c p = Ok (c7_reset a (c7_set_max a d L), o1).
Proof.
  intros A C E N. unfold c7_feed in E. unfold c7_feed_in.
  destruct (negb (is_sysex7_packet p)); [destruct N; exact (no_output E)|].
  destruct (negb (_ || _) && negb (c7_state c =? _)); [destruct N; exact (no_output E)|].
  match type of E with context [make_room a (size (sx_data (c7_sysex ?c0)))] => set (c' := c0) in * end.
  assert (C' : 0 <= c7_capacity c').
  { unfold c'. destruct (_ && _); [|exact C]. apply (mem_le_clear a 0 (c7_capacity c) A C). }
  assert (H' : c7_has_cb c' = c7_has_cb c) by (unfold c'; now destruct (_ && _)).
  clearbody c'. destruct (make_room a _ _ _ _) as [cap room] eqn:MR. apply make_room_nonneg in MR; [|assumption..].
  destruct room; cbn [negb] in *; [|destruct N; exact (no_output E)].
  destruct (c7_bytes p 0 _ _ _) as [[s idr]|]; cbn [bind] in *; [|discriminate].
  destruct (_ || _); [|destruct N; exact (no_output E)]. cbn [c7_has_cb].
  destruct (c7_has_cb c') eqn:H; [|destruct N; exact (no_output E)]. destruct (ok_pair E) as [-> ->]. cbn [bind fst snd app].
  eexists. split; [|split; [reflexivity|split; [|reflexivity]]]; [exact MR|]. now rewrite <- H'.
Qed.

Lemma set_in_callback7 a c p c1 o1 L ks l cb st : exact_alloc a -> vinv7 l cb st c -> c7_feed a c p = Ok (c1, o1) -> o1 <> [] ->
  0 <= L -> Forall keeps_limit ks ->
  exists c2, c7_feed_in a (fun c => Ok (c7_set_max a c L, [])) c p = Ok (c2, o1) /\
    observed (c7_calls a c2 ks) = observed (c7_calls a (c7_set_max a c1 L) ks).
Proof.
  intros A I E N L0 K. pose proof (v7_cap _ _ _ _ I) as C.
  destruct (feed7_in_set a c p c1 o1 L (proj1 A)) as (d & D & -> & HC & F); trivial; [lia|].
  eexists. split; [exact F|].
  destruct (reset_set_max7 a d L A D L0) as [-> |(NZ & B1 & B2)]; [reflexivity|].
  set (c2 := c7_reset a (c7_set_max a d L)) in *. set (c3 := c7_set_max a (c7_reset a d) L) in *.
  assert (P : 0 <= c7_capacity c2 /\ 0 <= c7_capacity c3).
  { destruct A as ((S1 & S2 & S3) & EX). unfold c2, c3. cbn. destruct (negb _); cbn.
    - assert (R : forall x, 0 <= x -> 0 <= al_reserve a x L).
      { intros x X. destruct (Z.lt_ge_cases x L); [rewrite EX by lia; lia|rewrite S1 by lia; lia]. }
      split.
      + apply (mem_le_clear a 0 (al_reserve a (c7_capacity d) L)); [repeat split; auto; apply S3; auto|auto].
      + apply R. apply (mem_le_clear a 0 (c7_capacity d)); [repeat split; auto; apply S3; auto|auto].
    - split; apply (mem_le_clear a 0 (c7_capacity d)); try assumption; repeat split; auto; apply S3; auto. }
  destruct P as [P2 P3].
  assert (I2 : vinv7 L (c7_has_cb d) a_idle c2).
  { constructor; try reflexivity; cbn - [c2]; try discriminate; try constructor; exact P2 || (unfold size; cbn - [c2]; lia). }
  assert (I3 : vinv7 L (c7_has_cb d) a_idle c3).
  { constructor; try reflexivity; cbn - [c3]; try discriminate; try constructor; exact P3 || (unfold size; cbn - [c3]; lia). }
  destruct (calls7_settled a ks A K L _ _ c2 L0 I2) as (x2 & E2); [right; now right|].
  destruct (calls7_settled a ks A K L _ _ c3 L0 I3) as (x3 & E3); [right; now right|].
  rewrite E2, E3. cbn [observed]. unfold eff. destruct (Z.eqb_spec L 0); [easy|].
  replace (Z.max L (c7_capacity c2)) with L by lia. now replace (Z.max L (c7_capacity c3)) with L by lia.
Qed.

(* ---- the limit set by the callback, sysex8 ------------------------------------------------------ *)

Lemma reset_set_max8 a d L : exact_alloc a -> 0 <= c8_capacity d -> 0 <= L ->
  c8_reset a (c8_set_max a d L) = c8_set_max a (c8_reset a d) L \/
  (L <> 0 /\ c8_capacity (c8_reset a (c8_set_max a d L)) <= L /\ c8_capacity (c8_set_max a (c8_reset a d) L) <= L).
Proof.
  intros ((S1 & S2 & S3) & EX) C L0. unfold c8_reset, c8_set_max. cbn. unfold clear_capacity.
  destruct (Z.eqb_spec L 0) as [->|NZ]; cbn [negb]; [now left|].
  assert (R : forall x, 0 <= x -> al_reserve a x L = Z.max x L).
  { intros x X. destruct (Z.lt_ge_cases x L); [rewrite EX by lia; lia|rewrite S1 by lia; lia]. }
  rewrite (R (c8_capacity d)) by assumption. pose proof (S3 (c8_capacity d) C) as Q.
  destruct (Z.ltb_spec 16384 (c8_capacity d)) as [B|B].
  - rewrite (R (al_shrink a (c8_capacity d))) by lia. replace (16384 <? Z.max (c8_capacity d) L) with true by lia.
    destruct (Z.le_gt_cases L (al_shrink a (c8_capacity d))) as [K|K].
    + left. f_equal. replace (Z.max (c8_capacity d) L) with (c8_capacity d) by lia. lia.
    + right. split; [exact NZ|]. destruct (Z.le_gt_cases (c8_capacity d) L) as [M|M].
      * replace (Z.max (c8_capacity d) L) with L by lia. pose proof (S3 L L0). lia.
      * replace (Z.max (c8_capacity d) L) with (c8_capacity d) by lia. lia.
  - rewrite (R (c8_capacity d)) by assumption. destruct (Z.ltb_spec 16384 (Z.max (c8_capacity d) L)) as [M|M]; [|now left].
    right. split; [exact NZ|]. replace (Z.max (c8_capacity d) L) with L by lia. pose proof (S3 L L0). lia.
Qed.

Lemma feed8_in_set a c p c1 o1 L : std_alloc a -> 0 <= c8_capacity c -> c8_feed a c p = Ok (c1, o1) -> o1 <> [] ->
  exists d, 0 <= c8_capacity d /\ c1 = c8_reset a d /\ c8_has_cb d = c8_has_cb c /\
    c8_feed_in a (fun c => Ok (c8_set_max a c L, [])) c p = Ok (c8_reset a (c8_set_max a d L), o1).
Proof.
  intros A C E N. unfold c8_feed in E. unfold c8_feed_in.
  destruct (negb (is_sysex8_packet p)); [destruct N; exact (no_output E)|].
  destruct (sysex8_stream_id p) as [sid|]; cbn [bind] in *; [|discriminate].
  destruct (negb (_ || _) && negb (c8_state c =? _)); [destruct N; exact (no_output E)|].
  destruct (negb (_ || _) && negb (sid =? c8_stream c)); [destruct N; exact (no_output E)|].
  match type of E with context [make_room a (size (sx_data (c8_sysex ?c0)))] => set (c' := c0) in * end.
  assert (C' : 0 <= c8_capacity c').
  { unfold c'. destruct (_ && _); [|exact C]. apply (mem_le_clear a 0 (c8_capacity c) A C). }
  assert (H' : c8_has_cb c' = c8_has_cb c) by (unfold c'; now destruct (_ && _)).
  clearbody c'. destruct (make_room a _ _ _ _) as [cap room] eqn:MR. apply make_room_nonneg in MR; [|assumption..].
  destruct room; cbn [negb] in *; [|destruct N; exact (no_output E)].
  destruct (c8_bytes p 0 _ _ _) as [[s idr]|]; cbn [bind] in *; [|discriminate].
  destruct (_ || _); [|destruct N; exact (no_output E)]. cbn [c8_has_cb].
  destruct (c8_has_cb c') eqn:H; [|destruct N; exact (no_output E)]. destruct (ok_pair E) as [-> ->]. cbn [bind fst snd app].
  eexists. split; [|split; [reflexivity|split; [|reflexivity]]]; [exact MR|]. now rewrite <- H'.
Qed.

Lemma set_in_callback8 a c p c1 o1 L ks l cb st : exact_alloc a -> vinv8 l cb st c -> c8_feed a c p = Ok (c1, o1) -> o1 <> [] ->
  0 <= L -> Forall keeps_limit ks ->
  exists c2, c8_feed_in a (fun c => Ok (c8_set_max a c L, [])) c p = Ok (c2, o1) /\
    observed (c8_calls a c2 ks) = observed (c8_calls a (c8_set_max a c1 L) ks).
Proof.
  intros A I E N L0 K. pose proof (v8_cap _ _ _ _ I) as C.
  destruct (feed8_in_set a c p c1 o1 L (proj1 A)) as (d & D & -> & HC & F); trivial; [lia|].
  eexists. split; [exact F|].
  destruct (reset_set_max8 a d L A D L0) as [-> |(NZ & B1 & B2)]; [reflexivity|].
  set (c2 := c8_reset a (c8_set_max a d L)) in *. set (c3 := c8_set_max a (c8_reset a d) L) in *.
  assert (P : 0 <= c8_capacity c2 /\ 0 <= c8_capacity c3).
  { destruct A as ((S1 & S2 & S3) & EX). unfold c2, c3. cbn. destruct (negb _); cbn.
    - assert (R : forall x, 0 <= x -> 0 <= al_reserve a x L).
      { intros x X. destruct (Z.lt_ge_cases x L); [rewrite EX by lia; lia|rewrite S1 by lia; lia]. }
      split.
      + apply (mem_le_clear a 0 (al_reserve a (c8_capacity d) L)); [repeat split; auto; apply S3; auto|auto].
      + apply R. apply (mem_le_clear a 0 (c8_capacity d)); [repeat split; auto; apply S3; auto|auto].
    - split; apply (mem_le_clear a 0 (c8_capacity d)); try assumption; repeat split; auto; apply S3; auto. }
  destruct P as [P2 P3].
  assert (I2 : vinv8 L (c8_has_cb d) a_idle c2).
  { constructor; try reflexivity; cbn - [c2]; try discriminate; try constructor; exact P2 || (unfold size; cbn - [c2]; lia). }
  assert (I3 : vinv8 L (c8_has_cb d) a_idle c3).
  { constructor; try reflexivity; cbn - [c3]; try discriminate; try constructor; exact P3 || (unfold size; cbn - [c3]; lia). }
  destruct (calls8_settled a ks A K L _ _ c2 L0 I2) as (x2 & E2); [right; now right|].
  destruct (calls8_settled a ks A K L _ _ c3 L0 I3) as (x3 & E3); [right; now right|].
  rewrite E2, E3. cbn [observed]. unfold eff. destruct (Z.eqb_spec L 0); [easy|].
  replace (Z.max L (c8_capacity c2)) with L by lia. now replace (Z.max L (c8_capacity c3)) with L by lia.
Qed.

(* ---- theorems ------------------------------------------------------------------------------------ *)

Lemma roomy_keeps rd n ks : forall b, roomy rd n b ks -> Forall keeps_limit (without_limits ks).
Proof.
  induction ks as [|[p| |s|cb'] ks IH]; intros b R; cbn [roomy without_limits filter] in *; try fold (without_limits ks).
  - constructor.
  - destruct R as [W R]. constructor; [exact W|]. destruct (rd p); [destruct R|]; eauto.
  - constructor; [exact I|eauto].
  - destruct R as (_ & _ & R). eauto.
  - constructor; [exact I|eauto].
Qed.

(* ---- collectors in use, sysex7 ------------------------------------------------------------------ *)

Lemma in_use7 a cb ks c o L ks' : exact_alloc a -> Forall any_call ks -> c7_calls a (new_collector7 cb) ks = Ok (c, o) ->
  0 < L -> (c7_capacity c <= 16384 \/ c7_capacity c <= L) -> Forall keeps_limit ks' ->
  observed (c7_calls a c (KReset :: KSetMax L :: ks')) =
  observed (c7_calls a (new_collector7 (c7_has_cb c)) (KSetMax (Z.max L (c7_capacity c)) :: ks')).
Proof.
  intros A K E L0 S K'. destruct (after7_any a cb ks c o (proj1 A) K E) as (st & I & LL).
  pose proof (v7_cap _ _ _ _ I) as C. cbn [c7_calls c7_call bind].
  destruct (vinv7_reset a _ _ _ _ 0 (proj1 A) I) as [I1 _].
  destruct (vinv7_set_max a _ _ _ _ L A I1 ltac:(lia)) as [I2 E2].
  destruct (vinv7_set_max a 0 (c7_has_cb c) a_idle _ (Z.max L (c7_capacity c)) A (vinv7_new _) ltac:(lia)) as [I3 E3].
  assert (Q : c7_capacity (c7_reset a c) <= c7_capacity c /\ (c7_capacity c <= 16384 -> c7_capacity (c7_reset a c) = c7_capacity c)).
  { destruct A as [(S1 & S2 & S3) _]. cbn. unfold clear_capacity. specialize (S3 (c7_capacity c) ltac:(lia)).
    destruct (Z.ltb_spec 16384 (c7_capacity c)); lia. }
  destruct (calls7_settled a ks' A K' L _ _ _ ltac:(lia) I2) as (x2 & F2); [unfold settled; lia|].
  destruct (calls7_settled a ks' A K' (Z.max L (c7_capacity c)) _ _ _ ltac:(lia) I3) as (x3 & F3); [unfold settled; change (c7_capacity (new_collector7 (c7_has_cb c))) with 0 in E3; lia|].
  rewrite F2, F3. cbn [bind observed app]. rewrite E2, E3. change (c7_capacity (new_collector7 (c7_has_cb c))) with 0.
  replace (eff L (Z.max (c7_capacity (c7_reset a c)) L)) with (Z.max L (c7_capacity c)).
  2:{ unfold eff. destruct (Z.eqb_spec L 0); lia. }
  unfold eff. destruct (Z.eqb_spec (Z.max L (c7_capacity c)) 0); [lia|].
  now replace (Z.max (Z.max L (c7_capacity c)) (Z.max 0 (Z.max L (c7_capacity c)))) with (Z.max L (c7_capacity c)) by lia.
Qed.

Lemma bound7 a cb ks c o L ks' : exact_alloc a -> Forall any_call ks -> c7_calls a (new_collector7 cb) ks = Ok (c, o) ->
  0 < L -> Forall keeps_limit ks' ->
  exists c' o', c7_calls a c (KSetMax L :: ks') = Ok (c', o') /\ Forall (fun s => size (sx_data s) <= Z.max L (c7_capacity c)) o'.
Proof.
  intros A K E L0 K'. destruct (after7_any a cb ks c o (proj1 A) K E) as (st & I & LL).
  destruct (vinv7_set_max a _ _ _ _ L A I ltac:(lia)) as [I2 E2].
  cbn [c7_calls c7_call bind]. destruct (calls7_bounded a ks' A K' L _ _ _ L0 I2) as (c2 & o2 & F & B).
  rewrite F. cbn [bind app]. exists c2, o2. split; [reflexivity|]. revert B. apply Forall_impl. intros s. lia.
Qed.

Lemma lowered7 a cb M s ks c o L ks' : exact_alloc a -> Forall any_call ks -> Forall (limited M) (KSetMax s :: ks) ->
  c7_calls a (new_collector7 cb) (KSetMax s :: ks) = Ok (c, o) -> 0 < L <= M -> Forall keeps_limit ks' ->
  exists c' o', c7_calls a c (KSetMax L :: ks') = Ok (c', o') /\ Forall (fun s => size (sx_data s) <= M) o'.
Proof.
  intros A K LM E L0 K'.
  assert (AC : Forall any_call (KSetMax s :: ks)) by (constructor; [inversion LM; cbn in *; lia|assumption]).
  pose proof (memory7 a cb M s ks c o A AC LM E) as C.
  destruct (bound7 a cb _ c o L ks' A AC E ltac:(lia) K') as (c2 & o2 & F & B).
  exists c2, o2. split; [exact F|]. revert B. apply Forall_impl. intros v. lia.
Qed.

Lemma raised7 a cb s ks c o L ks' : exact_alloc a -> Forall any_call ks -> Forall (limited L) (KSetMax s :: ks) ->
  c7_calls a (new_collector7 cb) (KSetMax s :: ks) = Ok (c, o) -> Forall keeps_limit ks' ->
  observed (c7_calls a c (KReset :: KSetMax L :: ks')) = observed (c7_calls a (new_collector7 (c7_has_cb c)) (KSetMax L :: ks')).
Proof.
  intros A K LM E K'. assert (LS : 0 < s <= L) by (inversion LM; assumption).
  assert (AC : Forall any_call (KSetMax s :: ks)) by (constructor; [cbn; lia|assumption]).
  pose proof (memory7 a cb L s ks c o A AC LM E) as C.
  rewrite (in_use7 a cb _ c o L ks' A AC E) by (trivial; lia). now replace (Z.max L (c7_capacity c)) with L by lia.
Qed.

Lemma unnoticed7 a cb ks c o n ks' : std_alloc a -> Forall any_call ks -> c7_calls a (new_collector7 cb) ks = Ok (c, o) ->
  (last_limit 0 ks = 0 \/ n <= last_limit 0 ks) -> roomy content7 n 0 ks' ->
  observed (c7_calls a c (KReset :: ks')) = observed (c7_calls a (new_collector7 (c7_has_cb c)) (without_limits ks')).
Proof.
  intros A K E LN R. destruct (after7_any a cb ks c o A K E) as (st & I & LL).
  destruct (vinv7_reset a _ _ _ _ 0 A I) as [I1 _]. cbn [c7_calls c7_call bind].
  destruct (calls7_roomy a n ks' A 0 _ _ _ _ (Z.le_refl 0) LL LN I1 idle_clean (Z.le_refl 0) R) as (c2 & E2).
  destruct (calls7_refine a 0 (without_limits ks') (limit_std a A) (roomy_keeps _ _ _ _ R) _ _ _ (inv7_new a 0 (c7_has_cb c) (limit_std a A))) as (c3 & E3 & _).
  change (c7_set_max a (new_collector7 (c7_has_cb c)) 0) with (new_collector7 (c7_has_cb c)) in E3.
  rewrite E2, E3. reflexivity.
Qed.

Lemma from_callback7 a cb ks c o p c1 o1 L ks' : exact_alloc a -> Forall any_call ks ->
  c7_calls a (new_collector7 cb) ks = Ok (c, o) -> c7_feed a c p = Ok (c1, o1) -> o1 <> [] -> 0 <= L -> Forall keeps_limit ks' ->
  exists c2, c7_feed_in a (fun d => Ok (c7_set_max a d L, [])) c p = Ok (c2, o1) /\
    observed (c7_calls a c2 ks') = observed (c7_calls a c1 (KSetMax L :: ks')).
Proof.
  intros A K E F N L0 K'. destruct (after7_any a cb ks c o (proj1 A) K E) as (st & I & LL).
  destruct (set_in_callback7 a c p c1 o1 L ks' _ _ _ A I F N L0 K') as (c2 & F2 & O). exists c2. split; [exact F2|].
  rewrite O. cbn [c7_calls c7_call bind]. destruct (c7_calls a (c7_set_max a c1 L) ks') as [[]|]; reflexivity.
Qed.

(* ---- collectors in use, sysex8 ------------------------------------------------------------------ *)

Lemma in_use8 a cb ks c o L ks' : exact_alloc a -> Forall any_call ks -> c8_calls a (new_collector8 cb) ks = Ok (c, o) ->
  0 < L -> (c8_capacity c <= 16384 \/ c8_capacity c <= L) -> Forall keeps_limit ks' ->
  observed (c8_calls a c (KReset :: KSetMax L :: ks')) =
  observed (c8_calls a (new_collector8 (c8_has_cb c)) (KSetMax (Z.max L (c8_capacity c)) :: ks')).
Proof.
  intros A K E L0 S K'. destruct (after8_any a cb ks c o (proj1 A) K E) as (st & I & LL).
  pose proof (v8_cap _ _ _ _ I) as C. cbn [c8_calls c8_call bind].
  destruct (vinv8_reset a _ _ _ _ (proj1 A) I) as [I1 _].
  destruct (vinv8_set_max a _ _ _ _ L A I1 ltac:(lia)) as [I2 E2].
  destruct (vinv8_set_max a 0 (c8_has_cb c) a_idle _ (Z.max L (c8_capacity c)) A (vinv8_new _) ltac:(lia)) as [I3 E3].
  assert (Q : c8_capacity (c8_reset a c) <= c8_capacity c /\ (c8_capacity c <= 16384 -> c8_capacity (c8_reset a c) = c8_capacity c)).
  { destruct A as [(S1 & S2 & S3) _]. cbn. unfold clear_capacity. specialize (S3 (c8_capacity c) ltac:(lia)).
    destruct (Z.ltb_spec 16384 (c8_capacity c)); lia. }
  destruct (calls8_settled a ks' A K' L _ _ _ ltac:(lia) I2) as (x2 & F2); [unfold settled; lia|].
  destruct (calls8_settled a ks' A K' (Z.max L (c8_capacity c)) _ _ _ ltac:(lia) I3) as (x3 & F3); [unfold settled; change (c8_capacity (new_collector8 (c8_has_cb c))) with 0 in E3; lia|].
  rewrite F2, F3. cbn [bind observed app]. rewrite E2, E3. change (c8_capacity (new_collector8 (c8_has_cb c))) with 0.
  replace (eff L (Z.max (c8_capacity (c8_reset a c)) L)) with (Z.max L (c8_capacity c)).
  2:{ unfold eff. destruct (Z.eqb_spec L 0); lia. }
  unfold eff. destruct (Z.eqb_spec (Z.max L (c8_capacity c)) 0); [lia|].
  now replace (Z.max (Z.max L (c8_capacity c)) (Z.max 0 (Z.max L (c8_capacity c)))) with (Z.max L (c8_capacity c)) by lia.
Qed.

Lemma bound8 a cb ks c o L ks' : exact_alloc a -> Forall any_call ks -> c8_calls a (new_collector8 cb) ks = Ok (c, o) ->
  0 < L -> Forall keeps_limit ks' ->
  exists c' o', c8_calls a c (KSetMax L :: ks') = Ok (c', o') /\ Forall (fun s => size (sx_data (fst s)) <= Z.max L (c8_capacity c)) o'.
Proof.
  intros A K E L0 K'. destruct (after8_any a cb ks c o (proj1 A) K E) as (st & I & LL).
  destruct (vinv8_set_max a _ _ _ _ L A I ltac:(lia)) as [I2 E2].
  cbn [c8_calls c8_call bind]. destruct (calls8_bounded a ks' A K' L _ _ _ L0 I2) as (c2 & o2 & F & B).
  rewrite F. cbn [bind app]. exists c2, o2. split; [reflexivity|]. revert B. apply Forall_impl. intros s. lia.
Qed.

Lemma lowered8 a cb M s ks c o L ks' : exact_alloc a -> Forall any_call ks -> Forall (limited M) (KSetMax s :: ks) ->
  c8_calls a (new_collector8 cb) (KSetMax s :: ks) = Ok (c, o) -> 0 < L <= M -> Forall keeps_limit ks' ->
  exists c' o', c8_calls a c (KSetMax L :: ks') = Ok (c', o') /\ Forall (fun s => size (sx_data (fst s)) <= M) o'.
Proof.
  intros A K LM E L0 K'.
  assert (AC : Forall any_call (KSetMax s :: ks)) by (constructor; [inversion LM; cbn in *; lia|assumption]).
  pose proof (memory8 a cb M s ks c o A AC LM E) as C.
  destruct (bound8 a cb _ c o L ks' A AC E ltac:(lia) K') as (c2 & o2 & F & B).
  exists c2, o2. split; [exact F|]. revert B. apply Forall_impl. intros v. lia.
Qed.

Lemma raised8 a cb s ks c o L ks' : exact_alloc a -> Forall any_call ks -> Forall (limited L) (KSetMax s :: ks) ->
  c8_calls a (new_collector8 cb) (KSetMax s :: ks) = Ok (c, o) -> Forall keeps_limit ks' ->
  observed (c8_calls a c (KReset :: KSetMax L :: ks')) = observed (c8_calls a (new_collector8 (c8_has_cb c)) (KSetMax L :: ks')).
Proof.
  intros A K LM E K'. assert (LS : 0 < s <= L) by (inversion LM; assumption).
  assert (AC : Forall any_call (KSetMax s :: ks)) by (constructor; [cbn; lia|assumption]).
  pose proof (memory8 a cb L s ks c o A AC LM E) as C.
  rewrite (in_use8 a cb _ c o L ks' A AC E) by (trivial; lia). now replace (Z.max L (c8_capacity c)) with L by lia.
Qed.

Lemma unnoticed8 a cb ks c o n ks' : std_alloc a -> Forall any_call ks -> c8_calls a (new_collector8 cb) ks = Ok (c, o) ->
  (last_limit 0 ks = 0 \/ n <= last_limit 0 ks) -> roomy content8 n 0 ks' ->
  observed (c8_calls a c (KReset :: ks')) = observed (c8_calls a (new_collector8 (c8_has_cb c)) (without_limits ks')).
Proof.
  intros A K E LN R. destruct (after8_any a cb ks c o A K E) as (st & I & LL).
  destruct (vinv8_reset a _ _ _ _ A I) as [I1 _]. cbn [c8_calls c8_call bind].
  destruct (calls8_roomy a n ks' A 0 _ _ _ _ (Z.le_refl 0) LL LN I1 idle_clean (Z.le_refl 0) R) as (c2 & E2).
  destruct (calls8_refine a 0 (without_limits ks') (limit_std a A) (roomy_keeps _ _ _ _ R) _ _ _ (inv8_new a 0 (c8_has_cb c) (limit_std a A))) as (c3 & E3 & _).
  change (c8_set_max a (new_collector8 (c8_has_cb c)) 0) with (new_collector8 (c8_has_cb c)) in E3.
  rewrite E2, E3. reflexivity.
Qed.

Lemma from_callback8 a cb ks c o p c1 o1 L ks' : exact_alloc a -> Forall any_call ks ->
  c8_calls a (new_collector8 cb) ks = Ok (c, o) -> c8_feed a c p = Ok (c1, o1) -> o1 <> [] -> 0 <= L -> Forall keeps_limit ks' ->
  exists c2, c8_feed_in a (fun d => Ok (c8_set_max a d L, [])) c p = Ok (c2, o1) /\
    observed (c8_calls a c2 ks') = observed (c8_calls a c1 (KSetMax L :: ks')).
Proof.
  intros A K E F N L0 K'. destruct (after8_any a cb ks c o (proj1 A) K E) as (st & I & LL).
  destruct (set_in_callback8 a c p c1 o1 L ks' _ _ _ A I F N L0 K') as (c2 & F2 & O). exists c2. split; [exact F2|].
  rewrite O. cbn [c8_calls c8_call bind]. destruct (c8_calls a (c8_set_max a c1 L) ks') as [[]|]; reflexivity.
Qed.
