(* The collectors refine CollectSpec *)
From Coq Require Import ZArith List Bool Lia ZifyBool ZifyNat.
From Verif Require Import Base Bits Packet PacketSpec PacketProofs PacketBytes Messages Sysex Collector
  StreamSpec StreamLemmas StreamBytes CollectSpec.
Import ListNotations.
Local Open Scope Z_scope.
Local Open Scope res_scope.

Definition limit_alloc (a : allocator) (max : Z) : Prop :=
  0 <= max /\ std_alloc a /\ (max <> 0 -> exact_alloc a).

Lemma size_app {A} (a b : list A) : size (a ++ b) = size a + size b.
Proof. unfold size. rewrite app_length. lia. Qed.
Lemma size_nonneg {A} (a : list A) : 0 <= size a.
Proof. unfold size. lia. Qed.

(* ---- capacity --------------------------------------------------------------------------- *)

Definition cap_ok (max len cap : Z) : Prop := 0 <= len <= cap /\ (max = 0 \/ cap <= max).

Lemma make_room_spec a max len cap num : limit_alloc a max -> cap_ok max len cap -> 0 <= num <= 13 ->
  exists cap', make_room a len cap max num = (cap', negb ((0 <? max) && (max <? len + num))) /\
    cap_ok max len cap' /\ (((0 <? max) && (max <? len + num)) = false -> cap_ok max (len + num) cap').
Proof.
  intros (M & (S1 & S2 & S3) & EX) (L & C) N. unfold make_room, cap_ok.
  destruct (Z.ltb_spec cap (len + num)) as [LT|GE].
  - destruct (Z.eq_dec max 0) as [->|NZ].
    + change (0 <? 0) with false. cbn [andb negb].
      assert (R : Z.max 128 (2 * cap) <= al_reserve a cap (Z.max 128 (2 * cap))) by (apply S2; lia).
      eexists. split; [reflexivity|]. lia.
    + assert (P : (0 <? max) = true) by (apply Z.ltb_lt; lia). rewrite P. cbn [andb].
      destruct (EX NZ) as [_ E2]. set (nc := Z.min (Z.max 128 (2 * cap)) max).
      assert (R : al_reserve a cap nc = nc).
      { destruct (Z.lt_ge_cases cap nc) as [Q|Q]; [now apply E2|]. rewrite S1 by assumption.
        unfold nc in *. lia. }
      rewrite R. exists nc. split; [|unfold nc; lia]. f_equal. unfold nc. lia.
  - exists cap. replace ((0 <? max) && (max <? len + num)) with false by lia.
    split; [reflexivity|]. lia.
Qed.

Lemma clear_capacity_ok a max cap : limit_alloc a max -> 0 <= cap -> (max = 0 \/ cap <= max) ->
  cap_ok max 0 (clear_capacity a cap).
Proof.
  intros (M & (S1 & S2 & S3) & EX) L C. unfold clear_capacity, cap_ok.
  destruct (16384 <? cap); [|lia]. specialize (S3 cap L). lia.
Qed.

(* ---- decoding byte by byte ----------------------------------------------------------------- *)

Definition id_count (l : list Z) : Z :=
  match l with
  | [] => 0
  | m :: r => if m =? 0 then match r with [] => 1 | [_] => 2 | _ => 3 end else 3
  end.

Definition step7 (s : sysex) (idr byte : Z) : sysex * Z :=
  if idr =? 0 then
    if negb (byte =? 0) then (mkSx (Z.shiftl byte 16) (sx_data s), 3) else (s, 1)
  else if idr =? 1 then (mkSx (Z.shiftl byte 8) (sx_data s), 2)
  else if idr =? 2 then (mkSx (Z.lor (sx_id s) byte) (sx_data s), 3)
  else (mkSx (sx_id s) (sx_data s ++ [byte]), idr).

Lemma step7_spec l x : is_u8 x -> step7 (decode7 l) (id_count l) x = (decode7 (l ++ [x]), id_count (l ++ [x])).
Proof.
  unfold is_u8. intros X. unfold step7. destruct l as [|m r]; cbn [id_count decode7 app].
  - cbn [Z.eqb negb sx_data]. destruct (Z.eqb_spec x 0) as [->|N]; cbn [negb]; [reflexivity|].
    now rewrite shiftl_mul by lia.
  - destruct (Z.eqb_spec m 0) as [->|N].
    + destruct r as [|a [|b r]]; cbn [app Z.eqb sx_data sx_id Pos.eqb].
      * now rewrite shiftl_mul by lia.
      * rewrite (lor_add 8) by (pow2_simpl; dlia). reflexivity.
      * reflexivity.
    + cbn [Z.eqb Pos.eqb sx_id sx_data]. reflexivity.
Qed.

Lemma skipn_cons (l : list Z) i : (i < length l)%nat -> skipn i l = nth i l 0 :: skipn (S i) l.
Proof.
  revert i; induction l as [|a l IH]; intros [|i] K; cbn in *; try lia; [reflexivity|]. apply IH. lia.
Qed.

Lemma c7_bytes_spec p n : forall b l, (2 + b + n <= 16)%nat ->
  c7_bytes p b n (decode7 l) (id_count l) =
    let l' := l ++ firstn n (skipn (2 + b) (bytes p)) in Ok (decode7 l', id_count l').
Proof.
  induction n as [|n IH]; intros b l H; cbn [c7_bytes].
  - cbn [firstn]. now rewrite app_nil_r.
  - unfold sysex7_payload_byte. rewrite get_byte_spec by lia. cbn [bind].
    fold (step7 (decode7 l) (id_count l) (nth (2 + b) (bytes p) 0)).
    rewrite step7_spec by (apply nth_u8, bytes_range).
    rewrite IH by lia. cbv zeta. rewrite (skipn_cons (bytes p) (2 + b)) by (rewrite bytes_length; lia).
    cbn [firstn]. rewrite <- app_assoc. cbn [app].
    replace (2 + S b)%nat with (S (2 + b)) by lia. reflexivity.
Qed.

Lemma decode7_size l x : size (sx_data (decode7 (l ++ x))) <= size (sx_data (decode7 l)) + size x.
Proof.
  destruct l as [|m r]; cbn [decode7 app].
  - destruct x as [|m r]; [reflexivity|]. cbn [app decode7]. destruct (m =? 0); cbn [sx_data].
    + destruct r as [|a [|b r]]; cbn [sx_data]; unfold size; cbn [length]; lia.
    + unfold size; cbn [length]; lia.
  - destruct (m =? 0); cbn [sx_data].
    + destruct r as [|a [|b r]]; cbn [app sx_data].
      * destruct x as [|a [|b r]]; cbn [sx_data]; unfold size; cbn [length]; lia.
      * destruct x as [|b r]; cbn [sx_data]; unfold size; cbn [length]; lia.
      * rewrite size_app. lia.
    + rewrite size_app. lia.
Qed.

(* ---- sysex7 collector ------------------------------------------------------------------------ *)

Record inv7 (max : Z) (cb : bool) (st : astate) (c : collector7) : Prop := {
  i7_sysex : c7_sysex c = decode7 (a_bytes st);
  i7_id : c7_id_bytes c = id_count (a_bytes st);
  i7_state : c7_state c = if a_open st then 0x20 else 0x10;
  i7_max : c7_max c = max;
  i7_cb : c7_has_cb c = cb;
  i7_cap : cap_ok max (size (sx_data (decode7 (a_bytes st)))) (c7_capacity c);
  i7_stream : a_open st = true -> a_stream st = 0 }.

Lemma inv7_reset a max cb st c s : limit_alloc a max -> inv7 max cb st c -> inv7 max cb (mkA [] false s) (c7_reset a c).
Proof.
  intros A I. constructor; try reflexivity; cbn.
  - apply (i7_max _ _ _ _ I).
  - apply (i7_cb _ _ _ _ I).
  - destruct (i7_cap _ _ _ _ I) as [L C]. apply clear_capacity_ok; trivial. lia.
  - discriminate.
Qed.

Lemma status_byte p : wf_packet p -> status p = nth 1 (bytes p) 0.
Proof. intros. rewrite status_spec. reflexivity. Qed.
Lemma type_byte p : wf_packet p -> type p = nth 0 (bytes p) 0 / 16.
Proof.
  intros W. rewrite type_spec by assumption. unfold bytes, word_bytes. cbn [nth app].
  destruct W as [W _]. unfold is_u32 in W. dlia.
Qed.

Lemma some_eq {A} (x y : A) : Some x = Some y -> y = x.
Proof. congruence. Qed.

Lemma content7_none p : wf_packet p -> content7 p = None -> is_sysex7_packet p = false.
Proof.
  intros W. unfold content7, is_sysex7_packet. rewrite (status_byte p W), (type_byte p W).
  change pt_data with 3. rewrite land_240, land_15.
  assert (U := nth_u8 (bytes p) 1 (bytes_range p)). unfold is_u8 in U.
  set (s := nth 1 (bytes p) 0) in *. destruct (_ =? 3); cbn [andb]; [|reflexivity].
  destruct (Z.ltb_spec (s / 16) 4); cbn [andb].
  - destruct (s mod 16 <=? 6); [discriminate|]. intros _. apply andb_false_r.
  - intros _. replace (s / 16 mod 16 * 16 <=? 48) with false by dlia. reflexivity.
Qed.

Lemma content7_some p x : wf_packet p -> content7 p = Some x ->
  is_sysex7_packet p = true /\ Z.land (status p) 0xF0 = ct_format x * 16 /\ 0 <= ct_format x < 4 /\
  ct_stream x = 0 /\ Z.of_nat (sysex7_payload_size p) <= 6 /\
  ct_payload x = firstn (sysex7_payload_size p) (skipn 2 (bytes p)) /\
  size (ct_payload x) = Z.of_nat (sysex7_payload_size p).
Proof.
  intros W. unfold content7, is_sysex7_packet, sysex7_payload_size. rewrite (status_byte p W), (type_byte p W).
  change pt_data with 3. rewrite land_240, land_15.
  assert (U := nth_u8 (bytes p) 1 (bytes_range p)). unfold is_u8 in U.
  set (s := nth 1 (bytes p) 0) in *. destruct (_ =? 3); cbn [andb]; [|discriminate].
  destruct (Z.ltb_spec (s / 16) 4); cbn [andb]; [|discriminate].
  destruct (Z.leb_spec (s mod 16) 6); [|discriminate].
  intros E. apply some_eq in E. subst x. cbn [ct_format ct_stream ct_payload].
  replace (s / 16 mod 16) with (s / 16) by dlia. repeat split; try dlia.
  unfold size. rewrite firstn_length, skipn_length, bytes_length. dlia.
Qed.

Lemma feed7_skip a c p : wf_packet p -> content7 p = None -> c7_feed a c p = Ok (c, []).
Proof. intros W N. unfold c7_feed. now rewrite (content7_none p W N). Qed.

Lemma feed7_step a max cb st c p x : limit_alloc a max -> inv7 max cb st c -> wf_packet p -> content7 p = Some x ->
  exists c', c7_feed a c p = Ok (c', if cb then map fst (snd (a_step decode7 max st x)) else []) /\
    inv7 max cb (fst (a_step decode7 max st x)) c'.
Proof.
  intros A I W X. destruct (content7_some p x W X) as (IS & ST & F & SID & NUM & PL & SZ).
  unfold c7_feed. rewrite IS, ST. cbn [negb]. unfold a_step. rewrite SID.
  replace ((ct_format x * 16 =? 0) || (ct_format x * 16 =? 16)) with (ct_format x <? 2) by lia.
  set (opening := ct_format x <? 2).
  rewrite (i7_state _ _ _ _ I).
  replace (negb ((if a_open st then 32 else 16) =? 32)) with (negb (a_open st)) by now destruct (a_open st).
  destruct (negb opening && negb (a_open st)) eqn:E1.
  { eexists. split; [now destruct cb|]. apply (inv7_reset a max cb st c); assumption. }
  replace (negb opening && negb (0 =? a_stream st)) with false.
  2:{ destruct opening; [reflexivity|]. cbn [negb andb] in *. rewrite (i7_stream _ _ _ _ I) by (now destruct (a_open st)). reflexivity. }
  replace (negb ((if a_open st then 32 else 16) =? 16)) with (a_open st) by now destruct (a_open st).
  set (base := if opening && a_open st then [] else a_bytes st).
  set (c1 := if opening && a_open st then c7_reset a c else c).
  assert (I1 : exists st1, a_bytes st1 = base /\ inv7 max cb st1 c1).
  { unfold base, c1. destruct (opening && a_open st).
    - exists (mkA [] false 0). split; [reflexivity|]. now apply (inv7_reset a max cb st c).
    - exists st. auto. }
  destruct I1 as (st1 & B1 & I1).
  rewrite (i7_sysex _ _ _ _ I1), (i7_max _ _ _ _ I1), (i7_id _ _ _ _ I1), (i7_cb _ _ _ _ I1), B1.
  destruct (make_room_spec a max (size (sx_data (decode7 base))) (c7_capacity c1) (Z.of_nat (sysex7_payload_size p)) A)
    as (cap & MR & K1 & K2); [rewrite <- B1; apply (i7_cap _ _ _ _ I1)|lia|].
  rewrite MR. unfold data_size. rewrite SZ.
  destruct ((0 <? max) && _) eqn:E2; cbn [negb].
  { eexists. split; [now destruct cb|]. cbn [fst].
    constructor; cbn; trivial; discriminate. }
  rewrite c7_bytes_spec by lia. cbn [bind Nat.add]. rewrite <- PL.
  specialize (K2 eq_refl). rewrite <- SZ in K2.
  assert (K3 : cap_ok max (size (sx_data (decode7 (base ++ ct_payload x)))) cap).
  { destruct K2 as [K2 K2']. split; [|assumption]. pose proof (decode7_size base (ct_payload x)).
    pose proof (size_nonneg (sx_data (decode7 (base ++ ct_payload x)))). lia. }
  replace ((ct_format x * 16 =? 0) || (ct_format x * 16 =? 48)) with ((ct_format x =? 0) || (ct_format x =? 3)) by lia.
  destruct ((ct_format x =? 0) || (ct_format x =? 3)) eqn:E3.
  - eexists. split; [now destruct cb|]. cbn [fst].
    apply (inv7_reset a max cb (mkA (base ++ ct_payload x) (a_open st1) 0)); [assumption|].
    constructor; cbn; trivial. apply (i7_state _ _ _ _ I1).
  - eexists. split; [now destruct cb|]. cbn [fst]. constructor; cbn; trivial.
Qed.

Lemma inv7_new a max cb : limit_alloc a max -> inv7 max cb a_idle (c7_set_max a (new_collector7 cb) max).
Proof.
  intros (M & (S1 & S2 & S3) & EX). constructor; try reflexivity; cbn.
  unfold cap_ok. destruct (Z.eqb_spec max 0) as [->|N]; cbn [negb]; [lia|].
  destruct (EX N) as [_ E]. rewrite E; unfold size; cbn; lia.
Qed.

Lemma calls7_refine a max ks : limit_alloc a max -> Forall keeps_limit ks -> forall cb st c, inv7 max cb st c ->
  exists c', c7_calls a c ks = Ok (c', map fst (snd (a_calls content7 decode7 max cb st ks))) /\
    inv7 max (c7_has_cb c') (fst (a_calls content7 decode7 max cb st ks)) c'.
Proof.
  intros A. induction 1 as [|k ks K _ IH]; intros cb st c I.
  { exists c. split; [reflexivity|]. rewrite (i7_cb _ _ _ _ I). exact I. }
  cbn [c7_calls]. destruct k as [p| |s|cb']; cbn [c7_call a_calls].
  - destruct (content7 p) as [x|] eqn:X.
    + destruct (feed7_step a max cb st c p x A I K X) as (c1 & E1 & I1). rewrite E1. cbn [bind].
      destruct (IH _ _ _ I1) as (c2 & E2 & I2). rewrite E2. cbn [bind]. exists c2. split; [|exact I2].
      cbn [snd]. rewrite map_app. now destruct cb.
    + rewrite feed7_skip by assumption. cbn [bind].
      destruct (IH _ _ _ I) as (c2 & E2 & I2). rewrite E2. now exists c2.
  - cbn [bind]. destruct (IH _ _ _ (inv7_reset a max cb st c 0 A I)) as (c2 & E2 & I2). rewrite E2. now exists c2.
  - destruct K.
  - cbn [bind]. destruct (IH cb' st (c7_set_callback c cb')) as (c2 & E2 & I2).
    + destruct I. constructor; cbn; trivial.
    + rewrite E2. now exists c2.
Qed.

(* ---- sysex8 -------------------------------------------------------------------------------- *)

Definition id_state8 (l : list Z) : id_state :=
  match l with
  | [] => Detect
  | [m] => if 128 <=? m then ThreeBytes else if m =? 0 then OneByte else Invalid
  | _ => Done
  end.

Definition step8 (s : sysex) (ids : id_state) (byte : Z) : sysex * id_state :=
  match ids with
  | Detect =>
      if negb (Z.land byte 0x80 =? 0)
      then (mkSx (Z.shiftl (Z.land byte 0x7F) 8) (sx_data s), ThreeBytes)
      else (mkSx 0 (sx_data s), if byte =? 0 then OneByte else Invalid)
  | OneByte => (mkSx (Z.shiftl (Z.land byte 0x7F) 16) (sx_data s), Done)
  | ThreeBytes => (mkSx (Z.lor (sx_id s) (Z.land byte 0x7F)) (sx_data s), Done)
  | Invalid => (s, Done)
  | Done => (mkSx (sx_id s) (sx_data s ++ [byte]), ids)
  end.

Lemma step8_spec l x : is_u8 x -> Forall is_u8 l ->
  step8 (decode8 l) (id_state8 l) x = (decode8 (l ++ [x]), id_state8 (l ++ [x])).
Proof.
  unfold is_u8. intros X F. destruct l as [|m [|m' r]]; cbn [id_state8 decode8 app].
  - unfold step8. cbn [sx_data]. rewrite land_128, land_127, shiftl_mul by lia.
    destruct (Z.leb_spec 128 x).
    + replace (x / 128 mod 2 * 128 =? 0) with false by dlia. cbn [negb]. do 2 f_equal. pow2_simpl. dlia.
    + replace (x / 128 mod 2 * 128 =? 0) with true by dlia. cbn [negb]. reflexivity.
  - inversion_clear F as [|? ? M _]. unfold is_u8 in M. destruct (Z.leb_spec 128 m).
    + unfold step8. cbn [sx_id sx_data]. rewrite land_127. rewrite (lor_add 8) by (pow2_simpl; dlia). reflexivity.
    + destruct (Z.eqb_spec m 0); cbn [step8 sx_data sx_id].
      * now rewrite land_127, shiftl_mul by lia.
      * reflexivity.
  - unfold step8. destruct (128 <=? m); reflexivity.
Qed.

Lemma Forall_skipn {A} (P : A -> Prop) n l : Forall P l -> Forall P (skipn n l).
Proof.
  intros H. rewrite <- (firstn_skipn n l) in H. now apply Forall_app in H.
Qed.

Lemma c8_bytes_spec p n : forall b l, (3 + b + n <= 16)%nat -> Forall is_u8 l ->
  c8_bytes p b n (decode8 l) (id_state8 l) =
    let l' := l ++ firstn n (skipn (3 + b) (bytes p)) in Ok (decode8 l', id_state8 l').
Proof.
  induction n as [|n IH]; intros b l H F; cbn [c8_bytes].
  - cbn [firstn]. now rewrite app_nil_r.
  - unfold sysex8_payload_byte. rewrite get_byte_spec by lia. cbn [bind].
    fold (step8 (decode8 l) (id_state8 l) (nth (3 + b) (bytes p) 0)).
    assert (U := nth_u8 (bytes p) (3 + b) (bytes_range p)).
    rewrite step8_spec by trivial.
    rewrite IH by (try lia; apply Forall_app; split; auto). cbv zeta.
    rewrite (skipn_cons (bytes p) (3 + b)) by (rewrite bytes_length; lia).
    cbn [firstn]. rewrite <- app_assoc. cbn [app].
    replace (3 + S b)%nat with (S (3 + b)) by lia. reflexivity.
Qed.

Lemma decode8_size l x : size (sx_data (decode8 (l ++ x))) <= size (sx_data (decode8 l)) + size x.
Proof.
  destruct l as [|m [|m' r]]; cbn [decode8 app].
  - destruct x as [|m [|m' r]]; [reflexivity| |]; cbn [decode8]; destruct (128 <=? m); cbn [sx_data];
      unfold size; cbn [length]; lia.
  - destruct x as [|m' r]; cbn [decode8]; destruct (128 <=? m); cbn [sx_data]; unfold size; cbn [length]; lia.
  - destruct (128 <=? m); cbn [sx_data]; rewrite size_app; lia.
Qed.

Record inv8 (max : Z) (cb : bool) (st : astate) (c : collector8) : Prop := {
  i8_sysex : c8_sysex c = decode8 (a_bytes st);
  i8_id : c8_id_state c = id_state8 (a_bytes st);
  i8_state : c8_state c = if a_open st then 2 else 1;
  i8_max : c8_max c = max;
  i8_cb : c8_has_cb c = cb;
  i8_cap : cap_ok max (size (sx_data (decode8 (a_bytes st)))) (c8_capacity c);
  i8_stream : a_stream st = c8_stream c;
  i8_u8 : Forall is_u8 (a_bytes st) }.

Lemma inv8_reset a max cb st c : limit_alloc a max -> inv8 max cb st c -> inv8 max cb a_idle (c8_reset a c).
Proof.
  intros A I. constructor; try reflexivity; cbn.
  - apply (i8_max _ _ _ _ I).
  - apply (i8_cb _ _ _ _ I).
  - destruct (i8_cap _ _ _ _ I) as [L C]. apply clear_capacity_ok; trivial. lia.
  - constructor.
Qed.

Lemma content8_none p : wf_packet p -> content8 p = None -> is_sysex8_packet p = false.
Proof.
  intros W. unfold content8, is_sysex8_packet. rewrite (status_byte p W), (type_byte p W).
  change pt_extended_data with 5. rewrite land_240, land_15.
  assert (U := nth_u8 (bytes p) 1 (bytes_range p)). unfold is_u8 in U.
  set (s := nth 1 (bytes p) 0) in *. destruct (_ =? 5); cbn [andb]; [|reflexivity].
  destruct (Z.ltb_spec (s / 16) 4); cbn [andb].
  - destruct (Z.leb_spec 1 (s mod 16)); cbn [andb].
    + destruct (s mod 16 <=? 14); [discriminate|]. intros _. apply andb_false_r.
    + intros _. replace (0 <? s mod 16) with false by lia. now rewrite andb_false_r.
  - intros _. replace (s / 16 mod 16 * 16 <=? 48) with false by dlia. reflexivity.
Qed.

Lemma content8_some p x : wf_packet p -> content8 p = Some x ->
  is_sysex8_packet p = true /\ sysex8_format p = ct_format x /\ 0 <= ct_format x < 4 /\
  sysex8_stream_id p = Ok (ct_stream x) /\ Z.of_nat (sysex8_payload_size p) <= 13 /\
  ct_payload x = firstn (sysex8_payload_size p) (skipn 3 (bytes p)) /\
  size (ct_payload x) = Z.of_nat (sysex8_payload_size p).
Proof.
  intros W. unfold content8, is_sysex8_packet, sysex8_payload_size, sysex8_format, sysex8_stream_id.
  rewrite get_byte_spec by lia. rewrite (status_byte p W), (type_byte p W).
  change pt_extended_data with 5. rewrite land_240, land_15, land_3, shiftr_div by lia. pow2_simpl.
  assert (U := nth_u8 (bytes p) 1 (bytes_range p)). unfold is_u8 in U.
  set (s := nth 1 (bytes p) 0) in *. destruct (_ =? 5); cbn [andb]; [|discriminate].
  destruct (Z.ltb_spec (s / 16) 4); cbn [andb]; [|discriminate].
  destruct (Z.leb_spec 1 (s mod 16)); cbn [andb]; [|discriminate].
  destruct (Z.leb_spec (s mod 16) 14); [|discriminate].
  intros E. apply some_eq in E. subst x. cbn [ct_format ct_stream ct_payload].
  replace (0 <? s mod 16) with true by lia.
  replace (s / 16 mod 16) with (s / 16) by dlia. repeat split; try dlia.
  unfold size. rewrite firstn_length, skipn_length, bytes_length. dlia.
Qed.

Lemma feed8_skip a c p : wf_packet p -> content8 p = None -> c8_feed a c p = Ok (c, []).
Proof. intros W N. unfold c8_feed. now rewrite (content8_none p W N). Qed.

Lemma feed8_step a max cb st c p x : limit_alloc a max -> inv8 max cb st c -> wf_packet p -> content8 p = Some x ->
  exists c', c8_feed a c p = Ok (c', if cb then snd (a_step decode8 max st x) else []) /\
    inv8 max cb (fst (a_step decode8 max st x)) c'.
Proof.
  intros A I W X. destruct (content8_some p x W X) as (IS & ST & F & SID & NUM & PL & SZ).
  unfold c8_feed. rewrite IS, ST, SID. cbn [negb bind]. unfold a_step.
  replace ((ct_format x =? 0) || (ct_format x =? 1)) with (ct_format x <? 2) by lia.
  set (opening := ct_format x <? 2).
  rewrite (i8_state _ _ _ _ I), (i8_stream _ _ _ _ I).
  replace (negb ((if a_open st then 2 else 1) =? 2)) with (negb (a_open st)) by now destruct (a_open st).
  destruct (negb opening && negb (a_open st)) eqn:E1.
  { eexists. split; [now destruct cb|]. apply (inv8_reset a max cb st c); assumption. }
  destruct (negb opening && negb (ct_stream x =? c8_stream c)) eqn:E0.
  { eexists. split; [now destruct cb|]. exact I. }
  replace (negb ((if a_open st then 2 else 1) =? 1)) with (a_open st) by now destruct (a_open st).
  set (base := if opening && a_open st then [] else a_bytes st).
  set (c1 := if opening && a_open st then c8_reset a c else c).
  assert (I1 : exists st1, a_bytes st1 = base /\ inv8 max cb st1 c1).
  { unfold base, c1. destruct (opening && a_open st).
    - exists a_idle. split; [reflexivity|]. now apply (inv8_reset a max cb st c).
    - exists st. auto. }
  assert (SS : (if opening then ct_stream x else c8_stream c1) = ct_stream x).
  { unfold c1. destruct opening; [reflexivity|]. cbn [negb andb] in *. lia. }
  rewrite SS. destruct I1 as (st1 & B1 & I1).
  rewrite (i8_sysex _ _ _ _ I1), (i8_max _ _ _ _ I1), (i8_id _ _ _ _ I1), (i8_cb _ _ _ _ I1), B1.
  destruct (make_room_spec a max (size (sx_data (decode8 base))) (c8_capacity c1) (Z.of_nat (sysex8_payload_size p)) A)
    as (cap & MR & K1 & K2); [rewrite <- B1; apply (i8_cap _ _ _ _ I1)|lia|].
  assert (BU : Forall is_u8 base) by (rewrite <- B1; apply (i8_u8 _ _ _ _ I1)).
  rewrite MR. unfold data_size. rewrite SZ.
  destruct ((0 <? max) && _) eqn:E2; cbn [negb].
  { eexists. split; [now destruct cb|]. cbn [fst]. constructor; cbn; trivial. }
  rewrite c8_bytes_spec by (trivial; lia). cbn [bind Nat.add]. rewrite <- PL.
  specialize (K2 eq_refl). rewrite <- SZ in K2.
  assert (K3 : cap_ok max (size (sx_data (decode8 (base ++ ct_payload x)))) cap).
  { destruct K2 as [K2 K2']. split; [|assumption]. pose proof (decode8_size base (ct_payload x)).
    pose proof (size_nonneg (sx_data (decode8 (base ++ ct_payload x)))). lia. }
  assert (PU : Forall is_u8 (base ++ ct_payload x)).
  { apply Forall_app; split; trivial. rewrite PL. apply Forall_firstn, Forall_skipn, bytes_range. }
  destruct ((ct_format x =? 0) || (ct_format x =? 3)) eqn:E3.
  - eexists. split; [now destruct cb|]. cbn [fst].
    apply (inv8_reset a max cb (mkA (base ++ ct_payload x) (a_open st1) (ct_stream x))); [assumption|].
    constructor; cbn; trivial. apply (i8_state _ _ _ _ I1).
  - eexists. split; [now destruct cb|]. cbn [fst]. constructor; cbn; trivial.
Qed.

Lemma inv8_new a max cb : limit_alloc a max -> inv8 max cb a_idle (c8_set_max a (new_collector8 cb) max).
Proof.
  intros (M & (S1 & S2 & S3) & EX). constructor; try reflexivity; cbn; [|constructor].
  unfold cap_ok. destruct (Z.eqb_spec max 0) as [->|N]; cbn [negb]; [lia|].
  destruct (EX N) as [_ E]. rewrite E; unfold size; cbn; lia.
Qed.

Lemma calls8_refine a max ks : limit_alloc a max -> Forall keeps_limit ks -> forall cb st c, inv8 max cb st c ->
  exists c', c8_calls a c ks = Ok (c', snd (a_calls content8 decode8 max cb st ks)) /\
    inv8 max (c8_has_cb c') (fst (a_calls content8 decode8 max cb st ks)) c'.
Proof.
  intros A. induction 1 as [|k ks K _ IH]; intros cb st c I.
  { exists c. split; [reflexivity|]. rewrite (i8_cb _ _ _ _ I). exact I. }
  cbn [c8_calls]. destruct k as [p| |s|cb']; cbn [c8_call a_calls].
  - destruct (content8 p) as [x|] eqn:X.
    + destruct (feed8_step a max cb st c p x A I K X) as (c1 & E1 & I1). rewrite E1. cbn [bind].
      destruct (IH _ _ _ I1) as (c2 & E2 & I2). rewrite E2. cbn [bind]. exists c2. split; [|exact I2]. reflexivity.
    + rewrite feed8_skip by assumption. cbn [bind].
      destruct (IH _ _ _ I) as (c2 & E2 & I2). rewrite E2. now exists c2.
  - cbn [bind]. destruct (IH _ _ _ (inv8_reset a max cb st c A I)) as (c2 & E2 & I2). rewrite E2. now exists c2.
  - destruct K.
  - cbn [bind]. destruct (IH cb' st (c8_set_callback c cb')) as (c2 & E2 & I2).
    + destruct I. constructor; cbn; trivial.
    + rewrite E2. now exists c2.
Qed.
