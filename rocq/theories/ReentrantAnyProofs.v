(* Lemmas on callbacks of SysEx collectors that do what they like *)
From Coq Require Import ZArith List Bool Lia ZifyBool ZifyNat.
From Verif Require Import Base Bits Packet PacketSpec PacketProofs PacketBytes Messages Sysex Collector
  StreamSpec StreamLemmas StreamBytes CollectSpec CollectLemmas CollectProofs CollectCalls Reentrant ThrowingSpec LimitSpec LimitProofs
  ReentrantAny ReentrantAnySpec.
Import ListNotations.
Local Open Scope Z_scope.
Local Open Scope res_scope.

Lemma free_ind (P : free_collect -> Prop) :
  (forall p during, Forall P during -> P (GFeed p during)) -> P GReset -> (forall s, P (GSetMax s)) ->
  (forall b, P (GSetCallback b)) -> forall k, P k.
Proof.
  intros HF HR HM HC. fix IH 1. intros [p during| |s|b]; [|exact HR|apply HM|apply HC]. apply HF.
  induction during as [|k ks IHks]; constructor; [apply IH|exact IHks].
Qed.
Lemma free_ok_feed p during : free_ok (GFeed p during) <-> wf_packet p /\ Forall free_ok during.
Proof.
  cbn [free_ok]. apply and_iff_compat_l. induction during as [|k ks IH]; [split; constructor|]. split.
  - intros [A B]. constructor; [exact A|]. now apply IH.
  - intros F. inversion_clear F as [|? ? A B]. split; [exact A|]. now apply IH.
Qed.

(* ---- sysex7 ----------------------------------------------------------------------------------- *)

Definition weak7 (c : collector7) : Prop := 0 <= c7_capacity c /\ 0 <= c7_max c.

Lemma weak7_reset a c : std_alloc a -> weak7 c -> weak7 (c7_reset a c).
Proof. intros A (C & M). split; [|assumption]. apply (mem_le_clear a 0 (c7_capacity c) A C). Qed.
Lemma weak7_set_max a c s : std_alloc a -> 0 <= s -> weak7 c -> weak7 (c7_set_max a c s).
Proof.
  intros (S1 & S2 & S3) N (C & M). split; [|assumption]. cbn. destruct (negb (s =? 0)); [|exact C].
  destruct (Z.lt_ge_cases (c7_capacity c) s) as [L|L]; [specialize (S2 _ _ L); lia|rewrite S1 by lia; exact C].
Qed.
Lemma weak7_idle a c : std_alloc a -> weak7 c -> vinv7 (c7_max c) (c7_has_cb c) a_idle (c7_reset a c).
Proof.
  intros A W. destruct (weak7_reset a c A W) as (C & _).
  constructor; try reflexivity; cbn in *; trivial; try discriminate. unfold size. cbn. lia.
Qed.
Lemma bytes7_total p n : forall b s idr, (2 + b + n <= 16)%nat -> exists r, c7_bytes p b n s idr = Ok r.
Proof.
  induction n as [|n IH]; intros b s idr H; cbn [c7_bytes]; [eexists; reflexivity|].
  unfold sysex7_payload_byte. rewrite get_byte_spec by lia. cbn [bind].
  match goal with |- context [let '(s0, i0) := ?e in _] => destruct e end. apply IH. lia.
Qed.

(* the collector after a callback has been invoked is reset *)
Lemma feed7_any a c p run : std_alloc a -> weak7 c -> wf_packet p ->
  (forall d, weak7 d -> exists d' o, run d = Ok (d', o) /\ weak7 d') ->
  exists c' o, c7_feed_in a run c p = Ok (c', o) /\ weak7 c' /\ (o <> [] -> exists d, weak7 d /\ c' = c7_reset a d).
Proof.
  intros A W P R. unfold c7_feed_in. destruct (content7 p) as [x|] eqn:X.
  2: { rewrite (content7_none p P X). cbn [negb]. eexists _, _. split; [reflexivity|]. split; [exact W|congruence]. }
  destruct (content7_some p x P X) as (IS & _ & _ & _ & NUM & _). rewrite IS. cbn [negb].
  destruct (negb (_ || _) && negb (c7_state c =? _)).
  { eexists _, _. split; [reflexivity|]. split; [now apply weak7_reset|congruence]. }
  match goal with |- context [make_room a (size (sx_data (c7_sysex ?c0)))] => set (c1 := c0) in * end.
  assert (W1 : weak7 c1) by (unfold c1; destruct (_ && _); [now apply weak7_reset|exact W]).
  clearbody c1. destruct (make_room a _ _ _ _) as [cap room] eqn:MR. destruct W1 as (C1 & M1).
  apply make_room_nonneg in MR; [|assumption..].
  destruct room; cbn [negb].
  2: { eexists _, _. split; [reflexivity|]. split; [now repeat split|congruence]. }
  destruct (bytes7_total p (sysex7_payload_size p) 0 (c7_sysex c1) (c7_id_bytes c1)) as ([s idr] & E); [lia|]. rewrite E. cbn [bind].
  destruct (_ || _).
  2: { eexists _, _. split; [reflexivity|]. split; [now repeat split|congruence]. }
  cbn [c7_has_cb]. destruct (c7_has_cb c1).
  2: { cbn [bind fst snd]. eexists _, _. split; [reflexivity|]. split; [apply weak7_reset; [exact A|now split]|congruence]. }
  destruct (R (mkC7 s cap (c7_max c1) (c7_state c1) idr true)) as (d & o & RE & WD); [now repeat split|].
  rewrite RE. cbn [bind fst snd]. eexists _, _. split; [reflexivity|]. split; [now apply weak7_reset|]. intros _. now exists d.
Qed.

Lemma free7_step_feed a c p during : free7_step a c (GFeed p during) = c7_feed_in a (fun c => free7_calls a c during) c p.
Proof. reflexivity. Qed.
Lemma free7_total a : std_alloc a -> forall k, free_ok k -> forall c, weak7 c ->
  exists c' o, free7_step a c k = Ok (c', o) /\ weak7 c' /\ (o <> [] -> exists d, weak7 d /\ c' = c7_reset a d).
Proof.
  intros A. induction k as [p during IH| |s|b] using free_ind; intros K c W.
  - apply free_ok_feed in K. destruct K as [P K]. rewrite free7_step_feed. apply feed7_any; trivial.
    clear c W. induction during as [|k ks IHks]; intros d D; cbn [free7_calls].
    { exists d, []. auto. }
    inversion_clear IH as [|? ? I1 I2]. inversion_clear K as [|? ? K1 K2].
    destruct (I1 K1 d D) as (d1 & o1 & E1 & D1 & _). rewrite E1. cbn [bind fst snd].
    destruct (IHks I2 K2 d1 D1) as (d2 & o2 & E2 & D2). rewrite E2. cbn [bind fst snd]. eexists _, _. split; [reflexivity|exact D2].
  - eexists _, _. split; [reflexivity|]. split; [now apply weak7_reset|congruence].
  - eexists _, _. split; [reflexivity|]. split; [now apply weak7_set_max|congruence].
  - eexists _, _. split; [reflexivity|]. split; [exact W|congruence].
Qed.
Lemma free7_calls_total a ks : std_alloc a -> Forall free_ok ks -> forall c, weak7 c ->
  exists c' o, free7_calls a c ks = Ok (c', o) /\ weak7 c'.
Proof.
  intros A. induction 1 as [|k ks K _ IH]; intros c W; cbn [free7_calls]; [exists c, []; auto|].
  destruct (free7_total a A k K c W) as (c1 & o1 & E1 & W1 & _). rewrite E1. cbn [bind fst snd].
  destruct (IH c1 W1) as (c2 & o2 & E2 & W2). rewrite E2. cbn [bind fst snd]. eexists _, _. split; [reflexivity|exact W2].
Qed.

Lemma idle7_like_new a cb c l n L ks : std_alloc a -> vinv7 l cb a_idle c -> roomy content7 n 0 (KSetMax L :: ks) ->
  observed (c7_calls a c (KSetMax L :: ks)) = observed (c7_calls a (new_collector7 cb) (without_limits ks)).
Proof.
  intros A I (L0 & LN & R). pose proof (vinv7_set_max_std a l cb a_idle c L A I L0) as I1. cbn [c7_calls c7_call bind].
  destruct (calls7_roomy a n ks A 0 _ _ _ _ (Z.le_refl 0) L0 LN I1 idle_clean (Z.le_refl 0) R) as (c2 & E2).
  destruct (calls7_refine a 0 (without_limits ks) (limit_std a A) (roomy_keeps _ _ _ _ R) _ _ _ (inv7_new a 0 cb (limit_std a A))) as (c3 & E3 & _).
  change (c7_set_max a (new_collector7 cb) 0) with (new_collector7 cb) in E3.
  rewrite E2, E3. reflexivity.
Qed.
Lemma weak7_new cb : weak7 (new_collector7 cb).
Proof. repeat split; cbn; lia. Qed.

(* ---- sysex8 ----------------------------------------------------------------------------------- *)

Definition weak8 (c : collector8) : Prop := 0 <= c8_capacity c /\ 0 <= c8_max c.

Lemma weak8_reset a c : std_alloc a -> weak8 c -> weak8 (c8_reset a c).
Proof. intros A (C & M). split; [|assumption]. apply (mem_le_clear a 0 (c8_capacity c) A C). Qed.
Lemma weak8_set_max a c s : std_alloc a -> 0 <= s -> weak8 c -> weak8 (c8_set_max a c s).
Proof.
  intros (S1 & S2 & S3) N (C & M). split; [|assumption]. cbn. destruct (negb (s =? 0)); [|exact C].
  destruct (Z.lt_ge_cases (c8_capacity c) s) as [L|L]; [specialize (S2 _ _ L); lia|rewrite S1 by lia; exact C].
Qed.
Lemma weak8_idle a c : std_alloc a -> weak8 c -> vinv8 (c8_max c) (c8_has_cb c) a_idle (c8_reset a c).
Proof.
  intros A W. destruct (weak8_reset a c A W) as (C & _).
  constructor; try reflexivity; cbn in *; trivial; try discriminate. unfold size. cbn. lia.
Qed.
Lemma bytes8_total p n : forall b s ids, (3 + b + n <= 16)%nat -> exists r, c8_bytes p b n s ids = Ok r.
Proof.
  induction n as [|n IH]; intros b s ids H; cbn [c8_bytes]; [eexists; reflexivity|].
  unfold sysex8_payload_byte. rewrite get_byte_spec by lia. cbn [bind].
  match goal with |- context [let '(s0, i0) := ?e in _] => destruct e end. apply IH. lia.
Qed.

Lemma feed8_any a c p run : std_alloc a -> weak8 c -> wf_packet p ->
  (forall d, weak8 d -> exists d' o, run d = Ok (d', o) /\ weak8 d') ->
  exists c' o, c8_feed_in a run c p = Ok (c', o) /\ weak8 c' /\ (o <> [] -> exists d, weak8 d /\ c' = c8_reset a d).
Proof.
  intros A W P R. unfold c8_feed_in. destruct (content8 p) as [x|] eqn:X.
  2: { rewrite (content8_none p P X). cbn [negb]. eexists _, _. split; [reflexivity|]. split; [exact W|congruence]. }
  destruct (content8_some p x P X) as (IS & _ & _ & SID & NUM & _). rewrite IS, SID. cbn [negb bind].
  destruct (negb (_ || _) && negb (c8_state c =? _)).
  { eexists _, _. split; [reflexivity|]. split; [now apply weak8_reset|congruence]. }
  destruct (negb (_ || _) && negb (_ =? c8_stream c)).
  { eexists _, _. split; [reflexivity|]. split; [exact W|congruence]. }
  match goal with |- context [make_room a (size (sx_data (c8_sysex ?c0)))] => set (c1 := c0) in * end.
  assert (W1 : weak8 c1) by (unfold c1; destruct (_ && _); [now apply weak8_reset|exact W]).
  match goal with |- context [mkC8 ?e] => set (sid := e) in * end. clearbody sid.
  clearbody c1. destruct (make_room a _ _ _ _) as [cap room] eqn:MR. destruct W1 as (C1 & M1).
  apply make_room_nonneg in MR; [|assumption..].
  destruct room; cbn [negb].
  2: { eexists _, _. split; [reflexivity|]. split; [now repeat split|congruence]. }
  destruct (bytes8_total p (sysex8_payload_size p) 0 (c8_sysex c1) (c8_id_state c1)) as ([s ids] & E); [lia|]. rewrite E. cbn [bind].
  destruct (_ || _).
  2: { eexists _, _. split; [reflexivity|]. split; [now repeat split|congruence]. }
  cbn [c8_has_cb]. destruct (c8_has_cb c1).
  2: { cbn [bind fst snd]. eexists _, _. split; [reflexivity|]. split; [apply weak8_reset; [exact A|now split]|congruence]. }
  destruct (R (mkC8 sid s cap (c8_max c1) (c8_state c1) ids true)) as (d & o & RE & WD); [now repeat split|].
  rewrite RE. cbn [bind fst snd]. eexists _, _. split; [reflexivity|]. split; [now apply weak8_reset|]. intros _. now exists d.
Qed.

Lemma free8_step_feed a c p during : free8_step a c (GFeed p during) = c8_feed_in a (fun c => free8_calls a c during) c p.
Proof. reflexivity. Qed.
Lemma free8_total a : std_alloc a -> forall k, free_ok k -> forall c, weak8 c ->
  exists c' o, free8_step a c k = Ok (c', o) /\ weak8 c' /\ (o <> [] -> exists d, weak8 d /\ c' = c8_reset a d).
Proof.
  intros A. induction k as [p during IH| |s|b] using free_ind; intros K c W.
  - apply free_ok_feed in K. destruct K as [P K]. rewrite free8_step_feed. apply feed8_any; trivial.
    clear c W. induction during as [|k ks IHks]; intros d D; cbn [free8_calls].
    { exists d, []. auto. }
    inversion_clear IH as [|? ? I1 I2]. inversion_clear K as [|? ? K1 K2].
    destruct (I1 K1 d D) as (d1 & o1 & E1 & D1 & _). rewrite E1. cbn [bind fst snd].
    destruct (IHks I2 K2 d1 D1) as (d2 & o2 & E2 & D2). rewrite E2. cbn [bind fst snd]. eexists _, _. split; [reflexivity|exact D2].
  - eexists _, _. split; [reflexivity|]. split; [now apply weak8_reset|congruence].
  - eexists _, _. split; [reflexivity|]. split; [now apply weak8_set_max|congruence].
  - eexists _, _. split; [reflexivity|]. split; [exact W|congruence].
Qed.
Lemma free8_calls_total a ks : std_alloc a -> Forall free_ok ks -> forall c, weak8 c ->
  exists c' o, free8_calls a c ks = Ok (c', o) /\ weak8 c'.
Proof.
  intros A. induction 1 as [|k ks K _ IH]; intros c W; cbn [free8_calls]; [exists c, []; auto|].
  destruct (free8_total a A k K c W) as (c1 & o1 & E1 & W1 & _). rewrite E1. cbn [bind fst snd].
  destruct (IH c1 W1) as (c2 & o2 & E2 & W2). rewrite E2. cbn [bind fst snd]. eexists _, _. split; [reflexivity|exact W2].
Qed.

Lemma idle8_like_new a cb c l n L ks : std_alloc a -> vinv8 l cb a_idle c -> roomy content8 n 0 (KSetMax L :: ks) ->
  observed (c8_calls a c (KSetMax L :: ks)) = observed (c8_calls a (new_collector8 cb) (without_limits ks)).
Proof.
  intros A I (L0 & LN & R). pose proof (vinv8_set_max_std a l cb a_idle c L A I L0) as I1. cbn [c8_calls c8_call bind].
  destruct (calls8_roomy a n ks A 0 _ _ _ _ (Z.le_refl 0) L0 LN I1 idle_clean (Z.le_refl 0) R) as (c2 & E2).
  destruct (calls8_refine a 0 (without_limits ks) (limit_std a A) (roomy_keeps _ _ _ _ R) _ _ _ (inv8_new a 0 cb (limit_std a A))) as (c3 & E3 & _).
  change (c8_set_max a (new_collector8 cb) 0) with (new_collector8 cb) in E3.
  rewrite E2, E3. reflexivity.
Qed.
Lemma weak8_new cb : weak8 (new_collector8 cb).
Proof. repeat split; cbn; lia. Qed.
