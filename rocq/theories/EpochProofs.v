(* Lemmas for PropsEpoch.v *)
From Coq Require Import ZArith List Bool Lia ZifyBool.
From Verif Require Import Base Bits Jitter EpochSpec.
Import ListNotations.
Local Open Scope Z_scope.

Lemma i64_ok x y : i64 x = Ok y -> y = x.
Proof. unfold i64. destruct (_ && _); congruence. Qed.

(* ---- the receiver's clock ---------------------------------------------------------------- *)

Definition later (d : Z) (s s' : follower) : Prop :=
  zero s' = zero s + d /\ clock_ts s' = clock_ts s /\ clock_time s' = clock_time s + d /\
  message_time s' = message_time s + d /\ jitter s' = jitter s /\ security_offset s' = security_offset s.

Ltac ok_steps :=
  repeat match goal with
    | H : Fault _ = Ok _ |- _ => discriminate H
    | H : Ok ?a = Ok ?b |- _ => assert (a = b) by congruence; clear H; subst
    | H : bind ?e _ = Ok _ |- _ => let E := fresh "E" in destruct e eqn:E; cbn [bind] in H; [|discriminate H]
    | H : i64 _ = Ok _ |- _ => apply i64_ok in H; subst
    | H : to_duration ?x = Ok ?a, H' : to_duration ?x = Ok ?b |- _ => assert (b = a) by congruence; subst b; clear H'
    end.

Lemma later_recalc d s s' r r' : later d s s' ->
  recalc_security_offset s = Ok r -> recalc_security_offset s' = Ok r' -> later d r r'.
Proof.
  intros (L1 & L2 & L3 & L4 & L5 & L6) A B. unfold recalc_security_offset in *. ok_steps.
  rewrite L5, L6 in B. destruct (_ <? _); ok_steps; unfold later; cbn; auto 10.
Qed.

Lemma later_stats d s s' j r r' : later d s s' ->
  update_stats s j = Ok r -> update_stats s' j = Ok r' -> later d r r'.
Proof.
  intros L A B. pose proof L as (L1 & L2 & L3 & L4 & L5 & L6). unfold update_stats in *. rewrite L5 in B.
  destruct (j <? 0); [|destruct (jitter s <? j)]; ok_steps; auto.
  - refine (later_recalc _ _ _ _ _ _ A B). unfold later, with_jitter. cbn. auto 10.
  - refine (later_recalc _ _ _ _ _ _ A B). unfold later, with_jitter. cbn. auto 10.
Qed.

Lemma later_clock d s s' t ts r r' : later d s s' ->
  process_clock s t ts = Ok r -> process_clock s' (t + d) ts = Ok r' -> later d r r'.
Proof.
  intros L A B. pose proof L as (L1 & L2 & L3 & L4 & L5 & L6). unfold process_clock in *.
  rewrite L1, L2, L3, L4, L5, L6 in B.
  replace (clock_time s + d =? zero s + d) with (clock_time s =? zero s) in B by lia.
  destruct (clock_time s =? zero s); ok_steps.
  - unfold later. cbn. auto 10.
  - match type of E with _ = Ok ?x => rename x into z end.
    revert B. replace (t + d - (clock_time s + d + z)) with (t - (clock_time s + z)) by lia. replace (t + d <? clock_time s + d + z) with (t <? clock_time s + z) by lia. intros B.
    eapply later_stats; [|exact A|exact B].
    destruct (t <? clock_time s + z); unfold later; cbn; repeat split; try lia.
    replace (message_time s + d <? t + d) with (message_time s <? t) by lia. destruct (message_time s <? t); lia.
Qed.

Lemma later_message d s s' t ts r r' : later d s s' ->
  schedule_message s t ts = Ok r -> schedule_message s' (t + d) ts = Ok r' ->
  later d (fst r) (fst r') /\ snd r' = snd r + d.
Proof.
  intros L A B. pose proof L as (L1 & L2 & L3 & L4 & L5 & L6). unfold schedule_message in *.
  rewrite L1, L2, L3, L4, L5, L6 in B.
  replace (clock_time s + d =? zero s + d) with (clock_time s =? zero s) in B by lia.
  destruct (clock_time s =? zero s); cbn [negb] in *; ok_steps.
  - unfold later. cbn. repeat split; lia.
  - match goal with E : to_duration _ = Ok ?x |- _ => rename x into z end.
    unfold later. cbn. replace (message_time s + d <? clock_time s + d + z) with (message_time s <? clock_time s + z) by lia.
    destruct (message_time s <? clock_time s + z); repeat split; lia.
Qed.

Lemma later_run d es : forall s s' r r' o o', later d s s' ->
  run s es = Ok (r, o) -> run s' (map (received_later d) es) = Ok (r', o') ->
  later d r r' /\ o' = map (fun x => (fst x + d, snd x)) o.
Proof.
  induction es as [|e es IH]; intros s s' r r' o o' L A B; cbn [map run] in *.
  - assert (r = s /\ o = []) as [-> ->] by (split; congruence).
    assert (r' = s' /\ o' = []) as [-> ->] by (split; congruence). auto.
  - destruct (step s e) as [[s1 x]|] eqn:E; cbn [bind fst snd] in A; [|discriminate A].
    destruct (step s' (received_later d e)) as [[s1' x']|] eqn:E'; cbn [bind fst snd] in B; [|discriminate B].
    destruct (run s1 es) as [[r0 o0]|] eqn:F; cbn [bind fst snd] in A; [|discriminate A].
    destruct (run s1' (map (received_later d) es)) as [[r0' o0']|] eqn:F'; cbn [bind fst snd] in B; [|discriminate B].
    assert (M : later d s1 s1' /\ x' = match x with Some x => Some (fst x + d, snd x) | None => None end).
    { destruct e; cbn [step received_later] in E, E'.
      - destruct (process_clock s received ts) eqn:C; cbn [bind] in E; [|discriminate E].
        destruct (process_clock s' (received + d) ts) eqn:C'; cbn [bind] in E'; [|discriminate E'].
        pose proof (later_clock _ _ _ _ _ _ _ L C C') as LC.
        match goal with C : process_clock s _ _ = Ok ?a |- _ => assert (s1 = a /\ x = None) as [-> ->] by (split; congruence) end.
        match goal with C : process_clock s' _ _ = Ok ?a |- _ => assert (s1' = a /\ x' = None) as [-> ->] by (split; congruence) end.
        split; [exact LC|reflexivity].
      - destruct (schedule_message s received ts) as [p|] eqn:C; cbn [bind] in E; [|discriminate E].
        destruct (schedule_message s' (received + d) ts) as [p0|] eqn:C'; cbn [bind] in E'; [|discriminate E'].
        destruct (later_message _ _ _ _ _ _ _ L C C') as (H1 & H2).
        assert (s1 = fst p /\ x = Some (snd p, security_offset (fst p))) as [-> ->] by (split; congruence).
        assert (s1' = fst p0 /\ x' = Some (snd p0, security_offset (fst p0))) as [-> ->] by (split; congruence).
        split; [exact H1|]. cbn [fst snd]. destruct H1 as (_ & _ & _ & _ & _ & ->). now rewrite H2.
      - unfold set_security_offset in *. destruct (0 <=? offset); cbn [assert_ bind] in *; [|discriminate].
        assert (s1 = mkF (zero s) (clock_ts s) (clock_time s) (message_time s) (jitter s) offset /\ x = None) as [-> ->] by (split; congruence).
        assert (s1' = mkF (zero s') (clock_ts s') (clock_time s') (message_time s') (jitter s') offset /\ x' = None) as [-> ->] by (split; congruence).
        split; [|reflexivity]. destruct L as (L1 & L2 & L3 & L4 & L5 & L6). unfold later. cbn. auto 10.
      - assert (s1 = reset s /\ x = None) as [-> ->] by (split; congruence).
        assert (s1' = reset s' /\ x' = None) as [-> ->] by (split; congruence).
        split; [|reflexivity]. destruct L as (L1 & _). unfold later, reset. cbn. auto 10. }
    destruct M as (M & ->). destruct (IH _ _ _ _ _ _ M F F') as (IH1 & IH2).
    assert (r = r0) by congruence. assert (r' = r0') by congruence. subst r0 r0'. split; [exact IH1|].
    destruct x as [p|]; cbn [map]; [|congruence].
    assert (o' = (fst p + d, snd p) :: o0') by congruence. assert (o = p :: o0) by congruence. subst. reflexivity.
Qed.

(* ---- the sender's clock --------------------------------------------------------------------- *)

Definition restamped (k : Z) (s s' : follower) : Prop :=
  zero s' = zero s /\ clock_time s' = clock_time s /\ message_time s' = message_time s /\
  jitter s' = jitter s /\ security_offset s' = security_offset s /\
  (clock_time s = zero s \/ (is_u16 (clock_ts s) /\ clock_ts s' = (clock_ts s + k) mod 65536)).

Lemma diff_stamps k a b : is_u16 a -> is_u16 b -> ts_diff ((a + k) mod 65536) ((b + k) mod 65536) = ts_diff a b.
Proof.
  unfold is_u16, ts_diff, u16. intros A B.
  assert (E : forall d, (if d <? 0 then d + 65536 else d) mod 65536 = d mod 65536).
  { intros d. destruct (d <? 0); dlia. }
  change 0x10000 with 65536. rewrite !E. rewrite Zminus_mod_idemp_l, Zminus_mod_idemp_r.
  f_equal. lia.
Qed.

(* two computations agree if they end alike *)
Definition alike {A} (R : A -> A -> Prop) (r r' : res A) : Prop :=
  match r, r' with
  | Ok a, Ok b => R a b
  | Fault f, Fault g => f = g
  | _, _ => False
  end.

Lemma alike_bind {A B} (R : A -> A -> Prop) (Q : B -> B -> Prop) r r' f f' :
  alike R r r' -> (forall a b, R a b -> alike Q (f a) (f' b)) -> alike Q (bind r f) (bind r' f').
Proof. destruct r, r'; cbn; intros; auto; try contradiction. Qed.

Lemma alike_same {A B} (Q : B -> B -> Prop) (r : res A) f f' :
  (forall a, r = Ok a -> alike Q (f a) (f' a)) -> alike Q (bind r f) (bind r f').
Proof. destruct r; cbn; auto. Qed.

(* the state without the last stamp *)
Definition same_but_stamp (s s' : follower) : Prop :=
  zero s' = zero s /\ clock_time s' = clock_time s /\ message_time s' = message_time s /\
  jitter s' = jitter s /\ security_offset s' = security_offset s.

Lemma stats_frame s s' j : same_but_stamp s s' ->
  alike (fun r r' => same_but_stamp r r' /\ clock_ts r = clock_ts s /\ clock_ts r' = clock_ts s' /\
           clock_time r = clock_time s /\ zero r = zero s) (update_stats s j) (update_stats s' j).
Proof.
  intros L. pose proof L as (L1 & L2 & L3 & L4 & L5). unfold update_stats. rewrite L4.
  assert (R : forall x, alike (fun r r' => same_but_stamp r r' /\ clock_ts r = clock_ts s /\ clock_ts r' = clock_ts s' /\
           clock_time r = clock_time s /\ zero r = zero s)
         (recalc_security_offset (with_jitter s x)) (recalc_security_offset (with_jitter s' x))).
  { intros x. unfold recalc_security_offset, with_jitter. cbn [jitter security_offset]. apply alike_same. intros y _.
    rewrite L5. destruct (_ <? _); unfold same_but_stamp; cbn; auto 12. }
  destruct (j <? 0); [apply alike_same; intros; apply R|].
  destruct (jitter s <? j); [apply R|]. cbn. auto 10.
Qed.

Lemma restamped_step k s s' e : restamped k s s' -> stamps_ok e ->
  alike (fun r r' => restamped k (fst r) (fst r') /\ snd r = snd r') (step s e) (step s' (stamped_later k e)).
Proof.
  intros L U. pose proof L as (L1 & L2 & L3 & L4 & L5 & L6). destruct e; cbn [step stamped_later stamps_ok] in *.
  - apply alike_bind with (R := restamped k); [|cbn; auto].
    unfold process_clock. rewrite L1, L2, L3, L4, L5.
    destruct (clock_time s =? zero s) eqn:Z0.
    { cbn. unfold restamped. cbn. auto 12. }
    destruct L6 as [?|(U' & L6)]; [lia|]. rewrite L6, diff_stamps by assumption.
    do 3 (apply alike_same; intros ? _).
    match goal with |- alike _ (update_stats ?a ?j) (update_stats ?b ?j) => pose proof (stats_frame a b j) as F; set (x := a) in *; set (y := b) in * end.
    assert (S : same_but_stamp x y) by (subst x y; destruct (_ <? _); unfold same_but_stamp; cbn; auto 10).
    specialize (F S). destruct (update_stats x _), (update_stats y _); cbn in *; auto; try contradiction.
    destruct F as ((F1 & F2 & F3 & F4 & F5) & F6 & F7 & F8 & F9). unfold restamped.
    repeat apply conj; auto. right. rewrite F6, F7.
    subst x y. destruct (_ <? _); cbn; auto.
  - apply alike_bind with (R := fun r r' => restamped k (fst r) (fst r') /\ snd r = snd r').
    2: { intros [a x] [b y] (R & ->). cbn in *. split; [exact R|]. destruct R as (_ & _ & _ & _ & -> & _). reflexivity. }
    unfold schedule_message. rewrite L1, L2, L3, L4, L5.
    destruct (clock_time s =? zero s) eqn:Z0; cbn [negb].
    + cbn [bind]. apply alike_same. intros ? _. cbn. split; [|reflexivity]. unfold restamped. cbn. auto 12.
    + destruct L6 as [?|(U' & L6)]; [lia|]. rewrite L6, diff_stamps by assumption.
      apply alike_same. intros m _. apply alike_same. intros ? _. cbn. split; [|reflexivity]. unfold restamped. cbn. auto 12.
  - unfold set_security_offset. destruct (0 <=? offset); cbn; [|reflexivity]. split; [|reflexivity].
    unfold restamped. cbn. auto 12.
  - cbn. split; [|reflexivity]. unfold restamped, reset. cbn. rewrite L1. auto 12.
Qed.

Lemma runs_alike (R : follower -> follower -> Prop) (P : event -> Prop) (h : event -> event) :
  (forall s s' e, R s s' -> P e -> alike (fun r r' => R (fst r) (fst r') /\ snd r = snd r') (step s e) (step s' (h e))) ->
  forall es s s', R s s' -> Forall P es ->
  alike (fun r r' => R (fst r) (fst r') /\ snd r = snd r') (run s es) (run s' (map h es)).
Proof.
  intros H. induction es as [|e es IH]; intros s s' L F; cbn [map run]; [cbn; auto|].
  apply Forall_cons_iff in F. destruct F as (F1 & F2).
  apply alike_bind with (R := fun r r' => R (fst r) (fst r') /\ snd r = snd r'); [now apply H|].
  intros [a x] [b y] (L' & E). cbn [fst snd] in *. subst y.
  apply alike_bind with (R := fun r r' => R (fst r) (fst r') /\ snd r = snd r'); [now apply IH|].
  intros [r o] [r' o'] (L2 & E). cbn [fst snd alike] in *. subst o'. auto.
Qed.

(* ---- the time of construction --------------------------------------------------------------- *)

Definition same_history (z z' : Z) (s s' : follower) : Prop :=
  zero s = z /\ zero s' = z' /\ jitter s' = jitter s /\ security_offset s' = security_offset s /\
  ((clock_time s = z /\ clock_time s' = z') \/
   (z < clock_time s /\ z' < clock_time s /\ clock_time s' = clock_time s /\
    message_time s' = message_time s /\ clock_ts s' = clock_ts s)).

(* all but the time of construction *)
Definition same_but_zero (s s' : follower) : Prop :=
  clock_ts s' = clock_ts s /\ clock_time s' = clock_time s /\ message_time s' = message_time s /\
  jitter s' = jitter s /\ security_offset s' = security_offset s.

Lemma stats_frame' s s' j : same_but_zero s s' ->
  alike (fun r r' => same_but_zero r r' /\ zero r = zero s /\ zero r' = zero s' /\ clock_time r = clock_time s)
    (update_stats s j) (update_stats s' j).
Proof.
  intros L. pose proof L as (L1 & L2 & L3 & L4 & L5). unfold update_stats. rewrite L4.
  assert (R : forall x, alike (fun r r' => same_but_zero r r' /\ zero r = zero s /\ zero r' = zero s' /\ clock_time r = clock_time s)
         (recalc_security_offset (with_jitter s x)) (recalc_security_offset (with_jitter s' x))).
  { intros x. unfold recalc_security_offset, with_jitter. cbn [jitter security_offset]. apply alike_same. intros y _.
    rewrite L5. destruct (_ <? _); unfold same_but_zero; cbn; auto 12. }
  destruct (j <? 0); [apply alike_same; intros; apply R|].
  destruct (jitter s <? j); [apply R|]. cbn. auto 10.
Qed.

Lemma duration_nonneg a b d : to_duration (ts_diff a b) = Ok d -> 0 <= d.
Proof.
  unfold to_duration. intros H. apply i64_ok in H. subst d. unfold ts_diff, u16.
  match goal with |- context [?x mod ?n] => pose proof (Z.mod_pos_bound x n ltac:(lia)) end. lia.
Qed.

Lemma same_history_step z z' s s' e : same_history z z' s s' -> clock_after z e -> clock_after z' e ->
  alike (fun r r' => same_history z z' (fst r) (fst r') /\ snd r = snd r') (step s e) (step s' e).
Proof.
  intros L U U'. pose proof L as (L1 & L2 & L3 & L4 & L5). destruct e; cbn [step clock_after] in *.
  - apply alike_bind with (R := same_history z z'); [|cbn; auto].
    unfold process_clock. rewrite L1, L2, L3, L4.
    destruct L5 as [(A & B)|(A & B & C & D & E)].
    + rewrite A, B, !Z.eqb_refl. cbn. unfold same_history. cbn. repeat apply conj; auto. right. repeat split; auto.
    + rewrite C, D, E. replace (clock_time s =? z) with false by lia. replace (clock_time s =? z') with false by lia.
      apply alike_same. intros du DU. apply duration_nonneg in DU. apply alike_same. intros ex EX. apply i64_ok in EX.
      apply alike_same. intros j _.
      match goal with |- alike _ (update_stats ?a ?j) (update_stats ?b ?j) => pose proof (stats_frame' a b j) as F; set (x := a) in *; set (y := b) in * end.
      assert (S : same_but_zero x y) by (subst x y; destruct (_ <? _); unfold same_but_zero; cbn; auto 10).
      specialize (F S). destruct (update_stats x _), (update_stats y _); cbn in *; auto; try contradiction.
      destruct F as ((F1 & F2 & F3 & F4 & F5) & F6 & F7 & F8). unfold same_history.
      assert (zero x = z /\ zero y = z' /\ z < clock_time x /\ z' < clock_time x) as (X1 & X2 & X3 & X4).
      { subst x y. destruct (_ <? _); cbn; lia. }
      rewrite F6, F7, F8, X1, X2. repeat apply conj; auto. right. repeat split; auto. congruence.
  - apply alike_bind with (R := fun r r' => same_history z z' (fst r) (fst r') /\ snd r = snd r').
    2: { intros [a x] [b y] (R & ->). cbn in *. split; [exact R|]. destruct R as (_ & _ & _ & -> & _). reflexivity. }
    unfold schedule_message. rewrite L1, L2, L3, L4.
    destruct L5 as [(A & B)|(A & B & C & D & E)].
    + rewrite A, B, !Z.eqb_refl. cbn [negb bind]. apply alike_same. intros ? _. cbn. split; [|reflexivity].
      unfold same_history. cbn. repeat apply conj; auto.
    + rewrite C, D, E. replace (clock_time s =? z) with false by lia. replace (clock_time s =? z') with false by lia.
      cbn [negb]. apply alike_same. intros m _. apply alike_same. intros ? _. cbn. split; [|reflexivity].
      unfold same_history. cbn. repeat apply conj; auto. right. repeat split; auto.
  - unfold set_security_offset. destruct (0 <=? offset); cbn; [|reflexivity]. split; [|reflexivity].
    unfold same_history. cbn. auto 12.
  - cbn. split; [|reflexivity]. unfold same_history, reset. cbn. auto 12.
Qed.

Lemma alike_returned R r r' :
  alike (fun a b : follower * list (Z * Z) => R (fst a) (fst b) /\ snd a = snd b) r r' -> returned r' = returned r.
Proof. destruct r as [[s o]|f], r' as [[s' o']|f']; cbn; intros H; try contradiction; [now destruct H as (_ & ->)|now subst]. Qed.
