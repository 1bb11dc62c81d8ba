(* Lemmas for C94: copied and moved objects *)
From Coq Require Import ZArith List Bool Lia ZifyBool ZifyNat.
From Verif Require Import Base Bits Packet PacketSpec Sysex Collector ByteStream StreamSpec StreamCalls
  CollectSpec CollectLemmas CollectProofs CollectCalls Copies CopiesSpec.
Import ListNotations.
Local Open Scope Z_scope.
Local Open Scope res_scope.

Section Generic.
  Context {S K O : Type} (step : S -> K -> res (S * list O)) (calls : S -> list K -> res (S * list O))
    (copied : S -> S) (assigned : S -> S -> S) (moved : S -> S) (init : nat -> S) (revive : K -> option (list K)) (ok : K -> Prop).
  Context (R : nat -> list K -> S -> Prop) (Left Any : nat -> S -> Prop) (fits : nat -> nat -> Prop).
  Hypothesis R_init : forall i, R i [] (init i).
  Hypothesis R_step : forall n ks s k, R n ks s -> ok k ->
    exists s' o, step s k = Ok (s', o) /\ last_delivers calls init n ks k = Ok o /\ R n (ks ++ [k]) s'.
  Hypothesis R_copied : forall n ks s, R n ks s -> R n ks (copied s).
  Hypothesis R_assigned : forall n m ks s d, R n ks s -> Any m d -> fits n m -> R n ks (assigned s d).
  Hypothesis R_reused : forall n m ks s d, R n ks s -> Left m d -> R n ks (assigned s d).
  Hypothesis R_moved : forall n ks s, R n ks s -> Left n (moved s).
  Hypothesis R_any : forall n ks s, R n ks s -> Any n s.
  Hypothesis Left_revive : forall n s k ks, Left n s -> ok k -> revive k = Some ks -> exists s', step s k = Ok (s', []) /\ R n ks s'.

  Definition tracked (x : history K) (y : S) : Prop := match x with (n, Some ks) => R n ks y | (n, None) => Left n y end.
  Definition tracks (h : nat -> history K) (s : nat -> S) : Prop := forall i, tracked (h i) (s i).
  Lemma tracks_put h s i x y : tracks h s -> tracked x y -> tracks (at_object h i x) (put i y s).
  Proof. intros T X j. unfold at_object, put. destruct (Nat.eqb_spec j i); [exact X|exact (T j)]. Qed.
  Lemma tracked_usable x y : tracked x y -> usable x -> exists ks, x = (fst x, Some ks) /\ R (fst x) ks y.
  Proof. destruct x as [n [ks|]]; cbn; [|intros _ []; reflexivity]. intros T _. exists ks. split; trivial. Qed.
  Lemma tracked_assigned x y z w : tracked x y -> usable x -> tracked z w -> (usable z -> fits (fst x) (fst z)) -> tracked x (assigned y w).
  Proof.
    intros X U Z F. destruct (tracked_usable x y X U) as (ks & -> & Y). cbn [tracked]. destruct z as [m [l|]]; cbn [tracked fst] in *.
    - apply (R_assigned _ m); trivial; [apply (R_any _ _ _ Z)|]. apply F. discriminate.
    - now apply (R_reused _ m).
  Qed.

  Lemma objects_refine prog : forall h s, tracks h s -> proper revive fits ok h prog ->
    exists s' o, run_objects step copied assigned moved s prog = Ok (s', o) /\ expected calls init revive h prog = Ok o.
  Proof.
    induction prog as [|p prog IH]; intros h s T P.
    { now exists s, []. }
    destruct p as [i k|i j|i j|i j]; cbn [run_objects expected proper] in *.
    - destruct P as [OK P]. pose proof (T i) as Ti. destruct (h i) as [n [ks|]]; cbn [tracked] in Ti.
      + destruct (R_step n ks (s i) k Ti OK) as (s1 & o1 & E1 & L1 & R1). rewrite E1, L1. cbn [bind fst snd].
        destruct (IH _ _ (tracks_put h s i (n, Some (ks ++ [k])) s1 T R1) P) as (s2 & o2 & E2 & X2). rewrite E2, X2. cbn [bind fst snd].
        eexists _, _. split; reflexivity.
      + destruct P as (ks & RV & P). rewrite RV. destruct (Left_revive n (s i) k ks Ti OK RV) as (s1 & E1 & R1). rewrite E1. cbn [bind fst snd].
        destruct (IH _ _ (tracks_put h s i (n, Some ks) s1 T R1) P) as (s2 & o2 & E2 & X2). rewrite E2. cbn [bind fst snd map app].
        eexists _, _. split; [reflexivity|exact X2].
    - destruct P as (N & U & P). apply (IH _ _ (tracks_put h s j (h i) (copied (s i)) T ltac:(
        destruct (tracked_usable _ _ (T i) U) as (ks & -> & Y); cbn [tracked fst]; apply R_copied, Y)) P).
    - destruct P as (U & F & P).
      apply (IH _ _ (tracks_put h s j (h i) (assigned (s i) (s j)) T (tracked_assigned _ _ _ _ (T i) U (T j) F)) P).
    - destruct P as (N & U & P).
      assert (T1 : tracks (at_object h j (h i)) (put j (s i) s)) by (apply tracks_put; [exact T|exact (T i)]).
      apply (IH _ _ (tracks_put _ _ i (moved_from (h i)) (moved (s i)) T1 ltac:(
        destruct (tracked_usable _ _ (T i) U) as (ks & -> & Y); cbn [moved_from tracked fst]; eapply R_moved, Y)) P).
  Qed.
  Lemma objects_like_single prog : proper revive fits ok as_made prog ->
    exists s' o, run_objects step copied assigned moved init prog = Ok (s', o) /\ expected calls init revive as_made prog = Ok o.
  Proof. apply objects_refine. intros i. apply R_init. Qed.
End Generic.

(* ---- sysex7 ----------------------------------------------------------------------------------- *)

Definition cb_after (cb : bool) (k : collector_call) : bool := match k with KSetCallback b => b | _ => cb end.
Lemma call7_step a max cb st c k : limit_alloc a max -> keeps_limit k -> inv7 max cb st c ->
  let r := a_calls content7 decode7 max cb st [k] in
  exists c', c7_call a c k = Ok (c', map fst (snd r)) /\ inv7 max (cb_after cb k) (fst r) c'.
Proof.
  intros A K I. cbv zeta. destruct k as [p| |s|b]; cbn [keeps_limit c7_call a_calls cb_after] in *.
  - destruct (content7 p) as [x|] eqn:X; cbn [fst snd].
    + destruct (feed7_step a max cb st c p x A I K X) as (c' & E & I'). exists c'. split; [|exact I'].
      rewrite E, app_nil_r. now destruct cb.
    + exists c. split; [now apply feed7_skip|exact I].
  - eexists. split; [reflexivity|]. now apply (inv7_reset a max cb st c 0 A).
  - destruct K.
  - eexists. split; [reflexivity|]. destruct I. now constructor.
Qed.

Definition like7 (a : allocator) (max : nat -> Z) (cb : nat -> bool) (n : nat) (ks : list collector_call) (c : collector7) : Prop :=
  exists c0 o0 st b, c7_calls a (made7 a max cb n) ks = Ok (c0, o0) /\ inv7 (max n) b st c0 /\ inv7 (max n) b st c.
Definition mem7 (max : nat -> Z) (n : nat) (c : collector7) : Prop := 0 <= c7_capacity c /\ (max n = 0 \/ c7_capacity c <= max n).
Definition left7 (max : nat -> Z) (n : nat) (c : collector7) : Prop := c7_capacity c = 0 /\ c7_max c = max n /\ c7_has_cb c = false.

Lemma copies7 a max cb prog : (forall n, limit_alloc a (max n)) -> proper revive_collector (limit_fits max) keeps_limit as_made prog ->
  exists s o, run7 a (made7 a max cb) prog = Ok (s, o) /\ expected (c7_calls a) (made7 a max cb) revive_collector as_made prog = Ok o.
Proof.
  intros A. apply objects_like_single with (R := like7 a max cb) (Left := left7 max) (Any := mem7 max).
  - intros i. eexists _, _, _, _. split; [reflexivity|]. split; apply inv7_new, A.
  - intros n ks c k (c0 & o0 & st & b & E & I0 & I) KL.
    destruct (call7_step a (max n) b st c0 k (A n) KL I0) as (d0 & E0 & J0). destruct (call7_step a (max n) b st c k (A n) KL I) as (d & E1 & J).
    eexists _, _. split; [exact E1|]. split.
    + unfold last_delivers. rewrite E. cbn [bind fst c7_calls]. rewrite E0. cbn [bind snd]. now rewrite app_nil_r.
    + exists d0. eexists _, _, _. split; [|split; [exact J0|exact J]].
      rewrite (c7_calls_app a ks _ [k] _ _ E). cbn [c7_calls]. rewrite E0. cbn [bind]. reflexivity.
  - intros n ks c (c0 & o0 & st & b & E & I0 & I). exists c0, o0, st, b. split; [exact E|]. split; [exact I0|].
    destruct I. constructor; trivial. cbn. rewrite i7_sysex. unfold cap_ok in *. lia.
  - intros n m ks c d (c0 & o0 & st & b & E & I0 & I) (D0 & D2) F. exists c0, o0, st, b. split; [exact E|]. split; [exact I0|].
    destruct I. constructor; trivial. cbn. rewrite i7_sysex. unfold cap_ok, limit_fits in *. lia.
  - intros n m ks c d (c0 & o0 & st & b & E & I0 & I) (D0 & D2). exists c0, o0, st, b. split; [exact E|]. split; [exact I0|].
    destruct I. constructor; trivial. cbn. rewrite i7_sysex. unfold cap_ok in *. lia.
  - intros n ks c (c0 & o0 & st & b & E & I0 & I). split; [reflexivity|]. split; [|reflexivity]. apply (i7_max _ _ _ _ I).
  - intros n ks c (c0 & o0 & st & b & E & I0 & I). pose proof (i7_cap _ _ _ _ I) as [C D]. split; [lia|exact D].
  - intros n c k ks (C & M & B) KL RV. destruct k; try discriminate. injection RV as <-. eexists. split; [reflexivity|].
    eexists _, _, a_idle, false. split; [reflexivity|]. cbn [c7_call]. destruct (inv7_new a (max n) (cb n) (A n)). split.
    + constructor; trivial.
    + constructor; try reflexivity; cbn; trivial; try congruence. unfold cap_ok, clear_capacity.
      destruct (A n) as (A0 & (S1 & S2 & S3) & _). specialize (S3 (c7_capacity c)). unfold size. cbn. destruct (_ <? _) eqn:Q; lia.
Qed.

(* ---- sysex8 ----------------------------------------------------------------------------------- *)

Lemma call8_step a max cb st c k : limit_alloc a max -> keeps_limit k -> inv8 max cb st c ->
  let r := a_calls content8 decode8 max cb st [k] in
  exists c', c8_call a c k = Ok (c', snd r) /\ inv8 max (cb_after cb k) (fst r) c'.
Proof.
  intros A K I. cbv zeta. destruct k as [p| |s|b]; cbn [keeps_limit c8_call a_calls cb_after] in *.
  - destruct (content8 p) as [x|] eqn:X; cbn [fst snd].
    + destruct (feed8_step a max cb st c p x A I K X) as (c' & E & I'). exists c'. split; [|exact I'].
      rewrite E, app_nil_r. now destruct cb.
    + exists c. split; [now apply feed8_skip|exact I].
  - eexists. split; [reflexivity|]. now apply (inv8_reset a max cb st c A).
  - destruct K.
  - eexists. split; [reflexivity|]. destruct I. now constructor.
Qed.

Definition like8 (a : allocator) (max : nat -> Z) (cb : nat -> bool) (n : nat) (ks : list collector_call) (c : collector8) : Prop :=
  exists c0 o0 st b, c8_calls a (made8 a max cb n) ks = Ok (c0, o0) /\ inv8 (max n) b st c0 /\ inv8 (max n) b st c.
Definition mem8 (max : nat -> Z) (n : nat) (c : collector8) : Prop := 0 <= c8_capacity c /\ (max n = 0 \/ c8_capacity c <= max n).
Definition left8 (max : nat -> Z) (n : nat) (c : collector8) : Prop := c8_capacity c = 0 /\ c8_max c = max n /\ c8_has_cb c = false.

Lemma copies8 a max cb prog : (forall n, limit_alloc a (max n)) -> proper revive_collector (limit_fits max) keeps_limit as_made prog ->
  exists s o, run8 a (made8 a max cb) prog = Ok (s, o) /\ expected (c8_calls a) (made8 a max cb) revive_collector as_made prog = Ok o.
Proof.
  intros A. apply objects_like_single with (R := like8 a max cb) (Left := left8 max) (Any := mem8 max).
  - intros i. eexists _, _, _, _. split; [reflexivity|]. split; apply inv8_new, A.
  - intros n ks c k (c0 & o0 & st & b & E & I0 & I) KL.
    destruct (call8_step a (max n) b st c0 k (A n) KL I0) as (d0 & E0 & J0). destruct (call8_step a (max n) b st c k (A n) KL I) as (d & E1 & J).
    eexists _, _. split; [exact E1|]. split.
    + unfold last_delivers. rewrite E. cbn [bind fst c8_calls]. rewrite E0. cbn [bind snd]. now rewrite app_nil_r.
    + exists d0. eexists _, _, _. split; [|split; [exact J0|exact J]].
      rewrite (c8_calls_app a ks _ [k] _ _ E). cbn [c8_calls]. rewrite E0. cbn [bind]. reflexivity.
  - intros n ks c (c0 & o0 & st & b & E & I0 & I). exists c0, o0, st, b. split; [exact E|]. split; [exact I0|].
    destruct I. constructor; trivial. cbn. rewrite i8_sysex. unfold cap_ok in *. lia.
  - intros n m ks c d (c0 & o0 & st & b & E & I0 & I) (D0 & D2) F. exists c0, o0, st, b. split; [exact E|]. split; [exact I0|].
    destruct I. constructor; trivial. cbn. rewrite i8_sysex. unfold cap_ok, limit_fits in *. lia.
  - intros n m ks c d (c0 & o0 & st & b & E & I0 & I) (D0 & D2). exists c0, o0, st, b. split; [exact E|]. split; [exact I0|].
    destruct I. constructor; trivial. cbn. rewrite i8_sysex. unfold cap_ok in *. lia.
  - intros n ks c (c0 & o0 & st & b & E & I0 & I). split; [reflexivity|]. split; [|reflexivity]. apply (i8_max _ _ _ _ I).
  - intros n ks c (c0 & o0 & st & b & E & I0 & I). pose proof (i8_cap _ _ _ _ I) as [C D]. split; [lia|exact D].
  - intros n c k ks (C & M & B) KL RV. destruct k; try discriminate. injection RV as <-. eexists. split; [reflexivity|].
    eexists _, _, a_idle, false. split; [reflexivity|]. cbn [c8_call]. destruct (inv8_new a (max n) (cb n) (A n)). split.
    + constructor; trivial.
    + constructor; try reflexivity; cbn; trivial; try congruence. unfold cap_ok, clear_capacity.
      destruct (A n) as (A0 & (S1 & S2 & S3) & _). specialize (S3 (c8_capacity c)). unfold size. cbn. destruct (_ <? _) eqn:Q; lia.
Qed.

(* ---- parser ----------------------------------------------------------------------------------- *)

Lemma copies_parser g cb on prog : (forall i, 0 <= g i < 16) -> proper revive_parser any_parser valid_call as_made prog ->
  exists s o, run_parsers (made_parser g cb on) prog = Ok (s, o) /\
    expected parser_calls (made_parser g cb on) revive_parser as_made prog = Ok o.
Proof.
  intros G. apply objects_like_single with (Left := fun _ _ => True) (Any := fun _ _ => True)
    (R := fun n ks st => Forall valid_call ks /\ exists o, parser_calls (made_parser g cb on n) ks = Ok (st, o)); trivial.
  - intros i. split; [constructor|]. exists []. reflexivity.
  - intros n ks st k (V & o & E) VK.
    assert (V' : Forall valid_call (ks ++ [k])) by (apply Forall_app; split; [exact V|constructor; [exact VK|constructor]]).
    destruct (calls_safe_new (g n) (cb n) (on n) (ks ++ [k]) (G n) V') as (st' & o' & E').
    fold (made_parser g cb on n) in E'. pose proof E' as F. rewrite calls_app, E in E'. cbn [bind fst snd] in E'.
    destruct (parser_calls st [k]) as [[st1 o1]|] eqn:X; cbn [bind fst snd] in E'; [|discriminate].
    pose proof X as Y. cbn [parser_calls] in X. destruct (parser_call_step st k) as [[st2 o2]|]; cbn [bind] in X; [|discriminate].
    rewrite app_nil_r in X. injection X as -> ->. injection E' as <- <-.
    exists st1, o1. split; [reflexivity|]. split; [|split; [exact V'|eauto]].
    unfold last_delivers. rewrite E. cbn [bind fst]. rewrite Y. reflexivity.
  - intros i st k ks _ _ RV. discriminate.
Qed.
