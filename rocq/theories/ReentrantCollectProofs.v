(* Lemmas on callbacks of SysEx collectors that call back *)
From Coq Require Import ZArith List Bool Lia ZifyBool ZifyNat.
From Verif Require Import Base Bits Packet PacketSpec PacketProofs PacketBytes Messages Sysex Collector
  StreamSpec StreamLemmas StreamBytes CollectSpec CollectProofs
  Reentrant ReentrantCollectSpec.
Import ListNotations.
Local Open Scope Z_scope.
Local Open Scope res_scope.

Lemma collect_ind (P : nested_collect -> Prop) :
  (forall p during, Forall P during -> P (KNFeed p during)) -> P KNReset -> forall k, P k.
Proof.
  intros HF HR. fix IH 1. intros [p during|]; [|exact HR]. apply HF.
  induction during as [|k ks IHks]; constructor; [apply IH|exact IHks].
Qed.

Section Specs.
  Context (rd : packet -> option content) (dec : list Z -> sysex) (max : Z).

  Lemma spec_kfeed st p during : collect_spec rd dec max st (KNFeed p during) =
    match rd p with
    | None => (st, [])
    | Some x => match a_step dec max st x with
                | (st', []) => (st', [])
                | (st', e) => (fst (collect_specs rd dec max st' during), e ++ snd (collect_specs rd dec max st' during))
                end
    end.
  Proof. reflexivity. Qed.

  Lemma may_kfeed st p during : may_collect rd dec max st (KNFeed p during) =
    (wf_packet p /\
     match rd p with
     | None => True
     | Some x => let '(st', e) := a_step dec max st x in
                 e <> [] -> all_may_collect rd dec max st' during /\ begins_clean rd (ct_format x =? 3) during /\
                 nothing_pending (fst (collect_specs rd dec max st' during))
     end).
  Proof. reflexivity. Qed.

  (* the next packet is treated alike *)
  Definition alike (st0 st : astate) : Prop := forall x, a_step dec max st0 x = a_step dec max st x.

  Lemma alike_pending st0 st : nothing_pending st0 -> nothing_pending st -> alike st0 st.
  Proof. intros [B0 O0] [B O] x. unfold a_step. rewrite B0, O0, B, O. now destruct (ct_format x <? 2). Qed.

  Lemma step_open b i x : ct_format x < 2 -> a_step dec max (mkA b true i) x = a_step dec max a_idle x.
  Proof. intros F. unfold a_step. cbn [a_open a_bytes a_stream a_idle]. replace (ct_format x <? 2) with true by lia. reflexivity. Qed.

  Lemma step_delivers st x st' e : a_step dec max st x = (st', e) -> e <> [] ->
    st' = a_idle /\ exists v, e = [(v, ct_stream x)].
  Proof.
    unfold a_step. destruct (_ && _); [intros [= <- <-]; congruence|]. destruct (_ && _); [intros [= <- <-]; congruence|].
    destruct (_ && _); [intros [= <- <-]; congruence|]. destruct (_ || _); intros [= <- <-]; [|congruence].
    intros _. split; [reflexivity|]. eexists. reflexivity.
  Qed.

  Context {C E : Type} (nstep : C -> nested_collect -> res (C * list E)) (ncalls : C -> list nested_collect -> res (C * list E))
    (feed_in : (C -> res (C * list E)) -> C -> packet -> res (C * list E)) (feed : C -> packet -> res (C * list E))
    (reset : C -> C) (inv : astate -> C -> Prop) (ev : sysex * Z -> E).
  Hypothesis n_nil : forall c, ncalls c [] = Ok (c, []).
  Hypothesis n_cons : forall c k ks, ncalls c (k :: ks) = (r <- nstep c k ;; r' <- ncalls (fst r) ks ;; Ok (fst r', snd r ++ snd r')).
  Hypothesis n_feed : forall c p during, nstep c (KNFeed p during) = feed_in (fun c => ncalls c during) c p.
  Hypothesis n_reset : forall c, nstep c KNReset = Ok (reset c, []).
  Hypothesis h_reset : forall st c, inv st c -> inv a_idle (reset c).
  Hypothesis h_skip : forall run c p, wf_packet p -> rd p = None -> feed_in run c p = Ok (c, []).
  Hypothesis h_quiet : forall run st c p x, inv st c -> wf_packet p -> rd p = Some x -> snd (a_step dec max st x) = [] ->
    exists c', feed_in run c p = Ok (c', []) /\ inv (fst (a_step dec max st x)) c'.
  Hypothesis h_loud : forall run st c p x e, inv st c -> wf_packet p -> rd p = Some x -> snd (a_step dec max st x) = [e] ->
    exists b i c', inv (mkA b (ct_format x =? 3) i) c' /\
      feed_in run c p = (r <- run c' ;; Ok (reset (fst r), ev e :: snd r)).
  Hypothesis h_feed : forall st c p x, inv st c -> wf_packet p -> rd p = Some x ->
    exists c', feed c p = Ok (c', map ev (snd (a_step dec max st x))) /\ inv (fst (a_step dec max st x)) c'.
  Hypothesis h_feed_skip : forall c p, wf_packet p -> rd p = None -> feed c p = Ok (c, []).

  Definition rel (st : astate) (c : C) : Prop := exists st0, inv st0 c /\ (st0 = st \/ nothing_pending st0 /\ nothing_pending st).

  Lemma rel_alike st c : rel st c -> exists st0, inv st0 c /\ alike st0 st.
  Proof.
    intros (st0 & I & [->|[N0 N]]).
    - exists st. now split.
    - exists st0. split; trivial. now apply alike_pending.
  Qed.

  Definition treats_alike (k : nested_collect) (st0 st : astate) : Prop :=
    match k with KNFeed p _ => forall x, rd p = Some x -> a_step dec max st0 x = a_step dec max st x | KNReset => True end.
  Definition ignored (k : nested_collect) : Prop := match k with KNFeed p _ => rd p = None | KNReset => False end.

  Definition collect_ok (k : nested_collect) : Prop := forall st0 st c, inv st0 c -> treats_alike k st0 st ->
    may_collect rd dec max st k ->
    exists c', nstep c k = Ok (c', map ev (snd (collect_spec rd dec max st k))) /\
      (ignored k /\ c' = c /\ collect_spec rd dec max st k = (st, []) \/
       ~ ignored k /\ rel (fst (collect_spec rd dec max st k)) c').

  Lemma collects_ok ks : Forall collect_ok ks -> forall st c, rel st c -> all_may_collect rd dec max st ks ->
    exists c', ncalls c ks = Ok (c', map ev (snd (collect_specs rd dec max st ks))) /\ rel (fst (collect_specs rd dec max st ks)) c'.
  Proof.
    induction 1 as [|k ks K _ IH]; intros st c R A.
    { exists c. rewrite n_nil. now split. }
    destruct A as [A1 A2]. destruct (rel_alike st c R) as (st0 & I & L).
    assert (L' : treats_alike k st0 st) by (destruct k; cbn; auto).
    destruct (K st0 st c I L' A1) as (c1 & E1 & R1). rewrite n_cons, E1. cbn [bind fst snd].
    assert (R2 : rel (fst (collect_spec rd dec max st k)) c1).
    { destruct R1 as [(_ & -> & ->)|[_ R1]]; [exact R|exact R1]. }
    destruct (IH _ _ R2 A2) as (c2 & E2 & R3). rewrite E2. cbn [bind fst snd]. exists c2. split; [|exact R3].
    cbn [collect_specs fst snd]. now rewrite map_app.
  Qed.

  (* the calls of a callback *)
  Lemma callback_ok ks : Forall collect_ok ks -> forall several b i c, inv (mkA b several i) c ->
    begins_clean rd several ks -> all_may_collect rd dec max a_idle ks ->
    exists st' c', ncalls c ks = Ok (c', map ev (snd (collect_specs rd dec max a_idle ks))) /\ inv st' c'.
  Proof.
    intros K several b i. induction K as [|k ks K1 K IH]; intros c I B A.
    { exists (mkA b several i), c. rewrite n_nil. now split. }
    destruct A as [A1 A2].
    assert (L : treats_alike k (mkA b several i) a_idle).
    { destruct k as [p d|]; [|exact Logic.I]. intros x X. cbn [begins_clean] in B. rewrite X in B. destruct B as [-> F]. now apply step_open. }
    destruct (K1 _ a_idle c I L A1) as (c1 & E1 & R1). rewrite n_cons, E1. cbn [bind fst snd].
    destruct R1 as [(IG & -> & S)|[IG R1]].
    - assert (B' : begins_clean rd several ks).
      { destruct k as [p d|]; [|destruct IG]. cbn [begins_clean ignored] in *. now rewrite IG in B. }
      rewrite S in A2. destruct (IH c I B' A2) as (st' & c2 & E2 & I2). rewrite E2. cbn [bind fst snd].
      exists st', c2. split; [|exact I2]. cbn [collect_specs fst snd]. rewrite S. reflexivity.
    - destruct (collects_ok ks K _ _ R1 A2) as (c2 & E2 & (st' & I2 & _)). rewrite E2. cbn [bind fst snd].
      exists st', c2. split; [|exact I2]. cbn [collect_specs fst snd]. now rewrite map_app.
  Qed.

  Lemma every_collect_ok k : collect_ok k.
  Proof.
    induction k as [p during K|] using collect_ind; intros st0 st c I L.
    2:{ intros _. exists (reset c). rewrite n_reset. split; [reflexivity|]. right. split; [easy|].
        exists a_idle. split; [now apply (h_reset st0)|now left]. }
    rewrite may_kfeed, spec_kfeed, n_feed. intros [W M]. cbn [treats_alike ignored] in *.
    destruct (rd p) as [x|] eqn:X.
    2:{ exists c. rewrite h_skip by assumption. split; [reflexivity|]. now left. }
    specialize (L x eq_refl). destruct (a_step dec max st x) as [st' e] eqn:S.
    destruct e as [|e l].
    - destruct (h_quiet (fun c => ncalls c during) st0 c p x I W X) as (c' & E1 & I'); [now rewrite L|].
      exists c'. split; [exact E1|]. right. split; [easy|]. exists st'. rewrite L in I'. auto.
    - destruct (step_delivers _ _ _ _ S ltac:(discriminate)) as (-> & v & [= -> ->]).
      destruct (M ltac:(discriminate)) as (A & B & N).
      destruct (h_loud (fun c => ncalls c during) st0 c p x (v, ct_stream x) I W X) as (b & i & c' & I' & ->); [now rewrite L|].
      destruct (callback_ok during K (ct_format x =? 3) b i c' I' B A) as (st2 & c2 & -> & I2). cbn [bind fst snd].
      exists (reset c2). split; [reflexivity|]. right. split; [easy|]. exists a_idle. split; [now apply (h_reset st2)|].
      right. split; [now split|exact N].
  Qed.

  Lemma collect_refine ks st c : inv st c -> all_may_collect rd dec max st ks ->
    exists c', ncalls c ks = Ok (c', map ev (snd (collect_specs rd dec max st ks))).
  Proof.
    intros I A. destruct (collects_ok ks) with (st := st) (c := c) as (c' & E1 & _); trivial.
    - apply Forall_forall. intros. apply every_collect_ok.
    - exists st. auto.
    - now exists c'.
  Qed.

  (* after feed() has returned *)
  Definition after_collect_ok (k : nested_collect) : Prop := forall st c, inv st c -> may_collect rd dec max st k ->
    exists c', collect_afterwards_step feed reset c k = Ok (c', map ev (snd (collect_spec rd dec max st k))) /\
      inv (fst (collect_spec rd dec max st k)) c'.

  Lemma afters_collect_ok ks : Forall after_collect_ok ks -> forall st c, inv st c -> all_may_collect rd dec max st ks ->
    exists c', collect_afterwards feed reset c ks = Ok (c', map ev (snd (collect_specs rd dec max st ks))) /\
      inv (fst (collect_specs rd dec max st ks)) c'.
  Proof.
    induction 1 as [|k ks K _ IH]; intros st c I A.
    { now exists c. }
    destruct A as [A1 A2]. destruct (K st c I A1) as (c1 & E1 & I1). cbn [collect_afterwards]. rewrite E1. cbn [bind fst snd].
    destruct (IH _ _ I1 A2) as (c2 & E2 & I2). rewrite E2. cbn [bind fst snd]. exists c2. split; [|exact I2].
    cbn [collect_specs fst snd]. now rewrite map_app.
  Qed.

  Lemma after_kfeed c p during : collect_afterwards_step feed reset c (KNFeed p during) =
    bind (feed c p) (fun r => match snd r with
      | [] => Ok r
      | out => bind (collect_afterwards feed reset (fst r) during) (fun r' => Ok (fst r', out ++ snd r'))
      end).
  Proof. reflexivity. Qed.

  Lemma every_after_collect_ok k : after_collect_ok k.
  Proof.
    induction k as [p during K|] using collect_ind; intros st c I.
    2:{ intros _. exists (reset c). split; [reflexivity|]. now apply (h_reset st). }
    rewrite may_kfeed, spec_kfeed, after_kfeed. intros [W M].
    destruct (rd p) as [x|] eqn:X.
    2:{ exists c. rewrite h_feed_skip by assumption. now split. }
    destruct (h_feed st c p x I W X) as (c1 & -> & I1). cbn [bind fst snd].
    destruct (a_step dec max st x) as [st' e] eqn:S. cbn [fst snd] in *.
    destruct e as [|e l]; cbn [map].
    - exists c1. now split.
    - destruct (M ltac:(discriminate)) as (A & B & N).
      destruct (afters_collect_ok during K st' c1 I1 A) as (c2 & -> & I2). cbn [bind fst snd].
      exists c2. split; [|exact I2]. cbn [app map]. now rewrite map_app.
  Qed.

  Lemma collect_afterwards_refine ks st c : inv st c -> all_may_collect rd dec max st ks ->
    exists c', collect_afterwards feed reset c ks = Ok (c', map ev (snd (collect_specs rd dec max st ks))).
  Proof.
    intros I A. destruct (afters_collect_ok ks) with (st := st) (c := c) as (c' & E1 & _); trivial.
    - apply Forall_forall. intros. apply every_after_collect_ok.
    - now exists c'.
  Qed.
End Specs.

(* ---- sysex7_collector ---------------------------------------------------------------------------------- *)

(* feed() with what follows the last byte of a message as argument *)
Definition c7_feed_gen (a : allocator) (last : collector7 -> result7) (c : collector7) (p : packet) : result7 :=
  if negb (is_sysex7_packet p) then Ok (c, [])
  else
    let st := Z.land (status p) 0xF0 in
    let opening := (st =? 0x00) || (st =? 0x10) in
    if negb opening && negb (c7_state c =? 0x20) then Ok (c7_reset a c, [])
    else
      let c := if opening && negb (c7_state c =? 0x10) then c7_reset a c else c in
      let num := sysex7_payload_size p in
      let '(cap, room) := make_room a (size (sx_data (c7_sysex c))) (c7_capacity c) (c7_max c) (Z.of_nat num) in
      if negb room then
        Ok (mkC7 (c7_sysex c) cap (c7_max c) 0x10 (c7_id_bytes c) (c7_has_cb c), [])
      else
        r <- c7_bytes p 0 num (c7_sysex c) (c7_id_bytes c) ;;
        let '(s, idr) := r in
        if (st =? 0x00) || (st =? 0x30) then last (mkC7 s cap (c7_max c) (c7_state c) idr (c7_has_cb c))
        else Ok (mkC7 s cap (c7_max c) 0x20 idr (c7_has_cb c), []).

Lemma c7_feed_in_gen a run c p : c7_feed_in a run c p = c7_feed_gen a (fun c =>
  r <- (if c7_has_cb c then r <- run c ;; Ok (fst r, c7_sysex c :: snd r) else Ok (c, [])) ;; Ok (c7_reset a (fst r), snd r)) c p.
Proof. reflexivity. Qed.

Lemma feed7_gen_quiet a max last st c p x : limit_alloc a max -> inv7 max true st c -> wf_packet p -> content7 p = Some x ->
  snd (a_step decode7 max st x) = [] ->
  exists c', c7_feed_gen a last c p = Ok (c', []) /\ inv7 max true (fst (a_step decode7 max st x)) c'.
Proof.
  intros A I W X Q. destruct (feed7_step a max true st c p x A I W X) as (c' & E & I'). rewrite Q in E. cbn [map] in E.
  exists c'. split; [|exact I']. rewrite <- E. unfold c7_feed in E. unfold c7_feed, c7_feed_gen.
  destruct (negb (is_sysex7_packet p)); [reflexivity|]. cbv zeta in *.
  destruct (negb _ && negb _); [reflexivity|]. set (c1 := if _ && _ then c7_reset a c else c) in *.
  destruct (make_room _ _ _ _ _) as [cap room]. destruct (negb room); [reflexivity|].
  destruct (c7_bytes _ _ _ _ _) as [[s idr]|f]; [|reflexivity]. cbn [bind] in *.
  match goal with |- (if ?b then _ else _) = _ => destruct b end; [|reflexivity]. cbn [c7_has_cb] in *.
  assert (CB : c7_has_cb c1 = true).
  { unfold c1. destruct (_ && _); [|apply (i7_cb _ _ _ _ I)]. cbn. apply (i7_cb _ _ _ _ I). }
  rewrite CB in *. discriminate.
Qed.

Lemma feed7_gen_loud a max last st c p x e : limit_alloc a max -> inv7 max true st c -> wf_packet p -> content7 p = Some x ->
  snd (a_step decode7 max st x) = [e] ->
  exists b i c', inv7 max true (mkA b (ct_format x =? 3) i) c' /\
    c7_has_cb c' = true /\ c7_sysex c' = fst e /\ c7_feed_gen a last c p = last c'.
Proof.
  intros A I W X Q. destruct (content7_some p x W X) as (IS & ST & F & SID & NUM & PL & SZ).
  unfold c7_feed_gen. rewrite IS, ST. cbn [negb]. unfold a_step in Q. rewrite SID in Q.
  replace ((ct_format x * 16 =? 0) || (ct_format x * 16 =? 16)) with (ct_format x <? 2) by lia.
  set (opening := ct_format x <? 2) in *. cbv zeta.
  rewrite (i7_state _ _ _ _ I).
  replace (negb ((if a_open st then 32 else 16) =? 32)) with (negb (a_open st)) by now destruct (a_open st).
  destruct (negb opening && negb (a_open st)) eqn:E1; [discriminate|].
  destruct (negb opening && negb (0 =? a_stream st)); [discriminate|].
  replace (negb ((if a_open st then 32 else 16) =? 16)) with (a_open st) by now destruct (a_open st).
  set (base := if opening && a_open st then [] else a_bytes st) in *.
  set (c1 := if opening && a_open st then c7_reset a c else c).
  assert (I1 : exists st1, a_bytes st1 = base /\ a_open st1 = negb opening /\ inv7 max true st1 c1).
  { unfold base, c1. destruct (opening && a_open st) eqn:E0.
    - exists (mkA [] false 0). destruct opening; [|discriminate]. split; [reflexivity|]. split; [reflexivity|]. now apply (inv7_reset a max true st c).
    - exists st. split; [reflexivity|]. split; [|exact I]. destruct opening, (a_open st); cbn in *; congruence. }
  destruct I1 as (st1 & B1 & O1 & I1).
  rewrite (i7_sysex _ _ _ _ I1), (i7_max _ _ _ _ I1), (i7_id _ _ _ _ I1), (i7_cb _ _ _ _ I1), B1.
  destruct (make_room_spec a max (size (sx_data (decode7 base))) (c7_capacity c1) (Z.of_nat (sysex7_payload_size p)) A)
    as (cap & MR & K1 & K2); [rewrite <- B1; apply (i7_cap _ _ _ _ I1)|lia|].
  rewrite MR. unfold data_size in Q. rewrite SZ in Q.
  destruct ((0 <? max) && _) eqn:E2; cbn [negb]; [discriminate|].
  rewrite c7_bytes_spec by lia. cbn [bind Nat.add]. rewrite <- PL.
  specialize (K2 eq_refl). rewrite <- SZ in K2.
  assert (K3 : cap_ok max (size (sx_data (decode7 (base ++ ct_payload x)))) cap).
  { destruct K2 as [K2 K2']. split; [|assumption]. pose proof (decode7_size base (ct_payload x)).
    pose proof (size_nonneg (sx_data (decode7 (base ++ ct_payload x)))). lia. }
  replace ((ct_format x * 16 =? 0) || (ct_format x * 16 =? 48)) with ((ct_format x =? 0) || (ct_format x =? 3)) by lia.
  destruct ((ct_format x =? 0) || (ct_format x =? 3)) eqn:E3; [|discriminate].
  injection Q as <-. cbn [fst c7_has_cb].
  exists (base ++ ct_payload x), 0, (mkC7 (decode7 (base ++ ct_payload x)) cap max (c7_state c1) (id_count (base ++ ct_payload x)) true). split.
  - constructor; cbn; trivial. rewrite (i7_state _ _ _ _ I1), O1. unfold opening.
    destruct (Z.eqb_spec (ct_format x) 3) as [->|]; [reflexivity|]. now replace (ct_format x) with 0 by lia.
  - repeat split.
Qed.

Lemma collect7_like_afterwards a max ks : limit_alloc a max -> all_may_collect content7 decode7 max a_idle ks ->
  exists c1 c2 out, nested7_calls a (c7_set_max a (new_collector7 true) max) ks = Ok (c1, out) /\
    collect_afterwards (c7_feed a) (c7_reset a) (c7_set_max a (new_collector7 true) max) ks = Ok (c2, out).
Proof.
  intros A M. assert (I := inv7_new a max true A).
  destruct (collect_refine content7 decode7 max (nested7_step a) (nested7_calls a) (c7_feed_in a) (c7_reset a) (inv7 max true) fst)
    with (ks := ks) (st := a_idle) (c := c7_set_max a (new_collector7 true) max) as (c1 & E1); trivial.
  - intros st c J. exact (inv7_reset a max true st c 0 A J).
  - intros run c p W X. unfold c7_feed_in. now rewrite (content7_none p W X).
  - intros run st c p x J W X Q. rewrite c7_feed_in_gen. exact (feed7_gen_quiet a max _ st c p x A J W X Q).
  - intros run st c p x e J W X Q. rewrite c7_feed_in_gen.
    destruct (feed7_gen_loud a max (fun c => r <- (if c7_has_cb c then r <- run c ;; Ok (fst r, c7_sysex c :: snd r) else Ok (c, [])) ;;
      Ok (c7_reset a (fst r), snd r)) st c p x e A J W X Q) as (b & i & c' & J' & CB & <- & ->).
    exists b, i, c'. split; [exact J'|]. rewrite CB. destruct (run c') as [[c2 o]|f]; reflexivity.
  - destruct (collect_afterwards_refine content7 decode7 max (c7_feed a) (c7_reset a) (inv7 max true) fst)
      with (ks := ks) (st := a_idle) (c := c7_set_max a (new_collector7 true) max) as (c2 & E2); trivial.
    + intros st c J. exact (inv7_reset a max true st c 0 A J).
    + intros st c p x J W X. exact (feed7_step a max true st c p x A J W X).
    + intros. now apply feed7_skip.
    + now exists c1, c2, (map fst (snd (collect_specs content7 decode7 max a_idle ks))).
Qed.

(* ---- sysex8_collector ---------------------------------------------------------------------------------- *)

Definition c8_feed_gen (a : allocator) (last : collector8 -> result8) (c : collector8) (p : packet) : result8 :=
  if negb (is_sysex8_packet p) then Ok (c, [])
  else
    let fmt := sysex8_format p in
    sid <- sysex8_stream_id p ;;
    let opening := (fmt =? 0) || (fmt =? 1) in
    if negb opening && negb (c8_state c =? 2) then Ok (c8_reset a c, [])
    else if negb opening && negb (sid =? c8_stream c) then Ok (c, [])
    else
      let c := if opening && negb (c8_state c =? 1) then c8_reset a c else c in
      let stream := if opening then sid else c8_stream c in
      let num := sysex8_payload_size p in
      let '(cap, room) := make_room a (size (sx_data (c8_sysex c))) (c8_capacity c) (c8_max c) (Z.of_nat num) in
      if negb room then
        Ok (mkC8 stream (c8_sysex c) cap (c8_max c) 1 (c8_id_state c) (c8_has_cb c), [])
      else
        r <- c8_bytes p 0 num (c8_sysex c) (c8_id_state c) ;;
        let '(s, ids) := r in
        if (fmt =? 0) || (fmt =? 3) then last (mkC8 stream s cap (c8_max c) (c8_state c) ids (c8_has_cb c))
        else Ok (mkC8 stream s cap (c8_max c) 2 ids (c8_has_cb c), []).

Lemma c8_feed_in_gen a run c p : c8_feed_in a run c p = c8_feed_gen a (fun c =>
  r <- (if c8_has_cb c then r <- run c ;; Ok (fst r, (c8_sysex c, c8_stream c) :: snd r) else Ok (c, [])) ;; Ok (c8_reset a (fst r), snd r)) c p.
Proof. reflexivity. Qed.

Lemma feed8_gen_quiet a max last st c p x : limit_alloc a max -> inv8 max true st c -> wf_packet p -> content8 p = Some x ->
  snd (a_step decode8 max st x) = [] ->
  exists c', c8_feed_gen a last c p = Ok (c', []) /\ inv8 max true (fst (a_step decode8 max st x)) c'.
Proof.
  intros A I W X Q. destruct (feed8_step a max true st c p x A I W X) as (c' & E & I'). rewrite Q in E.
  exists c'. split; [|exact I']. rewrite <- E. unfold c8_feed in E. unfold c8_feed, c8_feed_gen.
  destruct (negb (is_sysex8_packet p)); [reflexivity|]. cbv zeta in *.
  destruct (sysex8_stream_id p) as [sid|f]; [|reflexivity]. cbn [bind] in *.
  destruct (negb _ && negb _); [reflexivity|].
  destruct (negb _ && negb _); [reflexivity|]. set (c1 := if _ && _ then c8_reset a c else c) in *.
  destruct (make_room _ _ _ _ _) as [cap room]. destruct (negb room); [reflexivity|].
  destruct (c8_bytes _ _ _ _ _) as [[s idr]|f]; [|reflexivity]. cbn [bind] in *.
  match goal with |- (if ?b then _ else _) = _ => destruct b end; [|reflexivity]. cbn [c8_has_cb] in *.
  assert (CB : c8_has_cb c1 = true).
  { unfold c1. destruct (_ && _); [|apply (i8_cb _ _ _ _ I)]. cbn. apply (i8_cb _ _ _ _ I). }
  rewrite CB in *. discriminate.
Qed.

Lemma feed8_gen_loud a max last st c p x e : limit_alloc a max -> inv8 max true st c -> wf_packet p -> content8 p = Some x ->
  snd (a_step decode8 max st x) = [e] ->
  exists b i c', inv8 max true (mkA b (ct_format x =? 3) i) c' /\
    c8_has_cb c' = true /\ (c8_sysex c', c8_stream c') = e /\ c8_feed_gen a last c p = last c'.
Proof.
  intros A I W X Q. destruct (content8_some p x W X) as (IS & ST & F & SID & NUM & PL & SZ).
  unfold c8_feed_gen. rewrite IS, ST, SID. cbn [negb bind]. unfold a_step in Q.
  replace ((ct_format x =? 0) || (ct_format x =? 1)) with (ct_format x <? 2) by lia.
  set (opening := ct_format x <? 2) in *. cbv zeta.
  rewrite (i8_state _ _ _ _ I). rewrite (i8_stream _ _ _ _ I) in Q.
  replace (negb ((if a_open st then 2 else 1) =? 2)) with (negb (a_open st)) by now destruct (a_open st).
  destruct (negb opening && negb (a_open st)) eqn:E1; [discriminate|].
  destruct (negb opening && negb (ct_stream x =? c8_stream c)) eqn:E0; [discriminate|].
  replace (negb ((if a_open st then 2 else 1) =? 1)) with (a_open st) by now destruct (a_open st).
  set (base := if opening && a_open st then [] else a_bytes st) in *.
  set (c1 := if opening && a_open st then c8_reset a c else c).
  assert (I1 : exists st1, a_bytes st1 = base /\ a_open st1 = negb opening /\ inv8 max true st1 c1).
  { unfold base, c1. destruct (opening && a_open st) eqn:E4.
    - exists a_idle. destruct opening; [|discriminate]. split; [reflexivity|]. split; [reflexivity|]. now apply (inv8_reset a max true st c).
    - exists st. split; [reflexivity|]. split; [|exact I]. destruct opening, (a_open st); cbn in *; congruence. }
  assert (SS : (if opening then ct_stream x else c8_stream c1) = ct_stream x).
  { unfold c1. destruct opening; [reflexivity|]. cbn [negb andb] in *. lia. }
  rewrite SS. destruct I1 as (st1 & B1 & O1 & I1).
  rewrite (i8_sysex _ _ _ _ I1), (i8_max _ _ _ _ I1), (i8_id _ _ _ _ I1), (i8_cb _ _ _ _ I1), B1.
  destruct (make_room_spec a max (size (sx_data (decode8 base))) (c8_capacity c1) (Z.of_nat (sysex8_payload_size p)) A)
    as (cap & MR & K1 & K2); [rewrite <- B1; apply (i8_cap _ _ _ _ I1)|lia|].
  assert (BU : Forall is_u8 base) by (rewrite <- B1; apply (i8_u8 _ _ _ _ I1)).
  rewrite MR. unfold data_size in Q. rewrite SZ in Q.
  destruct ((0 <? max) && _) eqn:E2; cbn [negb]; [discriminate|].
  rewrite c8_bytes_spec by (trivial; lia). cbn [bind Nat.add]. rewrite <- PL.
  specialize (K2 eq_refl). rewrite <- SZ in K2.
  assert (K3 : cap_ok max (size (sx_data (decode8 (base ++ ct_payload x)))) cap).
  { destruct K2 as [K2 K2']. split; [|assumption]. pose proof (decode8_size base (ct_payload x)).
    pose proof (size_nonneg (sx_data (decode8 (base ++ ct_payload x)))). lia. }
  assert (PU : Forall is_u8 (base ++ ct_payload x)).
  { apply Forall_app; split; trivial. rewrite PL. apply Forall_firstn, Forall_skipn, bytes_range. }
  destruct ((ct_format x =? 0) || (ct_format x =? 3)) eqn:E3; [|discriminate].
  injection Q as <-. cbn [c8_has_cb].
  exists (base ++ ct_payload x), (ct_stream x), (mkC8 (ct_stream x) (decode8 (base ++ ct_payload x)) cap max (c8_state c1) (id_state8 (base ++ ct_payload x)) true). split.
  - constructor; cbn; trivial. rewrite (i8_state _ _ _ _ I1), O1. unfold opening.
    destruct (Z.eqb_spec (ct_format x) 3) as [->|]; [reflexivity|]. now replace (ct_format x) with 0 by lia.
  - repeat split.
Qed.

Lemma collect8_like_afterwards a max ks : limit_alloc a max -> all_may_collect content8 decode8 max a_idle ks ->
  exists c1 c2 out, nested8_calls a (c8_set_max a (new_collector8 true) max) ks = Ok (c1, out) /\
    collect_afterwards (c8_feed a) (c8_reset a) (c8_set_max a (new_collector8 true) max) ks = Ok (c2, out).
Proof.
  intros A M. assert (I := inv8_new a max true A).
  destruct (collect_refine content8 decode8 max (nested8_step a) (nested8_calls a) (c8_feed_in a) (c8_reset a) (inv8 max true) (fun e => e))
    with (ks := ks) (st := a_idle) (c := c8_set_max a (new_collector8 true) max) as (c1 & E1); trivial.
  - intros st c J. exact (inv8_reset a max true st c A J).
  - intros run c p W X. unfold c8_feed_in. now rewrite (content8_none p W X).
  - intros run st c p x J W X Q. rewrite c8_feed_in_gen. exact (feed8_gen_quiet a max _ st c p x A J W X Q).
  - intros run st c p x e J W X Q. rewrite c8_feed_in_gen.
    destruct (feed8_gen_loud a max (fun c => r <- (if c8_has_cb c then r <- run c ;; Ok (fst r, (c8_sysex c, c8_stream c) :: snd r) else Ok (c, [])) ;;
      Ok (c8_reset a (fst r), snd r)) st c p x e A J W X Q) as (b & i & c' & J' & CB & <- & ->).
    exists b, i, c'. split; [exact J'|]. rewrite CB. destruct (run c') as [[c2 o]|f]; reflexivity.
  - destruct (collect_afterwards_refine content8 decode8 max (c8_feed a) (c8_reset a) (inv8 max true) (fun e => e))
      with (ks := ks) (st := a_idle) (c := c8_set_max a (new_collector8 true) max) as (c2 & E2); trivial.
    + intros st c J. exact (inv8_reset a max true st c A J).
    + intros st c p x J W X. destruct (feed8_step a max true st c p x A J W X) as (c' & E & I'). exists c'. now rewrite map_id.
    + intros. now apply feed8_skip.
    + now exists c1, c2, (map (fun e => e) (snd (collect_specs content8 decode8 max a_idle ks))).
Qed.

(* callbacks that make no calls *)
Lemma c7_feed_idle a c p : c7_feed_in a (fun c => Ok (c, [])) c p = c7_feed a c p.
Proof.
  unfold c7_feed, c7_feed_in. destruct (negb (is_sysex7_packet p)); [reflexivity|]. cbv zeta.
  destruct (negb _ && negb _); [reflexivity|]. set (c1 := if _ && _ then c7_reset a c else c).
  destruct (make_room _ _ _ _ _) as [cap room]. destruct (negb room); [reflexivity|].
  destruct (c7_bytes _ _ _ _ _) as [[s idr]|f]; [|reflexivity]. cbn [bind].
  match goal with |- (if ?b then _ else _) = _ => destruct b end; [|reflexivity]. cbn [c7_has_cb bind].
  destruct (c7_has_cb c1); reflexivity.
Qed.
Lemma c8_feed_idle a c p : c8_feed_in a (fun c => Ok (c, [])) c p = c8_feed a c p.
Proof.
  unfold c8_feed, c8_feed_in. destruct (negb (is_sysex8_packet p)); [reflexivity|]. cbv zeta.
  destruct (sysex8_stream_id p) as [sid|f]; [|reflexivity]. cbn [bind].
  destruct (negb _ && negb _); [reflexivity|].
  destruct (negb _ && negb _); [reflexivity|]. set (c1 := if _ && _ then c8_reset a c else c).
  destruct (make_room _ _ _ _ _) as [cap room]. destruct (negb room); [reflexivity|].
  destruct (c8_bytes _ _ _ _ _) as [[s idr]|f]; [|reflexivity]. cbn [bind].
  match goal with |- (if ?b then _ else _) = _ => destruct b end; [|reflexivity]. cbn [c8_has_cb bind].
  destruct (c8_has_cb c1); reflexivity.
Qed.

Lemma nested7_plain a ps : forall c, nested7_calls a c (map (fun p => KNFeed p []) ps) = c7_calls a c (map KFeed ps).
Proof.
  induction ps as [|p ps IH]; intros c; [reflexivity|].
  change (nested7_calls a c (map (fun p => KNFeed p []) (p :: ps))) with
    (r <- c7_feed_in a (fun c => Ok (c, [])) c p ;; r' <- nested7_calls a (fst r) (map (fun p => KNFeed p []) ps) ;; Ok (fst r', snd r ++ snd r')).
  rewrite c7_feed_idle. cbn [map c7_calls c7_call]. destruct (c7_feed a c p) as [[c1 o]|f]; [|reflexivity]. cbn [bind fst snd].
  rewrite IH. destruct (c7_calls a c1 _) as [[c2 o2]|f]; reflexivity.
Qed.
Lemma nested8_plain a ps : forall c, nested8_calls a c (map (fun p => KNFeed p []) ps) = c8_calls a c (map KFeed ps).
Proof.
  induction ps as [|p ps IH]; intros c; [reflexivity|].
  change (nested8_calls a c (map (fun p => KNFeed p []) (p :: ps))) with
    (r <- c8_feed_in a (fun c => Ok (c, [])) c p ;; r' <- nested8_calls a (fst r) (map (fun p => KNFeed p []) ps) ;; Ok (fst r', snd r ++ snd r')).
  rewrite c8_feed_idle. cbn [map c8_calls c8_call]. destruct (c8_feed a c p) as [[c1 o]|f]; [|reflexivity]. cbn [bind fst snd].
  rewrite IH. destruct (c8_calls a c1 _) as [[c2 o2]|f]; reflexivity.
Qed.
