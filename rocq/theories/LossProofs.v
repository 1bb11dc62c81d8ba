(* Lemmas about damaged and lost traffic *)
From Coq Require Import ZArith List Bool Lia ZifyBool ZifyNat.
From Verif Require Import Base Bits Packet PacketSpec PacketProofs PacketBytes Messages Sysex Collector ByteStream
  StreamSpec StreamProofs StreamLemmas StreamBytes StreamCalls CollectSpec CollectProofs CollectLemmas SendProofs CollectCalls
  ManySpec ManyProofs SessionSpec SessionProofs MergeSpec MergeProofs PortsSpec LossSpec.
Import ListNotations.
Local Open Scope Z_scope.
Local Open Scope res_scope.

(* ---- lists ------------------------------------------------------------------------------------ *)

Lemma sub_refl {A} (l : list A) : sublist l l.
Proof. induction l; constructor; assumption. Qed.
Lemma sub_none {A} (l : list A) : sublist [] l.
Proof. induction l; constructor; assumption. Qed.
Lemma sub_app {A} (a b c d : list A) : sublist a b -> sublist c d -> sublist (a ++ c) (b ++ d).
Proof. induction 1; intros E; cbn [app]; try constructor; auto. Qed.
Lemma sub_trans {A} (b c : list A) : sublist b c -> forall a, sublist a b -> sublist a c.
Proof.
  induction 1 as [|x b c S IH|x b c S IH]; intros a H; [exact H| |constructor; auto].
  inversion H; subst; constructor; auto.
Qed.
Lemma sub_in {A} (a b : list A) : sublist a b -> forall x, In x a -> In x b.
Proof. induction 1; intros y Y; cbn [In] in *; [exact Y| |auto]. destruct Y; auto. Qed.
Lemma sub_forall {A} (P : A -> Prop) a b : sublist a b -> Forall P b -> Forall P a.
Proof. intros S. rewrite !Forall_forall. intros F x X. apply F. eapply sub_in; eauto. Qed.
Lemma sub_contents rd a b : sublist a b -> sublist (contents rd a) (contents rd b).
Proof. induction 1 as [|p a b S IH|p a b S IH]; cbn [contents]; [constructor| |]; destruct (rd p); try constructor; assumption. Qed.
Lemma sub_snoc {A} (z : A) b : forall a, sublist a (b ++ [z]) -> sublist a b \/ exists a', a = a' ++ [z] /\ sublist a' b.
Proof.
  induction b as [|y b IH]; intros a S; cbn [app] in S.
  - inversion S; subst.
    + right. exists []. split; [|constructor]. match goal with H : sublist _ [] |- _ => inversion H end. reflexivity.
    + left. assumption.
  - inversion S; subst.
    + match goal with H : sublist _ (b ++ [z]) |- _ => destruct (IH _ H) as [H'|(a' & -> & H')] end.
      * left. now constructor.
      * right. exists (y :: a'). split; [reflexivity|]. now constructor.
    + match goal with H : sublist _ (b ++ [z]) |- _ => destruct (IH _ H) as [H'|(a' & -> & H')] end.
      * left. now constructor.
      * right. exists a'. split; [reflexivity|]. now constructor.
Qed.

Lemma packets_of_app a b : packets_of (a ++ b) = packets_of a ++ packets_of b.
Proof. unfold packets_of. now rewrite map_app, concat_app. Qed.

(* ---- MIDI 1 bytes ------------------------------------------------------------------------------- *)

Lemma cable_outputs_cb g rs ms bs : 0 <= g < 16 -> cable rs ms bs -> forall h, running_ok rs h ->
  outputs true g h bs = concat (map (reported g) ms).
Proof.
  intros G. induction 1 as [rs|rs m ms bs V C IH|m ms bs V CV C IH|rs ds ms bs N U C IH]; intros h OK; cbn [map concat reported].
  - reflexivity.
  - destruct (annotate_full true g m h V) as (A & B & X). change (ms_status m :: ms_data m ++ bs) with ((ms_status m :: ms_data m) ++ bs).
    assert (OE := annotates_outputs _ _ _ _ A). rewrite B in OE.
    rewrite outputs_app, OE, IH.
    { f_equal. unfold render_full. destruct (ms_data m) as [|a l]; [reflexivity|].
      cbn [map concat snd app]. apply annotate_data_events. }
    unfold running_ok. destruct (is_cv m) eqn:CV; [|exact I]. exists (ms_data m). split; [assumption|].
    destruct V as [[[_ L]|L] _]; [|apply sc_len_range in L; unfold is_cv in CV; lia].
    rewrite L. apply Nat.mod_same. unfold cv_len; destruct (_ && _); lia.
  - destruct OK as (ds & X & M). unfold is_cv in CV. pose proof (valid_message_status m V) as [Hs NS].
    assert (L : length (ms_data m) = cv_len (ms_status m)).
    { destruct (valid_message_cases m V) as [[_ L]|L]; [assumption|apply sc_len_range in L; lia]. }
    destruct (annotate_message true g (ms_status m) ds (ms_data m) ltac:(lia)) with (h := h) as [A B]; trivial.
    { left. repeat split; trivial; lia. } { apply V. }
    assert (OE := annotates_outputs _ _ _ _ A). rewrite annotate_data_fst in OE. rewrite outputs_app, OE, IH.
    { f_equal. destruct (ms_data m) as [|a l].
      { unfold cv_len in L. cbn in L. destruct (_ && _); discriminate. }
      apply annotate_data_events. }
    exists (ds ++ ms_data m). split; [assumption|]. rewrite app_length, L.
    rewrite <- Nat.add_mod_idemp_l, M by (unfold cv_len; destruct (_ && _); lia). apply Nat.mod_same. unfold cv_len; destruct (_ && _); lia.
  - replace (0xF0 :: ds ++ 0xF7 :: bs) with ((0xF0 :: ds ++ [0xF7]) ++ bs) by (cbn [app]; now rewrite <- app_assoc).
    rewrite outputs_app, outputs_sysex_cb by assumption. f_equal. now apply IH.
Qed.

Lemma intact_heard g cb st ms rts bs : reached g cb st -> on_cable ms rts bs ->
  exists st' ev, feed_all st bs = Ok (st', ev) /\ stretch_heard g cb (Intact ms rts bs) ev.
Proof.
  intros R (U & C & E0). assert (G := reached_group _ _ _ R).
  assert (F1 : filter not_rt bs = filter (fun b => b <? 0xF8) bs).
  { apply filter_ext. intros b. unfold not_rt, is_rt. lia. }
  destruct (resync g cb st bs R U) as (st' & E).
  { unfold starts_with_status. rewrite F1. now apply cable_starts in C. }
  exists st', (outputs cb g [] bs). split; [exact E|]. cbn [stretch_heard]. split.
  { rewrite (outputs_rt cb g bs G U [] I), E0. reflexivity. }
  destruct cb.
  - rewrite outputs_filter_rt, F1 by (trivial; exact I). now apply (cable_outputs_cb g None).
  - destruct (from_cable g st ms rts bs R (conj U (conj C E0))) as (st2 & ev & E2 & S). rewrite E in E2. injection E2 as _ <-. exact S.
Qed.

Lemma reached_next g cb st bs : reached g cb st -> Forall is_u8 bs ->
  exists st' ev, feed_all st bs = Ok (st', ev) /\ reached g cb st'.
Proof.
  intros (g0 & on0 & cs & o & G0 & V & E & EG & EO) B.
  destruct (calls_inv cb cs V g0 on0 None _ _ _ (cinv_new g0 cb on0 G0) E) as (c & I).
  rewrite EG, EO in I. destruct (cinv_bytes g cb true bs B c st I) as (st' & E' & I').
  exists st', (snd (bytes_outputs cb g true c bs)). split; [exact E'|].
  exists g0, on0, (cs ++ [CFeed bs]), (o ++ snd (bytes_outputs cb g true c bs)). split; [exact G0|].
  split; [apply Forall_app; split; [exact V|constructor; [exact B|constructor]]|].
  destruct I' as (_ & _ & (H1 & H2 & H3 & _)). split; [|auto].
  revert E E'. generalize (new_parser g0 cb on0). generalize (snd (bytes_outputs cb g true c bs)). clear.
  revert o. induction cs as [|k cs IH]; intros o o2 st0 E E'; cbn [app parser_calls] in *.
  - injection E as -> <-. cbn [parser_call_step]. rewrite E'. cbn [bind app]. now rewrite app_nil_r.
  - destruct (parser_call_step st0 k) as [[st1 o1]|]; cbn [bind] in *; [|discriminate].
    destruct (parser_calls st1 cs) as [[st3 o3]|] eqn:E3; cbn [bind] in *; [|discriminate].
    injection E as -> <-. rewrite (IH o3 o2 st1 E3 E'). cbn [bind]. now rewrite app_assoc.
Qed.

Lemma feed_parts bs : forall st st' o, feed_all st bs = Ok (st', o) -> forall bs', feed_all st (bs ++ bs') =
  (r <- feed_all st' bs' ;; Ok (fst r, o ++ snd r)).
Proof.
  induction bs as [|b bs IH]; intros st st' o E bs'; cbn [app feed_all] in *.
  - injection E as -> <-. now destruct (feed_all st' bs') as [[]|].
  - destruct (feed st b) as [[st1 o1]|]; cbn [bind] in *; [|discriminate].
    destruct (feed_all st1 bs) as [[st2 o2]|] eqn:E2; cbn [bind] in *; [|discriminate]. injection E as -> <-.
    rewrite (IH _ _ _ E2). destruct (feed_all st' bs') as [[st3 o3]|]; cbn [bind fst snd]; [|reflexivity]. now rewrite app_assoc.
Qed.

Theorem stretches g cb l : forall st, reached g cb st -> Forall stretch_ok l ->
  exists st' outs, feed_all st (concat (map stretch_bytes l)) = Ok (st', concat outs) /\ Forall2 (stretch_heard g cb) l outs.
Proof.
  induction l as [|s l IH]; intros st R F; cbn [map concat].
  - exists st, []. split; [reflexivity|constructor].
  - apply Forall_cons_iff in F as [F1 F2].
    assert (U : Forall is_u8 (stretch_bytes s)) by (destruct s; cbn [stretch_ok stretch_bytes] in *; [apply F1|exact F1]).
    destruct (reached_next g cb st _ R U) as (st1 & ev & E & R1).
    destruct (IH st1 R1 F2) as (st2 & outs & E2 & H2). exists st2, (ev :: outs).
    rewrite (feed_parts _ _ _ _ E), E2. cbn [bind fst snd concat]. split; [reflexivity|]. constructor; [|exact H2].
    destruct s as [ms rts bs|bs]; [|exact I]. destruct (intact_heard g cb st ms rts bs R F1) as (st3 & ev' & E3 & H3).
    cbn [stretch_bytes] in E. rewrite E in E3. injection E3 as _ <-. exact H3.
Qed.

(* ---- collecting with losses --------------------------------------------------------------------- *)

Lemma clean_run dec xs : forall st, a_clean st -> a_clean (fst (a_run dec 0 st xs)).
Proof. induction xs as [|x xs IH]; intros st C; cbn [a_run fst]; [exact C|]. now apply IH, a_step_clean. Qed.

Section Loss.
Variables (dec : list Z -> sysex) (idb : Z -> list Z) (rd : packet -> option content) (i : Z) (ids : Z -> Prop)
  (send : sysex -> res (list packet)).
Hypothesis D : forall id r, ids id -> dec (idb id ++ r) = mkSx id r.
Definition all_bytes (m : sysex) : list Z := idb (sx_id m) ++ sx_data m.

Definition tidy (st : astate) : Prop :=
  if a_open st then a_stream st = i /\ exists id r, ids id /\ a_bytes st = idb id ++ r else a_bytes st = [].
Definition piece (x : content) : Prop :=
  ct_stream x = i /\ 0 <= ct_format x < 4 /\ (ct_format x < 2 -> exists id r, ids id /\ ct_payload x = idb id ++ r).
Definition facts (m : sysex) (ps : list packet) (chunks : list (list Z)) : Prop :=
  send m = Ok ps /\ Forall wf_packet ps /\ chunks <> [] /\ contents rd ps = message_of i chunks /\
  contents rd (removelast ps) = removelast (message_of i chunks) /\ concat chunks = all_bytes m /\
  Forall piece (message_of i chunks).

Lemma step_lost st x : tidy st -> piece x ->
  tidy (fst (a_step dec 0 st x)) /\
  sublist (concat (map (fun v => all_bytes (fst v)) (snd (a_step dec 0 st x))) ++ a_bytes (fst (a_step dec 0 st x)))
    (a_bytes st ++ ct_payload x) /\
  Forall (fun v => snd v = i /\ ids (sx_id (fst v))) (snd (a_step dec 0 st x)).
Proof.
  intros T (X1 & X2 & X3). unfold a_step. change (0 <? 0) with false. cbn [andb].
  destruct (ct_format x <? 2) eqn:OP; cbn [negb andb].
  - assert (B : (if a_open st then [] else a_bytes st) = []) by (unfold tidy in T; now destruct (a_open st)). rewrite B. cbn [app].
    destruct X3 as (id & r & ID & PL); [lia|].
    destruct ((ct_format x =? 0) || (ct_format x =? 3)); cbn [fst snd map concat a_bytes].
    + split; [reflexivity|]. split.
      * rewrite !app_nil_r, PL, D by exact ID. unfold all_bytes. cbn [sx_id sx_data].
        change (idb id ++ r) with ([] ++ (idb id ++ r)) at 1. apply sub_app; [apply sub_none|apply sub_refl].
      * rewrite PL, D by exact ID. constructor; [|constructor]. cbn [fst snd sx_id]. auto.
    + split; [unfold tidy; cbn [a_open a_stream a_bytes]; eauto|]. split; [|constructor].
      apply (sub_app []); [apply sub_none|apply sub_refl].
  - unfold tidy in T. destruct (a_open st) eqn:O; cbn [negb].
    + destruct T as (T1 & id & r & ID & T2). rewrite X1, T1, Z.eqb_refl. cbn [negb].
      replace ((ct_format x =? 0) || (ct_format x =? 3)) with (ct_format x =? 3) by lia.
      rewrite T2. destruct (ct_format x =? 3); cbn [fst snd map concat a_bytes].
      * split; [reflexivity|]. rewrite <- !app_assoc, D by exact ID. unfold all_bytes. cbn [sx_id sx_data].
        split; [rewrite !app_nil_r; apply sub_refl|]. constructor; [|constructor]. cbn [fst snd sx_id]. auto.
      * split; [|split; [apply sub_refl|constructor]]. unfold tidy. cbn [a_open a_stream a_bytes]. rewrite <- app_assoc. eauto.
    + cbn [fst snd map concat a_bytes app]. split; [reflexivity|]. split; [apply sub_none|constructor].
Qed.

Lemma run_lost full xs : sublist xs full -> forall st, tidy st -> Forall piece full ->
  tidy (fst (a_run dec 0 st xs)) /\
  sublist (concat (map (fun v => all_bytes (fst v)) (snd (a_run dec 0 st xs))) ++ a_bytes (fst (a_run dec 0 st xs)))
    (a_bytes st ++ concat (map ct_payload full)) /\
  Forall (fun v => snd v = i /\ ids (sx_id (fst v))) (snd (a_run dec 0 st xs)).
Proof.
  induction 1 as [|x l m S IH|x l m S IH]; intros st T F; cbn [a_run fst snd map concat app].
  - rewrite app_nil_r. split; [exact T|]. split; [apply sub_refl|constructor].
  - apply Forall_cons_iff in F as [F1 F2]. destruct (step_lost st x T F1) as (T1 & S1 & I1).
    destruct (IH _ T1 F2) as (T2 & S2 & I2). split; [exact T2|]. split; [|apply Forall_app; auto].
    rewrite map_app, concat_app, <- app_assoc. eapply sub_trans; [|apply sub_app; [apply sub_refl|exact S2]].
    rewrite (app_assoc (a_bytes st)), (app_assoc (concat _)). apply sub_app; [exact S1|apply sub_refl].
  - apply Forall_cons_iff in F as [F1 F2]. destruct (IH _ T F2) as (T2 & S2 & I2). split; [exact T2|]. split; [|exact I2].
    eapply sub_trans; [|exact S2]. apply sub_app; [apply sub_refl|]. apply (sub_app []); [apply sub_none|apply sub_refl].
Qed.

Lemma tail_payload chunks : concat (map ct_payload (message_tail i chunks)) = concat chunks.
Proof.
  induction chunks as [|c [|c' rest] IH]; [reflexivity|reflexivity|].
  change (message_tail i (c :: c' :: rest)) with (mkCt 2 i c :: message_tail i (c' :: rest)). cbn [map concat ct_payload].
  now rewrite IH.
Qed.
Lemma message_payload chunks : concat (map ct_payload (message_of i chunks)) = concat chunks.
Proof.
  destruct chunks as [|c [|c' rest]]; [reflexivity|reflexivity|].
  change (message_of i (c :: c' :: rest)) with (mkCt 1 i c :: message_tail i (c' :: rest)). cbn [map concat ct_payload].
  now rewrite tail_payload.
Qed.

Lemma one_out st x : (length (snd (a_step dec 0 st x)) <= 1)%nat.
Proof. unfold a_step. change (0 <? 0) with false. cbn [andb]. destruct (_ && negb (a_open st)); [cbn; lia|]. destruct (_ && _); [cbn; lia|]. destruct (_ || _); cbn; lia. Qed.
Lemma at_most_one chunks ys st : chunks <> [] -> sublist ys (message_of i chunks) -> (length (snd (a_run dec 0 st ys)) <= 1)%nat.
Proof.
  intros N S. assert (NE : message_of i chunks <> []) by (destruct chunks as [|? []]; [congruence|discriminate|discriminate]).
  assert (M := app_removelast_last (mkCt 0 0 []) NE). rewrite M in S. assert (F := message_formats i chunks).
  destruct (sub_snoc _ _ _ S) as [S'|(a & -> & S')].
  - rewrite silent_formats by (eapply sub_forall; eauto). cbn. lia.
  - rewrite a_run_app. cbn [snd]. rewrite silent_formats by (eapply sub_forall; eauto). cbn [app a_run snd]. rewrite app_nil_r. apply one_out.
Qed.

Lemma lossy_run l : forall st, tidy st ->
  Forall (fun s => ids (sx_id (fst s)) /\ exists ps chunks, facts (fst s) ps chunks /\ sublist (snd s) ps) l ->
  let r := a_run dec 0 st (contents rd (concat (map snd l))) in
  Forall wf_packet (concat (map snd l)) /\
  exists outs, snd r = map (fun v => (v, i)) (concat outs) /\ Forall2 (lossy_heard send) l outs /\
    sublist (concat (map all_bytes (concat outs)) ++ a_bytes (fst r)) (a_bytes st ++ concat (map all_bytes (map fst l))) /\
    Forall (fun v => ids (sx_id v)) (concat outs).
Proof.
  induction l as [|[m qs] l IH]; intros st T F; cbn [map concat contents a_run fst snd].
  - split; [constructor|]. exists []. split; [reflexivity|]. split; [constructor|]. split; [cbn; rewrite app_nil_r; apply sub_refl|constructor].
  - apply Forall_cons_iff in F as [(ID & ps & chunks & (S & W & NE & C & CR & CC & P) & SU) F']. cbn [fst snd] in *.
    rewrite contents_app, a_run_app. cbn [fst snd]. set (r1 := a_run dec 0 st (contents rd qs)).
    assert (SC := sub_contents rd qs ps SU). rewrite C in SC.
    destruct (run_lost _ _ SC st T P) as (T1 & S1 & I1). fold r1 in T1, S1, I1.
    destruct (IH (fst r1) T1 F') as (W2 & outs & E2 & H2 & S2 & I2). set (r2 := a_run dec 0 (fst r1) _) in *.
    split; [apply Forall_app; split; [eapply sub_forall; eauto|exact W2]|].
    exists (map fst (snd r1) :: outs). cbn [concat]. rewrite map_app, E2. split.
    { f_equal. rewrite map_map. clear - I1. induction I1 as [|[v j] o [I _] _ IH]; [reflexivity|]. cbn [map fst snd] in *. now rewrite <- IH, I. }
    split.
    { constructor; [|exact H2]. split; [rewrite map_length; now apply (at_most_one chunks)|]. cbn [fst snd]. intros ps' S'.
      rewrite S in S'. injection S' as <-. split.
      - intros ->. unfold r1. rewrite C, message_fits; [|unfold a_clean, tidy in *; destruct (a_open st); auto|exact NE|auto].
        cbn [snd map fst]. rewrite CC. unfold all_bytes. rewrite D by exact ID. now destruct m.
      - intros Q. unfold r1. rewrite silent_formats; [reflexivity|]. eapply sub_forall; [|apply (message_formats i chunks)].
        rewrite <- CR. now apply sub_contents. }
    split.
    { rewrite map_app, concat_app, map_map, <- app_assoc. eapply sub_trans.
      2:{ apply sub_app; [apply sub_refl|exact S2]. }
      rewrite message_payload, CC in S1. cbn [map concat].
      rewrite (app_assoc (a_bytes st)), (app_assoc (concat _)). apply sub_app; [exact S1|apply sub_refl]. }
    apply Forall_app. split; [|exact I2]. apply Forall_forall. intros v V. apply in_map_iff in V as (x & <- & V).
    rewrite Forall_forall in I1. now apply I1.
Qed.

Lemma pieces_of k m chunks : (length (idb (sx_id m)) <= k)%nat -> ids (sx_id m) -> full_chunks k chunks ->
  concat chunks = all_bytes m -> Forall piece (message_of i chunks).
Proof.
  clear D dec send rd. intros L ID F C.
  assert (TP : forall cs, Forall piece (message_tail i cs)).
  { induction cs as [|c [|c' rest] IH]; [constructor| |].
    - constructor; [|constructor]. split; [reflexivity|]. cbn [ct_format]. split; lia.
    - change (message_tail i (c :: c' :: rest)) with (mkCt 2 i c :: message_tail i (c' :: rest)). constructor; [|exact IH].
      split; [reflexivity|]. cbn [ct_format]. split; lia. }
  destruct chunks as [|c [|c' rest]]; [constructor| |].
  - constructor; [|constructor]. split; [reflexivity|]. cbn [ct_format ct_payload]. split; [lia|]. intros _.
    cbn [concat] in C. rewrite app_nil_r in C. rewrite C. unfold all_bytes. eauto.
  - change (message_of i (c :: c' :: rest)) with (mkCt 1 i c :: message_tail i (c' :: rest)). constructor; [|apply TP].
    split; [reflexivity|]. cbn [ct_format ct_payload]. split; [lia|]. intros _.
    destruct (full_chunks_first k c (c' :: rest) F ltac:(discriminate)) as [_ E]. rewrite C in E. unfold all_bytes in E.
    rewrite firstn_app, firstn_all2 in E by exact L. eauto.
Qed.

(* a stretch of arbitrary packets *)
Lemma stretches_run t l : (forall p, wf_packet p -> w0 p / 268435456 <> t -> rd p = None) -> forall st, a_clean st ->
  Forall (packets_ok t send (fun m => ids (sx_id m) /\ forall ps, send m = Ok ps -> exists chunks, facts m ps chunks)) l ->
  Forall wf_packet (concat (map snd l)) /\
  exists outs, snd (a_run dec 0 st (contents rd (concat (map snd l)))) = concat outs /\
    Forall2 (packets_heard (fun m => (m, i))) l outs.
Proof.
  intros RT. induction l as [|[o qs] l IH]; intros st C F; cbn [map concat contents a_run snd].
  - split; [constructor|]. exists []. split; [reflexivity|constructor].
  - apply Forall_cons_iff in F as [F1 F2]. cbn [fst snd]. unfold packets_ok in F1. cbn [fst snd] in F1.
    destruct (IH (fst (a_run dec 0 st (contents rd qs))) (clean_run dec _ st C) F2) as (W & outs & E & H).
    rewrite contents_app, a_run_app. cbn [snd]. rewrite E. destruct o as [m|].
    + destruct F1 as ((ID & K) & ps & S & A). destruct (K ps S) as (chunks & (_ & W1 & NE & CT & _ & CC & _)).
      assert (X : contents rd qs = contents rd ps /\ Forall wf_packet qs).
      { clear - A W1 RT. induction A as [|p ps qs A IH|q ps qs Q N A IH].
        - split; constructor.
        - apply Forall_cons_iff in W1 as [P W1]. destruct (IH W1) as [I1 I2]. cbn [contents]. rewrite I1. split; [reflexivity|constructor; assumption].
        - destruct (IH W1) as [I1 I2]. cbn [contents]. rewrite RT; [|exact Q|intros E; apply N; left; auto]. split; [exact I1|constructor; assumption]. }
      destruct X as [X W2]. split; [apply Forall_app; auto|].
      exists ([(m, i)] :: outs). rewrite X, CT, message_fits by auto. cbn [snd concat app]. split.
      * f_equal. f_equal. rewrite CC. unfold all_bytes. rewrite D by exact ID. now destruct m.
      * constructor; [reflexivity|exact H].
    + split; [apply Forall_app; auto|]. eexists (_ :: outs). split; [reflexivity|]. constructor; [exact I|exact H].
Qed.
End Loss.

(* ---- SysEx7 and SysEx8 ---------------------------------------------------------------------------- *)

Lemma removelast_snoc {A} (l : list A) x : removelast (l ++ [x]) = l.
Proof. apply removelast_last. Qed.

Lemma facts7 g m ps (ids : Z -> Prop) : 0 <= g < 16 -> sendable7 m -> ids (sx_id m) -> send_sysex7 m g = Ok ps ->
  exists chunks, facts id_bytes content7 0 ids (fun m => send_sysex7 m g) m ps chunks.
Proof.
  intros G (V & NZ & U) ID S. destruct m as [id d]. cbn [sx_id sx_data] in *.
  destruct (send7_valid id d g V NZ (Forall_u7_u8 _ U) G) as (chunks & F & C & E). rewrite map_mod_id in C by assumption.
  rewrite S in E. injection E as ->.
  assert (OK : Forall (chunk_ok 6) chunks).
  { apply full_chunks_ok; [lia|assumption|]. rewrite C. apply Forall_u7_u8, Forall_app. split; [now apply id_bytes_u7|assumption]. }
  assert (NE : chunks <> []) by (intros ->; destruct F).
  destruct (contents7_sequence g chunks G OK) as [CT W]. exists chunks.
  split; [exact S|]. split; [exact W|]. split; [exact NE|]. split; [exact CT|]. split.
  { destruct (sequence7_snoc g chunks NE) as (qs & f & x & FF & X & ES). rewrite ES in *. rewrite removelast_snoc.
    rewrite <- CT, contents_app. cbn [contents]. rewrite Forall_forall in OK. destruct (OK x X).
    rewrite content7_packet by (trivial; lia). now rewrite removelast_snoc. }
  split; [exact C|]. apply (pieces_of id_bytes 0 ids 6 (mkSx id d)); trivial.
  cbn [sx_id]. unfold id_bytes. destruct (_ <=? _); cbn; lia.
Qed.

Lemma facts8 g i m ps (ids : Z -> Prop) : 0 <= g < 16 -> is_u8 i -> sendable8 m -> ids (sx_id m) -> send_sysex8 m i g = Ok ps ->
  exists chunks, facts id_bytes8 content8 i ids (fun m => send_sysex8 m i g) m ps chunks.
Proof.
  intros G I (V & U & M) ID S. destruct m as [id d]. cbn [sx_id sx_data] in *.
  destruct (send8_valid id d i g V U I G) as (c0 & rest & F & C & OK & E & _). specialize (E M).
  remember (c0 :: rest) as chunks eqn:CE. assert (NE : chunks <> []) by now subst. clear CE.
  rewrite S in E. injection E as ->.
  destruct (contents8_sequence g i chunks G I OK) as [CT W]. exists chunks.
  split; [exact S|]. split; [exact W|]. split; [exact NE|]. split; [exact CT|]. split.
  { destruct (sequence8_snoc g i chunks NE) as (qs & f & x & FF & X & ES). rewrite ES in *. rewrite removelast_snoc.
    rewrite <- CT, contents_app. cbn [contents]. rewrite Forall_forall in OK. destruct (OK x X).
    rewrite content8_packet by (trivial; lia). now rewrite removelast_snoc. }
  split; [exact C|]. apply (pieces_of id_bytes8 i ids 13 (mkSx id d)); trivial.
  cbn [sx_id]. rewrite id_bytes8_length. lia.
Qed.

Lemma first_byte p : wf_packet p -> nth 0 (bytes p) 0 / 16 = w0 p / 268435456.
Proof. intros W. rewrite <- type_byte, type_spec by exact W. destruct W as [W _]. unfold is_u32 in W. dlia. Qed.
Lemma other_type7 p : wf_packet p -> w0 p / 268435456 <> 3 -> content7 p = None.
Proof. intros W T. unfold content7. rewrite first_byte by exact W. replace (w0 p / 268435456 =? 3) with false by lia. reflexivity. Qed.
Lemma other_type8 p : wf_packet p -> w0 p / 268435456 <> 5 -> content8 p = None.
Proof. intros W T. unfold content8. rewrite first_byte by exact W. replace (w0 p / 268435456 =? 5) with false by lia. reflexivity. Qed.

Lemma Forall2_map_r {A B C} (R : A -> B -> Prop) (f : C -> B) l l' : Forall2 (fun x y => R x (f y)) l l' -> Forall2 R l (map f l').
Proof. induction 1; constructor; assumption. Qed.

Theorem damaged7 a c g l : std_alloc a -> reached7 a 0 c -> c7_has_cb c = true -> 0 <= g < 16 ->
  Forall (packets_ok 3 (fun m => send_sysex7 m g) sendable7) l ->
  exists c' outs, c7_calls a c (map KFeed (concat (map snd l))) = Ok (c', concat outs) /\
    Forall2 (packets_heard (fun m => m)) l outs.
Proof.
  intros A R CB G F. apply limit_std in A. destruct (reached7_inv a 0 c A R) as (st & I & CL).
  destruct (stretches_run decode7 id_bytes content7 0 valid_id (fun m => send_sysex7 m g) (fun id r V => decode7_bytes id r V) 3 l
    other_type7 st (CL eq_refl)) as (W & outs & E & H).
  { revert F. apply Forall_impl. intros [[m|] qs]; unfold packets_ok; cbn [fst snd]; [|auto]. intros (O & X). split; [|exact X].
    split; [apply O|]. intros ps S. apply (facts7 g m ps valid_id G O); [apply O|exact S]. }
  destruct (feeds7 a 0 _ st c _ A I W) as (c' & E' & _). rewrite CB, E in E'. exists c', (map (map fst) outs).
  rewrite E', concat_map. split; [reflexivity|]. clear - H. induction H as [|s o l outs H _ IH]; cbn [map]; [constructor|].
  constructor; [|exact IH]. unfold packets_heard in *. destruct (fst s); [now subst|exact I].
Qed.

Theorem damaged8 a c g i l : std_alloc a -> reached8 a 0 c -> c8_has_cb c = true -> 0 <= g < 16 -> is_u8 i ->
  Forall (packets_ok 5 (fun m => send_sysex8 m i g) sendable8) l ->
  exists c' outs, c8_calls a c (map KFeed (concat (map snd l))) = Ok (c', concat outs) /\
    Forall2 (packets_heard (fun m => (m, i))) l outs.
Proof.
  intros A R CB G B F. apply limit_std in A. destruct (reached8_inv a 0 c A R) as (st & I & CL).
  destruct (stretches_run decode8 id_bytes8 content8 i valid_id (fun m => send_sysex8 m i g) (fun id r V => decode8_bytes id r V) 5 l
    other_type8 st (CL eq_refl)) as (W & outs & E & H).
  { revert F. apply Forall_impl. intros [[m|] qs]; unfold packets_ok; cbn [fst snd]; [|auto]. intros (O & X). split; [|exact X].
    split; [apply O|]. intros ps S. apply (facts8 g i m ps valid_id G B O); [apply O|exact S]. }
  destruct (feeds8 a 0 _ st c _ A I W) as (c' & E' & _). rewrite CB, E in E'. exists c', outs. auto.
Qed.

Theorem lost7 a g l : std_alloc a -> 0 <= g < 16 -> Forall (lossy (fun m => send_sysex7 m g) sendable7) l ->
  exists c' outs, c7_calls a (new_collector7 true) (map KFeed (concat (map snd l))) = Ok (c', concat outs) /\
    Forall2 (lossy_heard (fun m => send_sysex7 m g)) l outs /\
    sublist (concat (map bytes7 (concat outs))) (concat (map bytes7 (map fst l))) /\
    Forall (fun v => In (sx_id v) (map (fun s => sx_id (fst s)) l)) (concat outs).
Proof.
  intros A G F. assert (A' := limit_std _ A).
  set (ids := fun id => valid_id id /\ In id (map (fun s : sysex * list packet => sx_id (fst s)) l)).
  destruct (lossy_run decode7 id_bytes content7 0 ids (fun m => send_sysex7 m g) (fun id r V => decode7_bytes id r (proj1 V)) l a_idle)
    as (W & outs & E & H & S & I).
  { reflexivity. }
  { apply Forall_forall. intros s X. rewrite Forall_forall in F. destruct (F s X) as (O & ps & S & SU).
    assert (ID : ids (sx_id (fst s))) by (split; [apply O|apply in_map_iff; eauto]). split; [exact ID|].
    destruct (facts7 g (fst s) ps ids G O ID S) as (chunks & FA). eauto. }
  destruct (feeds7 a 0 true a_idle (new_collector7 true) _ A' ltac:(apply (inv7_new a 0 true A')) W) as (c' & E' & _).
  rewrite E, map_map in E'. cbn [fst] in E'. rewrite map_id in E'. exists c', outs. split; [exact E'|]. split; [exact H|]. split.
  - eapply sub_trans; [exact S|]. rewrite <- (app_nil_r (concat (map bytes7 _))). apply sub_app; [apply sub_refl|apply sub_none].
  - revert I. apply Forall_impl. intros v V. apply V.
Qed.

Theorem lost8 a g i l : std_alloc a -> 0 <= g < 16 -> is_u8 i -> Forall (lossy (fun m => send_sysex8 m i g) sendable8) l ->
  exists c' outs, c8_calls a (new_collector8 true) (map KFeed (concat (map snd l))) = Ok (c', map (fun v => (v, i)) (concat outs)) /\
    Forall2 (lossy_heard (fun m => send_sysex8 m i g)) l outs /\
    sublist (concat (map bytes8 (concat outs))) (concat (map bytes8 (map fst l))) /\
    Forall (fun v => In (sx_id v) (map (fun s => sx_id (fst s)) l)) (concat outs).
Proof.
  intros A G B F. assert (A' := limit_std _ A).
  set (ids := fun id => valid_id id /\ In id (map (fun s : sysex * list packet => sx_id (fst s)) l)).
  destruct (lossy_run decode8 id_bytes8 content8 i ids (fun m => send_sysex8 m i g) (fun id r V => decode8_bytes id r (proj1 V)) l a_idle)
    as (W & outs & E & H & S & I).
  { reflexivity. }
  { apply Forall_forall. intros s X. rewrite Forall_forall in F. destruct (F s X) as (O & ps & S & SU).
    assert (ID : ids (sx_id (fst s))) by (split; [apply O|apply in_map_iff; eauto]). split; [exact ID|].
    destruct (facts8 g i (fst s) ps ids G B O ID S) as (chunks & FA). eauto. }
  destruct (feeds8 a 0 true a_idle (new_collector8 true) _ A' ltac:(apply (inv8_new a 0 true A')) W) as (c' & E' & _).
  rewrite E in E'. exists c', outs. split; [exact E'|]. split; [exact H|]. split.
  - eapply sub_trans; [exact S|]. rewrite <- (app_nil_r (concat (map bytes8 _))). apply sub_app; [apply sub_refl|apply sub_none].
  - revert I. apply Forall_impl. intros v V. apply V.
Qed.
