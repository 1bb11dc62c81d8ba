(* Properties of the reference semantics of collecting *)
From Coq Require Import ZArith List Bool Lia ZifyBool ZifyNat.
From Verif Require Import Base Bits Packet PacketSpec PacketProofs PacketBytes Messages Sysex Collector
  StreamSpec StreamLemmas StreamBytes CollectSpec CollectProofs.
Import ListNotations.
Local Open Scope Z_scope.
Local Open Scope res_scope.

Lemma a_run_app dec max xs : forall st ys,
  a_run dec max st (xs ++ ys) =
    (fst (a_run dec max (fst (a_run dec max st xs)) ys),
     snd (a_run dec max st xs) ++ snd (a_run dec max (fst (a_run dec max st xs)) ys)).
Proof.
  induction xs as [|x xs IH]; intros st ys; cbn [app a_run fst snd]; [now destruct (a_run dec max st ys)|].
  rewrite IH. cbn [fst snd]. now rewrite app_assoc.
Qed.

Lemma a_calls_app rd dec max ks : forall cb st ks', exists cb',
  a_calls rd dec max cb st (ks ++ ks') =
    (fst (a_calls rd dec max cb' (fst (a_calls rd dec max cb st ks)) ks'),
     snd (a_calls rd dec max cb st ks) ++
     snd (a_calls rd dec max cb' (fst (a_calls rd dec max cb st ks)) ks')).
Proof.
  induction ks as [|k ks IH]; intros cb st ks'; cbn [app a_calls fst snd].
  - exists cb. now destruct (a_calls rd dec max cb st ks').
  - destruct k as [p| |s|c]; try apply IH. destruct (rd p) as [x|]; [|apply IH].
    destruct (IH cb (fst (a_step dec max st x)) ks') as (cb' & E). exists cb'. rewrite E. cbn [fst snd].
    now rewrite app_assoc.
Qed.

Lemma a_calls_feed rd dec max ps : forall cb st,
  a_calls rd dec max cb st (map KFeed ps) =
    (fst (a_run dec max st (contents rd ps)), if cb then snd (a_run dec max st (contents rd ps)) else []).
Proof.
  induction ps as [|p ps IH]; intros cb st; cbn [map a_calls contents]; [now destruct cb|].
  destruct (rd p) as [x|]; [|apply IH]. rewrite IH. cbn [a_run fst snd]. now destruct cb.
Qed.

Lemma contents_app rd ps qs : contents rd (ps ++ qs) = contents rd ps ++ contents rd qs.
Proof. induction ps as [|p ps IH]; cbn [app contents]; [reflexivity|]. rewrite IH. now destruct (rd p). Qed.

(* ---- unlimited collectors leave nothing behind ---------------------------------------------- *)

Lemma a_step_clean dec st x : a_clean st -> a_clean (fst (a_step dec 0 st x)).
Proof.
  intros C. unfold a_step, a_clean. change (0 <? 0) with false. cbn [andb].
  destruct (_ && negb (a_open st)); [now right|]. destruct (_ && _); [exact C|].
  destruct (_ || _); [now right|]. now left.
Qed.

Lemma a_calls_clean rd dec ks : forall cb st, a_clean st -> a_clean (fst (a_calls rd dec 0 cb st ks)).
Proof.
  induction ks as [|k ks IH]; intros cb st C; cbn [a_calls]; [exact C|].
  destruct k as [p| |s|c]; try (apply IH; assumption).
  - destruct (rd p); [|now apply IH]. cbn [fst]. now apply IH, a_step_clean.
  - apply IH. now right.
Qed.

(* ---- messages --------------------------------------------------------------------------------- *)

Lemma a_step_more dec max acc i f c : f = 2 \/ f = 3 ->
  a_step dec max (mkA acc true i) (mkCt f i c) =
    if (0 <? max) && (max <? data_size dec acc + size c) then (mkA acc false i, [])
    else if f =? 3 then (a_idle, [(dec (acc ++ c), i)]) else (mkA (acc ++ c) true i, []).
Proof.
  intros F. unfold a_step. cbn [ct_format ct_stream ct_payload a_open a_stream a_bytes].
  rewrite Z.eqb_refl. replace (f <? 2) with false by lia. cbn [negb andb]. destruct (_ && _); [reflexivity|].
  destruct F as [->| ->]; reflexivity.
Qed.

(* packets of a message whose beginning [acc] has been collected *)
Lemma tail_fits dec max i : forall chunks acc, chunks <> [] -> (max = 0 \/ fits dec max acc chunks) ->
  a_run dec max (mkA acc true i) (message_tail i chunks) = (a_idle, [(dec (acc ++ concat chunks), i)]).
Proof.
  induction chunks as [|c rest IH]; intros acc NE F; [congruence|].
  assert (L : (0 <? max) && (max <? data_size dec acc + size c) = false).
  { destruct F as [->|[F _]]; [reflexivity|]. lia. }
  destruct rest as [|c' rest].
  - cbn [message_tail a_run]. rewrite a_step_more, L by auto. cbn. now rewrite app_nil_r.
  - set (r := c' :: rest) in *.
    change (message_tail i (c :: r)) with (mkCt 2 i c :: message_tail i r).
    cbn [a_run]. rewrite a_step_more, L by auto. cbn [Z.eqb Pos.eqb fst snd app].
    rewrite IH; [|discriminate|destruct F as [->|[_ F]]; auto].
    cbn [fst snd concat]. now rewrite app_assoc.
Qed.

Lemma a_step_open dec max st i f c : a_clean st -> (f = 0 \/ f = 1) -> (0 <? max) && (max <? data_size dec [] + size c) = false ->
  a_step dec max st (mkCt f i c) =
    if f =? 0 then (a_idle, [(dec c, i)]) else (mkA c true i, []).
Proof.
  intros C F L. unfold a_step. cbn [ct_format ct_stream ct_payload].
  replace (f <? 2) with true by lia. cbn [negb andb].
  replace (if a_open st then [] else a_bytes st) with (@nil Z) by now destruct C as [->| ->]; [|destruct (a_open st)].
  rewrite L. cbn [app]. destruct F as [->| ->]; reflexivity.
Qed.

Lemma message_fits dec max i chunks st : a_clean st -> chunks <> [] -> (max = 0 \/ fits dec max [] chunks) ->
  a_run dec max st (message_of i chunks) = (a_idle, [(dec (concat chunks), i)]).
Proof.
  intros C NE F. destruct chunks as [|c rest]; [congruence|].
  assert (L : (0 <? max) && (max <? data_size dec [] + size c) = false).
  { destruct F as [->|[F _]]; [reflexivity|]. lia. }
  destruct rest as [|c' rest].
  - cbn [message_of a_run]. rewrite a_step_open by auto. cbn. now rewrite app_nil_r.
  - set (r := c' :: rest) in *. change (message_of i (c :: r)) with (mkCt 1 i c :: message_tail i r).
    cbn [a_run]. rewrite a_step_open by auto. change (1 =? 0) with false. cbn [fst snd].
    rewrite tail_fits; [reflexivity|discriminate|]. destruct F as [->|[_ F]]; auto.
Qed.

(* nothing is delivered before the last packet *)
Lemma removelast_cons {A} (x : A) l : l <> [] -> removelast (x :: l) = x :: removelast l.
Proof. destruct l; [congruence|reflexivity]. Qed.

Lemma silent_formats dec max : forall xs st, Forall (fun x => ct_format x = 1 \/ ct_format x = 2) xs ->
  snd (a_run dec max st xs) = [].
Proof.
  induction xs as [|x xs IH]; intros st F; cbn [a_run snd]; [reflexivity|]. inversion_clear F as [|? ? X F'].
  rewrite IH by assumption. rewrite app_nil_r. unfold a_step.
  replace ((ct_format x =? 0) || (ct_format x =? 3)) with false by lia.
  destruct (_ && _); [reflexivity|]. destruct (_ && _); [reflexivity|]. now destruct (_ && _).
Qed.

Lemma tail_formats i chunks : Forall (fun x => ct_format x = 1 \/ ct_format x = 2) (removelast (message_tail i chunks)).
Proof.
  induction chunks as [|c [|c' rest] IH]; [constructor|constructor|].
  change (message_tail i (c :: c' :: rest)) with (mkCt 2 i c :: message_tail i (c' :: rest)).
  rewrite removelast_cons by (destruct rest; discriminate). constructor; [now right|exact IH].
Qed.
Lemma message_formats i chunks : Forall (fun x => ct_format x = 1 \/ ct_format x = 2) (removelast (message_of i chunks)).
Proof.
  destruct chunks as [|c [|c' rest]]; [constructor|constructor|].
  change (message_of i (c :: c' :: rest)) with (mkCt 1 i c :: message_tail i (c' :: rest)).
  rewrite removelast_cons by (destruct rest; discriminate). constructor; [now left|apply tail_formats].
Qed.

(* ---- oversized messages ------------------------------------------------------------------------- *)

(* after a refused packet, the rest of the message is discarded and clears the collector *)
Lemma tail_orphan dec max i s chunks acc : chunks <> [] ->
  a_run dec max (mkA acc false s) (message_tail i chunks) = (a_idle, []).
Proof.
  revert acc s; induction chunks as [|c [|c' rest] IH]; intros acc s NE; [congruence|reflexivity|].
  change (message_tail i (c :: c' :: rest)) with (mkCt 2 i c :: message_tail i (c' :: rest)).
  cbn [a_run]. unfold a_step. cbn [ct_format a_open Z.ltb negb andb Z.compare Pos.compare Pos.compare_cont fst snd].
  rewrite IH by discriminate. reflexivity.
Qed.

Lemma tail_overflow dec max i : 0 < max -> forall chunks acc, chunks <> [] -> ~ fits dec max acc chunks ->
  (fits dec max acc (removelast chunks) ->
     a_run dec max (mkA acc true i) (message_tail i chunks) = (mkA (acc ++ concat (removelast chunks)) false i, [])) /\
  (~ fits dec max acc (removelast chunks) ->
     a_run dec max (mkA acc true i) (message_tail i chunks) = (a_idle, [])).
Proof.
  intros M. induction chunks as [|c rest IH]; intros acc NE F; [congruence|].
  destruct rest as [|c' rest].
  - split; [|intros N; cbn in N; tauto]. intros _. cbn [message_tail a_run]. rewrite a_step_more by auto.
    cbn [fits] in F. replace ((0 <? max) && (max <? data_size dec acc + size c)) with true by lia.
    cbn. now rewrite app_nil_r.
  - set (r := c' :: rest) in *. rewrite removelast_cons by discriminate. cbn [fits] in *.
    change (message_tail i (c :: r)) with (mkCt 2 i c :: message_tail i r).
    cbn [a_run]. rewrite a_step_more by auto. cbn [Z.eqb Pos.eqb].
    destruct (Z.lt_ge_cases max (data_size dec acc + size c)) as [O|O].
    + replace (max <? data_size dec acc + size c) with true by lia. replace (0 <? max) with true by lia.
      cbn [andb fst snd app]. rewrite tail_orphan by discriminate. split; [lia|reflexivity].
    + replace (max <? data_size dec acc + size c) with false by lia. rewrite andb_false_r. cbn [fst snd app concat].
      destruct (IH (acc ++ c) ltac:(discriminate) ltac:(tauto)) as [H1 H2]. split; intros K.
      * rewrite H1 by tauto. cbn [fst snd]. now rewrite app_assoc.
      * rewrite H2 by tauto. reflexivity.
Qed.

Lemma message_overflow dec max i chunks st : 0 < max -> a_clean st -> ~ fits dec max [] chunks ->
  (fits dec max [] (removelast chunks) ->
     a_run dec max st (message_of i chunks) = (mkA (concat (removelast chunks)) false i, [])) /\
  (~ fits dec max [] (removelast chunks) ->
     a_run dec max st (message_of i chunks) = (a_idle, [])).
Proof.
  intros M C F. destruct chunks as [|c rest]; [cbn in F; tauto|].
  assert (base : forall f, f = 0 \/ f = 1 -> max < data_size dec [] + size c ->
            a_step dec max st (mkCt f i c) = (mkA [] false i, [])).
  { intros f Hf O. unfold a_step. cbn [ct_format ct_stream ct_payload].
    replace (f <? 2) with true by lia. cbn [negb andb].
    replace (if a_open st then [] else a_bytes st) with (@nil Z) by now destruct C as [->| ->]; [|destruct (a_open st)].
    now replace ((0 <? max) && (max <? data_size dec [] + size c)) with true by lia. }
  destruct rest as [|c' rest].
  - split; [|intros N; cbn in N; tauto]. intros _. cbn [message_of a_run]. cbn [fits] in F.
    rewrite base by (auto; lia). reflexivity.
  - set (r := c' :: rest) in *. rewrite removelast_cons by discriminate. cbn [fits] in *.
    change (message_of i (c :: r)) with (mkCt 1 i c :: message_tail i r). cbn [a_run].
    destruct (Z.lt_ge_cases max (data_size dec [] + size c)) as [O|O].
    + rewrite base by auto. cbn [fst snd app]. rewrite tail_orphan by discriminate. split; [lia|reflexivity].
    + rewrite a_step_open by (auto; lia). change (1 =? 0) with false. cbn [fst snd app].
      destruct (tail_overflow dec max i M r c ltac:(discriminate) ltac:(tauto)) as [H1 H2]. split; intros K.
      * rewrite H1 by tauto. reflexivity.
      * rewrite H2 by tauto. reflexivity.
Qed.

(* a simple sufficient condition *)
Lemma fits_total dec max : (forall l x, data_size dec (l ++ x) <= data_size dec l + size x) ->
  forall chunks acc, data_size dec acc + size (concat chunks) <= max -> fits dec max acc chunks.
Proof.
  intros D. induction chunks as [|c r IH]; intros acc H; cbn [fits]; [exact I|].
  cbn [concat] in H. rewrite size_app in H. pose proof (size_nonneg (concat r)). split; [lia|].
  apply IH. specialize (D acc c). lia.
Qed.

(* ---- the limit bounds what is delivered ------------------------------------------------------------ *)

Lemma limit_bound rd dec max : (forall l x, data_size dec (l ++ x) <= data_size dec l + size x) -> 0 < max ->
  forall ks cb st v, In v (snd (a_calls rd dec max cb st ks)) -> size (sx_data (fst v)) <= max.
Proof.
  intros D M. induction ks as [|k ks IH]; intros cb st v; cbn [a_calls snd]; [intros []|].
  destruct k as [p| |s|c]; try apply IH. destruct (rd p) as [x|]; [|apply IH]. cbn [snd].
  rewrite in_app_iff. intros [H|H]; [|now apply IH in H]. destruct cb; [|destruct H]. clear IH. revert H.
  unfold a_step. destruct (_ && negb (a_open st)); [intros []|]. destruct (_ && negb (_ =? _)); [intros []|].
  set (base := if _ && _ then [] else _).
  destruct ((0 <? max) && (max <? data_size dec base + size (ct_payload x))) eqn:E; [intros []|].
  destruct (_ || _); [|intros []]. intros [<-|[]]. cbn [fst].
  change (data_size dec (base ++ ct_payload x) <= max). specialize (D base (ct_payload x)). lia.
Qed.

(* ---- what an unlimited collector delivers ------------------------------------------------------------ *)

(* the messages open after [h] *)
Definition open_after (h : list content) (i : Z) (l : list Z) : Prop :=
  exists h0 s cs, h = h0 ++ s :: cs /\ ct_format s = 1 /\ ct_stream s = i /\
    Forall (fun c => 2 <= ct_format c) cs /\
    Forall (fun c => ct_format c = 2) (filter (same_stream i) cs) /\
    l = ct_payload s ++ concat (map ct_payload (filter (same_stream i) cs)).

Lemma snoc_eq {A} (l m : list A) x y : l ++ [x] = m ++ [y] -> l = m /\ x = y.
Proof. apply app_inj_tail. Qed.

Lemma last_split {A} (h0 : list A) s cs h x : h0 ++ s :: cs = h ++ [x] ->
  (cs = [] /\ h0 = h /\ s = x) \/ (exists cs', cs = cs' ++ [x] /\ h = h0 ++ s :: cs').
Proof.
  intros E. destruct (exists_last (l := s :: cs) ltac:(discriminate)) as (cs' & y & E').
  rewrite E' in E. rewrite app_assoc in E. apply snoc_eq in E. destruct E as [<- <-].
  destruct cs' as [|s' cs']; cbn [app] in E'.
  - injection E' as -> ->. left. rewrite app_nil_r. auto.
  - injection E' as -> ->. right. exists cs'. auto.
Qed.

Lemma open_snoc h i l x : 0 <= ct_format x < 4 -> open_after (h ++ [x]) i l <->
  (ct_format x = 1 /\ ct_stream x = i /\ l = ct_payload x) \/
  (2 <= ct_format x /\ ct_stream x <> i /\ open_after h i l) \/
  (ct_format x = 2 /\ ct_stream x = i /\ exists l', open_after h i l' /\ l = l' ++ ct_payload x).
Proof.
  intros FX. unfold open_after. split.
  - intros (h0 & s & cs & E & F & S & G & M & L). symmetry in E. apply last_split in E.
    destruct E as [(-> & -> & ->)|(cs' & -> & ->)].
    + left. cbn in L. rewrite app_nil_r in L. auto.
    + right. apply Forall_app in G. destruct G as [G1 G2]. inversion_clear G2 as [|? ? G2' _].
      rewrite filter_app in M, L. cbn [filter] in M, L. unfold same_stream at 2 in M. unfold same_stream at 2 in L.
      destruct (Z.eqb_spec (ct_stream x) i) as [Q|Q].
      * right. apply Forall_app in M. destruct M as [M1 M2]. inversion_clear M2 as [|? ? M2' _].
        repeat split; trivial. eexists. split; [exists h0, s, cs'; eauto 10|].
        rewrite L, map_app, concat_app. cbn. now rewrite app_nil_r, app_assoc.
      * left. rewrite app_nil_r in M, L. split; [assumption|split; [assumption|]]. exists h0, s, cs'. auto 10.
  - intros [(F & S & L)|[(F & S & (h0 & s & cs & E & Fs & Ss & G & M & L))|
      (F & S & l' & (h0 & s & cs & E & Fs & Ss & G & M & L) & L')]].
    + exists h, x, []. cbn. rewrite app_nil_r. auto 10.
    + exists h0, s, (cs ++ [x]). rewrite E, <- app_assoc. cbn [app].
      rewrite filter_app. cbn [filter]. unfold same_stream at 2 4. replace (ct_stream x =? i) with false by lia.
      rewrite app_nil_r. repeat split; trivial. apply Forall_app. auto.
    + exists h0, s, (cs ++ [x]). rewrite E, <- app_assoc. cbn [app].
      rewrite filter_app. cbn [filter]. unfold same_stream at 2 4. replace (ct_stream x =? i) with true by lia.
      repeat split; trivial.
      * apply Forall_app. split; trivial. constructor; [lia|constructor].
      * apply Forall_app. split; trivial. constructor; [lia|constructor].
      * rewrite L', L, map_app, concat_app. cbn. now rewrite app_nil_r, app_assoc.
Qed.

Lemma open_nil i l : ~ open_after [] i l.
Proof. intros (h0 & s & cs & E & _). now destruct h0. Qed.

Lemma open_unique h : Forall (fun x => 0 <= ct_format x < 4) h -> forall i l j m, open_after h i l -> open_after h j m -> i = j /\ l = m.
Proof.
  induction h as [|x h IH] using rev_ind; intros F i l j m H1 H2; [now apply open_nil in H1|].
  apply Forall_app in F. destruct F as [F X]. inversion_clear X as [|? ? X' _].
  rewrite open_snoc in H1, H2 by assumption.
  destruct H1 as [(A1 & A2 & A3)|[(A1 & A2 & A3)|(A1 & A2 & l' & A3 & A4)]];
  destruct H2 as [(B1 & B2 & B3)|[(B1 & B2 & B3)|(B1 & B2 & m' & B3 & B4)]]; try lia.
  - split; congruence.
  - eauto.
  - destruct (IH F _ _ _ _ A3 B3). lia.
  - destruct (IH F _ _ _ _ A3 B3). lia.
  - destruct (IH F _ _ _ _ A3 B3). split; congruence.
Qed.

Definition tracks (h : list content) (st : astate) : Prop :=
  if a_open st then open_after h (a_stream st) (a_bytes st)
  else a_bytes st = [] /\ forall i l, ~ open_after h i l.

Lemma tracks_step dec h st x : Forall (fun x => 0 <= ct_format x < 4) h -> 0 <= ct_format x < 4 -> tracks h st ->
  tracks (h ++ [x]) (fst (a_step dec 0 st x)).
Proof.
  intros F X T. unfold a_step. change (0 <? 0) with false. cbn [andb].
  destruct (Z.ltb_spec (ct_format x) 2); cbn [negb andb].
  - set (base := if a_open st then [] else a_bytes st).
    assert (B : base = []) by (unfold base, tracks in *; destruct (a_open st); [|apply T]; reflexivity).
    rewrite B. destruct (_ || _) eqn:E; unfold tracks; cbn [fst a_open a_stream a_bytes app].
    + split; [reflexivity|]. intros i l O. apply open_snoc in O; [|assumption].
      destruct O as [O|[O|O]]; lia.
    + apply open_snoc; [assumption|]. left. repeat split; lia.
  - unfold tracks in *. destruct (a_open st) eqn:OP; cbn [negb].
    + destruct (Z.eqb_spec (ct_stream x) (a_stream st)) as [Q|Q]; cbn [negb].
      * destruct (_ || _) eqn:E; cbn [fst a_open a_stream a_bytes].
        -- split; [reflexivity|]. intros i l O. apply open_snoc in O; [|assumption].
           destruct O as [O|[(O1 & O2 & O3)|O]]; try lia.
           destruct (open_unique h F _ _ _ _ T O3). lia.
        -- apply open_snoc; [assumption|]. right. right. repeat split; try lia.
           exists (a_bytes st). rewrite Q. auto.
      * cbn [fst]. rewrite OP. apply open_snoc; [assumption|]. right. left. auto.
    + destruct T as [T1 T2]. cbn [fst a_open a_bytes]. split; [reflexivity|]. intros i l O.
      apply open_snoc in O; [|assumption].
      destruct O as [O|[(O1 & O2 & O3)|(O1 & O2 & l' & O3 & O4)]]; try lia; eapply T2; eassumption.
Qed.

Lemma tracks_run dec h : Forall (fun x => 0 <= ct_format x < 4) h -> tracks h (fst (a_run dec 0 a_idle h)).
Proof.
  induction h as [|x h IH] using rev_ind; intros F.
  - split; [reflexivity|]. apply open_nil.
  - apply Forall_app in F. destruct F as [F X]. inversion_clear X as [|? ? X' _].
    rewrite a_run_app. cbn [fst a_run]. apply tracks_step; trivial. now apply IH.
Qed.

(* exactly what is delivered at each packet *)
Lemma delivered_iff dec h x v i : Forall (fun x => 0 <= ct_format x < 4) h -> 0 <= ct_format x < 4 ->
  let out := snd (a_step dec 0 (fst (a_run dec 0 a_idle h)) x) in
  (out = [(v, i)] <-> i = ct_stream x /\
     ((ct_format x = 0 /\ v = dec (ct_payload x)) \/
      (ct_format x = 3 /\ exists l, open_after h i l /\ v = dec (l ++ ct_payload x)))) /\
  (out = [] \/ exists w, out = [w]).
Proof.
  intros F X. pose proof (tracks_run dec h F) as T. set (st := fst (a_run dec 0 a_idle h)) in *.
  cbv zeta. unfold a_step. change (0 <? 0) with false. cbn [andb].
  destruct (Z.ltb_spec (ct_format x) 2); cbn [negb andb].
  - set (base := if a_open st then [] else a_bytes st).
    assert (B : base = []) by (unfold base, tracks in *; destruct (a_open st); [|apply T]; reflexivity).
    rewrite B. destruct (_ || _) eqn:E; cbn [snd app]; (split; [|eauto]).
    + split.
      * intros [= <- <-]. split; [reflexivity|left]. split; [lia|reflexivity].
      * intros (-> & [(_ & ->)|(K & _)]); [reflexivity|lia].
    + split; [discriminate|]. intros (_ & [(K & _)|(K & _)]); lia.
  - unfold tracks in T. destruct (a_open st) eqn:OP; cbn [negb].
    + destruct (Z.eqb_spec (ct_stream x) (a_stream st)) as [Q|Q]; cbn [negb].
      * destruct (_ || _) eqn:E; cbn [snd]; (split; [|eauto]).
        -- split.
           ++ intros [= <- <-]. split; [reflexivity|right]. split; [lia|]. exists (a_bytes st). rewrite Q. auto.
           ++ intros (-> & [(K & _)|(_ & l & O & ->)]); [lia|].
              destruct (open_unique h F _ _ _ _ T O) as [_ <-]. reflexivity.
        -- split; [discriminate|]. intros (_ & [(K & _)|(K & _)]); lia.
      * cbn [snd]. split; [|auto]. split; [discriminate|]. intros (-> & [(K & _)|(_ & l & O & _)]); [lia|].
        destruct (open_unique h F _ _ _ _ T O). lia.
    + cbn [snd]. split; [|auto]. split; [discriminate|]. intros (-> & [(K & _)|(_ & l & O & _)]); [lia|].
      now apply T in O.
Qed.

(* ---- foreign streams ------------------------------------------------------------------------------------ *)

Lemma a_run_foreign dec i xs : forall st, a_clean st -> (a_open st = true -> a_stream st = i) ->
  Forall (fun x => ct_format x < 2 -> ct_stream x = i) xs ->
  snd (a_run dec 0 st xs) = snd (a_run dec 0 st (filter (same_stream i) xs)).
Proof.
  assert (IDLE : forall xs, (forall st, a_open st = false -> a_bytes st = [] -> 
     snd (a_run dec 0 st xs) = snd (a_run dec 0 a_idle xs))).
  { intros [|x ys] st O B; [reflexivity|]. cbn [a_run].
    assert (E : a_step dec 0 st x = a_step dec 0 a_idle x).
    { unfold a_step. rewrite O, B. cbn [a_open a_idle a_bytes negb].
      destruct (ct_format x <? 2); reflexivity. }
    now rewrite E. }
  induction xs as [|x xs IH]; intros st C O F; [reflexivity|].
  inversion_clear F as [|? ? X F']. cbn [filter]. unfold same_stream at 1.
  destruct (Z.eqb_spec (ct_stream x) i) as [Q|Q].
  - cbn [a_run snd]. f_equal. apply IH; trivial.
    + now apply a_step_clean.
    + unfold a_step. change (0 <? 0) with false. cbn [andb].
      destruct (_ && negb (a_open st)) eqn:E1; cbn [fst a_stream a_open]; [discriminate|].
      destruct (_ && negb (_ =? _)) eqn:E2; cbn [fst a_stream a_open]; [exact O|].
      destruct (_ || _) eqn:E3; cbn [fst a_stream a_open]; [discriminate|auto].
  - assert (NF : 2 <= ct_format x) by (destruct (Z.lt_ge_cases (ct_format x) 2); [tauto|lia]).
    cbn [a_run snd]. destruct (a_open st) eqn:OP.
    + assert (E : a_step dec 0 st x = (st, [])).
      { unfold a_step. replace (ct_format x <? 2) with false by lia. rewrite OP. cbn [negb andb].
        rewrite (O eq_refl). now replace (ct_stream x =? i) with false by lia. }
      rewrite E. cbn [fst snd app]. apply IH; auto.
    + assert (B : a_bytes st = []) by (destruct C as [C|C]; [congruence|exact C]).
      assert (E : a_step dec 0 st x = (a_idle, [])).
      { unfold a_step. replace (ct_format x <? 2) with false by lia. now rewrite OP. }
      rewrite E. cbn [fst snd app]. rewrite (IDLE (filter _ _) st OP B). apply IH; trivial; [now right|discriminate].
Qed.

(* a start or complete packet of another stream abandons the message *)
Lemma a_abandon dec st x ys i : ct_format x < 2 -> ct_stream x <> i ->
  Forall (fun y => 2 <= ct_format y /\ ct_stream y = i) ys ->
  snd (a_run dec 0 (fst (a_step dec 0 st x)) ys) = [].
Proof.
  intros X S F.
  assert (K : forall ys st, (a_open st = true -> a_stream st <> i) -> Forall (fun y => 2 <= ct_format y /\ ct_stream y = i) ys ->
            snd (a_run dec 0 st ys) = []).
  { clear. induction ys as [|y ys IH]; intros st O F; [reflexivity|]. inversion_clear F as [|? ? [Y1 Y2] F'].
    cbn [a_run snd]. unfold a_step. replace (ct_format y <? 2) with false by lia. cbn [negb andb].
    destruct (a_open st) eqn:OP; cbn [negb].
    - replace (ct_stream y =? a_stream st) with false by (specialize (O eq_refl); lia). cbn [negb fst snd app].
      apply IH; trivial. rewrite OP. exact O.
    - cbn [fst snd app]. apply IH; trivial. discriminate. }
  apply K; trivial. unfold a_step. replace (ct_format x <? 2) with true by lia. cbn [negb andb].
  change (0 <? 0) with false. cbn [andb]. destruct (_ || _); cbn [fst a_open a_stream]; [discriminate|auto].
Qed.
