(* A merge box with limited memory *)
From Coq Require Import ZArith List Bool Lia ZifyBool ZifyNat.
From Verif Require Import Base Bits Packet PacketSpec PacketProofs PacketBytes Messages ByteStream StreamSpec StreamLemmas StreamCalls StreamProofs
  SessionSpec SessionProofs Merge MergeSpec MergeProofs LimitBox LimitBoxSpec.
Import ListNotations.
Local Open Scope Z_scope.

(* ---- parts of lists --------------------------------------------------------------------------- *)

Lemma some_app {A} (a b c d : list A) : some_of a b -> some_of c d -> some_of (a ++ c) (b ++ d).
Proof. induction 1; intros H'; cbn [app]; [exact H'|apply some_take|apply some_leave]; auto. Qed.
Lemma some_none {A} (l : list A) : some_of [] l.
Proof. induction l; constructor; assumption. Qed.
Lemma some_all {A} (l : list A) : some_of l l.
Proof. induction l; constructor; assumption. Qed.
Lemma some_forall {A} (P : A -> Prop) l l' : some_of l l' -> Forall P l' -> Forall P l.
Proof. induction 1; intros F; [constructor| |]; apply Forall_cons_iff in F as [F1 F2]; [constructor|]; auto. Qed.
Lemma some_matched {A B} (R : A -> B -> Prop) k l : some_of k l -> forall s, Forall2 R s l -> exists t, some_of t s /\ Forall2 R t k.
Proof.
  induction 1 as [|x k l S IH|x k l S IH]; intros s F.
  - inversion F; subst. exists []. split; constructor.
  - inversion F as [|y ? s' ? R1 F']; subst. destruct (IH s' F') as (t & S' & F2). exists (y :: t). split; constructor; assumption.
  - inversion F as [|y ? s' ? R1 F']; subst. destruct (IH s' F') as (t & S' & F2). exists t. split; [constructor|]; assumption.
Qed.
Lemma some_map {A B} (f : A -> B) k l : some_of k l -> some_of (map f k) (map f l).
Proof. induction 1; cbn [map]; constructor; assumption. Qed.

(* ---- taking back ------------------------------------------------------------------------------ *)

Lemma of_rev {A} s (l : list (nat * A)) : of_source s (rev l) = rev (of_source s l).
Proof.
  induction l as [|x l IH]; [reflexivity|]. cbn [rev]. rewrite of_app, IH, !of_cons, rev_app_distr. f_equal.
  now destruct (Nat.eqb (fst x) s).
Qed.
Lemma retract_rev_same s c d w : of_source s w = c ++ d -> Forall (fun p => keeps_line p = true) c ->
  match d with [] => True | p :: _ => keeps_line p = false end -> of_source s (retract_rev s w) = d.
Proof.
  revert c. induction w as [|x w IH]; intros c E F D; cbn [retract_rev].
  - cbn in E. symmetry in E. now apply app_eq_nil in E as [_ ->].
  - rewrite of_cons in E. destruct (Nat.eqb (fst x) s) eqn:S.
    + cbn [app] in E. destruct c as [|p c]; cbn [app] in E.
      * subst d. rewrite D, of_cons, S. reflexivity.
      * injection E as -> E. apply Forall_cons_iff in F as [F1 F2]. rewrite F1. now apply (IH c).
    + cbn [app] in E. rewrite of_cons, S. cbn [app]. now apply (IH c).
Qed.
Lemma retract_rev_other s s' w : s' <> s -> of_source s' (retract_rev s w) = of_source s' w.
Proof.
  intros N. induction w as [|x w IH]; cbn [retract_rev]; [reflexivity|]. destruct (Nat.eqb_spec (fst x) s) as [E|E].
  - destruct (keeps_line (snd x)); [|reflexivity]. rewrite IH, of_cons. destruct (Nat.eqb_spec (fst x) s'); [congruence|reflexivity].
  - now rewrite !of_cons, IH.
Qed.
Lemma retract_rev_forall (P : nat * packet -> Prop) s w : Forall P w -> Forall P (retract_rev s w).
Proof.
  induction 1 as [|x w H F IH]; cbn [retract_rev]; [constructor|]. destruct (Nat.eqb (fst x) s); [|constructor; assumption].
  destruct (keeps_line (snd x)); [assumption|constructor; assumption].
Qed.
Lemma retract_rev_length s w : (length (retract_rev s w) <= length w)%nat.
Proof.
  induction w as [|x w IH]; cbn [retract_rev]; [lia|]. destruct (Nat.eqb (fst x) s); [destruct (keeps_line (snd x))|]; cbn [length]; lia.
Qed.

Lemma retract_other s s' w : s' <> s -> of_source s' (retract s w) = of_source s' w.
Proof. intros N. unfold retract. now rewrite of_rev, retract_rev_other, of_rev, rev_involutive. Qed.
Lemma retract_forall (P : nat * packet -> Prop) s w : Forall P w -> Forall P (retract s w).
Proof. intros F. unfold retract. apply Forall_rev, retract_rev_forall, Forall_rev, F. Qed.
Lemma retract_length s w : (length (retract s w) <= length w)%nat.
Proof. unfold retract. rewrite rev_length. etransitivity; [apply retract_rev_length|]. now rewrite rev_length. Qed.
Lemma retract_same s w K c : of_source s w = concat K ++ c -> Forall atomic K -> Forall (fun p => keeps_line p = true) c ->
  of_source s (retract s w) = concat K.
Proof.
  intros E A F. unfold retract. rewrite of_rev. rewrite <- (rev_involutive (concat K)). f_equal.
  apply (retract_rev_same s (rev c)); [now rewrite of_rev, E, rev_app_distr|now apply Forall_rev|].
  destruct (rev (concat K)) as [|p q] eqn:X; [exact I|]. apply (atomic_last K (rev q) p A).
  rewrite <- (rev_involutive (concat K)), X. reflexivity.
Qed.

(* ---- messages ----------------------------------------------------------------------------------- *)

(* the first packet begins a message, the others continue it *)
Definition whole (ps : list packet) : Prop :=
  atomic ps /\ exists h t, ps = h :: t /\ goes_on h = false /\ Forall (fun p => goes_on p = true) t.

Lemma sx7_goes g f ds : 0 <= g < 16 -> 0 <= f < 4 -> (length ds <= 6)%nat -> Forall is_u8 ds ->
  goes_on (sx7_packet g f ds) = (2 <=? f).
Proof.
  intros G F L D. unfold goes_on. rewrite sx7_is_sysex7 by assumption. unfold sysex7_format. rewrite StreamLemmas.sx7_status by assumption. cbn [andb].
  assert (X : Z.land (Z.shiftr (f * 16 + Z.of_nat (length ds)) 4) 3 = f).
  { rewrite Z.shiftr_div_pow2 by lia. change 3 with (Z.ones 2). rewrite Z.land_ones by lia. dlia. }
  now rewrite X.
Qed.
Lemma tail_goes g chunks : 0 <= g < 16 -> Forall (fun c => (length c <= 6)%nat) chunks -> Forall (Forall is_u8) chunks ->
  Forall (fun p => goes_on p = true) (sx7_tail g chunks).
Proof.
  intros G. induction chunks as [|c chunks IH]; intros L U; [constructor|]. inversion_clear L. inversion_clear U.
  destruct chunks as [|d chunks]; cbn [sx7_tail].
  - constructor; [|constructor]. rewrite sx7_goes by (trivial; lia). reflexivity.
  - constructor; [|now apply IH]. rewrite sx7_goes by (trivial; lia). reflexivity.
Qed.
Lemma carried_whole gm ps : carried divided gm ps -> whole ps /\ Forall (fun p => passes_at_once p = false) ps.
Proof.
  intros C. destruct (carried_atomic gm ps C) as [A P]. split; [|exact P]. split; [exact A|]. destruct C as (G & V & C).
  destruct (snd gm) as [m|ds]; cbn [valid_midi_message] in V.
  - subst ps. pose proof (annotate_u8 m V) as U. apply Forall_cons_iff in U as [U1 U2]. eexists _, []. split; [reflexivity|]. split; [|constructor].
    unfold goes_on. replace (is_sysex7_packet _) with false; [reflexivity|].
    unfold is_sysex7_packet, is_data_message. rewrite short_type by assumption. unfold short_ty. now destruct (ms_status m <? 0xF0).
  - destruct C as (chunks & [N L] & E & ->). destruct V as [_ V].
    assert (U : Forall (Forall is_u8) chunks).
    { rewrite <- E in V. clear - V. induction chunks; constructor; cbn [concat] in V; apply Forall_app in V as [V1 V2]; [now apply Forall_u7_u8|auto]. }
    destruct chunks as [|c [|d chunks]]; [congruence| |].
    + inversion_clear L. inversion_clear U. eexists _, []. split; [reflexivity|]. split; [|constructor]. rewrite sx7_goes by (trivial; lia). reflexivity.
    + inversion_clear L as [|? ? L1 L2]. inversion_clear U as [|? ? U1 U2]. eexists _, (sx7_tail (fst gm) (d :: chunks)). split; [reflexivity|].
      split; [rewrite sx7_goes by (trivial; lia); reflexivity|now apply tail_goes].
Qed.

(* of a connection that does not have the line, whole messages were sent *)
Lemma line_whole s o l o' : on_line o l o' -> o' <> Some s ->
  exists B, Forall atomic B /\
    ((o <> Some s /\ of_source s l = concat B) \/ (o = Some s /\ exists m, atomic m /\ of_source s l = m ++ concat B)).
Proof.
  induction 1 as [o|o s0 p l o' M L IH]; intros N.
  - exists []. split; [constructor|]. left. split; [exact N|reflexivity].
  - destruct (IH N) as (B & A & D). rewrite of_cons. cbn [fst snd]. destruct (Nat.eqb_spec s0 s) as [->|NE].
    + cbn [app]. destruct (keeps_line p) eqn:K.
      * destruct D as [[D _]|[_ (m & (a & z & -> & FA & KZ) & D)]]; [congruence|].
        assert (AM : atomic (p :: a ++ [z])) by (exists (p :: a), z; repeat split; auto).
        rewrite D. destruct o as [s'|]; [cbn [may_send] in M; apply Nat.eqb_eq in M; subst s'|].
        -- exists B. split; [exact A|]. right. split; [reflexivity|]. exists (p :: a ++ [z]). split; [exact AM|reflexivity].
        -- exists ((p :: a ++ [z]) :: B). split; [constructor; assumption|]. left. split; [discriminate|reflexivity].
      * destruct D as [[_ D]|[D _]]; [|discriminate]. assert (AM : atomic [p]) by (exists [], p; repeat split; auto).
        rewrite D. destruct o as [s'|]; [cbn [may_send] in M; apply Nat.eqb_eq in M; subst s'|].
        -- exists B. split; [exact A|]. right. split; [reflexivity|]. exists [p]. split; [exact AM|reflexivity].
        -- exists ([p] :: B). split; [constructor; assumption|]. left. split; [discriminate|reflexivity].
    + exists B. split; [exact A|]. left. split.
      * intros ->. cbn [may_send] in M. apply Nat.eqb_eq in M. congruence.
      * destruct D as [[_ D]|[D _]]; [exact D|]. destruct (keeps_line p); [congruence|discriminate].
Qed.
(* the messages sent are the first of the messages *)
Lemma atomic_prefix B : forall K c w, Forall atomic B -> Forall atomic K -> Forall (fun p => keeps_line p = true) c ->
  concat B ++ w = concat K ++ c -> exists K', K = B ++ K' /\ w = concat K' ++ c.
Proof.
  induction B as [|b B IH]; intros K c w FB FK FC E.
  - exists K. split; [reflexivity|exact E].
  - apply Forall_cons_iff in FB as [(a & z & -> & FA & KZ) FB]. cbn [concat] in E. destruct K as [|k K].
    + cbn [concat app] in E. exfalso. rewrite <- !app_assoc in E. rewrite <- E in FC. apply Forall_app in FC as [_ FC]. apply Forall_cons_iff in FC as [FC _]. congruence.
    + apply Forall_cons_iff in FK as [(a' & z' & -> & FA' & KZ') FK]. cbn [concat] in E. rewrite <- !(app_assoc _ (concat _)) in E.
      destruct (atomic_head _ _ _ _ _ _ FA KZ FA' KZ' E) as [E1 E2]. rewrite <- E1.
      destruct (IH K c w FB FK FC E2) as (K' & -> & ->). exists K'. split; reflexivity.
Qed.

(* ---- the steps of the box ------------------------------------------------------------------------ *)

(* where connection s is among its messages T: R is still to come *)
Definition stage (T : list (list packet)) (sent : list packet) (skip : bool) (R : list packet) : Prop :=
  (exists K A M, T = A ++ M /\ some_of K A /\ R = concat M /\ sent = concat K /\ skip = false) \/
  (exists K A c t M, T = A ++ (c ++ t) :: M /\ some_of K A /\ c <> [] /\ Forall (fun p => keeps_line p = true) c /\ atomic t /\
     Forall (fun p => goes_on p = true) t /\ R = t ++ concat M /\ sent = concat K ++ (if skip then [] else c)).

(* the next packet is accepted or left out, as part of its message *)
Lemma stage_next T sent skip p R : Forall whole T -> stage T sent skip (p :: R) ->
  (skip = true -> goes_on p = true /\ stage T sent (keeps_line p) R) /\
  (skip = false -> stage T (sent ++ [p]) false R) /\
  (skip = false -> exists K c, sent = concat K ++ c /\ Forall atomic K /\ Forall (fun p => keeps_line p = true) c /\ stage T (concat K) (keeps_line p) R).
Proof.
  intros W [(K & A & M & -> & S & E & -> & ->)|(K & A & c & t & M & -> & S & NC & FC & AT & FT & E & ->)].
  - apply Forall_app in W as [WA WM]. destruct M as [|m M]; [discriminate|]. apply Forall_cons_iff in WM as [[AM (h & t & -> & H & FT)] WM].
    cbn [concat app] in E. injection E as -> ->. assert (AK : Forall atomic K).
    { eapply some_forall; [exact S|]. revert WA. apply Forall_impl. intros x [X _]. exact X. }
    split; [discriminate|]. destruct AM as (a & z & E & FA & KZ). destruct a as [|h' a]; cbn [app] in E.
    + injection E as -> ->. split; [intros _|intros _; exists K, []].
      * left. exists (K ++ [[z]]), (A ++ [[z]]), M. split; [now rewrite <- app_assoc|]. split; [apply some_app; [exact S|apply some_all]|].
        split; [reflexivity|]. split; [|reflexivity]. rewrite concat_app. reflexivity.
      * split; [now rewrite app_nil_r|]. split; [exact AK|]. split; [constructor|]. left. exists K, (A ++ [[z]]), M.
        split; [now rewrite <- app_assoc|]. split; [rewrite <- (app_nil_r K); apply some_app; [exact S|apply some_none]|]. auto.
    + injection E as -> ->. apply Forall_cons_iff in FA as [KH FA]. assert (AT : atomic (a ++ [z])) by (exists a, z; auto).
      split; [intros _|intros _; exists K, []].
      * right. exists K, A, [h'], (a ++ [z]), M. split; [reflexivity|]. split; [exact S|]. split; [discriminate|]. split; [auto|]. auto.
      * split; [now rewrite app_nil_r|]. split; [exact AK|]. split; [constructor|]. rewrite KH. right. exists K, A, [h'], (a ++ [z]), M.
        split; [reflexivity|]. split; [exact S|]. split; [discriminate|]. split; [auto|]. split; [exact AT|]. split; [exact FT|]. split; [reflexivity|].
        now rewrite app_nil_r.
  - apply Forall_app in W as [WA _]. assert (AK : Forall atomic K).
    { eapply some_forall; [exact S|]. revert WA. apply Forall_impl. intros x [X _]. exact X. }
    destruct AT as (a & z & -> & FA & KZ). destruct a as [|h a]; cbn [app] in *; injection E as -> ->.
    + apply Forall_cons_iff in FT as [GZ _]. split; [intros ->|split; intros ->].
      * split; [exact GZ|]. rewrite KZ. left. exists K, (A ++ [c ++ [z]]), M. split; [now rewrite <- app_assoc|].
        split; [rewrite <- (app_nil_r K); apply some_app; [exact S|apply some_none]|]. rewrite app_nil_r. auto.
      * left. exists (K ++ [c ++ [z]]), (A ++ [c ++ [z]]), M. split; [now rewrite <- app_assoc|]. split; [apply some_app; [exact S|apply some_all]|].
        split; [reflexivity|]. split; [|reflexivity]. rewrite concat_app. cbn [concat]. now rewrite app_nil_r, <- app_assoc.
      * exists K, c. split; [reflexivity|]. split; [exact AK|]. split; [exact FC|]. rewrite KZ. left. exists K, (A ++ [c ++ [z]]), M.
        split; [now rewrite <- app_assoc|]. split; [rewrite <- (app_nil_r K); apply some_app; [exact S|apply some_none]|]. auto.
    + apply Forall_cons_iff in FT as [GH FT]. apply Forall_cons_iff in FA as [KH FA]. assert (AT : atomic (a ++ [z])) by (exists a, z; auto).
      assert (TE : A ++ (c ++ h :: a ++ [z]) :: M = A ++ ((c ++ [h]) ++ a ++ [z]) :: M) by now rewrite <- (app_assoc c).
      assert (FC' : Forall (fun p => keeps_line p = true) (c ++ [h])) by (apply Forall_app; auto).
      assert (NC' : c ++ [h] <> []) by (destruct c; discriminate).
      split; [intros ->|split; intros ->].
      * split; [exact GH|]. rewrite KH. right. exists K, A, (c ++ [h]), (a ++ [z]), M. auto 10.
      * right. exists K, A, (c ++ [h]), (a ++ [z]), M. rewrite <- (app_assoc (concat K)). auto 10.
      * exists K, c. split; [reflexivity|]. split; [exact AK|]. split; [exact FC|]. rewrite KH. right. exists K, A, (c ++ [h]), (a ++ [z]), M.
        rewrite app_nil_r. auto 10.
Qed.

Lemma limited_ok n (T : nat -> list (list packet)) : (forall s, Forall whole (T s)) -> forall l b outs,
  orderly (lm_merger b) -> on_line None outs (mg_line (lm_merger b)) ->
  (forall s, stage (T s) (of_source s outs ++ of_source s (mg_waiting (lm_merger b))) (lm_skip b s) (of_source s (filter other l))) ->
  let r := limited_run n b l in
  orderly (lm_merger (fst r)) /\ on_line None (outs ++ filter other (snd r)) (mg_line (lm_merger (fst r))) /\
  (forall s, stage (T s) (of_source s (outs ++ filter other (snd r)) ++ of_source s (mg_waiting (lm_merger (fst r)))) (lm_skip (fst r) s) []) /\
  filter (fun x => passes_at_once (snd x)) (snd r) = filter (fun x => passes_at_once (snd x)) l.
Proof.
  intros W. induction l as [|[s p] l IH]; intros b outs O L S; cbn [limited_run fst snd].
  - cbn [filter]. rewrite app_nil_r. auto.
  - set (m := lm_merger b) in *.
    assert (OX : other (s, p) = negb (passes_at_once p)) by reflexivity.
    cbn [filter] in S. rewrite OX in S. unfold limited_step. cbn [fst snd]. fold m.
    destruct (passes_at_once p) eqn:E; cbn [negb] in *.
    + destruct (IH b outs O L S) as (J1 & J2 & J3 & J4). cbn [fst snd app filter]. rewrite OX, ?E. cbn [snd negb]. rewrite ?E. split; [exact J1|]. split; [exact J2|].
      split; [exact J3|]. now rewrite J4.
    + cbn [snd filter]. rewrite ?E.
      assert (NX : forall s', of_source s' ((s, p) :: filter other l) = if Nat.eqb s s' then p :: of_source s' (filter other l) else of_source s' (filter other l)).
      { intros s'. rewrite of_cons. cbn [fst snd]. now destruct (Nat.eqb s s'). }
      assert (SS := S s). rewrite NX, Nat.eqb_refl in SS. destruct (stage_next _ _ _ _ _ (W s) SS) as (N1 & N2 & N3).
      destruct (lm_skip b s && goes_on p) eqn:G.
      * apply andb_true_iff in G as [G1 G2]. destruct (N1 G1) as [_ N4]. cbn [fst snd].
        apply (IH (mkLimited m (skip_at s (keeps_line p) (lm_skip b))) outs O L). intros s'. cbn [lm_merger lm_skip]. unfold skip_at.
        destruct (Nat.eqb_spec s' s) as [->|NE]; [exact N4|]. specialize (S s'). rewrite NX in S. destruct (Nat.eqb_spec s s'); [congruence|exact S].
      * assert (SK : lm_skip b s = false).
        { destruct (lm_skip b s) eqn:X; [|reflexivity]. destruct (N1 eq_refl) as [GO _]. rewrite GO in G. discriminate. }
        destruct (may_send (mg_line m) s || Nat.ltb (length (mg_waiting m)) n) eqn:A.
        -- unfold merge_step. cbn [snd]. rewrite E. cbn [fst snd]. set (w := mg_waiting m ++ [(s, p)]).
           destruct (drain_ok (length w) (mg_line m) w (le_n _)) as (D1 & D2 & D3 & D4).
           assert (FW : Forall (fun y => other y = true) w) by (unfold w; apply Forall_app; split; [apply O|constructor; [now rewrite OX|constructor]]).
           destruct (D4 _ FW) as [D5 D6]. set (r := drain (length w) (mg_line m) w) in *.
           destruct (IH (mkLimited (fst r) (skip_at s false (lm_skip b))) (outs ++ snd r)) as (J1 & J2 & J3 & J4).
           { split; assumption. } { cbn [lm_merger]. eapply line_app; eassumption. }
           { intros s'. cbn [lm_merger lm_skip]. rewrite of_app, <- app_assoc, <- of_app, D2. unfold w. rewrite of_app, app_assoc, of_cons. cbn [fst snd].
             unfold skip_at. destruct (Nat.eqb_spec s' s) as [->|NE].
             - rewrite Nat.eqb_refl. cbn [app]. exact (N2 SK).
             - specialize (S s'). rewrite NX in S. destruct (Nat.eqb_spec s s'); [congruence|]. change (of_source s' []) with (@nil packet). cbn [app].
               rewrite app_nil_r. exact S. }
           rewrite !filter_app, (filter_all other (snd r) D5), app_assoc. split; [exact J1|]. split; [exact J2|]. split; [exact J3|]. rewrite J4.
           rewrite (filter_nothing _ (snd r)); [reflexivity|]. revert D5. apply Forall_impl. intros y Y. unfold other in Y.
           now destruct (passes_at_once (snd y)).
        -- apply orb_false_iff in A as [A _]. cbn [fst snd].
           destruct (N3 SK) as (K & c & EK & AK & FC & N4).
           assert (LS : mg_line m <> Some s) by (intros X; rewrite X in A; cbn [may_send] in A; now rewrite Nat.eqb_refl in A).
           destruct (line_whole s _ _ _ L LS) as (B & AB & [[_ EB]|[X _]]); [|discriminate]. rewrite EB in EK.
           destruct (atomic_prefix B K c _ AB AK FC EK) as (K' & -> & EW). apply Forall_app in AK as [_ AK'].
           apply (IH (mkLimited (mkMerger (mg_line m) (retract s (mg_waiting m))) (skip_at s (keeps_line p) (lm_skip b))) outs).
           { destruct O as [O1 O2]. split; cbn [lm_merger mg_line mg_waiting]; now apply retract_forall. }
           { exact L. }
           intros s'. cbn [lm_merger lm_skip mg_waiting]. unfold skip_at. destruct (Nat.eqb_spec s' s) as [->|NE].
           ++ rewrite (retract_same s _ K' c EW AK' FC), EB, <- concat_app. exact N4.
           ++ rewrite retract_other by exact NE. specialize (S s'). rewrite NX in S. destruct (Nat.eqb_spec s s'); [congruence|exact S].
Qed.

Lemma limited_session n (sent : nat -> list (Z * midi_message)) (rt : nat -> list (Z * Z)) l :
  (forall s, exists ps, session divided (sent s) ps /\ realtime_between (rt s) ps (of_source s l)) ->
  exists b out order rts ps, limited_run n new_limited l = (b, out) /\ mg_waiting (lm_merger b) = [] /\
    (forall s, some_of (of_source s order) (sent s)) /\ (forall s, of_source s rts = rt s) /\
    filter (fun x => passes_at_once (snd x)) out = filter (fun x => passes_at_once (snd x)) l /\
    session divided (map snd order) ps /\ realtime_between (map snd rts) ps (map snd out).
Proof.
  intros H.
  assert (P : forall s, exists L, Forall2 (carried divided) (sent s) L /\ Forall whole L /\ of_source s (filter other l) = concat L /\
    Forall2 (fun gr p => p = rt_packet gr /\ rt_ok gr) (rt s) (of_source s (filter (fun x => passes_at_once (snd x)) l))).
  { intros s. destruct (H s) as (ps & S & B). apply session_parts in S. destruct S as (L & F & <-). exists L. split; [exact F|].
    assert (X : Forall whole L /\ Forall (Forall (fun p => passes_at_once p = false)) L).
    { clear - F. induction F as [|x y l l' C F [IH1 IH2]]; [split; constructor|]. destruct (carried_whole _ _ C). split; constructor; assumption. }
    destruct X as [X1 X2]. split; [exact X1|].
    assert (X3 : Forall (fun p => passes_at_once p = false) (concat L)).
    { clear - X2. induction X2; [constructor|]. cbn [concat]. apply Forall_app. split; assumption. }
    destruct (between_split _ _ _ B X3) as (E1 & E2 & E3). unfold other. split.
    - now rewrite (of_filter s (fun p => negb (passes_at_once p))).
    - rewrite (of_filter s passes_at_once), E2. clear - E3. induction E3; cbn [map]; constructor; auto. }
  destruct (choose (P := fun s L => Forall2 (carried divided) (sent s) L /\ Forall whole L /\ of_source s (filter other l) = concat L) l
    (@nil (list packet))) as (T & FT).
  { intros s E. destruct (P s) as (L & F & A & EL & _). assert (X : of_source s (filter other l) = []).
    { change (filter other l) with (filter (fun x => negb (passes_at_once (snd x))) l). rewrite (of_filter s (fun p => negb (passes_at_once p))), E. reflexivity. }
    assert (L = []) as ->; [|now rewrite X]. rewrite X in EL. destruct L as [|k L]; [reflexivity|]. apply Forall_inv in A as [_ (h & t & -> & _)]. discriminate. }
  { intros s. destruct (P s) as (L & F & A & EL & _). eauto. }
  destruct (limited_ok n T (fun s => proj1 (proj2 (FT s))) l new_limited []) as (O & L & S & R); [split; constructor|constructor| |].
  { intros s. left. exists [], [], (T s). repeat split; [constructor|apply FT]. }
  destruct (limited_run n new_limited l) as [b out]. cbn [fst snd app] in *.
  assert (S' : forall s, exists K, some_of K (T s) /\ of_source s (filter other out) ++ of_source s (mg_waiting (lm_merger b)) = concat K).
  { intros s. destruct (S s) as [(K & A & M & E & SO & EM & EK & _)|(K & A & c & t & M & _ & _ & _ & _ & (a & z & -> & _) & _ & X & _)].
    - exists K. split; [|exact EK]. rewrite E. rewrite <- (app_nil_r K). apply some_app; [exact SO|apply some_none].
    - destruct a; discriminate. }
  set (m := lm_merger b) in *.
  assert (ATM : forall s K, some_of K (T s) -> Forall atomic K).
  { intros s K X. eapply some_forall; [exact X|]. destruct (FT s) as (_ & Y & _). revert Y. apply Forall_impl. intros y [Y _]. exact Y. }
  assert (N : mg_line m = None).
  { destruct (mg_line m) as [s|] eqn:E; [exfalso|reflexivity]. destruct (line_kept _ _ _ L) as [[_ X]|(a & z & X & K)]; [discriminate|].
    destruct (S' s) as (M & SM & EM). destruct O as [O1 _]. rewrite (of_none s (mg_waiting m)) in EM.
    - rewrite app_nil_r, X in EM. rewrite (atomic_last M a z (ATM s M SM) (eq_sym EM)) in K. discriminate.
    - revert O1. apply Forall_impl. intros y Y. rewrite E in Y. cbn [may_send] in Y. now rewrite Nat.eqb_sym. }
  assert (Q : mg_waiting m = []).
  { destruct O as [O1 _]. rewrite N in O1. destruct (mg_waiting m); [reflexivity|]. inversion_clear O1. discriminate. }
  destruct (line_free _ _ _ L N) as (G & EG & AG).
  assert (FG : forall s, exists t, some_of t (sent s) /\ Forall2 (carried divided) t (of_source s G)).
  { intros s. destruct (S' s) as (K & SK & EK). rewrite Q in EK. change (of_source s []) with (@nil packet) in EK.
    rewrite app_nil_r, EG, of_blocks in EK. rewrite (atomic_unique (of_source s G) K); [|clear - AG|now apply (ATM s)|exact EK].
    - apply (some_matched _ _ _ SK). apply FT.
    - induction AG as [|x G A AG IH]; [constructor|]. rewrite of_cons. apply Forall_app. split; [|exact IH].
      destruct (Nat.eqb (fst x) s); repeat constructor; assumption. }
  destruct (choose (P := fun s t => some_of t (sent s) /\ Forall2 (carried divided) t (of_source s G)) (concat (map block G)) (@nil (Z * midi_message))) as (sent' & FS).
  { intros s E. split; [apply some_none|]. rewrite of_blocks in E. destruct (FG s) as (t & _ & F).
    assert (AS : Forall atomic (of_source s G)).
    { clear - AG. induction AG as [|x G A AG IH]; [constructor|]. rewrite of_cons. apply Forall_app. split; [|exact IH].
      destruct (Nat.eqb (fst x) s); repeat constructor; assumption. }
    destruct (of_source s G) as [|k K]; [constructor|]. exfalso. apply Forall_inv in AS as (a & z & -> & _). cbn [concat] in E. destruct a; discriminate. }
  { exact FG. }
  destruct (interleave _ G sent' (fun s => proj2 (FS s))) as (order & FO & SO).
  assert (FR : forall s, Forall2 (fun gr p => p = rt_packet gr /\ rt_ok gr) (rt s) (of_source s (filter (fun x => passes_at_once (snd x)) l)))
    by (intros s; destruct (P s) as (M & _ & _ & _ & X); exact X).
  destruct (interleave _ _ rt FR) as (rts & FRT & ST).
  exists b, out, order, rts, (concat (map snd G)). split; [reflexivity|]. split; [exact Q|]. split; [intros s; rewrite SO; apply FS|]. split; [exact ST|].
  split; [exact R|]. split.
  - apply session_parts. exists (map snd G). split; [|reflexivity]. clear - FO. induction FO as [|x y l l' [_ C] F IH]; cbn [map]; constructor; assumption.
  - apply between_make.
    + rewrite filter_snd. change (fun x : nat * packet => negb (passes_at_once (snd x))) with other. rewrite EG.
      clear. induction G as [|x G IH]; [reflexivity|]. cbn [map concat]. rewrite map_app, IH. f_equal. unfold block. rewrite map_map. cbn. apply map_id.
    + rewrite filter_snd, R. clear - FRT. induction FRT as [|x y k k' (_ & E & _) F IH]; [reflexivity|]. cbn [map]. now rewrite IH, E.
    + clear - FRT. induction FRT as [|x y k k' (_ & _ & E) F IH]; cbn [map]; constructor; assumption.
Qed.

Lemma limited_kept (P : nat * packet -> Prop) n l : forall b, Forall P (mg_waiting (lm_merger b)) -> Forall P l ->
  Forall P (snd (limited_run n b l)).
Proof.
  induction l as [|x l IH]; intros b W F; cbn [limited_run fst snd]; [constructor|]. apply Forall_cons_iff in F as [F1 F2]. unfold limited_step.
  destruct (passes_at_once (snd x)) eqn:E; [cbn [fst snd app]; constructor; auto|].
  destruct (lm_skip b (fst x) && goes_on (snd x)); [cbn [fst snd app]; now apply IH|].
  destruct (may_send _ _ || _).
  - unfold merge_step. rewrite E. cbn [fst snd]. set (w := mg_waiting (lm_merger b) ++ [x]).
    destruct (drain_ok (length w) (mg_line (lm_merger b)) w (le_n _)) as (_ & _ & _ & D).
    destruct (D P) as [D1 D2]; [apply Forall_app; auto|]. apply Forall_app. split; [exact D1|]. now apply IH.
  - cbn [fst snd app]. apply IH; [|exact F2]. now apply retract_forall.
Qed.

Theorem limited_merged n g st ms rts l : reached g true st -> (forall s, sent_as (ms s) (rts s) (of_source s l)) ->
  exists b out order ros, limited_run n new_limited l = (b, out) /\ mg_waiting (lm_merger b) = [] /\
    (forall s, some_of (of_source s order) (ms s)) /\ (forall s, of_source s ros = rts s) /\
    filter (fun x => realtime_packet (snd x)) out = filter (fun x => realtime_packet (snd x)) l /\
    arrives g st (map snd order) (map snd ros) (map snd out).
Proof.
  intros R H.
  assert (W : Forall (fun x => wf_packet (snd x)) l) by (apply all_wf; intros s; eapply sent_wf, H).
  destruct (choose (P := fun s (d : list (Z * midi_message) * list (Z * Z)) => map snd (fst d) = ms s /\ map snd (snd d) = rts s /\
    exists ps, session divided (fst d) ps /\ realtime_between (snd d) ps (of_source s l)) l ([], [])) as (f & F).
  { intros s E. destruct (H s) as (gms & rs & ps & <- & <- & S & B). rewrite E in B. rewrite E.
    assert (rs = [] /\ ps = []) as [-> ->] by (inversion B; auto).
    assert (gms = []) as ->.
    { apply session_parts in S. destruct S as (L & F & X). destruct F as [|x y k k' C F]; [reflexivity|].
      destruct (carried_atomic _ _ C) as [(a & z & -> & _) _]. destruct a; discriminate. }
    cbn. split; [reflexivity|]. split; [reflexivity|]. exists []. split; constructor. }
  { intros s. destruct (H s) as (gms & rs & ps & E1 & E2 & S & B). exists (gms, rs). cbn [fst snd]. eauto. }
  destruct (limited_session n (fun s => fst (f s)) (fun s => snd (f s)) l) as (b & out & order & ros & ps & E & Q & O1 & O2 & RT & S & B).
  { intros s. apply (F s). }
  exists b, out, (map (fun x => (fst x, snd (snd x))) order), (map (fun x => (fst x, snd (snd x))) ros).
  split; [exact E|]. split; [exact Q|]. split; [intros s; rewrite of_map; destruct (F s) as (<- & _); now apply some_map|].
  split; [intros s; rewrite of_map, O2; apply (F s)|]. split.
  { assert (WO := limited_kept (fun x => wf_packet (snd x)) n l new_limited ltac:(constructor) W). rewrite E in WO. cbn [snd] in WO.
    rewrite <- (filter_same (fun x => passes_at_once (snd x)) (fun x => realtime_packet (snd x)) out)
      by (revert WO; apply Forall_impl; intros y; apply realtime_is).
    rewrite <- (filter_same (fun x => passes_at_once (snd x)) (fun x => realtime_packet (snd x)) l)
      by (revert W; apply Forall_impl; intros y; apply realtime_is).
    exact RT. }
  destruct (session_delivered g st _ ps _ _ R S B) as (bs & st' & ev & E1 & E2 & E3 & E4). exists bs, st', ev.
  split; [exact E1|]. split; [exact E2|]. rewrite E3, E4. unfold regroup. rewrite !map_map. cbn [fst snd]. split; [|reflexivity]. f_equal.
Qed.

(* ---- how much is waiting ------------------------------------------------------------------------- *)

Lemma drain_length n : forall line w, (length (snd (drain n line w)) + length (mg_waiting (fst (drain n line w))) = length w)%nat.
Proof.
  induction n as [|n IH]; intros line w; cbn [drain]; [reflexivity|]. destruct (next_out line w) as [[x w']|] eqn:E; [|reflexivity].
  destruct (next_some _ _ _ _ E) as (a & b & -> & -> & _). cbn [fst snd length]. specialize (IH (if keeps_line (snd x) then Some (fst x) else None) (a ++ b)).
  rewrite app_length in *. cbn [length]. lia.
Qed.
Lemma next_first line w x : Forall (fun y => may_send line (fst y) = false) w -> may_send line (fst x) = true -> next_out line (w ++ [x]) = Some (x, w).
Proof.
  induction 1 as [|y w Y F IH]; intros X; cbn [app next_out]; [now rewrite X|]. now rewrite Y, (IH X).
Qed.
Lemma next_no line w : Forall (fun y => may_send line (fst y) = false) w -> next_out line w = None.
Proof. induction 1 as [|y w Y F IH]; cbn [next_out]; [reflexivity|]. now rewrite Y, IH. Qed.
(* a packet that may be sent is *)
Lemma step_sends m x : orderly m -> passes_at_once (snd x) = false -> may_send (mg_line m) (fst x) = true ->
  exists r, merge_step m x = (fst (merge_step m x), x :: r).
Proof.
  intros [O _] P M. unfold merge_step. rewrite P. rewrite app_length, Nat.add_comm. cbn [length Nat.add drain].
  rewrite (next_first _ _ _ O M). cbn [fst snd]. eauto.
Qed.
Lemma step_waits m x : orderly m -> passes_at_once (snd x) = false -> may_send (mg_line m) (fst x) = false ->
  merge_step m x = (mkMerger (mg_line m) (mg_waiting m ++ [x]), []).
Proof.
  intros [O _] P M. unfold merge_step. rewrite P. rewrite app_length, Nat.add_comm. cbn [length Nat.add drain].
  rewrite next_no; [reflexivity|]. apply Forall_app. auto.
Qed.
Lemma step_orderly m x : orderly m -> orderly (fst (merge_step m x)).
Proof.
  intros O. destruct (run_ok [x] m O) as (J & _). cbn [merge_run fst] in J. exact J.
Qed.
Lemma limited_orderly n b x : orderly (lm_merger b) -> orderly (lm_merger (fst (limited_step n b x))).
Proof.
  intros O. unfold limited_step. destruct (passes_at_once (snd x)); [exact O|]. destruct (lm_skip b (fst x) && goes_on (snd x)); [exact O|].
  destruct (may_send _ _ || _); [apply step_orderly, O|]. destruct O as [O1 O2]. split; cbn [fst lm_merger mg_line mg_waiting]; now apply retract_forall.
Qed.
Lemma run_orderly n l : forall b, orderly (lm_merger b) -> orderly (lm_merger (fst (limited_run n b l))).
Proof. induction l as [|x l IH]; intros b O; cbn [limited_run fst]; [exact O|]. apply IH, limited_orderly, O. Qed.

Lemma bounded_from n l : forall b, orderly (lm_merger b) -> (length (mg_waiting (lm_merger b)) <= n)%nat ->
  (length (mg_waiting (lm_merger (fst (limited_run n b l)))) <= n)%nat.
Proof.
  induction l as [|x l IH]; intros b O B; cbn [limited_run fst]; [exact B|]. apply IH; [now apply limited_orderly|].
  unfold limited_step. destruct (passes_at_once (snd x)) eqn:P; [exact B|]. destruct (lm_skip b (fst x) && goes_on (snd x)); [exact B|].
  destruct (may_send (mg_line (lm_merger b)) (fst x)) eqn:M; cbn [orb].
  - cbn [fst lm_merger]. destruct (step_sends _ _ O P M) as (r & E).
    assert (D : (length (snd (merge_step (lm_merger b) x)) + length (mg_waiting (fst (merge_step (lm_merger b) x))) = length (mg_waiting (lm_merger b)) + 1)%nat).
    { unfold merge_step. rewrite P, drain_length, app_length. reflexivity. }
    rewrite E in D at 1. cbn [snd length] in D. lia.
  - destruct (Nat.ltb_spec (length (mg_waiting (lm_merger b))) n) as [L|L]; cbn [fst lm_merger mg_waiting].
    + rewrite (step_waits _ _ O P M). cbn [fst mg_waiting]. rewrite app_length. cbn [length]. lia.
    + pose proof (retract_length (fst x) (mg_waiting (lm_merger b))). lia.
Qed.
Theorem bounded n l : (length (mg_waiting (lm_merger (fst (limited_run n new_limited l)))) <= n)%nat.
Proof. apply bounded_from; [split; constructor|]. cbn. lia. Qed.

Lemma enough_from n l : forall b m, lm_merger b = m -> (forall s, lm_skip b s = false) -> orderly m ->
  (forall k, (length (mg_waiting (fst (merge_run m (firstn k l)))) <= n)%nat) ->
  lm_merger (fst (limited_run n b l)) = fst (merge_run m l) /\ snd (limited_run n b l) = snd (merge_run m l).
Proof.
  induction l as [|x l IH]; intros b m <- S O H; cbn [limited_run merge_run fst snd]; [auto|].
  assert (E : lm_merger (fst (limited_step n b x)) = fst (merge_step (lm_merger b) x) /\ snd (limited_step n b x) = snd (merge_step (lm_merger b) x) /\
    forall s, lm_skip (fst (limited_step n b x)) s = false).
  { unfold limited_step. destruct (passes_at_once (snd x)) eqn:P; [unfold merge_step; rewrite P; auto|]. rewrite S. cbn [andb].
    destruct (may_send (mg_line (lm_merger b)) (fst x)) eqn:M; cbn [orb].
    - cbn [fst snd lm_merger lm_skip]. split; [reflexivity|]. split; [reflexivity|]. intros s. unfold skip_at. now destruct (Nat.eqb s (fst x)).
    - specialize (H 1%nat). cbn [firstn merge_run fst snd] in H. rewrite (step_waits _ _ O P M) in H. cbn [fst mg_waiting] in H. rewrite app_length in H.
      cbn [length] in H. destruct (Nat.ltb_spec (length (mg_waiting (lm_merger b))) n); [|lia]. cbn [fst snd lm_merger lm_skip].
      split; [reflexivity|]. split; [reflexivity|]. intros s. unfold skip_at. now destruct (Nat.eqb s (fst x)). }
  destruct E as (E1 & E2 & E3).
  destruct (IH (fst (limited_step n b x)) (fst (merge_step (lm_merger b) x)) E1 E3) as [J1 J2].
  { now apply step_orderly. }
  { intros k. specialize (H (Datatypes.S k)). rewrite firstn_cons in H. cbn [merge_run] in H. cbv zeta in H. cbn [fst] in H. exact H. }
  split; [exact J1|]. rewrite E2, J2. reflexivity.
Qed.
Theorem enough n l : (forall k, (length (mg_waiting (fst (merge_run new_merger (firstn k l)))) <= n)%nat) ->
  lm_merger (fst (limited_run n new_limited l)) = fst (merge_run new_merger l) /\ snd (limited_run n new_limited l) = snd (merge_run new_merger l).
Proof. intros H. apply enough_from; auto. split; constructor. Qed.

(* ---- who is served at once ------------------------------------------------------------------------- *)

Lemma limited_app n a : forall b c, limited_run n b (a ++ c) =
  (fst (limited_run n (fst (limited_run n b a)) c), snd (limited_run n b a) ++ snd (limited_run n (fst (limited_run n b a)) c)).
Proof.
  induction a as [|x a IH]; intros b c; cbn [app limited_run fst snd].
  - now destruct (limited_run n b c).
  - rewrite IH. cbn [fst snd]. now rewrite app_assoc.
Qed.
Lemma limited_line n l : forall b outs, orderly (lm_merger b) -> on_line None outs (mg_line (lm_merger b)) ->
  on_line None (outs ++ filter other (snd (limited_run n b l))) (mg_line (lm_merger (fst (limited_run n b l)))).
Proof.
  induction l as [|x l IH]; intros b outs O L; cbn [limited_run fst snd]; [cbn [filter]; now rewrite app_nil_r|].
  rewrite filter_app, app_assoc. apply IH; [now apply limited_orderly|].
  unfold limited_step. destruct (passes_at_once (snd x)) eqn:P.
  { cbn [fst snd filter]. unfold other. rewrite P. cbn [negb]. now rewrite app_nil_r. }
  destruct (lm_skip b (fst x) && goes_on (snd x)); [cbn [fst snd filter]; now rewrite app_nil_r|].
  destruct (may_send _ _ || _); [|cbn [fst snd filter]; now rewrite app_nil_r]. cbn [fst snd lm_merger].
  destruct (run_ok [x] (lm_merger b) O) as (_ & J & _). cbn [merge_run fst snd] in J. rewrite app_nil_r in J. eapply line_app; eassumption.
Qed.
Lemma line_last o l o' : on_line o l o' -> match o' with None => l = [] \/ exists a s p, l = a ++ [(s, p)] /\ keeps_line p = false
  | Some s => (l = [] /\ o = Some s) \/ exists a p, l = a ++ [(s, p)] /\ keeps_line p = true end.
Proof.
  induction 1 as [o|o s p l o' M L IH]; [destruct o; auto|]. destruct o' as [s'|].
  - right. destruct IH as [[-> E]|(a & q & -> & K)].
    + destruct (keeps_line p) eqn:K; [|discriminate]. injection E as ->. exists [], p. auto.
    + exists ((s, p) :: a), q. auto.
  - right. destruct IH as [->|(a & s' & q & -> & K)].
    + exists [], s, p. split; [reflexivity|]. destruct (keeps_line p); [|reflexivity]. exfalso. inversion L.
    + exists ((s, p) :: a), s', q. auto.
Qed.

Lemma goes_follows p : wf_packet p -> goes_on p = true -> follows_on p.
Proof.
  intros W. unfold goes_on, follows_on, is_sysex7_packet, sysex7_format. rewrite type_spec, status_spec, land_240 by exact W.
  replace (Z.land (Z.shiftr (w0 p / 65536 mod 256) 4) 3) with (w0 p / 65536 mod 256 / 16 mod 4)
    by (change 3 with (Z.ones 2); now rewrite Z.land_ones, Z.shiftr_div_pow2).
  replace (w0 p / 65536 mod 256 / 16) with (w0 p / 1048576 mod 16).
  2: { replace 1048576 with (65536 * 16) by reflexivity. rewrite <- Z.div_div by lia. generalize (w0 p / 65536). intros x. dlia. }
  generalize (w0 p / 1048576 mod 16) (Z.land (w0 p / 65536 mod 256) 15) (Z.mod_pos_bound (w0 p / 1048576) 16 ltac:(lia)). unfold pt_data.
  intros n c N H. rewrite !andb_true_iff in H. assert (n mod 16 = n) by (apply Z.mod_small; lia).
  assert (n <= 3) by lia. assert (n mod 4 = n) by (apply Z.mod_small; lia). lia.
Qed.

(* A message that begins while no other connection is within a SysEx is sent at once. *)
Theorem served n l s p : Forall (fun x => wf_packet (snd x)) l -> wf_packet p -> realtime_packet p = false -> ~ follows_on p ->
  (forall a o z, filter (fun x => negb (realtime_packet (snd x))) (snd (limited_run n new_limited l)) = a ++ [(o, z)] -> o = s \/ ~ MergeSpec.unfinished z) ->
  exists r, snd (limited_run n new_limited (l ++ [(s, p)])) = snd (limited_run n new_limited l) ++ (s, p) :: r.
Proof.
  intros W WP R F H. rewrite limited_app. cbn [limited_run fst snd]. rewrite app_nil_r.
  assert (WO := limited_kept (fun x => wf_packet (snd x)) n l new_limited ltac:(constructor) W).
  assert (O : orderly (lm_merger (fst (limited_run n new_limited l)))) by (apply run_orderly; split; constructor).
  assert (L := limited_line n l new_limited [] ltac:(split; constructor) ltac:(constructor)). cbn [app] in L.
  set (b := fst (limited_run n new_limited l)) in *. set (out := snd (limited_run n new_limited l)) in *.
  assert (X : filter (fun x => negb (realtime_packet (snd x))) out = filter other out).
  { apply filter_same. revert WO. apply Forall_impl. intros y Y. unfold other. now rewrite realtime_is. }
  rewrite X in H.
  assert (M : may_send (mg_line (lm_merger b)) s = true).
  { assert (LL := line_last _ _ _ L). destruct (mg_line (lm_merger b)) as [o|]; [|reflexivity].
    destruct LL as [[_ Y]|(a & z & E & K)]; [discriminate|]. cbn [may_send]. destruct (H a o z E) as [->|U]; [apply Nat.eqb_refl|].
    exfalso. apply U. apply keeps_unfinished; [|exact K]. assert (I : In (o, z) (filter other out)) by (rewrite E; apply in_or_app; right; now left).
    apply filter_In in I as [I _]. rewrite Forall_forall in WO. exact (WO _ I). }
  assert (PA : passes_at_once p = false) by now rewrite realtime_is.
  assert (G : goes_on p = false).
  { destruct (goes_on p) eqn:G; [|reflexivity]. exfalso. apply F. now apply goes_follows. }
  unfold limited_step. cbn [fst snd]. rewrite PA, G, andb_false_r, M. cbn [orb snd].
  destruct (step_sends (lm_merger b) (s, p) O PA M) as (r & E). exists r. rewrite E. reflexivity.
Qed.

(* ---- bytes ------------------------------------------------------------------------------------------ *)

Lemma lbox_arrivals n sched : forall b, (forall s, exists r, feed_all (lb_parsers b s) (of_source s sched) = Ok r) ->
  exists b' out arr, lbox_run n b sched = Ok (b', out) /\ limited_run n (lb_limited b) arr = (lb_limited b', out) /\
    forall s, exists ev, feed_all (lb_parsers b s) (of_source s sched) = Ok (lb_parsers b' s, ev) /\ of_source s arr = packets_of ev.
Proof.
  induction sched as [|[s0 y] sched IH]; intros b H.
  - exists b, [], []. split; [reflexivity|]. split; [now destruct (lb_limited b)|]. intros s. exists []. split; reflexivity.
  - cbn [lbox_run]. unfold lbox_step. cbn [fst snd]. destruct (H s0) as (r0 & E0). rewrite of_cons in E0. cbn [fst snd] in E0.
    rewrite Nat.eqb_refl in E0. cbn [app feed_all] in E0. destruct (feed (lb_parsers b s0) y) as [[st1 o1]|] eqn:F; [|discriminate].
    cbn [bind fst snd] in *.
    set (mr := limited_run n (lb_limited b) (box_packets s0 o1)).
    set (b1 := mkLBox (fun i => if Nat.eqb i s0 then st1 else lb_parsers b i) (fst mr)).
    destruct (IH b1) as (b' & out & arr & E1 & E2 & E3).
    { intros s. unfold b1. cbn [lb_parsers]. destruct (Nat.eqb_spec s s0) as [->|N].
      - destruct (feed_all st1 (of_source s0 sched)) as [r|]; [eauto|discriminate].
      - destruct (H s) as (r & E). rewrite of_cons in E. cbn [fst] in E. destruct (Nat.eqb_spec s0 s); [congruence|]. eauto. }
    rewrite E1. cbn [bind fst snd]. exists b', (snd mr ++ out), (box_packets s0 o1 ++ arr). split; [reflexivity|]. split.
    + rewrite limited_app. fold mr. unfold b1 in E2. cbn [lb_limited] in E2. rewrite E2. reflexivity.
    + intros s. destruct (E3 s) as (ev & E4 & E5). rewrite of_cons, of_app, of_box, E5. cbn [fst snd]. unfold b1 in E4. cbn [lb_parsers] in E4.
      destruct (Nat.eqb_spec s s0) as [->|N].
      * rewrite Nat.eqb_refl. cbn [app feed_all]. rewrite F. cbn [bind]. rewrite E4. cbn [bind]. exists (o1 ++ ev). split; [reflexivity|].
        unfold packets_of. now rewrite map_app, concat_app.
      * destruct (Nat.eqb_spec s0 s); [congruence|]. cbn [app]. exists ev. auto.
Qed.

Theorem limited_bytes n g st gr P ms rts sched : reached g true st -> (forall s, reached (gr s) false (P s)) ->
  (forall s, on_cable (ms s) (rts s) (of_source s sched)) ->
  exists b out order ros, lbox_run n (mkLBox P new_limited) sched = Ok (b, out) /\ mg_waiting (lm_merger (lb_limited b)) = [] /\
    (forall s, some_of (of_source s order) (ms s)) /\ (forall s, of_source s ros = rts s) /\
    arrives g st (map snd order) (map snd ros) (map snd out).
Proof.
  intros R RP H. destruct (lbox_arrivals n sched (mkLBox P new_limited)) as (b & out & arr & E & EM & EA).
  { intros s. destruct (from_cable _ _ _ _ _ (RP s) (H s)) as (st' & ev & X & _). eauto. }
  cbn [lb_parsers lb_limited] in *.
  destruct (limited_merged n g st ms rts arr R) as (m & out' & order & ros & E' & W & O1 & O2 & _ & A).
  { intros s. destruct (EA s) as (ev & X & ->). destruct (from_cable _ _ _ _ _ (RP s) (H s)) as (st' & ev' & X' & S).
    rewrite X in X'. injection X' as _ <-. exact S. }
  rewrite EM in E'. injection E' as <- <-. exists b, out, order, ros. auto.
Qed.
(* any bytes whatever *)
Theorem limited_any_bytes n gr cb P sched : (forall s, reached (gr s) (cb s) (P s)) -> Forall (fun x => is_u8 (snd x)) sched ->
  exists b out, lbox_run n (mkLBox P new_limited) sched = Ok (b, out) /\ (length (mg_waiting (lm_merger (lb_limited b))) <= n)%nat.
Proof.
  intros R U. destruct (lbox_arrivals n sched (mkLBox P new_limited)) as (b & out & arr & E & EM & _).
  { intros s. cbn [lb_parsers]. assert (US : Forall is_u8 (of_source s sched)).
    { clear - U. induction U as [|x l H _ IH]; [constructor|]. rewrite of_cons. apply Forall_app. split; [|exact IH].
      destruct (Nat.eqb (fst x) s); [constructor; [exact H|constructor]|constructor]. }
    destruct (R s) as (g0 & on0 & cs & o & G0 & V & E & _).
    destruct (rt_remove_calls g0 _ on0 cs _ o _ G0 V E US) as (st' & out & X & _). eauto. }
  exists b, out. split; [exact E|]. cbn [lb_limited] in EM. assert (B := bounded n arr). rewrite EM in B. exact B.
Qed.

(* ---- any packets ------------------------------------------------------------------------------------- *)

Lemma some_trans {A} (b c : list A) : some_of b c -> forall a, some_of a b -> some_of a c.
Proof.
  induction 1 as [|x b c S IH|x b c S IH]; intros a T; [exact T| |apply some_leave; auto].
  inversion T; subst; [apply some_take|apply some_leave]; auto.
Qed.
Lemma some_rev {A} (a b : list A) : some_of a b -> some_of (rev a) (rev b).
Proof.
  induction 1; cbn [rev]; [constructor|apply some_app; [assumption|apply some_all]|].
  rewrite <- (app_nil_r (rev l)). apply some_app; [assumption|apply some_none].
Qed.
Lemma retract_rev_some s s' w : some_of (of_source s' (retract_rev s w)) (of_source s' w).
Proof.
  induction w as [|x w IH]; cbn [retract_rev]; [constructor|]. rewrite (of_cons s' x w). destruct (Nat.eqb (fst x) s) eqn:E.
  - destruct (keeps_line (snd x)).
    + change (of_source s' (retract_rev s w)) with ([] ++ of_source s' (retract_rev s w)). apply some_app; [apply some_none|exact IH].
    + rewrite of_cons. apply some_all.
  - rewrite of_cons. apply some_app; [apply some_all|exact IH].
Qed.
Lemma retract_some s s' w : some_of (of_source s' (retract s w)) (of_source s' w).
Proof.
  unfold retract. rewrite (of_rev s' (retract_rev s (rev w))). rewrite <- (rev_involutive (of_source s' w)). apply some_rev.
  rewrite <- of_rev. apply retract_rev_some.
Qed.

Lemma limited_parts n l : forall b outs ins, orderly (lm_merger b) ->
  (forall s, some_of (of_source s outs ++ of_source s (mg_waiting (lm_merger b))) (of_source s ins)) ->
  (forall s, some_of (of_source s (outs ++ filter other (snd (limited_run n b l))) ++ of_source s (mg_waiting (lm_merger (fst (limited_run n b l)))))
     (of_source s (ins ++ filter other l))) /\
  filter (fun x => passes_at_once (snd x)) (snd (limited_run n b l)) = filter (fun x => passes_at_once (snd x)) l.
Proof.
  induction l as [|x l IH]; intros b outs ins O S.
  - cbn [limited_run fst snd filter]. split; [|reflexivity]. intros s. rewrite !app_nil_r. apply S.
  - cbn [limited_run fst snd]. assert (O' := limited_orderly n b x O).
    assert (Q : (forall s, some_of (of_source s (outs ++ filter other (snd (limited_step n b x))) ++ of_source s (mg_waiting (lm_merger (fst (limited_step n b x)))))
        (of_source s (ins ++ filter other [x]))) /\
      filter (fun x => passes_at_once (snd x)) (snd (limited_step n b x)) = filter (fun x => passes_at_once (snd x)) [x]).
    { assert (LEFT : forall w, (forall s, some_of (of_source s w) (of_source s (mg_waiting (lm_merger b)))) ->
        forall s, some_of (of_source s (outs ++ []) ++ of_source s w) (of_source s (ins ++ filter other [x]))).
      { intros w H s. rewrite app_nil_r, of_app. rewrite <- (app_nil_r (of_source s outs ++ _)). apply some_app; [|apply some_none].
        eapply some_trans; [apply S|]. apply some_app; [apply some_all|apply H]. }
      unfold limited_step. destruct (passes_at_once (snd x)) eqn:P.
      { cbn [fst snd filter]. unfold other. rewrite P. cbn [negb]. rewrite !app_nil_r. split; [exact S|reflexivity]. }
      assert (OX : other x = true) by (unfold other; now rewrite P).
      destruct (lm_skip b (fst x) && goes_on (snd x)).
      { cbn [fst snd lm_merger filter]. rewrite P. split; [|reflexivity]. apply LEFT. intros s. apply some_all. }
      destruct (may_send _ _ || _).
      - cbn [fst snd lm_merger]. destruct (run_ok [x] (lm_merger b) O) as (_ & _ & J3 & J4). cbn [merge_run fst snd] in J3, J4. rewrite app_nil_r in J3, J4.
        split; [|exact J4]. intros s. rewrite of_app, <- app_assoc, J3, of_app, app_assoc. apply some_app; [apply S|apply some_all].
      - cbn [fst snd lm_merger filter mg_waiting]. rewrite P. split; [|reflexivity]. apply LEFT. intros s. apply retract_some. }
    destruct Q as [Q1 Q2]. destruct (IH _ _ _ O' Q1) as [J1 J2]. split.
    + intros s. specialize (J1 s). rewrite filter_app, app_assoc. change (x :: l) with ([x] ++ l). rewrite (filter_app other [x]), app_assoc. exact J1.
    + rewrite filter_app, Q2, J2. change (x :: l) with ([x] ++ l). now rewrite filter_app.
Qed.
Lemma line_next o l o' : on_line o l o' -> forall a s z s' z' c, l = a ++ (s, z) :: (s', z') :: c -> keeps_line z = true -> s' = s.
Proof.
  induction 1 as [o|o s0 p l o' M L IH]; intros a s z s' z' c E K.
  - destruct a; discriminate.
  - destruct a as [|x a]; cbn [app] in E; [|injection E as _ ->; eapply IH; eauto].
    injection E as -> -> ->. rewrite K in L. inversion L as [|? ? ? ? ? M' _]; subst. cbn [may_send] in M'. now apply Nat.eqb_eq in M'.
Qed.

Theorem limited_any n l : Forall (fun x => wf_packet (snd x)) l ->
  exists b out, limited_run n new_limited l = (b, out) /\
    (forall s, some_of (filter (fun p => negb (realtime_packet p)) (of_source s out)) (filter (fun p => negb (realtime_packet p)) (of_source s l))) /\
    filter (fun x => realtime_packet (snd x)) out = filter (fun x => realtime_packet (snd x)) l /\
    (forall a s z s' z' c, filter (fun x => negb (realtime_packet (snd x))) out = a ++ (s, z) :: (s', z') :: c -> MergeSpec.unfinished z -> s' = s).
Proof.
  intros W. assert (WO := limited_kept (fun x => wf_packet (snd x)) n l new_limited ltac:(constructor) W).
  destruct (limited_parts n l new_limited [] []) as [S R]; [split; constructor|intros s; constructor|].
  assert (L := limited_line n l new_limited [] ltac:(split; constructor) ltac:(constructor)). cbn [app] in L, S.
  destruct (limited_run n new_limited l) as [b out]. cbn [fst snd] in *. exists b, out. split; [reflexivity|].
  assert (X : forall k, Forall (fun x : nat * packet => wf_packet (snd x)) k -> filter (fun x => negb (realtime_packet (snd x))) k = filter other k).
  { intros k F. apply filter_same. revert F. apply Forall_impl. intros y Y. unfold other. now rewrite realtime_is. }
  split; [|split].
  - intros s. rewrite <- !(of_filter s (fun p => negb (realtime_packet p))), !X by assumption. eapply some_trans; [apply S|].
    rewrite <- (app_nil_r (of_source s (filter other out))) at 1. apply some_app; [apply some_all|apply some_none].
  - rewrite <- (filter_same (fun x => passes_at_once (snd x)) (fun x => realtime_packet (snd x)) out)
      by (revert WO; apply Forall_impl; intros y; apply realtime_is).
    rewrite <- (filter_same (fun x => passes_at_once (snd x)) (fun x => realtime_packet (snd x)) l)
      by (revert W; apply Forall_impl; intros y; apply realtime_is).
    exact R.
  - intros a s z s' z' c E U. rewrite X in E by assumption. eapply line_next; [exact L|exact E|]. apply keeps_unfinished; [|exact U].
    assert (I : In (s, z) (filter other out)) by (rewrite E; apply in_or_app; right; now left). apply filter_In in I as [I _].
    rewrite Forall_forall in WO. exact (WO _ I).
Qed.
