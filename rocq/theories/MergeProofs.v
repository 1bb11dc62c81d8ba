(* Lemmas about the merge box. *)
From Coq Require Import ZArith List Bool Lia ZifyBool ZifyNat.
From Verif Require Import Base Bits Packet PacketSpec PacketProofs PacketBytes Messages ByteStream StreamSpec StreamLemmas StreamCalls StreamProofs
  SessionSpec SessionProofs Merge MergeSpec.
Import ListNotations.
Local Open Scope Z_scope.

(* ---- belonging to a source ------------------------------------------------------------------- *)

Lemma of_app {A} s (a b : list (nat * A)) : of_source s (a ++ b) = of_source s a ++ of_source s b.
Proof. unfold of_source. now rewrite filter_app, map_app. Qed.
Lemma of_cons {A} s (x : nat * A) l : of_source s (x :: l) = (if Nat.eqb (fst x) s then [snd x] else []) ++ of_source s l.
Proof. unfold of_source. cbn [filter]. now destruct (Nat.eqb (fst x) s). Qed.
Lemma of_filter {A} s (f : A -> bool) (l : list (nat * A)) : of_source s (filter (fun x => f (snd x)) l) = filter f (of_source s l).
Proof.
  induction l as [|x l IH]; [reflexivity|]. cbn [filter]. rewrite of_cons, filter_app, <- IH.
  destruct (f (snd x)) eqn:E; rewrite ?of_cons; destruct (Nat.eqb (fst x) s); cbn [filter app]; now rewrite ?E.
Qed.
Lemma of_none {A} s (l : list (nat * A)) : Forall (fun x => Nat.eqb (fst x) s = false) l -> of_source s l = [].
Proof. induction 1 as [|x l H _ IH]; [reflexivity|]. now rewrite of_cons, H, IH. Qed.

(* a choice for every element, source by source *)
Lemma interleave {A B} (R : A -> B -> Prop) (L : list (nat * B)) : forall sent : nat -> list A,
  (forall s, Forall2 R (sent s) (of_source s L)) ->
  exists l : list (nat * A), Forall2 (fun x y => fst x = fst y /\ R (snd x) (snd y)) l L /\ forall s, of_source s l = sent s.
Proof.
  induction L as [|[s0 y] L IH]; intros sent H.
  - exists []. split; [constructor|]. intros s. specialize (H s). now inversion H.
  - pose proof (H s0) as H0. rewrite of_cons in H0. cbn [fst] in H0. rewrite Nat.eqb_refl in H0. cbn [app snd] in H0.
    inversion H0 as [|x ? rest ? R0 F0 E]; subst.
    destruct (IH (fun s => if Nat.eqb s s0 then rest else sent s)) as (l & F & S).
    { intros s. destruct (Nat.eqb_spec s s0) as [->|N]; [exact F0|]. specialize (H s). rewrite of_cons in H. cbn [fst] in H.
      destruct (Nat.eqb_spec s0 s); [congruence|exact H]. }
    exists ((s0, x) :: l). split; [constructor; [split; [reflexivity|exact R0]|exact F]|]. intros s. rewrite of_cons, S. cbn [fst snd].
    destruct (Nat.eqb_spec s s0) as [->|N]; [rewrite Nat.eqb_refl; cbn; congruence|]. destruct (Nat.eqb_spec s0 s); [congruence|reflexivity].
Qed.

(* ---- the line ---------------------------------------------------------------------------------- *)

Lemma next_some line w x r : next_out line w = Some (x, r) ->
  exists a b, w = a ++ x :: b /\ r = a ++ b /\ may_send line (fst x) = true /\ Forall (fun y => may_send line (fst y) = false) a.
Proof.
  revert x r. induction w as [|y w IH]; intros x r H; [discriminate|]. cbn [next_out] in H. destruct (may_send line (fst y)) eqn:M.
  - injection H as <- <-. exists [], w. repeat split; auto.
  - destruct (next_out line w) as [[z q]|]; [|discriminate]. injection H as <- <-.
    destruct (IH z q eq_refl) as (a & b & -> & -> & S & F). exists (y :: a), b. repeat split; auto.
Qed.
Lemma next_none line w : next_out line w = None -> Forall (fun y => may_send line (fst y) = false) w.
Proof.
  induction w as [|y w IH]; intros H; [constructor|]. cbn [next_out] in H. destruct (may_send line (fst y)) eqn:M; [discriminate|].
  constructor; [exact M|]. apply IH. now destruct (next_out line w) as [[]|].
Qed.

(* what is sent, from one state of the line to another *)
Inductive on_line : option nat -> list (nat * packet) -> option nat -> Prop :=
| line_rest o : on_line o [] o
| line_sent o s p l o' : may_send o s = true -> on_line (if keeps_line p then Some s else None) l o' -> on_line o ((s, p) :: l) o'.
Lemma line_app o l o1 l' o2 : on_line o l o1 -> on_line o1 l' o2 -> on_line o (l ++ l') o2.
Proof. induction 1; intros H'; [exact H'|]. cbn [app]. constructor; auto. Qed.

Lemma drain_ok n : forall line w, (length w <= n)%nat ->
  let r := drain n line w in
  on_line line (snd r) (mg_line (fst r)) /\
  (forall s, of_source s (snd r ++ mg_waiting (fst r)) = of_source s w) /\
  Forall (fun y => may_send (mg_line (fst r)) (fst y) = false) (mg_waiting (fst r)) /\
  (forall P : nat * packet -> Prop, Forall P w -> Forall P (snd r) /\ Forall P (mg_waiting (fst r))).
Proof.
  induction n as [|n IH]; intros line w L.
  - destruct w; [|cbn in L; lia]. cbn. repeat split; try constructor; auto.
  - cbn [drain]. destruct (next_out line w) as [[x w']|] eqn:E; cbn [fst snd].
    + destruct (next_some _ _ _ _ E) as (a & b & -> & -> & M & F).
      rewrite app_length in L. cbn [length] in L.
      destruct (IH (if keeps_line (snd x) then Some (fst x) else None) (a ++ b) ltac:(rewrite app_length; lia)) as (I1 & I2 & I3 & I4).
      destruct x as [s p]. cbn [fst snd] in *. split; [constructor; assumption|]. split; [|split; [exact I3|]].
      * intros s'. cbn [app]. rewrite of_cons, I2, !of_app, of_cons. cbn [fst snd]. destruct (Nat.eqb_spec s s') as [->|N]; [|reflexivity].
        cbn [app]. rewrite (of_none s' a); [reflexivity|]. revert F. apply Forall_impl. intros y Y.
        destruct (Nat.eqb_spec (fst y) s'); [congruence|reflexivity].
      * intros P FP. apply Forall_app in FP. destruct FP as [FA FB]. inversion_clear FB as [|? ? PX FB'].
        destruct (I4 P) as [J1 J2]; [apply Forall_app; auto|]. split; [constructor|]; assumption.
    + cbn [mg_line mg_waiting app]. split; [constructor|]. split; [reflexivity|]. split; [now apply next_none|]. auto.
Qed.

Definition other (x : nat * packet) : bool := negb (passes_at_once (snd x)).
Definition orderly (m : merger) : Prop :=
  Forall (fun y => may_send (mg_line m) (fst y) = false) (mg_waiting m) /\ Forall (fun y => other y = true) (mg_waiting m).

Lemma filter_all {A} (f : A -> bool) l : Forall (fun x => f x = true) l -> filter f l = l.
Proof. induction 1 as [|x l H _ IH]; [reflexivity|]. cbn [filter]. now rewrite H, IH. Qed.
Lemma filter_nothing {A} (f : A -> bool) l : Forall (fun x => f x = false) l -> filter f l = [].
Proof. induction 1 as [|x l H _ IH]; [reflexivity|]. cbn [filter]. now rewrite H. Qed.

Lemma run_ok l : forall m, orderly m ->
  let r := merge_run m l in
  orderly (fst r) /\
  on_line (mg_line m) (filter other (snd r)) (mg_line (fst r)) /\
  (forall s, of_source s (filter other (snd r)) ++ of_source s (mg_waiting (fst r)) = of_source s (mg_waiting m) ++ of_source s (filter other l)) /\
  filter (fun x => passes_at_once (snd x)) (snd r) = filter (fun x => passes_at_once (snd x)) l.
Proof.
  induction l as [|x l IH]; intros m [O1 O2]; cbn [merge_run fst snd].
  - cbn [filter]. split; [split; assumption|]. split; [constructor|]. split; [intros s; now rewrite app_nil_r|reflexivity].
  - unfold merge_step. destruct (passes_at_once (snd x)) eqn:E; cbn [fst snd].
    + destruct (IH m (conj O1 O2)) as (J1 & J2 & J3 & J4). assert (OX : other x = false) by (unfold other; now rewrite E).
      cbn [app filter]. rewrite OX, E. split; [exact J1|]. split; [exact J2|]. split; [exact J3|]. now rewrite J4.
    + assert (OX : other x = true) by (unfold other; now rewrite E).
      set (w := mg_waiting m ++ [x]). destruct (drain_ok (length w) (mg_line m) w (le_n _)) as (D1 & D2 & D3 & D4).
      assert (FW : Forall (fun y => other y = true) w) by (unfold w; apply Forall_app; auto).
      destruct (D4 _ FW) as [D5 D6]. set (r := drain (length w) (mg_line m) w) in *.
      destruct (IH (fst r) (conj D3 D6)) as (J1 & J2 & J3 & J4). split; [exact J1|].
      rewrite !filter_app, (filter_all other (snd r) D5). cbn [filter]. rewrite OX, E. split; [|split].
      * eapply line_app; eassumption.
      * intros s. rewrite of_app, <- app_assoc, J3. rewrite (of_cons s x), app_assoc. rewrite <- of_app, D2. unfold w.
        rewrite of_app, of_cons, <- !app_assoc. reflexivity.
      * rewrite J4. rewrite (filter_nothing _ (snd r)); [reflexivity|]. revert D5. apply Forall_impl. intros y Y. unfold other in Y.
        now destruct (passes_at_once (snd y)).
Qed.

(* ---- messages on the line -------------------------------------------------------------------------- *)

Definition atomic (l : list packet) : Prop :=
  exists a z, l = a ++ [z] /\ Forall (fun p => keeps_line p = true) a /\ keeps_line z = false.

Lemma atomic_head a z x b z' y : Forall (fun p => keeps_line p = true) a -> keeps_line z = false ->
  Forall (fun p => keeps_line p = true) b -> keeps_line z' = false ->
  (a ++ [z]) ++ x = (b ++ [z']) ++ y -> a ++ [z] = b ++ [z'] /\ x = y.
Proof.
  revert b. induction a as [|p a IH]; intros b FA KZ FB KZ' E.
  - destruct b as [|q b]; cbn [app] in E.
    + injection E as -> ->. split; reflexivity.
    + injection E as -> E. inversion_clear FB. congruence.
  - destruct b as [|q b]; cbn [app] in E.
    + injection E as -> E. inversion_clear FA. congruence.
    + injection E as -> E. inversion_clear FA. inversion_clear FB. destruct (IH b) as [E1 E2]; auto. split; [cbn [app]; now rewrite E1|exact E2].
Qed.
Lemma atomic_unique A : forall B, Forall atomic A -> Forall atomic B -> concat A = concat B -> A = B.
Proof.
  induction A as [|l A IH]; intros B FA FB E.
  - destruct B as [|l' B]; [reflexivity|]. apply Forall_cons_iff in FB as [(a & z & -> & _) _]. cbn [concat] in E. destruct a; cbn [app] in E; discriminate E.
  - apply Forall_cons_iff in FA as [(a & z & -> & F & K) FA']. destruct B as [|l' B].
    + cbn [concat] in E. destruct a; cbn [app] in E; discriminate E.
    + apply Forall_cons_iff in FB as [(b & z' & -> & F' & K') FB']. cbn [concat] in E.
      destruct (atomic_head a z (concat A) b z' (concat B) F K F' K' E) as [-> E']. f_equal. now apply IH.
Qed.
Lemma atomic_last M a z : Forall atomic M -> concat M = a ++ [z] -> keeps_line z = false.
Proof.
  intros F E. destruct (exists_last (l := M)) as (M' & l & ->).
  { intros ->. cbn in E. destruct a; discriminate. }
  apply Forall_app in F as [_ F]. apply Forall_cons_iff in F as [(b & y & -> & _ & K) _].
  rewrite concat_app in E. cbn [concat] in E. rewrite app_nil_r, app_assoc in E. apply app_inj_tail in E as [_ <-]. exact K.
Qed.

Definition block (x : nat * list packet) : list (nat * packet) := map (pair (fst x)) (snd x).
Lemma of_block s x : of_source s (block x) = if Nat.eqb (fst x) s then snd x else [].
Proof.
  destruct x as [s0 l]. unfold block. cbn [fst snd]. induction l as [|p l IH]; cbn [map]; [now destruct (Nat.eqb s0 s)|].
  rewrite of_cons, IH. cbn [fst snd]. now destruct (Nat.eqb s0 s).
Qed.
Lemma of_blocks s G : of_source s (concat (map block G)) = concat (of_source s G).
Proof.
  induction G as [|x G IH]; [reflexivity|]. cbn [map concat]. rewrite of_app, of_block, IH, of_cons.
  now destruct (Nat.eqb (fst x) s).
Qed.

(* when the line is free again, whole messages were sent *)
Lemma line_free o l o' : on_line o l o' -> o' = None ->
  match o with
  | None => exists G, l = concat (map block G) /\ Forall (fun x => atomic (snd x)) G
  | Some s => exists m G, l = block (s, m) ++ concat (map block G) /\ atomic m /\ Forall (fun x => atomic (snd x)) G
  end.
Proof.
  induction 1 as [o|o s p l o' M L IH]; intros N.
  - subst o. exists []. split; [reflexivity|constructor].
  - specialize (IH N). destruct (keeps_line p) eqn:K.
    + destruct IH as (m & G & -> & (a & z & -> & F & Z) & FG).
      assert (A : atomic (p :: a ++ [z])) by (exists (p :: a), z; auto). destruct o as [s'|].
      * cbn [may_send] in M. apply Nat.eqb_eq in M. subst s'. exists (p :: a ++ [z]), G. split; [reflexivity|]. split; assumption.
      * exists ((s, p :: a ++ [z]) :: G). split; [reflexivity|]. constructor; assumption.
    + destruct IH as (G & -> & FG). assert (A : atomic [p]) by (exists [], p; auto). destruct o as [s'|].
      * cbn [may_send] in M. apply Nat.eqb_eq in M. subst s'. exists [p], G. split; [reflexivity|]. split; assumption.
      * exists ((s, [p]) :: G). split; [reflexivity|]. constructor; assumption.
Qed.
(* when it is not, the last packet of its owner keeps it *)
Lemma line_kept o l s : on_line o l (Some s) -> (l = [] /\ o = Some s) \/ exists a z, of_source s l = a ++ [z] /\ keeps_line z = true.
Proof.
  remember (Some s) as o' eqn:E. induction 1 as [o|o s0 p l o' M L IH]; [left; auto|]. right. specialize (IH E). subst o'.
  rewrite of_cons. cbn [fst snd]. destruct IH as [[-> O]|(a & z & -> & K)].
  - destruct (keeps_line p) eqn:K; [|discriminate]. injection O as ->. rewrite Nat.eqb_refl. exists [], p. auto.
  - exists ((if Nat.eqb s0 s then [p] else []) ++ a), z. split; [apply app_assoc|exact K].
Qed.

(* ---- sessions --------------------------------------------------------------------------------------- *)

Lemma realtime_is p : wf_packet p -> passes_at_once p = realtime_packet p.
Proof.
  intros W. unfold passes_at_once, realtime_packet, is_system_message. rewrite type_spec, status_spec by exact W. reflexivity.
Qed.

Lemma short_keeps g s ds : 0 <= g < 16 -> is_u8 s -> Forall is_u8 ds -> keeps_line (short_packet g s ds) = false.
Proof.
  intros G S D. unfold keeps_line. replace (is_sysex7_packet (short_packet g s ds)) with false; [reflexivity|].
  unfold is_sysex7_packet, is_data_message. rewrite short_type by assumption. unfold short_ty. now destruct (s <? 0xF0).
Qed.
Lemma short_passes g s ds : 0 <= g < 16 -> is_u8 s -> Forall is_u8 ds -> passes_at_once (short_packet g s ds) = (0xF8 <=? s).
Proof.
  intros G S D. unfold passes_at_once, is_system_message. rewrite short_type, short_status by assumption. unfold short_ty.
  destruct (Z.ltb_spec s 0xF0); [cbn; lia|reflexivity].
Qed.
Lemma sx7_keeps g f ds : 0 <= g < 16 -> 0 <= f < 4 -> (length ds <= 6)%nat -> Forall is_u8 ds ->
  keeps_line (sx7_packet g f ds) = ((f =? 1) || (f =? 2)).
Proof.
  intros G F L D. unfold keeps_line. rewrite sx7_is_sysex7 by assumption. unfold sysex7_format. rewrite StreamLemmas.sx7_status by assumption. cbn [andb].
  assert (X : Z.land (Z.shiftr (f * 16 + Z.of_nat (length ds)) 4) 3 = f).
  { rewrite Z.shiftr_div_pow2 by lia. change 3 with (Z.ones 2). rewrite Z.land_ones by lia. dlia. }
  now rewrite X.
Qed.
Lemma sx7_passes g f ds : 0 <= g < 16 -> 0 <= f < 4 -> (length ds <= 6)%nat -> Forall is_u8 ds -> passes_at_once (sx7_packet g f ds) = false.
Proof. intros G F L D. unfold passes_at_once, is_system_message. now rewrite StreamLemmas.sx7_type. Qed.

Lemma tail_atomic g chunks : 0 <= g < 16 -> chunks <> [] -> Forall (fun c => (length c <= 6)%nat) chunks -> Forall (Forall is_u8) chunks ->
  atomic (sx7_tail g chunks) /\ Forall (fun p => passes_at_once p = false) (sx7_tail g chunks).
Proof.
  intros G. induction chunks as [|c chunks IH]; intros N L U; [congruence|]. inversion_clear L. inversion_clear U.
  destruct chunks as [|d chunks].
  - cbn [sx7_tail]. split; [|repeat constructor; apply sx7_passes; trivial; lia]. exists [], (sx7_packet g 3 c).
    split; [reflexivity|]. split; [constructor|]. now rewrite sx7_keeps by (trivial; lia).
  - destruct IH as [(a & z & E & F & K) P]; [discriminate|assumption|assumption|].
    change (sx7_tail g (c :: d :: chunks)) with (sx7_packet g 2 c :: sx7_tail g (d :: chunks)). split.
    + exists (sx7_packet g 2 c :: a), z. rewrite E. split; [reflexivity|]. split; [|exact K]. constructor; [|exact F].
      now rewrite sx7_keeps by (trivial; lia).
    + constructor; [|exact P]. apply sx7_passes; trivial; lia.
Qed.

Lemma carried_atomic gm ps : carried divided gm ps -> atomic ps /\ Forall (fun p => passes_at_once p = false) ps.
Proof.
  intros (G & V & C). destruct (snd gm) as [m|ds]; cbn [valid_midi_message] in V.
  - subst ps. pose proof (annotate_u8 m V) as U. apply Forall_cons_iff in U as [U1 U2]. split.
    + exists [], (short_packet (fst gm) (ms_status m) (ms_data m)). split; [reflexivity|]. split; [constructor|]. now apply short_keeps.
    + constructor; [|constructor]. rewrite short_passes by assumption. pose proof (valid_message_status m V). lia.
  - destruct C as (chunks & [N L] & E & ->). destruct V as [_ V].
    assert (U : Forall (Forall is_u8) chunks).
    { rewrite <- E in V. clear - V. induction chunks; constructor; cbn [concat] in V; apply Forall_app in V as [V1 V2]; [now apply Forall_u7_u8|auto]. }
    destruct chunks as [|c [|d chunks]]; [congruence| |].
    + cbn [sx7_sequence]. inversion_clear L. inversion_clear U. split; [|repeat constructor; apply sx7_passes; trivial; lia].
      exists [], (sx7_packet (fst gm) 0 c). split; [reflexivity|]. split; [constructor|]. now rewrite sx7_keeps by (trivial; lia).
    + inversion_clear L as [|? ? L1 L2]. inversion_clear U as [|? ? U1 U2].
      destruct (tail_atomic (fst gm) (d :: chunks) G) as [(a & z & X & F & K) P]; [discriminate|assumption|assumption|].
      change (sx7_sequence (fst gm) (c :: d :: chunks)) with (sx7_packet (fst gm) 1 c :: sx7_tail (fst gm) (d :: chunks)). split.
      * exists (sx7_packet (fst gm) 1 c :: a), z. rewrite X. split; [reflexivity|]. split; [|exact K]. constructor; [|exact F].
        now rewrite sx7_keeps by (trivial; lia).
      * constructor; [|exact P]. apply sx7_passes; trivial; lia.
Qed.

Lemma session_parts D gms ps : session D gms ps <-> exists L, Forall2 (carried D) gms L /\ concat L = ps.
Proof.
  split.
  - induction 1 as [|gm gms ps qs C S (L & F & <-)]; [exists []; auto|]. exists (ps :: L). auto.
  - intros (L & F & <-). induction F; cbn [concat]; constructor; assumption.
Qed.

Lemma Forall_concat' {A} (P : A -> Prop) L : Forall (Forall P) L -> Forall P (concat L).
Proof. induction 1; [constructor|]. cbn [concat]. apply Forall_app. split; assumption. Qed.
Definition rt_ok (gr : Z * Z) : Prop := 0 <= fst gr < 16 /\ 0xF8 <= snd gr < 256 /\ rt_defined (snd gr) = true.
Definition rt_packet (gr : Z * Z) : packet := short_packet (fst gr) (snd gr) [].
Lemma between_split rs ps qs : realtime_between rs ps qs -> Forall (fun p => passes_at_once p = false) ps ->
  filter (fun p => negb (passes_at_once p)) qs = ps /\ filter passes_at_once qs = map rt_packet rs /\ Forall rt_ok rs.
Proof.
  induction 1 as [|rs p ps qs B IH|g r rs ps qs G R D B IH]; intros F; [repeat split; constructor| |].
  - inversion_clear F as [|? ? P F']. destruct (IH F') as (E1 & E2 & E3). cbn [filter]. rewrite P. cbn [negb]. rewrite E1. auto.
  - destruct (IH F) as (E1 & E2 & E3). cbn [filter]. assert (P : passes_at_once (short_packet g r []) = true).
    { rewrite short_passes by (trivial; unfold is_u8; lia). lia. }
    rewrite P. cbn [negb map]. rewrite E2. repeat split; trivial. constructor; [|exact E3]. repeat split; cbn; trivial; lia.
Qed.
Lemma between_make rs : forall ps qs, filter (fun p => negb (passes_at_once p)) qs = ps -> filter passes_at_once qs = map rt_packet rs ->
  Forall rt_ok rs -> realtime_between rs ps qs.
Proof.
  intros ps qs. revert rs ps. induction qs as [|q qs IH]; intros rs ps E1 E2 F.
  - cbn in *. subst ps. destruct rs; [constructor|discriminate].
  - cbn [filter] in *. destruct (passes_at_once q); cbn [negb] in E1.
    + destruct rs as [|[g r] rs]; [discriminate|]. cbn [map rt_packet fst snd] in E2. injection E2 as -> E2.
      apply Forall_cons_iff in F as [(G & R & D) F']. constructor; auto.
    + subst ps. constructor. auto.
Qed.

Lemma filter_snd {A} (f : A -> bool) (l : list (nat * A)) : filter f (map snd l) = map snd (filter (fun x => f (snd x)) l).
Proof. induction l as [|x l IH]; [reflexivity|]. cbn [map filter]. destruct (f (snd x)); cbn [map]; now rewrite IH. Qed.

(* the packets sent are a session of the messages of all connections *)
Lemma merged_session (sent : nat -> list (Z * midi_message)) (rt : nat -> list (Z * Z)) l :
  (forall s, exists ps, session divided (sent s) ps /\ realtime_between (rt s) ps (of_source s l)) ->
  exists m out order rts ps, merge_run new_merger l = (m, out) /\ mg_waiting m = [] /\
    (forall s, of_source s order = sent s) /\ (forall s, of_source s rts = rt s) /\
    filter (fun x => passes_at_once (snd x)) out = filter (fun x => passes_at_once (snd x)) l /\
    session divided (map snd order) ps /\ realtime_between (map snd rts) ps (map snd out).
Proof.
  intros H.
  assert (P : forall s, exists L, Forall2 (carried divided) (sent s) L /\ Forall atomic L /\ of_source s (filter other l) = concat L /\
    Forall2 (fun gr p => p = rt_packet gr /\ rt_ok gr) (rt s) (of_source s (filter (fun x => passes_at_once (snd x)) l))).
  { intros s. destruct (H s) as (ps & S & B). apply session_parts in S. destruct S as (L & F & <-). exists L. split; [exact F|].
    assert (X : Forall atomic L /\ Forall (Forall (fun p => passes_at_once p = false)) L).
    { clear - F. induction F as [|x y l l' C F [IH1 IH2]]; [split; constructor|]. destruct (carried_atomic _ _ C). split; constructor; assumption. }
    destruct X as [X1 X2]. split; [exact X1|].
    assert (X3 : Forall (fun p => passes_at_once p = false) (concat L)).
    { clear - X2. induction X2; [constructor|]. cbn [concat]. apply Forall_app. split; assumption. }
    destruct (between_split _ _ _ B X3) as (E1 & E2 & E3). unfold other. split.
    - now rewrite (of_filter s (fun p => negb (passes_at_once p))).
    - rewrite (of_filter s passes_at_once), E2. clear - E3. induction E3; cbn [map]; constructor; auto. }
  destruct (run_ok l new_merger) as (O & L & S & R); [split; constructor|]. destruct (merge_run new_merger l) as [m out]. cbn [fst snd] in *.
  cbn [new_merger mg_line mg_waiting] in L, S.
  assert (N : mg_line m = None).
  { destruct (mg_line m) as [s|] eqn:E; [exfalso|reflexivity]. destruct (line_kept _ _ _ L) as [[_ X]|(a & z & X & K)]; [discriminate|].
    specialize (S s). destruct O as [O1 _]. rewrite (of_none s (mg_waiting m)) in S.
    - rewrite app_nil_r in S. change (of_source s []) with (@nil packet) in S. cbn [app] in S. destruct (P s) as (M & _ & AM & EM & _).
      rewrite X, EM in S. rewrite (atomic_last M a z AM (eq_sym S)) in K. discriminate.
    - revert O1. apply Forall_impl. intros y Y. rewrite E in Y. cbn [may_send] in Y. now rewrite Nat.eqb_sym. }
  assert (W : mg_waiting m = []).
  { destruct O as [O1 _]. rewrite N in O1. destruct (mg_waiting m); [reflexivity|]. inversion_clear O1. discriminate. }
  destruct (line_free _ _ _ L N) as (G & EG & AG).
  assert (FG : forall s, Forall2 (carried divided) (sent s) (of_source s G)).
  { intros s. destruct (P s) as (M & FM & AM & EM & _). specialize (S s). rewrite W in S. change (of_source s []) with (@nil packet) in S.
    rewrite app_nil_r in S. cbn [app] in S. rewrite EG, of_blocks, EM in S. rewrite (atomic_unique (of_source s G) M); trivial.
    clear - AG. induction AG as [|x G A AG IH]; [constructor|]. rewrite of_cons. apply Forall_app. split; [|exact IH].
    destruct (Nat.eqb (fst x) s); repeat constructor; assumption. }
  destruct (interleave _ G sent FG) as (order & FO & SO).
  assert (FR : forall s, Forall2 (fun gr p => p = rt_packet gr /\ rt_ok gr) (rt s) (of_source s (filter (fun x => passes_at_once (snd x)) l)))
    by (intros s; destruct (P s) as (M & _ & _ & _ & X); exact X).
  destruct (interleave _ _ rt FR) as (rts & FT & ST).
  exists m, out, order, rts, (concat (map snd G)). split; [reflexivity|]. split; [exact W|]. split; [exact SO|]. split; [exact ST|].
  split; [exact R|]. split.
  - apply session_parts. exists (map snd G). split; [|reflexivity]. clear - FO. induction FO as [|x y l l' [_ C] F IH]; cbn [map]; constructor; assumption.
  - apply between_make.
    + rewrite filter_snd. change (fun x : nat * packet => negb (passes_at_once (snd x))) with other. rewrite EG.
      clear. induction G as [|x G IH]; [reflexivity|]. cbn [map concat]. rewrite map_app, IH. f_equal. unfold block. rewrite map_map. cbn. apply map_id.
    + rewrite filter_snd, R. clear - FT. induction FT as [|x y k k' (_ & E & _) F IH]; [reflexivity|]. cbn [map]. now rewrite IH, E.
    + clear - FT. induction FT as [|x y k k' (_ & _ & E) F IH]; cbn [map]; constructor; assumption.
Qed.

(* ---- what the merge box is for ------------------------------------------------------------------ *)

Lemma of_map {A B} s (f : A -> B) (l : list (nat * A)) : of_source s (map (fun x => (fst x, f (snd x))) l) = map f (of_source s l).
Proof. induction l as [|x l IH]; [reflexivity|]. cbn [map]. rewrite !of_cons, map_app, IH. cbn [fst snd]. now destruct (Nat.eqb (fst x) s). Qed.

Lemma choose {A} {P : nat -> A -> Prop} (l : list (nat * packet)) (d : A) :
  (forall s, of_source s l = [] -> P s d) -> (forall s, exists x, P s x) -> exists f : nat -> A, forall s, P s (f s).
Proof.
  intros D E.
  assert (N : exists n, forall s, (n <= s)%nat -> of_source s l = []).
  { clear. induction l as [|[s0 p] l (n & H)]; [exists O; reflexivity|]. exists (max n (S s0)). intros s L. rewrite of_cons, H by lia.
    cbn [fst]. now destruct (Nat.eqb_spec s0 s); [lia|]. }
  destruct N as (n & N).
  assert (X : forall k, exists f : nat -> A, forall s, (s < k)%nat -> P s (f s)).
  { induction k as [|k (f & F)]; [exists (fun _ => d); lia|]. destruct (E k) as (x & X). exists (fun s => if Nat.eqb s k then x else f s).
    intros s L. destruct (Nat.eqb_spec s k) as [->|]; [exact X|apply F; lia]. }
  destruct (X n) as (f & F). exists (fun s => if Nat.ltb s n then f s else d). intros s.
  destruct (Nat.ltb_spec s n); [now apply F|apply D, N; assumption].
Qed.

Lemma sx7_wf g f ds : 0 <= g < 16 -> 0 <= f < 4 -> (length ds <= 6)%nat -> Forall is_u8 ds -> wf_packet (sx7_packet g f ds).
Proof. intros. rewrite sx7_pob by assumption. apply pob_wf. now apply sx7_u8. Qed.
Lemma carried_wf gm ps : carried divided gm ps -> Forall wf_packet ps.
Proof.
  intros (G & V & C). destruct (snd gm) as [m|ds]; cbn [valid_midi_message] in V.
  - subst ps. pose proof (annotate_u8 m V) as U. apply Forall_cons_iff in U as [U1 U2]. constructor; [now apply short_wf|constructor].
  - destruct C as (chunks & [N L] & E & ->). destruct V as [_ V].
    assert (U : Forall (Forall is_u8) chunks).
    { rewrite <- E in V. clear - V. induction chunks; constructor; cbn [concat] in V; apply Forall_app in V as [V1 V2]; [now apply Forall_u7_u8|auto]. }
    assert (T : forall chunks, Forall (fun c => (length c <= 6)%nat) chunks -> Forall (Forall is_u8) chunks -> Forall wf_packet (sx7_tail (fst gm) chunks)).
    { clear - G. induction chunks as [|c chunks IH]; intros L U; [constructor|]. apply Forall_cons_iff in L as [L1 L2]. apply Forall_cons_iff in U as [U1 U2].
      destruct chunks as [|d chunks]; [constructor; [apply sx7_wf; trivial; lia|constructor]|].
      change (sx7_tail (fst gm) (c :: d :: chunks)) with (sx7_packet (fst gm) 2 c :: sx7_tail (fst gm) (d :: chunks)).
      constructor; [apply sx7_wf; trivial; lia|auto]. }
    destruct chunks as [|c [|d chunks]]; [congruence| |]; apply Forall_cons_iff in L as [L1 L2]; apply Forall_cons_iff in U as [U1 U2].
    + constructor; [apply sx7_wf; trivial; lia|constructor].
    + change (sx7_sequence (fst gm) (c :: d :: chunks)) with (sx7_packet (fst gm) 1 c :: sx7_tail (fst gm) (d :: chunks)).
      constructor; [apply sx7_wf; trivial; lia|auto].
Qed.
Lemma between_wf rs ps qs : realtime_between rs ps qs -> Forall wf_packet ps -> Forall wf_packet qs.
Proof.
  induction 1 as [|rs p ps qs B IH|g r rs ps qs G R D B IH]; intros F; [constructor| |].
  - apply Forall_cons_iff in F as [F1 F2]. constructor; auto.
  - constructor; [|auto]. apply short_wf; [exact G|unfold is_u8; lia|constructor].
Qed.
Lemma sent_wf ms rts qs : sent_as ms rts qs -> Forall wf_packet qs.
Proof.
  intros (gms & rs & ps & _ & _ & S & B). apply (between_wf _ _ _ B). apply session_parts in S. destruct S as (L & F & <-).
  apply Forall_concat'. clear - F. induction F; constructor; [eapply carried_wf; eassumption|assumption].
Qed.
Lemma all_wf (l : list (nat * packet)) : (forall s, Forall wf_packet (of_source s l)) -> Forall (fun x => wf_packet (snd x)) l.
Proof.
  induction l as [|x l IH]; intros H; [constructor|]. constructor.
  - specialize (H (fst x)). rewrite of_cons, Nat.eqb_refl in H. apply Forall_app in H as [H _]. now inversion H.
  - apply IH. intros s. specialize (H s). rewrite of_cons in H. now apply Forall_app in H as [_ H].
Qed.
Lemma filter_same {A} (f g : A -> bool) l : Forall (fun x => f x = g x) l -> filter f l = filter g l.
Proof. induction 1 as [|x l H _ IH]; [reflexivity|]. cbn [filter]. now rewrite H, IH. Qed.

Lemma run_all_kept (P : nat * packet -> Prop) l : forall m, Forall P (mg_waiting m) -> Forall P l ->
  Forall P (snd (merge_run m l)) /\ Forall P (mg_waiting (fst (merge_run m l))).
Proof.
  induction l as [|x l IH]; intros m W F; cbn [merge_run fst snd]; [auto|]. apply Forall_cons_iff in F as [F1 F2]. unfold merge_step.
  destruct (passes_at_once (snd x)); cbn [fst snd].
  - destruct (IH m W F2). split; [constructor|]; assumption.
  - set (w := mg_waiting m ++ [x]). destruct (drain_ok (length w) (mg_line m) w (le_n _)) as (_ & _ & _ & D).
    destruct (D P) as [D1 D2]; [apply Forall_app; auto|]. destruct (IH _ D2 F2) as [J1 J2]. split; [apply Forall_app; auto|exact J2].
Qed.

Theorem merged g st ms rts l : reached g true st -> (forall s, sent_as (ms s) (rts s) (of_source s l)) ->
  exists m out order ros, merge_run new_merger l = (m, out) /\ mg_waiting m = [] /\
    (forall s, of_source s order = ms s) /\ (forall s, of_source s ros = rts s) /\
    filter (fun x => realtime_packet (snd x)) out = filter (fun x => realtime_packet (snd x)) l /\
    arrives g st (map snd order) (map snd ros) (map snd out).
Proof.
  intros R H.
  assert (W : Forall (fun x => wf_packet (snd x)) l) by (apply all_wf; intros s; eapply sent_wf, H).
  destruct (choose (P := fun s (d : list (Z * midi_message) * list (Z * Z)) => map snd (fst d) = ms s /\ map snd (snd d) = rts s /\
    exists ps, session divided (fst d) ps /\ realtime_between (snd d) ps (of_source s l)) l ([], [])) as (f & F).
  { intros s E. destruct (H s) as (gms & rs & ps & <- & <- & S & B). rewrite E in B. rewrite E.
    assert (rs = [] /\ ps = []) as [-> ->] by (inversion B; auto).
    assert (gms = []) as ->.
    { apply session_parts in S. destruct S as (L & F & X). destruct F as [|x y k k' C F]; [reflexivity|].
      destruct (carried_atomic _ _ C) as [(a & z & -> & _) _]. destruct a; discriminate. }
    cbn. split; [reflexivity|]. split; [reflexivity|]. exists []. split; constructor. }
  { intros s. destruct (H s) as (gms & rs & ps & E1 & E2 & S & B). exists (gms, rs). cbn [fst snd]. eauto. }
  destruct (merged_session (fun s => fst (f s)) (fun s => snd (f s)) l) as (m & out & order & ros & ps & E & Q & O1 & O2 & RT & S & B).
  { intros s. apply (F s). }
  exists m, out, (map (fun x => (fst x, snd (snd x))) order), (map (fun x => (fst x, snd (snd x))) ros).
  split; [exact E|]. split; [exact Q|]. split; [intros s; rewrite of_map, O1; apply (F s)|]. split; [intros s; rewrite of_map, O2; apply (F s)|].
  split.
  { assert (WO := proj1 (run_all_kept (fun x => wf_packet (snd x)) l new_merger ltac:(constructor) W)). rewrite E in WO. cbn [snd] in WO.
    rewrite <- (filter_same (fun x => passes_at_once (snd x)) (fun x => realtime_packet (snd x)) out)
      by (revert WO; apply Forall_impl; intros y; apply realtime_is).
    rewrite <- (filter_same (fun x => passes_at_once (snd x)) (fun x => realtime_packet (snd x)) l)
      by (revert W; apply Forall_impl; intros y; apply realtime_is).
    exact RT. }
  destruct (session_delivered g st _ ps _ _ R S B) as (bs & st' & ev & E1 & E2 & E3 & E4). exists bs, st', ev.
  split; [exact E1|]. split; [exact E2|]. rewrite E3, E4. unfold regroup. rewrite !map_map. cbn [fst snd]. split; [|reflexivity]. f_equal.
Qed.

(* ---- cables ------------------------------------------------------------------------------------------ *)

Lemma outputs_rt cb g bs : 0 <= g < 16 -> Forall is_u8 bs -> forall h, ctx_ok (context h) ->
  filter is_realtime_event (outputs cb g h bs) = map (fun r => EPacket (short_packet g r [])) (filter rt_defined (filter is_rt bs)).
Proof.
  intros G. induction 1 as [|b bs B _ IH]; intros h C; cbn [outputs filter map]; [reflexivity|].
  rewrite filter_app, IH by (rewrite context_remember; now apply ctx_ok_next). destruct (is_rt b) eqn:R.
  - cbn [filter]. unfold emission. rewrite R. destruct (rt_defined b); [|reflexivity]. cbn [filter map]. unfold is_rt in R. unfold is_u8 in B.
    now rewrite rt_is_rt by lia.
  - replace (filter is_realtime_event (emission cb g h b)) with (@nil event); [reflexivity|].
    symmetry. apply filter_none. unfold is_rt in R. unfold is_u8 in B.
    assert (X := emit_not_rt cb g (context h) b G ltac:(lia) C). rewrite <- emission_ctx in X. rewrite <- X.
    apply Forall_forall. intros e Y. apply filter_In in Y as [_ Y]. unfold not_rt_event in Y.
    now destruct (is_realtime_event e).
Qed.

Lemma cable_outputs g rs ms bs : 0 <= g < 16 -> cable rs ms bs -> forall h, running_ok rs h ->
  exists ps, outputs false g h bs = map EPacket ps /\ session divided (map (pair g) ms) ps.
Proof.
  intros G. induction 1 as [rs|rs m ms bs V C IH|m ms bs V CV C IH|rs ds ms bs N U C IH]; intros h OK.
  - exists []. split; [reflexivity|constructor].
  - destruct (annotate_full false g m h V) as (A & B & X). change (ms_status m :: ms_data m ++ bs) with ((ms_status m :: ms_data m) ++ bs).
    assert (OE := annotates_outputs _ _ _ _ A). rewrite B in OE.
    rewrite outputs_app, OE.
    destruct (IH (fold_left remember (ms_status m :: ms_data m) h)) as (ps & -> & S).
    { unfold running_ok. destruct (is_cv m) eqn:CV; [|exact I]. exists (ms_data m). split; [assumption|].
      destruct V as [[[_ L]|L] _]; [|apply sc_len_range in L; unfold is_cv in CV; lia].
      rewrite L. apply Nat.mod_same. unfold cv_len; destruct (_ && _); lia. }
    exists (short_packet g (ms_status m) (ms_data m) :: ps). split.
    + cbn [map]. change (?x :: ?l) with ([x] ++ l). f_equal. unfold render_full. destruct (ms_data m) as [|a l]; [reflexivity|].
      cbn [map concat snd app]. apply annotate_data_events.
    + cbn [map]. change (?x :: ps) with ([x] ++ ps). constructor; [|exact S]. split; [exact G|]. split; [exact V|reflexivity].
  - destruct OK as (ds & X & M). unfold is_cv in CV. pose proof (valid_message_status m V) as [Hs NS].
    assert (L : length (ms_data m) = cv_len (ms_status m)).
    { destruct (valid_message_cases m V) as [[_ L]|L]; [assumption|apply sc_len_range in L; lia]. }
    destruct (annotate_message false g (ms_status m) ds (ms_data m) ltac:(lia)) with (h := h) as [A B]; trivial.
    { left. repeat split; trivial; lia. } { apply V. }
    assert (OE := annotates_outputs _ _ _ _ A). rewrite annotate_data_fst in OE. rewrite outputs_app, OE.
    destruct (IH (fold_left remember (ms_data m) h)) as (ps & -> & S).
    { exists (ds ++ ms_data m). split; [assumption|]. rewrite app_length, L.
      rewrite <- Nat.add_mod_idemp_l, M by (unfold cv_len; destruct (_ && _); lia). apply Nat.mod_same. unfold cv_len; destruct (_ && _); lia. }
    exists (short_packet g (ms_status m) (ms_data m) :: ps). split.
    + cbn [map]. change (?x :: ?l) with ([x] ++ l). f_equal. destruct (ms_data m) as [|a l].
      { unfold cv_len in L. cbn in L. destruct (_ && _); discriminate. }
      apply annotate_data_events.
    + cbn [map]. change (?x :: ps) with ([x] ++ ps). constructor; [|exact S]. split; [exact G|]. split; [exact V|reflexivity].
  - destruct (fill ds) as (chunks & FI & E).
    assert (FU : Forall (Forall is_u7) chunks).
    { rewrite <- E in U. clear - U. induction chunks; constructor; cbn [concat] in U; apply Forall_app in U as [U1 U2]; auto. }
    assert (A := filled_sequence g chunks h G FI FU ltac:(now rewrite E)).
    assert (SP := sends_sequence g chunks G FI FU).
    assert (SB := sequence_stream g chunks G (filled_divided _ FI) FU). rewrite (anns_stream _ SP) in SB. injection SB as SB. rewrite E in SB.
    replace (0xF0 :: ds ++ 0xF7 :: bs) with ((0xF0 :: ds ++ [0xF7]) ++ bs) by (cbn [app]; now rewrite <- app_assoc).
    assert (OE := annotates_outputs _ _ _ _ A). rewrite SB, anns_events in OE by exact SP. rewrite outputs_app, OE.
    destruct (IH (fold_left remember (0xF0 :: ds ++ [0xF7]) h) I) as (ps & -> & S).
    exists (sx7_sequence g chunks ++ ps). split; [now rewrite map_app|]. cbn [map]. constructor; [|exact S].
    split; [exact G|]. split; [split; assumption|]. exists chunks. split; [now apply filled_divided|]. auto.
Qed.

Lemma cable_starts ms bs : cable None ms bs -> match bs with [] => True | b :: _ => 0x80 <= b /\ b <> 0xF7 end.
Proof.
  intros C. inversion C as [|? m ms' bs' V C'| |]; subst; [exact I| |lia]. pose proof (valid_message_status m V). lia.
Qed.

Lemma from_cable g st ms rts bs : reached g false st -> on_cable ms rts bs ->
  exists st' ev, feed_all st bs = Ok (st', ev) /\ sent_as ms rts (packets_of ev).
Proof.
  intros R (U & C & ->). assert (G := reached_group _ _ _ R).
  assert (F1 : filter not_rt bs = filter (fun b => b <? 0xF8) bs).
  { apply filter_ext. intros b. unfold not_rt, is_rt. lia. }
  destruct (resync g false st bs R U) as (st' & E).
  { unfold starts_with_status. rewrite F1. now apply cable_starts in C. }
  exists st', (outputs false g [] bs). split; [exact E|].
  destruct (cable_outputs g None ms _ G C [] I) as (ps & E1 & S).
  assert (N := outputs_filter_rt false g bs G U [] I). rewrite F1, E1 in N.
  assert (RT := outputs_rt false g bs G U [] I). change (filter is_rt bs) with (filter (fun b => 0xF8 <=? b) bs) in RT.
  set (rts := filter rt_defined (filter (fun b => 0xF8 <=? b) bs)) in *.
  destruct (between_join ps (map (pair g) rts) _ N) as (qs & EQ & B).
  - rewrite RT, map_map. reflexivity.
  - apply Forall_forall. intros x X. apply in_map_iff in X as (r & <- & X). cbn [fst snd]. split; [exact G|].
    unfold rts in X. apply filter_In in X as [X D]. apply filter_In in X as [X Y]. rewrite Forall_forall in U. specialize (U r X).
    unfold is_u8 in U. split; [lia|exact D].
  - rewrite EQ. replace (packets_of (map EPacket qs)) with qs.
    + exists (map (pair g) ms), (map (pair g) rts), ps. rewrite !map_map. cbn [snd]. rewrite !map_id. auto.
    + clear. unfold packets_of. rewrite map_map. induction qs as [|q qs IH]; [reflexivity|]. cbn [map concat app]. now rewrite <- IH.
Qed.

Lemma merge_app a : forall m b, merge_run m (a ++ b) =
  (fst (merge_run (fst (merge_run m a)) b), snd (merge_run m a) ++ snd (merge_run (fst (merge_run m a)) b)).
Proof.
  induction a as [|x a IH]; intros m b; cbn [app merge_run fst snd].
  - now destruct (merge_run m b).
  - rewrite IH. cbn [fst snd]. now rewrite app_assoc.
Qed.
Lemma of_box s s' ev : of_source s (box_packets s' ev) = if Nat.eqb s' s then packets_of ev else [].
Proof.
  unfold box_packets, packets_of. induction ev as [|e ev IH]; cbn [map concat]; [now destruct (Nat.eqb s' s)|].
  rewrite of_app, IH. destruct e; cbn [app]; [|now destruct (Nat.eqb s' s)]. rewrite of_cons. cbn [fst snd]. now destruct (Nat.eqb s' s).
Qed.

Lemma box_arrivals sched : forall b, (forall s, exists r, feed_all (bx_parsers b s) (of_source s sched) = Ok r) ->
  exists b' out arr, box_run b sched = Ok (b', out) /\ merge_run (bx_merger b) arr = (bx_merger b', out) /\
    forall s, exists ev, feed_all (bx_parsers b s) (of_source s sched) = Ok (bx_parsers b' s, ev) /\ of_source s arr = packets_of ev.
Proof.
  induction sched as [|[s0 y] sched IH]; intros b H.
  - exists b, [], []. split; [reflexivity|]. split; [now destruct (bx_merger b)|]. intros s. exists []. split; reflexivity.
  - cbn [box_run]. unfold box_step. cbn [fst snd]. destruct (H s0) as (r0 & E0). rewrite of_cons in E0. cbn [fst snd] in E0.
    rewrite Nat.eqb_refl in E0. cbn [app feed_all] in E0. destruct (feed (bx_parsers b s0) y) as [[st1 o1]|] eqn:F; [|discriminate].
    cbn [bind fst snd] in *.
    set (mr := merge_run (bx_merger b) (box_packets s0 o1)).
    set (b1 := mkBox (fun i => if Nat.eqb i s0 then st1 else bx_parsers b i) (fst mr)).
    destruct (IH b1) as (b' & out & arr & E1 & E2 & E3).
    { intros s. unfold b1. cbn [bx_parsers]. destruct (Nat.eqb_spec s s0) as [->|N].
      - destruct (feed_all st1 (of_source s0 sched)) as [r|]; [eauto|discriminate].
      - destruct (H s) as (r & E). rewrite of_cons in E. cbn [fst] in E. destruct (Nat.eqb_spec s0 s); [congruence|]. eauto. }
    rewrite E1. cbn [bind fst snd]. exists b', (snd mr ++ out), (box_packets s0 o1 ++ arr). split; [reflexivity|]. split.
    + rewrite merge_app. fold mr. unfold b1 in E2. cbn [bx_merger] in E2. rewrite E2. reflexivity.
    + intros s. destruct (E3 s) as (ev & E4 & E5). rewrite of_cons, of_app, of_box, E5. cbn [fst snd]. unfold b1 in E4. cbn [bx_parsers] in E4.
      destruct (Nat.eqb_spec s s0) as [->|N].
      * rewrite Nat.eqb_refl. cbn [app feed_all]. rewrite F. cbn [bind]. rewrite E4. cbn [bind]. exists (o1 ++ ev). split; [reflexivity|].
        unfold packets_of. now rewrite map_app, concat_app.
      * destruct (Nat.eqb_spec s0 s); [congruence|]. cbn [app]. exists ev. auto.
Qed.

Theorem merged_bytes g st gr P ms rts sched : reached g true st -> (forall s, reached (gr s) false (P s)) ->
  (forall s, on_cable (ms s) (rts s) (of_source s sched)) ->
  exists b out order ros, box_run (mkBox P new_merger) sched = Ok (b, out) /\ mg_waiting (bx_merger b) = [] /\
    (forall s, of_source s order = ms s) /\ (forall s, of_source s ros = rts s) /\
    arrives g st (map snd order) (map snd ros) (map snd out).
Proof.
  intros R RP H. destruct (box_arrivals sched (mkBox P new_merger)) as (b & out & arr & E & EM & EA).
  { intros s. destruct (from_cable _ _ _ _ _ (RP s) (H s)) as (st' & ev & X & _). eauto. }
  cbn [bx_parsers bx_merger] in *.
  destruct (merged g st ms rts arr R) as (m & out' & order & ros & E' & W & O1 & O2 & _ & A).
  { intros s. destruct (EA s) as (ev & X & ->). destruct (from_cable _ _ _ _ _ (RP s) (H s)) as (st' & ev' & X' & S).
    rewrite X in X'. injection X' as _ <-. exact S. }
  rewrite EM in E'. injection E' as <- <-. exists b, out, order, ros. auto.
Qed.

Theorem any_bytes gr cb P sched : (forall s, reached (gr s) (cb s) (P s)) -> Forall (fun x => is_u8 (snd x)) sched ->
  exists b out arr, box_run (mkBox P new_merger) sched = Ok (b, out) /\ merge_run new_merger arr = (bx_merger b, out) /\
    forall s, exists ev, feed_all (P s) (of_source s sched) = Ok (bx_parsers b s, ev) /\ of_source s arr = packets_of ev.
Proof.
  intros R U. apply (box_arrivals sched (mkBox P new_merger)). intros s. cbn [bx_parsers].
  assert (US : Forall is_u8 (of_source s sched)).
  { clear - U. induction U as [|x l H _ IH]; [constructor|]. rewrite of_cons. apply Forall_app. split; [|exact IH].
    destruct (Nat.eqb (fst x) s); [constructor; [exact H|constructor]|constructor]. }
  destruct (R s) as (g0 & on0 & cs & o & G0 & V & E & _).
  destruct (rt_remove_calls g0 _ on0 cs _ o _ G0 V E US) as (st' & out & X & _). eauto.
Qed.

Lemma keeps_unfinished p : wf_packet p -> keeps_line p = true <-> unfinished p.
Proof.
  intros W. unfold keeps_line, unfinished, is_sysex7_packet, sysex7_format. rewrite type_spec, status_spec, land_240 by exact W.
  replace (Z.land (w0 p / 65536 mod 256) 0x0F) with (w0 p / 65536 mod 256 mod 16)
    by (change 0x0F with (Z.ones 4); now rewrite Z.land_ones).
  replace (Z.land (Z.shiftr (w0 p / 65536 mod 256) 4) 3) with (w0 p / 65536 mod 256 / 16 mod 4)
    by (change 3 with (Z.ones 2); now rewrite Z.land_ones, Z.shiftr_div_pow2).
  unfold pt_data. destruct W as (W & _). unfold is_u32 in W. rewrite !andb_true_iff, orb_true_iff. split; intros; dlia.
Qed.

(* ---- any packets ------------------------------------------------------------------------------------- *)

Theorem any_packets l : Forall (fun x => wf_packet (snd x)) l ->
  exists m out, merge_run new_merger l = (m, out) /\
    (forall s, filter (fun p => negb (realtime_packet p)) (of_source s out) ++ of_source s (mg_waiting m) =
       filter (fun p => negb (realtime_packet p)) (of_source s l)) /\
    filter (fun x => realtime_packet (snd x)) out = filter (fun x => realtime_packet (snd x)) l /\
    (mg_waiting m <> [] -> exists o a z, filter (fun p => negb (realtime_packet p)) (of_source o out) = a ++ [z] /\
       unfinished z /\ of_source o (mg_waiting m) = []).
Proof.
  intros W. destruct (run_ok l new_merger) as (O & L & S & R); [split; constructor|].
  destruct (run_all_kept (fun x => wf_packet (snd x)) l new_merger ltac:(constructor) W) as [WO _].
  destruct (merge_run new_merger l) as [m out]. cbn [fst snd] in *. exists m, out. split; [reflexivity|].
  assert (X : forall k s, Forall (fun x : nat * packet => wf_packet (snd x)) k ->
    filter (fun p => negb (realtime_packet p)) (of_source s k) = of_source s (filter other k)).
  { intros k s F. rewrite <- (of_filter s (fun p => negb (realtime_packet p))). f_equal. apply filter_same. revert F. apply Forall_impl.
    intros y Y. unfold other. now rewrite realtime_is. }
  assert (Y : forall k, Forall (fun x : nat * packet => wf_packet (snd x)) k ->
    filter (fun x => realtime_packet (snd x)) k = filter (fun x => passes_at_once (snd x)) k).
  { intros k F. apply filter_same. revert F. apply Forall_impl. intros y Y. now rewrite realtime_is. }
  split; [intros s; rewrite !X by assumption; apply S|]. split; [now rewrite !Y by assumption|]. intros N. destruct O as [O _].
  destruct (mg_line m) as [o|] eqn:E.
  - destruct (line_kept _ _ _ L) as [[_ Z]|(a & z & Z & K)]; [discriminate|]. exists o, a, z. rewrite X by assumption. split; [exact Z|].
    split.
    { apply keeps_unfinished; [|exact K]. assert (I : In z (of_source o (filter other out))) by (rewrite Z; apply in_or_app; right; now left).
      unfold of_source in I. apply in_map_iff in I as (y & <- & I). apply filter_In in I as [I _]. apply filter_In in I as [I _].
      rewrite Forall_forall in WO. now apply WO. }
    apply of_none. revert O. apply Forall_impl. intros y Q. cbn [may_send] in Q. now rewrite Nat.eqb_sym.
  - destruct (mg_waiting m); [congruence|]. apply Forall_inv in O. discriminate.
Qed.

Theorem at_once l s p : wf_packet p -> realtime_packet p = true ->
  merge_run new_merger (l ++ [(s, p)]) = (fst (merge_run new_merger l), snd (merge_run new_merger l) ++ [(s, p)]).
Proof.
  intros W T. rewrite merge_app. cbn [merge_run]. unfold merge_step. cbn [snd]. rewrite realtime_is, T by exact W. reflexivity.
Qed.
