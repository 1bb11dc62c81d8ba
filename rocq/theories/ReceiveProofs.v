(* The two ways to receive SysEx agree *)
From Coq Require Import ZArith List Bool Lia ZifyBool ZifyNat.
From Verif Require Import Base Bits Packet PacketSpec PacketProofs PacketBytes Messages Sysex ByteStream Collector
  StreamSpec StreamProofs StreamLemmas StreamCalls StreamBytes CollectSpec CollectProofs CollectLemmas CollectCalls SendProofs ReceiveSpec.
Import ListNotations.
Local Open Scope Z_scope.
Local Open Scope res_scope.

Lemma collecting_app a es : forall c es', collecting a c (es ++ es') =
  (r <- collecting a c es ;; r' <- collecting a (fst r) es' ;; Ok (fst r', snd r ++ snd r')).
Proof.
  induction es as [|e es IH]; intros c es'; cbn [collecting app bind fst snd].
  - destruct (collecting a c es') as [[c' o]|f]; reflexivity.
  - destruct e as [p|s].
    + destruct (c7_feed a c p) as [[c1 o1]|f]; cbn [bind fst snd]; [|reflexivity]. rewrite IH.
      destruct (collecting a c1 es) as [[c2 o2]|f]; cbn [bind fst snd]; [|reflexivity].
      destruct (collecting a c2 es') as [[c3 o3]|f]; cbn [bind fst snd]; [|reflexivity].
      now rewrite <- !app_assoc.
    + rewrite IH. destruct (collecting a c es) as [[c2 o2]|f]; cbn [bind fst snd]; [|reflexivity].
      destruct (collecting a c2 es') as [[c3 o3]|f]; reflexivity.
Qed.

Lemma pruned_app l1 : forall m1 l2 m2, pruned l1 m1 -> pruned l2 m2 -> pruned (l1 ++ l2) (m1 ++ m2).
Proof. intros m1 l2 m2 P Q. induction P; cbn [app]; [exact Q| |]; constructor; trivial. Qed.

Lemma pruned_refl l : pruned l l.
Proof. induction l; constructor; trivial. Qed.

Lemma pruned_whole l m : pruned l m -> Forall whole_id l -> m = l.
Proof.
  induction 1 as [|e l m P IH|s l m C P IH]; intros F; [reflexivity| |]; inversion_clear F as [|? ? W F'].
  - now rewrite IH.
  - now destruct W.
Qed.

(* a short packet passes the collector *)
Lemma collect_short a c g s ds : 0 <= g < 16 -> 0x80 <= s < 256 -> Forall is_u7 ds -> (length ds <= 2)%nat ->
  collecting a c [EPacket (short_packet g s ds)] = Ok (c, [EPacket (short_packet g s ds)]).
Proof.
  intros G S D L. assert (D8 := Forall_u7_u8 ds D). assert (S8 : is_u8 s) by (unfold is_u8; lia).
  assert (W := short_wf g s ds G S8 D8).
  assert (T : w0 (short_packet g s ds) / 268435456 <> 3).
  { assert (H := short_type g s ds G S8 D8). rewrite type_spec in H by exact W.
    destruct W as [W _]. unfold is_u32 in W.
    assert (w0 (short_packet g s ds) / 268435456 mod 16 = w0 (short_packet g s ds) / 268435456) by dlia.
    unfold short_ty in H. destruct (s <? 0xF0); lia. }
  assert (N : content7 (short_packet g s ds) = None).
  { unfold content7. replace (nth 0 (bytes (short_packet g s ds)) 0 / 16) with (w0 (short_packet g s ds) / 268435456).
    - replace (_ =? 3) with false by lia. reflexivity.
    - rewrite <- type_byte, type_spec by exact W. destruct W as [W _]. unfold is_u32 in W. dlia. }
  cbn [collecting]. rewrite feed7_skip by assumption. cbn [bind fst snd map app].
  now replace (_ =? 3) with false by lia.
Qed.

(* a SysEx packet is a step of the reference collector *)
Lemma collect_sx a max st c g f ds : limit_alloc a max -> inv7 max true st c -> 0 <= g < 16 -> 0 <= f < 4 -> (length ds <= 6)%nat -> Forall is_u7 ds ->
  exists c', collecting a c [EPacket (sx7_packet g f ds)] = Ok (c', map ESysex (map fst (snd (a_step decode7 max st (mkCt f 0 ds))))) /\
    inv7 max true (fst (a_step decode7 max st (mkCt f 0 ds))) c'.
Proof.
  intros A I G F L D. assert (D8 := Forall_u7_u8 ds D).
  assert (W : wf_packet (sx7_packet g f ds)) by (rewrite sx7_pob by assumption; apply pob_wf, sx7_u8; trivial).
  destruct (feed7_step a max true st c _ _ A I W (content7_packet g f ds G F L D8)) as (c' & E & I').
  exists c'. split; [|exact I']. cbn [collecting]. rewrite E. cbn [bind fst snd].
  assert (T := sx7_type g f ds G F L D8). rewrite type_spec in T by exact W. rewrite T.
  change (pt_data =? 3) with true. cbn [app]. now rewrite app_nil_r.
Qed.

Lemma decode_cut l : l <> [] -> Forall is_u7 l ->
  pruned [ESysex (decode7 l)] (match sx_decode l with Some s => [ESysex s] | None => [] end).
Proof.
  intros NE U. destruct l as [|m r]; [congruence|]. unfold decode7, sx_decode.
  inversion_clear U as [|? ? M U']. destruct (Z.eqb_spec m 0) as [->|N].
  - destruct r as [|x [|y r]]; [| |apply pruned_refl]; (apply pruned_drop; [unfold cut_id; cbn [sx_data sx_id]|constructor]).
    + repeat split; lia.
    + inversion_clear U' as [|? ? X _]. unfold is_u7 in X. repeat split; dlia.
  - destruct m; [congruence| |]; apply pruned_refl.
Qed.

Definition coupled (c : calls_context) (st : astate) : Prop :=
  a_clean st /\
  match c with
  | Some (x0, ds) => f_on x0 = true /\ (f_byte x0 = 0xF0 -> (6 <= length ds)%nat ->
      st = mkA (firstn (6 * (length ds / 6)) (map f_byte ds)) true 0)
  | None => True
  end.

(* the SysEx in progress is within the limit *)
Definition progress (c : calls_context) : option Z := match c with Some (x0, ds) => if f_byte x0 =? 0xF0 then Some (size ds) else None | None => None end.
Definition roomy_ctx (max : Z) (c : calls_context) : Prop := match progress c with Some n => max = 0 \/ n <= max | None => True end.
Lemma progress_step c x : progress (calls_ctx_step c x) = run_step (progress c) (f_byte x).
Proof.
  unfold calls_ctx_step, run_step, is_rt. destruct (Z.leb_spec 0xF8 (f_byte x)) as [R|R]; [reflexivity|].
  destruct (Z.ltb_spec (f_byte x) 0x80) as [D|D].
  - replace (0x80 <=? f_byte x) with false by lia. destruct c as [[x0 ds]|]; [|reflexivity]. cbn [progress].
    destruct (f_byte x0 =? 0xF0); [|reflexivity]. rewrite size_app. reflexivity.
  - replace (0x80 <=? f_byte x) with true by lia. cbn [progress]. destruct (f_byte x =? 0xF0); reflexivity.
Qed.
Lemma room max base l payload : (max = 0 \/ size l <= max) -> l = base ++ payload -> (0 <? max) && (max <? data_size decode7 base + size payload) = false.
Proof.
  intros R ->. rewrite size_app in R. assert (D := decode7_size [] base). cbn [app] in D. change (size (sx_data (decode7 []))) with 0 in D.
  unfold data_size. lia.
Qed.

Lemma lastn_split {A} n (l : list A) : (n <= length l)%nat -> firstn (length l - n) l ++ lastn n l = l.
Proof. intros. unfold lastn. apply firstn_skipn. Qed.

Lemma div_mod6 k : (6 * (k / 6) = k - k mod 6 /\ k mod 6 < 6 /\ k mod 6 <= k)%nat.
Proof.
  pose proof (Nat.div_mod k 6 ltac:(lia)). pose proof (Nat.mod_upper_bound k 6 ltac:(lia)). lia.
Qed.

Lemma receive_step a max c st col x : limit_alloc a max -> roomy_ctx max c -> roomy_ctx max (calls_ctx_step c x) -> inv7 max true st col -> coupled c st -> is_u8 (f_byte x) -> group_ok x -> f_on x = true ->
  cc_bytes_ok (fun g => 0 <= g < 16) c ->
  exists col' o st', collecting a col (calls_emission false c x) = Ok (col', o) /\ inv7 max true st' col' /\
    coupled (calls_ctx_step c x) st' /\ pruned o (calls_emission true c x).
Proof.
  intros A RC RX I (CL & CP) B G ON CO. unfold is_u8 in B. unfold roomy_ctx in RX. rewrite progress_step in RX. unfold run_step in RX. unfold group_ok in G. unfold calls_emission, calls_ctx_step. rewrite ON. cbn [negb].
  assert (KEEP : forall c', coupled c' st -> exists col' o st', collecting a col [] = Ok (col', o) /\ inv7 max true st' col' /\ coupled c' st' /\ pruned o []).
  { intros c' CC. exists col, [], st. split; [reflexivity|]. split; [exact I|]. split; [exact CC|]. constructor. }
  assert (SHORT : forall g s ds c', 0 <= g < 16 -> 0x80 <= s < 256 -> Forall is_u7 ds -> (length ds <= 2)%nat -> coupled c' st ->
    exists col' o st', collecting a col [EPacket (short_packet g s ds)] = Ok (col', o) /\ inv7 max true st' col' /\ coupled c' st' /\
      pruned o [EPacket (short_packet g s ds)]).
  { intros g s ds c' Hg Hs Hd Hl CC. exists col, [EPacket (short_packet g s ds)], st. rewrite collect_short by assumption.
    split; [reflexivity|]. split; [exact I|]. split; [exact CC|]. apply pruned_refl. }
  assert (FRESH : coupled (Some (x, [])) st).
  { split; [exact CL|]. split; [exact ON|]. cbn [length]. lia. }
  unfold is_rt. destruct (Z.leb_spec 0xF8 (f_byte x)).
  { destruct (rt_defined _); [apply SHORT|apply KEEP]; trivial; try lia; try constructor; cbn [length]; trivial; lia. }
  destruct (Z.ltb_spec (f_byte x) 0x80) as [D|D].
  - replace (0x80 <=? f_byte x) with false by lia.
    destruct c as [[x0 ds]|]; [|apply KEEP; now split]. destruct CO as (S0 & PG & DS). destruct CP as (ON0 & CP).
    assert (GG := packet_group_P (fun g => 0 <= g < 16) x0 ds PG DS). cbv beta in GG. set (g := packet_group x0 ds) in *.
    assert (U : Forall is_u7 (map f_byte (ds ++ [x]))).
    { rewrite map_app. apply Forall_app; split; [apply (Forall_map_u7 (fun g => 0 <= g < 16)); exact DS|]. repeat constructor; unfold is_u7; lia. }
    unfold on_data. destruct (Z.ltb_spec (f_byte x0) 0xF0) as [V|V].
    + assert (CC : coupled (Some (x0, ds ++ [x])) st) by (split; [exact CL|split; [exact ON0|lia]]).
      destruct (_ =? 0)%nat; [|now apply KEEP]. apply SHORT; trivial; [lia|now apply Forall_lastn|].
      unfold lastn. rewrite skipn_length. unfold cv_len. destruct (_ && _); lia.
    + destruct (Z.eqb_spec (f_byte x0) 0xF0) as [V0|V0].
      * set (l := map f_byte (ds ++ [x])) in *. assert (LL : length l = (length ds + 1)%nat) by (unfold l; rewrite map_length, app_length; reflexivity).
        pose proof (div_mod6 (length ds)) as (M1 & M2 & M3). pose proof (div_mod6 (length l)) as (N1 & N2 & N3).
        pose proof (div6_succ (length ds)) as DV. rewrite <- LL in DV.
        assert (OLD : firstn (6 * (length ds / 6)) (map f_byte ds) = firstn (6 * (length ds / 6)) l).
        { unfold l. rewrite map_app, firstn_app, map_length. replace (6 * (length ds / 6) - length ds)%nat with 0%nat by lia.
          cbn [firstn]. now rewrite app_nil_r. }
        destruct (Nat.eqb_spec (length l mod 6) 0) as [Z0|Z0].
        -- assert (RM : max = 0 \/ size l <= max).
           { cbn [progress] in RX. replace (f_byte x0 =? 240) with true in RX by lia. replace (248 <=? f_byte x) with false in RX by lia.
             replace (f_byte x <? 128) with true in RX by lia. unfold size in *. lia. }
           destruct (collect_sx a max st col g (if (length l =? 6)%nat then 1 else 2) (lastn 6 l)) as (col' & E & I'); trivial.
           { destruct (_ =? _)%nat; lia. }
           { rewrite lastn_length; lia. }
           { now apply Forall_lastn. }
           assert (ST : a_step decode7 max st (mkCt (if (length l =? 6)%nat then 1 else 2) 0 (lastn 6 l)) = (mkA l true 0, [])).
           { destruct (Nat.eqb_spec (length l) 6) as [L6|L6].
             - rewrite lastn_all by lia. rewrite a_step_open; [|exact CL|now right|exact (room max [] l l RM eq_refl)]. reflexivity.
             - rewrite (CP V0) by lia. rewrite a_step_more by now left. rewrite (room max _ l _ RM).
               2:{ rewrite OLD. replace (6 * (length ds / 6))%nat with (length l - 6)%nat by lia. now rewrite lastn_split by lia. }
               cbn [Z.eqb Pos.eqb]. rewrite OLD. replace (6 * (length ds / 6))%nat with (length l - 6)%nat by lia. rewrite lastn_split by lia. reflexivity. }
           rewrite ST in E, I'. cbn [fst snd map] in E, I'. exists col', [], (mkA l true 0).
           split; [exact E|]. split; [exact I'|]. split; [|constructor]. split; [now left|]. split; [exact ON0|].
           intros _ _. f_equal. fold l. rewrite app_length. cbn [length]. rewrite <- LL, N1, firstn_all2 by lia. reflexivity.
        -- apply KEEP. split; [exact CL|]. split; [exact ON0|]. intros _ L6. fold l. rewrite app_length in *. cbn [length] in *. rewrite <- LL in *.
           rewrite DV. rewrite (CP V0) by lia. now rewrite OLD.
      * assert (CC : coupled (Some (x0, ds ++ [x])) st) by (split; [exact CL|split; [exact ON0|lia]]).
        destruct (sc_len (f_byte x0)) as [n|] eqn:SC; [|now apply KEEP].
        destruct (Nat.eqb_spec (length (map f_byte (ds ++ [x]))) n) as [LN|LN]; [|now apply KEEP].
        apply SHORT; trivial; [lia|]. pose proof (sc_len_cases _ _ SC). lia.
  - replace (0x80 <=? f_byte x) with true by lia.
    destruct (Z.eqb_spec (f_byte x) 0xF6) as [F6|F6].
    { apply SHORT; trivial; [lia|cbn; lia]. }
    destruct (Z.eqb_spec (f_byte x) 0xF7) as [F7|F7]; [|now apply KEEP].
    destruct c as [[x0 ds]|]; [|now apply KEEP]. destruct CO as (S0 & PG & DS). destruct CP as (ON0 & CP).
    rewrite ON0, !orb_true_r, andb_true_r. destruct (Z.eqb_spec (f_byte x0) 0xF0) as [V0|V0]; [|now apply KEEP]. cbn [negb orb].
    assert (GG := packet_group_P (fun g => 0 <= g < 16) x0 ds PG DS). cbv beta in GG. set (g := packet_group x0 ds) in *.
    assert (U := Forall_map_u7 (fun g => 0 <= g < 16) ds DS). unfold on_sysex_end. set (l := map f_byte ds) in *.
    assert (LL : length l = length ds) by apply map_length.
    destruct (Nat.eqb_spec (length l) 0) as [L0|L0].
    { destruct l; [|discriminate]. cbn [sx_decode]. now apply KEEP. }
    assert (NE : l <> []) by (intros ->; now apply L0).
    pose proof (div_mod6 (length l)) as (M1 & M2 & M3).
    assert (IDLE : coupled (Some (x, [])) a_idle).
    { split; [now right|]. split; [exact ON|]. cbn [length]. lia. }
    assert (RM : max = 0 \/ size l <= max).
    { unfold roomy_ctx in RC. cbn [progress] in RC. replace (f_byte x0 =? 240) with true in RC by lia. unfold size in *. lia. }
    destruct (Nat.ltb_spec (length l) 6) as [L6|L6].
    + destruct (collect_sx a max st col g 0 l) as (col' & E & I'); trivial; try lia.
      rewrite a_step_open in E, I'; [|exact CL|now left|exact (room max [] l l RM eq_refl)|exact CL|now left|exact (room max [] l l RM eq_refl)]. cbn [Z.eqb fst snd map] in E, I'.
      exists col', [ESysex (decode7 l)], a_idle. repeat (split; [assumption|]). now apply decode_cut.
    + destruct (collect_sx a max st col g 3 (lastn (length l mod 6) l)) as (col' & E & I'); trivial; try lia.
      { rewrite lastn_length; lia. }
      { now apply Forall_lastn. }
      assert (ST : a_step decode7 max st (mkCt 3 0 (lastn (length l mod 6) l)) = (a_idle, [(decode7 l, 0)])).
      { rewrite (CP V0) by lia. rewrite a_step_more by now right. rewrite (room max _ l _ RM).
        2:{ fold l. now rewrite <- LL, M1, lastn_split by lia. }
        cbn [Z.eqb Pos.eqb]. rewrite <- LL, M1, lastn_split by lia. reflexivity. }
      rewrite ST in E, I'. cbn [fst snd map] in E, I'.
      exists col', [ESysex (decode7 l)], a_idle. repeat (split; [assumption|]). now apply decode_cut.
Qed.

Lemma receive_bytes a max g bs : limit_alloc a max -> 0 <= g < 16 -> Forall is_u8 bs -> forall c st col,
  roomy_ctx max c -> (max = 0 \/ short_bytes max (progress c) bs) -> inv7 max true st col -> coupled c st -> cc_bytes_ok (fun g => 0 <= g < 16) c ->
  exists col' o st', collecting a col (snd (bytes_outputs false g true c bs)) = Ok (col', o) /\ inv7 max true st' col' /\
    coupled (fst (bytes_outputs false g true c bs)) st' /\ cc_bytes_ok (fun g => 0 <= g < 16) (fst (bytes_outputs false g true c bs)) /\
    fst (bytes_outputs false g true c bs) = fst (bytes_outputs true g true c bs) /\
    roomy_ctx max (fst (bytes_outputs false g true c bs)) /\ progress (fst (bytes_outputs false g true c bs)) = run_bytes (progress c) bs /\
    pruned o (snd (bytes_outputs true g true c bs)).
Proof.
  intros A G. induction 1 as [|b bs B _ IH]; intros c st col RC SB I C CO.
  { exists col, [], st. repeat (split; [first [reflexivity|assumption]|]). constructor. }
  cbn [bytes_outputs fst snd]. set (x := mkFed b g true).
  assert (RX : roomy_ctx max (calls_ctx_step c x)).
  { unfold roomy_ctx. rewrite progress_step. cbn [f_byte x short_bytes] in *. destruct (run_step (progress c) b); [|exact Logic.I].
    destruct SB as [SB|[SB _]]; auto. }
  destruct (receive_step a max c st col x A RC RX I C B G eq_refl CO) as (col1 & o1 & st1 & E1 & I1 & C1 & P1).
  assert (CO1 : cc_bytes_ok (fun g => 0 <= g < 16) (calls_ctx_step c x)) by (apply cc_bytes_step; trivial).
  assert (SB' : max = 0 \/ short_bytes max (progress (calls_ctx_step c x)) bs).
  { rewrite progress_step. destruct SB as [SB|[_ SB]]; auto. }
  destruct (IH _ _ _ RX SB' I1 C1 CO1) as (col2 & o2 & st2 & E2 & I2 & C2 & CO2 & EQ & R2 & PR & P2). rewrite progress_step in PR.
  exists col2, (o1 ++ o2), st2. rewrite collecting_app, E1. cbn [bind fst snd]. rewrite E2. cbn [bind fst snd].
  repeat (split; [first [reflexivity|assumption]|]). now apply pruned_app.
Qed.

Lemma receive_calls a max cs : limit_alloc a max -> Forall valid_call cs -> Forall keeps_enabled cs -> forall g c st col, 0 <= g < 16 ->
  roomy_ctx max c -> (max = 0 \/ short_calls max (progress c) cs) -> inv7 max true st col -> coupled c st -> cc_bytes_ok (fun g => 0 <= g < 16) c ->
  exists col' o, collecting a col (calls_outputs false g true c cs) = Ok (col', o) /\ pruned o (calls_outputs true g true c cs).
Proof.
  intros A. induction cs as [|k cs IH]; intros V K g c st col G RC SC I C CO.
  { exists col, []. split; [reflexivity|constructor]. }
  inversion_clear V as [|? ? V1 V2]. inversion_clear K as [|? ? K1 K2].
  destruct k as [bs|on|g'|]; cbn [calls_outputs].
  - assert (SB : max = 0 \/ short_bytes max (progress c) bs) by (destruct SC as [SC|[SC _]]; auto).
    destruct (receive_bytes a max g bs A G V1 c st col RC SB I C CO) as (col1 & o1 & st1 & E1 & I1 & C1 & CO1 & EQ & R1 & PR & P1).
    destruct (IH V2 K2 g _ _ _ G R1 ltac:(rewrite PR; destruct SC as [SC|[_ SC]]; auto) I1 C1 CO1) as (col2 & o2 & E2 & P2). rewrite <- EQ.
    exists col2, (o1 ++ o2). rewrite collecting_app, E1. cbn [bind fst snd]. rewrite E2. cbn [bind fst snd].
    split; [reflexivity|]. now apply pruned_app.
  - cbn in K1. subst on. eapply IH; eassumption.
  - eapply IH; eassumption.
  - apply (IH V2 K2 g None st col); trivial. split; [apply C|exact Logic.I].
Qed.

Lemma both_ways_limit a max g cs : limit_alloc a max -> 0 <= g < 16 -> Forall valid_call cs -> Forall keeps_enabled cs ->
  (max = 0 \/ short_calls max None cs) ->
  exists st1 seen st2 packets c collected,
    parser_calls (new_parser g true true) cs = Ok (st1, seen) /\
    parser_calls (new_parser g false true) cs = Ok (st2, packets) /\
    collecting a (c7_set_max a (new_collector7 true) max) packets = Ok (c, collected) /\ pruned collected seen.
Proof.
  intros A G V K SC.
  destruct (calls_refine true cs V g true None _ (cinv_new g true true G)) as (st1 & E1).
  destruct (calls_refine false cs V g true None _ (cinv_new g false true G)) as (st2 & E2).
  destruct (receive_calls a max cs A V K g None a_idle (c7_set_max a (new_collector7 true) max) G Logic.I SC (inv7_new a max true A)) as (c & o & E & P).
  { split; [now right|exact Logic.I]. }
  { exact Logic.I. }
  exists st1, (calls_outputs true g true None cs), st2, (calls_outputs false g true None cs), c, o. repeat (split; [assumption|]). exact P.
Qed.

Lemma both_ways a g cs : std_alloc a -> 0 <= g < 16 -> Forall valid_call cs -> Forall keeps_enabled cs ->
  exists st1 seen st2 packets c collected,
    parser_calls (new_parser g true true) cs = Ok (st1, seen) /\
    parser_calls (new_parser g false true) cs = Ok (st2, packets) /\
    collecting a (new_collector7 true) packets = Ok (c, collected) /\ pruned collected seen.
Proof. intros A G V K. exact (both_ways_limit a 0 g cs (limit_std a A) G V K (or_introl eq_refl)). Qed.

Lemma both_ways_any a g st1 st2 c bs : std_alloc a -> reached g true st1 -> reached g false st2 -> reached7 a 0 c -> c7_has_cb c = true ->
  Forall is_u8 bs -> starts_with_status bs ->
  exists st1' seen st2' packets c' collected,
    feed_all st1 bs = Ok (st1', seen) /\ feed_all st2 bs = Ok (st2', packets) /\
    collecting a c packets = Ok (c', collected) /\ pruned collected seen.
Proof.
  intros A R1 R2 R7 CB B S. apply limit_std in A. assert (G := reached_group _ _ _ R1).
  destruct (resync_new g true st1 bs R1 B S) as (p1 & q1 & seen & E1 & F1).
  destruct (resync_new g false st2 bs R2 B S) as (p2 & q2 & packets & E2 & F2).
  destruct (cinv_bytes g true true bs B None _ (cinv_new g true true G)) as (r1 & H1 & _). rewrite F1 in H1.
  destruct (cinv_bytes g false true bs B None _ (cinv_new g false true G)) as (r2 & H2 & _). rewrite F2 in H2.
  assert (X1 : seen = snd (bytes_outputs true g true None bs)) by congruence.
  assert (X2 : packets = snd (bytes_outputs false g true None bs)) by congruence.
  destruct (reached7_inv a 0 c A R7) as (st & I & CL). rewrite CB in I.
  destruct (receive_bytes a 0 g bs A G B None st c Logic.I (or_introl eq_refl) I) as (c' & o & st' & E & _ & _ & _ & _ & _ & _ & P).
  { split; [now apply CL|exact Logic.I]. }
  { exact Logic.I. }
  exists p1, seen, p2, packets, c', o. subst seen packets. repeat (split; [assumption|]). exact P.
Qed.
