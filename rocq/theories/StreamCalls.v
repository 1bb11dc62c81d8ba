(* Refinement for arbitrary sequences of parser calls *)
From Coq Require Import ZArith List Bool Lia ZifyBool ZifyNat.
From Verif Require Import Base Bits Packet PacketSpec PacketProofs PacketBytes
  Messages Sysex ByteStream StreamSpec StreamProofs StreamLemmas.
Import ListNotations.
Local Open Scope Z_scope.
Local Open Scope res_scope.

Definition abs_ctx (c : calls_context) : option (Z * list Z) :=
  match c with Some (x0, ds) => Some (f_byte x0, map f_byte ds) | None => None end.
Definition abs_group (c : calls_context) : Z :=
  match c with Some (x0, ds) => packet_group x0 ds | None => 0 end.
Definition abs_alive (c : calls_context) : bool :=
  match c with Some (x0, _) => f_on x0 | None => true end.

Definition group_ok (x : fed) : Prop := 0 <= f_group x < 16.
Definition cc_ok (c : calls_context) : Prop :=
  match c with Some (x0, ds) => group_ok x0 /\ Forall group_ok ds | None => True end.

Lemma packet_group_ok x0 ds : group_ok x0 -> Forall group_ok ds -> 0 <= packet_group x0 ds < 16.
Proof.
  intros H F. unfold packet_group. destruct (_ =? _); [|exact H].
  set (i := (6 * (length ds / 6))%nat). destruct (Nat.lt_ge_cases i (length (x0 :: ds))) as [L|L].
  - assert (F' : Forall group_ok (x0 :: ds)) by now constructor.
    rewrite Forall_forall in F'. apply F', nth_In, L.
  - rewrite nth_overflow by assumption. exact H.
Qed.

Lemma abs_group_ok c : cc_ok c -> 0 <= abs_group c < 16.
Proof. destruct c as [[x0 ds]|]; cbn; [|lia]. intros []. now apply packet_group_ok. Qed.

Lemma div6_succ k : ((k + 1) / 6)%nat = (if ((k + 1) mod 6 =? 0)%nat then k / 6 + 1 else k / 6)%nat.
Proof.
  pose proof (Nat.div_mod k 6 ltac:(lia)). pose proof (Nat.mod_upper_bound k 6 ltac:(lia)).
  pose proof (Nat.div_mod (k + 1) 6 ltac:(lia)). pose proof (Nat.mod_upper_bound (k + 1) 6 ltac:(lia)).
  destruct (Nat.eqb_spec ((k + 1) mod 6) 0); lia.
Qed.

Lemma next_group_abs c x : is_u8 (f_byte x) -> abs_ctx (calls_ctx_step c x) <> None ->
  next_group (f_group x) (abs_group c) (abs_ctx c) (f_byte x) = abs_group (calls_ctx_step c x).
Proof.
  intros B NN. unfold next_group, calls_ctx_step in *. destruct (is_rt (f_byte x)); [reflexivity|].
  destruct (Z.leb_spec 0x80 (f_byte x)).
  - cbn. unfold packet_group. cbn. now destruct (_ =? _).
  - destruct c as [[x0 ds]|]; [|cbn in *; congruence]. cbn [abs_ctx abs_group].
    rewrite app_length, map_length. cbn [length]. unfold packet_group.
    destruct (f_byte x0 =? 0xF0); [|reflexivity]. cbn [andb].
    rewrite app_length. cbn [length]. rewrite div6_succ.
    set (k := length ds).
    destruct (Nat.eqb_spec ((k + 1) mod 6) 0) as [M|M].
    + apply Nat.mod_divides in M as [q M]; [|lia].
      assert (D : (k / 6 = q - 1)%nat).
      { symmetry. apply Nat.div_unique with (r := 5%nat); lia. }
      rewrite D. replace (6 * (q - 1 + 1))%nat with (S k) by lia. cbn [nth].
      unfold k. now rewrite app_nth2, Nat.sub_diag by lia.
    + set (i := (6 * (k / 6))%nat). assert (i <= k)%nat by (unfold i; apply Nat.mul_div_le; lia).
      destruct i as [|i]; [reflexivity|]. cbn [nth]. now rewrite app_nth1 by (fold k; lia).
Qed.

Lemma next_alive_abs c x : next_alive (f_on x) (abs_alive c) (f_byte x) = abs_alive (calls_ctx_step c x).
Proof.
  unfold next_alive, calls_ctx_step. destruct (is_rt (f_byte x)); [reflexivity|].
  destruct (0x80 <=? f_byte x); [reflexivity|]. destruct c as [[x0 ds]|]; reflexivity.
Qed.

Lemma next_ctx_abs c x : next_ctx (abs_ctx c) (f_byte x) = abs_ctx (calls_ctx_step c x).
Proof.
  unfold next_ctx, calls_ctx_step, ctx_step. destruct (is_rt (f_byte x)); [reflexivity|].
  destruct (0x80 <=? f_byte x); [reflexivity|]. destruct c as [[x0 ds]|]; cbn; [|reflexivity].
  now rewrite map_app.
Qed.

Lemma cc_ok_step c x : group_ok x -> cc_ok c -> cc_ok (calls_ctx_step c x).
Proof.
  intros X C. unfold calls_ctx_step. destruct (is_rt _); [assumption|]. destruct (_ <=? _).
  - split; [assumption|constructor].
  - destruct c as [[x0 ds]|]; [|exact I]. destruct C. split; [assumption|]. apply Forall_app; auto.
Qed.

Lemma emission_abs cb c x : visible (f_on x) (emit_call cb (f_group x) (abs_group c) (abs_alive c) (abs_ctx c) (f_byte x))
  = calls_emission cb c x.
Proof.
  unfold calls_emission, emit_call. destruct (f_on x); cbn [negb visible]; [|reflexivity].
  destruct (is_rt (f_byte x)); [reflexivity|]. destruct (f_byte x <? 0x80).
  - destruct c as [[x0 ds]|]; [|reflexivity]. cbn. now rewrite map_app.
  - destruct (f_byte x =? 0xF6); [reflexivity|]. destruct (f_byte x =? 0xF7); [|reflexivity].
    destruct c as [[x0 ds]|]; reflexivity.
Qed.

(* the state between calls *)
Definition cinv (g : Z) (cb on : bool) (c : calls_context) (st : parser) : Prop :=
  0 <= g < 16 /\ cc_ok c /\ inv g (abs_group c) (abs_alive c) cb on (abs_ctx c) st.

Lemma inv_none g p p' al al' cb on st : inv g p al cb on None st -> inv g p' al' cb on None st.
Proof. intros H; exact H. Qed.

Lemma cinv_feed g cb on c st b : is_u8 b -> cinv g cb on c st ->
  exists st', feed st b = Ok (st', calls_emission cb c (mkFed b g on)) /\
    cinv g cb on (calls_ctx_step c (mkFed b g on)) st'.
Proof.
  intros B (G & C & I). set (x := mkFed b g on).
  destruct (feed_step_call g (abs_group c) (abs_alive c) cb on (abs_ctx c) st b G (abs_group_ok c C) B I) as (st' & E & I').
  exists st'. rewrite E. split.
  - pose proof (emission_abs cb c x) as EA. cbn [x f_on f_group f_byte] in EA. now rewrite EA.
  - split; [assumption|]. split; [now apply cc_ok_step|].
    pose proof (next_ctx_abs c x) as EC. cbn [x f_byte] in EC. rewrite EC in I'.
    pose proof (next_alive_abs c x) as EL. cbn [x f_byte f_on] in EL. rewrite EL in I'.
    destruct (abs_ctx (calls_ctx_step c x)) eqn:N.
    + pose proof (next_group_abs c x B) as EG. rewrite N in EG. specialize (EG ltac:(discriminate)).
      cbn [x f_byte f_group] in EG. rewrite EG in I'. exact I'.
    + eapply inv_none. exact I'.
Qed.

Lemma cinv_bytes g cb on bs : Forall is_u8 bs -> forall c st, cinv g cb on c st ->
  exists st', feed_all st bs = Ok (st', snd (bytes_outputs cb g on c bs)) /\
    cinv g cb on (fst (bytes_outputs cb g on c bs)) st'.
Proof.
  induction 1 as [|b bs B _ IH]; intros c st I; [exists st; now split|].
  destruct (cinv_feed g cb on c st b B I) as (st1 & E1 & I1).
  destruct (IH _ _ I1) as (st2 & E2 & I2). exists st2. cbn [feed_all]. rewrite E1. cbn [bind].
  rewrite E2. cbn [bind]. split; [reflexivity|assumption].
Qed.

Lemma calls_refine cb cs : Forall valid_call cs -> forall g on c st, cinv g cb on c st ->
  exists st', parser_calls st cs = Ok (st', calls_outputs cb g on c cs).
Proof.
  induction 1 as [|k cs K _ IH]; intros g on c st I; [now exists st|]. cbn [parser_calls].
  destruct k as [bs|on'|g'|]; cbn [parser_call_step calls_outputs].
  - destruct (cinv_bytes g cb on bs K c st I) as (st1 & E1 & I1). rewrite E1. cbn [bind].
    destruct (IH _ _ _ _ I1) as (st2 & E2). rewrite E2. cbn [bind]. now exists st2.
  - cbn [bind]. destruct (IH g on' c (enable_callbacks st on')) as (st2 & E2).
    + destruct I as (G & C & (H1 & H2 & H3 & H4)). split; [assumption|]. split; [assumption|].
      split; [assumption|]. split; [assumption|]. split; [reflexivity|]. exact H4.
    + rewrite E2. now exists st2.
  - cbn [bind]. destruct (IH g' on c (parser_set_group st g')) as (st2 & E2).
    + destruct I as (G & C & (H1 & H2 & H3 & H4)). split; [assumption|]. split; [assumption|].
      split; [reflexivity|]. split; [assumption|]. split; [assumption|]. exact H4.
    + rewrite E2. now exists st2.
  - cbn [bind]. destruct (IH g on None (parser_reset st)) as (st2 & E2).
    + destruct I as (G & C & (H1 & H2 & H3 & H4)). split; [assumption|]. split; [exact Logic.I|].
      repeat split; assumption.
    + rewrite E2. now exists st2.
Qed.

Lemma cinv_new g cb on : 0 <= g < 16 -> cinv g cb on None (new_parser g cb on).
Proof. intros. repeat split; trivial; lia. Qed.

Lemma calls_app st a b : parser_calls st (a ++ b) =
  (r <- parser_calls st a ;; r' <- parser_calls (fst r) b ;; Ok (fst r', snd r ++ snd r')).
Proof.
  revert st; induction a as [|x a IH]; intros st; cbn [parser_calls app bind].
  - cbn [fst snd app]. destruct (parser_calls st b) as [[st' o]|f]; reflexivity.
  - destruct (parser_call_step st x) as [[st1 o1]|f]; cbn [bind]; [|reflexivity].
    rewrite IH. destruct (parser_calls st1 a) as [[st2 o2]|f]; cbn [bind fst snd]; [|reflexivity].
    destruct (parser_calls st2 b) as [[st3 o3]|f]; cbn [bind fst snd]; [|reflexivity].
    now rewrite app_assoc.
Qed.

Lemma calls_inv cb cs : Forall valid_call cs -> forall g on c st st' o, cinv g cb on c st ->
  parser_calls st cs = Ok (st', o) -> exists c', cinv (m_group st') cb (m_invoke_callbacks st') c' st'.
Proof.
  induction 1 as [|k cs K _ IH]; intros g on c st st' o I E; cbn [parser_calls] in E.
  - injection E as <- _. exists c. destruct I as (G & C & (H1 & H2 & H3 & H4)). rewrite H1, H3.
    repeat (split; trivial).
  - destruct (parser_call_step st k) as [[st1 o1]|] eqn:E1; cbn [bind] in E; [|discriminate].
    destruct (parser_calls st1 cs) as [[st2 o2]|] eqn:E2; cbn [bind] in E; [|discriminate].
    injection E as <- _.
    destruct k as [bs|on'|g'|]; cbn [parser_call_step] in E1.
    + destruct (cinv_bytes g cb on bs K c st I) as (st1' & E1' & I1). rewrite E1 in E1'. injection E1' as <- _.
      eapply IH; eassumption.
    + injection E1 as <- _. eapply (IH g on' c); [|eassumption].
      destruct I as (G & C & (H1 & H2 & H3 & H4)). split; [assumption|]. split; [assumption|].
      split; [assumption|]. split; [assumption|]. split; [reflexivity|]. exact H4.
    + injection E1 as <- _. eapply (IH g' on c); [|eassumption].
      destruct I as (G & C & (H1 & H2 & H3 & H4)). split; [assumption|]. split; [assumption|].
      split; [reflexivity|]. split; [assumption|]. split; [assumption|]. exact H4.
    + injection E1 as <- _. eapply (IH g on None); [|eassumption].
      destruct I as (G & C & (H1 & H2 & H3 & H4)). split; [assumption|]. split; [exact Logic.I|].
      repeat split; assumption.
Qed.

(* reset() restores the initial behaviour *)
Lemma reset_like_new g cb on before st o later : 0 <= g < 16 -> Forall valid_call before -> Forall valid_call later ->
  parser_calls (new_parser g cb on) before = Ok (st, o) ->
  exists st1 st2 out,
    parser_calls (parser_reset st) later = Ok (st1, out) /\
    parser_calls (new_parser (m_group st) cb (m_invoke_callbacks st)) later = Ok (st2, out).
Proof.
  intros G B L E. destruct (calls_inv cb before B g on None _ _ _ (cinv_new g cb on G) E) as (c & I).
  assert (G' : 0 <= m_group st < 16) by apply I.
  destruct (calls_refine cb later L (m_group st) (m_invoke_callbacks st) None _ (cinv_new _ _ _ G')) as (st2 & E2).
  destruct (calls_refine cb later L (m_group st) (m_invoke_callbacks st) None (parser_reset st)) as (st1 & E1).
  { destruct I as (_ & C & (H1 & H2 & H3 & H4)). split; [assumption|]. split; [exact Logic.I|]. repeat split; assumption. }
  exists st1, st2, (calls_outputs cb (m_group st) (m_invoke_callbacks st) None later). now split.
Qed.

(* groups of everything emitted *)
Definition cc_bytes_ok (P : Z -> Prop) (c : calls_context) : Prop :=
  match c with
  | Some (x0, ds) => 0x80 <= f_byte x0 < 0xF8 /\ P (f_group x0) /\
      Forall (fun x => is_u7 (f_byte x) /\ P (f_group x)) ds
  | None => True
  end.

Lemma packet_group_P (P : Z -> Prop) x0 ds : P (f_group x0) -> Forall (fun x => is_u7 (f_byte x) /\ P (f_group x)) ds ->
  P (packet_group x0 ds).
Proof.
  intros H F. unfold packet_group. destruct (_ =? _); [|exact H].
  set (i := (6 * (length ds / 6))%nat). destruct i as [|i]; cbn [nth]; [assumption|].
  destruct (Nat.lt_ge_cases i (length ds)) as [L|L].
  - rewrite Forall_forall in F. apply F. now apply nth_In.
  - now rewrite nth_overflow.
Qed.

Lemma cc_bytes_step (P : Z -> Prop) c x : is_u8 (f_byte x) -> P (f_group x) -> cc_bytes_ok P c -> cc_bytes_ok P (calls_ctx_step c x).
Proof.
  intros B X C. unfold calls_ctx_step, is_rt, is_u8 in *.
  destruct (Z.leb_spec 0xF8 (f_byte x)); [assumption|]. destruct (Z.leb_spec 0x80 (f_byte x)).
  - split; [lia|]. split; [assumption|constructor].
  - destruct c as [[x0 ds]|]; [|exact I]. destruct C as (? & ? & ?). repeat split; trivial; try lia.
    apply Forall_app; split; trivial. repeat constructor; unfold is_u7; trivial; lia.
Qed.

Lemma Forall_map_u7 (P : Z -> Prop) ds : Forall (fun x => is_u7 (f_byte x) /\ P (f_group x)) ds -> Forall is_u7 (map f_byte ds).
Proof. induction 1; cbn; constructor; tauto. Qed.

Lemma calls_emission_wf (P : Z -> Prop) cb c x : is_u8 (f_byte x) -> P (f_group x) -> cc_bytes_ok P c ->
  Forall (wf_output_some P) (calls_emission cb c x).
Proof.
  intros B X C. unfold calls_emission. destruct (negb (f_on x)); [constructor|].
  assert (UP : forall g l, P g -> Forall (wf_output g) l -> Forall (wf_output_some P) l).
  { intros g l Hg Hl. eapply Forall_impl; [|exact Hl]. intros e We. exists g. auto. }
  pose proof (emit_wf cb (f_group x) None (f_byte x) B I) as W0. unfold emit_ctx in W0.
  destruct (is_rt (f_byte x)); [eapply UP; eassumption|]. destruct (Z.ltb_spec (f_byte x) 0x80).
  - destruct c as [[x0 ds]|]; [|constructor]. destruct C as (S & PG & D).
    apply (UP (packet_group x0 ds)); [now apply packet_group_P|]. apply on_data_wf; trivial.
    + rewrite map_app. apply Forall_app; split; [eapply Forall_map_u7; eassumption|].
      unfold is_u8 in B. repeat constructor; unfold is_u7; lia.
    + destruct ds; discriminate.
  - destruct (f_byte x =? 0xF6); [eapply UP; eassumption|]. destruct (f_byte x =? 0xF7); [|constructor].
    destruct c as [[x0 ds]|]; [|constructor]. destruct C as (S & PG & D).
    destruct (_ && _); [|constructor]. apply (UP (packet_group x0 ds)); [now apply packet_group_P|].
    apply on_sysex_end_wf. eapply Forall_map_u7; eassumption.
Qed.

Lemma bytes_outputs_wf (P : Z -> Prop) cb g on bs : Forall is_u8 bs -> P g -> forall c, cc_bytes_ok P c ->
  cc_bytes_ok P (fst (bytes_outputs cb g on c bs)) /\ Forall (wf_output_some P) (snd (bytes_outputs cb g on c bs)).
Proof.
  intros F PG. induction F as [|b bs B _ IH]; intros c C; [split; [exact C|constructor]|].
  cbn [bytes_outputs fst snd].
  destruct (IH (calls_ctx_step c (mkFed b g on))) as [I1 I2]; [now apply cc_bytes_step|].
  split; [assumption|]. apply Forall_app; split; [now apply calls_emission_wf|assumption].
Qed.

Lemma calls_outputs_wf (P : Z -> Prop) cb cs : Forall valid_call cs -> forall g on c, P g ->
  (forall x, In (CSetGroup x) cs -> P x) -> cc_bytes_ok P c ->
  Forall (wf_output_some P) (calls_outputs cb g on c cs).
Proof.
  induction 1 as [|k cs K _ IH]; intros g on c PG PS C; [constructor|].
  destruct k as [bs|on'|g'|]; cbn [calls_outputs].
  - destruct (bytes_outputs_wf P cb g on bs K PG c C) as [I1 I2].
    apply Forall_app; split; [assumption|]. apply IH; trivial. intros x Hx. apply PS. now right.
  - apply IH; trivial. intros x Hx. apply PS. now right.
  - apply IH; trivial; [apply PS; now left|]. intros x Hx. apply PS. now right.
  - apply IH; trivial. intros x Hx. apply PS. now right.
Qed.

(* ---- resynchronisation ----------------------------------------------------------------- *)

Definition uniform (g : Z) (c : calls_context) : Prop :=
  match c with
  | Some (x0, ds) => f_group x0 = g /\ f_on x0 = true /\ Forall (fun x => f_group x = g) ds
  | None => True
  end.

Lemma uniform_group g x0 ds : uniform g (Some (x0, ds)) -> packet_group x0 ds = g.
Proof.
  intros (H & _ & F). unfold packet_group. destruct (_ =? _); [|exact H].
  destruct (6 * (length ds / 6))%nat as [|i]; [exact H|]. cbn [nth].
  destruct (Nat.lt_ge_cases i (length ds)) as [L|L].
  - rewrite Forall_forall in F. apply F. now apply nth_In.
  - now rewrite nth_overflow.
Qed.

Lemma uniform_outputs cb g bs : forall c h, uniform g c -> abs_ctx c = context h ->
  snd (bytes_outputs cb g true c bs) = outputs cb g h bs.
Proof.
  induction bs as [|b bs IH]; intros c h U A; [reflexivity|]. cbn [bytes_outputs outputs snd].
  set (x := mkFed b g true). f_equal.
  - unfold calls_emission, emission. cbn [f_byte f_on f_group x negb].
    destruct (is_rt b); [reflexivity|]. rewrite <- A. destruct (b <? 0x80).
    + destruct c as [[x0 ds]|]; [|reflexivity]. cbn [abs_ctx]. rewrite (uniform_group g) by exact U.
      now rewrite map_app.
    + destruct (b =? 0xF6); [reflexivity|]. destruct (b =? 0xF7); [|reflexivity].
      destruct c as [[x0 ds]|]; [|reflexivity]. cbn [abs_ctx]. rewrite (uniform_group g) by exact U.
      destruct U as (_ & -> & _). rewrite orb_true_r, andb_true_r. reflexivity.
  - apply IH.
    + unfold calls_ctx_step. cbn [f_byte x]. destruct (is_rt b); [exact U|]. destruct (_ <=? _).
      * repeat split; constructor.
      * destruct c as [[x0 ds]|]; [|exact I]. destruct U as (? & ? & ?). repeat split; trivial.
        apply Forall_app; split; trivial. now repeat constructor.
    + rewrite context_remember, <- A. symmetry. apply (next_ctx_abs c x).
Qed.

Lemma resync_outputs cb g bs : starts_with_status bs -> forall c,
  snd (bytes_outputs cb g true c bs) = snd (bytes_outputs cb g true None bs).
Proof.
  unfold starts_with_status. induction bs as [|b bs IH]; intros S c; [reflexivity|].
  cbn [bytes_outputs snd]. cbn [filter] in S. unfold not_rt in S at 1.
  unfold calls_emission, calls_ctx_step. cbn [f_byte f_on f_group negb].
  destruct (is_rt b) eqn:R; cbn [negb] in S.
  - now rewrite (IH S c).
  - destruct S as [S1 S2]. replace (b <? 0x80) with false by lia. replace (0x80 <=? b) with true by lia.
    now replace (b =? 0xF7) with false by lia.
Qed.

Lemma resync g cb st bs : reached g cb st -> Forall is_u8 bs -> starts_with_status bs ->
  exists st', feed_all st bs = Ok (st', outputs cb g [] bs).
Proof.
  intros (g0 & on0 & cs & o & G0 & V & E & EG & EO) B S.
  destruct (calls_inv cb cs V g0 on0 None _ _ _ (cinv_new g0 cb on0 G0) E) as (c & I).
  rewrite EG, EO in I. destruct (cinv_bytes g cb true bs B c st I) as (st' & E' & _).
  exists st'. rewrite E', (resync_outputs cb g bs S c). do 2 f_equal. now apply uniform_outputs.
Qed.

Lemma reached_group g cb st : reached g cb st -> 0 <= g < 16.
Proof.
  intros (g0 & on0 & cs & o & G0 & V & E & EG & EO).
  destruct (calls_inv cb cs V g0 on0 None _ _ _ (cinv_new g0 cb on0 G0) E) as (c & I).
  rewrite EG in I. apply I.
Qed.

Lemma after_nil g cb : after g cb [] (new_parser g cb true).
Proof. eexists; reflexivity. Qed.

Lemma resync_new g cb st bs : reached g cb st -> Forall is_u8 bs -> starts_with_status bs ->
  exists st1 st2 o, feed_all st bs = Ok (st1, o) /\ feed_all (new_parser g cb true) bs = Ok (st2, o).
Proof.
  intros R B S. destruct (resync g cb st bs R B S) as (st1 & E).
  destruct (feed_after g cb [] _ bs (reached_group _ _ _ R) ltac:(constructor) (after_nil g cb) B) as (st2 & E2 & _).
  exists st1, st2, (outputs cb g [] bs). now split.
Qed.

Lemma filter_firstn {A} (f : A -> bool) n l : exists k, filter f (firstn n l) = firstn k (filter f l).
Proof.
  revert n; induction l as [|a l IH]; intros [|n]; cbn; try (exists 0%nat; reflexivity).
  destruct (IH n) as [k E]. destruct (f a); [exists (S k)|exists k]; cbn; now rewrite E.
Qed.

Lemma starts_firstn n bs : starts_with_status bs -> starts_with_status (firstn n bs).
Proof.
  unfold starts_with_status. destruct (filter_firstn not_rt n bs) as [k ->].
  destruct (filter not_rt bs); destruct k; cbn; trivial.
Qed.

Lemma wr_filter g a b : with_realtime g a b -> filter not_rt (map fst b) = filter not_rt (map fst a).
Proof.
  induction 1 as [|x a b _ IH|r a b R L _ IH]; cbn; [reflexivity| |].
  - now rewrite IH.
  - unfold not_rt at 1. rewrite R. exact IH.
Qed.

Lemma renders_starts g ms a : renders g None ms a -> starts_with_status (map fst a).
Proof.
  inversion 1 as [rs|rs m ms' a' V R|]; subst; [exact I|].
  unfold starts_with_status. rewrite map_app, render_full_fst by assumption. cbn [app filter].
  destruct (valid_message_status m V). unfold not_rt at 1, is_rt. replace (0xF8 <=? ms_status m) with false by lia.
  cbn [negb]. lia.
Qed.

Lemma legal_stream_anywhere g cb st ms a b n : reached g cb st ->
  renders g None ms a -> with_realtime g a b ->
  exists st', feed_all st (map fst (firstn n b)) = Ok (st', concat (map snd (firstn n b))).
Proof.
  intros R A B. assert (G := reached_group _ _ _ R).
  destruct (legal_stream_any_history g cb [] _ ms a b n G ltac:(constructor) (after_nil g cb) A B) as (st2 & E2).
  assert (U : Forall is_u8 (map fst (firstn n b))).
  { rewrite <- firstn_map. apply Forall_firstn. eapply with_realtime_u8; [eassumption|]. eapply renders_u8; eassumption. }
  assert (SS : starts_with_status (map fst (firstn n b))).
  { rewrite <- firstn_map. apply starts_firstn. unfold starts_with_status.
    rewrite (wr_filter _ _ _ B). exact (renders_starts g ms a A). }
  destruct (resync_new g cb st _ R U SS) as (st1 & st2' & o & E1 & E2').
  rewrite E2 in E2'. injection E2' as <- <-. now exists st1.
Qed.

Lemma sysex_starts bs ds : filter not_rt bs = 0xF0 :: ds -> starts_with_status bs.
Proof. unfold starts_with_status. intros ->. lia. Qed.

Lemma sysex_to_packets_anywhere g st bs ds : reached g false st ->
  Forall is_u8 bs -> filter not_rt bs = 0xF0 :: ds ++ [0xF7] -> Forall is_u7 ds -> ds <> [] ->
  exists st' out chunks, feed_all st bs = Ok (st', out) /\
    chunked6 chunks /\ concat chunks = ds /\
    filter not_rt_event out = map EPacket (sx7_sequence g chunks) /\
    stream_of_packets (sx7_sequence g chunks) = Ok (0xF0 :: ds ++ [0xF7]).
Proof.
  intros R B F D N. assert (G := reached_group _ _ _ R).
  destruct (sysex_to_packets g [] _ bs ds G ltac:(constructor) (after_nil g false) B F D N) as (st2 & out & ch & E & H).
  destruct (resync_new g false st bs R B (sysex_starts _ _ F)) as (st1 & st2' & o & E1 & E2').
  rewrite E in E2'. injection E2' as <- <-. now exists st1, out, ch.
Qed.

Lemma sysex_to_callback_anywhere g st bs id ds : reached g true st ->
  Forall is_u8 bs -> valid_id id -> Forall is_u7 ds ->
  filter not_rt bs = 0xF0 :: id_bytes id ++ ds ++ [0xF7] ->
  exists st' out, feed_all st bs = Ok (st', out) /\
    filter not_rt_event out = [ESysex (mkSx id ds)].
Proof.
  intros R B V D F. assert (G := reached_group _ _ _ R).
  destruct (sysex_to_callback g [] _ bs id ds G ltac:(constructor) (after_nil g true) B V D F) as (st2 & out & E & H).
  destruct (resync_new g true st bs R B (sysex_starts _ _ F)) as (st1 & st2' & o & E1 & E2').
  rewrite E in E2'. injection E2' as <- <-. now exists st1, out.
Qed.

(* ---- ignored data bytes ------------------------------------------------------------------ *)

Lemma data_ignored_without_status g cb on bs : 0 <= g < 16 -> Forall is_u7 bs ->
  exists st', feed_all (new_parser g cb on) bs = Ok (st', []).
Proof.
  intros G B. destruct (cinv_bytes g cb on bs (Forall_u7_u8 _ B) None _ (cinv_new g cb on G)) as (st' & E & _).
  exists st'. rewrite E. do 2 f_equal. clear E st'. induction B as [|b bs B _ IH]; [reflexivity|].
  cbn [bytes_outputs snd]. unfold calls_emission, calls_ctx_step, is_rt, is_u7 in *. cbn [f_byte f_on].
  replace (0xF8 <=? b) with false by lia. replace (b <? 0x80) with true by lia. replace (0x80 <=? b) with false by lia.
  rewrite IH. now destruct (negb on).
Qed.

Lemma extra_ignored cb g s bs : 0xF1 <= s < 0xF8 -> Forall is_u7 bs -> forall h ds,
  context h = Some (s, ds) -> match sc_len s with Some n => (n <= length ds)%nat | None => True end ->
  outputs cb g h bs = [].
Proof.
  intros S F. induction F as [|b bs B _ IH]; intros h ds C L; [reflexivity|]. cbn [outputs].
  rewrite emission_data, C by assumption. unfold on_data at 1.
  replace (s <? 0xF0) with false by lia. replace (s =? 0xF0) with false by lia.
  rewrite (IH _ (ds ++ [b])).
  - destruct (sc_len s) as [n|]; [|reflexivity]. rewrite app_length. cbn [length].
    replace (length ds + 1 =? n)%nat with false by lia. reflexivity.
  - now apply context_u7.
  - destruct (sc_len s); [|exact I]. rewrite app_length; cbn; lia.
Qed.

Lemma context_data_app ds : Forall is_u7 ds -> forall h s d0, context h = Some (s, d0) ->
  context (fold_left remember ds h) = Some (s, d0 ++ ds).
Proof.
  induction 1 as [|d ds D _ IH]; intros h s d0 C; cbn [fold_left]; [now rewrite app_nil_r|].
  rewrite (IH _ s (d0 ++ [d])) by now apply context_u7. now rewrite <- app_assoc.
Qed.

Lemma common_extra_ignored g cb st s ds extra : reached g cb st -> s <> 0xF7 ->
  complete_common s ds -> Forall is_u7 extra ->
  exists st1 st2 o, feed_all st (s :: ds) = Ok (st1, o) /\ feed_all st1 extra = Ok (st2, []).
Proof.
  intros R N (S & D & L) X. assert (G := reached_group _ _ _ R).
  assert (SU : is_u8 s) by (unfold is_u8; lia).
  assert (St : forall l, starts_with_status (s :: l)).
  { intros l. unfold starts_with_status. cbn [filter]. unfold not_rt at 1, is_rt. replace (0xF8 <=? s) with false by lia.
    cbn [negb]. lia. }
  assert (U : Forall is_u8 ((s :: ds) ++ extra)).
  { cbn [app]. constructor; trivial. apply Forall_app; split; now apply Forall_u7_u8. }
  destruct (resync g cb st ((s :: ds) ++ extra) R U (St _)) as (st2 & E).
  rewrite feed_all_app in E. assert (U1 : Forall is_u8 (s :: ds)) by now apply Forall_app in U.
  destruct (resync g cb st (s :: ds) R U1 (St _)) as (st1 & E1). rewrite E1 in E. cbn [bind fst snd] in E.
  destruct (feed_all st1 extra) as [[st3 o3]|] eqn:E3; cbn [bind fst snd] in E; [|discriminate].
  rewrite outputs_app in E. apply (f_equal (fun r => match r with Ok (_, o) => o | Fault _ => [] end)) in E.
  apply app_inv_head in E. exists st1, st3, (outputs cb g [] (s :: ds)). split; [exact E1|]. rewrite E3, E. do 2 f_equal.
  cbn [fold_left]. apply (extra_ignored cb g s extra S X _ ds).
  - rewrite (context_data_app ds D _ s []); [reflexivity|]. now apply context_status; lia.
  - destruct (sc_len s); [lia|exact I].
Qed.

(* ---- removing the real-time bytes removes the real-time messages --------------------------- *)

Lemma calls_emission_not_rt cb c x : group_ok x -> cc_ok c -> cc_bytes_ok (fun g => 0 <= g < 16) c ->
  0 <= f_byte x < 0xF8 -> filter not_rt_event (calls_emission cb c x) = calls_emission cb c x.
Proof.
  intros X C C' B. unfold calls_emission. destruct (negb (f_on x)); [reflexivity|].
  unfold is_rt. replace (0xF8 <=? f_byte x) with false by lia.
  destruct c as [[x0 ds]|].
  - destruct C' as (S & PG & D). destruct C as (C1 & C2). pose proof (packet_group_ok x0 ds C1 C2) as GP.
    assert (OK : ctx_ok (Some (f_byte x0, map f_byte ds))) by (split; [exact S|exact (Forall_map_u7 (fun g => 0 <= g < 16) ds D)]).
    pose proof (emit_not_rt cb _ (Some (f_byte x0, map f_byte ds)) (f_byte x) GP B OK) as E1.
    pose proof (emit_not_rt cb _ (Some (f_byte x0, map f_byte ds)) (f_byte x) X B OK) as E2.
    unfold emit_ctx, is_rt in E1, E2. replace (0xF8 <=? f_byte x) with false in E1, E2 by lia.
    destruct (f_byte x <? 0x80); [now rewrite map_app|].
    destruct (f_byte x =? 0xF6); [exact E2|]. destruct (f_byte x =? 0xF7); [|reflexivity].
    destruct (f_byte x0 =? 0xF0); cbn [andb]; [|reflexivity]. destruct (_ || _); [exact E1|reflexivity].
  - pose proof (emit_not_rt cb _ None (f_byte x) X B I) as E2.
    unfold emit_ctx, is_rt in E2. replace (0xF8 <=? f_byte x) with false in E2 by lia. exact E2.
Qed.

Lemma cinv_bytes_ok g cb on c st : cinv g cb on c st -> cc_bytes_ok (fun g => 0 <= g < 16) c.
Proof.
  intros (G & C & (_ & _ & _ & I)). destruct c as [[x0 ds]|]; [|exact Logic.I]. cbn in *. destruct C as [C1 C2].
  destruct I as (S & D & _). split; [assumption|]. split; [assumption|].
  clear -D C2. induction ds as [|d ds IH]; [constructor|]. inversion_clear D. inversion_clear C2. constructor; auto.
Qed.

Lemma filter_none {A} (f : A -> bool) l : Forall (fun x => f x = false) l -> filter f l = [].
Proof. induction 1 as [|x l H _ IH]; cbn; [reflexivity|]. now rewrite H. Qed.

Lemma rt_remove g cb on bs : Forall is_u8 bs -> forall c st, cinv g cb on c st ->
  exists st' out, feed_all st bs = Ok (st', out) /\
    feed_all st (filter not_rt bs) = Ok (st', filter not_rt_event out).
Proof.
  induction 1 as [|b bs B _ IH]; intros c st I; [exists st, []; now split|]. cbn [filter feed_all].
  destruct (cinv_feed g cb on c st b B I) as (st1 & E1 & I1).
  destruct (IH _ _ I1) as (st2 & o & E2 & E3). rewrite E1. cbn [bind]. rewrite E2. cbn [bind].
  exists st2, (calls_emission cb c (mkFed b g on) ++ o). split; [reflexivity|]. rewrite filter_app.
  unfold not_rt at 1. unfold is_u8 in B. destruct (is_rt b) eqn:R; cbn [negb].
  - unfold is_rt in R. assert (G : 0 <= g < 16) by apply I.
    assert (GM : m_group st = g) by apply I. assert (OM : m_invoke_callbacks st = on) by apply I.
    rewrite feed_rt in E1 by lia. injection E1 as <- <-. rewrite E3. do 2 f_equal.
    rewrite GM, OM. unfold visible. destruct on; [|reflexivity]. destruct (rt_defined b) eqn:D; [|reflexivity].
    cbn [filter app]. unfold not_rt_event at 2. rewrite rt_is_rt by lia. reflexivity.
  - cbn [feed_all]. rewrite E1. cbn [bind]. rewrite E3. cbn [bind]. do 2 f_equal. f_equal.
    symmetry. apply calls_emission_not_rt; cbn [f_byte].
    + apply I.
    + apply I.
    + eapply cinv_bytes_ok; eassumption.
    + unfold is_rt in R. lia.
Qed.

Lemma rt_remove_calls g0 cb on0 cs st o bs : 0 <= g0 < 16 -> Forall valid_call cs ->
  parser_calls (new_parser g0 cb on0) cs = Ok (st, o) -> Forall is_u8 bs ->
  exists st' out, feed_all st bs = Ok (st', out) /\
    feed_all st (filter not_rt bs) = Ok (st', filter not_rt_event out).
Proof.
  intros G V E B. destruct (calls_inv cb cs V g0 on0 None _ _ _ (cinv_new g0 cb on0 G) E) as (c & I).
  eapply rt_remove; eassumption.
Qed.

(* the events of a rendering are the messages *)
Lemma annotate_data_events a l e : concat (map snd (annotate_data (a :: l) e)) = [e].
Proof.
  revert a; induction l as [|b l IH]; intros a; [reflexivity|].
  change (annotate_data (a :: b :: l) e) with ((a, []) :: annotate_data (b :: l) e).
  cbn [map concat snd app]. apply IH.
Qed.

Lemma renders_events g rs ms a : renders g rs ms a ->
  concat (map snd a) = map (fun m => EPacket (short_packet g (ms_status m) (ms_data m))) ms.
Proof.
  induction 1 as [|rs m ms a V R IH|m ms a V C R IH]; [reflexivity| |].
  - rewrite map_app, concat_app, IH. cbn [map]. unfold render_full.
    destruct (ms_data m); [reflexivity|]. cbn [map concat snd app]. now rewrite annotate_data_events.
  - rewrite map_app, concat_app, IH. cbn [map]. unfold render_running.
    destruct (ms_data m) as [|d l] eqn:E; [|now rewrite annotate_data_events].
    exfalso. destruct V as [[[_ L]|L] _]; rewrite E in L.
    + unfold cv_len in L. destruct (_ && _); discriminate.
    + unfold is_cv in C. apply sc_len_range in L. lia.
Qed.

(* C16 for arbitrary calls *)
Lemma calls_wf g cb on cs : 0 <= g < 16 -> Forall valid_call cs ->
  exists st out, parser_calls (new_parser g cb on) cs = Ok (st, out) /\
    Forall (wf_output_some (configured g cs)) out.
Proof.
  intros G V. destruct (calls_refine cb cs V g on None _ (cinv_new g cb on G)) as (st & E).
  exists st, (calls_outputs cb g on None cs). split; [exact E|].
  apply calls_outputs_wf; trivial.
  - now left.
  - intros x Hx. now right.
  - exact I.
Qed.

Lemma calls_safe_new g cb on cs : 0 <= g < 16 -> Forall valid_call cs ->
  exists st out, parser_calls (new_parser g cb on) cs = Ok (st, out).
Proof.
  intros G V. pose proof (calls_safe cs V _ (sane_new g cb on G)) as S.
  destruct (parser_calls _ _) as [[st out]|f]; [now exists st, out|destruct S].
Qed.

Lemma calls_refine_new g cb on cs : 0 <= g < 16 -> Forall valid_call cs ->
  exists st, parser_calls (new_parser g cb on) cs = Ok (st, calls_outputs cb g on None cs).
Proof. intros G V. exact (calls_refine cb cs V g on None _ (cinv_new g cb on G)). Qed.

Lemma silent_calls g cb before off later st o st' o' : 0 <= g < 16 ->
  parser_calls (new_parser g cb off) before = Ok (st, o) -> Forall stays_off later ->
  parser_calls (enable_callbacks st false) later = Ok (st', o') -> o' = [].
Proof. intros _ _ F E. eapply calls_silent; [exact F| |exact E]. reflexivity. Qed.

Lemma undefined_anywhere g cb st s bs : reached g cb st -> s = 0xF4 \/ s = 0xF5 -> Forall is_u7 bs ->
  exists st', feed_all st (s :: bs) = Ok (st', []).
Proof.
  intros R S B. destruct (resync g cb st (s :: bs) R) as (st' & E).
  - constructor; [unfold is_u8; lia|now apply Forall_u7_u8].
  - unfold starts_with_status. cbn [filter]. unfold not_rt at 1, is_rt. replace (0xF8 <=? s) with false by lia.
    cbn [negb]. lia.
  - exists st'. now rewrite E, undefined_status.
Qed.

Lemma group_change_example :
  exists st, parser_calls (new_parser 0 false true)
      [CFeed [0x90; 0x3C; 0x40]; CSetGroup 5; CFeed [0x3C; 0x00]]
    = Ok (st, [EPacket (mkP 0x20903C40 0 0 0); EPacket (mkP 0x20903C00 0 0 0)])
  /\ m_group st = 5.
Proof. eexists. split; reflexivity. Qed.
