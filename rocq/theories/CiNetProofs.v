(* Lemmas about discovery among MIDI-CI devices. *)
From Coq Require Import ZArith List Bool Lia ZifyBool ZifyNat.
From Verif Require Import Base Bits Packet Messages Sysex UniversalSysex SysexSpec SysexProofs CapInq CapSpec CapProofs CapWire
  CapCalls CapMake CapRead CapReport CapReportProofs CiNet CiNetSpec.
Import ListNotations.
Local Open Scope Z_scope.
Local Open Scope res_scope.

(* ---- the list of known devices ------------------------------------------------------------ *)

Lemma look_up_forget m t k : look_up m (forget t k) = if t =? m then None else look_up m k.
Proof.
  unfold look_up, forget. induction k as [|p k IH]; [now destruct (t =? m)|]. cbn [filter find].
  destruct (Z.eqb_spec (pr_muid p) t) as [E|E]; cbn [negb].
  - rewrite IH. destruct (Z.eqb_spec t m); [reflexivity|]. destruct (Z.eqb_spec (pr_muid p) m); [lia|reflexivity].
  - cbn [find]. destruct (Z.eqb_spec (pr_muid p) m) as [F|F]; [|apply IH].
    destruct (Z.eqb_spec t m); [lia|reflexivity].
Qed.
Lemma look_up_learn m p k :
  look_up m (p :: forget (pr_muid p) k) = if pr_muid p =? m then Some p else look_up m k.
Proof.
  change (look_up m (p :: forget (pr_muid p) k)) with
    (if pr_muid p =? m then Some p else look_up m (forget (pr_muid p) k)).
  rewrite look_up_forget. now destruct (pr_muid p =? m).
Qed.

(* ---- the messages of the devices ---------------------------------------------------------- *)

Definition inquiry_call (d : ci_device) : ci_call :=
  CDiscoveryInquiry (cd_muid d) (cd_identity d) (cd_categories d) (cd_max_size d) (cd_path d).
Definition answer_call (d : ci_device) (asker : Z) : ci_call :=
  CDiscoveryReply (cd_muid d) asker (cd_identity d) (cd_categories d) (cd_max_size d) (cd_path d) (cd_block d).
Definition farewell_call (d : ci_device) : ci_call := CInvalidateMuid (cd_muid d) (cd_muid d).

Ltac fa := repeat (apply Forall_cons; [unfold is_u7, is_u28 in *; lia|]); apply Forall_nil.
Ltac ranges := unfold in_range; cbn [raw_bytes numbers7 numbers14 numbers28 muids identity_of sizes14 sizes28 chunk_numbering proper_subtype app];
  unfold all7; repeat apply conj; try fa; trivial.

Lemma inquiry_range d : device_ok d -> in_range (inquiry_call d).
Proof. intros (M & I & C & N & P & B). unfold inquiry_call. ranges. Qed.
Lemma answer_range d m : device_ok d -> is_u28 m -> in_range (answer_call d m).
Proof. intros (M & I & C & N & P & B) A. unfold answer_call. ranges. Qed.
Lemma farewell_range d : device_ok d -> in_range (farewell_call d).
Proof. intros (M & I & C & N & P & B). unfold farewell_call. ranges. Qed.

Lemma muid28 d : device_ok d -> is_u28 (cd_muid d).
Proof. intros (M & _). unfold is_u28. lia. Qed.

Lemma wire_seven c : in_range c -> all7 (sx_data (wire_of c)).
Proof. intros R. apply seven_bit. destruct R as (R & _). unfold all7 in R. apply Forall_app in R. apply R. Qed.
Lemma u7s l : all7 l -> Forall is_u8 l.
Proof. exact (Forall_impl _ u7_is_u8 (l := l)). Qed.

Lemma ask_eq dbg d : device_ok d -> ask dbg d = Ok (inquiry_of d).
Proof. intros O. exact (ci_built dbg (inquiry_call d) (inquiry_range d O)). Qed.
Lemma reply_eq dbg d m : device_ok d -> is_u28 m -> reply_to dbg d m = Ok (answer_of d m).
Proof. intros O M. exact (ci_built dbg (answer_call d m) (answer_range d m O M)). Qed.
Lemma leave_eq dbg d : device_ok d -> leave dbg d = Ok (farewell_of d).
Proof. intros O. exact (ci_built dbg (farewell_call d) (farewell_range d O)). Qed.

(* any 32-bit asker: the header masks it *)
Lemma reply_any dbg d m : device_ok d -> is_u32 m -> exists r, reply_to dbg d m = Ok r /\ r = answer_of d m.
Proof.
  intros O M. exists (answer_of d m). split; [|reflexivity].
  destruct (in_range_typed _ (answer_range d 0 O ltac:(unfold is_u28; lia))) as (T8 & T16 & T32 & TI & TC).
  pose proof (in_range_checked _ (answer_range d 0 O ltac:(unfold is_u28; lia))) as K.
  apply (build_eq dbg (answer_call d m)).
  - unfold typed, answer_call in *. cbn [raw_bytes numbers7 numbers14 numbers28 muids identity_of profile_counts app] in *.
    repeat apply conj; trivial; try apply TI.
    inversion_clear T32. inversion_clear H0. repeat (apply Forall_cons; trivial).
  - intros _. unfold checked, answer_call in *. cbn [is_plain raw_bytes numbers7 numbers14 numbers28 muids identity_of sizes14 sizes28 chunk_numbering] in *.
    destruct K as (_ & K). split; [discriminate|exact K].
Qed.

(* ---- reading them --------------------------------------------------------------------------- *)

Lemma view_of dbg k s ks : all7 (sx_data s) -> accepted_as s ks ->
  as_view dbg (validate_of k) s = Ok (if existsb (kind_eqb k) ks then Some s else None).
Proof. intros A B. apply as_view_ok; [now apply u7s|apply B]. Qed.

Lemma on_inquiry dbg a d k : device_ok a -> device_ok d -> cd_muid a <> cd_muid d ->
  handle dbg d k (inquiry_of a) = Ok (peer_of a :: forget (cd_muid a) k, [answer_of d (cd_muid a)]).
Proof.
  intros OA OD N. pose proof (inquiry_range a OA) as R.
  destruct (round_trip_ok dbg _ R I) as (s & B & E & H & A & F).
  change (wire_of (inquiry_call a)) with (inquiry_of a) in E. pose proof (wire_seven _ R) as S7.
  change (wire_of (inquiry_call a)) with (inquiry_of a) in S7. rewrite <- E in *.
  pose proof (view_of dbg KDiscoveryInquiry s _ S7 A) as V. change (as_view dbg (validate_of KDiscoveryInquiry) s = Ok (Some s)) in V.
  unfold header_fields, inquiry_call, header_of in H. destruct H as (H1 & _ & _ & _ & _ & _ & _ & _ & H2 & H3).
  destruct F as (F1 & F2 & F3 & F4).
  unfold handle. rewrite H1. cbn [bind negb]. rewrite H2, H3. cbn [bind].
  replace (cd_muid a =? cd_muid d) with false by lia.
  replace (_ || _) with true by (symmetry; apply orb_true_iff; right; reflexivity). cbn [negb].
  change discovery_inquiry_validate with (validate_of KDiscoveryInquiry). rewrite V. cbn [bind].
  unfold read_peer. rewrite H2, F1, F2, F3. cbn [bind].
  rewrite (reply_eq dbg d _ OD (muid28 a OA)). reflexivity.
Qed.

Lemma on_answer dbg a d k : device_ok a -> device_ok d -> cd_muid a <> cd_muid d ->
  handle dbg a k (answer_of d (cd_muid a)) = Ok (peer_of d :: forget (cd_muid d) k, []).
Proof.
  intros OA OD N. pose proof (answer_range d _ OD (muid28 a OA)) as R.
  destruct (round_trip_ok dbg _ R I) as (s & B & E & H & A & F).
  change (wire_of (answer_call d (cd_muid a))) with (answer_of d (cd_muid a)) in E. pose proof (wire_seven _ R) as S7.
  change (wire_of (answer_call d (cd_muid a))) with (answer_of d (cd_muid a)) in S7. rewrite <- E in *.
  pose proof (view_of dbg KDiscoveryInquiry s _ S7 A) as V. change (as_view dbg (validate_of KDiscoveryInquiry) s = Ok None) in V.
  pose proof (view_of dbg KDiscoveryReply s _ S7 A) as W. change (as_view dbg (validate_of KDiscoveryReply) s = Ok (Some s)) in W.
  unfold header_fields, answer_call, header_of in H. destruct H as (H1 & _ & _ & _ & _ & _ & _ & _ & H2 & H3).
  destruct F as ((F1 & F2 & F3 & F4) & F5).
  unfold handle. rewrite H1. cbn [bind negb]. rewrite H2, H3. cbn [bind].
  replace (cd_muid d =? cd_muid a) with false by lia. rewrite Z.eqb_refl. cbn [orb negb].
  change discovery_inquiry_validate with (validate_of KDiscoveryInquiry). rewrite V. cbn [bind].
  change discovery_reply_validate with (validate_of KDiscoveryReply). rewrite W. cbn [bind].
  unfold read_peer. rewrite H2, F1, F2, F3. reflexivity.
Qed.

Lemma on_farewell dbg a d k : device_ok a -> device_ok d -> cd_muid a <> cd_muid d ->
  handle dbg a k (farewell_of d) = Ok (forget (cd_muid d) k, []).
Proof.
  intros OA OD N. pose proof (farewell_range d OD) as R.
  destruct (round_trip_ok dbg _ R I) as (s & B & E & H & A & F).
  change (wire_of (farewell_call d)) with (farewell_of d) in E. pose proof (wire_seven _ R) as S7.
  change (wire_of (farewell_call d)) with (farewell_of d) in S7. rewrite <- E in *.
  pose proof (view_of dbg KDiscoveryInquiry s _ S7 A) as V. change (as_view dbg (validate_of KDiscoveryInquiry) s = Ok None) in V.
  pose proof (view_of dbg KDiscoveryReply s _ S7 A) as W. change (as_view dbg (validate_of KDiscoveryReply) s = Ok None) in W.
  pose proof (view_of dbg KInvalidateMuid s _ S7 A) as X. change (as_view dbg (validate_of KInvalidateMuid) s = Ok (Some s)) in X.
  unfold header_fields, farewell_call, header_of in H. destruct H as (H1 & _ & _ & _ & _ & _ & _ & _ & H2 & H3).
  cbn [fields_of farewell_call] in F.
  unfold handle. rewrite H1. cbn [bind negb]. rewrite H2, H3. cbn [bind].
  replace (cd_muid d =? cd_muid a) with false by lia.
  replace (_ || _) with true by (symmetry; apply orb_true_iff; right; reflexivity). cbn [negb].
  change discovery_inquiry_validate with (validate_of KDiscoveryInquiry). rewrite V. cbn [bind].
  change discovery_reply_validate with (validate_of KDiscoveryReply). rewrite W. cbn [bind].
  change invalidate_muid_validate with (validate_of KInvalidateMuid). rewrite X. cbn [bind].
  rewrite F. reflexivity.
Qed.

(* ---- any message ------------------------------------------------------------------------------ *)

Lemma at_nth {A} (l : list A) i x : Z.of_nat i < size l -> vec_at l i = Ok (nth i l x).
Proof.
  unfold size, vec_at. intros H. rewrite (nth_error_nth' l x) by lia. reflexivity.
Qed.

Lemma muid_eq s n : all7 (sx_data s) -> Z.of_nat n + 3 < size (sx_data s) ->
  make_uint28 s n = Ok (muid_at n s) /\ is_u28 (muid_at n s).
Proof.
  intros S L. unfold size in L. unfold muid_at.
  assert (exists a b c d, firstn 4 (skipn n (sx_data s)) = [a; b; c; d] /\
    nth_error (sx_data s) n = Some a /\ nth_error (sx_data s) (n + 1) = Some b /\
    nth_error (sx_data s) (n + 2) = Some c /\ nth_error (sx_data s) (n + 3) = Some d) as (a & b & c & d & E & A & B & C & D).
  { assert (forall i, nth_error (skipn n (sx_data s)) i = nth_error (sx_data s) (n + i)) as Q.
    { intros i. clear. revert i. generalize (sx_data s). induction n as [|n IH]; intros l i; [reflexivity|].
      destruct l; [destruct i; reflexivity|]. cbn [skipn Nat.add nth_error]. apply IH. }
    assert (length (skipn n (sx_data s)) >= 4)%nat as G by (rewrite skipn_length; lia).
    pose proof (Q 0%nat) as Q0. pose proof (Q 1%nat) as Q1. pose proof (Q 2%nat) as Q2. pose proof (Q 3%nat) as Q3.
    destruct (skipn n (sx_data s)) as [|a [|b [|c [|d l]]]]; cbn [length] in G; try lia.
    exists a, b, c, d. cbn [nth_error] in *. rewrite Nat.add_0_r in Q0. repeat split; auto. }
  rewrite E. unfold all7 in S. rewrite Forall_forall in S.
  pose proof (S _ (nth_error_In _ _ A)). pose proof (S _ (nth_error_In _ _ B)).
  pose proof (S _ (nth_error_In _ _ C)). pose proof (S _ (nth_error_In _ _ D)).
  rewrite (make28_nth s n a b c d A B C D), join4 by trivial. unfold is_u28, is_u7 in *. cbn [val7]. split; [f_equal|]; lia.
Qed.

Lemma disc_eq st x s : sx_id s = 0x7E0000 -> 12 <= size (sx_data s) -> nth 1 (sx_data s) 0 = 0x0D ->
  and_ (sx_id s =? universal_non_realtime)
      (v <- vec_at (sx_data s) 3 ;;
       and_ (28 + (if 1 <? v then x else 0) <=? size (sx_data s)) (and_res (at_is s 1 0x0D) (at_is s 2 st)))
  = Ok ((nth 2 (sx_data s) 0 =? st) && (28 + (if 1 <? nth 3 (sx_data s) 0 then x else 0) <=? size (sx_data s))).
Proof.
  intros I L E. unfold at_is. rewrite !(at_nth (sx_data s) _ 0) by lia. rewrite I, E. cbn [bind and_ and_res Z.eqb].
  change (8257536 =? universal_non_realtime) with true. change (13 =? 13) with true. cbn [and_ bind].
  rewrite andb_comm. destruct (28 + _ <=? _); reflexivity.
Qed.

(* what a message makes of what is known, and what is answered *)
Lemma handle_cases dbg d s : device_ok d -> Forall is_u8 (sx_data s) ->
  exists (t : option (Z * option ci_peer)) rs,
    (forall k, handle dbg d k s =
       Ok (match t with None => k | Some (m, None) => forget m k | Some (m, Some p) => p :: forget m k end, rs)) /\
    (forall m p, t = Some (m, Some p) -> pr_muid p = m) /\
    (all7 (sx_data s) -> (forall m x, t = Some (m, x) -> concerns m s = true) /\
                         rs = if asks d s then [answer_of d (muid_at 4 s)] else []).
Proof.
  intros OD U8.
  assert (CI : is_capability_inquiry_message s =
               Ok ((sx_id s =? 0x7E0000) && (12 <=? size (sx_data s)) && (nth 1 (sx_data s) 0 =? 0x0D))).
  { unfold is_capability_inquiry_message, at_is. change universal_non_realtime with 0x7E0000.
    destruct (sx_id s =? 0x7E0000); [|reflexivity]. cbn [and_ andb].
    destruct (12 <=? size (sx_data s)) eqn:L; [|reflexivity]. cbn [and_ andb]. now rewrite (at_nth _ _ 0) by lia. }
  unfold handle. rewrite CI. cbn [bind].
  destruct ((sx_id s =? 0x7E0000) && (12 <=? size (sx_data s)) && (nth 1 (sx_data s) 0 =? 0x0D)) eqn:G; cbn [negb].
  2: { exists None, []. split; [reflexivity|]. split; [discriminate|]. intros _. split; [discriminate|].
       unfold asks. change (Z.pos 8257536) with 0x7E0000 in *.
       destruct (sx_id s =? 0x7E0000); [|reflexivity]. cbn [andb] in *.
       destruct (nth 1 (sx_data s) 0 =? 0x0D); [|reflexivity]. cbn [andb] in *. rewrite andb_true_r in G.
       replace (28 + _ <=? _) with false by (destruct (1 <? _); lia). rewrite andb_false_r. reflexivity. }
  apply andb_true_iff in G. destruct G as [G E1]. apply andb_true_iff in G. destruct G as [I L].
  apply Z.eqb_eq in I, E1. apply Z.leb_le in L.
  destruct (make28_total s 4) as (src & S1 & S2); [lia|]. destruct (make28_total s 8) as (dst & D1 & D2); [lia|].
  change (source_muid s) with (make_uint28 s 4). change (destination_muid s) with (make_uint28 s 8). rewrite S1, D1. cbn [bind].
  assert (M4 : all7 (sx_data s) -> muid_at 4 s = src /\ is_u28 src).
  { intros A. destruct (muid_eq s 4 A) as [Q R]; [lia|]. rewrite S1 in Q. injection Q as ->. auto. }
  assert (M8 : all7 (sx_data s) -> muid_at 8 s = dst).
  { intros A. destruct (muid_eq s 8 A) as [Q R]; [lia|]. rewrite D1 in Q. injection Q as ->. auto. }
  assert (AS : all7 (sx_data s) -> asks d s =
    ((nth 2 (sx_data s) 0 =? 0x70) && (28 + (if 1 <? nth 3 (sx_data s) 0 then 1 else 0) <=? size (sx_data s)) &&
     negb (src =? cd_muid d) && ((dst =? cd_muid d) || (dst =? broadcast_muid)))).
  { intros A. unfold asks. rewrite (M8 A), (proj1 (M4 A)), I, E1. reflexivity. }
  destruct (src =? cd_muid d) eqn:Q1.
  { exists None, []. split; [reflexivity|]. split; [discriminate|]. intros A. split; [discriminate|].
    rewrite (AS A). cbn [negb]. rewrite andb_false_r. reflexivity. }
  destruct ((dst =? cd_muid d) || (dst =? broadcast_muid)) eqn:Q2; cbn [negb].
  2: { exists None, []. split; [reflexivity|]. split; [discriminate|]. intros A. split; [discriminate|].
       rewrite (AS A), andb_false_r. reflexivity. }
  assert (CC : all7 (sx_data s) -> nth 2 (sx_data s) 0 = 0x70 \/ nth 2 (sx_data s) 0 = 0x71 -> concerns src s = true).
  { intros A H. unfold concerns. rewrite I, E1, (proj1 (M4 A)), (Z.eqb_refl src). destruct H as [-> | ->]; reflexivity. }
  pose proof (disc_eq 0x70 1 s I L E1) as V1.
  change (validate_of KDiscoveryInquiry s = Ok ((nth 2 (sx_data s) 0 =? 0x70) &&
    (28 + (if 1 <? nth 3 (sx_data s) 0 then 1 else 0) <=? size (sx_data s)))) in V1.
  change discovery_inquiry_validate with (validate_of KDiscoveryInquiry). rewrite (as_view_ok dbg _ s _ U8 V1).
  cbn [bind].
  destruct ((nth 2 (sx_data s) 0 =? 0x70) && (28 + (if 1 <? nth 3 (sx_data s) 0 then 1 else 0) <=? size (sx_data s))) eqn:B1.
  { destruct (accepted_safe dbg KDiscoveryInquiry s V1) as [_ ((i & R1) & (c & R2) & (n & R3) & _)].
    unfold read_peer. change (source_muid s) with (make_uint28 s 4). rewrite S1, R1, R2, R3. cbn [bind].
    destruct (reply_any dbg d src OD) as (r & R4 & R5); [unfold is_u32; lia|]. rewrite R4. cbn [bind].
    exists (Some (src, Some (mkCiPeer src i c n))), [r]. split; [reflexivity|].
    split; [intros m p H; injection H as <- <-; reflexivity|]. intros A.
    split; [intros m x H; injection H as <- <-; apply CC; trivial; lia|].
    rewrite (AS A), R5, (proj1 (M4 A)). cbn [negb andb]. reflexivity. }
  assert (N : all7 (sx_data s) -> [] = if asks d s then [answer_of d (muid_at 4 s)] else []).
  { intros A. rewrite (AS A). reflexivity. }
  pose proof (disc_eq 0x71 2 s I L E1) as V2.
  change (validate_of KDiscoveryReply s = Ok ((nth 2 (sx_data s) 0 =? 0x71) &&
    (28 + (if 1 <? nth 3 (sx_data s) 0 then 2 else 0) <=? size (sx_data s)))) in V2.
  change discovery_reply_validate with (validate_of KDiscoveryReply). rewrite (as_view_ok dbg _ s _ U8 V2).
  cbn [bind].
  destruct ((nth 2 (sx_data s) 0 =? 0x71) && (28 + (if 1 <? nth 3 (sx_data s) 0 then 2 else 0) <=? size (sx_data s))) eqn:B2.
  { destruct (accepted_safe dbg KDiscoveryReply s V2) as [_ ((i & R1) & (c & R2) & (n & R3) & _)].
    unfold read_peer. change (source_muid s) with (make_uint28 s 4). rewrite S1, R1, R2, R3. cbn [bind].
    exists (Some (src, Some (mkCiPeer src i c n))), []. split; [reflexivity|].
    split; [intros m p H; injection H as <- <-; reflexivity|]. intros A.
    split; [intros m x H; injection H as <- <-; apply CC; trivial; lia|]. now apply N. }
  destruct (validate_total KInvalidateMuid s eq_refl) as (b & V3).
  change invalidate_muid_validate with (validate_of KInvalidateMuid). rewrite (as_view_ok dbg _ s _ U8 V3). cbn [bind].
  destruct b.
  - pose proof V3 as V4. cbn [validate_of] in V4. apply typed_size in V4. destruct V4 as (L3 & _ & T).
    destruct (make28_total s 12) as (t & T1 & T2); [lia|]. change (target_muid s) with (make_uint28 s 12). rewrite T1. cbn [bind].
    exists (Some (t, None)), []. split; [reflexivity|]. split; [discriminate|]. intros A. split; [|now apply N].
    intros m x H. injection H as <- <-. unfold concerns. rewrite I, E1.
    destruct (muid_eq s 12 A) as [Q R]; [lia|]. rewrite T1 in Q. injection Q as ->.
    assert (nth 2 (sx_data s) 0 = 0x7E) as ->.
    { rewrite subtype_of_eq, I in T. destruct (sx_data s) as [|? [|? [|c ?]]]; try discriminate T. now injection T. }
    rewrite (Z.eqb_refl (muid_at 12 s)). reflexivity.
  - exists None, []. split; [reflexivity|]. split; [discriminate|]. intros A. split; [discriminate|now apply N].
Qed.

Lemma handle_look dbg d s m : device_ok d -> Forall is_u8 (sx_data s) ->
  exists (e : option (option ci_peer)) rs,
    (forall k, exists k', handle dbg d k s = Ok (k', rs) /\
                          look_up m k' = match e with Some x => x | None => look_up m k end) /\
    (all7 (sx_data s) -> (concerns m s = false -> e = None) /\
                         rs = if asks d s then [answer_of d (muid_at 4 s)] else []).
Proof.
  intros OD U. destruct (handle_cases dbg d s OD U) as (t & rs & H & P & Q).
  destruct t as [[m' [p|]]|].
  - specialize (P _ _ eq_refl). subst m'.
    exists (if pr_muid p =? m then Some (Some p) else None), rs. split.
    + intros k. eexists. split; [apply H|]. rewrite look_up_learn. now destruct (pr_muid p =? m).
    + intros A. destruct (Q A) as [Q1 Q2]. split; trivial. intros C. destruct (Z.eqb_spec (pr_muid p) m) as [<-|]; trivial.
      rewrite (Q1 _ _ eq_refl) in C. discriminate.
  - exists (if m' =? m then Some None else None), rs. split.
    + intros k. eexists. split; [apply H|]. rewrite look_up_forget. now destruct (m' =? m).
    + intros A. destruct (Q A) as [Q1 Q2]. split; trivial. intros C. destruct (Z.eqb_spec m' m) as [<-|]; trivial.
      rewrite (Q1 _ _ eq_refl) in C. discriminate.
  - exists None, rs. split; [intros k; eexists; split; [apply H|reflexivity]|]. intros A. split; trivial. apply (Q A).
Qed.

Lemma handle_all_total dbg d ss : device_ok d -> Forall (fun s => Forall is_u8 (sx_data s)) ss ->
  forall k, exists k' rs, handle_all dbg d k ss = Ok (k', rs).
Proof.
  intros OD. induction 1 as [|s ss U _ IH]; intros k; [now exists k, []|]. cbn [handle_all].
  destruct (handle_look dbg d s 0 OD U) as (e & rs & H & _). destruct (H k) as (k1 & H1 & _). rewrite H1. cbn [bind fst snd].
  destruct (IH k1) as (k2 & rs2 & H2). rewrite H2. cbn [bind fst snd]. eauto.
Qed.

Lemma handle_all_replies dbg d ss : device_ok d -> Forall (fun s => all7 (sx_data s)) ss ->
  forall k, exists k', handle_all dbg d k ss = Ok (k', map (fun s => answer_of d (muid_at 4 s)) (filter (asks d) ss)).
Proof.
  intros OD. induction 1 as [|s ss U _ IH]; intros k; [now exists k|]. cbn [handle_all filter].
  destruct (handle_look dbg d s 0 OD (u7s _ U)) as (e & rs & H & Q). destruct (H k) as (k1 & H1 & _). rewrite H1. cbn [bind fst snd].
  destruct (IH k1) as (k2 & H2). rewrite H2. cbn [bind fst snd]. destruct (Q U) as [_ ->]. exists k2.
  now destruct (asks d s).
Qed.

(* two histories that agree on the messages about [m] *)
Lemma handle_all_look dbg d m ss : device_ok d -> Forall (fun s => all7 (sx_data s)) ss ->
  forall k, exists k' rs k1 rs1, handle_all dbg d k ss = Ok (k', rs) /\
    (forall k0, look_up m k0 = look_up m k -> exists k2 rs2,
        handle_all dbg d k0 (filter (concerns m) ss) = Ok (k2, rs2) /\ look_up m k2 = look_up m k') /\
    handle_all dbg d k (filter (concerns m) ss) = Ok (k1, rs1).
Proof.
  intros OD F. induction F as [|s ss U _ IH]; intros k.
  - exists k, [], k, []. repeat split. intros k0 E. now exists k0, [].
  - destruct (handle_look dbg d s m OD (u7s _ U)) as (e & rs & H & Q). destruct (Q U) as [Q1 _].
    destruct (H k) as (k1 & H1 & E1). destruct (IH k1) as (k' & rs' & k3 & rs3 & G1 & G2 & _).
    assert (X : forall k0, look_up m k0 = look_up m k -> exists k2 rs2,
        handle_all dbg d k0 (filter (concerns m) (s :: ss)) = Ok (k2, rs2) /\ look_up m k2 = look_up m k').
    { intros k0 E. cbn [filter]. destruct (concerns m s).
      - cbn [handle_all]. destruct (H k0) as (k4 & H4 & E4). rewrite H4. cbn [bind fst snd].
        destruct (G2 k4) as (k2 & rs2 & G3 & G4); [rewrite E1, E4, E; reflexivity|]. rewrite G3. cbn [bind fst snd]. eauto.
      - apply G2. rewrite E1, (Q1 eq_refl). exact E. }
    destruct (X k eq_refl) as (k5 & rs5 & X5 & _).
    exists k', (rs ++ rs'), k5, rs5. cbn [handle_all]. rewrite H1. cbn [bind fst snd]. rewrite G1. cbn [bind fst snd]. auto.
Qed.

Lemma handle_all_app dbg d ss1 ss2 k k1 rs1 k2 rs2 : handle_all dbg d k ss1 = Ok (k1, rs1) ->
  handle_all dbg d k1 ss2 = Ok (k2, rs2) -> handle_all dbg d k (ss1 ++ ss2) = Ok (k2, rs1 ++ rs2).
Proof.
  revert k k1 rs1. induction ss1 as [|s ss1 IH]; intros k k1 rs1 A B.
  - injection A as <- <-. exact B.
  - cbn [handle_all app] in *. destruct (handle dbg d k s) as [[k0 r0]|]; [|discriminate]. cbn [bind fst snd] in *.
    destruct (handle_all dbg d k0 ss1) as [[k3 r3]|] eqn:C; [|discriminate]. cbn [bind fst snd] in A. injection A as <- <-.
    rewrite (IH _ _ _ C B). cbn [bind fst snd]. now rewrite app_assoc.
Qed.

Lemma quiet_look dbg d m ss : device_ok d -> Forall (fun s => all7 (sx_data s)) ss ->
  Forall (fun s => concerns m s = false) ss ->
  forall k, exists k' rs, handle_all dbg d k ss = Ok (k', rs) /\ look_up m k' = look_up m k.
Proof.
  intros OD F. induction F as [|s ss U _ IH]; intros C k; [now exists k, []|].
  inversion_clear C as [|? ? C0 C1]. cbn [handle_all].
  destruct (handle_look dbg d s m OD (u7s _ U)) as (e & rs & H & Q). destruct (Q U) as [Q1 _].
  destruct (H k) as (k1 & H1 & E1). rewrite H1. cbn [bind fst snd]. rewrite (Q1 C0) in E1.
  destruct (IH C1 k1) as (k2 & rs2 & H2 & E2). rewrite H2. cbn [bind fst snd]. exists k2, (rs ++ rs2). split; trivial. congruence.
Qed.

(* ---- all answers to one inquiry --------------------------------------------------------------- *)

Lemma all_answers dbg a ds : device_ok a -> Forall device_ok ds -> ~ In (cd_muid a) (map cd_muid ds) -> NoDup (map cd_muid ds) ->
  forall k, exists k', handle_all dbg a k (map (fun d => answer_of d (cd_muid a)) ds) = Ok (k', []) /\
    forall m p, look_up m k' = Some p <->
      (exists d, In d ds /\ cd_muid d = m /\ peer_of d = p) \/ (~ In m (map cd_muid ds) /\ look_up m k = Some p).
Proof.
  intros OA F. induction F as [|d ds OD F IH]; intros N D k.
  - exists k. split; [reflexivity|]. intros m p. cbn [map In]. split; [auto|]. intros [(d & [] & _)|[_ H]]; trivial.
  - cbn [map handle_all] in *. inversion_clear D as [|? ? D1 D2].
    rewrite (on_answer dbg a d k OA OD) by (intros E; apply N; left; congruence). cbn [bind fst snd].
    destruct (IH (fun H => N (or_intror H)) D2 (peer_of d :: forget (cd_muid d) k)) as (k' & H & L).
    rewrite H. cbn [bind fst snd]. exists k'. split; [reflexivity|]. intros m p. rewrite (L m p).
    change (cd_muid d) with (pr_muid (peer_of d)) at 1. rewrite look_up_learn. cbn [peer_of pr_muid In].
    destruct (Z.eqb_spec (cd_muid d) m) as [<-|E].
    + split.
      * intros [(d' & I & M & P)|[_ P]]; [left; exists d'; auto|left; exists d; injection P; auto].
      * intros [(d' & [<-|I] & M & P)|[P _]]; [right; split; [exact D1|now rewrite <- P]|left; exists d'; auto|tauto].
    + split.
      * intros [(d' & I & M & P)|[I P]]; [left; exists d'; auto|right; split; [intros [|]; auto|exact P]].
      * intros [(d' & [<-|I] & M & P)|[I P]]; [tauto|left; exists d'; auto|right; auto].
Qed.
