(* Proofs about hosts and devices that identify themselves. *)
From Coq Require Import ZArith List Bool Lia ZifyBool ZifyNat.
From Verif Require Import Base Bits Packet PacketSpec Messages Sysex SysexSpec UniversalSysex SysexProofs ByteStream StreamSpec StreamProofs StreamLemmas StreamCalls
  SessionSpec SessionProofs CollectSpec CollectProofs SendProofs CollectCalls Merge MergeSpec MergeProofs LossSpec LossProofs LimitBox LimitBoxSpec LimitBoxProofs
  Identify IdentifySpec.
Import ListNotations.
Local Open Scope Z_scope.
Local Open Scope res_scope.

Lemma each_app {A} (f : event -> res (list A)) a : forall b x y, for_each f a = Ok x -> for_each f b = Ok y -> for_each f (a ++ b) = Ok (x ++ y).
Proof.
  induction a as [|e a IH]; intros b x y X Y; cbn [for_each app] in *; [injection X as <-; exact Y|].
  destruct (f e) as [u|]; [|discriminate]. cbn [bind] in *. destruct (for_each f a) as [v|] eqn:V; [|discriminate]. cbn [bind] in X. injection X as <-.
  rewrite (IH b v y eq_refl Y). cbn [bind]. now rewrite app_assoc.
Qed.

Lemma each_filter {A} (f : event -> res (list A)) l : (forall p, f (EPacket p) = Ok []) -> for_each f (filter not_rt_event l) = for_each f l.
Proof.
  intros N. induction l as [|e l IH]; [reflexivity|]. cbn [filter]. destruct (not_rt_event e) eqn:E; cbn [for_each]; rewrite IH; [reflexivity|].
  destruct e as [p|s]; [|discriminate]. rewrite N. cbn [bind app]. now destruct (for_each f l).
Qed.

(* what is in a SysEx that was received *)
Lemma decode_7E ds s : Forall is_u7 ds -> sx_decode ds = Some s -> wf_sysex s /\ (sx_id s = 0x7E0000 <-> hd 0 ds = 0x7E) /\ (hd 0 ds = 0x7E -> ds = 0x7E :: sx_data s).
Proof.
  intros U E. destruct ds as [|a ds]; [discriminate|]. inversion_clear U as [|? ? A U']. unfold is_u7 in A. destruct (Z.eq_dec a 0) as [->|N].
  - destruct ds as [|x [|y ds]]; try discriminate. cbn in E. injection E as <-. inversion_clear U' as [|? ? X U]. inversion_clear U as [|? ? Y U'].
    unfold is_u7 in *. split; [split; [unfold is_u32; cbn [sx_id]; lia|now apply Forall_u7_u8]|]. cbn. lia.
  - assert (E' : s = mkSx (a * 65536) ds) by (unfold sx_decode in E; destruct a; congruence). subst s. split; [split; [unfold is_u32; cbn [sx_id]; lia|now apply Forall_u7_u8]|].
    cbn [sx_id sx_data hd]. split; [lia|congruence].
Qed.

Lemma id_bytes_short b : 1 <= b < 128 -> id_bytes (b * 65536) = [b].
Proof. intros B. unfold id_bytes. replace (65536 <=? b * 65536) with true by lia. now rewrite Z.div_mul. Qed.
Lemma id_bytes_long a b : is_u7 a -> is_u7 b -> id_bytes (a * 256 + b) = [0; a; b].
Proof. unfold is_u7. intros A B. unfold id_bytes. replace (65536 <=? a * 256 + b) with false by lia. repeat f_equal; dlia. Qed.

Lemma reply_made dbg d : device_ok d ->
  let i := dv_identity d in exists s, identity_reply dbg (di_manufacturer i) (di_family i) (di_model i) (di_revision i) (dv_id d) = Ok s /\
    wire s = presents d /\ sx_id s = 0x7E0000 /\ Forall is_u7 (sx_data s) /\ reply_shape (wire s) = true /\
    as_identity_reply_view dbg s = Ok (Some s) /\ view_device_id s = Ok (dv_id d) /\ reply_identity s = Ok (dv_identity d).
Proof.
  intros (D & V & F & M & R) i. unfold i, wire, presents. destruct (dv_identity d) as [n f m r]. cbn [di_manufacturer di_family di_model di_revision] in *.
  assert (D8 : is_u8 (dv_id d)) by now apply u7_u8. destruct V as [(b & B & ->)|(a & b & A & B & ->)].
  - destruct (reply_short_ok dbg b f m r (dv_id d) B F M R D8) as (s & E & -> & _ & A & _ & W & _ & X & Y). eexists. split; [exact E|].
    rewrite id_bytes_short by assumption. cbn [sx_id sx_data].
    change (id_bytes 0x7E0000) with [0x7E]. split; [reflexivity|]. split; [reflexivity|]. split; [now apply A|]. split; [|auto].
    cbn -[Z.eqb]. replace (b =? 0) with false by lia. reflexivity.
  - destruct (reply_long_ok dbg a b f m r (dv_id d) A B F M R D8) as (s & E & -> & _ & C & _ & W & _ & X & Y). eexists. split; [exact E|].
    rewrite id_bytes_long by assumption. cbn [sx_id sx_data].
    change (id_bytes 0x7E0000) with [0x7E]. split; [reflexivity|]. split; [reflexivity|]. split; [now apply C|]. split; [|auto]. reflexivity.
Qed.

(* ---- one message ------------------------------------------------------------------------------- *)

Lemma answer_message dbg g d m : device_ok d -> valid_midi_message m ->
  exists rs, for_each (answer dbg d) (reported g m) = Ok rs /\ map wire rs = if asked d m then [presents d] else [].
Proof.
  intros D V. destruct m as [m|ds]; [exists []; split; reflexivity|]. destruct V as [N U]. cbn [reported].
  destruct (sx_decode ds) as [s|] eqn:E.
  - destruct (decode_7E ds s U E) as (W & I & C). destruct (is_request_iff s W) as ([q Q] & IFF). cbn [for_each answer]. rewrite Q. cbn [bind].
    destruct q.
    + apply IFF in Q as (ID & dev & rest & DA). apply I in ID. specialize (C ID). rewrite DA in C. subst ds.
      assert (B : universal_sysex_device_id_of s = Ok dev).
      { apply I in ID. unfold universal_sysex_device_id_of, is_universal_sysex_message. rewrite ID, DA. unfold size. cbn [length].
        replace (2 <=? Z.of_nat (S (S (S (length rest))))) with true by lia. reflexivity. }
      rewrite B. cbn [bind asked]. change (0x7E =? 0x7E) with true. change (6 =? 6) with true. change (1 =? 1) with true. cbn [andb].
      change 0x7F with 127. destruct ((dev =? 127) || (dev =? dv_id d)).
      * destruct (reply_made dbg d D) as (r & ER & WR & _). rewrite ER. cbn [bind app]. exists [r]. split; [reflexivity|]. cbn [map]. now rewrite WR.
      * exists []. split; reflexivity.
    + exists []. split; [reflexivity|]. destruct (asked d (SysExBytes ds)) eqn:AS; [|reflexivity]. exfalso.
      destruct ds as [|a [|x [|b [|c rest]]]]; try discriminate. cbn [asked] in AS.
      assert (X : a = 0x7E /\ b = 6 /\ c = 1) by lia. destruct X as (-> & -> & ->). specialize (C eq_refl). injection C as C.
      assert (T : is_identity_request s = Ok true) by (apply IFF; split; [now apply I|eauto]). congruence.
  - exists []. split; [reflexivity|]. destruct ds as [|a [|x [|b [|c rest]]]]; try reflexivity.
    cbn [asked]. destruct (Z.eqb_spec a 0x7E) as [->|]; [|reflexivity]. discriminate.
Qed.

Lemma note_message dbg g m : valid_midi_message m -> reply_shape m = false -> for_each (note_reply dbg) (reported g m) = Ok [].
Proof.
  intros V N. destruct m as [m|ds]; [reflexivity|]. destruct V as [_ U]. cbn [reported]. destruct (sx_decode ds) as [s|] eqn:E; [|reflexivity].
  destruct (decode_7E ds s U E) as (W & I & C). cbn [for_each note_reply]. unfold as_identity_reply_view, identity_reply_validate.
  destruct (is_reply_total s) as ([] & R); rewrite R; cbn [bind]; [|reflexivity]. exfalso. apply is_reply_iff in R; [|assumption].
  destruct R as (ID & [(dev & b & rest & D & B & L)|(dev & rest & D & L)]); apply I in ID; specialize (C ID); rewrite D in C; subst ds; cbn [reply_shape] in N.
  - lia.
  - destruct rest as [|e rest]; [discriminate|]. cbn [length] in L. lia.
Qed.

Lemma note_reply_message dbg g d : device_ok d -> reply_shape (presents d) = true /\
  for_each (note_reply dbg) (reported g (presents d)) = Ok [(dv_id d, dv_identity d)].
Proof.
  intros D. destruct (reply_made dbg d D) as (s & _ & W & I & U & S & V & X & Y). rewrite <- W. split; [exact S|].
  unfold wire, reported. rewrite I. change (id_bytes 0x7E0000) with [0x7E]. cbn [app].
  assert (DE : sx_decode (0x7E :: sx_data s) = Some s) by (cbn; f_equal; destruct s as [i0 d0]; cbn [sx_id sx_data] in *; now rewrite I).
  rewrite DE. cbn [for_each note_reply]. rewrite V. cbn [bind]. rewrite X. cbn [bind]. rewrite Y. reflexivity.
Qed.

Lemma cable_valid rs ms bs : cable rs ms bs -> Forall valid_midi_message ms.
Proof. induction 1; constructor; auto. now split. Qed.

(* ---- the devices --------------------------------------------------------------------------------- *)

Theorem answers_right dbg g st d ms rts bs : reached g true st -> device_ok d -> on_cable ms rts bs ->
  exists st' ev rs, feed_all st bs = Ok (st', ev) /\ for_each (answer dbg d) ev = Ok rs /\
    map wire rs = map (fun _ => presents d) (filter (asked d) ms).
Proof.
  intros R D C. destruct (intact_heard g true st ms rts bs R C) as (st' & ev & E & S). cbn [stretch_heard] in S. destruct S as [_ S].
  exists st', ev. destruct C as (_ & C & _). apply cable_valid in C.
  assert (H : exists rs, for_each (answer dbg d) (concat (map (reported g) ms)) = Ok rs /\ map wire rs = map (fun _ => presents d) (filter (asked d) ms)).
  { clear S E. induction C as [|m ms V _ (rs & E & W)]; [exists []; split; reflexivity|]. cbn [map concat filter].
    destruct (answer_message dbg g d m D V) as (rs1 & E1 & W1). exists (rs1 ++ rs). split; [now apply each_app|].
    rewrite map_app, W1, W. now destruct (asked d m). }
  destruct H as (rs & H & W). exists rs. split; [exact E|]. split; [|exact W]. rewrite <- each_filter by reflexivity. now rewrite S.
Qed.

(* a reply as sent *)
Theorem reply_sent dbg d e rs r g : device_ok d -> for_each (answer dbg d) [e] = Ok rs -> In r rs -> 0 <= g < 16 ->
  exists ps, send_sysex7 r g = Ok ps /\ stream_of_packets ps = Ok (0xF0 :: (match wire r with SysExBytes ds => ds | _ => [] end) ++ [0xF7]).
Proof.
  intros D E I G. assert (X : sx_id r = 0x7E0000 /\ Forall is_u7 (sx_data r)).
  { cbn [for_each] in E. destruct e as [p|s]; cbn [answer bind] in E; [injection E as <-; destruct I|].
    destruct (is_identity_request s) as [[]|]; cbn [bind] in E; try discriminate; [|injection E as <-; destruct I].
    destruct (universal_sysex_device_id_of s) as [i|]; cbn [bind] in E; [|discriminate].
    destruct ((i =? 0x7F) || (i =? dv_id d)); [|injection E as <-; destruct I].
    destruct (reply_made dbg d D) as (r' & ER & _ & A & B & _). rewrite ER in E. cbn [bind app] in E. injection E as <-. destruct I as [<-|[]]. auto. }
  destruct X as [ID U]. destruct r as [id d']. cbn [sx_id sx_data] in *. subst id.
  assert (VI : valid_id 0x7E0000) by (left; exists 0x7E; lia).
  destruct (send7_valid 0x7E0000 d' g VI ltac:(lia) (Forall_u7_u8 _ U) G) as (chunks & F & C & ES). exists (sx7_sequence g chunks). split; [exact ES|].
  rewrite map_mod_id in C by assumption.
  assert (OK : Forall (chunk_ok 6) chunks).
  { apply full_chunks_ok; [lia|assumption|]. rewrite C. apply Forall_app; split; [constructor; [unfold is_u8; lia|constructor]|now apply Forall_u7_u8]. }
  assert (C6 : chunked6 chunks).
  { clear -F. induction chunks as [|c [|c' rest] IH]; [destruct F|cbn in *; lia|]. destruct F as [F1 F2]. split; auto. }
  unfold wire. cbn [sx_id sx_data]. rewrite <- C. rewrite sequence_to_bytes; trivial. eapply Forall_impl; [|exact OK]. intros x X; apply X.
Qed.

(* ---- the host ------------------------------------------------------------------------------------- *)

Definition named (dv : nat -> device) (s : nat) : Z * device_identity := (dv_id (dv s), dv_identity (dv s)).
Definition names (order : list (nat * midi_message)) : list nat := map fst (filter (fun x => reply_shape (snd x)) order).

Lemma noted dbg g dv order : (forall s, device_ok (dv s)) ->
  (forall s m, In (s, m) order -> valid_midi_message m /\ (reply_shape m = true -> m = presents (dv s))) ->
  for_each (note_reply dbg) (concat (map (reported g) (map snd order))) = Ok (map (named dv) (names order)).
Proof.
  intros D. induction order as [|[s m] order IH]; intros H; [reflexivity|]. cbn [map concat snd]. unfold names. cbn [filter snd].
  destruct (H s m (or_introl eq_refl)) as [V P]. specialize (IH (fun s' m' I => H s' m' (or_intror I))).
  destruct (reply_shape m) eqn:S.
  - rewrite (P eq_refl). cbn [map fst]. change (named dv s :: map (named dv) ?l) with ([named dv s] ++ map (named dv) l).
    apply each_app; [|exact IH]. now apply note_reply_message.
  - change (map (named dv) ?l) with ([] ++ map (named dv) l). apply each_app; [|exact IH]. now apply note_message.
Qed.

Lemma count_names s order : count_occ Nat.eq_dec (names order) s = length (filter reply_shape (of_source s order)).
Proof.
  unfold names, of_source. induction order as [|[i m] order IH]; [reflexivity|]. cbn [filter fst snd]. destruct (reply_shape m) eqn:S; cbn [map count_occ fst].
  - destruct (Nat.eq_dec i s) as [->|N]; [rewrite Nat.eqb_refl|replace (Nat.eqb i s) with false by lia]; cbn [map filter snd]; rewrite ?S; cbn [length]; now rewrite IH.
  - destruct (Nat.eqb i s); cbn [map filter snd]; rewrite ?S; exact IH.
Qed.

Lemma presented dbg g st d ms rts bs : reached g true st -> device_ok d -> on_cable ms rts bs ->
  forall st' ev rs own, feed_all st bs = Ok (st', ev) -> for_each (answer dbg d) ev = Ok rs -> filter reply_shape own = map wire rs ->
  length (filter reply_shape own) = length (filter (asked d) ms) /\ forall m, In m own -> reply_shape m = true -> m = presents d.
Proof.
  intros R D C st' ev rs own E A F. destruct (answers_right dbg g st d ms rts bs R D C) as (st2 & ev2 & rs2 & E2 & A2 & W).
  rewrite E in E2. injection E2 as _ <-. rewrite A in A2. injection A2 as <-. rewrite W in F. split; [rewrite F; apply map_length|].
  intros m I S. assert (J : In m (filter reply_shape own)) by (apply filter_In; auto). rewrite F in J. apply in_map_iff in J as (_ & <- & _). reflexivity.
Qed.

Theorem found dbg k g st gq Q gr P dv hm hr hb ms rts sched : reached g true st ->
  (forall s, device_ok (dv s)) -> (forall s, reached (gq s) true (Q s)) -> (forall s, reached (gr s) false (P s)) -> on_cable hm hr hb ->
  (forall s, (s < k)%nat -> exists st' ev rs, feed_all (Q s) hb = Ok (st', ev) /\ for_each (answer dbg (dv s)) ev = Ok rs /\ filter reply_shape (ms s) = map wire rs) ->
  (forall s, (k <= s)%nat -> filter reply_shape (ms s) = []) ->
  (forall s, on_cable (ms s) (rts s) (of_source s sched)) ->
  exists b out bs st' ev who, box_run (mkBox P new_merger) sched = Ok (b, out) /\ stream_of_packets (map snd out) = Ok bs /\
    feed_all st bs = Ok (st', ev) /\ for_each (note_reply dbg) ev = Ok (map (fun s => (dv_id (dv s), dv_identity (dv s))) who) /\
    forall s, count_occ Nat.eq_dec who s = if (s <? k)%nat then length (filter (asked (dv s)) hm) else 0%nat.
Proof.
  intros R D RQ RP HC AN AZ C. destruct (merged_bytes g st gr P ms rts sched R RP C) as (b & out & order & ros & B & _ & O & _ & AR).
  destruct AR as (bs & st' & ev & SB & FE & NR & _). exists b, out, bs, st', ev, (names order). split; [exact B|]. split; [exact SB|]. split; [exact FE|].
  assert (PR : forall s, length (filter reply_shape (ms s)) = (if (s <? k)%nat then length (filter (asked (dv s)) hm) else 0%nat) /\ forall m, In m (ms s) -> reply_shape m = true -> m = presents (dv s)).
  { intros s. destruct (Nat.ltb_spec s k) as [LT|GE].
    2:{ rewrite (AZ s GE). split; [reflexivity|]. intros m I S. assert (J : In m (filter reply_shape (ms s))) by (apply filter_In; auto). rewrite (AZ s GE) in J. destruct J. }
    destruct (AN s LT) as (st1 & ev1 & rs & E1 & A1 & F1). exact (presented dbg _ _ _ _ _ _ (RQ s) (D s) HC _ _ _ _ E1 A1 F1). }
  split.
  - rewrite <- each_filter by reflexivity. rewrite NR. apply (noted dbg g dv order D). intros s m I.
    assert (J : In m (ms s)) by (rewrite <- O; unfold of_source; apply in_map_iff; exists (s, m); split; [reflexivity|apply filter_In; split; [assumption|apply Nat.eqb_refl]]).
    destruct (C s) as (_ & CC & _). apply cable_valid in CC. rewrite Forall_forall in CC. split; [now apply CC|]. now apply PR.
  - intros s. rewrite count_names, O. apply PR.
Qed.

Lemma some_filter {A} (f : A -> bool) l l' : some_of l l' -> (length (filter f l) <= length (filter f l'))%nat.
Proof. induction 1 as [|x l l' _ IH|x l l' _ IH]; cbn [filter]; [lia| |]; destruct (f x); cbn [length]; lia. Qed.
Lemma some_in {A} (x : A) l l' : some_of l l' -> In x l -> In x l'.
Proof. induction 1; cbn; tauto. Qed.

Theorem found_some dbg k n g st gq Q gr P dv hm hr hb ms rts sched : reached g true st ->
  (forall s, device_ok (dv s)) -> (forall s, reached (gq s) true (Q s)) -> (forall s, reached (gr s) false (P s)) -> on_cable hm hr hb ->
  (forall s, (s < k)%nat -> exists st' ev rs, feed_all (Q s) hb = Ok (st', ev) /\ for_each (answer dbg (dv s)) ev = Ok rs /\ filter reply_shape (ms s) = map wire rs) ->
  (forall s, (k <= s)%nat -> filter reply_shape (ms s) = []) ->
  (forall s, on_cable (ms s) (rts s) (of_source s sched)) ->
  exists b out bs st' ev who, lbox_run n (mkLBox P new_limited) sched = Ok (b, out) /\ stream_of_packets (map snd out) = Ok bs /\
    feed_all st bs = Ok (st', ev) /\ for_each (note_reply dbg) ev = Ok (map (fun s => (dv_id (dv s), dv_identity (dv s))) who) /\
    forall s, (count_occ Nat.eq_dec who s <= if (s <? k)%nat then length (filter (asked (dv s)) hm) else 0)%nat.
Proof.
  intros R D RQ RP HC AN AZ C. destruct (limited_bytes n g st gr P ms rts sched R RP C) as (b & out & order & ros & B & _ & O & _ & AR).
  destruct AR as (bs & st' & ev & SB & FE & NR & _). exists b, out, bs, st', ev, (names order). split; [exact B|]. split; [exact SB|]. split; [exact FE|].
  assert (PR : forall s, length (filter reply_shape (ms s)) = (if (s <? k)%nat then length (filter (asked (dv s)) hm) else 0%nat) /\ forall m, In m (ms s) -> reply_shape m = true -> m = presents (dv s)).
  { intros s. destruct (Nat.ltb_spec s k) as [LT|GE].
    2:{ rewrite (AZ s GE). split; [reflexivity|]. intros m I S. assert (J : In m (filter reply_shape (ms s))) by (apply filter_In; auto). rewrite (AZ s GE) in J. destruct J. }
    destruct (AN s LT) as (st1 & ev1 & rs & E1 & A1 & F1). exact (presented dbg _ _ _ _ _ _ (RQ s) (D s) HC _ _ _ _ E1 A1 F1). }
  split.
  - rewrite <- each_filter by reflexivity. rewrite NR. apply (noted dbg g dv order D). intros s m I.
    assert (J : In m (ms s)).
    { apply (some_in _ _ _ (O s)). unfold of_source. apply in_map_iff. exists (s, m). split; [reflexivity|]. apply filter_In. split; [assumption|apply Nat.eqb_refl]. }
    destruct (C s) as (_ & CC & _). apply cable_valid in CC. rewrite Forall_forall in CC. split; [now apply CC|]. now apply PR.
  - intros s. rewrite count_names. destruct (PR s) as [<- _]. now apply some_filter.
Qed.

(* ---- any bytes -------------------------------------------------------------------------------------- *)

Lemma answer_any dbg d g e : device_ok d -> wf_output g e -> exists rs, answer dbg d e = Ok rs /\ Forall (fun r => wire r = presents d) rs.
Proof.
  intros D W. destruct e as [p|s]; [exists []; split; [reflexivity|constructor]|]. destruct W as [V U].
  assert (WF : wf_sysex s).
  { split; [|now apply Forall_u7_u8]. unfold is_u32. destruct V as [(m & M & ->)|(a & b & A & B & ->)]; unfold is_u7 in *; lia. }
  cbn [answer]. destruct (is_request_iff s WF) as ([q Q] & _). rewrite Q. cbn [bind]. destruct q; [|exists []; split; [reflexivity|constructor]].
  destruct (classify_total s) as (t & b & i & _ & _ & I). rewrite I. cbn [bind].
  destruct (_ || _); [|exists []; split; [reflexivity|constructor]].
  destruct (reply_made dbg d D) as (r & ER & WR & _). rewrite ER. cbn [bind]. exists [r]. split; [reflexivity|]. constructor; [exact WR|constructor].
Qed.

Lemma note_any dbg g e : wf_output g e -> exists l, note_reply dbg e = Ok l.
Proof.
  intros W. destruct e as [p|s]; [exists []; reflexivity|]. destruct W as [V U].
  assert (WF : wf_sysex s).
  { split; [|now apply Forall_u7_u8]. unfold is_u32. destruct V as [(m & M & ->)|(a & b & A & B & ->)]; unfold is_u7 in *; lia. }
  cbn [note_reply]. unfold as_identity_reply_view, identity_reply_validate. destruct (is_reply_total s) as (r & R). rewrite R. cbn [bind].
  destruct r; [|cbn [bind]; eauto]. destruct (reply_identity_safe s WF R) as (i & I). apply is_reply_iff in R; [|assumption].
  destruct R as (ID & X). assert (D : exists dev x rest, sx_data s = dev :: x :: rest) by (destruct X as [(? & ? & ? & -> & _)|(? & ? & -> & _)]; eauto).
  destruct D as (dev & x & rest & D). unfold message_view, view_device_id. rewrite ID, D. unfold size. cbn [length].
  replace (2 <=? Z.of_nat (S (S (length rest)))) with true by lia. change ((0x7E0000 =? universal_realtime) || (0x7E0000 =? universal_non_realtime)) with true.
  destruct dbg; cbn [check bind]; cbn; rewrite ?D; cbn; rewrite I; cbn; eauto.
Qed.

Theorem any_calls dbg d g cb on cs : device_ok d -> 0 <= g < 16 -> Forall valid_call cs ->
  exists st ev rs l, parser_calls (new_parser g cb on) cs = Ok (st, ev) /\ for_each (answer dbg d) ev = Ok rs /\ for_each (note_reply dbg) ev = Ok l /\
    Forall (fun r => wire r = presents d) rs.
Proof.
  intros D G V. destruct (calls_wf g cb on cs G V) as (st & ev & E & W). exists st, ev.
  assert (H : exists rs l, for_each (answer dbg d) ev = Ok rs /\ for_each (note_reply dbg) ev = Ok l /\ Forall (fun r => wire r = presents d) rs).
  { clear E. induction W as [|e ev (g' & _ & W) _ (rs & l & A & B & C)]; [exists [], []; repeat split; constructor|].
    destruct (answer_any dbg d g' e D W) as (rs' & A' & C'). destruct (note_any dbg g' e W) as (l' & B').
    exists (rs' ++ rs), (l' ++ l). cbn [for_each]. rewrite A', A, B', B. cbn [bind]. repeat split. now apply Forall_app. }
  destruct H as (rs & l & H). exists rs, l. tauto.
Qed.
