From Coq Require Import ZArith List Bool Lia ZifyBool ZifyNat.
From Verif Require Import Base Packet Messages Sysex ByteStream Collector CollectSpec CollectProofs Memory MemorySpec ThrowingSpec.
Import ListNotations.
Local Open Scope Z_scope.
Local Open Scope res_scope.

(* ---- retrying ------------------------------------------------------------------------------ *)

(* a call that is refused memory has no effect but what repeating it has, too *)
Definition restartable {S S' E : Type} (V : S -> Prop) (pr : S -> S') (call : bool -> S -> mresult S E)
  (plain : S' -> res (S' * list E)) : Prop :=
  forall ok st, V st -> match call ok st with
  | Fault f => plain (pr st) = Fault f
  | Ok (st', o, Refused) => ok = false /\ o = [] /\ plain (pr st') = plain (pr st) /\ V st'
  | Ok (st', o, _) => plain (pr st) = Ok (pr st', o)
  end.

Lemma retry_plain {S S' E : Type} (V : S -> Prop) (pr : S -> S') (call : bool -> S -> mresult S E) plain :
  restartable V pr call plain -> forall oks st, V st ->
  match retry call st oks with
  | Ok (st', o) => plain (pr st) = Ok (pr st', o)
  | Fault f => plain (pr st) = Fault f
  end.
Proof.
  intros R. induction oks as [|ok oks IH]; intros st VS; cbn [retry].
  - specialize (R true st VS). destruct (call true st) as [[[st' o] m]|f]; cbn [bind fst]; [|exact R].
    destruct m; try exact R. destruct R as [? _]; discriminate.
  - specialize (R ok st VS). destruct (call ok st) as [[[st' o] m]|f]; cbn [bind fst snd]; [|exact R].
    destruct m; try exact R. destruct R as (_ & -> & E1 & V1). specialize (IH st' V1).
    destruct (retry call st' oks) as [[st2 o2]|f]; cbn [bind fst snd app]; now rewrite <- E1.
Qed.

(* what F0 does depends on the configuration only *)
Lemma start_same s1 s2 : m_group s1 = m_group s2 -> has_cb s1 = has_cb s2 -> m_invoke_callbacks s1 = m_invoke_callbacks s2 ->
  has_cb s2 = true -> sysex_start s1 = sysex_start s2.
Proof.
  intros G C I H. unfold sysex_start. rewrite G. destruct (make_sysex7_start_packet (m_group s2)); [|reflexivity].
  cbn [bind with_state has_cb]. rewrite C, H. cbn [with_sysex m_invoke_callbacks m_group has_cb m_packet m_num_missing_bytes].
  unfold with_sysex. cbn. now rewrite G, C, I.
Qed.

Lemma feed_start st : 0xF0 =? 0xF0 = true -> has_cb st = true -> feed st 0xF0 = sysex_start st.
Proof.
  intros _ H. unfold feed, feed_plain. cbn [Z.leb Z.ltb Z.eqb Z.compare Pos.compare Pos.compare_cont Pos.eqb negb].
  destruct (_ =? pt_data); [|reflexivity]. now apply start_same.
Qed.

Lemma start_m a ok st : match sysex_start_m a ok st with
  | Fault f => sysex_start (mp_parser st) = Fault f
  | Ok (st', o, Refused) => ok = false /\ o = [] /\ has_cb (mp_parser st) = true /\ has_cb (mp_parser st') = true /\
      sysex_start (mp_parser st') = sysex_start (mp_parser st)
  | Ok (st', o, _) => sysex_start (mp_parser st) = Ok (mp_parser st', o)
  end.
Proof.
  assert (SS := eq_refl (sysex_start (mp_parser st))). unfold sysex_start at 2 in SS. unfold sysex_start_m.
  destruct (make_sysex7_start_packet (m_group (mp_parser st))) as [p|f] eqn:P; cbn [bind] in *; [|exact SS].
  cbn [has_cb with_state] in *. destruct (has_cb (mp_parser st)) eqn:HC; [|exact SS].
  destruct (_ <? 1024); [|exact SS]. destruct ok; [exact SS|]. clear SS.
  cbn [mp_parser has_cb with_sysex with_state]. rewrite HC. repeat split. apply start_same; try reflexivity; assumption.
Qed.

Lemma feed_m_restart a b ok st : match feed_m a ok st b with
  | Fault f => feed (mp_parser st) b = Fault f
  | Ok (st', o, Refused) => ok = false /\ o = [] /\ feed (mp_parser st') b = feed (mp_parser st) b
  | Ok (st', o, _) => feed (mp_parser st) b = Ok (mp_parser st', o)
  end.
Proof.
  unfold feed_m.
  assert (PL : forall st r, match plain_m st r with
    | Fault f => r = Fault f
    | Ok (st', o, Refused) => False
    | Ok (st', o, _) => r = Ok (mp_parser st', o) end).
  { intros s r. unfold plain_m. destruct r as [[s' o]|f]; reflexivity. }
  assert (PM : forall s1, m_group (mp_parser s1) = m_group (mp_parser st) -> has_cb (mp_parser s1) = has_cb (mp_parser st) ->
      m_invoke_callbacks (mp_parser s1) = m_invoke_callbacks (mp_parser st) ->
      feed (mp_parser st) b = feed_plain (mp_parser s1) b ->
      match feed_plain_m a ok s1 b with
      | Fault f => feed (mp_parser st) b = Fault f
      | Ok (st', o, Refused) => ok = false /\ o = [] /\ feed (mp_parser st') b = feed (mp_parser st) b
      | Ok (st', o, _) => feed (mp_parser st) b = Ok (mp_parser st', o) end).
  { intros s1 G C I F. unfold feed_plain_m. destruct (Z.eqb_spec b 0xF0) as [->|N].
    - assert (F' : feed_plain (mp_parser s1) 0xF0 = sysex_start (mp_parser s1)) by reflexivity.
      pose proof (start_m a ok s1) as SM. destruct (sysex_start_m a ok s1) as [[[s' o] m]|f]; [|congruence].
      destruct m; try congruence. destruct SM as (O1 & O2 & HC & HC' & E). split; [exact O1|]. split; [exact O2|].
      rewrite (feed_start (mp_parser s')) by trivial. congruence.
    - specialize (PL s1 (feed_plain (mp_parser s1) b)). destruct (plain_m _ _) as [[[s' o] m]|f]; [|congruence].
      destruct m; congruence || contradiction. }
  assert (PL' : forall r, feed (mp_parser st) b = r -> match plain_m st r with
    | Fault f => feed (mp_parser st) b = Fault f
    | Ok (st', o, Refused) => ok = false /\ o = [] /\ feed (mp_parser st') b = feed (mp_parser st) b
    | Ok (st', o, _) => feed (mp_parser st) b = Ok (mp_parser st', o) end).
  { intros r E. specialize (PL st r). destruct (plain_m st r) as [[[s' o] m]|f]; [|congruence].
    destruct m; congruence || contradiction. }
  assert (FE := eq_refl (feed (mp_parser st) b)). unfold feed at 2 in FE.
  destruct (0xF8 <=? b); [now apply PL'|].
  destruct (type (m_packet (mp_parser st)) =? pt_data) eqn:T; [|now apply PM].
  destruct (b <? 0x80) eqn:B.
  - destruct (has_cb (mp_parser st)) eqn:HC; [|now apply PL'].
    unfold sysex_continue_callback_m. unfold sysex_continue_callback in FE.
    destruct ((m_packet_byte (mp_parser st) =? 0) || _); [exact FE|].
    destruct (m_packet_byte (mp_parser st) =? 2); [exact FE|].
    destruct (_ && (Z.land _ _ =? 0)); [exact FE|].
    destruct (size _ =? mp_capacity st); [|exact FE]. destruct ok; [exact FE|]. auto.
  - destruct (negb (b =? 0xF7)) eqn:B7; [now apply PM|].
    destruct (has_cb (mp_parser st)) eqn:HC; [|now apply PL'].
    unfold sysex_end_callback_m. unfold sysex_end_callback in FE. destruct (_ && _); exact FE.
Qed.

Lemma feed_m_restartable a b : restartable (fun _ => True) mp_parser (fun ok st => feed_m a ok st b) (fun st => feed st b).
Proof.
  intros ok st _. pose proof (feed_m_restart a b ok st) as R. destruct (feed_m a ok st b) as [[[s' o] m]|f]; [|exact R].
  destruct m; try exact R. tauto.
Qed.

Lemma mem_calls_plain a ks : forall st,
  match mem_calls a st ks with
  | Ok (st', o) => parser_calls (mp_parser st) (map plain_call ks) = Ok (mp_parser st', o)
  | Fault f => parser_calls (mp_parser st) (map plain_call ks) = Fault f
  end.
Proof.
  induction ks as [|k ks IH]; intros st; cbn [mem_calls map parser_calls]; [reflexivity|].
  assert (K : match mem_step a st k with
    | Ok (st', o) => parser_call_step (mp_parser st) (plain_call k) = Ok (mp_parser st', o)
    | Fault f => parser_call_step (mp_parser st) (plain_call k) = Fault f end).
  { destruct k as [b oks|on|g|]; cbn [mem_step plain_call parser_call_step]; try reflexivity.
    pose proof (retry_plain _ mp_parser _ _ (feed_m_restartable a b) oks st I) as R. cbn beta in R.
    cbn [feed_all]. destruct (retry _ st oks) as [[s' o]|f]; rewrite R; cbn [bind]; [|reflexivity].
    now rewrite app_nil_r. }
  destruct (mem_step a st k) as [[s1 o1]|f]; rewrite K; cbn [bind fst snd]; [|reflexivity].
  specialize (IH s1). destruct (mem_calls a s1 ks) as [[s2 o2]|f]; rewrite IH; reflexivity.
Qed.

Lemma mem_parser_new a g cb on ks :
  observed (mem_calls a (new_mparser g cb on) ks) = observed (parser_calls (new_parser g cb on) (map plain_call ks)).
Proof.
  pose proof (mem_calls_plain a ks (new_mparser g cb on)) as H. cbn [new_mparser mp_parser] in H.
  destruct (mem_calls _ _ _) as [[s o]|f]; rewrite H; reflexivity.
Qed.

(* ---- collectors ----------------------------------------------------------------------------- *)

(* a vector holds no more than its capacity *)
Definition vec7 (c : collector7) : Prop := size (sx_data (c7_sysex c)) <= c7_capacity c.
Definition vec8 (c : collector8) : Prop := size (sx_data (c8_sysex c)) <= c8_capacity c.

Lemma room_enough a len cap max num cap' ok : std_alloc a -> 0 <= len <= cap -> 0 <= num <= 13 ->
  make_room a len cap max num = (cap', ok) -> len <= cap' /\ (ok = true -> len + num <= cap').
Proof.
  intros (S1 & S2 & _) L N. unfold make_room. destruct (Z.ltb_spec cap (len + num)) as [LT|GE].
  2:{ intros [= <- <-]. lia. }
  set (nc := if 0 <? max then _ else _). intros E. injection E as <- <-.
  assert (G : cap <= al_reserve a cap nc /\ nc <= al_reserve a cap nc).
  { destruct (Z.le_gt_cases nc cap); [rewrite S1 by assumption; lia|]. specialize (S2 cap nc). lia. }
  split; [lia|]. unfold nc in *. destruct (0 <? max); cbn [andb negb] in *; [|lia].
  intros H. destruct (Z.ltb_spec (al_reserve a cap (Z.min (Z.max 128 (2 * cap)) max)) (len + num)); [discriminate|lia].
Qed.
Lemma clear_nonneg a cap : std_alloc a -> 0 <= cap -> 0 <= clear_capacity a cap.
Proof. intros (_ & _ & S3) C. unfold clear_capacity. destruct (_ <? cap); [apply S3; lia|lia]. Qed.
Lemma reserve_grows a cap n : std_alloc a -> cap <= al_reserve a cap n.
Proof. intros (S1 & S2 & _). destruct (Z.le_gt_cases n cap); [rewrite S1 by assumption; lia|]. specialize (S2 cap n). lia. Qed.
Lemma size_snoc {A} (l : list A) x : size (l ++ [x]) = size l + 1.
Proof. unfold size. rewrite app_length. cbn [length]. lia. Qed.

Lemma payload7 p : is_sysex7_packet p = true -> 0 <= Z.of_nat (sysex7_payload_size p) <= 13.
Proof. unfold is_sysex7_packet, sysex7_payload_size. set (n := Z.land (status p) 15). lia. Qed.
Lemma payload8 p : is_sysex8_packet p = true -> 0 <= Z.of_nat (sysex8_payload_size p) <= 13.
Proof. unfold is_sysex8_packet, sysex8_payload_size. set (n := Z.land (status p) 15). cbv zeta. destruct (0 <? n); lia. Qed.

(* bytes for which there is room do not ask for memory *)
Lemma c7_bytes_room a ok p n : forall b s idr cap mem, size (sx_data s) + Z.of_nat n <= cap ->
  c7_bytes_m a ok p b n s idr cap mem = (r <- c7_bytes p b n s idr ;; Ok (fst r, snd r, cap, mem)) /\
  (forall s' i', c7_bytes p b n s idr = Ok (s', i') -> size (sx_data s') <= cap).
Proof.
  induction n as [|n IH]; intros b s idr cap mem R; cbn [c7_bytes_m c7_bytes bind fst snd].
  { split; [reflexivity|]. intros s' i' E. assert (s = s') by congruence. subst s'. lia. }
  destruct (sysex7_payload_byte p b) as [x|f]; cbn [bind]; [|split; [reflexivity|discriminate]].
  destruct (idr =? 0). { destruct (negb (x =? 0)); apply IH; cbn [sx_data]; lia. }
  destruct (idr =? 1). { apply IH; cbn [sx_data]; lia. }
  destruct (idr =? 2). { apply IH; cbn [sx_data]; lia. }
  replace (size (sx_data s) =? cap) with false by lia. cbn [andb].
  apply IH. cbn [sx_data]. rewrite size_snoc. lia.
Qed.
Lemma c8_bytes_room a ok p n : forall b s ids cap mem, size (sx_data s) + Z.of_nat n <= cap ->
  c8_bytes_m a ok p b n s ids cap mem = (r <- c8_bytes p b n s ids ;; Ok (fst r, snd r, cap, mem)) /\
  (forall s' i', c8_bytes p b n s ids = Ok (s', i') -> size (sx_data s') <= cap).
Proof.
  induction n as [|n IH]; intros b s ids cap mem R; cbn [c8_bytes_m c8_bytes bind fst snd].
  { split; [reflexivity|]. intros s' i' E. assert (s = s') by congruence. subst s'. lia. }
  destruct (sysex8_payload_byte p b) as [x|f]; cbn [bind]; [|split; [reflexivity|discriminate]].
  destruct ids; try (apply IH; cbn [sx_data]; lia).
  - destruct (negb _); apply IH; cbn [sx_data]; lia.
  - replace (size (sx_data s) =? cap) with false by lia. cbn [andb].
    apply IH. cbn [sx_data]. rewrite size_snoc. lia.
Qed.

Lemma vec7_reset a c : std_alloc a -> vec7 c -> vec7 (c7_reset a c).
Proof.
  unfold vec7. intros A V. pose proof (size_nonneg (sx_data (c7_sysex c))). pose proof (clear_nonneg a (c7_capacity c) A).
  change (0 <= clear_capacity a (c7_capacity c)). lia.
Qed.
Lemma vec8_reset a c : std_alloc a -> vec8 c -> vec8 (c8_reset a c).
Proof.
  unfold vec8. intros A V. pose proof (size_nonneg (sx_data (c8_sysex c))). pose proof (clear_nonneg a (c8_capacity c) A).
  change (0 <= clear_capacity a (c8_capacity c)). lia.
Qed.

(* feed() without the checks of push_back() *)
Definition lean7 (a : allocator) (ok : bool) (c : collector7) (p : packet) : mresult collector7 sysex :=
  if negb (is_sysex7_packet p) then Ok (c, [], Untouched)
  else
    let st := Z.land (status p) 0xF0 in
    let opening := (st =? 0x00) || (st =? 0x10) in
    if negb opening && negb (c7_state c =? 0x20) then Ok (c7_reset a c, [], Untouched)
    else
      let c := if opening && negb (c7_state c =? 0x10) then c7_reset a c else c in
      let num := sysex7_payload_size p in
      let len := size (sx_data (c7_sysex c)) in
      let grow := must_grow len (c7_capacity c) (c7_max c) (Z.of_nat num) in
      if grow && negb ok then Ok (c, [], Refused)
      else
        let mem := if grow then Obtained else Untouched in
        let '(cap, room) := make_room a len (c7_capacity c) (c7_max c) (Z.of_nat num) in
        if negb room then
          Ok (mkC7 (c7_sysex c) cap (c7_max c) 0x10 (c7_id_bytes c) (c7_has_cb c), [], mem)
        else
          r <- c7_bytes p 0 num (c7_sysex c) (c7_id_bytes c) ;;
          let '(s, idr) := r in
          if (st =? 0x00) || (st =? 0x30) then
            Ok (c7_reset a (mkC7 s cap (c7_max c) (c7_state c) idr (c7_has_cb c)),
                (if c7_has_cb c then [s] else []), mem)
          else Ok (mkC7 s cap (c7_max c) 0x20 idr (c7_has_cb c), [], mem).
Definition lean8 (a : allocator) (ok : bool) (c : collector8) (p : packet) : mresult collector8 (sysex * Z) :=
  if negb (is_sysex8_packet p) then Ok (c, [], Untouched)
  else
    let fmt := sysex8_format p in
    sid <- sysex8_stream_id p ;;
    let opening := (fmt =? 0) || (fmt =? 1) in
    if negb opening && negb (c8_state c =? 2) then Ok (c8_reset a c, [], Untouched)
    else if negb opening && negb (sid =? c8_stream c) then Ok (c, [], Untouched)
    else
      let c := if opening && negb (c8_state c =? 1) then c8_reset a c else c in
      let stream := if opening then sid else c8_stream c in
      let num := sysex8_payload_size p in
      let len := size (sx_data (c8_sysex c)) in
      let grow := must_grow len (c8_capacity c) (c8_max c) (Z.of_nat num) in
      if grow && negb ok then
        Ok (mkC8 stream (c8_sysex c) (c8_capacity c) (c8_max c) (c8_state c) (c8_id_state c) (c8_has_cb c), [], Refused)
      else
        let mem := if grow then Obtained else Untouched in
        let '(cap, room) := make_room a len (c8_capacity c) (c8_max c) (Z.of_nat num) in
        if negb room then
          Ok (mkC8 stream (c8_sysex c) cap (c8_max c) 1 (c8_id_state c) (c8_has_cb c), [], mem)
        else
          r <- c8_bytes p 0 num (c8_sysex c) (c8_id_state c) ;;
          let '(s, ids) := r in
          if (fmt =? 0) || (fmt =? 3) then
            Ok (c8_reset a (mkC8 stream s cap (c8_max c) (c8_state c) ids (c8_has_cb c)),
                (if c8_has_cb c then [(s, stream)] else []), mem)
          else Ok (mkC8 stream s cap (c8_max c) 2 ids (c8_has_cb c), [], mem).

Lemma feed7_lean a ok c p : std_alloc a -> vec7 c -> c7_feed_m a ok c p = lean7 a ok c p.
Proof.
  intros A V. unfold c7_feed_m, lean7. destruct (is_sysex7_packet p) eqn:IS; cbn [negb]; [|reflexivity].
  destruct (negb _ && negb _); [reflexivity|].
  match goal with |- context [if ?x then c7_reset a c else c] => set (c1 := if x then c7_reset a c else c) end.
  assert (V1 : vec7 c1) by (unfold c1; destruct (_ && negb (c7_state c =? 16)); [now apply vec7_reset|assumption]).
  destruct (must_grow _ _ _ _ && negb ok); [reflexivity|].
  destruct (make_room _ _ _ _ _) as [cap room] eqn:MR. destruct room; cbn [negb]; [|reflexivity].
  pose proof (size_nonneg (sx_data (c7_sysex c1))). unfold vec7 in V1.
  destruct (room_enough _ _ _ _ _ _ _ A (conj H V1) (payload7 p IS) MR) as [_ K]. specialize (K eq_refl).
  rewrite (proj1 (c7_bytes_room a ok p _ _ _ _ _ _ K)).
  destruct (c7_bytes _ _ _ _ _) as [[s idr]|f]; cbn [bind fst snd]; [|reflexivity].
  destruct (must_grow _ _ _ _); reflexivity.
Qed.
Lemma feed8_lean a ok c p : std_alloc a -> vec8 c -> c8_feed_m a ok c p = lean8 a ok c p.
Proof.
  intros A V. unfold c8_feed_m, lean8. destruct (is_sysex8_packet p) eqn:IS; cbn [negb]; [|reflexivity].
  destruct (sysex8_stream_id p) as [sid|f]; cbn [bind]; [|reflexivity].
  destruct (negb _ && negb (c8_state c =? 2)); [reflexivity|]. destruct (negb _ && negb (sid =? _)); [reflexivity|].
  match goal with |- context [if ?x then c8_reset a c else c] => set (c1 := if x then c8_reset a c else c) end.
  assert (V1 : vec8 c1) by (unfold c1; destruct (_ && negb (c8_state c =? 1)); [now apply vec8_reset|assumption]).
  destruct (must_grow _ _ _ _ && negb ok); [reflexivity|].
  destruct (make_room _ _ _ _ _) as [cap room] eqn:MR. destruct room; cbn [negb]; [|reflexivity].
  pose proof (size_nonneg (sx_data (c8_sysex c1))). unfold vec8 in V1.
  destruct (room_enough _ _ _ _ _ _ _ A (conj H V1) (payload8 p IS) MR) as [_ K]. specialize (K eq_refl).
  rewrite (proj1 (c8_bytes_room a ok p _ _ _ _ _ _ K)).
  destruct (c8_bytes _ _ _ _ _) as [[s idr]|f]; cbn [bind fst snd]; [|reflexivity].
  destruct (must_grow _ _ _ _); reflexivity.
Qed.

Lemma vec7_feed a c p c' o : std_alloc a -> vec7 c -> c7_feed a c p = Ok (c', o) -> vec7 c'.
Proof.
  intros A V. unfold c7_feed. destruct (is_sysex7_packet p) eqn:IS; cbn [negb]; [|congruence].
  assert (FST : forall x y, @Ok (collector7 * list sysex) x = Ok y -> fst x = fst y) by congruence.
  destruct (negb _ && negb _); [intros E; apply FST in E; cbn [fst] in E; rewrite <- E; now apply vec7_reset|].
  match goal with |- context [if ?x then c7_reset a c else c] => set (c1 := if x then c7_reset a c else c) end.
  assert (V1 : vec7 c1) by (unfold c1; destruct (_ && negb (c7_state c =? 16)); [now apply vec7_reset|assumption]).
  destruct (make_room _ _ _ _ _) as [cap room] eqn:MR.
  pose proof (size_nonneg (sx_data (c7_sysex c1))). unfold vec7 in V1.
  destruct (room_enough _ _ _ _ _ _ _ A (conj H V1) (payload7 p IS) MR) as [L K].
  destruct room; cbn [negb].
  2:{ intros E; apply FST in E; cbn [fst] in E; rewrite <- E. exact L. }
  specialize (K eq_refl). pose proof (proj2 (c7_bytes_room a true p _ 0 _ (c7_id_bytes c1) _ Untouched K)) as B.
  destruct (c7_bytes _ _ _ _ _) as [[s idr]|f]; cbn [bind]; [|discriminate]. specialize (B _ _ eq_refl).
  destruct (_ || (_ =? 48)); intros E; apply FST in E; cbn [fst] in E; rewrite <- E; [apply vec7_reset; trivial|]; exact B.
Qed.
Lemma vec8_feed a c p c' o : std_alloc a -> vec8 c -> c8_feed a c p = Ok (c', o) -> vec8 c'.
Proof.
  intros A V. unfold c8_feed. destruct (is_sysex8_packet p) eqn:IS; cbn [negb]; [|congruence].
  assert (FST : forall x y, @Ok (collector8 * list (sysex * Z)) x = Ok y -> fst x = fst y) by congruence.
  destruct (sysex8_stream_id p) as [sid|f]; cbn [bind]; [|discriminate].
  destruct (negb _ && negb (c8_state c =? 2)); [intros E; apply FST in E; cbn [fst] in E; rewrite <- E; now apply vec8_reset|].
  destruct (negb _ && negb (sid =? _)); [intros E; apply FST in E; cbn [fst] in E; now rewrite <- E|].
  match goal with |- context [if ?x then c8_reset a c else c] => set (c1 := if x then c8_reset a c else c) end.
  assert (V1 : vec8 c1) by (unfold c1; destruct (_ && negb (c8_state c =? 1)); [now apply vec8_reset|assumption]).
  destruct (make_room _ _ _ _ _) as [cap room] eqn:MR.
  pose proof (size_nonneg (sx_data (c8_sysex c1))). unfold vec8 in V1.
  destruct (room_enough _ _ _ _ _ _ _ A (conj H V1) (payload8 p IS) MR) as [L K].
  destruct room; cbn [negb].
  2:{ intros E; apply FST in E; cbn [fst] in E; rewrite <- E. exact L. }
  specialize (K eq_refl). pose proof (proj2 (c8_bytes_room a true p _ 0 _ (c8_id_state c1) _ Untouched K)) as B.
  destruct (c8_bytes _ _ _ _ _) as [[s idr]|f]; cbn [bind]; [|discriminate]. specialize (B _ _ eq_refl).
  destruct (_ || (_ =? 3)); intros E; apply FST in E; cbn [fst] in E; rewrite <- E; [apply vec8_reset; trivial|]; exact B.
Qed.

Lemma lean7_restart a p ok c : match lean7 a ok c p with
  | Fault f => c7_feed a c p = Fault f
  | Ok (c', o, Refused) => ok = false /\ o = [] /\ c7_feed a c' p = c7_feed a c p
  | Ok (c', o, _) => c7_feed a c p = Ok (c', o)
  end.
Proof.
  unfold lean7. assert (FE := eq_refl (c7_feed a c p)). unfold c7_feed at 2 in FE.
  destruct (negb (is_sysex7_packet p)) eqn:IS; [exact FE|].
  set (st := Z.land (status p) 0xF0) in *. set (opening := (st =? 0) || (st =? 16)) in *.
  destruct (negb opening && negb (c7_state c =? 32)) eqn:E1; [exact FE|].
  set (c1 := if opening && negb (c7_state c =? 16) then c7_reset a c else c) in *.
  destruct (must_grow _ _ _ _ && negb ok) eqn:G.
  - split; [destruct ok, (must_grow _ _ _ _); trivial; discriminate|]. split; [reflexivity|].
    rewrite FE. unfold c7_feed. rewrite IS. fold st. fold opening.
    assert (S1 : negb opening && negb (c7_state c1 =? 32) = false).
    { unfold c1. destruct opening; [reflexivity|]. cbn [andb negb] in *. exact E1. }
    rewrite S1.
    assert (S2 : (if opening && negb (c7_state c1 =? 16) then c7_reset a c1 else c1) = c1).
    { unfold c1. destruct opening; [|reflexivity]. destruct (c7_state c =? 16) eqn:E; cbn [andb negb].
      - rewrite E. reflexivity. - reflexivity. }
    rewrite S2. reflexivity.
  - destruct (make_room _ _ _ _ _) as [cap room]. destruct room; cbn [negb] in *.
    + destruct (c7_bytes _ _ _ _ _) as [[s idr]|f]; cbn [bind] in *; [|exact FE].
      destruct ((st =? 0) || (st =? 48)); destruct (must_grow _ _ _ _); exact FE.
    + destruct (must_grow _ _ _ _); exact FE.
Qed.

Lemma c7_set_max_m_restartable a s : restartable vec7 (fun c => c)
  (fun ok c => let r := c7_set_max_m a ok c s in Ok (fst r, [], snd r)) (fun c => Ok (c7_set_max a c s, @nil sysex)).
Proof.
  intros ok c V. unfold c7_set_max_m. destruct (negb (s =? 0) && _); [|reflexivity]. destruct ok; [reflexivity|].
  cbn [fst snd]. split; [reflexivity|]. split; [reflexivity|]. split; [reflexivity|exact V].
Qed.

Lemma lean8_restart a p ok c : match lean8 a ok c p with
  | Fault f => c8_feed a c p = Fault f
  | Ok (c', o, Refused) => ok = false /\ o = [] /\ c8_feed a c' p = c8_feed a c p
  | Ok (c', o, _) => c8_feed a c p = Ok (c', o)
  end.
Proof.
  unfold lean8. assert (FE := eq_refl (c8_feed a c p)). unfold c8_feed at 2 in FE.
  destruct (negb (is_sysex8_packet p)) eqn:IS; [exact FE|].
  destruct (sysex8_stream_id p) as [sid|f] eqn:SI; cbn [bind] in *; [|exact FE].
  set (fmt := sysex8_format p) in *. set (opening := (fmt =? 0) || (fmt =? 1)) in *.
  destruct (negb opening && negb (c8_state c =? 2)) eqn:E1; [exact FE|].
  destruct (negb opening && negb (sid =? c8_stream c)) eqn:E2; [exact FE|].
  set (c1 := if opening && negb (c8_state c =? 1) then c8_reset a c else c) in *.
  destruct (must_grow _ _ _ _ && negb ok) eqn:G.
  - split; [destruct ok, (must_grow _ _ _ _); trivial; discriminate|]. split; [reflexivity|].
    rewrite FE. unfold c8_feed. rewrite IS, SI. fold fmt. fold opening. cbn [bind].
    cbn [c8_state c8_stream c8_sysex c8_capacity c8_max c8_id_state c8_has_cb].
    assert (S1 : negb opening && negb (c8_state c1 =? 2) = false).
    { unfold c1. destruct opening; [reflexivity|]. cbn [andb negb] in *. exact E1. }
    rewrite S1.
    assert (S3 : negb opening && negb (sid =? (if opening then sid else c8_stream c1)) = false).
    { unfold c1. destruct opening; [reflexivity|]. cbn [andb negb] in *. exact E2. }
    rewrite S3.
    assert (S2 : opening && negb (c8_state c1 =? 1) = false).
    { unfold c1. destruct opening; [|reflexivity]. destruct (c8_state c =? 1) eqn:E; cbn [andb negb]; [now rewrite E|reflexivity]. }
    rewrite S2. cbn [c8_state c8_stream c8_sysex c8_capacity c8_max c8_id_state c8_has_cb].
    destruct opening; reflexivity.
  - destruct (make_room _ _ _ _ _) as [cap room]. destruct room; cbn [negb] in *.
    + destruct (c8_bytes _ _ _ _ _) as [[s idr]|f]; cbn [bind] in *; [|exact FE].
      destruct ((fmt =? 0) || (fmt =? 3)); destruct (must_grow _ _ _ _); exact FE.
    + destruct (must_grow _ _ _ _); exact FE.
Qed.

Lemma c8_set_max_m_restartable a s : restartable vec8 (fun c => c)
  (fun ok c => let r := c8_set_max_m a ok c s in Ok (fst r, [], snd r)) (fun c => Ok (c8_set_max a c s, @nil (sysex * Z))).
Proof.
  intros ok c V. unfold c8_set_max_m. destruct (negb (s =? 0) && _); [|reflexivity]. destruct ok; [reflexivity|].
  cbn [fst snd]. split; [reflexivity|]. split; [reflexivity|]. split; [reflexivity|exact V].
Qed.

Lemma c7_refused a ok c p c' o : lean7 a ok c p = Ok (c', o, Refused) ->
  c' = c \/ (c' = c7_reset a c /\ c7_state c <> 0x10).
Proof.
  unfold lean7. destruct (negb (is_sysex7_packet p)); [discriminate|].
  destruct (negb _ && negb _); [discriminate|].
  destruct (_ && negb (c7_state c =? 16)) eqn:C.
  - destruct (must_grow _ _ _ _ && negb ok).
    + intros E. right. apply (f_equal (fun r => match r with Ok (c, _, _) => c | Fault _ => c' end)) in E. cbn beta iota in E.
      split; [easy|]. intros E'. rewrite E', andb_false_r in C. discriminate.
    + destruct (make_room _ _ _ _ _) as [cap room]. destruct room; cbn [negb].
      * destruct (c7_bytes _ _ _ _ _) as [[s idr]|f]; cbn [bind]; [|discriminate].
        destruct (_ || (_ =? 48)); intros E; apply (f_equal (fun r => match r with Ok (_, _, m) => m | Fault _ => Untouched end)) in E;
        revert E; destruct (must_grow _ _ _ _); discriminate.
      * intros E; apply (f_equal (fun r => match r with Ok (_, _, m) => m | Fault _ => Untouched end)) in E;
        revert E; destruct (must_grow _ _ _ _); discriminate.
  - destruct (must_grow _ _ _ _ && negb ok).
    + intros E. left. apply (f_equal (fun r => match r with Ok (c, _, _) => c | Fault _ => c' end)) in E. easy.
    + destruct (make_room _ _ _ _ _) as [cap room]. destruct room; cbn [negb].
      * destruct (c7_bytes _ _ _ _ _) as [[s idr]|f]; cbn [bind]; [|discriminate].
        destruct (_ || (_ =? 48)); intros E; apply (f_equal (fun r => match r with Ok (_, _, m) => m | Fault _ => Untouched end)) in E;
        revert E; destruct (must_grow _ _ _ _); discriminate.
      * intros E; apply (f_equal (fun r => match r with Ok (_, _, m) => m | Fault _ => Untouched end)) in E;
        revert E; destruct (must_grow _ _ _ _); discriminate.
Qed.

Lemma c8_refused a ok c p c' o : lean8 a ok c p = Ok (c', o, Refused) ->
  exists s, c' = mkC8 s (c8_sysex c) (c8_capacity c) (c8_max c) (c8_state c) (c8_id_state c) (c8_has_cb c) \/
   (c' = mkC8 s (c8_sysex (c8_reset a c)) (c8_capacity (c8_reset a c)) (c8_max (c8_reset a c)) (c8_state (c8_reset a c))
           (c8_id_state (c8_reset a c)) (c8_has_cb (c8_reset a c)) /\ c8_state c <> 1).
Proof.
  unfold lean8. destruct (negb (is_sysex8_packet p)); [discriminate|].
  destruct (sysex8_stream_id p) as [sid|f]; cbn [bind]; [|discriminate].
  destruct (negb _ && negb (c8_state c =? 2)); [discriminate|].
  destruct (negb _ && negb (sid =? _)); [discriminate|].
  destruct (_ && negb (c8_state c =? 1)) eqn:C.
  - destruct (must_grow _ _ _ _ && negb ok).
    + intros E. eexists. right. apply (f_equal (fun r => match r with Ok (c, _, _) => c | Fault _ => c' end)) in E. cbn beta iota in E.
      split; [symmetry; exact E|]. intros E'. rewrite E', andb_false_r in C. discriminate.
    + destruct (make_room _ _ _ _ _) as [cap room]. destruct room; cbn [negb].
      * destruct (c8_bytes _ _ _ _ _) as [[s idr]|f]; cbn [bind]; [|discriminate].
        destruct (_ || (_ =? 3)); intros E; apply (f_equal (fun r => match r with Ok (_, _, m) => m | Fault _ => Untouched end)) in E;
        revert E; destruct (must_grow _ _ _ _); discriminate.
      * intros E; apply (f_equal (fun r => match r with Ok (_, _, m) => m | Fault _ => Untouched end)) in E;
        revert E; destruct (must_grow _ _ _ _); discriminate.
  - destruct (must_grow _ _ _ _ && negb ok).
    + intros E. eexists. left. apply (f_equal (fun r => match r with Ok (c, _, _) => c | Fault _ => c' end)) in E. symmetry. exact E.
    + destruct (make_room _ _ _ _ _) as [cap room]. destruct room; cbn [negb].
      * destruct (c8_bytes _ _ _ _ _) as [[s idr]|f]; cbn [bind]; [|discriminate].
        destruct (_ || (_ =? 3)); intros E; apply (f_equal (fun r => match r with Ok (_, _, m) => m | Fault _ => Untouched end)) in E;
        revert E; destruct (must_grow _ _ _ _); discriminate.
      * intros E; apply (f_equal (fun r => match r with Ok (_, _, m) => m | Fault _ => Untouched end)) in E;
        revert E; destruct (must_grow _ _ _ _); discriminate.
Qed.

Lemma c7_feed_m_restartable a p : std_alloc a -> restartable vec7 (fun c => c) (fun ok c => c7_feed_m a ok c p) (fun c => c7_feed a c p).
Proof.
  intros A ok c V. rewrite feed7_lean by assumption. pose proof (lean7_restart a p ok c) as R.
  destruct (lean7 a ok c p) as [[[c' o] m]|f] eqn:FM; [|exact R]. destruct m; try exact R.
  destruct R as (R1 & R2 & R3). split; [exact R1|]. split; [exact R2|]. split; [exact R3|].
  pose proof (vec7_reset a c A V) as V'.
  destruct (c7_refused _ _ _ _ _ _ FM) as [->|[-> _]]; assumption.
Qed.

Lemma c8_feed_m_restartable a p : std_alloc a -> restartable vec8 (fun c => c) (fun ok c => c8_feed_m a ok c p) (fun c => c8_feed a c p).
Proof.
  intros A ok c V. rewrite feed8_lean by assumption. pose proof (lean8_restart a p ok c) as R.
  destruct (lean8 a ok c p) as [[[c' o] m]|f] eqn:FM; [|exact R]. destruct m; try exact R.
  destruct R as (R1 & R2 & R3). split; [exact R1|]. split; [exact R2|]. split; [exact R3|].
  pose proof (vec8_reset a c A V) as V'.
  destruct (c8_refused _ _ _ _ _ _ FM) as (s & [->|[-> _]]); assumption.
Qed.

Lemma vec7_call a c k c' o : std_alloc a -> vec7 c -> c7_call a c k = Ok (c', o) -> vec7 c'.
Proof.
  intros A V. destruct k as [p| |s|cb]; cbn [c7_call].
  - now apply vec7_feed.
  - intros E. assert (c7_reset a c = c') by congruence. subst c'. now apply vec7_reset.
  - intros E. assert (c7_set_max a c s = c') by congruence. subst c'. unfold vec7 in *. cbn.
    pose proof (reserve_grows a (c7_capacity c) s A). destruct (negb (s =? 0)); lia.
  - intros E. assert (c7_set_callback c cb = c') by congruence. subst c'. exact V.
Qed.

Lemma vec8_call a c k c' o : std_alloc a -> vec8 c -> c8_call a c k = Ok (c', o) -> vec8 c'.
Proof.
  intros A V. destruct k as [p| |s|cb]; cbn [c8_call].
  - now apply vec8_feed.
  - intros E. assert (c8_reset a c = c') by congruence. subst c'. now apply vec8_reset.
  - intros E. assert (c8_set_max a c s = c') by congruence. subst c'. unfold vec8 in *. cbn.
    pose proof (reserve_grows a (c8_capacity c) s A). destruct (negb (s =? 0)); lia.
  - intros E. assert (c8_set_callback c cb = c') by congruence. subst c'. exact V.
Qed.

Lemma mem7_plain a ks : std_alloc a -> forall c, vec7 c -> mem7_calls a c ks = c7_calls a c (map plain_collect ks).
Proof.
  intros A. induction ks as [|k ks IH]; intros c V; cbn [mem7_calls map c7_calls]; [reflexivity|].
  assert (K : mem7_step a c k = c7_call a c (plain_collect k)).
  { destruct k as [p oks| |s oks|cb]; cbn [mem7_step plain_collect c7_call]; try reflexivity.
    - pose proof (retry_plain _ _ _ _ (c7_feed_m_restartable a p A) oks c V) as R. cbn beta in R.
      destruct (retry _ c oks) as [[c' o]|f]; now rewrite R.
    - pose proof (retry_plain _ _ _ _ (c7_set_max_m_restartable a s) oks c V) as R. cbn beta in R.
      destruct (retry _ c oks) as [[c' o]|f]; now rewrite R. }
  rewrite K. destruct (c7_call a c (plain_collect k)) as [[c1 o1]|f] eqn:E; cbn [bind fst snd]; [|reflexivity].
  rewrite IH by (now apply (vec7_call a c (plain_collect k) c1 o1)). destruct (c7_calls a c1 _) as [[c2 o2]|f]; reflexivity.
Qed.

Lemma mem8_plain a ks : std_alloc a -> forall c, vec8 c -> mem8_calls a c ks = c8_calls a c (map plain_collect ks).
Proof.
  intros A. induction ks as [|k ks IH]; intros c V; cbn [mem8_calls map c8_calls]; [reflexivity|].
  assert (K : mem8_step a c k = c8_call a c (plain_collect k)).
  { destruct k as [p oks| |s oks|cb]; cbn [mem8_step plain_collect c8_call]; try reflexivity.
    - pose proof (retry_plain _ _ _ _ (c8_feed_m_restartable a p A) oks c V) as R. cbn beta in R.
      destruct (retry _ c oks) as [[c' o]|f]; now rewrite R.
    - pose proof (retry_plain _ _ _ _ (c8_set_max_m_restartable a s) oks c V) as R. cbn beta in R.
      destruct (retry _ c oks) as [[c' o]|f]; now rewrite R. }
  rewrite K. destruct (c8_call a c (plain_collect k)) as [[c1 o1]|f] eqn:E; cbn [bind fst snd]; [|reflexivity].
  rewrite IH by (now apply (vec8_call a c (plain_collect k) c1 o1)). destruct (c8_calls a c1 _) as [[c2 o2]|f]; reflexivity.
Qed.

(* ---- giving up --------------------------------------------------------------------------------- *)

(* the two states cannot be told apart once a message begins *)
Definition alike (st' st : astate) : Prop :=
  (if a_open st' then [] else a_bytes st') = (if a_open st then [] else a_bytes st).

Lemma alike_step dec max st' st x : alike st' st -> ct_format x < 2 -> a_step dec max st' x = a_step dec max st x.
Proof.
  unfold alike. intros E F. unfold a_step. replace (ct_format x <? 2) with true by lia.
  cbn [negb andb]. now rewrite E.
Qed.

Lemma some_inj {A} (x y : A) : Some x = Some y -> x = y.
Proof. congruence. Qed.

Section GiveUp.
  Context {S E : Type} (rd : packet -> option content) (dec : list Z -> sysex) (max : Z)
    (out : list (sysex * Z) -> list E) (inv : astate -> S -> Prop) (feed : bool -> S -> packet -> mresult S E) (reset : S -> S).
  Hypothesis out_app : forall l1 l2, out (l1 ++ l2) = out l1 ++ out l2.
  Hypothesis out_nil : out [] = [].
  Hypothesis inv_reset : forall st c, inv st c -> inv a_idle (reset c).
  Hypothesis feed_skip : forall ok c p, wf_packet p -> rd p = None -> feed ok c p = Ok (c, [], Untouched).
  Hypothesis feed_step : forall ok st c p x, inv st c -> wf_packet p -> rd p = Some x ->
    (exists c' m, feed ok c p = Ok (c', out (snd (a_step dec max st x)), m) /\ m <> Refused /\ inv (fst (a_step dec max st x)) c') \/
    (exists c' st', feed ok c p = Ok (c', [], Refused) /\ inv st' c' /\ alike st' st).

  Lemma try_refine ks : forall c st' st c2 o ms, inv st' c -> st' = st \/ (alike st' st /\ begins_anew rd ks) ->
    try_calls feed reset c ks = Ok (c2, o, ms) -> gives_up_messages rd ks ms ->
    o = out (snd (a_calls rd dec max true st (without_refused ks ms))).
  Proof.
    induction ks as [|[p ok|] ks IH]; intros c st' st c2 o ms I M R G; cbn [try_calls] in R.
    - apply (f_equal (fun r => match r with Ok (_, o, _) => o | Fault _ => [] end)) in R. cbn in R. rewrite <- R. symmetry. exact out_nil.
    - destruct (rd p) as [x|] eqn:X.
      + destruct ms as [|m ms].
        { destruct (feed ok c p) as [[[c' o'] m]|f]; cbn [bind] in R; [|discriminate].
          destruct (try_calls _ _ _ ks) as [[[c3 o3] ms3]|f]; cbn [bind] in R; discriminate. }
        cbn [gives_up_messages] in G. destruct G as (W & GM & G).
        destruct (feed_step ok st' c p x I W X) as [(c' & m' & F & NR & I')|(c' & st2 & F & I' & AL)]; rewrite F in R; cbn [bind fst snd] in R;
          destruct (try_calls _ _ _ ks) as [[[c3 o3] ms3]|f] eqn:T; cbn [bind fst snd] in R; try discriminate;
          assert (Eo := f_equal (fun r => match r with Ok (_, o, _) => o | Fault _ => [] end) R);
          assert (Em := f_equal (fun r => match r with Ok (_, _, m) => m | Fault _ => [] end) R); cbn in Eo, Em;
          injection Em as E1 E2; subst m ms3 o.
        * assert (AE : a_step dec max st' x = a_step dec max st x).
          { destruct M as [->|[AL B]]; [reflexivity|]. cbn [begins_anew] in B. rewrite X in B. now apply alike_step. }
          rewrite AE in I' |- *.
          rewrite (IH _ _ (fst (a_step dec max st x)) _ _ _ I' (or_introl eq_refl) T G).
          destruct m'; try contradiction; cbn [without_refused a_calls]; rewrite X; cbn [snd]; now rewrite out_app.
        * cbn [without_refused app]. apply (IH c' st2 st c3); trivial. right. split; [|now apply GM].
          unfold alike in *. destruct M as [->|[AL' _]]; congruence.
      + destruct ms as [|m ms].
        { destruct (feed ok c p) as [[[c' o'] m]|f]; cbn [bind] in R; [|discriminate].
          destruct (try_calls _ _ _ ks) as [[[c3 o3] ms3]|f]; cbn [bind] in R; discriminate. }
        cbn [gives_up_messages] in G. destruct G as (W & GM & G).
        rewrite (feed_skip ok c p W X) in R. cbn [bind fst snd] in R.
        destruct (try_calls _ _ _ ks) as [[[c3 o3] ms3]|f] eqn:T; cbn [bind fst snd] in R; try discriminate.
        assert (Eo := f_equal (fun r => match r with Ok (_, o, _) => o | Fault _ => [] end) R).
        assert (Em := f_equal (fun r => match r with Ok (_, _, m) => m | Fault _ => [] end) R). cbn in Eo, Em.
        injection Em as E1 E2. subst m ms3 o. cbn [without_refused a_calls]. rewrite X.
        apply (IH c st' st c3); trivial. destruct M as [M|[AL B]]; [now left|right]. split; [exact AL|].
        cbn [begins_anew] in B. now rewrite X in B.
    - destruct (try_calls _ _ _ ks) as [[[c3 o3] ms3]|f] eqn:T; cbn [bind fst snd] in R; try discriminate.
      assert (Eo := f_equal (fun r => match r with Ok (_, o, _) => o | Fault _ => [] end) R).
      assert (Em := f_equal (fun r => match r with Ok (_, _, m) => m | Fault _ => [] end) R). cbn in Eo, Em. subst o ms.
      cbn [without_refused a_calls gives_up_messages] in *.
      now apply (IH _ a_idle a_idle _ _ _ (inv_reset _ _ I) (or_introl eq_refl) T).
  Qed.

  Lemma try_total ks : Forall (fun k => match k with TKFeed p _ => wf_packet p | TKReset => True end) ks ->
    forall c st, inv st c -> exists c' o ms, try_calls feed reset c ks = Ok (c', o, ms).
  Proof.
    induction 1 as [|[p ok|] ks W _ IH]; intros c st I; cbn [try_calls].
    - now eexists _, _, _.
    - destruct (rd p) as [x|] eqn:X.
      + destruct (feed_step ok st c p x I W X) as [(c' & m' & F & NR & I')|(c' & st2 & F & I' & AL)]; rewrite F; cbn [bind fst snd];
          destruct (IH _ _ I') as (c3 & o3 & ms3 & T); rewrite T; cbn [bind fst snd]; now eexists _, _, _.
      + rewrite (feed_skip ok c p W X). cbn [bind fst snd]. destruct (IH _ _ I) as (c3 & o3 & ms3 & T). rewrite T. cbn. now eexists _, _, _.
    - destruct (IH _ _ (inv_reset _ _ I)) as (c3 & o3 & ms3 & T). rewrite T. cbn. now eexists _, _, _.
  Qed.
End GiveUp.


Lemma inv7_vec max cb st c : inv7 max cb st c -> vec7 c.
Proof. intros I. unfold vec7. rewrite (i7_sysex _ _ _ _ I). apply (i7_cap _ _ _ _ I). Qed.

Lemma try7_step a max ok st c p x : limit_alloc a max -> inv7 max true st c -> wf_packet p -> content7 p = Some x ->
  (exists c' m, c7_feed_m a ok c p = Ok (c', map fst (snd (a_step decode7 max st x)), m) /\ m <> Refused /\
     inv7 max true (fst (a_step decode7 max st x)) c') \/
  (exists c' st', c7_feed_m a ok c p = Ok (c', [], Refused) /\ inv7 max true st' c' /\ alike st' st).
Proof.
  intros A I W X. destruct (feed7_step a max true st c p x A I W X) as (c1 & F & I1). cbv iota in F.
  rewrite (feed7_lean a ok c p (proj1 (proj2 A)) (inv7_vec _ _ _ _ I)). pose proof (lean7_restart a p ok c) as R.
  destruct (lean7 a ok c p) as [[[c' o] m]|f] eqn:FM; [|rewrite F in R; discriminate].
  assert (P : forall c1' o', Ok (c1, o') = Ok (c', o) -> c1 = c1' -> c' = c1' /\ o = o').
  { intros c1' o' H1 H2. split; congruence. }
  destruct m; try (rewrite F in R; destruct (P _ _ R eq_refl) as [-> ->]; left; eexists _, _; split; [reflexivity|];
    split; [discriminate|exact I1]).
  destruct R as (-> & -> & _). right. exists c'.
  destruct (c7_refused _ _ _ _ _ _ FM) as [->|[-> N]].
  - exists st. repeat split; trivial; try apply I.
  - exists a_idle. split; [reflexivity|]. split; [now apply (inv7_reset a max true st)|].
    unfold alike, a_idle. cbn [a_open a_bytes]. rewrite (i7_state _ _ _ _ I) in N. now destruct (a_open st).
Qed.


Lemma inv8_vec max cb st c : inv8 max cb st c -> vec8 c.
Proof. intros I. unfold vec8. rewrite (i8_sysex _ _ _ _ I). apply (i8_cap _ _ _ _ I). Qed.

Lemma try8_step a max ok st c p x : limit_alloc a max -> inv8 max true st c -> wf_packet p -> content8 p = Some x ->
  (exists c' m, c8_feed_m a ok c p = Ok (c', snd (a_step decode8 max st x), m) /\ m <> Refused /\
     inv8 max true (fst (a_step decode8 max st x)) c') \/
  (exists c' st', c8_feed_m a ok c p = Ok (c', [], Refused) /\ inv8 max true st' c' /\ alike st' st).
Proof.
  intros A I W X. destruct (feed8_step a max true st c p x A I W X) as (c1 & F & I1). cbv iota in F.
  rewrite (feed8_lean a ok c p (proj1 (proj2 A)) (inv8_vec _ _ _ _ I)). pose proof (lean8_restart a p ok c) as R.
  destruct (lean8 a ok c p) as [[[c' o] m]|f] eqn:FM; [|rewrite F in R; discriminate].
  assert (P : forall c1' o', Ok (c1, o') = Ok (c', o) -> c1 = c1' -> c' = c1' /\ o = o').
  { intros c1' o' H1 H2. split; congruence. }
  destruct m; try (rewrite F in R; destruct (P _ _ R eq_refl) as [-> ->]; left; eexists _, _; split; [reflexivity|];
    split; [discriminate|exact I1]).
  destruct R as (-> & -> & _). right. exists c'.
  destruct (c8_refused _ _ _ _ _ _ FM) as (s & [->|[-> N]]).
  - exists (mkA (a_bytes st) (a_open st) s). split; [reflexivity|]. split; [|reflexivity]. destruct I. constructor; cbn; trivial.
  - exists (mkA [] false s). split; [reflexivity|].
    split; [destruct (inv8_reset a max true st c A I); constructor; cbn in *; trivial|].
    unfold alike. cbn [a_open a_bytes]. rewrite (i8_state _ _ _ _ I) in N. now destruct (a_open st).
Qed.

Lemma c7_skip_m a ok c p : wf_packet p -> content7 p = None -> c7_feed_m a ok c p = Ok (c, [], Untouched).
Proof. intros W N. unfold c7_feed_m. now rewrite (content7_none p W N). Qed.
Lemma c8_skip_m a ok c p : wf_packet p -> content8 p = None -> c8_feed_m a ok c p = Ok (c, [], Untouched).
Proof. intros W N. unfold c8_feed_m. now rewrite (content8_none p W N). Qed.

Lemma without_keeps rd ks : forall ms, gives_up_messages rd ks ms -> Forall keeps_limit (without_refused ks ms).
Proof.
  induction ks as [|[p ok|] ks IH]; intros [|m ms] G; cbn [gives_up_messages without_refused] in *; try constructor.
  - destruct G as (W & _ & G). specialize (IH _ G). destruct m; trivial; constructor; trivial.
  - exact I. - now apply IH.
Qed.

Lemma given_up7 a max ks c o ms : limit_alloc a max ->
  try_calls (c7_feed_m a) (c7_reset a) (c7_set_max a (new_collector7 true) max) ks = Ok (c, o, ms) ->
  gives_up_messages content7 ks ms ->
  observed (c7_calls a (c7_set_max a (new_collector7 true) max) (without_refused ks ms)) = Ok o.
Proof.
  intros A R G. pose proof (inv7_new a max true A) as I.
  destruct (calls7_refine a max _ A (without_keeps _ _ _ G) _ _ _ I) as (c' & E & _). rewrite E. cbn [observed]. f_equal. symmetry.
  apply (try_refine content7 decode7 max (map fst) (inv7 max true) (c7_feed_m a) (c7_reset a)) with (c := c7_set_max a (new_collector7 true) max)
    (st' := a_idle) (c2 := c); trivial.
  - apply map_app.
  - intros st s H. now apply (inv7_reset a max true st).
  - intros; now apply c7_skip_m.
  - intros; now apply try7_step.
  - now left.
Qed.

Lemma given_up8 a max ks c o ms : limit_alloc a max ->
  try_calls (c8_feed_m a) (c8_reset a) (c8_set_max a (new_collector8 true) max) ks = Ok (c, o, ms) ->
  gives_up_messages content8 ks ms ->
  observed (c8_calls a (c8_set_max a (new_collector8 true) max) (without_refused ks ms)) = Ok o.
Proof.
  intros A R G. pose proof (inv8_new a max true A) as I.
  destruct (calls8_refine a max _ A (without_keeps _ _ _ G) _ _ _ I) as (c' & E & _). rewrite E. cbn [observed]. f_equal. symmetry.
  apply (try_refine content8 decode8 max (fun l => l) (inv8 max true) (c8_feed_m a) (c8_reset a)) with (c := c8_set_max a (new_collector8 true) max)
    (st' := a_idle) (c2 := c); trivial.
  - intros st s H. now apply (inv8_reset a max true st).
  - intros; now apply c8_skip_m.
  - intros; now apply try8_step.
  - now left.
Qed.

Lemma try7_total a max ks : limit_alloc a max -> Forall (fun k => match k with TKFeed p _ => wf_packet p | TKReset => True end) ks ->
  exists c o ms, try_calls (c7_feed_m a) (c7_reset a) (c7_set_max a (new_collector7 true) max) ks = Ok (c, o, ms).
Proof.
  intros A W. pose proof (inv7_new a max true A) as I.
  eapply (try_total content7 decode7 max (map fst) (inv7 max true) (c7_feed_m a) (c7_reset a)); eauto.
  - intros st s H. now apply (inv7_reset a max true st).
  - intros; now apply c7_skip_m.
  - intros; now apply try7_step.
Qed.
Lemma try8_total a max ks : limit_alloc a max -> Forall (fun k => match k with TKFeed p _ => wf_packet p | TKReset => True end) ks ->
  exists c o ms, try_calls (c8_feed_m a) (c8_reset a) (c8_set_max a (new_collector8 true) max) ks = Ok (c, o, ms).
Proof.
  intros A W. pose proof (inv8_new a max true A) as I.
  eapply (try_total content8 decode8 max (fun l => l) (inv8 max true) (c8_feed_m a) (c8_reset a)); eauto.
  - intros st s H. now apply (inv8_reset a max true st).
  - intros; now apply c8_skip_m.
  - intros; now apply try8_step.
Qed.

(* F0 without memory, with callbacks enabled *)
Lemma start_refused a ok st st' o : m_invoke_callbacks (mp_parser st) = true ->
  feed_m a ok st 0xF0 = Ok (st', o, Refused) -> feed (mp_parser st) 0xF0 = Ok (mp_parser st', []).
Proof.
  intros ON E.
  assert (PM : forall s1, m_invoke_callbacks (mp_parser s1) = true -> feed_plain_m a ok s1 0xF0 = Ok (st', o, Refused) ->
    sysex_start (mp_parser s1) = Ok (mp_parser st', [])).
  { intros s1 ON1 F. change (sysex_start_m a ok s1 = Ok (st', o, Refused)) in F. unfold sysex_start_m in F. unfold sysex_start.
    destruct (make_sysex7_start_packet _) as [p|]; cbn [bind] in *; [|discriminate].
    destruct (has_cb (with_state (mp_parser s1) p 2 0)); [|congruence].
    change (m_invoke_callbacks (with_state (mp_parser s1) p 2 0)) with (m_invoke_callbacks (mp_parser s1)) in *. rewrite ON1 in *. cbn [negb] in *.
    destruct (_ <? 1024); [|congruence]. destruct ok; [congruence|].
    apply (f_equal (fun r => match r with Ok (x, _, _) => mp_parser x | Fault _ => mp_parser st end)) in F. cbn in F. now rewrite <- F. }
  unfold feed_m in E. unfold feed. change (0xF8 <=? 0xF0) with false in *. cbv iota in *.
  destruct (type (m_packet (mp_parser st)) =? pt_data).
  - change (0xF0 <? 0x80) with false in *. change (negb (0xF0 =? 0xF7)) with true in *. cbv iota in *.
    exact (PM (mkMP (with_packet (mp_parser st) packet0) (mp_capacity st)) ON E).
  - exact (PM st ON E).
Qed.
Lemma start_refused_calls a ok st st' o ks : m_invoke_callbacks (mp_parser st) = true ->
  feed_m a ok st 0xF0 = Ok (st', o, Refused) ->
  o = [] /\ observed (mem_calls a st' ks) = observed (parser_calls (mp_parser st) (CFeed [0xF0] :: map plain_call ks)).
Proof.
  intros ON E. pose proof (feed_m_restart a 0xF0 ok st) as R. rewrite E in R. split; [apply R|].
  cbn [parser_calls parser_call_step feed_all]. rewrite (start_refused _ _ _ _ _ ON E). cbn [bind app].
  pose proof (mem_calls_plain a ks st') as H. destruct (mem_calls a st' ks) as [[s x]|f]; rewrite H; reflexivity.
Qed.
