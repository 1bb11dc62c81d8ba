(* Proofs about MIDI-CI messages that are made while memory may run out. *)
From Coq Require Import ZArith List Bool Lia ZifyBool ZifyNat.
From Verif Require Import Base Sysex UniversalSysex Collector Growing CapInq CapGrow CapGrowSpec.
Import ListNotations.
Local Open Scope Z_scope.
Local Open Scope res_scope.

Lemma size_push s d : size (sx_data (push s d)) = size (sx_data s) + size d.
Proof. unfold size, push. cbn [sx_data]. rewrite app_length. lia. Qed.
Lemma sim_insert a ok s cap n d : size (sx_data s) + size d <= cap -> insert_m a ok (mkG s cap n) d = Ok (mkG (push s d) cap n, true).
Proof. intros L. unfold insert_m. cbn [gr_sysex gr_capacity gr_asked]. now replace (_ <=? cap) with true by lia. Qed.

Ltac inv H := match type of H with bind ?r _ = Ok _ => let E := fresh "E" in destruct r eqn:E; [cbn [bind] in H|discriminate H] end.
Lemma sim7 dbg a ok s v s' cap n : add_uint7 dbg s v = Ok s' -> size (sx_data s) + 1 <= cap ->
  add_uint7_m dbg a ok (mkG s cap n) v = Ok (mkG s' cap n, true) /\ size (sx_data s') = size (sx_data s) + 1.
Proof.
  unfold add_uint7, add_uint7_m. intros H L. inv H. injection H as <-. cbn [bind]. rewrite sim_insert, size_push by exact L. auto.
Qed.
Lemma sim14 dbg a ok s v s' cap n : add_uint14 dbg s v = Ok s' -> size (sx_data s) + 2 <= cap ->
  add_uint14_m dbg a ok (mkG s cap n) v = Ok (mkG s' cap n, true) /\ size (sx_data s') = size (sx_data s) + 2.
Proof.
  unfold add_uint14, add_uint14_m. intros H L. inv H. injection H as <-. cbn [bind]. rewrite sim_insert, size_push by exact L. auto.
Qed.
Lemma sim28 dbg a ok s v s' cap n : add_uint28 dbg s v = Ok s' -> size (sx_data s) + 4 <= cap ->
  add_uint28_m dbg a ok (mkG s cap n) v = Ok (mkG s' cap n, true) /\ size (sx_data s') = size (sx_data s) + 4.
Proof.
  unfold add_uint28, add_uint28_m. intros H L. inv H. injection H as <-. cbn [bind]. rewrite sim_insert, size_push by exact L. auto.
Qed.
Lemma sim_data dbg a ok s d s' cap n : add_data dbg s d = Ok s' -> size (sx_data s) + size d <= cap ->
  add_data_m dbg a ok (mkG s cap n) d = Ok (mkG s' cap n, true) /\ size (sx_data s') = size (sx_data s) + size d.
Proof.
  unfold add_data, add_data_m. intros H L. inv H. injection H as <-. cbn [bind]. rewrite sim_insert, size_push by exact L. auto.
Qed.
Lemma sim_any dbg a ok s d s' cap n : (if negb (size d =? 0) then add_data dbg s d else Ok s) = Ok s' -> size (sx_data s) + size d <= cap ->
  add_data_if_any_m dbg a ok (mkG s cap n) d = Ok (mkG s' cap n, true) /\ size (sx_data s') = size (sx_data s) + size d.
Proof.
  unfold add_data_if_any_m. intros H L. destruct (Z.eqb_spec (size d) 0); cbn [negb] in *; [|now apply sim_data].
  injection H as <-. split; [reflexivity|lia].
Qed.
Lemma then_ok st k : then_m (Ok (st, true)) k = k st.
Proof. reflexivity. Qed.
Lemma sim_identity dbg a ok s d s' cap n : add_device_identity dbg s d = Ok s' -> size (sx_data s) + 11 <= cap ->
  add_device_identity_m dbg a ok (mkG s cap n) d = Ok (mkG s' cap n, true) /\ size (sx_data s') = size (sx_data s) + 11.
Proof.
  unfold add_device_identity, add_device_identity_m. intros H L. do 4 inv H. cbn [bind]. cbv zeta in H. inv H. inv H.
  assert (Z1 : forall x : Z, size [x] = 1) by reflexivity.
  rewrite sim_insert by (rewrite ?size_push, ?Z1; lia). rewrite then_ok. rewrite sim_insert by (rewrite ?size_push, ?Z1; lia). rewrite then_ok.
  rewrite sim_insert by (rewrite ?size_push, ?Z1; lia). rewrite then_ok.
  match goal with X : add_uint14 _ _ (di_family d) = _ |- _ => destruct (sim14 _ a ok _ _ _ cap n X) as [-> S1]; [rewrite ?size_push, ?Z1; lia|] end.
  rewrite !size_push, !Z1 in S1. rewrite then_ok.
  match goal with X : add_uint14 _ _ (di_model d) = _ |- _ => destruct (sim14 _ a ok _ _ _ cap n X) as [-> S2]; [lia|] end. rewrite then_ok.
  destruct (sim28 _ a ok _ _ _ cap n H) as [-> S3]; [lia|]. split; [reflexivity|lia].
Qed.
Lemma sim_profile dbg a ok s p s' cap n : add_profile dbg s p = Ok s' -> size (sx_data s) + 5 <= cap ->
  add_profile_m dbg a ok (mkG s cap n) p = Ok (mkG s' cap n, true) /\ size (sx_data s') = size (sx_data s) + 5.
Proof.
  unfold add_profile, add_profile_m. intros H L. do 4 inv H.
  do 4 (match goal with X : add_uint7 _ ?x _ = _ |- context [mkG ?x] => destruct (sim7 _ a ok _ _ _ cap n X) as [-> ?]; [lia|]; rewrite then_ok end).
  destruct (sim7 _ a ok _ _ _ cap n H) as [-> S3]; [lia|]. split; [reflexivity|lia].
Qed.
Lemma sim_profiles dbg a ok cap n k : forall s l s', add_profiles dbg s k l = Ok s' -> size (sx_data s) + 5 * Z.of_nat k <= cap ->
  add_profiles_m dbg a ok (mkG s cap n) k l = Ok (mkG s' cap n, true) /\ size (sx_data s') = size (sx_data s) + 5 * Z.of_nat k.
Proof.
  induction k as [|k IH]; intros s l s' H L; cbn [add_profiles add_profiles_m] in *; [injection H as <-; split; [reflexivity|lia]|].
  destruct l as [|p l]; [discriminate|]. inv H. destruct (sim_profile _ a ok _ _ _ cap n E) as [-> S1]; [lia|]. rewrite then_ok.
  destruct (IH _ _ _ H) as [-> S2]; [lia|]. split; [reflexivity|lia].
Qed.

Lemma sim_make dbg a ok st src dst dev s p : std_alloc a -> 0 <= p -> make_with_payload_size dbg st src dst dev = Ok s ->
  make_with_payload_size_m dbg a ok p st src dst dev =
    (if ok 0%nat then Ok (mkG s (al_reserve a 0 (12 + p)) 1, true) else Ok (mkG (mkSx universal_non_realtime []) 0 1, false)) /\
  size (sx_data s) = 12 /\ 12 + p <= al_reserve a 0 (12 + p).
Proof.
  intros (_ & A & _) P H. specialize (A 0 (12 + p) ltac:(lia)). unfold make_with_payload_size_m, new_with_capacity, reserve_m, new_growing.
  cbn [gr_sysex gr_capacity gr_asked]. replace (12 + p <=? 0) with false by lia. destruct (ok 0%nat).
  - rewrite then_ok. destruct (sim_data _ a ok _ _ _ (al_reserve a 0 (12 + p)) 1 H) as [-> S].
    + change (size (sx_data (mkSx universal_non_realtime [])) + size (ci_header st src dst dev)) with 12. lia.
    + split; [reflexivity|]. split; [exact S|assumption].
  - split; [reflexivity|]. unfold make_with_payload_size in H. unfold add_data in H. inv H. injection H as <-. split; [reflexivity|assumption].
Qed.
Lemma vec_set_size (l : list Z) : forall i x l', vec_set l i x = Ok l' -> size l' = size l.
Proof.
  unfold size. induction l as [|h t IH]; intros i x l' H; [destruct i; discriminate|]. destruct i as [|i]; cbn [vec_set] in H.
  - injection H as <-. reflexivity.
  - inv H. injection H as <-. apply IH in E. cbn [length]. lia.
Qed.
Lemma sim_version s cap n s' : set_version_1 s = Ok s' -> set_version_1_m (mkG s cap n) = Ok (mkG s' cap n, true) /\ size (sx_data s') = size (sx_data s).
Proof.
  unfold set_version_1_m. cbn [gr_sysex gr_capacity gr_asked]. intros H. rewrite H. split; [reflexivity|]. unfold set_version_1 in H. inv H.
  injection H as <-. cbn [sx_data]. now apply vec_set_size in E.
Qed.

Ltac sizes := repeat match goal with
  | |- context [size (profile_bytes ?p)] => change (size (profile_bytes p)) with 5
  | X : context [size (profile_bytes ?p)] |- _ => change (size (profile_bytes p)) with 5 in X
  | |- context [size (?x :: ?l)] => let v := eval vm_compute in (size (x :: l)) in change (size (x :: l)) with v
  | X : context [size (?x :: ?l)] |- _ => let v := eval vm_compute in (size (x :: l)) in change (size (x :: l)) with v in X
  | |- context [sx_data (push _ _)] => rewrite size_push
  | X : context [sx_data (push _ _)] |- _ => rewrite size_push in X
  end.
Ltac step := first
  [ rewrite then_ok
  | match goal with
    | X : add_uint7 _ ?x _ = Ok _ |- context [add_uint7_m ?d ?a ?ok (mkG ?x ?c ?n)] => destruct (sim7 d a ok _ _ _ c n X) as [-> ?]; [sizes; lia|]
    | X : add_uint14 _ ?x _ = Ok _ |- context [add_uint14_m ?d ?a ?ok (mkG ?x ?c ?n)] => destruct (sim14 d a ok _ _ _ c n X) as [-> ?]; [sizes; lia|]
    | X : add_uint28 _ ?x _ = Ok _ |- context [add_uint28_m ?d ?a ?ok (mkG ?x ?c ?n)] => destruct (sim28 d a ok _ _ _ c n X) as [-> ?]; [sizes; lia|]
    | X : add_data _ ?x ?l = Ok _ |- context [add_data_m ?d ?a ?ok (mkG ?x ?c ?n) ?l] => destruct (sim_data d a ok _ _ _ c n X) as [-> ?]; [sizes; lia|]
    | X : (if negb (size ?l =? 0) then add_data _ ?x ?l else _) = Ok _ |- context [add_data_if_any_m ?d ?a ?ok (mkG ?x ?c ?n) ?l] =>
        destruct (sim_any d a ok _ _ _ c n X) as [-> ?]; [sizes; lia|]
    | X : add_device_identity _ ?x _ = Ok _ |- context [add_device_identity_m ?d ?a ?ok (mkG ?x ?c ?n)] =>
        destruct (sim_identity d a ok _ _ _ c n X) as [-> ?]; [sizes; lia|]
    | X : add_profiles _ ?x _ _ = Ok _ |- context [add_profiles_m ?d ?a ?ok (mkG ?x ?c ?n)] =>
        destruct (sim_profiles d a ok c n _ _ _ _ X) as [-> ?]; [sizes; lia|]
    | X : set_version_1 ?x = Ok _ |- context [set_version_1_m (mkG ?x ?c ?n)] => destruct (sim_version _ c n _ X) as [-> ?]
    | |- context [insert_m ?a ?ok (mkG ?x ?c ?n) ?l] => rewrite (sim_insert a ok x c n l) by (sizes; lia)
    end ].
Theorem once dbg a ok o s : std_alloc a -> order_ok o -> made dbg o = Ok s -> asked_once a ok (spare o) s (made_m dbg a ok o).
Proof.
  intros A V H.
  assert (N0 : forall l : list Z, 0 <= size l) by (intros l; unfold size; lia).
  assert (FIN : forall st n, ok 0%nat = true -> st = mkG s (al_reserve a 0 n) 1 -> n = size (sx_data s) + spare o ->
    asked_once a ok (spare o) s (Ok (st, true))).
  { intros st n O -> L. exists (mkG s (al_reserve a 0 n) 1). rewrite O. split; [reflexivity|]. split; [reflexivity|]. intros _. split; [reflexivity|].
    now rewrite L. }
  assert (NONE : forall st, ok 0%nat = false -> gr_asked st = 1%nat -> asked_once a ok (spare o) s (Ok (st, false))).
  { intros st O L. exists st. rewrite O. split; [reflexivity|]. split; [exact L|discriminate]. }
  destruct o; cbn [made made_m order_ok] in *;
  unfold make_discovery_message_v1, make_discovery_message, make_endpoint_information_inquiry, make_endpoint_information_reply,
    make_nack_message, make_invalidate_muid_message, make_profile_inquiry_reply_n, make_profile_message, make_profile_added_notification,
    make_profile_removed_notification, make_profile_details_inquiry, make_profile_details_reply, make_profile_specific_data,
    make_capabilities_message, make_property_data_message, make_process_inquiry_capabilities_reply, make_midi_message_report_inquiry,
    make_midi_message_report_reply in H;
  unfold make_discovery_message_v1_m, make_discovery_message_m, make_endpoint_information_inquiry_m, make_endpoint_information_reply_m,
    make_nack_message_m, make_invalidate_muid_message_m, make_profile_inquiry_reply_n_m, make_profile_message_m, make_profile_presence_m,
    make_profile_details_inquiry_m, make_profile_details_reply_m, make_profile_specific_data_m,
    make_capabilities_message_m, make_property_data_message_m, make_process_inquiry_capabilities_reply_m, make_midi_message_report_inquiry_m,
    make_midi_message_report_reply_m; cbv zeta in H; repeat inv H; try (injection H as <-); cbn [bind].
  all: repeat match goal with |- context [size ?l] => match goal with Y : 0 <= size l |- _ => fail 1 | _ => pose proof (N0 l) end end.
  all: match goal with |- context [make_with_payload_size_m _ _ _ ?p _ _ _ _] => assert (P0 : 0 <= p) by lia end.
  all: match goal with X : make_with_payload_size _ _ _ _ _ = Ok ?s0 |- context [make_with_payload_size_m _ _ _ ?p _ _ _ _] =>
    destruct (sim_make dbg a ok _ _ _ _ _ p A P0 X) as (-> & S0 & C0) end.
  all: destruct (ok 0%nat) eqn:O; [rewrite then_ok; cbn [bind]|apply NONE; reflexivity].
  all: repeat step.
  all: eapply FIN; [reflexivity|reflexivity|]; cbn [spare]; sizes; lia.
Qed.

Theorem again dbg a ok o s : std_alloc a -> order_ok o -> made dbg o = Ok s -> forall j n k, (j < n)%nat ->
  (forall i, (i < j)%nat -> ok (k + i)%nat = false) -> ok (k + j)%nat = true -> try_again dbg a ok o n k = Some (s, (k + j + 1)%nat).
Proof.
  intros A V H. induction j as [|j IH]; intros n k N F T; (destruct n as [|n]; [lia|]); cbn [try_again].
  - destruct (once dbg a (fun i => ok (k + i)%nat) o s A V H) as (st & -> & G & X). rewrite T. destruct (X T) as [-> _]. rewrite G. f_equal. f_equal. lia.
  - destruct (once dbg a (fun i => ok (k + i)%nat) o s A V H) as (st & -> & G & _). rewrite (F 0%nat) by lia. rewrite G.
    rewrite (IH n (k + 1)%nat); [f_equal; f_equal; lia|lia| |now replace (k + 1 + j)%nat with (k + S j)%nat by lia].
    intros i I. replace (k + 1 + i)%nat with (k + S i)%nat by lia. apply F. lia.
Qed.
Theorem never dbg a ok o s : std_alloc a -> order_ok o -> made dbg o = Ok s -> forall n k,
  (forall i, (i < n)%nat -> ok (k + i)%nat = false) -> try_again dbg a ok o n k = None.
Proof.
  intros A V H. induction n as [|n IH]; intros k F; cbn [try_again]; [reflexivity|].
  destruct (once dbg a (fun i => ok (k + i)%nat) o s A V H) as (st & -> & G & _). rewrite (F 0%nat) by lia. rewrite G. apply IH.
  intros i I. replace (k + 1 + i)%nat with (k + S i)%nat by lia. apply F. lia.
Qed.

(* With memory for all requests: the same outcome, failed assertions included. *)
Definition alike (r : res sysex) (m : gresult) : Prop :=
  match r, m with Ok s, Ok (st, true) => gr_sysex st = s | Fault f, Fault g => f = g | _, _ => False end.
Lemma alike_then r m k km : alike r m -> (forall st, alike (k (gr_sysex st)) (km st)) -> alike (bind r k) (then_m m km).
Proof. destruct r as [s|f], m as [[st [|]]|g]; cbn; try contradiction; [intros <- H; apply H|auto]. Qed.
Lemma alike_bind {A} (x : res A) k km : (forall v, alike (k v) (km v)) -> alike (bind x k) (bind x km).
Proof. destruct x; cbn; auto. Qed.
Lemma alike_last r m : alike r m -> alike (bind r (fun s => Ok s)) m.
Proof. now destruct r. Qed.
Section Enough.
Variables (dbg : bool) (a : allocator) (ok : nat -> bool).
Hypothesis ENOUGH : forall i, ok i = true.
Lemma alike_insert st d : alike (Ok (push (gr_sysex st) d)) (insert_m a ok st d).
Proof. unfold insert_m. rewrite ENOUGH. now destruct (_ <=? _). Qed.
Lemma alike_7 st v : alike (add_uint7 dbg (gr_sysex st) v) (add_uint7_m dbg a ok st v).
Proof. apply alike_bind. intros _. apply alike_insert. Qed.
Lemma alike_14 st v : alike (add_uint14 dbg (gr_sysex st) v) (add_uint14_m dbg a ok st v).
Proof. apply alike_bind. intros _. apply alike_insert. Qed.
Lemma alike_28 st v : alike (add_uint28 dbg (gr_sysex st) v) (add_uint28_m dbg a ok st v).
Proof. apply alike_bind. intros _. apply alike_insert. Qed.
Lemma alike_data st v : alike (add_data dbg (gr_sysex st) v) (add_data_m dbg a ok st v).
Proof. apply alike_bind. intros _. apply alike_insert. Qed.
Lemma alike_any st d : alike (if negb (size d =? 0) then add_data dbg (gr_sysex st) d else Ok (gr_sysex st)) (add_data_if_any_m dbg a ok st d).
Proof. unfold add_data_if_any_m. destruct (negb _); [apply alike_data|reflexivity]. Qed.
Lemma alike_version st : alike (set_version_1 (gr_sysex st)) (set_version_1_m st).
Proof. unfold set_version_1_m. now destruct (set_version_1 _). Qed.
Lemma alike_push s x k km : (forall st, alike (k (gr_sysex st)) (km st)) -> alike (k (push (gr_sysex s) x)) (then_m (insert_m a ok s x) km).
Proof.
  intros H. change (alike (bind (Ok (push (gr_sysex s) x)) k) (then_m (insert_m a ok s x) km)). apply alike_then; [apply alike_insert|exact H].
Qed.
Lemma alike_identity st d : alike (add_device_identity dbg (gr_sysex st) d) (add_device_identity_m dbg a ok st d).
Proof.
  unfold add_device_identity, add_device_identity_m. do 4 (apply alike_bind; intros _). cbv zeta.
  pattern (push (gr_sysex st) [u8 (Z.land (Z.shiftr (di_manufacturer d) 16) 0x7F)]).
  match goal with |- (fun x => alike (@?k x) ?m) ?y => change (alike (k y) m) end. apply alike_push. intros s1. cbv beta.
  pattern (push (gr_sysex s1) [u8 (Z.land (Z.shiftr (di_manufacturer d) 8) 0x7F)]).
  match goal with |- (fun x => alike (@?k x) ?m) ?y => change (alike (k y) m) end. apply alike_push. intros s2. cbv beta.
  pattern (push (gr_sysex s2) [u8 (Z.land (di_manufacturer d) 0x7F)]).
  match goal with |- (fun x => alike (@?k x) ?m) ?y => change (alike (k y) m) end. apply alike_push. intros s3. cbv beta.
  apply alike_then; [apply alike_14|]. intros s4. apply alike_then; [apply alike_14|]. intros s5. apply alike_28.
Qed.
Lemma alike_profile st p : alike (add_profile dbg (gr_sysex st) p) (add_profile_m dbg a ok st p).
Proof. unfold add_profile, add_profile_m. do 4 (apply alike_then; [apply alike_7|intros ?]). apply alike_7. Qed.
Lemma alike_profiles n : forall st l, alike (add_profiles dbg (gr_sysex st) n l) (add_profiles_m dbg a ok st n l).
Proof.
  induction n as [|n IH]; intros st l; cbn [add_profiles add_profiles_m]; [reflexivity|]. destruct l as [|p l]; [reflexivity|].
  apply alike_then; [apply alike_profile|]. intros s. apply IH.
Qed.
Lemma alike_make p x s d v : alike (make_with_payload_size dbg x s d v) (make_with_payload_size_m dbg a ok p x s d v).
Proof.
  unfold make_with_payload_size, make_with_payload_size_m, new_with_capacity, reserve_m, new_growing. cbn [gr_asked gr_sysex gr_capacity].
  rewrite ENOUGH. destruct (_ <=? _); rewrite then_ok.
  - apply (alike_data (mkG (mkSx universal_non_realtime []) 0 0)).
  - apply (alike_data (mkG (mkSx universal_non_realtime []) _ 1)).
Qed.
Theorem enough o : alike (made dbg o) (made_m dbg a ok o).
Proof.
  destruct o; cbn [made made_m];
  unfold make_discovery_message_v1, make_discovery_message, make_endpoint_information_inquiry, make_endpoint_information_reply,
    make_nack_message, make_invalidate_muid_message, make_profile_inquiry_reply_n, make_profile_message, make_profile_added_notification,
    make_profile_removed_notification, make_profile_details_inquiry, make_profile_details_reply, make_profile_specific_data,
    make_capabilities_message, make_property_data_message, make_process_inquiry_capabilities_reply, make_midi_message_report_inquiry,
    make_midi_message_report_reply;
  unfold make_discovery_message_v1_m, make_discovery_message_m, make_endpoint_information_inquiry_m, make_endpoint_information_reply_m,
    make_nack_message_m, make_invalidate_muid_message_m, make_profile_inquiry_reply_n_m, make_profile_message_m, make_profile_presence_m,
    make_profile_details_inquiry_m, make_profile_details_reply_m, make_profile_specific_data_m,
    make_capabilities_message_m, make_property_data_message_m, make_process_inquiry_capabilities_reply_m, make_midi_message_report_inquiry_m,
    make_midi_message_report_reply_m; cbv zeta.
  all: repeat first [ apply alike_make | apply alike_7 | apply alike_14 | apply alike_28 | apply alike_data | apply alike_any | apply alike_version
    | apply alike_identity | apply alike_profiles | apply alike_insert
    | match goal with |- alike (bind (add_uint14 dbg (push (gr_sysex ?s) ?x) ?v) ?k) _ =>
        apply (alike_push s x (fun y => bind (add_uint14 dbg y v) k)); intros ? end
    | (apply alike_then; [|intros ?]) | (apply alike_bind; intros ?) ].
Qed.
End Enough.
