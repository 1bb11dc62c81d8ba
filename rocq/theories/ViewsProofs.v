(* Lemmas about views whose messages are edited. *)
From Coq Require Import ZArith List Bool Lia ZifyBool ZifyNat.
From Verif Require Import Base Bits Packet Sysex UniversalSysex SysexSpec SysexProofs CapInq CapSpec CapProofs CapCalls CapRead Views ViewsSpec.
Import ListNotations.
Local Open Scope Z_scope.

(* ---- results that stay ----------------------------------------------------------------------------- *)

(* b gives what a gives *)
Definition stays {A} (a b : res A) : Prop := forall x, a = Ok x -> b = Ok x.
Lemma stays_refl {A} (a : res A) : stays a a.
Proof. intros x H. exact H. Qed.
Lemma stays_bind {A B} (a a' : res A) (k k' : A -> res B) : stays a a' ->
  (forall x, a = Ok x -> stays (k x) (k' x)) -> stays (bind a k) (bind a' k').
Proof.
  intros P Q y H. destruct a as [x|f]; [|discriminate]. rewrite (P x eq_refl). apply (Q x eq_refl), H.
Qed.
Lemma stays_assert c c' : (c = true -> c' = true) -> stays (assert_ c) (assert_ c').
Proof. intros P x. unfold assert_. destruct c; [|discriminate]. rewrite P by trivial. trivial. Qed.
Lemma stays_check dbg c c' : (c = true -> c' = true) -> stays (check dbg c) (check dbg c').
Proof. intros P. unfold check. destruct dbg; [apply stays_assert, P|apply stays_refl]. Qed.

(* the positions an edit of the header does not touch *)
Definition fixed (n : nat) : Prop := n = 1%nat \/ n = 2%nat \/ n = 3%nat \/ (12 <= n)%nat.
(* more bytes at the end and another device and other ids *)
Definition grown (s s' : sysex) : Prop :=
  sx_id s' = sx_id s /\ (length (sx_data s) <= length (sx_data s'))%nat /\
  forall n, fixed n -> (n < length (sx_data s))%nat -> nth_error (sx_data s') n = nth_error (sx_data s) n.

Lemma stays_vec s s' n : grown s s' -> fixed n -> stays (vec_at (sx_data s) n) (vec_at (sx_data s') n).
Proof.
  intros (_ & _ & G) F x H. unfold vec_at in *. destruct (nth_error (sx_data s) n) eqn:E; [|discriminate].
  rewrite G, E by (trivial; apply nth_error_Some; congruence). exact H.
Qed.
Lemma fixed_from n m : (12 <= n)%nat -> fixed (n + m).
Proof. unfold fixed. lia. Qed.
Lemma size_le s s' : grown s s' -> size (sx_data s) <= size (sx_data s').
Proof. intros (_ & L & _). unfold size. lia. Qed.

Ltac vecs G := repeat (apply stays_bind; [apply (stays_vec _ _ _ G); unfold fixed; lia|intros ? ?]).
Lemma stays_14 s s' n : grown s s' -> (12 <= n)%nat -> stays (make_uint14 s n) (make_uint14 s' n).
Proof.
  intros G N. pose proof (size_le _ _ G). unfold make_uint14.
  apply stays_bind; [apply stays_assert; lia|intros ? _]. vecs G. apply stays_refl.
Qed.
Lemma stays_28 s s' n : grown s s' -> (12 <= n)%nat -> stays (make_uint28 s n) (make_uint28 s' n).
Proof.
  intros G N. pose proof (size_le _ _ G). unfold make_uint28.
  apply stays_bind; [apply stays_assert; lia|intros ? _]. vecs G. apply stays_refl.
Qed.
Lemma stays_identity s s' n : grown s s' -> (12 <= n)%nat -> stays (make_device_identity s n) (make_device_identity s' n).
Proof.
  intros G N. pose proof (size_le _ _ G). unfold make_device_identity.
  apply stays_bind; [apply stays_assert; lia|intros ? _]. vecs G.
  repeat (apply stays_bind; [first [apply stays_14|apply stays_28]; [exact G|lia]|intros ? _]). apply stays_refl.
Qed.

Lemma nth_error_skip {A} (l : list A) : forall n m, nth_error (skipn n l) m = nth_error l (n + m).
Proof. induction l; intros [|n] m; trivial. - now destruct m. - apply IHl. Qed.
Lemma nth_error_first {A} (l : list A) : forall n m, (m < n)%nat -> nth_error (firstn n l) m = nth_error l m.
Proof. induction l; intros [|n] [|m] L; trivial; try lia. cbn. apply IHl. lia. Qed.
Lemma list_ext {A} (l : list A) : forall l', (forall n, nth_error l n = nth_error l' n) -> l = l'.
Proof.
  induction l as [|x l IH]; intros [|y l'] H; trivial; try (specialize (H 0%nat); discriminate).
  f_equal; [specialize (H 0%nat); cbn in H; congruence|]. apply IH. intros n. apply (H (S n)).
Qed.
Lemma stays_bytes s s' off len : grown s s' -> (12 <= off)%nat -> stays (bytes_at s off len) (bytes_at s' off len).
Proof.
  intros G N. pose proof (size_le _ _ G) as L. unfold bytes_at. intros x.
  destruct (Z.leb_spec (Z.of_nat off + Z.of_nat len) (size (sx_data s))) as [B|]; [|discriminate]. intros H.
  rewrite (proj2 (Z.leb_le _ _)) by lia. injection H as <-. f_equal. apply list_ext. intros n. unfold size in *.
  destruct (Nat.lt_ge_cases n len) as [M|M].
  - rewrite !nth_error_first, !nth_error_skip by trivial. destruct G as (_ & _ & G). apply G; [apply fixed_from|]; lia.
  - assert (P : forall l : list Z, nth_error (firstn len l) n = None) by (intros l; apply nth_error_None; rewrite firstn_length; lia).
    now rewrite !P.
Qed.

Lemma make14_pos s n x : make_uint14 s n = Ok x -> 0 <= x.
Proof.
  unfold make_uint14. destruct (assert_ _); cbn [bind]; [|discriminate]. destruct (vec_at _ n); cbn [bind]; [|discriminate].
  destruct (vec_at _ (n + 1)); cbn [bind]; [|discriminate]. intros H. injection H as <-. unfold u16. apply Z.mod_pos_bound. lia.
Qed.

Lemma stays_read_profiles s s' n : grown s s' -> forall off, (12 <= off)%nat ->
  stays (read_profiles s n off) (read_profiles s' n off).
Proof.
  intros G. induction n as [|n IH]; intros off N; cbn [read_profiles]; [apply stays_refl|]. vecs G.
  apply stays_bind; [apply IH; lia|intros ? _; apply stays_refl].
Qed.
Lemma stays_make_profiles dbg s s' pos : grown s s' -> 12 <= pos -> stays (make_profiles dbg s pos) (make_profiles dbg s' pos).
Proof.
  intros G N. pose proof (size_le _ _ G). unfold make_profiles.
  apply stays_bind; [apply stays_check; lia|intros ? _].
  apply stays_bind; [apply stays_14; [exact G|lia]|intros n _].
  apply stays_bind; [apply stays_check; lia|intros ? _]. apply stays_read_profiles; [exact G|lia].
Qed.

(* ---- validation ------------------------------------------------------------------------------------ *)

Definition stays_true (a b : res bool) : Prop := a = Ok true -> b = Ok true.
Lemma stays_stays_true a b : stays a b -> stays_true a b.
Proof. intros H. exact (H true). Qed.
Lemma true_and c c' a a' : (c = true -> c' = true) -> (c = true -> stays_true a a') -> stays_true (and_ c a) (and_ c' a').
Proof. intros P Q. unfold and_, stays_true. destruct c; [|discriminate]. rewrite P by trivial. apply Q. trivial. Qed.
Lemma true_and_res a a' b b' : stays_true a a' -> stays_true b b' -> stays_true (and_res a b) (and_res a' b').
Proof. unfold stays_true. intros P Q. rewrite !and_res_ok. tauto. Qed.
Lemma true_bind {A} (a a' : res A) k k' : stays a a' -> (forall x, a = Ok x -> stays_true (k x) (k' x)) ->
  stays_true (bind a k) (bind a' k').
Proof.
  intros P Q H. destruct a as [x|f]; [|discriminate]. rewrite (P x eq_refl). apply (Q x eq_refl), H.
Qed.
Lemma true_at s s' i v : grown s s' -> fixed i -> stays_true (at_is s i v) (at_is s' i v).
Proof. intros G F. apply stays_stays_true. unfold at_is. apply stays_bind; [apply stays_vec; trivial|intros; apply stays_refl]. Qed.
Lemma true_ok c c' : (c = true -> c' = true) -> stays_true (Ok c) (Ok c').
Proof. unfold stays_true. intros P H. injection H as H. now rewrite P. Qed.
Lemma true_if c a a' : stays_true a a' -> stays_true (if c : bool then a else Ok false) (if c then a' else Ok false).
Proof. destruct c; trivial. intros _ H. discriminate. Qed.

Section Grown.
  Variables (s s' : sysex) (G : grown s s').
  Let L : size (sx_data s) <= size (sx_data s') := size_le _ _ G.
  Let I : sx_id s' = sx_id s := proj1 G.

  Ltac tstep :=
    first [ apply true_and; [rewrite ?I; intros; lia|intros _]
          | apply true_and_res
          | apply true_at; [exact G|unfold fixed; lia]
          | apply true_bind; [first [apply stays_vec; [exact G|unfold fixed; lia]|apply stays_14; [exact G|lia]|apply stays_28; [exact G|lia]]|intros ? ?]
          | apply true_ok; intros; lia ].

  Lemma plain_stays n st : stays_true (plain_validate n st s) (plain_validate n st s').
  Proof. unfold plain_validate. repeat tstep. Qed.
  Lemma counted_stays n pos st : (12 <= pos)%nat -> stays_true (counted_validate n pos st s) (counted_validate n pos st s').
  Proof. intros P. unfold counted_validate. repeat tstep. Qed.
  Lemma range_stays n lo hi : stays_true (range_validate n lo hi s) (range_validate n lo hi s').
  Proof. unfold range_validate. repeat tstep. Qed.
  Lemma universal_stays : is_universal_sysex_message s = true -> is_universal_sysex_message s' = true.
  Proof. unfold is_universal_sysex_message. rewrite I. lia. Qed.
  Lemma typed_stays n st : 3 <= n -> stays_true (typed_validate n st s) (typed_validate n st s').
  Proof.
    intros N. unfold typed_validate, universal_sysex_type_of, universal_sysex_subtype_of, stays_true.
    destruct (is_universal_sysex_message s) eqn:U; [|discriminate]. rewrite (universal_stays U), I. cbn [andb].
    apply true_bind; [apply stays_bind; [apply stays_vec; [exact G|unfold fixed; lia]|intros; apply stays_refl]|intros t _].
    apply true_and; trivial. intros _. unfold stays_true.
    destruct (Z.ltb_spec 2 (size (sx_data s))) as [B|B].
    - rewrite (proj2 (Z.ltb_lt 2 (size (sx_data s')))) by lia.
      apply true_bind; [apply stays_vec; [exact G|unfold fixed; lia]|intros ? _]. repeat tstep.
    - cbn [bind]. unfold and_. destruct (0 =? st); [|discriminate]. intros Q. injection Q as Q. lia.
  Qed.
  Lemma specific_stays : stays_true (profile_specific_data_validate s) (profile_specific_data_validate s').
  Proof. unfold profile_specific_data_validate. repeat tstep. Qed.
  Lemma inquiry_reply_stays : stays_true (profile_inquiry_reply_validate s) (profile_inquiry_reply_validate s').
  Proof.
    unfold profile_inquiry_reply_validate, stays_true.
    assert (Q : stays_true (and_ (sx_id s =? universal_non_realtime) (and_ (16 <=? size (sx_data s)) (and_res (at_is s 1 13) (at_is s 2 33))))
      (and_ (sx_id s' =? universal_non_realtime) (and_ (16 <=? size (sx_data s')) (and_res (at_is s' 1 13) (at_is s' 2 33))))) by repeat tstep.
    destruct (and_ (sx_id s =? _) _) as [c|] eqn:E; [|discriminate]. destruct c; [|discriminate]. rewrite (Q eq_refl). cbn [bind].
    apply true_bind; [apply stays_14; [exact G|lia]|]. intros n N. apply make14_pos in N. unfold stays_true.
    destruct (Z.leb_spec (16 + n * 5) (size (sx_data s))) as [B|]; [|discriminate].
    rewrite (proj2 (Z.leb_le (16 + n * 5) (size (sx_data s')))) by lia.
    apply true_bind; [apply stays_14; [exact G|lia]|]. intros m _. apply true_ok. lia.
  Qed.
  Lemma property_stays : stays_true (property_data_validate s) (property_data_validate s').
  Proof.
    unfold property_data_validate, stays_true. rewrite I.
    destruct (sx_id s =? universal_non_realtime); [|discriminate]. cbn [negb].
    destruct (Z.ltb_spec (size (sx_data s)) 21) as [|B]; [discriminate|].
    rewrite (proj2 (Z.ltb_ge (size (sx_data s')) 21)) by lia.
    apply true_bind; [apply stays_vec; [exact G|unfold fixed; lia]|intros b1 _]. unfold stays_true.
    destruct (b1 =? 13); [|discriminate]. cbn [negb].
    apply true_bind; [apply stays_vec; [exact G|unfold fixed; lia]|intros st _]. unfold stays_true.
    destruct (st <? 52); [discriminate|]. destruct ((st <=? 57) || (st =? 63)); [|discriminate].
    apply true_bind; [apply stays_14; [exact G|lia]|intros h H]. apply make14_pos in H. unfold stays_true.
    destruct (Z.ltb_spec (size (sx_data s)) (15 + h + 6)) as [|C]; [discriminate|].
    rewrite (proj2 (Z.ltb_ge (size (sx_data s')) (15 + h + 6))) by lia.
    do 3 (apply true_bind; [apply stays_14; [exact G|lia]|intros ? ?]).
    repeat match goal with |- stays_true (if ?c then Ok false else _) _ => destruct c; [discriminate|] end.
    apply true_ok. lia.
  Qed.
  Lemma among_stays l : stays_true (and_res (property_data_validate s) (subtype_among l s))
    (and_res (property_data_validate s') (subtype_among l s')).
  Proof. apply true_and_res; [apply property_stays|]. unfold subtype_among. tstep. intros Q. exact Q. Qed.

  Lemma validate_stays k : stays_true (validate_of k s) (validate_of k s').
  Proof.
    destruct k; cbn [validate_of];
      try apply plain_stays; try (apply counted_stays; lia); try (apply typed_stays; lia); try apply range_stays;
      try apply specific_stays; try apply inquiry_reply_stays; try apply property_stays; try apply among_stays.
    - unfold discovery_inquiry_validate. repeat tstep.
    - unfold discovery_reply_validate. repeat tstep.
    - unfold nak_validate. apply true_and_res; [apply counted_stays; lia|]. repeat tstep.
    - unfold pe_capabilities_validate. apply true_and_res; [apply range_stays|]. repeat tstep.
  Qed.

  (* ---- accessors ----------------------------------------------------------------------------------- *)

  Lemma call_stays {A} (f : A -> field) r r' l l' : stays r r' -> stays l l' -> stays (call f r l) (call f r' l').
  Proof.
    intros P Q. unfold call. apply stays_bind; [exact P|intros ? _]. apply stays_bind; [exact Q|intros ? _; apply stays_refl].
  Qed.
  Lemma call_inv {A} (f : A -> field) r l ls : call f r l = Ok ls -> exists x l', r = Ok x /\ l = Ok l' /\ ls = f x :: l'.
  Proof.
    unfold call. destruct r as [x|]; [|discriminate]. cbn [bind]. destruct l as [l'|]; [|discriminate]. cbn [bind].
    intros H. exists x, l'. repeat split; trivial. congruence.
  Qed.
  Lemma version_stays {A} (f : Z -> sysex -> res A) : (forall v, stays (f v s) (f v s')) ->
    stays (v <- message_version s ;; f v s)%res (v <- message_version s' ;; f v s')%res.
  Proof.
    intros P. unfold message_version. apply stays_bind; [apply stays_vec; [exact G|unfold fixed; lia]|intros v _; apply P].
  Qed.

  Lemma offset_stays {A} (f : Z -> sysex -> res A) : (forall p, 14 <= p -> stays (f p s) (f p s')) ->
    stays (p <- offset_of_disabled_profiles s ;; f p s)%res (p <- offset_of_disabled_profiles s' ;; f p s')%res.
  Proof.
    intros P. apply stays_bind.
    - unfold offset_of_disabled_profiles. apply stays_bind; [apply stays_14; [exact G|lia]|intros; apply stays_refl].
    - intros p H. apply P. unfold offset_of_disabled_profiles in H. destruct (make_uint14 s 12) as [n|] eqn:E; [|discriminate].
      apply make14_pos in E. cbn [bind] in H. assert (p = 14 + n * 5) by congruence. lia.
  Qed.

  Ltac astep :=
    first [ apply stays_refl
          | apply stays_vec; [exact G|unfold fixed; lia]
          | apply stays_14; [exact G|lia] | apply stays_28; [exact G|lia] | apply stays_identity; [exact G|lia]
          | apply stays_bytes; [exact G|lia] | apply stays_make_profiles; [exact G|lia]
          | apply (offset_stays (fun p s => make_profiles _ s p)); intros ? ?
          | apply (offset_stays (fun p s => make_uint14 s (Z.to_nat p))); intros ? ?
          | apply stays_bind; [|intros ? ?]
          | match goal with |- stays (if ?c then _ else _) (if ?c then _ else _) => destruct c end ].
  Ltac unfold_fields :=
    unfold discovery_identity, discovery_categories, discovery_maximum_message_size, discovery_output_path_id,
      discovery_function_block, endpoint_inquiry_status, endpoint_reply_status, information_data, information_data_length,
      nack_transaction, nack_status_code, nack_status_data, nack_details, nack_message, nack_message_length, target_muid,
      has_enabled_profiles, num_enabled_profiles, num_disabled_profiles, enabled_profiles, disabled_profiles,
      view_profile, view_num_channels, details_inquiry_target, details_reply_target, target_data, target_data_length,
      specific_data, specific_data_size, maximum_number_of_requests, pe_version_major, pe_version_minor,
      request_id, header_data, number_of_chunks, number_of_this_chunk, chunk_data, chunk_size, header_size,
      supported_features, report_inquiry_data_control, report_inquiry_system, report_inquiry_controller, report_inquiry_note,
      report_reply_system, report_reply_controller, report_reply_note, message_version.

  Lemma has_disabled_stays : stays (has_disabled_profiles s) (has_disabled_profiles s').
  Proof.
    unfold has_disabled_profiles.
    apply (offset_stays (fun p s => a <- vec_at (sx_data s) (Z.to_nat p) ;; b <- vec_at (sx_data s) (Z.to_nat p + 1) ;;
      Ok (negb (Z.land (Z.lor a b) 127 =? 0)))%res). intros p P. repeat astep.
  Qed.

  (* all accessors but destination(), which looks at the device *)
  Lemma fields_stay dbg k : k <> KProfileDestination -> stays (read_fields dbg k s) (read_fields dbg k s').
  Proof.
    intros K. destruct k; try congruence; cbn [read_fields]; repeat apply call_stays; try apply has_disabled_stays;
      unfold_fields; repeat astep.
  Qed.

  Lemma device_fields dbg k dev' : view_device_id s' = Ok dev' -> forall l, read_fields dbg k s = Ok l ->
    read_fields dbg k s' = Ok (map (at_device dev') l).
  Proof.
    intros D l H. assert (P : k = KProfileDestination \/ k <> KProfileDestination) by (destruct k; auto; right; discriminate).
    destruct P as [->|K].
    - cbn [read_fields] in *. unfold call in *.
      assert (V : stays (view_profile s) (view_profile s')) by (unfold_fields; repeat astep).
      assert (N : stays (view_num_channels s) (view_num_channels s')) by (unfold_fields; repeat astep).
      unfold view_destination in *. rewrite D. destruct (view_profile s) as [p|]; [|discriminate]. rewrite (V p eq_refl).
      destruct (view_num_channels s) as [n|]; [|discriminate]. rewrite (N n eq_refl).
      destruct (view_device_id s) as [d|]; [|discriminate]. cbn [bind] in *. injection H as <-. reflexivity.
    - rewrite (fields_stay dbg k K l H). f_equal. symmetry. rewrite <- (map_id l) at 2. apply map_ext_in. intros f F.
      destruct f; trivial. exfalso. clear - K H F. revert H. destruct k; try congruence; cbn [read_fields]; intros H;
        repeat (apply call_inv in H; destruct H as (? & ? & _ & H & ->); cbn [In] in F; destruct F as [F|F]; [discriminate|]);
        injection H as <-; exact F.
  Qed.
End Grown.

(* ---- edits ----------------------------------------------------------------------------------------- *)

(* the device and the ids an edit leaves *)
Definition edited (s s' : sysex) (e : edit) : Prop :=
  view_device_id s' = match e with SetDevice i => Ok i | _ => view_device_id s end /\
  source_muid s' = match e with SetSource m => Ok m | _ => source_muid s end /\
  destination_muid s' = match e with SetDestination m => Ok m | _ => destination_muid s end.

Lemma header_shape s : 12 <= size (sx_data s) -> exists id a0 a1 a2 a3 a4 a5 a6 a7 a8 a9 a10 a11 t,
  s = mkSx id (a0 :: a1 :: a2 :: a3 :: a4 :: a5 :: a6 :: a7 :: a8 :: a9 :: a10 :: a11 :: t).
Proof.
  destruct s as [id d]. cbn [sx_data]. unfold size. intros H.
  do 12 (destruct d as [|? d]; [cbn in H; lia|]). repeat eexists.
Qed.
Lemma size_12 (t : list Z) a0 a1 a2 a3 a4 a5 a6 a7 a8 a9 a10 a11 :
  size (a0 :: a1 :: a2 :: a3 :: a4 :: a5 :: a6 :: a7 :: a8 :: a9 :: a10 :: a11 :: t) = 12 + size t /\ 0 <= size t.
Proof. unfold size. cbn [length]. lia. Qed.
Lemma muid_at id a0 a1 a2 a3 a4 a5 a6 a7 a8 a9 a10 a11 t :
  let s := mkSx id (a0 :: a1 :: a2 :: a3 :: a4 :: a5 :: a6 :: a7 :: a8 :: a9 :: a10 :: a11 :: t) in
  source_muid s = Ok (u32 (Z.lor (Z.lor (Z.lor a4 (Z.shiftl a5 7)) (Z.shiftl a6 14)) (Z.shiftl a7 21))) /\
  destination_muid s = Ok (u32 (Z.lor (Z.lor (Z.lor a8 (Z.shiftl a9 7)) (Z.shiftl a10 14)) (Z.shiftl a11 21))).
Proof.
  intros s. subst s. split.
  - exact (make28_at id [a0; a1; a2; a3] a4 a5 a6 a7 (a8 :: a9 :: a10 :: a11 :: t)).
  - exact (make28_at id [a0; a1; a2; a3; a4; a5; a6; a7] a8 a9 a10 a11 t).
Qed.

Lemma push_grown s d : grown s (push s d).
Proof.
  unfold grown, push. cbn [sx_id sx_data]. rewrite app_length. repeat split; [lia|]. intros n _ N. apply nth_error_app1. exact N.
Qed.
Lemma push_edited s d e : 12 <= size (sx_data s) ->
  match e with SetDevice _ | SetSource _ | SetDestination _ => False | _ => True end -> edited s (push s d) e.
Proof.
  intros H E. destruct (header_shape s H) as (id & a0 & a1 & a2 & a3 & a4 & a5 & a6 & a7 & a8 & a9 & a10 & a11 & t & ->).
  unfold edited, push. cbn [sx_id sx_data app].
  pose proof (muid_at id a0 a1 a2 a3 a4 a5 a6 a7 a8 a9 a10 a11 t) as (P & Q).
  pose proof (muid_at id a0 a1 a2 a3 a4 a5 a6 a7 a8 a9 a10 a11 (t ++ d)) as (P' & Q').
  rewrite P, Q, P', Q'. destruct e; try contradiction; repeat split.
Qed.

Lemma muid_join m : is_u28 m -> u32 (Z.lor (Z.lor (Z.lor (m mod 128) (Z.shiftl (m / 128 mod 128) 7))
  (Z.shiftl (m / 16384 mod 128) 14)) (Z.shiftl (m / 2097152 mod 128) 21)) = m.
Proof.
  intros M. unfold is_u28 in M. rewrite join4 by (unfold is_u7; apply Z.mod_pos_bound; lia). dlia.
Qed.

Lemma edit_ok dbg s e : 12 <= size (sx_data s) -> proper_edit e ->
  exists s', edit_message dbg s e = Ok s' /\ grown s s' /\ edited s s' e.
Proof.
  intros H E.
  assert (P : forall d, edit_message dbg s e = Ok (push s d) ->
    match e with SetDevice _ | SetSource _ | SetDestination _ => False | _ => True end ->
    exists s', edit_message dbg s e = Ok s' /\ grown s s' /\ edited s s' e).
  { intros d Q F. exists (push s d). split; trivial. split; [apply push_grown|apply push_edited; trivial]. }
  destruct e as [i|m|m|v|d|v|v|v|d|d]; cbn [edit_message proper_edit] in *;
    [destruct (header_shape s H) as (id & a0 & a1 & a2 & a3 & a4 & a5 & a6 & a7 & a8 & a9 & a10 & a11 & t & ->)..| | | | | | |].
  - clear P. unfold is_u7 in E. exists (mkSx id (i :: a1 :: a2 :: a3 :: a4 :: a5 :: a6 :: a7 :: a8 :: a9 :: a10 :: a11 :: t)).
    split; [|split].
    + unfold set_device_id. cbn [sx_data sx_id]. rewrite (check_true dbg true) by trivial. rewrite (check_true dbg (i <? 128)) by lia.
      cbn [bind vec_set]. rewrite digit0, Z.mod_small by lia. reflexivity.
    + unfold grown. cbn [sx_id sx_data length]. repeat split; [lia|]. intros n F _. destruct n; [unfold fixed in F; lia|reflexivity].
    + pose proof (muid_at id a0 a1 a2 a3 a4 a5 a6 a7 a8 a9 a10 a11 t) as (P & Q).
      pose proof (muid_at id i a1 a2 a3 a4 a5 a6 a7 a8 a9 a10 a11 t) as (P' & Q').
      unfold edited. rewrite P, Q, P', Q'. repeat split.
  - clear P. unfold is_u28 in E.
    exists (mkSx id (a0 :: a1 :: a2 :: a3 :: m mod 128 :: m / 128 mod 128 :: m / 16384 mod 128 :: m / 2097152 mod 128 :: a8 :: a9 :: a10 :: a11 :: t)).
    split; [|split].
    + unfold set_source_muid. rewrite (check_true dbg (m <=? 268435455)) by lia. cbn [sx_data sx_id bind vec_sets vec_set].
      rewrite digit0, !digit by lia. reflexivity.
    + unfold grown. cbn [sx_id sx_data length]. repeat split; [lia|]. intros n F _.
      do 12 (destruct n as [|n]; [unfold fixed in F; try lia; reflexivity|]). reflexivity.
    + pose proof (muid_at id a0 a1 a2 a3 a4 a5 a6 a7 a8 a9 a10 a11 t) as (P & Q).
      unfold edited. match goal with |- _ /\ source_muid (mkSx _ (_ :: _ :: _ :: _ :: ?b4 :: ?b5 :: ?b6 :: ?b7 :: _)) = _ /\ _ =>
        pose proof (muid_at id a0 a1 a2 a3 b4 b5 b6 b7 a8 a9 a10 a11 t) as (P' & Q') end.
      rewrite P', Q', Q, muid_join by (unfold is_u28; lia). repeat split.
  - clear P. unfold is_u28 in E.
    exists (mkSx id (a0 :: a1 :: a2 :: a3 :: a4 :: a5 :: a6 :: a7 :: m mod 128 :: m / 128 mod 128 :: m / 16384 mod 128 :: m / 2097152 mod 128 :: t)).
    split; [|split].
    + unfold set_destination_muid. rewrite (check_true dbg (m <=? 268435455)) by lia. cbn [sx_data sx_id bind vec_sets vec_set].
      rewrite digit0, !digit by lia. reflexivity.
    + unfold grown. cbn [sx_id sx_data length]. repeat split; [lia|]. intros n F _.
      do 12 (destruct n as [|n]; [unfold fixed in F; try lia; reflexivity|]). reflexivity.
    + pose proof (muid_at id a0 a1 a2 a3 a4 a5 a6 a7 a8 a9 a10 a11 t) as (P & Q).
      unfold edited. match goal with |- _ /\ source_muid (mkSx _ (_ :: _ :: _ :: _ :: _ :: _ :: _ :: _ :: ?b4 :: ?b5 :: ?b6 :: ?b7 :: _)) = _ /\ _ =>
        pose proof (muid_at id a0 a1 a2 a3 a4 a5 a6 a7 b4 b5 b6 b7 t) as (P' & Q') end.
      rewrite P', Q', P, muid_join by (unfold is_u28; lia). repeat split.
  - unfold is_u7 in E. apply (P [v mod 128]); trivial. apply add7_eq; lia.
  - apply (P d); trivial. unfold add_data. rewrite check_true; [reflexivity|]. destruct d; [congruence|reflexivity].
  - unfold is_u14 in E. apply (P (le7 2 v)); trivial. apply add14_eq; lia.
  - unfold is_u28 in E. apply (P (le7 4 v)); trivial. apply add28_eq; lia.
  - apply (P (le7 5 v)); trivial. apply add32_eq. exact E.
  - destruct d as [man f m r]. cbn [di_manufacturer di_family di_model di_revision] in *. destruct E as ((a & b & c & A & B & C & ->) & F & M & R).
    apply (P (identity_bytes a b c f m r)); trivial. apply add_identity_eq; trivial.
  - apply (P d); trivial.
Qed.

(* what a view tells after the edit *)
Lemma edit_reading dbg k s s' e r : 12 <= size (sx_data s) -> grown s s' -> edited s s' e ->
  read_view dbg k s = Ok r -> read_view dbg k s' = Ok (after_edit r e).
Proof.
  intros H G (D & S & T) R. unfold read_view in *.
  destruct (view_device_id s) as [dev|] eqn:Ed; [|discriminate]. cbn [bind] in R.
  destruct (view_type s) as [t|] eqn:Et; [|discriminate]. cbn [bind] in R.
  destruct (view_subtype s) as [st|] eqn:Es; [|discriminate]. cbn [bind] in R.
  destruct (message_version s) as [ver|] eqn:Ev; [|discriminate]. cbn [bind] in R.
  destruct (source_muid s) as [src|] eqn:Esrc; [|discriminate]. cbn [bind] in R.
  destruct (destination_muid s) as [dst|] eqn:Edst; [|discriminate]. cbn [bind] in R.
  destruct (read_fields dbg k s) as [l|] eqn:El; [|discriminate]. cbn [bind] in R.
  assert (R' : r = mkReading dev t st ver src dst l) by congruence. subst r. clear R.
  pose proof (size_le _ _ G) as L.
  assert (V1 : view_type s' = Ok t).
  { revert Et. unfold view_type. rewrite (proj1 G). revert t. apply stays_bind; [apply stays_vec; [exact G|unfold fixed; lia]|intros; apply stays_refl]. }
  assert (V2 : view_subtype s' = Ok st).
  { revert Es. unfold view_subtype. rewrite !(proj2 (Z.ltb_lt 2 _)) by lia. apply stays_vec; [exact G|unfold fixed; lia]. }
  assert (V3 : message_version s' = Ok ver) by (apply (stays_vec s s' 3 G); [unfold fixed; lia|exact Ev]).
  rewrite D, V1, V2, V3, S, T.
  assert (F : exists dev', view_device_id s' = Ok dev' /\ read_fields dbg k s' = Ok (map (at_device dev') l)).
  { destruct e; [exists i|exists dev..]; (split; [exact D|apply (device_fields s s' G _ _ _ D); exact El]). }
  assert (N : forall d, view_device_id s = Ok d -> map (at_device d) l = l).
  { intros d Hd. assert (Q := device_fields s s (conj eq_refl (conj (Nat.le_refl _) (fun _ _ _ => eq_refl))) dbg k d Hd l El). congruence. }
  destruct F as (dev' & F1 & F2). rewrite F2.
  destruct e; rewrite D in F1; injection F1 as <-; rewrite ?(N dev Ed); reflexivity.
Qed.

(* ---- the desk -------------------------------------------------------------------------------------- *)

Definition kept (s : sysex) : Prop := sx_id s = 0x7E0000 /\ 12 <= size (sx_data s) /\ vec_at (sx_data s) 1 = Ok 0x0D.
Definition desk_ok (d : desk) : Prop :=
  Forall kept (dk_messages d) /\
  forall k i, In (k, i) (dk_views d) -> exists s, nth_error (dk_messages d) i = Some s /\ validate_of k s = Ok true.

Lemma put_at_nth {A} (l : list A) : forall i j x, nth_error (put_at l i x) j =
  if Nat.eqb j i then match nth_error l i with Some _ => Some x | None => None end else nth_error l j.
Proof.
  induction l as [|h t IH]; intros [|i] [|j] x; cbn [put_at nth_error Nat.eqb]; trivial.
  all: try now destruct (Nat.eqb j i).
  all: apply IH.
Qed.
Lemma put_at_Forall {A} (P : A -> Prop) l : forall i x, Forall P l -> P x -> Forall P (put_at l i x).
Proof. induction l as [|h t IH]; intros [|i] x F Q; cbn [put_at]; trivial; inversion F; constructor; auto. Qed.

Lemma accepted_view dbg k s : validate_of k s = Ok true -> exists r, read_view dbg k s = Ok r.
Proof.
  intros V. destruct (accepted_safe dbg k s V) as (C & A). unfold read_view.
  destruct C as (C1 & C2 & C3 & C4 & C5 & C6).
  repeat match goal with H : reads ?f |- context [bind ?f _] => destruct H as [? H]; rewrite H; cbn [bind] end.
  enough (F : exists l, read_fields dbg k s = Ok l) by (destruct F as (l & ->); eexists; reflexivity).
  destruct k; cbn [accessors] in A; cbn [read_fields]; unfold call;
    unfold property_accessors in A;
    repeat match goal with H : _ /\ _ |- _ => destruct H end;
    repeat match goal with H : reads ?f |- context [bind ?f _] => destruct H as [? H]; rewrite H; cbn [bind] end;
    eexists; reflexivity.
Qed.

Lemma step_ok dbg d o : desk_ok d -> proper_op o ->
  exists d' out, desk_step dbg d o = Ok (d', out) /\ desk_ok d' /\
    forall k i s r v, nth_error (dk_views d) v = Some (k, i) -> nth_error (dk_messages d) i = Some s -> read_view dbg k s = Ok r ->
      nth_error (dk_views d') v = Some (k, i) /\
      exists s', nth_error (dk_messages d') i = Some s' /\ read_view dbg k s' = Ok (fold_left after_edit (edits_of i [o]) r).
Proof.
  intros (F & V) P. destruct o as [s|i e|k i|v|i s]; cbn [desk_step proper_op] in *; [| | | |contradiction].
  - (* Receive *)
    unfold is_capability_inquiry_message.
    assert (Q : exists b, and_ (sx_id s =? universal_non_realtime) (and_ (12 <=? size (sx_data s)) (at_is s 1 13)) = Ok b /\
      (b = true -> kept s)).
    { unfold and_. destruct (Z.eqb_spec (sx_id s) universal_non_realtime) as [A|]; [|exists false; split; [trivial|discriminate]].
      destruct (Z.leb_spec 12 (size (sx_data s))) as [B|]; [|exists false; split; [trivial|discriminate]].
      destruct (at_is_total s 1 13) as (b & E); [lia|]. exists b. split; trivial. intros ->.
      apply at_is_ok in E. repeat split; trivial. }
    destruct Q as (b & -> & K). cbn [bind]. eexists _, _. split; [reflexivity|]. destruct b.
    + split; [split|].
      * cbn [dk_messages]. apply Forall_app. split; trivial. constructor; [auto|constructor].
      * intros k i I. destruct (V k i I) as (s0 & N & A). exists s0. split; trivial. cbn [dk_messages]. rewrite nth_error_app1; trivial.
        apply nth_error_Some. congruence.
      * intros k i s0 r v N M R. split; [exact N|]. exists s0. split; [|exact R]. cbn [dk_messages]. rewrite nth_error_app1; trivial.
        apply nth_error_Some. congruence.
    + split; [split; trivial|]. intros k i s0 r v N M R. split; [exact N|]. exists s0. split; [exact M|exact R].
  - (* Edit *)
    destruct (nth_error (dk_messages d) i) as [s|] eqn:N.
    + assert (K : kept s) by (rewrite Forall_forall in F; apply F, (nth_error_In _ _ N)).
      destruct (edit_ok dbg s e (proj1 (proj2 K)) P) as (s' & E & G & D). rewrite E. cbn [bind].
      eexists _, _. split; [reflexivity|].
      assert (K' : kept s') by (pose proof (size_le _ _ G); destruct K as (K1 & K2 & K3); split; [rewrite (proj1 G); exact K1|split; [lia|apply (stays_vec _ _ 1 G); [unfold fixed; lia|exact K3]]]).
      split; [split|].
      * cbn [dk_messages]. apply put_at_Forall; trivial.
      * intros k j I. destruct (V k j I) as (s0 & M & A). cbn [dk_messages]. rewrite put_at_nth.
        destruct (Nat.eqb_spec j i) as [->|]; [|exists s0; auto]. rewrite N. exists s'. split; trivial.
        assert (s0 = s) by congruence. subst s0. apply (validate_stays s s' G k A).
      * intros k j s0 r v Q M R. split; [exact Q|]. cbn [dk_messages edits_of]. rewrite put_at_nth, (Nat.eqb_sym i j).
        destruct (Nat.eqb_spec j i) as [->|]; [|exists s0; auto]. rewrite N. exists s'. split; trivial.
        assert (s0 = s) by congruence. subst s0. cbn [fold_left]. apply (edit_reading dbg k s s' e r (proj1 (proj2 K)) G D R).
    + eexists _, _. split; [reflexivity|]. split; [split; trivial|]. intros k j s0 r v Q M R. split; [exact Q|].
      cbn [edits_of]. destruct (Nat.eqb_spec i j) as [->|]; [congruence|]. exists s0. auto.
  - (* View *)
    destruct (nth_error (dk_messages d) i) as [s|] eqn:N.
    + assert (K : kept s) by (rewrite Forall_forall in F; apply F, (nth_error_In _ _ N)).
      assert (B : exists b, validate_of k s = Ok b).
      { destruct (reads_version_first k) eqn:R; [|apply validate_total; trivial].
        destruct (validate_of k s) as [b|f] eqn:E; [exists b; trivial|]. exfalso.
        assert (Q : exists f, validate_of k s = Fault f) by (exists f; trivial). apply (discovery_fault k s R) in Q. destruct K as (_ & K & _). lia. }
      destruct B as (b & B).
      assert (A : exists v, as_view dbg (validate_of k) s = Ok v /\ (v = None \/ b = true)).
      { unfold as_view. rewrite B. cbn [bind]. destruct b; [|exists None; auto].
        destruct K as (K1 & K2 & K3). unfold ci_view, message_view, ci_validate, is_capability_inquiry_message.
        rewrite (check_true dbg) by (rewrite K1; reflexivity). rewrite (check_true dbg (2 <=? _)) by lia. cbn [bind].
        assert (C : at_is s 1 13 = Ok true) by (apply at_is_ok, K3).
        rewrite K1, (proj2 (Z.leb_le 12 _)) by lia. cbn [and_]. change (8257536 =? universal_non_realtime) with true. cbn [and_].
        rewrite C. destruct dbg; cbn [bind assert_]; eexists; split; try reflexivity; now right. }
      destruct A as (v & A & W). rewrite A. cbn [bind]. eexists _, _. split; [reflexivity|]. destruct v as [v|].
      * destruct W as [W|W]; [discriminate|]. subst b. split; [split; trivial|].
        -- cbn [dk_messages dk_views]. intros k' i' I. apply in_app_or in I. destruct I as [I|[I|[]]]; [apply V, I|].
           injection I as <- <-. exists s. auto.
        -- intros k' j s0 r v' Q M R. split; [|exists s0; auto]. cbn [dk_views]. rewrite nth_error_app1; trivial. apply nth_error_Some. congruence.
      * split; [split; trivial|]. intros k' j s0 r v' Q M R. split; [exact Q|exists s0; auto].
    + eexists _, _. split; [reflexivity|]. split; [split; trivial|]. intros k' j s0 r v' Q M R. split; [exact Q|exists s0; auto].
  - (* Look *)
    assert (L : exists r, look_at dbg d v = Ok r).
    { unfold look_at. destruct (nth_error (dk_views d) v) as [[k i]|] eqn:N; [|eexists; reflexivity].
      destruct (V k i (nth_error_In _ _ N)) as (s & M & A). rewrite M. destruct (accepted_view dbg k s A) as (r & ->). eexists; reflexivity. }
    destruct L as (r & ->). cbn [bind]. eexists _, _. split; [reflexivity|]. split; [split; trivial|].
    intros k j s0 r' v' Q M R. split; [exact Q|exists s0; auto].
Qed.

Lemma edits_app i l l' : edits_of i (l ++ l') = edits_of i l ++ edits_of i l'.
Proof.
  induction l as [|o l IH]; trivial. destruct o; cbn [app edits_of]; trivial. destruct (Nat.eqb _ _); rewrite IH; reflexivity.
Qed.

Lemma run_ok dbg l : forall d, desk_ok d -> Forall proper_op l ->
  exists d' out, desk_run dbg d l = Ok (d', out) /\ desk_ok d' /\
    forall k i s r v, nth_error (dk_views d) v = Some (k, i) -> nth_error (dk_messages d) i = Some s -> read_view dbg k s = Ok r ->
      nth_error (dk_views d') v = Some (k, i) /\
      exists s', nth_error (dk_messages d') i = Some s' /\ read_view dbg k s' = Ok (fold_left after_edit (edits_of i l) r).
Proof.
  induction l as [|o l IH]; intros d D F.
  - exists d, []. split; [reflexivity|]. split; trivial. intros k i s r v N M R. split; trivial. exists s. auto.
  - inversion F as [|? ? P F']. subst. destruct (step_ok dbg d o D P) as (d1 & o1 & E & D1 & S1).
    destruct (IH d1 D1 F') as (d2 & o2 & E2 & D2 & S2). exists d2, (o1 ++ o2). split; [|split; trivial].
    + cbn [desk_run]. rewrite E. cbn [bind fst snd]. rewrite E2. reflexivity.
    + intros k i s r v N M R. destruct (S1 k i s r v N M R) as (N1 & s1 & M1 & R1).
      destruct (S2 k i s1 _ v N1 M1 R1) as (N2 & s2 & M2 & R2). split; trivial. exists s2. split; trivial.
      change (o :: l) with ([o] ++ l). rewrite edits_app, fold_left_app. exact R2.
Qed.
Lemma empty_ok : desk_ok empty_desk.
Proof. split; [constructor|]. intros k i []. Qed.

Lemma desk_safe dbg l : Forall proper_op l -> exists d out, desk_run dbg empty_desk l = Ok (d, out).
Proof. intros F. destruct (run_ok dbg l _ empty_ok F) as (d & out & E & _). exists d, out. exact E. Qed.

Lemma desk_reads dbg before between d o v k i : Forall proper_op before -> Forall proper_op between ->
  desk_run dbg empty_desk before = Ok (d, o) -> nth_error (dk_views d) v = Some (k, i) ->
  exists r d' o', look_at dbg d v = Ok (Some r) /\ desk_run dbg d between = Ok (d', o') /\
    look_at dbg d' v = Ok (Some (fold_left after_edit (edits_of i between) r)).
Proof.
  intros F F' E N. destruct (run_ok dbg before _ empty_ok F) as (d0 & o0 & E0 & D & _).
  assert (d0 = d) by congruence. subst d0. destruct (proj2 D k i (nth_error_In _ _ N)) as (s & M & A).
  destruct (accepted_view dbg k s A) as (r & R). destruct (run_ok dbg between d D F') as (d' & o' & E' & D' & S).
  destruct (S k i s r v N M R) as (N' & s' & M' & R'). exists r, d', o'. unfold look_at. rewrite N, M, R, N', M', R'. auto.
Qed.

(* one message *)
Lemma edits_accepted dbg k s e : validate_of k s = Ok true -> proper_edit e ->
  exists s' r, edit_message dbg s e = Ok s' /\ validate_of k s' = Ok true /\
    read_view dbg k s = Ok r /\ read_view dbg k s' = Ok (after_edit r e).
Proof.
  intros A P. assert (L := accepted_size k s A). destruct (edit_ok dbg s e L P) as (s' & E & G & D).
  destruct (accepted_view dbg k s A) as (r & R). exists s', r. split; trivial. split; [apply (validate_stays s s' G k A)|].
  split; trivial. apply (edit_reading dbg k s s' e r L G D R).
Qed.

(* ---- what is told -------------------------------------------------------------------------------- *)

Lemma made_reading dbg c k : in_range c -> header_in_first_chunk c -> In k (kinds_of c) ->
  exists s, build dbg c = Ok s /\ validate_of k s = Ok true /\ read_view dbg k s = Ok (reading_of c k).
Proof.
  intros R F K. destruct (round_trip_ok dbg c R F) as (s & B & _ & H & A & X). exists s. split; [exact B|].
  split.
  { rewrite A. f_equal. apply existsb_exists. exists k. split; [exact K|]. now destruct k. }
  unfold header_fields in H. unfold read_view, reading_of. destruct (header_of c) as [[[[dev st] ver] src] dst] eqn:E.
  destruct H as (_ & _ & -> & -> & _ & -> & _ & -> & -> & ->). cbn [bind].
  enough (L : read_fields dbg k s = Ok (arguments_shown c k)) by now rewrite L.
  clear - K X. destruct c; cbn [kinds_of fields_of arguments_shown] in *;
    repeat match type of K with In _ (if ?b then _ else _) => destruct b end;
    repeat match type of K with In _ (_ :: _) => destruct K as [<-|K] | In _ [] => destruct K end;
    repeat match goal with |- context [if ?b then _ else _] => destruct b end;
    cbn [read_fields]; unfold call;
    repeat match goal with H : _ /\ _ |- _ => destruct H | H : ?a = Ok _ |- _ => rewrite H; clear H end; cbn [bind]; try reflexivity;
    match goal with d : profile_destination |- _ => destruct d; reflexivity end.
Qed.

Lemma desk_app dbg l : forall d l', desk_run dbg d (l ++ l') =
  (r <- desk_run dbg d l ;; r' <- desk_run dbg (fst r) l' ;; Ok (fst r', snd r ++ snd r'))%res.
Proof.
  induction l as [|op l IH]; intros d l'; cbn [app desk_run].
  - cbn [bind fst snd app]. now destruct (desk_run dbg d l') as [[]|].
  - destruct (desk_step dbg d op) as [[d1 o1]|]; [|reflexivity]. cbn [bind fst snd]. rewrite IH.
    destruct (desk_run dbg d1 l) as [[d2 o2]|]; [|reflexivity]. cbn [bind fst snd].
    destruct (desk_run dbg d2 l') as [[d3 o3]|]; [|reflexivity]. cbn [bind fst snd]. now rewrite app_assoc.
Qed.

(* a message is received, viewed at once, edited in any way and looked at *)
Lemma told dbg before c k i d o s : Forall proper_op before -> in_range c -> header_in_first_chunk c -> In k (kinds_of c) ->
  desk_run dbg empty_desk before = Ok (d, o) -> i = length (dk_messages d) -> build dbg c = Ok s -> forall between, Forall proper_op between ->
  exists d' o', desk_run dbg d (Receive s :: View k i :: between) = Ok (d', o') /\
    look_at dbg d' (length (dk_views d)) = Ok (Some (fold_left after_edit (edits_of i between) (reading_of c k))).
Proof.
  intros P R F K E -> B between Q.
  destruct (round_trip_ok dbg c R F) as (s' & B' & _ & H & _). assert (s' = s) as -> by congruence.
  destruct (made_reading dbg c k R F K) as (s' & B'' & V & L). assert (s' = s) as -> by congruence.
  assert (C : is_capability_inquiry_message s = Ok true).
  { unfold header_fields in H. destruct (header_of c) as [[[[dev st] ver] src] dst]. apply H. }
  set (n := length (dk_messages d)). set (d1 := mkDesk (dk_messages d ++ [s]) (dk_views d ++ [(k, n)])).
  assert (X : forall l, desk_run dbg d (Receive s :: View k n :: l) = (r' <- desk_run dbg d1 l ;; Ok (fst r', snd r'))%res).
  { intros l. cbn [desk_run desk_step]. rewrite C. cbn [bind fst snd dk_messages dk_views].
    rewrite nth_error_app2 by (unfold n; lia). replace (n - length (dk_messages d))%nat with 0%nat by (unfold n; lia). cbn [nth_error].
    assert (A : as_view dbg (validate_of k) s = Ok (Some s)).
    { unfold as_view. rewrite V. cbn [bind]. unfold ci_view, message_view, ci_validate.
      assert (W : sx_id s = 0x7E0000 /\ 12 <= size (sx_data s)).
      { clear - C. unfold is_capability_inquiry_message, and_ in C. destruct (Z.eqb_spec (sx_id s) universal_non_realtime) as [Y|]; [|discriminate].
        destruct (Z.leb_spec 12 (size (sx_data s))); [|discriminate]. split; assumption. }
      destruct W as [W1 W2]. rewrite (check_true dbg) by (rewrite W1; reflexivity). rewrite (check_true dbg (2 <=? _)) by lia. cbn [bind].
      rewrite C. destruct dbg; reflexivity. }
    rewrite A. cbn [bind fst snd app]. unfold d1. destruct (desk_run _ _ l); reflexivity. }
  assert (E1 : desk_run dbg empty_desk (before ++ [Receive s; View k n]) = Ok (d1, o)).
  { rewrite desk_app, E. cbn [bind fst snd]. rewrite X. cbn [desk_run bind fst snd]. now rewrite app_nil_r. }
  assert (P1 : Forall proper_op (before ++ [Receive s; View k n])) by (apply Forall_app; split; [exact P|repeat constructor]).
  destruct (desk_reads dbg _ between d1 o (length (dk_views d)) k n P1 Q E1) as (r & d' & o' & L1 & E2 & L2).
  { cbn. rewrite nth_error_app2 by lia. now rewrite Nat.sub_diag. }
  exists d', o'. split; [rewrite X, E2; reflexivity|]. rewrite L2. do 3 f_equal.
  unfold look_at in L1. cbn [dk_views d1] in L1. rewrite nth_error_app2 in L1 by lia. rewrite Nat.sub_diag in L1. cbn [nth_error dk_messages d1] in L1.
  rewrite nth_error_app2 in L1 by (unfold n; lia). replace (n - length (dk_messages d))%nat with 0%nat in L1 by (unfold n; lia).
  cbn [nth_error] in L1. rewrite L in L1. cbn [bind] in L1. congruence.
Qed.
