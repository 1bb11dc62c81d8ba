From Coq Require Import ZArith List Bool Lia ZifyBool ZifyNat.
From Verif Require Import Base Bits Packet PacketSpec Messages Types ChannelVoice VoiceSpec VoiceProofs VoiceGetters VoiceTranslate Translate TranslateSpec.
Import ListNotations.
Local Open Scope Z_scope.
Local Open Scope res_scope.

Lemma other_type p : wf_packet p -> ~ In (w0 p / 268435456) [2; 4] -> type p <> 2 /\ type p <> 4.
Proof.
  intros (W & _) H. assert (E : type p = w0 p / 268435456).
  { unfold type, u8, is_u32 in *. bitlia. }
  rewrite E. cbn [In] in H. split; intros X; apply H; rewrite X; auto.
Qed.

(* ---- histories --------------------------------------------------------------------------------- *)

Lemma said_app A g ch (a b : list (item A)) : said g ch (a ++ b) = said g ch a ++ said g ch b.
Proof. unfold said. now rewrite flat_map_app. Qed.
Definition here (g ch g' ch' : Z) : bool := (g' =? g) && (ch' =? ch).
Lemma said_map A g ch g' ch' (l : list A) : said g ch (map (Message g' ch') l) = if here g ch g' ch' then l else [].
Proof.
  induction l as [|m l IH]; cbn [map said flat_map]; fold (said (A := A)).
  - now destruct here.
  - change (flat_map _ ?x) with (said g ch x). fold (here g ch g' ch'). rewrite IH. now destruct here.
Qed.
Lemma said_ok A (ok : A -> Prop) g ch l : Forall (item_ok ok) l -> Forall ok (said g ch l).
Proof.
  induction 1 as [|x l H Hl IH]; [constructor|]. cbn [said flat_map]. apply Forall_app. split; [|exact IH].
  destruct x as [g' ch' m|p]; [|constructor]. destruct (_ && _); repeat constructor. apply H.
Qed.

Lemma controller_range n h v : Forall m1_ok h -> controller n h = Some v -> is_u7 v.
Proof.
  induction 1 as [|m h H Hh IH]; cbn [controller]; [discriminate|]. destruct m; try exact IH.
  destruct (_ =? _); [|exact IH]. intros E. injection E as <-. apply H.
Qed.
Lemma parameter1_range k b i h v : Forall m1_ok h -> parameter1 k b i h = Some v -> is_u14 v.
Proof.
  intros H. revert v. induction H as [|m h H Hh IH]; cbn [parameter1]; [discriminate|]. intros w. destruct m; try (exact (IH w)).
  cbn [m1_ok] in H. destruct (_ && _).
  - intros E. assert (w = 128 * v) as -> by congruence. unfold is_u7, is_u14 in *. lia.
  - destruct (_ && _); [|exact (IH w)]. intros E.
    assert (Ew : w = 128 * (match parameter1 k b i h with Some w => w / 128 | None => 0 end) + v) by congruence. clear E. subst w. destruct (parameter1 k b i h) as [u|].
    + specialize (IH u eq_refl). unfold is_u7, is_u14 in *. dlia.
    + unfold is_u7, is_u14 in *. lia.
Qed.

(* ---- from MIDI 1 to MIDI 2 ---------------------------------------------------------------------- *)

Definition six : list Z := [0; 32; 98; 99; 100; 101].
Record chan_inv (c : chan) (l1 : list m1msg) (l2 : list m2msg) : Prop := {
  ci_cc : forall n, In n six -> cn_cc c n = controller n l1;
  ci_kind : cn_kind c = kind_selected l1;
  ci_value : forall k b i, cn_value c k b i = match parameter1 k b i l1 with Some v => v | None => 0 end;
  ci_param : forall k b i, parameter2 k b i l2 = option_map (min_center_max 14 32) (parameter1 k b i l1);
  ci_bank : bank1 l1 = None -> bank2 l2 = None;
  ci_program : program2 l2 = program1 l1 }.

Lemma selected_applies c l1 l2 : chan_inv c l1 l2 -> forall k b i,
  applies k b i l1 = match selected_parameter c with Some (k', b', i') => eqb k k' && (b =? b') && (i =? i') | None => false end.
Proof.
  intros I k b i. unfold applies, selected_parameter. rewrite (ci_kind _ _ _ I).
  destruct (kind_selected l1) as [k'|]; [|reflexivity].
  rewrite !(ci_cc _ _ _ I) by (destruct k'; unfold six; cbn [In]; tauto).
  destruct k, k'; cbn [eqb andb]; repeat (destruct (controller _ l1) as [?|]; [|reflexivity]);
    match goal with |- context[if ?c then None else Some _] => destruct c eqn:E end; cbn [eqb andb]; lia.
Qed.
Lemma selected_range c l1 l2 k b i : chan_inv c l1 l2 -> Forall m1_ok l1 -> selected_parameter c = Some (k, b, i) -> is_u7 b /\ is_u7 i.
Proof.
  intros I O. unfold selected_parameter. destruct (cn_kind c) as [k'|]; [|discriminate].
  rewrite !(ci_cc _ _ _ I) by (destruct k'; unfold six; cbn [In]; tauto).
  destruct (controller _ l1) as [x|] eqn:E1; [|discriminate]. destruct (controller (if k' then 100 else 98) l1) as [y|] eqn:E2; [|discriminate].
  destruct (_ && _); [discriminate|]. intros E. injection E as <- <- <-. split; eapply controller_range; eauto.
Qed.
Lemma join7 m l : is_u7 m -> is_u7 l -> Z.lor (Z.shiftl m 7) l = 128 * m + l.
Proof. unfold is_u7. intros. bitlia. Qed.
Lemma shiftl7 m : Z.shiftl m 7 = 128 * m.
Proof. rewrite Z.shiftl_mul_pow2 by lia. lia. Qed.
Lemma selected_bank_ok c l1 l2 : chan_inv c l1 l2 -> Forall m1_ok l1 -> selected_bank c = bank1 l1.
Proof.
  intros I O. unfold selected_bank, bank1. rewrite !(ci_cc _ _ _ I) by (unfold six; cbn [In]; tauto).
  assert (is_u7 0) by (unfold is_u7; lia).
  destruct (controller 0 l1) as [m|] eqn:E1, (controller 32 l1) as [l|] eqn:E2; try reflexivity; f_equal;
    try (apply (controller_range _ _ _ O) in E1); try (apply (controller_range _ _ _ O) in E2);
    rewrite join7 by assumption; lia.
Qed.
Lemma bank1_range l v : Forall m1_ok l -> bank1 l = Some v -> is_u14 v.
Proof.
  intros O. unfold bank1. destruct (controller 0 l) as [m|] eqn:E1, (controller 32 l) as [w|] eqn:E2; intros E; try discriminate;
    (lazymatch type of E with Some ?a = _ => assert (v = a) as -> by congruence end); clear E;
    try (apply (controller_range _ _ _ O) in E1); try (apply (controller_range _ _ _ O) in E2); unfold is_u7, is_u14 in *; lia.
Qed.

Definition opt {A} (o : option A) : list A := match o with Some x => [x] | None => [] end.
Definition sparse2 (o : option m2msg) : option m2msg :=
  match o with Some (RegisteredCtrl _ _ _) | Some (AssignableCtrl _ _ _) | Some (ProgramChange2 _ _) => None | _ => o end.
Definition m2_fine (m : m2msg) : Prop := m2_ok m /\ match m with NoteOff2 _ _ a _ | NoteOn2 _ _ a _ => is_u7 a | _ => True end.

(* messages that say nothing of parameters and programs *)
Lemma chan_inv_same c l1 l2 m o : chan_inv c l1 l2 ->
  (forall n, In n six -> controller n (m :: l1) = controller n l1) -> kind_selected (m :: l1) = kind_selected l1 ->
  (forall k b i, parameter1 k b i (m :: l1) = parameter1 k b i l1) -> program1 (m :: l1) = program1 l1 ->
  sparse2 o = o -> chan_inv c (m :: l1) (opt o ++ l2).
Proof.
  intros [I1 I2 I3 I4 I5 I6] H1 H2 H3 H4 H5.
  assert (P : (forall k b i, parameter2 k b i (opt o ++ l2) = parameter2 k b i l2) /\ bank2 (opt o ++ l2) = bank2 l2 /\ program2 (opt o ++ l2) = program2 l2).
  { destruct o as [[]|]; cbn in *; auto; discriminate. }
  destruct P as (P1 & P2 & P3). constructor.
  - intros n Hn. now rewrite H1, I1.
  - now rewrite H2.
  - intros k b i. now rewrite H3.
  - intros k b i. now rewrite P1, H3.
  - unfold bank1 in *. rewrite !H1 by (unfold six; cbn [In]; tauto). now rewrite P2.
  - congruence.
Qed.

Lemma existsb_six n : existsb (Z.eqb n) six = true <-> In n six.
Proof.
  rewrite existsb_exists. split.
  - intros (x & H & E). apply Z.eqb_eq in E. now subst.
  - intros H. exists n. split; [exact H|apply Z.eqb_refl].
Qed.

Lemma up_message st g ch m l1 l2 : address g ch -> m1_ok m -> Forall m1_ok l1 -> chan_inv (st g ch) l1 l2 ->
  exists st' o, up_step st (layout1 g ch m) = Ok (st', map (layout2 g ch) (opt o)) /\
    (forall g' ch', here g ch g' ch' = false -> st' g' ch' = st g' ch') /\
    chan_inv (st' g ch) (m :: l1) (opt o ++ l2) /\ Forall m2_fine (opt o) /\ sparse2 o = sparse2 (translate_to_midi2 m).
Proof.
  intros HA Hm O I.
  destruct (midi1_view_ok g ch m HA Hm) as (V & _ & G & C & S & D1 & D2 & _).
  pose proof (to_midi2_layout g ch m HA Hm) as T. unfold to_midi2 in T. rewrite V in T.
  unfold up_step, up_step_with. rewrite V, G, C, S, D1, D2. cbv zeta.
  assert (Plain : sparse2 (translate_to_midi2 m) = translate_to_midi2 m -> (forall c v, m = ControlChange1 c v -> In c six \/ c = 6 \/ c = 38 -> False) ->
     (forall p, m <> ProgramChange1 p) ->
     exists st' o, (q <- as_midi2 (layout1 g ch m) ;; Ok (st, match q with Some q => [q] | None => [] end)) = Ok (st', map (layout2 g ch) (opt o)) /\
    (forall g' ch', here g ch g' ch' = false -> st' g' ch' = st g' ch') /\
    chan_inv (st' g ch) (m :: l1) (opt o ++ l2) /\ Forall m2_fine (opt o) /\ sparse2 o = sparse2 (translate_to_midi2 m)).
  { intros Sp N P. rewrite T. cbn [bind]. exists st, (translate_to_midi2 m). split.
    { now destruct (translate_to_midi2 m). }
    split; [reflexivity|]. split; [|split; [|reflexivity]].
    - apply chan_inv_same; try assumption.
      + intros n Hn. destruct m as [ | | |c v| | | ]; try reflexivity. cbn [controller].
        destruct (Z.eqb_spec c n) as [->|]; [|reflexivity]. exfalso. eapply N; [reflexivity|tauto].
      + destruct m as [ | | |c v| | | ]; try reflexivity. cbn [kind_selected].
        assert (X : ~ In c six) by (intros X; eapply N; [reflexivity|tauto]). unfold six in X. cbn [In] in X.
        destruct ((c =? 101) || (c =? 100)) eqn:E1; [lia|]. destruct ((c =? 99) || (c =? 98)) eqn:E2; [lia|reflexivity].
      + intros k b i. destruct m as [ | | |c v| | | ]; try reflexivity. cbn [parameter1].
        assert (X : c <> 6 /\ c <> 38) by (split; intros X; eapply N; eauto).
        destruct (c =? 6) eqn:E1; [lia|]. destruct (c =? 38) eqn:E2; [lia|reflexivity].
      + destruct m; try reflexivity. now specialize (P program).
    - destruct (translate_to_midi2 m) as [m2|] eqn:E; [|constructor]. constructor; [|constructor].
      split; [eapply translated_ok; eauto|]. destruct (translate_back m m2 Hm E) as [_ A]. exact A. }
  destruct m as [n v|n v|n v|nr v|p|v|v]; cbn [m1_kind m1_data fst snd] in *;
    unfold st_control_change, st_program_change; cbn [Z.eqb Pos.eqb].
  - apply Plain; [reflexivity| |]; discriminate.
  - apply Plain; [cbn; now destruct (v =? 0)| |]; discriminate.
  - apply Plain; [reflexivity| |]; discriminate.
  - destruct ((nr =? 6) || (nr =? 38)) eqn:E.
    + unfold data_entry. pose proof (selected_applies _ _ _ I) as A. cbn [m1_ok] in Hm. destruct Hm as [_ Hv].
      assert (Tr : translate_to_midi2 (ControlChange1 nr v) = None).
      { cbn [translate_to_midi2 reserved_controllers existsb]. destruct (nr =? 0), (nr =? 6), (nr =? 32), (nr =? 38); try reflexivity; discriminate. }
      rewrite Tr.
      assert (Six : ~ In nr six) by (unfold six; cbn [In]; lia).
      assert (Cc : forall n, In n six -> controller n (ControlChange1 nr v :: l1) = controller n l1).
      { intros n Hn. cbn [controller]. destruct (Z.eqb_spec nr n) as [->|]; [tauto|reflexivity]. }
      assert (Kc : kind_selected (ControlChange1 nr v :: l1) = kind_selected l1).
      { cbn [kind_selected]. destruct ((nr =? 101) || (nr =? 100)) eqn:E1; [lia|]. destruct ((nr =? 99) || (nr =? 98)) eqn:E2; [lia|reflexivity]. }
      destruct (selected_parameter (st g ch)) as [[[k b] i]|] eqn:Sel.
      * destruct (selected_range _ _ _ _ _ _ I O Sel) as [Hb Hi].
        set (w := if nr =? 6 then Z.shiftl v 7 else Z.lor (Z.shiftl (Z.shiftr (cn_value (st g ch) k b i) 7) 7) v).
        assert (Ew : w = if nr =? 6 then 128 * v else 128 * (match parameter1 k b i l1 with Some u => u / 128 | None => 0 end) + v).
        { subst w. destruct (nr =? 6); [now rewrite shiftl7|]. rewrite (ci_value _ _ _ I).
          assert (R : is_u7 (match parameter1 k b i l1 with Some u => u / 128 | None => 0 end)).
          { destruct (parameter1 k b i l1) as [u|] eqn:Eu; [|unfold is_u7; lia]. apply (parameter1_range _ _ _ _ _ O) in Eu. unfold is_u7, is_u14 in *. dlia. }
          replace (Z.shiftr (match parameter1 k b i l1 with Some u => u | None => 0 end) 7)
            with (match parameter1 k b i l1 with Some u => u / 128 | None => 0 end).
          2:{ destruct (parameter1 k b i l1); [|reflexivity]. rewrite Z.shiftr_div_pow2 by lia. reflexivity. }
          now rewrite join7. }
        assert (P1 : forall k' b' i', parameter1 k' b' i' (ControlChange1 nr v :: l1) =
          if eqb k' k && (b' =? b) && (i' =? i) then Some w else parameter1 k' b' i' l1).
        { intros k' b' i'. cbn [parameter1]. rewrite A, Ew.
          destruct (eqb k' k && (b' =? b) && (i' =? i)) eqn:Same.
          - destruct (Bool.eqb_spec k' k) as [->|]; [|discriminate]. cbn [andb] in Same.
            assert (b' = b) by lia. assert (i' = i) by lia. subst b' i'.
            destruct (nr =? 6) eqn:E6; cbn [andb]; [reflexivity|]. destruct (nr =? 38); [reflexivity|discriminate].
          - now rewrite !andb_false_r. }
        assert (Rw : is_u14 w).
        { eapply parameter1_range with (k := k) (b := b) (i := i) (h := ControlChange1 nr v :: l1).
          - constructor; [|exact O]. cbn [m1_ok]. split; [unfold is_u7; lia|exact Hv].
          - rewrite P1, eqb_reflx, !Z.eqb_refl. reflexivity. }
        unfold controller_of_uint14. rewrite (mcm_14_32 w Rw). cbn [bind fst snd].
        destruct HA as [Hg Hc]. destruct (mcm_14_32_range w Rw) as [Rx _].
        set (m2 := if k then RegisteredCtrl b i (min_center_max 14 32 w) else AssignableCtrl b i (min_center_max 14 32 w)).
        assert (Ok2 : m2_fine m2) by (subst m2; unfold m2_fine; destruct k; cbn [m2_ok]; auto).
        eexists; exists (Some m2). split; [|split; [|split; [|split]]].
        -- subst m2. destruct k.
           ++ rewrite mk2_rc by (assumption || split; assumption). reflexivity.
           ++ rewrite mk2_ac by (assumption || split; assumption). reflexivity.
        -- intros g' ch' H. unfold put_chan. unfold here in H. now rewrite H.
        -- unfold put_chan. rewrite !Z.eqb_refl. cbn [andb]. destruct I as [I1 I2 I3 I4 I5 I6].
           assert (Q2 : bank2 (opt (Some m2) ++ l2) = bank2 l2 /\ program2 (opt (Some m2) ++ l2) = program2 l2) by (subst m2; destruct k; split; reflexivity).
           destruct Q2 as [Qb Qp]. constructor; cbn [cn_cc cn_kind cn_value].
           ++ intros n Hn. now rewrite Cc, I1.
           ++ now rewrite Kc.
           ++ intros k' b' i'. rewrite P1. destruct (_ && _); [reflexivity|apply I3].
           ++ intros k' b' i'. rewrite P1. subst m2. destruct k; cbn [opt app parameter2].
              ** destruct k'; cbn [eqb andb]; [|apply I4]. rewrite (Z.eqb_sym b b'), (Z.eqb_sym i i').
                 destruct (_ && _); [reflexivity|apply I4].
              ** destruct k'; cbn [eqb negb andb]; [apply I4|]. rewrite (Z.eqb_sym b b'), (Z.eqb_sym i i').
                 destruct (_ && _); [reflexivity|apply I4].
           ++ unfold bank1. rewrite !Cc by (unfold six; cbn [In]; tauto). now rewrite Qb.
           ++ rewrite Qp. exact I6.
        -- repeat constructor; apply Ok2.
        -- subst m2. now destruct k.
      * cbn [bind fst snd]. eexists; exists None. split; [reflexivity|].
        split. { intros g' ch' H. unfold put_chan. unfold here in H. now rewrite H. }
        split; [|split; [constructor|reflexivity]].
        unfold put_chan. rewrite !Z.eqb_refl. cbn [andb]. apply chan_inv_same; try assumption; try reflexivity.
        intros k b i. cbn [parameter1]. rewrite A. now rewrite !andb_false_r.
    + fold six. destruct (existsb (Z.eqb nr) six) eqn:X.
      * apply existsb_six in X.
        eexists; exists None. split; [reflexivity|].
        split. { intros g' ch' H. unfold put_chan. unfold here in H. now rewrite H. }
        assert (Tr : translate_to_midi2 (ControlChange1 nr v) = None).
        { unfold six in X. cbn [In] in X. cbn [translate_to_midi2].
          repeat (destruct X as [<-|X]; [reflexivity|]). destruct X. }
        rewrite Tr. split; [|split; [constructor|reflexivity]].
        unfold put_chan. rewrite !Z.eqb_refl. cbn [andb opt app].
        pose proof I as [I1 I2 I3 I4 I5 I6]. 
        assert (P1 : forall k b i, parameter1 k b i (ControlChange1 nr v :: l1) = parameter1 k b i l1).
        { intros k b i. cbn [parameter1]. destruct (nr =? 6); [discriminate|]. destruct (nr =? 38); [discriminate|reflexivity]. }
        constructor; cbn [note_cc cn_cc cn_kind cn_value].
        -- intros n Hn. cbn [controller]. rewrite (Z.eqb_sym n nr). destruct (nr =? n); [reflexivity|now apply I1].
        -- cbn [kind_selected]. now rewrite I2.
        -- intros k b i. rewrite P1. apply I3.
        -- intros k b i. rewrite P1. apply I4.
        -- intros B. apply I5. revert B. unfold bank1. cbn [controller].
           destruct (nr =? 0), (nr =? 32), (controller 0 l1), (controller 32 l1); congruence.
        -- cbn [program1]. exact I6.
      * apply Plain.
        -- cbn. destruct ((nr =? 0) || _); reflexivity.
        -- intros c w Ec Hc. injection Ec as <- <-. destruct Hc as [Hc|Hc]; [|lia]. apply existsb_six in Hc. congruence.
        -- discriminate.
  - rewrite (selected_bank_ok _ _ _ I O). cbn [m1_ok] in Hm. destruct HA as [Hg Hc].
    exists st, (Some (ProgramChange2 p (bank1 l1))). split; [|split; [reflexivity|split; [|split]]].
    + destruct (bank1 l1) as [b|] eqn:B.
      * rewrite mk2_program_bank; [reflexivity|split; assumption|assumption|]. eapply bank1_range; eauto.
      * rewrite mk2_program; [reflexivity|split; assumption|assumption].
    + pose proof I as [I1 I2 I3 I4 I5 I6]. constructor; try assumption.
      * change (bank1 (ProgramChange1 p :: l1)) with (bank1 l1). cbn [opt app bank2]. intros B. rewrite B. now apply I5.
      * cbn [opt app program2 program1]. destruct (bank1 l1) as [b|] eqn:B; [reflexivity|]. now rewrite I5.
    + constructor; [|constructor]. split; [|exact Logic.I]. cbn [m2_ok]. split; [assumption|].
      destruct (bank1 l1) as [b|] eqn:B; [|exact Logic.I]. eapply bank1_range; eauto.
    + reflexivity.
  - apply Plain; [reflexivity| |]; discriminate.
  - apply Plain; [reflexivity| |]; discriminate.
Qed.

(* all channels *)
Definition all_inv (st : Z -> Z -> chan) (h1 : list (item m1msg)) (h2 : list (item m2msg)) : Prop :=
  forall g ch, chan_inv (st g ch) (said g ch h1) (said g ch h2).

Lemma new_inv : all_inv new_up [] [].
Proof. intros g ch. constructor; reflexivity. Qed.

Lemma here_true g ch g' ch' : here g ch g' ch' = true -> g' = g /\ ch' = ch.
Proof. unfold here. lia. Qed.
Lemma here_refl g ch : here g ch g ch = true.
Proof. unfold here. now rewrite !Z.eqb_refl. Qed.
Lemma here_sym g ch g' ch' : here g ch g' ch' = here g' ch' g ch.
Proof. unfold here. now rewrite (Z.eqb_sym g g'), (Z.eqb_sym ch ch'). Qed.
Lemma said_cons A g ch g' ch' (m : A) l : said g ch (Message g' ch' m :: l) = if here g ch g' ch' then m :: said g ch l else said g ch l.
Proof. cbn [said flat_map]. fold (here g ch g' ch'). now destruct here. Qed.

Definition item_out (x : item m1msg) (ys : list (item m2msg)) : Prop :=
  match x with
  | Message g ch m => exists o, ys = map (Message g ch) (opt o) /\ Forall m2_fine (opt o) /\ sparse2 o = sparse2 (translate_to_midi2 m)
  | Other p => ys = [Other p]
  end.

Lemma up_item st x h1 h2 : item_ok m1_ok x -> Forall (item_ok m1_ok) h1 -> all_inv st h1 h2 ->
  exists st' ys, up_step st (item_packet layout1 x) = Ok (st', map (item_packet layout2) ys) /\
    all_inv st' (x :: h1) (rev ys ++ h2) /\ item_out x ys.
Proof.
  intros Hx O I. destruct x as [g ch m|p].
  - destruct Hx as [HA Hm]. destruct (up_message st g ch m _ _ HA Hm (said_ok _ _ g ch _ O) (I g ch)) as (st' & o & E & Far & Near & F & Sp).
    exists st', (map (Message g ch) (opt o)). cbn [item_packet]. split; [|split].
    + rewrite E. now rewrite map_map.
    + intros g' ch'. rewrite said_cons, said_app.
      replace (rev (map (Message g ch) (opt o))) with (map (Message g ch) (opt o)) by (now destruct o).
      rewrite said_map. rewrite here_sym. destruct (here g ch g' ch') eqn:H.
      * apply here_true in H as [-> ->]. exact Near.
      * rewrite Far by exact H. apply I.
    + exists o. auto.
  - destruct Hx as [W H]. destruct (other_type p W H) as [T _].
    exists st, [Other p]. split; [|split; [|reflexivity]].
    + unfold up_step, up_step_with, as_midi1_view, is_midi1_channel_voice_message, item_packet, pt_midi1_channel_voice.
      destruct (type p =? 2) eqn:E; [lia|reflexivity].
    + intros g ch. apply I.
Qed.

Definition plainly (l : list (item m2msg)) := filter plain2 l.
Lemma item_out_ok x ys : item_ok m1_ok x -> item_out x ys ->
  Forall item2_ok ys /\ plainly ys = plainly (each translate_to_midi2 [x]).
Proof.
  destruct x as [g ch m|p]; cbn [item_out].
  - intros [HA Hm] (o & -> & F & S). split.
    + destruct o as [m2|]; [|constructor]. inversion F; subst. constructor; [|constructor]. split; assumption.
    + unfold plainly, each. cbn [flat_map]. rewrite app_nil_r.
      assert (Q : forall o, filter plain2 (map (Message g ch) (opt o)) = map (Message g ch) (opt (sparse2 o))).
      { intros [[]|]; reflexivity. }
      rewrite Q, S, <- Q. now destruct (translate_to_midi2 m).
  - intros H ->. split; [|reflexivity]. repeat constructor; apply H.
Qed.

Lemma up_run_items xs : forall st h1 h2, Forall (item_ok m1_ok) xs -> Forall (item_ok m1_ok) h1 -> all_inv st h1 h2 ->
  exists st' ys, up_run st (map (item_packet layout1) xs) = Ok (st', map (item_packet layout2) ys) /\
    all_inv st' (rev xs ++ h1) (rev ys ++ h2) /\ Forall item2_ok ys /\ plainly ys = plainly (each translate_to_midi2 xs).
Proof.
  induction xs as [|x xs IH]; intros st h1 h2 H O I.
  - exists st, []. split; [reflexivity|]. split; [exact I|]. split; [constructor|reflexivity].
  - inversion H as [|? ? Hx Hxs]; subst.
    destruct (up_item st x h1 h2 Hx O I) as (st1 & ys1 & E1 & I1 & O1).
    destruct (item_out_ok x ys1 Hx O1) as [K1 P1].
    destruct (IH st1 (x :: h1) (rev ys1 ++ h2) Hxs (Forall_cons _ Hx O) I1) as (st2 & ys2 & E2 & I2 & K2 & P2).
    exists st2, (ys1 ++ ys2). split; [|split; [|split]].
    + unfold up_run in *. cbn [map up_run_with]. rewrite E1. cbn [bind fst]. rewrite E2. cbn [bind fst snd]. now rewrite map_app.
    + cbn [rev]. rewrite rev_app_distr, <- !app_assoc. exact I2.
    + apply Forall_app. split; assumption.
    + unfold plainly in *. rewrite filter_app, P1, P2, <- filter_app. f_equal. unfold each. cbn [flat_map]. now rewrite app_nil_r.
Qed.

Lemma up_holds xs : Forall (item_ok m1_ok) xs ->
  exists st ys, up_run new_up (map (item_packet layout1) xs) = Ok (st, map (item_packet layout2) ys) /\ Forall item2_ok ys /\
    (forall g ch k b i, parameter2 k b i (said g ch (rev ys)) = option_map (min_center_max 14 32) (parameter1 k b i (said g ch (rev xs)))) /\
    (forall g ch, program2 (said g ch (rev ys)) = program1 (said g ch (rev xs))) /\
    filter plain2 ys = filter plain2 (each translate_to_midi2 xs).
Proof.
  intros H. destruct (up_run_items xs new_up [] [] H (Forall_nil _) new_inv) as (st & ys & E & I & K & P).
  rewrite !app_nil_r in I. exists st, ys. split; [exact E|]. split; [exact K|]. split; [|split; [|exact P]].
  - intros. apply (ci_param _ _ _ (I g ch)).
  - intros. apply (ci_program _ _ _ (I g ch)).
Qed.

(* ---- from MIDI 2 to MIDI 1 ---------------------------------------------------------------------- *)

Definition down_msg (m : m2msg) : list m1msg :=
  match m with
  | RegisteredCtrl b i v => [ControlChange1 101 b; ControlChange1 100 i; ControlChange1 6 (v / 33554432); ControlChange1 38 (v / 262144 mod 128)]
  | AssignableCtrl b i v => [ControlChange1 99 b; ControlChange1 98 i; ControlChange1 6 (v / 33554432); ControlChange1 38 (v / 262144 mod 128)]
  | ProgramChange2 p (Some b) => [ControlChange1 0 (b / 128); ControlChange1 32 (b mod 128); ProgramChange1 p]
  | _ => opt (translate_to_midi1 m)
  end.
Definition down_item (x : item m2msg) : list (item m1msg) :=
  match x with Message g ch m => map (Message g ch) (down_msg m) | Other p => [Other p] end.

Lemma down_cc_layout g ch n v : address g ch -> is_u7 n -> is_u7 v -> down_cc g ch n v = layout1 g ch (ControlChange1 n v).
Proof.
  intros HA Hn Hv. unfold down_cc, controller_of_uint7. rewrite mcm_7_32 by assumption.
  destruct (mcm_7_32_range v Hv) as [R E]. destruct HA. rewrite mk1_cc by (assumption || split; assumption). now rewrite E.
Qed.

Lemma down_message g ch m : address g ch -> m2_fine m -> down_step (layout2 g ch m) = map (layout1 g ch) (down_msg m).
Proof.
  intros HA [Hm H7]. destruct (midi2_view_ok g ch m HA Hm) as (V & _ & G & C & S & D).
  pose proof (as_midi1_layout g ch m HA Hm H7) as T. pose proof (layout2_view g ch m HA Hm) as W.
  assert (E3 : m2_byte3 (layout2 g ch m) = Z.land (fst (fst (m2_fields m))) 127) by (unfold m2_byte3; now rewrite (v2_byte3 _ _ _ _ _ _ _ W)).
  assert (E4 : m2_byte4 (layout2 g ch m) = Z.land (snd (fst (m2_fields m))) 127) by (unfold m2_byte4; now rewrite (v2_byte4 _ _ _ _ _ _ _ W)).
  unfold down_step. rewrite V, G, C, S, D, E3, E4. cbv zeta.
  assert (U14 : forall v, is_u32 v -> controller_as_uint14 v = v / 262144).
  { intros v Hv. exact (proj1 (pb14 v Hv)). }
  assert (Plain : match as_midi1 (layout2 g ch m) with Some q => [q] | None => [] end = map (layout1 g ch) (opt (translate_to_midi1 m))).
  { rewrite T. now destruct (translate_to_midi1 m). }
  assert (N : forall n, 0 <= n < 128 -> is_u7 n) by (unfold is_u7; lia).
  unfold st_registered_controller, st_assignable_controller, st_program_change.
  destruct m as [n i v|n i v|b i v|b i v|b i v|b i v|n v|n v a d|n v a d|n v|n v|n bk|v|v|n f];
    cbn [m2_kind m2_fields fst snd m2_ok Z.eqb Pos.eqb andb] in *; try exact Plain.
  - destruct Hm as (Hb & Hi & Hv). rewrite !land127, U14 by assumption.
    replace (Z.shiftr (v / 262144) 7) with (v / 33554432) by (unfold is_u32 in *; bitlia).
    replace (Z.land (v / 262144) 127) with (v / 262144 mod 128) by (unfold is_u32 in *; bitlia).
    cbn [down_msg map]. rewrite !down_cc_layout; try assumption; try reflexivity; apply N; unfold is_u32 in *; try lia; dlia.
  - destruct Hm as (Hb & Hi & Hv). rewrite !land127, U14 by assumption.
    replace (Z.shiftr (v / 262144) 7) with (v / 33554432) by (unfold is_u32 in *; bitlia).
    replace (Z.land (v / 262144) 127) with (v / 262144 mod 128) by (unfold is_u32 in *; bitlia).
    cbn [down_msg map]. rewrite !down_cc_layout; try assumption; try reflexivity; apply N; unfold is_u32 in *; try lia; dlia.
  - destruct bk as [b|]; cbn [fst snd] in *; [|exact Plain].
    destruct Hm as [Hn Hb]. change (negb (Z.land (Z.land 1 127) 1 =? 0)) with true. cbv iota.
    replace (Z.land (Z.shiftr (n * 16777216 + b / 128 * 256 + b mod 128) 8) 127) with (b / 128) by (unfold is_u7, is_u14 in *; bitlia).
    replace (Z.land (n * 16777216 + b / 128 * 256 + b mod 128) 127) with (b mod 128) by (unfold is_u7, is_u14 in *; bitlia).
    assert (P : get_program_value (layout2 g ch (ProgramChange2 n (Some b))) = n).
    { unfold get_program_value. rewrite (v2_type _ _ _ _ _ _ _ W). cbn [Z.eqb Pos.eqb pt_midi1_channel_voice pt_midi2_channel_voice].
      rewrite (v2_data _ _ _ _ _ _ _ W). cbn [m2_fields snd]. unfold is_u7, is_u14, u8 in *. bitlia. }
    rewrite P. destruct HA as [Hg Hc]. rewrite mk1_program by (assumption || split; assumption).
    cbn [down_msg map]. rewrite !down_cc_layout; try (split; assumption); try reflexivity; apply N; unfold is_u14 in *; try lia; dlia.
Qed.

Lemma down_item_ok x : item2_ok x -> down_step (item_packet layout2 x) = map (item_packet layout1) (down_item x).
Proof.
  destruct x as [g ch m|p].
  - intros [HA Hm]. cbn [item_packet down_item]. rewrite (down_message g ch m HA Hm). now rewrite map_map.
  - intros [W H]. destruct (other_type p W H) as [_ T].
    unfold down_step, as_midi2_view, is_midi2_channel_voice_message, item_packet, pt_midi2_channel_voice.
    destruct (type p =? 4) eqn:E; [lia|reflexivity].
Qed.
Lemma down_run_items ys : Forall item2_ok ys -> down_run (map (item_packet layout2) ys) = map (item_packet layout1) (flat_map down_item ys).
Proof.
  induction 1 as [|x ys H Hy IH]; [reflexivity|]. unfold down_run in *. cbn [map flat_map].
  now rewrite IH, (down_item_ok x H), map_app.
Qed.

Lemma translated1_ok m m1 : m2_ok m -> translate_to_midi1 m = Some m1 -> m1_ok m1.
Proof.
  intros H E. destruct m as [n i v|n i v|b i v|b i v|b i v|b i v|n v|n v a d|n v a d|n v|n v|n bk|v|v|n f]; cbn [translate_to_midi1 m2_ok] in *; try discriminate.
  - destruct a; try discriminate. injection E as <-. cbn [m1_ok]. unfold is_u7, is_u16 in *. split; dlia.
  - destruct a; try discriminate. injection E as <-. cbn [m1_ok]. unfold is_u7, is_u16 in *. split; dlia.
  - injection E as <-. cbn [m1_ok]. unfold is_u7, is_u32 in *. split; dlia.
  - destruct (existsb _ _); [discriminate|]. injection E as <-. cbn [m1_ok]. unfold is_u7, is_u32 in *. split; dlia.
  - destruct bk; [discriminate|]. injection E as <-. cbn [m1_ok]. tauto.
  - injection E as <-. cbn [m1_ok]. unfold is_u7, is_u32 in *. dlia.
  - injection E as <-. cbn [m1_ok]. unfold is_u14, is_u32 in *. dlia.
Qed.
Lemma down_msg_ok m : m2_ok m -> Forall m1_ok (down_msg m).
Proof.
  intros H. assert (P : Forall m1_ok (opt (translate_to_midi1 m))).
  { destruct (translate_to_midi1 m) eqn:E; [|constructor]. constructor; [|constructor]. eapply translated1_ok; eauto. }
  destruct m as [n i v|n i v|b i v|b i v|b i v|b i v|n v|n v a d|n v a d|n v|n v|n bk|v|v|n f]; try exact P.
  - cbn [down_msg m2_ok] in *. repeat (apply Forall_cons; [cbn [m1_ok]; unfold is_u7, is_u32 in *; split; dlia|]). constructor.
  - cbn [down_msg m2_ok] in *. repeat (apply Forall_cons; [cbn [m1_ok]; unfold is_u7, is_u32 in *; split; dlia|]). constructor.
  - destruct bk as [b|]; [|exact P]. cbn [down_msg m2_ok] in *.
    do 2 (apply Forall_cons; [cbn [m1_ok]; unfold is_u7, is_u14 in *; split; dlia|]). constructor; [|constructor]. cbn [m1_ok]. tauto.
Qed.

(* the messages of a channel, latest first, one by one *)
Definition down_said (l : list m2msg) : list m1msg := flat_map (fun m => rev (down_msg m)) l.
Lemma rev_flat_map A B (f : A -> list B) l : rev (flat_map f l) = flat_map (fun x => rev (f x)) (rev l).
Proof.
  induction l as [|x l IH]; [reflexivity|]. cbn [flat_map rev]. rewrite rev_app_distr, IH, flat_map_app. cbn [flat_map]. now rewrite app_nil_r.
Qed.
Lemma said_down g ch ys : said g ch (rev (flat_map down_item ys)) = down_said (said g ch (rev ys)).
Proof.
  rewrite rev_flat_map. induction (rev ys) as [|x l IH]; [reflexivity|]. cbn [flat_map]. rewrite said_app, IH. destruct x as [g' ch' m|p].
  - cbn [down_item]. rewrite <- map_rev, said_map, said_cons. destruct here; [|reflexivity]. reflexivity.
  - reflexivity.
Qed.

(* what a translated message leaves alone *)
Lemma plain_same m m1 l : translate_to_midi1 m = Some m1 -> (forall p, m1 <> ProgramChange1 p) ->
  (forall n, In n reserved_controllers -> controller n (m1 :: l) = controller n l) /\ kind_selected (m1 :: l) = kind_selected l /\
  (forall k b i, parameter1 k b i (m1 :: l) = parameter1 k b i l) /\ program1 (m1 :: l) = program1 l.
Proof.
  intros E P. destruct m1 as [n v|n v|n v|n v|p|v|v]; try (repeat split; reflexivity).
  - assert (X : existsb (Z.eqb n) reserved_controllers = false).
    { destruct m as [| | | | | | |? ? a ?|? ? a ?| |c w|? bk| | |]; cbn [translate_to_midi1] in E; try discriminate; try (destruct a; discriminate).
      - destruct (existsb (Z.eqb c) reserved_controllers) eqn:X; [discriminate|]. injection E as <- _. exact X.
      - destruct bk; discriminate. }
    cbn [reserved_controllers existsb] in X. repeat split.
    + intros c Hc. cbn [controller]. destruct (Z.eqb_spec n c) as [->|]; [|reflexivity]. exfalso.
      cbn [reserved_controllers In] in Hc. lia.
    + cbn [kind_selected]. destruct ((n =? 101) || (n =? 100)) eqn:E1; [lia|]. destruct ((n =? 99) || (n =? 98)) eqn:E2; [lia|reflexivity].
    + intros k b i. cbn [parameter1]. destruct (n =? 6) eqn:E1; [lia|]. destruct (n =? 38) eqn:E2; [lia|reflexivity].
  - now destruct (P p).
Qed.

Definition null (b i : Z) : bool := (b =? 127) && (i =? 127).
Lemma down_history l : Forall m2_fine l ->
  (forall k b i, parameter1 k b i (down_said l) = if null b i then None else option_map (fun v => v / 262144) (parameter2 k b i l)) /\
  bank1 (down_said l) = bank2 l /\ program1 (down_said l) = program2 l.
Proof.
  induction 1 as [|m l [Hm _] Hl (I1 & I2 & I3)].
  { split; [|split; reflexivity]. intros k b i. cbn. now destruct null. }
  assert (Plain : down_msg m = opt (translate_to_midi1 m) -> (forall p, translate_to_midi1 m <> Some (ProgramChange1 p)) ->
     (forall k b i, parameter2 k b i (m :: l) = parameter2 k b i l) -> bank2 (m :: l) = bank2 l -> program2 (m :: l) = program2 l ->
    (forall k b i, parameter1 k b i (down_said (m :: l)) = if null b i then None else option_map (fun v => v / 262144) (parameter2 k b i (m :: l))) /\
    bank1 (down_said (m :: l)) = bank2 (m :: l) /\ program1 (down_said (m :: l)) = program2 (m :: l)).
  { intros E NP P2 B2 G2. unfold down_said. cbn [flat_map]. fold (down_said l). rewrite E.
    destruct (translate_to_midi1 m) as [m1|] eqn:T; cbn [opt rev app].
    - destruct (plain_same m m1 (down_said l) T) as (C & K & Pm & Pg); [intros p ->; now apply (NP p)|].
      split; [|split].
      + intros k b i. now rewrite Pm, P2.
      + unfold bank1 in *. rewrite !C by (cbn [reserved_controllers In]; tauto). now rewrite B2.
      + now rewrite Pg, G2.
    - split; [|split]; [intros; now rewrite P2|now rewrite B2|now rewrite G2]. }
  assert (Entry : forall k b i v k' b' i', is_u32 v ->
    let h := rev [ControlChange1 (if k : bool then 101 else 99) b; ControlChange1 (if k then 100 else 98) i; ControlChange1 6 (v / 33554432);
                  ControlChange1 38 (v / 262144 mod 128)] ++ down_said l in
    parameter1 k' b' i' h = (if eqb k' k && (b' =? b) && (i' =? i) && negb (null b i) then Some (v / 262144) else parameter1 k' b' i' (down_said l)) /\
    bank1 h = bank1 (down_said l) /\ program1 h = program1 (down_said l)).
  { intros k b i v k' b' i' Hv. cbn [rev app]. cbv zeta. split; [|split; [destruct k; reflexivity|destruct k; reflexivity]].
    set (t := ControlChange1 (if k then 100 else 98) i :: ControlChange1 (if k then 101 else 99) b :: down_said l).
    assert (A : applies k' b' i' t = eqb k' k && (b' =? b) && (i' =? i) && negb (null b i)).
    { subst t. unfold applies, null. destruct k, k'; cbn [kind_selected controller Z.eqb Pos.eqb orb eqb andb];
        try reflexivity; destruct (b' =? b) eqn:Eb; destruct (i' =? i) eqn:Ei; cbn [andb]; try reflexivity; lia. }
    assert (A6 : applies k' b' i' (ControlChange1 6 (v / 33554432) :: t) = applies k' b' i' t) by (unfold applies; destruct k'; reflexivity).
    assert (Pt : parameter1 k' b' i' t = parameter1 k' b' i' (down_said l)) by (subst t; destruct k; reflexivity).
    cbn [parameter1 Z.eqb Pos.eqb andb]. rewrite A6, A, Pt.
    destruct (_ && negb _); [|reflexivity]. f_equal. unfold is_u32 in Hv. dlia. }
  destruct m as [n i v|n i v|b i v|b i v|b i v|b i v|n v|n v a d|n v a d|n v|n v|n bk|v|v|n f].
  - apply Plain; reflexivity || discriminate.
  - apply Plain; reflexivity || discriminate.
  - cbn [m2_ok] in Hm. unfold down_said. cbn [flat_map down_msg]. fold (down_said l).
    split; [|split].
    + intros k' b' i'. destruct (Entry true b i v k' b' i') as (-> & _); [apply Hm|]. cbn [parameter2]. rewrite I1.
      rewrite (Z.eqb_sym b b'), (Z.eqb_sym i i'). unfold null.
      destruct k'; cbn [eqb andb]; [|reflexivity].
      destruct (b' =? b) eqn:Eb; cbn [andb]; [|reflexivity]. destruct (i' =? i) eqn:Ei; cbn [andb]; [|reflexivity].
      assert (b' = b) by lia. assert (i' = i) by lia. subst. destruct ((b =? 127) && (i =? 127)); reflexivity.
    + destruct (Entry true b i v true 0 0) as (_ & -> & _); [apply Hm|exact I2].
    + destruct (Entry true b i v true 0 0) as (_ & _ & ->); [apply Hm|exact I3].
  - cbn [m2_ok] in Hm. unfold down_said. cbn [flat_map down_msg]. fold (down_said l).
    split; [|split].
    + intros k' b' i'. destruct (Entry false b i v k' b' i') as (-> & _); [apply Hm|]. cbn [parameter2]. rewrite I1.
      rewrite (Z.eqb_sym b b'), (Z.eqb_sym i i'). unfold null.
      destruct k'; cbn [eqb negb andb]; [reflexivity|].
      destruct (b' =? b) eqn:Eb; cbn [andb]; [|reflexivity]. destruct (i' =? i) eqn:Ei; cbn [andb]; [|reflexivity].
      assert (b' = b) by lia. assert (i' = i) by lia. subst. destruct ((b =? 127) && (i =? 127)); reflexivity.
    + destruct (Entry false b i v true 0 0) as (_ & -> & _); [apply Hm|exact I2].
    + destruct (Entry false b i v true 0 0) as (_ & _ & ->); [apply Hm|exact I3].
  - apply Plain; reflexivity || discriminate.
  - apply Plain; reflexivity || discriminate.
  - apply Plain; reflexivity || discriminate.
  - apply Plain; try reflexivity. cbn. destruct a; discriminate.
  - apply Plain; try reflexivity. cbn. destruct a; discriminate.
  - apply Plain; reflexivity || discriminate.
  - apply Plain; try reflexivity. cbn [translate_to_midi1]. destruct (existsb _ _); discriminate.
  - destruct bk as [b|].
    + cbn [m2_ok] in Hm. unfold down_said. cbn [flat_map down_msg rev app]. fold (down_said l). split; [|split].
      * intros k b' i'. cbn [parameter1 Z.eqb Pos.eqb andb parameter2]. apply I1.
      * unfold bank1. cbn [controller Z.eqb Pos.eqb bank2]. f_equal. unfold is_u14 in *. dlia.
      * cbn [program1 program2]. unfold bank1. cbn [controller Z.eqb Pos.eqb]. repeat f_equal. unfold is_u14 in *. dlia.
    + unfold down_said. cbn [flat_map down_msg translate_to_midi1 opt rev app]. fold (down_said l). split; [|split].
      * intros k b' i'. cbn [parameter1 parameter2]. apply I1.
      * exact I2.
      * cbn [program1 program2]. now rewrite I2.
  - apply Plain; reflexivity || discriminate.
  - apply Plain; reflexivity || discriminate.
  - apply Plain; reflexivity || discriminate.
Qed.

Lemma plain_down ys : filter plain1 (flat_map down_item ys) = filter plain1 (each translate_to_midi1 ys).
Proof.
  induction ys as [|x ys IH]; [reflexivity|]. unfold each in *. cbn [flat_map]. rewrite !filter_app, IH. f_equal.
  destruct x as [g ch m|p]; [|reflexivity]. cbn [down_item].
  assert (P : filter plain1 (map (Message g ch) (opt (translate_to_midi1 m))) =
    filter plain1 (match translate_to_midi1 m with Some m' => [Message g ch m'] | None => [] end)) by (now destruct (translate_to_midi1 m)).
  destruct m as [| | | | | | | | | | |p bk| | |]; try exact P; try reflexivity. destruct bk; [reflexivity|exact P].
Qed.

Lemma down_holds ys : Forall item2_ok ys ->
  exists xs, down_run (map (item_packet layout2) ys) = map (item_packet layout1) xs /\ Forall (item_ok m1_ok) xs /\
    (forall g ch k b i, (b, i) <> (127, 127) ->
       parameter1 k b i (said g ch (rev xs)) = option_map (fun v => v / 2 ^ 18) (parameter2 k b i (said g ch (rev ys)))) /\
    (forall g ch, program1 (said g ch (rev xs)) = program2 (said g ch (rev ys))) /\
    filter plain1 xs = filter plain1 (each translate_to_midi1 ys).
Proof.
  intros H. exists (flat_map down_item ys). split; [now apply down_run_items|]. split.
  { induction H as [|x ys Hx Hy IH]; [constructor|]. cbn [flat_map]. apply Forall_app. split; [|exact IH].
    destruct x as [g ch m|p].
    - destruct Hx as [HA [Hm _]]. cbn [down_item]. apply Forall_map.
      eapply Forall_impl; [|apply (down_msg_ok m Hm)]. intros a Ha. split; assumption.
    - repeat constructor; apply Hx. }
  assert (O : forall g ch, Forall m2_fine (said g ch (rev ys))).
  { intros g ch. apply said_ok. apply Forall_rev. exact H. }
  split; [|split].
  - intros g ch k b i N. rewrite said_down. destruct (down_history _ (O g ch)) as (-> & _).
    unfold null. destruct ((b =? 127) && (i =? 127)) eqn:E; [|reflexivity]. exfalso. apply N. f_equal; lia.
  - intros g ch. rewrite said_down. now destruct (down_history _ (O g ch)) as (_ & _ & ->).
  - apply plain_down.
Qed.
