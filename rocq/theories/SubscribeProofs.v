(* Subscriptions *)
From Coq Require Import ZArith String List Bool Lia ZifyBool ZifyNat.
From Verif Require Import Base Sysex SysexSpec UniversalSysex CapInq PropEx CapSpec CapCalls CapProofs CapRead JsonSpec JsonProofs
  Transfer TransferSpec TransferProofs Fit FitProofs Subscribe SubscribeSpec.
Import ListNotations.
Local Open Scope Z_scope.
Local Open Scope res_scope.
Local Open Scope list_scope.

(* ---- headers ------------------------------------------------------------------------------ *)

Definition sub_text (r c i : list Z) : list Z :=
  123 :: text_member tag_resource r ++ options_text [(tag_command, c); (tag_subscribeId, i)] ++ [125].
Definition is_command (c : list Z) : Prop := In c [cmd_start; cmd_end; cmd_full; str "partial"; str "notify"].

Lemma command_proper c : is_command c -> proper_text c /\ value_of c = JText c /\ all7 c /\ size c <= 7.
Proof.
  intros C. assert (Q : plain c /\ all7 c /\ value_of c = JText c /\ c <> [] /\ ~ improper_number c /\ size c <= 7).
  { destruct C as [<-|[<-|[<-|[<-|[<-|[]]]]]]; (split; [now apply plain_name|]; split; [now apply all7_name|]; split; [reflexivity|];
      split; [discriminate|]; split; [|cbn; lia]; intros (_ & F & _); inversion F as [|? ? F1 _]; discriminate). }
  unfold proper_text. tauto.
Qed.

Lemma text_eqb_refl t : text_eqb t t = true.
Proof. unfold text_eqb. destruct (list_eq_dec Z.eq_dec t t); congruence. Qed.

Lemma sub_text_ok r c i : name_ok r -> name_ok i -> is_command c ->
  first_text (OSubscribe r c i) = Ok (Some (sub_text r c i)) /\
  (forall dbg a, pe_build dbg a (PSubscribe r c i) = build dbg (pe_message a (PSubscribe r c i) (Some (sub_text r c i)))) /\
  subscription_header r (sub_text r c i) = Some (c, i) /\ all7 (sub_text r c i) /\ size (sub_text r c i) < 16384.
Proof.
  intros (R1 & R2 & R3 & R4) (I1 & I2 & I3 & I4) C. destruct (command_proper c C) as (C1 & C2 & C3 & C4).
  assert (N1 : plain (str "resource")) by now apply plain_name.
  assert (N4 : plain (str "command")) by now apply plain_name.
  assert (N5 : plain (str "subscribeId")) by now apply plain_name.
  assert (A1 : all7 (str "resource")) by now apply all7_name.
  assert (A4 : all7 (str "command")) by now apply all7_name.
  assert (A5 : all7 (str "subscribeId")) by now apply all7_name.
  assert (O : Forall proper_option [(tag_command, c); (tag_subscribeId, i)])
    by (constructor; [now apply proper_named|]; constructor; [now apply proper_named|constructor]).
  destruct (rjson_text_options_ok tag_resource r _ N1 (proj1 R1) O) as (t & E & F).
  assert (E2 := E). rewrite text_options_eq in E2 by now apply proper_nonempty. apply same_ok in E2. fold (sub_text r c i) in E2. subst t.
  split; [cbn [first_text]; rewrite E; reflexivity|]. split.
  { intros dbg [s d q v]. cbn [pe_build]. unfold make_subscription_inquiry. rewrite E. cbn [bind]. reflexivity. }
  split.
  { unfold subscription_header. rewrite F. cbn [map option_field fst snd]. unfold option_field. cbn [fst snd]. rewrite C2, I2, !text_eqb_refl. reflexivity. }
  split.
  { unfold sub_text. apply all7_object; [now apply all7_text_member|]. apply all7_options. cbn [map List.concat fst snd].
    unfold all7 in *. rewrite !Forall_app. repeat split; trivial. }
  unfold sub_text. cbn [options_text]. unfold member_text, text_member.
  repeat (rewrite size_cons || rewrite size_app).
  assert (V : forall v n, size (value_text v n) <= size v + 2).
  { intros v [|]; cbn [value_text]; rewrite ?size_cons, ?size_app; unfold size; cbn [List.length]; lia. }
  assert (V1 := V c (match is_number c with Ok b => b | Fault _ => false end)).
  assert (V2 := V i (match is_number i with Ok b => b | Fault _ => false end)).
  change (size tag_resource) with 8. change (size tag_command) with 7. change (size tag_subscribeId) with 11.
  change (size (@nil Z)) with 0. lia.
Qed.

Lemma other_header r x c i : name_ok x -> name_ok i -> is_command c -> x <> r -> subscription_header r (sub_text x c i) = None.
Proof.
  intros X I C N. destruct (sub_text_ok x c i X I C) as (_ & _ & H & _). revert H. unfold subscription_header.
  destruct (parse_object (sub_text x c i)) as [l|]; [|discriminate].
  destruct l as [|[k1 v1] [|[k2 v2] [|[k3 v3] [|]]]]; try discriminate; destruct v1; try discriminate; destruct v2; try discriminate;
    destruct v3; try discriminate.
  destruct (text_eqb k1 _ && text_eqb k2 _ && text_eqb k3 _); cbn [andb]; [|discriminate].
  unfold text_eqb. destruct (list_eq_dec Z.eq_dec t x) as [->|]; [|discriminate]. destruct (list_eq_dec Z.eq_dec x r); [contradiction|reflexivity].
Qed.

(* ---- messages ------------------------------------------------------------------------------- *)

Lemma receive_all_app dbg me ss : forall ps tt, receive_all dbg me ps (ss ++ tt) =
  (a <- receive_all dbg me ps ss ;; b <- receive_all dbg me (fst a) tt ;; Ok (fst b, snd a ++ snd b)).
Proof.
  induction ss as [|s ss IH]; intros ps tt; cbn [app receive_all bind fst snd].
  - destruct (receive_all dbg me ps tt) as [[x y]|]; reflexivity.
  - destruct (receive_sysex dbg me ps s) as [[q o]|]; cbn [bind fst snd]; [|reflexivity]. rewrite IH.
    destruct (receive_all dbg me q ss) as [[x y]|]; cbn [bind fst snd]; [|reflexivity].
    destruct (receive_all dbg me x tt) as [[z w]|]; cbn [bind fst snd]; [|reflexivity]. now rewrite app_assoc.
Qed.

(* messages of one key *)
Lemma receive_one dbg me k d : forall ss cs, Forall2 (fun s m => read_chunk dbg s = Ok (Some m) /\ cm_key m = k /\ cm_destination m = d) ss cs ->
  forall ps, (d = me -> exists ps', receive_all dbg me ps ss = Ok (ps', snd (steps k (track k ps) cs))) /\
    (d <> me -> receive_all dbg me ps ss = Ok (ps, [])).
Proof.
  induction 1 as [|s m ss cs (R & K & D) F IH]; intros ps.
  - split; intros _; [exists ps|]; reflexivity.
  - cbn [receive_all]. unfold receive_sysex. rewrite R. cbn [bind]. rewrite D. destruct (Z.eqb_spec d me) as [E|E].
    + split; [intros _|contradiction]. destruct (receive_same k ps m K) as [T O].
      destruct (IH (fst (receive_chunk ps m))) as [I _]. destruct (I E) as (ps' & I2). exists ps'. cbn [bind]. rewrite I2. cbn [bind fst snd steps].
      rewrite T. assert (OA : snd (receive_chunk ps m) = snd (step1 k (track k ps) m)).
      { rewrite <- O. clear - K. unfold receive_chunk. rewrite K. destruct (in_sequence _ m) as [[h b]|]; [|reflexivity].
        destruct (cm_index m =? cm_count m); cbn [snd filter]; unfold about; cbn [rv_key]; [now rewrite tkey_refl|reflexivity]. }
      rewrite OA. destruct (step1 k (track k ps) m) as [o1 e1]. cbn [fst snd]. destruct (steps k o1 cs) as [o2 e2]. reflexivity.
    + split; [contradiction|intros _]. cbn [bind fst snd]. destruct (IH ps) as [_ I]. rewrite (I E). reflexivity.
Qed.
Lemma later_keys x : forall ps i, Forall (fun m => cm_key m = transfer_key x /\ cm_destination m = pc_dst (tr_common x)) (later_chunks x i ps).
Proof. induction ps as [|p ps IH]; intros i; cbn [later_chunks]; constructor; auto. Qed.

Lemma transfer_exact dbg x h : transfer_ok x -> first_text (tr_opening x) = Ok (Some h) -> all7 h -> size h < 16384 ->
  exists ms, transfer_messages dbg x = Ok ms /\
    forall me ps, exists ps', receive_all dbg me ps ms =
      Ok (ps', if pc_dst (tr_common x) =? me then [mkRecv (transfer_key x) h (body_of x)] else []).
Proof.
  intros OK H H7 L. destruct (transfer_chunks dbg x (Some h) OK H H7 L) as (ms & TM & F). exists ms. split; [exact TM|]. intros me ps.
  cbn [text_of] in F.
  assert (G : Forall2 (fun s m => read_chunk dbg s = Ok (Some m) /\ cm_key m = transfer_key x /\ cm_destination m = pc_dst (tr_common x)) ms
    (mkCM (opening_subtype (tr_opening x)) (pc_src (tr_common x)) (pc_dst (tr_common x)) (pc_request (tr_common x)) h
         (tr_count x) 1 (tr_first x) :: later_chunks x 2 (tr_rest x))).
  { assert (K : Forall (fun m => cm_key m = transfer_key x /\ cm_destination m = pc_dst (tr_common x))
      (mkCM (opening_subtype (tr_opening x)) (pc_src (tr_common x)) (pc_dst (tr_common x)) (pc_request (tr_common x)) h
         (tr_count x) 1 (tr_first x) :: later_chunks x 2 (tr_rest x))) by (constructor; [split; reflexivity|apply later_keys]).
    clear - F K. induction F as [|s m ss cs [R _] _ IH]; constructor; apply Forall_cons_iff in K as [K1 K2]; auto. }
  destruct (receive_one dbg me _ _ _ _ G ps) as [A B]. rewrite transfer_run in A. cbn [snd] in A.
  destruct (Z.eqb_spec (pc_dst (tr_common x)) me) as [E|E]; [exact (A E)|]. exists ps. exact (B E).
Qed.

Lemma receive_step k ps m : cm_key m = k ->
  snd (receive_chunk ps m) = snd (step1 k (track k ps) m) /\
  track k (fst (receive_chunk ps m)) = fst (step1 k (track k ps) m) /\
  forall k', k' <> k -> track k' (fst (receive_chunk ps m)) = track k' ps.
Proof.
  intros K. destruct (receive_same k ps m K) as [T O]. split; [|split; [exact T|]].
  - rewrite <- O. clear - K. unfold receive_chunk. rewrite K. destruct (in_sequence _ m) as [[h b]|]; [|reflexivity].
    destruct (cm_index m =? cm_count m); cbn [snd filter]; unfold about; cbn [rv_key]; [now rewrite tkey_refl|reflexivity].
  - intros k' N. apply receive_other. congruence.
Qed.
(* any other message *)
Lemma other_step dbg d ps s : wf_sysex s ->
  exists ps' out, receive_sysex dbg d ps s = Ok (ps', out) /\
    forall k, belongs d k s = false -> track k ps' = track k ps /\ Forall (fun r => rv_key r <> k) out.
Proof.
  intros W. destruct (read_chunk_ok dbg s W) as (b & V & H). unfold receive_sysex.
  destruct b; [|rewrite H; cbn [bind]; eexists _, _; split; [reflexivity|]; intros k _; split; [reflexivity|constructor]].
  destruct H as (m & R & _). rewrite R. cbn [bind].
  destruct (cm_destination m =? d) eqn:D; [|eexists _, _; split; [reflexivity|]; intros k _; split; [reflexivity|constructor]].
  exists (fst (receive_chunk ps m)), (snd (receive_chunk ps m)). split; [now destruct (receive_chunk ps m)|].
  intros k B. destruct (belongs_read dbg d k s W) as (r & R' & BB). rewrite R in R'. apply same_ok in R'. subst r. rewrite B in BB.
  unfold mine in BB. rewrite D in BB. cbn [andb] in BB. destruct (tkey_eqb_spec k (cm_key m)) as [|N]; [discriminate|].
  split; [apply receive_other; congruence|].
  unfold receive_chunk. destruct (in_sequence _ m) as [[h b]|]; [|constructor].
  destruct (cm_index m =? cm_count m); repeat constructor. cbn [rv_key]. congruence.
Qed.
(* what comes of two states that agree about the transfers of one kind and sender *)
Definition agree (t a : Z) (ps ps' : list pending) : Prop := forall q, track (t, a, q) ps = track (t, a, q) ps'.
Definition from_key (t a : Z) (r : received) : bool := (fst (fst (rv_key r)) =? t) && (snd (fst (rv_key r)) =? a).
Lemma agree_receive dbg me t a : forall ss ps ps' p1 o1, agree t a ps ps' -> receive_all dbg me ps ss = Ok (p1, o1) ->
  exists p2 o2, receive_all dbg me ps' ss = Ok (p2, o2) /\ filter (from_key t a) o2 = filter (from_key t a) o1.
Proof.
  induction ss as [|s ss IH]; intros ps ps' p1 o1 A R; cbn [receive_all] in *.
  - apply same_ok in R. injection R as <- <-. eauto.
  - assert (ST : forall x, receive_sysex dbg me ps s = Ok x -> exists y, receive_sysex dbg me ps' s = Ok y /\ agree t a (fst x) (fst y) /\
      filter (from_key t a) (snd y) = filter (from_key t a) (snd x)).
    { intros x. unfold receive_sysex. destruct (read_chunk dbg s) as [[m|]|]; cbn [bind]; [| |discriminate].
      - destruct (cm_destination m =? me).
        + intros X. apply same_ok in X. subst x. eexists. split; [reflexivity|].
          destruct (receive_step _ ps m eq_refl) as (E1 & E2 & E3). destruct (receive_step _ ps' m eq_refl) as (F1 & F2 & F3).
          destruct (Z.eq_dec (cm_subtype m) t) as [T|T]; [destruct (Z.eq_dec (cm_source m) a) as [B|B]|].
          * assert (TR : track (cm_key m) ps = track (cm_key m) ps') by (unfold cm_key; rewrite T, B; apply A).
            rewrite E1, F1, TR. split; [|reflexivity]. intros q. destruct (Z.eq_dec q (cm_request m)) as [->|N].
            { assert (K : (t, a, cm_request m) = cm_key m) by (unfold cm_key; congruence). rewrite K, E2, F2, TR. reflexivity. }
            assert (K : (t, a, q) <> cm_key m) by (unfold cm_key; congruence). rewrite E3, F3 by exact K. apply A.
          * assert (K : forall q, (t, a, q) <> cm_key m) by (intros q; unfold cm_key; congruence).
            split; [intros q; rewrite E3, F3 by apply K; apply A|].
            rewrite E1, F1. unfold step1. destruct (in_sequence _ m) as [[h b]|], (in_sequence (track _ ps) m) as [[h' b']|], (cm_index m =? cm_count m);
              cbn [snd filter]; unfold from_key; cbn [rv_key cm_key fst snd]; apply Z.eqb_neq in B; rewrite ?B, ?andb_false_r; reflexivity.
          * assert (K : forall q, (t, a, q) <> cm_key m) by (intros q; unfold cm_key; congruence).
            split; [intros q; rewrite E3, F3 by apply K; apply A|].
            rewrite E1, F1. unfold step1. destruct (in_sequence _ m) as [[h b]|], (in_sequence (track _ ps) m) as [[h' b']|], (cm_index m =? cm_count m);
              cbn [snd filter]; unfold from_key; cbn [rv_key cm_key fst snd]; apply Z.eqb_neq in T; rewrite ?T; reflexivity.
        + intros X. apply same_ok in X. subst x. eexists. split; [reflexivity|]. auto.
      - intros X. apply same_ok in X. subst x. eexists. split; [reflexivity|]. auto. }
    destruct (receive_sysex dbg me ps s) as [x|]; cbn [bind] in R; [|discriminate]. destruct (ST x eq_refl) as (y & Y & A2 & F). rewrite Y. cbn [bind].
    destruct (receive_all dbg me (fst x) ss) as [[p3 o3]|] eqn:R3; cbn [bind fst snd] in R; [|discriminate].
    destruct (IH _ _ _ _ A2 R3) as (p4 & o4 & R4 & F4). rewrite R4. cbn [bind fst snd]. apply same_ok in R. injection R as <- <-.
    eexists _, _. split; [reflexivity|]. now rewrite !filter_app, F, F4.
Qed.

(* a command *)
Lemma command_read dbg m to r c i : name_ok r -> name_ok i -> is_command c -> is_u28 m -> is_u28 to ->
  exists s, command dbg m to r c i = Ok s /\ read_chunk dbg s = Ok (Some (mkCM 0x38 m to 0 (sub_text r c i) 0 0 [])).
Proof.
  intros R I C M T. destruct (sub_text_ok r c i R I C) as (_ & B & _ & H7 & L).
  destruct (call_read dbg (mkCommon m to 0 0x7F) (PSubscribe r c i) (Some (sub_text r c i)) H7 L) as (s & BS & _ & RC & _).
  { unfold pe_in_range, is_u14, is_u7. cbn. repeat split; try lia; try (left; reflexivity); try (right; reflexivity); apply M || apply T. }
  { right. cbn. lia. }
  exists s. unfold command. rewrite B. split; [exact BS|exact RC].
Qed.

(* ---- sending updates -------------------------------------------------------------------------- *)

Definition sub_ok (ids : Z -> list Z) (s : Z * list Z) : Prop := is_u28 (fst s) /\ snd s = ids (fst s).
Definition pub_ok (p : publication) : Prop :=
  is_u28 (pu_muid p) /\ name_ok (pu_resource p) /\ value_ok (pu_value p) /\ is_u7 (pu_request p).
Definition same_pub (p q : publication) : Prop :=
  pu_muid q = pu_muid p /\ pu_resource q = pu_resource p /\ pu_value q = pu_value p /\ pu_subs q = pu_subs p.
Definition has (m : Z) (ss : list (Z * list Z)) : bool := existsb (fun s => fst s =? m) ss.

Lemma flat_map_app' {A B} (f : A -> list B) l m : flat_map f (l ++ m) = flat_map f l ++ flat_map f m.
Proof. induction l as [|x l IH]; [reflexivity|]. cbn [app flat_map]. now rewrite IH, app_assoc. Qed.

Lemma update_ok ids p s : pub_ok p -> sub_ok ids s -> (forall m, is_u28 m -> name_ok (ids m)) -> transfer_ok (update_for p s).
Proof.
  intros (P1 & P2 & (P3 & P5) & P4) (S1 & S2) ID. unfold transfer_ok, update_for. cbn [tr_common tr_opening tr_first tr_rest pc_src pc_dst pc_request pc_device first_call pe_proper pe_texts].
  assert (N := ID _ S1). rewrite <- S2 in N. destruct (command_proper cmd_full) as (C1 & _ & C3 & _); [unfold is_command; cbn [In]; tauto|].
  destruct P2 as (R1 & R2 & R3 & R4), N as (I1 & I2 & I3 & I4).
  split; [exact P1|]. split; [exact S1|]. split; [exact P4|]. split; [unfold is_u7; lia|]. split; [split; [apply R1|]; split; [exact C1|exact I1]|].
  split; [unfold all7 in *; rewrite !Forall_app; auto|]. split; [exact P3|]. unfold tr_count. cbn [tr_rest]. lia.
Qed.

Lemma send_updates_ok dbg ids : (forall m, is_u28 m -> name_ok (ids m)) -> forall ss p, pub_ok p -> Forall (sub_ok ids) ss ->
  exists q ms, send_updates dbg p ss = Ok (q, ms) /\ same_pub p q /\ pub_ok q /\
    forall m ps, is_u28 m -> exists ps' outs k, receive_all dbg m ps ms = Ok (ps', outs) /\
      flat_map (update_value (pu_muid p) (pu_resource p) (ids m)) outs = repeat (bytes_of (pu_value p)) k /\
      (has m ss = true <-> (0 < k)%nat).
Proof.
  intros ID. induction ss as [|s ss IH]; intros p P F; cbn [send_updates].
  - exists p, []. split; [reflexivity|]. split; [repeat split|]. split; [exact P|]. intros m ps M. exists ps, [], 0%nat.
    split; [reflexivity|]. split; [reflexivity|]. cbn. split; [discriminate|lia].
  - apply Forall_cons_iff in F as [F1 F2]. pose proof P as (P1 & P2 & P3 & P4).
    assert (C : is_command cmd_full) by (unfold is_command; cbn [In]; tauto).
    assert (N := ID _ (proj1 F1)). rewrite <- (proj2 F1) in N.
    destruct (sub_text_ok (pu_resource p) cmd_full (snd s) P2 N C) as (T1 & _ & T3 & T4 & T5).
    destruct (transfer_exact dbg (update_for p s) _ (update_ok ids p s P F1 ID) T1 T4 T5) as (ms & M & X). rewrite M. cbn [bind].
    destruct (IH (next_request p)) as (q & ns & E & SP & Q & R); trivial.
    { unfold pub_ok, next_request. cbn [pu_muid pu_resource pu_value pu_request]. refine (conj P1 (conj P2 (conj P3 _))).
      unfold is_u7. assert (0 <= (pu_request p + 1) mod 128 < 128) by (apply Z.mod_pos_bound; lia). lia. }
    rewrite E. cbn [bind fst snd]. exists q, (ms ++ ns). split; [reflexivity|]. split; [exact SP|]. split; [exact Q|].
    intros m ps U. destruct (X m ps) as (ps1 & X1). destruct (R m ps1 U) as (ps2 & outs & k & R1 & R2 & R3).
    rewrite receive_all_app, X1. cbn [bind fst snd]. rewrite R1. cbn [bind fst snd].
    unfold next_request in R2. cbn [pu_muid pu_resource pu_value] in R2.
    change (pc_dst (tr_common (update_for p s))) with (fst s). cbn [has existsb]. fold (has m ss).
    destruct (Z.eqb_spec (fst s) m) as [K|K]; eexists _, _.
    + exists (S k). split; [reflexivity|]. rewrite flat_map_app'. cbn [flat_map app repeat]. rewrite R2. split; [|cbn; split; [lia|reflexivity]].
      rewrite app_nil_r. unfold update_value. cbn [rv_key transfer_key update_for tr_opening opening_subtype tr_common pc_src pc_request rv_header rv_body].
      rewrite !Z.eqb_refl. cbn [andb]. rewrite T3, (proj2 F1), K, !text_eqb_refl. reflexivity.
    + exists k. split; [reflexivity|]. cbn [app]. split; [exact R2|exact R3].
Qed.

(* ---- the network ---------------------------------------------------------------------------------- *)

Lemma follows_snoc {A} (l h : list A) v : follows l (h ++ [v]) -> follows (l ++ [v]) (h ++ [v]).
Proof.
  remember (h ++ [v]) as k eqn:E. intros F. revert h E. induction F as [k|w l k F IH|w l k F IH]; intros h E.
  - subst k. cbn [app]. clear. induction h as [|x h IH]; cbn [app]; [apply follows_here; constructor|now apply follows_later].
  - cbn [app]. apply follows_here. eapply IH, E.
  - destruct h as [|x h]; cbn [app] in E; injection E as -> E.
    + subst k. inversion F; subst. cbn [app]. apply follows_here. constructor.
    + apply follows_later. eapply IH, E.
Qed.
Lemma follows_repeat {A} (h : list A) v k : forall l, follows l (h ++ [v]) -> follows (l ++ repeat v k) (h ++ [v]).
Proof.
  induction k as [|k IH]; intros l F; cbn [repeat]; [now rewrite app_nil_r|].
  change (v :: repeat v k) with ([v] ++ repeat v k). rewrite app_assoc. apply IH. now apply follows_snoc.
Qed.
Lemma follows_more {A} (l h : list A) v : follows l h -> follows l (h ++ [v]).
Proof. induction 1 as [h|w l h F IH|w l h F IH]; [constructor|cbn [app]; now apply follows_here|cbn [app]; now apply follows_later]. Qed.
Lemma repeat_end {A} (v : A) k : (0 < k)%nat -> exists l, repeat v k = l ++ [v].
Proof.
  destruct k as [|k]; [lia|]. intros _. exists (repeat v k). clear. induction k as [|k IH]; [reflexivity|]. cbn [repeat app] in *. now rewrite <- IH.
Qed.

Lemma wants_app m : forall hs was hs', wants m was (hs ++ hs') = wants m (wants m was hs) hs'.
Proof. induction hs as [|h hs IH]; intros was hs'; [reflexivity|]. destruct h; cbn [app wants]; apply IH. Qed.
Lemma history_app hs hs' : history (hs ++ hs') = history hs ++ history hs'.
Proof. induction hs as [|h hs IH]; [reflexivity|]. destruct h; cbn [app history]; rewrite IH; reflexivity. Qed.

Definition cmd_of (b : bool) : list Z := if b then cmd_start else cmd_end.
Lemma cmd_is b : is_command (cmd_of b).
Proof. destruct b; unfold is_command; cbn [In cmd_of]; tauto. Qed.

Section Net.
Variables (dbg : bool) (ids : Z -> list Z) (P : Z) (r : list Z) (v0 : list Z * list (list Z)).
Hypothesis ID : forall m, is_u28 m -> name_ok (ids m).
Hypothesis MP : is_u28 P.
Hypothesis RN : name_ok r.

(* the commands on the way, oldest first *)
Definition is_cmd (m : Z) (s : sysex) (b : bool) : Prop :=
  read_chunk dbg s = Ok (Some (mkCM 0x38 m P 0 (sub_text r (cmd_of b) (ids m)) 0 0 [])).
Definition last_of (cs : list bool) (b : bool) : bool := fold_left (fun _ c => c) cs b.

Definition good_pub (p : publication) : Prop :=
  pu_muid p = P /\ pu_resource p = r /\ pub_ok p /\ Forall (sub_ok ids) (pu_subs p).
(* what a message of the publisher does to everyone: k times the value v *)
Definition brings (ms : list sysex) (v : list Z) (to : Z -> bool) : Prop :=
  forall m ps, is_u28 m -> exists ps' outs k, receive_all dbg m ps ms = Ok (ps', outs) /\
    flat_map (update_value P r (ids m)) outs = repeat v k /\ (to m = true <-> (0 < k)%nat).

Lemma has_others m k ss : has k (others m ss) = negb (k =? m) && has k ss.
Proof.
  unfold has, others. induction ss as [|s ss IH]; cbn [filter existsb]; [now rewrite andb_false_r|].
  destruct (Z.eqb_spec (fst s) m) as [E|E]; cbn [negb existsb].
  - rewrite IH. destruct (Z.eqb_spec k m) as [F|F]; [reflexivity|]. cbn [negb andb]. destruct (Z.eqb_spec (fst s) k); [congruence|reflexivity].
  - rewrite IH. destruct (Z.eqb_spec (fst s) k) as [F|F]; [|reflexivity]. destruct (Z.eqb_spec k m); [congruence|]. reflexivity.
Qed.

Lemma publish_ok p v : good_pub p -> value_ok v ->
  exists q ms, publish dbg p v = Ok (q, ms) /\ good_pub q /\ pu_value q = v /\ pu_subs q = pu_subs p /\
    brings ms (bytes_of v) (fun m => has m (pu_subs p)).
Proof.
  intros (G1 & G2 & (G3 & G4 & G5 & G6) & G7) V. unfold publish.
  destruct (send_updates_ok dbg ids ID (pu_subs p) (mkPub (pu_muid p) (pu_resource p) v (pu_subs p) (pu_request p))) as (q & ms & E & (S1 & S2 & S3 & S4) & Q & R).
  { unfold pub_ok. cbn. auto. }
  { exact G7. }
  cbn [pu_muid pu_resource pu_value pu_subs] in *. exists q, ms. split; [exact E|]. split; [|split; [exact S3|split; [exact S4|]]].
  - unfold good_pub. rewrite S1, S2, S4. auto.
  - rewrite G1, G2 in R. exact R.
Qed.

Lemma cmd_received p m s b : good_pub p -> is_u28 m -> is_cmd m s b ->
  exists q ms, pub_receive dbg p s = Ok (q, ms) /\ good_pub q /\ pu_value q = pu_value p /\
    (forall k, has k (pu_subs q) = if k =? m then b else has k (pu_subs p)) /\
    brings ms (bytes_of (pu_value p)) (fun k => (k =? m) && b).
Proof.
  intros (G1 & G2 & (G3 & G4 & G5 & G6) & G7) M C. unfold pub_receive. rewrite C. cbn [bind cm_destination cm_subtype cm_header cm_source].
  rewrite G1, G2, Z.eqb_refl. cbn [andb]. change (56 =? 56) with true.
  destruct (sub_text_ok r (cmd_of b) (ids m) RN (ID m M) (cmd_is b)) as (_ & _ & H & _). rewrite H.
  assert (FO : Forall (sub_ok ids) (others m (pu_subs p))).
  { unfold others. rewrite Forall_forall in *. intros x X. apply filter_In in X as [X _]. now apply G7. }
  destruct b; cbn [cmd_of].
  - rewrite text_eqb_refl.
    destruct (send_updates_ok dbg ids ID [(m, ids m)] (with_subs p ((m, ids m) :: others m (pu_subs p)))) as (q & ms & E & (S1 & S2 & S3 & S4) & Q & R).
    { unfold pub_ok, with_subs. cbn. auto. }
    { constructor; [split; [exact M|reflexivity]|constructor]. }
    unfold with_subs in S1, S2, S3, S4, R. cbn [pu_muid pu_resource pu_value pu_subs] in *. exists q, ms. split; [exact E|].
    split; [|split; [exact S3|split]].
    + unfold good_pub. rewrite S1, S2, S4. split; [exact G1|]. split; [exact G2|]. split; [exact Q|]. constructor; [split; [exact M|reflexivity]|exact FO].
    + intros k. rewrite S4. unfold has at 1. cbn [existsb fst]. fold (has k (others m (pu_subs p))). rewrite has_others, (Z.eqb_sym m k).
      destruct (k =? m); reflexivity.
    + rewrite G1, G2 in R. intros k ps U. destruct (R k ps U) as (ps' & outs & j & R1 & R2 & R3). exists ps', outs, j. split; [exact R1|]. split; [exact R2|].
      rewrite <- R3. unfold has. cbn [existsb fst]. now rewrite (Z.eqb_sym m k), orb_false_r, andb_true_r.
  - change (text_eqb cmd_end cmd_start) with false. cbn match. rewrite text_eqb_refl. eexists _, []. split; [reflexivity|].
    split; [exact (conj G1 (conj G2 (conj (conj G3 (conj G4 (conj G5 G6))) FO)))|]. split; [reflexivity|]. split.
    + intros k. cbn [with_subs pu_subs]. rewrite has_others. destruct (k =? m); reflexivity.
    + intros k ps _. exists ps, [], 0%nat. split; [reflexivity|]. split; [reflexivity|]. rewrite andb_false_r. split; [discriminate|lia].
Qed.

(* messages about something else *)
Lemma other_received p s : good_pub p -> happening_ok ids P r (HOther s) -> pub_receive dbg p s = Ok (p, []).
Proof.
  intros (G1 & G2 & _) (W & B). unfold pub_receive. destruct (read_chunk_ok dbg s W) as (v & V & H). destruct v; [|now rewrite H].
  destruct H as (m & R & T & S & D & Q). rewrite R. cbn [bind]. specialize (B (cm_source m) (cm_request m)). unfold belongs in B.
  rewrite V, T, S, D, Q in B. cbn [fst snd] in B. rewrite !Z.eqb_refl, !andb_true_r in B. rewrite G1, andb_comm, B. reflexivity.
Qed.
Lemma else_received p m x c i : good_pub p -> happening_ok ids P r (HElse m x c i) ->
  exists s, command dbg m (pu_muid p) x c i = Ok s /\ pub_receive dbg p s = Ok (p, []).
Proof.
  intros (G1 & G2 & _) (M & X & N & I & C). assert (IC : is_command c) by (unfold is_command; cbn [In]; destruct C as [->| ->]; tauto).
  destruct (command_read dbg m P x c i X I IC M MP) as (s & E & R). exists s. rewrite G1. split; [exact E|].
  unfold pub_receive. rewrite R. cbn [bind cm_destination cm_subtype cm_header]. rewrite G1, G2, (other_header r x c i X I IC N).
  now destruct ((P =? P) && (56 =? 56)).
Qed.
Lemma also_sent p m x c i v : good_pub p -> happening_ok ids P r (HAlso m x c i v) ->
  exists ms, transfer_messages dbg (mkTransfer (mkCommon (pu_muid p) m (pu_request p) 0x7F) (OSubscribe x c i) (fst v) (snd v)) = Ok ms /\
    good_pub (next_request p) /\ forall w, brings ms w (fun _ => false).
Proof.
  intros (G1 & G2 & (G3 & G4 & G5 & G6) & G7) (M & X & I & (V1 & V2) & C & N). change (is_command c) in C.
  destruct (sub_text_ok x c i X I C) as (T1 & _ & T3 & T4 & T5). destruct (command_proper c C) as (C1 & _ & C3 & _).
  pose proof X as (X1 & _ & X3 & _). pose proof I as (I1 & _ & I3 & _).
  destruct (transfer_exact dbg (mkTransfer (mkCommon (pu_muid p) m (pu_request p) 0x7F) (OSubscribe x c i) (fst v) (snd v)) (sub_text x c i)) as (ms & E & R); trivial.
  { unfold transfer_ok. cbn [tr_common tr_opening tr_first tr_rest pc_src pc_dst pc_request pc_device first_call pe_proper pe_texts].
    split; [exact G3|]. split; [exact M|]. split; [exact G6|]. split; [unfold is_u7; lia|]. split; [split; [apply X1|]; split; [exact C1|exact I1]|].
    split; [unfold all7 in *; rewrite !Forall_app; auto|]. split; [exact V1|]. unfold tr_count. cbn [tr_rest]. lia. }
  exists ms. split; [exact E|]. split.
  { unfold good_pub, pub_ok, next_request. cbn [pu_muid pu_resource pu_value pu_subs pu_request].
    assert (is_u7 ((pu_request p + 1) mod 128)) by (unfold is_u7; assert (0 <= (pu_request p + 1) mod 128 < 128) by (apply Z.mod_pos_bound; lia); lia). auto 10. }
  intros w k ps K. destruct (R k ps) as (ps' & R1). eexists _, _. exists 0%nat. split; [exact R1|]. split; [|split; [discriminate|lia]].
  cbn [tr_common pc_dst]. destruct (Z.eqb_spec m k) as [->|]; [|reflexivity]. cbn [flat_map repeat]. rewrite app_nil_r. unfold update_value.
  cbn [rv_key transfer_key tr_opening opening_subtype tr_common pc_src pc_request rv_header rv_body]. rewrite G1, !Z.eqb_refl. cbn [andb].
  destruct (list_eq_dec Z.eq_dec x r) as [->|XR]; [|now rewrite (other_header r x c i X I C XR)]. rewrite T3.
  unfold text_eqb. destruct (list_eq_dec Z.eq_dec c cmd_full) as [CF|CF]; [|reflexivity]. destruct (list_eq_dec Z.eq_dec i (ids k)) as [IE|IE]; [|reflexivity].
  exfalso. destruct N as [N|[N|N]]; [now apply N|now apply N|now apply N].
Qed.
Lemma value_from m o : flat_map (update_value P r (ids m)) o = flat_map (update_value P r (ids m)) (filter (from_key 0x38 P) o).
Proof.
  induction o as [|x o IH]; [reflexivity|]. cbn [flat_map filter]. destruct (from_key 56 P x) eqn:E; [cbn [flat_map]; now rewrite IH|].
  rewrite <- IH. unfold from_key in E. unfold update_value at 1. destruct (rv_key x) as [[t a] q]. cbn [fst snd] in E. now rewrite E.
Qed.
Lemma other_to m b s : happening_ok ids P r (HOtherTo m s) ->
  exists b', sub_receive dbg m P r (ids m) b s = Ok b' /\ sb_values b' = sb_values b /\
    forall ss ps o, receive_all dbg m (sb_pending b) ss = Ok (ps, o) ->
      exists ps' o', receive_all dbg m (sb_pending b') ss = Ok (ps', o') /\
        flat_map (update_value P r (ids m)) o' = flat_map (update_value P r (ids m)) o.
Proof.
  intros (M & W & B). destruct (other_step dbg m (sb_pending b) s W) as (ps1 & o1 & R & H). unfold sub_receive. rewrite R. cbn [bind fst snd].
  eexists. split; [reflexivity|]. cbn [sb_values sb_pending]. split.
  - rewrite value_from. replace (filter (from_key 56 P) o1) with (@nil received); [apply app_nil_r|]. symmetry.
    assert (X : forall x, In x o1 -> from_key 56 P x = false).
    { intros x I. unfold from_key. destruct (rv_key x) as [[t a] q] eqn:K. cbn [fst snd]. destruct (Z.eqb_spec t 56) as [->|]; [|reflexivity].
      destruct (Z.eqb_spec a P) as [->|]; [|reflexivity]. destruct (H _ (B q)) as [_ F]. rewrite Forall_forall in F. now apply F in I. }
    clear - X. induction o1 as [|x o IH]; [reflexivity|]. cbn [filter]. rewrite (X x (or_introl eq_refl)). apply IH. intros y I. apply X. now right.
  - intros ss ps o RA. assert (A : agree 56 P (sb_pending b) ps1) by (intros q; symmetry; apply H, B).
    destruct (agree_receive dbg m 56 P ss _ _ _ _ A RA) as (p2 & o2 & R2 & F). exists p2, o2. split; [exact R2|]. now rewrite value_from, F, <- value_from.
Qed.

Record inv (hs : list happening) (n : network) : Prop := {
  in_pub : good_pub (nt_pub n);
  in_value : bytes_of (pu_value (nt_pub n)) = present v0 hs;
  in_up : forall m, is_u28 m -> exists cs, Forall2 (is_cmd m) (nt_up n m) cs /\ last_of cs (has m (pu_subs (nt_pub n))) = wants m false hs;
  in_down : forall m, is_u28 m -> exists ps' outs, receive_all dbg m (sb_pending (nt_sub n m)) (nt_down n m) = Ok (ps', outs) /\
    follows (sb_values (nt_sub n m) ++ flat_map (update_value P r (ids m)) outs) (bytes_of v0 :: history hs) /\
    (has m (pu_subs (nt_pub n)) = true -> exists l, sb_values (nt_sub n m) ++ flat_map (update_value P r (ids m)) outs = l ++ [present v0 hs])
}.

Lemma present_split hs : exists h, bytes_of v0 :: history hs = h ++ [present v0 hs].
Proof.
  unfold present. destruct (history hs) as [|x l] eqn:E using rev_ind; [exists []; reflexivity|]. clear.
  exists (bytes_of v0 :: l). cbn [app]. f_equal. f_equal. rewrite last_last. reflexivity.
Qed.
Lemma last_snoc cs b c : last_of (cs ++ [c]) b = c.
Proof. unfold last_of. now rewrite fold_left_app. Qed.

Lemma command_ok n m b : good_pub (nt_pub n) -> is_u28 m ->
  exists s, command dbg m (pu_muid (nt_pub n)) (pu_resource (nt_pub n)) (cmd_of b) (ids m) = Ok s /\ is_cmd m s b.
Proof.
  intros (G1 & G2 & _) M. rewrite G1, G2. exact (command_read dbg m P r (cmd_of b) (ids m) RN (ID m M) (cmd_is b) M MP).
Qed.

(* messages spread to everyone *)
Lemma spread_down hs n ms v to m : (exists h, bytes_of v0 :: history hs = h ++ [v]) -> brings ms v to -> is_u28 m ->
  (exists ps' outs, receive_all dbg m (sb_pending (nt_sub n m)) (nt_down n m) = Ok (ps', outs) /\
    follows (sb_values (nt_sub n m) ++ flat_map (update_value P r (ids m)) outs) (bytes_of v0 :: history hs)) ->
  exists ps' outs k, receive_all dbg m (sb_pending (nt_sub n m)) (spread (nt_down n) ms m) = Ok (ps', outs) /\
    follows (sb_values (nt_sub n m) ++ flat_map (update_value P r (ids m)) outs) (bytes_of v0 :: history hs) /\
    (to m = true -> exists l, sb_values (nt_sub n m) ++ flat_map (update_value P r (ids m)) outs = l ++ [v]) /\
    (to m = true <-> (0 < k)%nat) /\
    forall p1 o1, receive_all dbg m (sb_pending (nt_sub n m)) (nt_down n m) = Ok (p1, o1) ->
      flat_map (update_value P r (ids m)) outs = flat_map (update_value P r (ids m)) o1 ++ repeat v k.
Proof.
  intros (h & HE) B M (ps1 & o1 & R1 & F1). destruct (B m ps1 M) as (ps2 & o2 & k & R2 & F2 & K).
  exists ps2, (o1 ++ o2), k. unfold spread. rewrite receive_all_app, R1. cbn [bind fst snd]. rewrite R2. cbn [bind fst snd].
  split; [reflexivity|]. rewrite flat_map_app', F2, app_assoc. split; [|split; [|split; [exact K|]]].
  - rewrite HE in *. now apply follows_repeat.
  - intros T. destruct (repeat_end v k) as (l & ->); [now apply K|]. rewrite app_assoc. eauto.
  - intros p1 o3 E. apply same_ok in E. injection E as <- <-. reflexivity.
Qed.

Lemma at_same {A} (f : Z -> A) m x : at_ f m x m = x.
Proof. unfold at_. now rewrite Z.eqb_refl. Qed.
Lemma at_other {A} (f : Z -> A) m x k : k <> m -> at_ f m x k = f k.
Proof. intros H. unfold at_. destruct (Z.eqb_spec k m); [contradiction|reflexivity]. Qed.

Lemma happen_ok hs n h : inv hs n -> happening_ok ids P r h -> exists n', happen dbg ids n h = Ok n' /\ inv (hs ++ [h]) n'.
Proof.
  intros I H. pose proof I as [I1 I2 I3 I4].
  assert (W : forall m, wants m false (hs ++ [h]) = wants m (wants m false hs) [h]) by (intros m; apply wants_app).
  assert (HH : history (hs ++ [h]) = history hs ++ history [h]) by apply history_app.
  assert (SAY : forall m b, is_u28 m -> (forall k, wants k false (hs ++ [h]) = if k =? m then b else wants k false hs) -> history [h] = [] ->
    exists s, command dbg m (pu_muid (nt_pub n)) (pu_resource (nt_pub n)) (cmd_of b) (ids m) = Ok s /\
      inv (hs ++ [h]) (mkNet (nt_pub n) (at_ (nt_up n) m (nt_up n m ++ [s])) (nt_down n) (nt_sub n))).
  { intros m b M WK HN. destruct (command_ok n m b I1 M) as (s & E & C). exists s. split; [exact E|].
    rewrite HN, app_nil_r in HH. assert (PR : present v0 (hs ++ [h]) = present v0 hs) by (unfold present; now rewrite HH).
    constructor; cbn [nt_pub nt_up nt_down nt_sub]; trivial.
    - now rewrite PR.
    - intros k K. rewrite WK. destruct (Z.eqb_spec k m) as [->|N].
      + destruct (I3 m M) as (cs & F & _). exists (cs ++ [b]). rewrite at_same. split; [|apply last_snoc].
        apply Forall2_app; [exact F|]. constructor; [exact C|constructor].
      + rewrite at_other by exact N. exact (I3 k K).
    - intros k K. rewrite PR, HH. exact (I4 k K). }
  destruct h as [v|m|m|m|m|s|m s|m x c i|m x c i v]; cbn [happen]; [cbn [happening_ok] in H ..| | | |].
  - destruct (publish_ok (nt_pub n) v I1 H) as (q & ms & E & G & V & S & B). rewrite E. cbn [bind fst snd]. eexists. split; [reflexivity|].
    cbn [history] in HH. assert (PR : present v0 (hs ++ [HSet v]) = bytes_of v) by (unfold present; rewrite HH; apply last_last).
    constructor; cbn [nt_pub nt_up nt_down nt_sub]; trivial.
    + now rewrite V, PR.
    + intros m M. rewrite W, S. cbn [wants]. exact (I3 m M).
    + intros m M. destruct (I4 m M) as (ps' & outs & R1 & F1 & _).
      destruct (spread_down (hs ++ [HSet v]) n ms (bytes_of v) (fun k => has k (pu_subs (nt_pub n))) m) as (p2 & o2 & k & R2 & F2 & T & _); trivial.
      { rewrite HH. exists (bytes_of v0 :: history hs). reflexivity. }
      { exists ps', outs. split; [exact R1|]. rewrite HH. change (bytes_of v0 :: history hs ++ [bytes_of v]) with ((bytes_of v0 :: history hs) ++ [bytes_of v]).
        now apply follows_more. }
      exists p2, o2. split; [exact R2|]. split; [exact F2|]. rewrite S, PR. exact T.
  - destruct (SAY m true H) as (s & E & J); trivial.
    { intros k. rewrite W. cbn [wants]. rewrite (Z.eqb_sym m k). destruct (k =? m); reflexivity. }
    change cmd_start with (cmd_of true). rewrite E. cbn [bind]. eauto.
  - destruct (SAY m false H) as (s & E & J); trivial.
    { intros k. rewrite W. cbn [wants]. rewrite (Z.eqb_sym m k). destruct (k =? m); reflexivity. }
    change cmd_end with (cmd_of false). rewrite E. cbn [bind]. eauto.
  - cbn [history] in HH. rewrite app_nil_r in HH. assert (PR : present v0 (hs ++ [HUp m]) = present v0 hs) by (unfold present; now rewrite HH).
    assert (WK : forall k, wants k false (hs ++ [HUp m]) = wants k false hs) by (intros k; rewrite W; reflexivity).
    destruct (I3 m H) as (cs & F & L). destruct (nt_up n m) as [|s u] eqn:U.
    + eexists. split; [reflexivity|]. constructor; trivial; [now rewrite PR|intros k K; rewrite WK; apply (I3 k K)|intros k K; rewrite PR, HH; apply (I4 k K)].
    + inversion F as [|? b ? cs' C F2]; subst. destruct (cmd_received (nt_pub n) m s b I1 H C) as (q & ms & E & G & V & S & B).
      rewrite E. cbn [bind fst snd]. eexists. split; [reflexivity|]. constructor; cbn [nt_pub nt_up nt_down nt_sub]; trivial.
      * now rewrite V, PR.
      * intros k K. rewrite WK, S. destruct (Z.eqb_spec k m) as [->|N]; [exists cs'; rewrite at_same; split; [exact F2|exact L]|].
        rewrite at_other by exact N. exact (I3 k K).
      * intros k K. destruct (I4 k K) as (ps' & outs & R1 & F1 & T1).
        rewrite HH, PR. rewrite I2 in B.
        destruct (spread_down hs n ms (present v0 hs) (fun j => (j =? m) && b) k) as (p2 & o2 & j & R2 & F3 & T & J & X); trivial; [apply present_split|eauto|].
        exists p2, o2. split; [exact R2|]. split; [exact F3|]. rewrite S. intros HS. rewrite (X _ _ R1), app_assoc.
        destruct j as [|j].
        -- cbn [repeat]. rewrite app_nil_r. apply T1. destruct (k =? m); [|exact HS]. subst b. exfalso. assert (0 < 0)%nat by now apply J. lia.
        -- destruct (repeat_end (present v0 hs) (Datatypes.S j)) as (l & ->); [lia|]. rewrite app_assoc. eauto.
  - cbn [history] in HH. rewrite app_nil_r in HH. assert (PR : present v0 (hs ++ [HDown m]) = present v0 hs) by (unfold present; now rewrite HH).
    assert (WK : forall k, wants k false (hs ++ [HDown m]) = wants k false hs) by (intros k; rewrite W; reflexivity).
    destruct (nt_down n m) as [|s u] eqn:U.
    + eexists. split; [reflexivity|]. constructor; trivial; [now rewrite PR|intros k K; rewrite WK; apply (I3 k K)|intros k K; rewrite PR, HH; apply (I4 k K)].
    + destruct (I4 m H) as (ps' & outs & R1 & F1 & T1). rewrite U in R1. cbn [receive_all] in R1. unfold sub_receive.
      destruct (receive_sysex dbg m (sb_pending (nt_sub n m)) s) as [[p1 o1]|] eqn:RS; cbn [bind fst snd] in *; [|discriminate].
      destruct (receive_all dbg m p1 u) as [[p2 o2]|] eqn:RA; cbn [bind fst snd] in *; [|discriminate].
      apply same_ok in R1. injection R1 as <- <-. rewrite flat_map_app', app_assoc in F1, T1.
      destruct I1 as (G1 & G2 & G3). rewrite G1, G2.
      eexists. split; [reflexivity|]. constructor; cbn [nt_pub nt_up nt_down nt_sub]; trivial.
      * split; [exact G1|]. split; [exact G2|exact G3].
      * now rewrite PR.
      * intros k K. rewrite WK. exact (I3 k K).
      * intros k K. rewrite HH, PR. destruct (Z.eqb_spec k m) as [->|N].
        -- rewrite !at_same. cbn [sb_pending sb_values]. exists p2, o2. auto.
        -- rewrite !at_other by exact N. exact (I4 k K).
  - rewrite (other_received _ s I1 H). cbn [bind fst snd]. eexists. split; [reflexivity|]. cbn [history] in HH. rewrite app_nil_r in HH.
    assert (PR : present v0 (hs ++ [HOther s]) = present v0 hs) by (unfold present; now rewrite HH).
    constructor; cbn [nt_pub nt_up nt_down nt_sub]; trivial; [now rewrite PR|intros k K; rewrite W; apply (I3 k K)|].
    intros k K. unfold spread. rewrite app_nil_r, PR, HH. apply (I4 k K).
  - pose proof I1 as (G1 & G2 & _). rewrite G1, G2. destruct (other_to m (nt_sub n m) s H) as (b & E & V & F). rewrite E. cbn [bind].
    eexists. split; [reflexivity|]. cbn [history] in HH. rewrite app_nil_r in HH.
    assert (PR : present v0 (hs ++ [HOtherTo m s]) = present v0 hs) by (unfold present; now rewrite HH).
    constructor; cbn [nt_pub nt_up nt_down nt_sub]; trivial; [now rewrite PR|intros k K; rewrite W; apply (I3 k K)|].
    intros k K. rewrite PR, HH. destruct (I4 k K) as (ps & o & R1 & F1 & T1). destruct (Z.eqb_spec k m) as [->|N].
    + rewrite at_same. destruct (F _ _ _ R1) as (ps' & o' & R2 & O2). exists ps', o'. rewrite V, O2. auto.
    + rewrite at_other by exact N. exists ps, o. auto.
  - destruct (else_received _ m x c i I1 H) as (s & E & R). rewrite E. cbn [bind]. rewrite R. cbn [bind fst snd]. eexists. split; [reflexivity|].
    cbn [history] in HH. rewrite app_nil_r in HH.
    assert (PR : present v0 (hs ++ [HElse m x c i]) = present v0 hs) by (unfold present; now rewrite HH).
    constructor; cbn [nt_pub nt_up nt_down nt_sub]; trivial; [now rewrite PR|intros k K; rewrite W; apply (I3 k K)|].
    intros k K. unfold spread. rewrite app_nil_r, PR, HH. apply (I4 k K).
  - destruct (also_sent _ m x c i v I1 H) as (ms & E & G & B). rewrite E. cbn [bind]. eexists. split; [reflexivity|].
    cbn [history] in HH. rewrite app_nil_r in HH.
    assert (PR : present v0 (hs ++ [HAlso m x c i v]) = present v0 hs) by (unfold present; now rewrite HH).
    constructor; cbn [nt_pub nt_up nt_down nt_sub]; trivial; [now rewrite PR|intros k K; rewrite W; apply (I3 k K)|].
    intros k K. destruct (I4 k K) as (ps' & outs & R1 & F1 & T1). rewrite HH, PR.
    destruct (spread_down hs n ms (present v0 hs) (fun _ => false) k) as (p2 & o2 & j & R2 & F3 & _ & J & X); trivial; [apply present_split|eauto|].
    exists p2, o2. split; [exact R2|]. split; [exact F3|]. intros HS. rewrite (X _ _ R1). destruct j as [|j]; [|exfalso; assert (false = true) by (apply J; lia); discriminate].
    cbn [repeat]. rewrite app_nil_r. now apply T1.
Qed.

Lemma run_ok : forall hs hs0 n, inv hs0 n -> Forall (happening_ok ids P r) hs -> exists n', run dbg ids n hs = Ok n' /\ inv (hs0 ++ hs) n'.
Proof.
  induction hs as [|h hs IH]; intros hs0 n I F; cbn [run].
  - exists n. rewrite app_nil_r. auto.
  - apply Forall_cons_iff in F as [F1 F2]. destruct (happen_ok hs0 n h I F1) as (n1 & E & I1). rewrite E. cbn [bind].
    destruct (IH (hs0 ++ [h]) n1 I1 F2) as (n2 & R & I2). exists n2. rewrite <- app_assoc in I2. auto.
Qed.
Lemma inv_quiet : value_ok v0 -> inv [] (quiet_net P r v0).
Proof.
  intros V. constructor; cbn.
  - unfold good_pub, pub_ok. cbn. repeat split; try assumption; try apply V; try (unfold is_u7; lia); try apply RN; try apply MP; constructor.
  - reflexivity.
  - intros m _. exists []. split; [constructor|reflexivity].
  - intros m _. exists [], []. split; [reflexivity|]. split; [constructor|discriminate].
Qed.

(* deliveries *)
Lemma ups hs m : is_u28 m -> forall k n, inv hs n -> (List.length (nt_up n m) <= k)%nat ->
  exists n', run dbg ids n (repeat (HUp m) k) = Ok n' /\ nt_up n' m = [] /\ inv (hs ++ repeat (HUp m) k) n'.
Proof.
  intros M k. revert hs. induction k as [|k IH]; intros hs n I L; cbn [repeat run].
  - exists n. rewrite app_nil_r. destruct (nt_up n m); [auto|cbn in L; lia].
  - destruct (happen_ok hs n (HUp m) I M) as (n1 & E & I1). rewrite E. cbn [bind].
    destruct (IH (hs ++ [HUp m]) n1 I1) as (n2 & R & U & I2).
    { cbn [happen] in E. destruct (nt_up n m) as [|s u] eqn:X.
      - apply same_ok in E. subst n1. rewrite X. cbn. lia.
      - destruct (pub_receive dbg (nt_pub n) s) as [q|]; cbn [bind] in E; [|discriminate]. apply same_ok in E. subst n1. cbn [nt_up]. rewrite at_same. cbn in L. lia. }
    exists n2. rewrite <- app_assoc in I2. auto.
Qed.
Lemma downs hs m : is_u28 m -> forall k n, inv hs n -> (List.length (nt_down n m) <= k)%nat ->
  exists n', run dbg ids n (repeat (HDown m) k) = Ok n' /\ nt_down n' m = [] /\ nt_up n' m = nt_up n m /\ inv (hs ++ repeat (HDown m) k) n'.
Proof.
  intros M k. revert hs. induction k as [|k IH]; intros hs n I L; cbn [repeat run].
  - exists n. rewrite app_nil_r. destruct (nt_down n m); [auto|cbn in L; lia].
  - destruct (happen_ok hs n (HDown m) I M) as (n1 & E & I1). rewrite E. cbn [bind].
    assert (Q : (List.length (nt_down n1 m) <= k)%nat /\ nt_up n1 m = nt_up n m).
    { cbn [happen] in E. destruct (nt_down n m) as [|s u] eqn:X.
      - apply same_ok in E. subst n1. rewrite X. cbn. split; [lia|reflexivity].
      - destruct (sub_receive _ _ _ _ _ _ _) as [q|]; cbn [bind] in E; [|discriminate]. apply same_ok in E. subst n1. cbn [nt_down nt_up]. rewrite at_same. cbn in L. split; [lia|reflexivity]. }
    destruct Q as [Q1 Q2]. destruct (IH (hs ++ [HDown m]) n1 I1 Q1) as (n2 & R & U & V & I2).
    exists n2. rewrite <- app_assoc in I2. rewrite <- Q2. auto.
Qed.
Lemma quiet_copy hs n m : inv hs n -> is_u28 m -> nt_up n m = [] -> nt_down n m = [] -> wants m false hs = true ->
  exists l, sb_values (nt_sub n m) = l ++ [present v0 hs].
Proof.
  intros [_ _ I3 I4] M U D W. destruct (I3 m M) as (cs & F & L). rewrite U in F. inversion F; subst. cbn in L.
  destruct (I4 m M) as (ps & outs & R & _ & T). rewrite D in R. apply same_ok in R. injection R as <- <-.
  cbn [flat_map] in T. rewrite app_nil_r in T. apply T. now rewrite L.
Qed.
Lemma at_any_time hs n m : inv hs n -> is_u28 m -> follows (sb_values (nt_sub n m)) (bytes_of v0 :: history hs).
Proof.
  intros [_ _ _ I4] M. destruct (I4 m M) as (ps & outs & _ & F & _). revert F. generalize (flat_map (update_value P r (ids m)) outs) as t.
  generalize (sb_values (nt_sub n m)) as l. generalize (bytes_of v0 :: history hs) as h. clear. intros h l t F.
  remember (l ++ t) as k eqn:E. revert l t E. induction F as [h|v k h F IH|v k h F IH]; intros l t E.
  - destruct l; [constructor|discriminate].
  - destruct l as [|x l]; [constructor|]. injection E as -> E. apply follows_here. eapply IH, E.
  - apply follows_later. eapply IH, E.
Qed.
Lemma wants_deliver m was hs : Forall (fun h => match h with HUp _ | HDown _ => True | _ => False end) hs ->
  wants m was hs = was /\ history hs = [].
Proof. induction 1 as [|h hs H _ IH]; [auto|]. destruct h; try contradiction; exact IH. Qed.

(* a subscription that has ended *)
Record off (m : Z) (vs : list (list Z)) (n : network) : Prop := {
  of_pub : good_pub (nt_pub n);
  of_cmds : forall k, is_u28 k -> exists cs, Forall2 (is_cmd k) (nt_up n k) cs /\ (k = m -> Forall (fun b => b = false) cs);
  of_out : has m (pu_subs (nt_pub n)) = false;
  of_values : sb_values (nt_sub n m) = vs;
  of_down : exists ps' outs, receive_all dbg m (sb_pending (nt_sub n m)) (nt_down n m) = Ok (ps', outs) /\
    flat_map (update_value P r (ids m)) outs = []
}.
Lemma off_spread m vs n q up ms v to : off m vs n -> is_u28 m -> good_pub q -> has m (pu_subs q) = false -> brings ms v to -> to m = false ->
  (forall k, is_u28 k -> exists cs, Forall2 (is_cmd k) (up k) cs /\ (k = m -> Forall (fun b => b = false) cs)) ->
  off m vs (mkNet q up (spread (nt_down n) ms) (nt_sub n)).
Proof.
  intros [_ _ _ O4 (ps & outs & R & F)] M G H B T U. constructor; cbn [nt_pub nt_up nt_down nt_sub]; trivial.
  destruct (B m ps M) as (ps2 & o2 & k & R2 & F2 & K). exists ps2, (outs ++ o2). unfold spread.
  rewrite receive_all_app, R. cbn [bind fst snd]. rewrite R2. cbn [bind fst snd]. split; [reflexivity|].
  rewrite flat_map_app', F, F2. destruct k as [|k]; [reflexivity|]. exfalso. rewrite T in K. assert (false = true) by (apply K; lia). discriminate.
Qed.
Lemma off_happen m vs n n' h : off m vs n -> is_u28 m -> happening_ok ids P r h -> h <> HStart m -> happen dbg ids n h = Ok n' -> off m vs n'.
Proof.
  intros O M H N E. pose proof O as [O1 O2 O3 O4 (ps & outs & R & F)].
  destruct h as [v|j|j|j|j|s|j s|j x c i|j x c i v]; cbn [happen] in E; [cbn [happening_ok] in H ..| | | |].
  - destruct (publish_ok (nt_pub n) v O1 H) as (q & ms & E2 & G & V & S & B). rewrite E2 in E. cbn [bind fst snd] in E. apply same_ok in E. subst n'.
    eapply off_spread; eauto. now rewrite S.
  - destruct (command_ok n j true O1 H) as (s & E2 & C). cbn [cmd_of] in E2. rewrite E2 in E. cbn [bind] in E. apply same_ok in E. subst n'.
    constructor; cbn [nt_pub nt_up nt_down nt_sub]; trivial; [|eauto]. intros k K. unfold at_. destruct (Z.eqb_spec k j) as [->|X]; [|exact (O2 k K)].
    destruct (O2 j K) as (cs & F1 & F2). exists (cs ++ [true]). split; [apply Forall2_app; [exact F1|constructor; [exact C|constructor]]|]. intros ->. contradiction.
  - destruct (command_ok n j false O1 H) as (s & E2 & C). cbn [cmd_of] in E2. rewrite E2 in E. cbn [bind] in E. apply same_ok in E. subst n'.
    constructor; cbn [nt_pub nt_up nt_down nt_sub]; trivial; [|eauto]. intros k K. unfold at_. destruct (Z.eqb_spec k j) as [->|X]; [|exact (O2 k K)].
    destruct (O2 j K) as (cs & F1 & F2). exists (cs ++ [false]). split; [apply Forall2_app; [exact F1|constructor; [exact C|constructor]]|]. intros X.
    apply Forall_app. split; [auto|]. constructor; [reflexivity|constructor].
  - destruct (O2 j H) as (cs & F1 & F2). destruct (nt_up n j) as [|s u] eqn:U; [apply same_ok in E; now subst n'|].
    inversion F1 as [|? b ? cs' C F3]; subst. destruct (cmd_received (nt_pub n) j s b O1 H C) as (q & ms & E2 & G & V & S & B).
    rewrite E2 in E. cbn [bind fst snd] in E. apply same_ok in E. subst n'.
    assert (Z1 : (m =? j) && b = false).
    { destruct (Z.eqb_spec m j) as [X|X]; [|reflexivity]. symmetry in X. specialize (F2 X). apply Forall_cons_iff in F2 as [-> _]. reflexivity. }
    eapply off_spread; eauto.
    + rewrite S. destruct (m =? j); [exact Z1|exact O3].
    + intros k K. unfold at_. destruct (Z.eqb_spec k j) as [->|X]; [|exact (O2 k K)]. exists cs'. split; [exact F3|]. intros X. specialize (F2 X).
      now apply Forall_cons_iff in F2 as [_ F2].
  - destruct (nt_down n j) as [|s u] eqn:U; [apply same_ok in E; now subst n'|]. unfold sub_receive in E.
    destruct (receive_sysex dbg j (sb_pending (nt_sub n j)) s) as [[p1 o1]|] eqn:RS; cbn [bind fst snd] in E; [|discriminate]. apply same_ok in E. subst n'.
    constructor; cbn [nt_pub nt_up nt_down nt_sub]; trivial.
    + destruct (Z.eqb_spec m j) as [->|X]; [|rewrite at_other by exact X; exact O4]. rewrite at_same. cbn [sb_values].
      rewrite U in R. cbn [receive_all] in R. rewrite RS in R. cbn [bind fst snd] in R.
      destruct (receive_all dbg j p1 u) as [[p2 o2]|]; cbn [bind fst snd] in R; [|discriminate]. apply same_ok in R. injection R as <- <-.
      rewrite flat_map_app' in F. apply app_eq_nil in F as [F _]. destruct O1 as (G1 & G2 & _). rewrite G1, G2, F, app_nil_r. exact O4.
    + destruct (Z.eqb_spec m j) as [->|X]; [|rewrite !at_other by exact X; eauto]. rewrite !at_same. cbn [sb_pending].
      rewrite U in R. cbn [receive_all] in R. rewrite RS in R. cbn [bind fst snd] in R.
      destruct (receive_all dbg j p1 u) as [[p2 o2]|]; cbn [bind fst snd] in R; [|discriminate]. apply same_ok in R. injection R as <- <-.
      rewrite flat_map_app' in F. apply app_eq_nil in F as [_ F]. eauto.
  - rewrite (other_received _ s O1 H) in E. cbn [bind fst snd] in E. apply same_ok in E. subst n'.
    constructor; cbn [nt_pub nt_up nt_down nt_sub]; trivial. unfold spread. rewrite app_nil_r. eauto.
  - pose proof O1 as (G1 & G2 & _). rewrite G1, G2 in E. destruct (other_to j (nt_sub n j) s H) as (b & EB & V & FB). rewrite EB in E. cbn [bind] in E.
    apply same_ok in E. subst n'. constructor; cbn [nt_pub nt_up nt_down nt_sub]; trivial.
    + destruct (Z.eqb_spec m j) as [->|X]; [rewrite at_same; congruence|now rewrite at_other by exact X].
    + destruct (Z.eqb_spec m j) as [->|X]; [|rewrite at_other by exact X; eauto]. rewrite at_same.
      destruct (FB _ _ _ R) as (ps' & o' & R2 & O5). exists ps', o'. split; [exact R2|congruence].
  - destruct (else_received _ j x c i O1 H) as (s & EC & RC). rewrite EC in E. cbn [bind] in E. rewrite RC in E. cbn [bind fst snd] in E. apply same_ok in E. subst n'.
    constructor; cbn [nt_pub nt_up nt_down nt_sub]; trivial. unfold spread. rewrite app_nil_r. eauto.
  - destruct (also_sent _ j x c i v O1 H) as (ms & EM & G & B). rewrite EM in E. cbn [bind] in E. apply same_ok in E. subst n'.
    eapply (off_spread m vs n (next_request (nt_pub n)) (nt_up n) ms [] (fun _ => false)); eauto.
Qed.
Lemma off_run m vs : is_u28 m -> forall hs n n', off m vs n -> Forall (happening_ok ids P r) hs -> ~ In (HStart m) hs -> run dbg ids n hs = Ok n' -> sb_values (nt_sub n' m) = vs.
Proof.
  intros M. induction hs as [|h hs IH]; intros n n' O F N R; cbn [run] in R.
  - apply same_ok in R. subst n'. apply O.
  - apply Forall_cons_iff in F as [F1 F2]. destruct (happen dbg ids n h) as [n1|] eqn:E; cbn [bind] in R; [|discriminate].
    eapply IH; [|exact F2| |exact R]; [|intros X; apply N; now right]. eapply off_happen; eauto. intros X. apply N. now left.
Qed.
Lemma inv_off hs n m : inv hs n -> is_u28 m -> nt_up n m = [] -> nt_down n m = [] -> wants m false hs = false -> off m (sb_values (nt_sub n m)) n.
Proof.
  intros [I1 I2 I3 I4] M U D W. destruct (I3 m M) as (cs & F & L). rewrite U in F. inversion F; subst. cbn in L. constructor; trivial.
  - intros k K. destruct (I3 k K) as (cs & F2 & _). exists cs. split; [exact F2|]. intros ->. rewrite U in F2. inversion F2; subst. constructor.
  - now rewrite L.
  - rewrite D. eexists _, []. split; reflexivity.
Qed.
End Net.

(* ---- the theorems -------------------------------------------------------------------------------------- *)

Lemma copies dbg ids P r v0 hs : subscription_ok ids P r v0 -> Forall (happening_ok ids P r) hs ->
  exists n, run dbg ids (quiet_net P r v0) hs = Ok n /\ forall m, is_u28 m ->
    follows (sb_values (nt_sub n m)) (bytes_of v0 :: history hs) /\
    (nt_up n m = [] -> nt_down n m = [] -> wants m false hs = true -> exists l, sb_values (nt_sub n m) = l ++ [present v0 hs]).
Proof.
  intros (ID & MP & RN & V) F. destruct (run_ok dbg ids P r v0 ID MP RN hs [] (quiet_net P r v0)) as (n & R & I); trivial; [now apply inv_quiet|].
  cbn [app] in I. exists n. split; [exact R|]. intros m M. split; [eapply at_any_time; eauto|]. eapply quiet_copy; eauto.
Qed.
Lemma delivered dbg ids P r v0 hs m : subscription_ok ids P r v0 -> Forall (happening_ok ids P r) hs -> is_u28 m ->
  exists a b n, run dbg ids (quiet_net P r v0) (hs ++ repeat (HUp m) a ++ repeat (HDown m) b) = Ok n /\
    nt_up n m = [] /\ nt_down n m = [] /\ (wants m false hs = true -> exists l, sb_values (nt_sub n m) = l ++ [present v0 hs]).
Proof.
  intros (ID & MP & RN & V) F M. destruct (run_ok dbg ids P r v0 ID MP RN hs [] (quiet_net P r v0)) as (n & R & I); trivial; [now apply inv_quiet|].
  cbn [app] in I. destruct (ups dbg ids P r v0 ID MP RN hs m M _ n I (le_n _)) as (n1 & R1 & U1 & I1).
  destruct (downs dbg ids P r v0 ID MP RN _ m M _ n1 I1 (le_n _)) as (n2 & R2 & D2 & U2 & I2).
  set (a := List.length (nt_up n m)) in *. set (b := List.length (nt_down n1 m)) in *. exists a, b, n2.
  assert (RA : forall x y k, run dbg ids k (x ++ y) = (k' <- run dbg ids k x ;; run dbg ids k' y)).
  { clear. induction x as [|h x IH]; intros y k; cbn [app run bind]; [reflexivity|]. destruct (happen dbg ids k h); cbn [bind]; [apply IH|reflexivity]. }
  rewrite !RA, R. cbn [bind]. rewrite RA, R1. cbn [bind]. rewrite R2. split; [reflexivity|]. rewrite U1 in U2. split; [exact U2|]. split; [exact D2|]. intros W.
  assert (DL : Forall (fun h => match h with HUp _ | HDown _ => True | _ => False end) (repeat (HUp m) a ++ repeat (HDown m) b)).
  { apply Forall_app. split; apply Forall_forall; intros h X; apply repeat_spec in X; now subst h. }
  destruct (wants_deliver m (wants m false hs) _ DL) as [W1 W2]. rewrite <- app_assoc in I2.
  destruct (quiet_copy dbg ids P r v0 _ n2 m I2 M U2 D2) as (l & E); [now rewrite wants_app, W1|]. exists l. rewrite E. do 2 f_equal. unfold present.
  now rewrite history_app, W2, app_nil_r.
Qed.
Lemma ended dbg ids P r v0 hs hs' n n' m : subscription_ok ids P r v0 -> Forall (happening_ok ids P r) (hs ++ hs') -> is_u28 m ->
  run dbg ids (quiet_net P r v0) hs = Ok n -> wants m false hs = false -> nt_up n m = [] -> nt_down n m = [] ->
  ~ In (HStart m) hs' -> run dbg ids n hs' = Ok n' -> sb_values (nt_sub n' m) = sb_values (nt_sub n m).
Proof.
  intros (ID & MP & RN & V) F M R W U D N R'. apply Forall_app in F as [F1 F2].
  destruct (run_ok dbg ids P r v0 ID MP RN hs [] (quiet_net P r v0)) as (n1 & R1 & I); trivial; [now apply inv_quiet|].
  rewrite R in R1. apply same_ok in R1. subst n1. cbn [app] in I.
  apply (off_run dbg ids P r v0 ID MP RN m (sb_values (nt_sub n m)) M hs' n n'); trivial. now apply (inv_off dbg ids P r v0 hs n m).
Qed.
