(* Properties divided to fit *)
From Coq Require Import ZArith String List Bool Lia ZifyBool ZifyNat.
From Verif Require Import Base Bits Packet PacketSpec Messages Sysex SysexSpec Collector StreamSpec StreamProofs StreamLemmas CollectSpec CollectProofs CollectLemmas
  SendProofs CollectCalls ManySpec ManyProofs UniversalSysex CapInq PropEx CapSpec CapCalls CapProofs CapMake CapRead JsonSpec JsonProofs Transfer TransferSpec TransferProofs Fit FitSpec.
Import ListNotations.
Local Open Scope Z_scope.
Local Open Scope res_scope.
Local Open Scope list_scope.

Lemma same_ok {A} (a b : A) : Ok a = Ok b -> a = b.
Proof. congruence. Qed.

(* ---- the header does not depend on the chunk ----------------------------------------------- *)

Definition first_text (o : opening) : res (option (list Z)) :=
  match o with
  | OReply h => Ok (Some h)
  | OReplyStatus x => Ok (Some (make_rjson_int tag_status x))
  | OReplyMessage x m => t <- make_rjson_int_options tag_status x [(tag_message, m)] ;; Ok (Some t)
  | OSet r => Ok (Some (make_rjson_text tag_resource r))
  | OSetOptions r l => t <- make_rjson_text_options tag_resource r l ;; Ok (Some t)
  | OSubscribe r c i => t <- make_rjson_text_options tag_resource r [(tag_command, c); (tag_subscribeId, i)] ;; Ok (Some t)
  end.
Lemma first_build dbg a o k : pe_build dbg a (first_call o k) =
  (t <- first_text o ;; build dbg (pe_message a (first_call o k) t)).
Proof.
  destruct a as [s d r v], k as [n t c], o; cbn [first_call pe_build first_text]; unfold make_get_property_data_reply_message,
    make_set_property_data_inquiry_options, make_subscription_inquiry_chunk; try reflexivity;
  match goal with |- context [?f ?x ?y ?z] => destruct (f x y z) as [u|] eqn:E; [|idtac]; reflexivity end.
Qed.

Lemma first_text_ok o k : pe_proper (first_call o k) -> all7 (pe_texts (first_call o k)) ->
  exists h, first_text o = Ok h /\ header_is (first_call o k) h /\ all7 (text_of h).
Proof.
  intros P T.
  assert (N1 : plain (str "resource")) by now apply plain_name.
  assert (N2 : plain (str "status")) by now apply plain_name.
  assert (N3 : plain (str "message")) by now apply plain_name.
  assert (N4 : plain (str "command")) by now apply plain_name.
  assert (N5 : plain (str "subscribeId")) by now apply plain_name.
  assert (A1 : all7 (str "resource")) by now apply all7_name.
  assert (A2 : all7 (str "status")) by now apply all7_name.
  assert (A3 : all7 (str "message")) by now apply all7_name.
  assert (A4 : all7 (str "command")) by now apply all7_name.
  assert (A5 : all7 (str "subscribeId")) by now apply all7_name.
  assert (RO : forall x l, plain x -> Forall proper_option l -> all7 (x ++ List.concat (map (fun kv => fst kv ++ snd kv) l)) ->
      exists t, make_rjson_text_options tag_resource x l = Ok t /\
        parse_object t = Some (resource_field x :: map option_field l) /\ all7 t).
  { intros x l X O X7. destruct (rjson_text_options_ok tag_resource x l N1 X O) as (t & E & F).
    exists t. repeat split; trivial. rewrite text_options_eq in E by now apply proper_nonempty. apply same_ok in E. subst t.
    unfold all7 in X7. apply Forall_app in X7. apply all7_object; [now apply all7_text_member|now apply all7_options]. }
  destruct o as [h|x|x m|r|r l|r c i]; cbn [first_call pe_proper pe_texts first_text] in *; unfold header_is; cbn [first_call pe_header_of].
  - eexists. repeat split. exact T.
  - eexists. split; [reflexivity|]. split; [eexists; split; [reflexivity|now apply rjson_int_ok]|].
    cbn [text_of]. rewrite int_eq. apply all7_object; [now apply all7_int_member|constructor].
  - destruct P as [P1 P2]. assert (O : Forall proper_option [(tag_message, m)]) by (constructor; [now apply proper_named|constructor]).
    destruct (rjson_int_options_ok tag_status x _ N2 P1 O) as (t & E & F). rewrite E. cbn [bind]. exists (Some t). split; [reflexivity|].
    split; [eexists; split; [reflexivity|exact F]|]. cbn [text_of]. rewrite int_options_eq in E by now apply proper_nonempty.
    apply same_ok in E. subst t. apply all7_object; [now apply all7_int_member|]. apply all7_options. cbn [map List.concat fst snd].
    rewrite app_nil_r. apply Forall_app. now split.
  - eexists. split; [reflexivity|]. split; [eexists; split; [reflexivity|now apply rjson_text_ok]|].
    cbn [text_of]. rewrite text_eq. apply all7_object; [now apply all7_text_member|constructor].
  - destruct P as [P1 P2]. destruct (RO r l P1 P2 T) as (t & E & F & G). rewrite E. cbn [bind]. exists (Some t). split; [reflexivity|].
    split; [eexists; split; [reflexivity|exact F]|exact G].
  - destruct P as (P1 & P2 & P3). destruct (RO r [(tag_command, c); (tag_subscribeId, i)]) as (t & E & F & G); trivial.
    { constructor; [now apply proper_named|]. constructor; [now apply proper_named|constructor]. }
    { unfold all7 in *. rewrite !Forall_app in T. cbn [map List.concat fst snd]. rewrite !Forall_app. repeat split; try tauto; constructor. }
    rewrite E. cbn [bind]. exists (Some t). split; [reflexivity|]. split; [eexists; split; [reflexivity|exact F]|exact G].
Qed.

(* ---- sizes ------------------------------------------------------------------------------------ *)

Lemma size_app {A} (l m : list A) : size (l ++ m) = size l + size m.
Proof. unfold size. rewrite app_length. lia. Qed.
Lemma wire_size a p h : size (sx_data (wire_of (pe_message a p h))) =
  21 + size (text_of h) + size (text_of (pk_data (pe_chunk_of p))).
Proof.
  unfold wire_of, pe_message. cbn [header_of payload_of]. unfold ci_wire. cbn [sx_data].
  assert (LE : forall n v, size (le7 n v) = Z.of_nat n).
  { intros n. induction n as [|n IH]; intros v; [reflexivity|]. cbn [le7]. rewrite size_cons, IH. lia. }
  change (match h with Some l => l | None => [] end) with (text_of h).
  change (match pk_data (pe_chunk_of p) with Some l => l | None => [] end) with (text_of (pk_data (pe_chunk_of p))).
  rewrite !size_app, !LE. change (size [pc_device a; 13; pe_subtype p; 2]) with 4. lia.
Qed.
Lemma call_size dbg a p h s : all7 (text_of h) -> size (text_of h) < 16384 -> pe_in_range a (pe_chunk_of p) ->
  build dbg (pe_message a p h) = Ok s -> size (sx_data s) = 21 + size (text_of h) + size (text_of (pk_data (pe_chunk_of p))).
Proof.
  intros H7 L R B. pose proof (call_in_range a p h H7 L R) as IR.
  rewrite build_eq in B by (try apply in_range_typed; try (intros _; apply in_range_checked); exact IR). injection B as <-. apply wire_size.
Qed.

Definition fits_in (n : Z) (m : sysex) : Prop := size (sx_data m) + 3 <= n.

Lemma later_sizes dbg x max : transfer_ok x -> forall ps i ms, Forall piece_ok ps -> 2 <= i -> i + size ps = tr_count x + 1 ->
  Forall (fun p => 24 + size p <= max) ps -> later_messages dbg x i ps = Ok ms -> Forall (fits_in max) ms /\ length ms = length ps.
Proof.
  intros (S & D & R & V & _ & _ & _ & N) ps. induction ps as [|p ps IH]; intros i ms P I E M B; cbn [later_messages] in B.
  - injection B as <-. split; [constructor|reflexivity].
  - apply Forall_cons_iff in P as [P1 P2]. apply Forall_cons_iff in M as [M1 M2]. rewrite size_cons in E.
    assert (Q : 0 <= size ps) by (unfold size; lia).
    rewrite later_build in B. destruct (build dbg _) as [s|] eqn:BS; cbn [bind] in B; [|discriminate].
    destruct (later_messages dbg x (i + 1) ps) as [r|] eqn:BR; cbn [bind] in B; [|discriminate]. injection B as <-.
    destruct (IH (i + 1) r P2) as [I1 I2]; trivial; try lia. split; [|cbn [length]; now rewrite I2]. constructor; [|exact I1].
    apply call_size in BS.
    + rewrite later_chunk in BS. cbn [text_of pk_data] in BS. unfold fits_in. change (size (@nil Z)) with 0 in BS. lia.
    + constructor.
    + reflexivity.
    + rewrite later_chunk. unfold pe_in_range, is_u14. cbn [pk_number pk_this pk_data]. destruct P1 as [P1 P3].
      refine (conj S (conj D (conj R (conj V (conj _ (conj _ (conj _ (conj _ (conj P1 P3))))))))); try lia.
Qed.

Lemma transfer_sizes dbg x h max ms : transfer_ok x -> first_text (tr_opening x) = Ok h -> all7 (text_of h) -> size (text_of h) < 16384 ->
  Forall (fun p => 24 + size (text_of h) + size p <= max) (tr_first x :: tr_rest x) -> transfer_messages dbg x = Ok ms ->
  Forall (fits_in max) ms /\ size ms = tr_count x.
Proof.
  intros OK H H7 L M B. pose proof OK as (S & D & R & V & _ & _ & F & N). unfold transfer_messages in B.
  apply Forall_cons_iff in F as [F1 F2]. apply Forall_cons_iff in M as [M1 M2].
  assert (Q : 0 <= size (tr_rest x)) by (unfold size; lia). unfold tr_count in N.
  rewrite first_build, H in B. cbn [bind] in B. destruct (build dbg _) as [s|] eqn:BS; cbn [bind] in B; [|discriminate].
  destruct (later_messages dbg x 2 (tr_rest x)) as [r|] eqn:BR; cbn [bind] in B; [|discriminate]. injection B as <-.
  destruct (later_sizes dbg x max OK (tr_rest x) 2 r) as [I1 I2]; trivial.
  { lia. }
  { unfold tr_count. lia. }
  { eapply Forall_impl; [|exact M2]. cbn beta. intros p. assert (0 <= size (text_of h)) by apply Zle_0_nat. lia. }
  split; [|unfold tr_count; rewrite size_cons; unfold size; lia]. constructor; [|exact I1].
  apply call_size in BS; trivial.
  - rewrite first_chunk in BS. cbn [text_of pk_data] in BS. unfold fits_in. lia.
  - rewrite first_chunk. unfold pe_in_range, is_u14, tr_count. cbn [pk_number pk_this pk_data]. destruct F1 as [P1 P3].
    refine (conj S (conj D (conj R (conj V (conj _ (conj _ (conj _ (conj _ (conj P1 P3))))))))); try lia.
Qed.

(* the header that arrives is the one that was made *)
Lemma transfer_chunks dbg x h : transfer_ok x -> first_text (tr_opening x) = Ok h -> all7 (text_of h) -> size (text_of h) < 16384 ->
  exists ms, transfer_messages dbg x = Ok ms /\
    Forall2 (tchunk_ok x dbg) ms
      (mkCM (opening_subtype (tr_opening x)) (pc_src (tr_common x)) (pc_dst (tr_common x)) (pc_request (tr_common x)) (text_of h)
         (tr_count x) 1 (tr_first x) :: later_chunks x 2 (tr_rest x)).
Proof.
  intros OK H H7 L. pose proof OK as (S & D & R & V & _ & _ & FP & N). apply Forall_cons_iff in FP as [F1 F2].
  assert (Q : 0 <= size (tr_rest x)) by (unfold size; lia). unfold tr_count in N.
  destruct (call_read dbg (tr_common x) (first_call (tr_opening x) (mkChunk (tr_count x) 1 (Some (tr_first x)))) h H7 L) as (s & B' & S7 & RC & BL).
  { rewrite first_chunk. unfold pe_in_range, is_u14, tr_count. cbn [pk_number pk_this pk_data]. destruct F1 as [P1 P3].
    refine (conj S (conj D (conj R (conj V (conj _ (conj _ (conj _ (conj _ (conj P1 P3))))))))); try lia. }
  { right. rewrite first_chunk. cbn. lia. }
  rewrite first_subtype, first_chunk in RC. rewrite first_subtype in BL. cbn [pk_number pk_this pk_data] in RC.
  destruct (later_ok dbg x OK (tr_rest x) 2 F2) as (ms & M & G); [lia|unfold tr_count; lia|].
  exists (s :: ms). split.
  { unfold transfer_messages. rewrite first_build, H. cbn [bind]. rewrite B'. cbn [bind]. now rewrite M. }
  constructor; trivial. split; [exact RC|]. split; trivial. unfold transfer_key. rewrite BL. apply Z.eqb_refl.
Qed.
Lemma transfer_text dbg x h : transfer_ok x -> first_text (tr_opening x) = Ok h -> all7 (text_of h) -> size (text_of h) < 16384 ->
  exists ms, transfer_messages dbg x = Ok ms /\
    Forall (fun m => sx_id m = 0x7E0000 /\ Forall is_u7 (sx_data m) /\
      belongs (pc_dst (tr_common x)) (transfer_key x) m = true) ms /\
    forall ss, Forall wf_sysex ss -> filter (belongs (pc_dst (tr_common x)) (transfer_key x)) ss = ms ->
    came_through dbg x (text_of h) ss.
Proof.
  intros OK H H7 L. destruct (transfer_chunks dbg x h OK H H7 L) as (ms & TM & F). exists ms. split; [exact TM|]. split.
  - clear - F. induction F as [|a m ss cs [_ [[I D] B]] _ IH]; constructor; auto.
  - intros ss W E ps. destruct (receive_all_track dbg (pc_dst (tr_common x)) (transfer_key x) ss ps W) as (q & o & cs & RA & C & _ & O).
    exists q, o. split; trivial. rewrite E in C.
    assert (cs = mkCM (opening_subtype (tr_opening x)) (pc_src (tr_common x)) (pc_dst (tr_common x)) (pc_request (tr_common x)) (text_of h)
            (tr_count x) 1 (tr_first x) :: later_chunks x 2 (tr_rest x)) as ->.
    { eapply forall2_fun; [|exact C|]. { cbn. intros ? ? ? X Y. congruence. }
      clear - F. induction F as [|a m ss cs' [X _] _ IH]; constructor; auto. }
    rewrite O, transfer_run. reflexivity.
Qed.

(* ---- pieces --------------------------------------------------------------------------------- *)

Lemma cut_concat n : (0 < n)%nat -> forall f l, (length l <= f)%nat -> concat (cut f n l) = l.
Proof.
  intros N. induction f as [|f IH]; intros [|b l] L; cbn [cut concat]; try reflexivity; cbn [length] in L; [lia|].
  rewrite IH by (rewrite skipn_length; cbn [length]; lia). apply firstn_skipn.
Qed.
Lemma cut_pieces n : forall f l, Forall (fun p => (length p <= n)%nat) (cut f n l).
Proof.
  induction f as [|f IH]; intros [|b l]; cbn [cut]; try constructor; [|apply IH]. rewrite firstn_length. lia.
Qed.
Lemma cut_bytes n : forall f l, Forall is_u7 l -> Forall (Forall is_u7) (cut f n l).
Proof.
  induction f as [|f IH]; intros [|b l] F; cbn [cut]; try constructor.
  - rewrite <- (firstn_skipn n) in F. apply Forall_app in F. apply F.
  - apply IH. rewrite <- (firstn_skipn n) in F. apply Forall_app in F. apply F.
Qed.
(* not more pieces than necessary *)
Lemma cut_count n : (0 < n)%nat -> forall f l, (length l <= f)%nat -> Z.of_nat (length (cut f n l)) = (Z.of_nat (length l) + Z.of_nat n - 1) / Z.of_nat n.
Proof.
  intros N. induction f as [|f IH]; intros l L.
  - destruct l; cbn [length] in L; [|lia]. cbn. rewrite Z.div_small; lia.
  - destruct l as [|b l]; [cbn; rewrite Z.div_small; lia|]. set (k := b :: l) in *. cbn [cut]. destruct k as [|x k'] eqn:K; [discriminate|]. rewrite <- K in *.
    cbn [length]. assert (LK : (1 <= length k)%nat) by (rewrite K; cbn; lia). rewrite Nat2Z.inj_succ, IH by (rewrite skipn_length; lia).
    rewrite skipn_length. destruct (Nat.le_gt_cases (length k) n) as [C|C].
    + replace (length k - n)%nat with 0%nat by lia. rewrite (Z.div_small (Z.of_nat 0 + _ - 1)) by lia.
      assert (D := Z.div_unique (Z.of_nat (length k) + Z.of_nat n - 1) (Z.of_nat n) 1 (Z.of_nat (length k) - 1) ltac:(lia) ltac:(lia)). lia.
    + replace (Z.of_nat (length k) + Z.of_nat n - 1) with ((Z.of_nat (length k - n) + Z.of_nat n - 1) + 1 * Z.of_nat n) by lia.
      rewrite Z.div_add by lia. lia.
Qed.

(* ---- a collector with a limit ------------------------------------------------------------------ *)

Lemma decode7_size l : size l <= size (sx_data (decode7 l)) + 3.
Proof.
  destruct l as [|m r]; cbn [decode7]; [cbn; lia|]. destruct (m =? 0); [|cbn [sx_data]; rewrite size_cons; lia].
  destruct r as [|u [|v r]]; cbn [sx_data]; rewrite ?size_cons; first [lia|cbn; lia].
Qed.
Lemma messages_limited dec max i css : forall st, a_clean st -> Forall (fun cs => cs <> [] /\ fits dec max [] cs) css ->
  snd (a_run dec max st (concat (map (message_of i) css))) = map (fun cs => (dec (concat cs), i)) css.
Proof.
  intros st C F. revert st C. induction F as [|cs css [N FT] _ IH]; intros st C; [reflexivity|]. cbn [map concat].
  rewrite a_run_app, message_fits by auto. cbn [fst snd app]. rewrite IH by apply idle_clean. reflexivity.
Qed.

Lemma respects_fits max m : respects max m -> fits_in max m.
Proof.
  unfold respects, whole_size, fits_in. rewrite !size_app. change (size [0xF0]) with 1. change (size [0xF7]) with 1.
  unfold id_bytes. destruct (65536 <=? sx_id m); [change (size [sx_id m / 65536]) with 1|change (size [0; sx_id m / 256; sx_id m mod 256]) with 3]; lia.
Qed.
Lemma fits_respects max m : sx_id m = 0x7E0000 -> fits_in max m -> respects max m.
Proof.
  unfold respects, whole_size, fits_in. intros ->. rewrite !size_app. change (size [0xF0]) with 1. change (size [0xF7]) with 1.
  change (size (id_bytes 8257536)) with 1. lia.
Qed.
Lemma each_limited a max g (ms : Z -> list sysex) (t : traffic Z) :
  exact_alloc a -> 0 <= max -> 0 <= g < 16 ->
  (forall k p, In (Some k, p) t -> 0 <= k < 16) ->
  (forall k, 0 <= k < 16 -> Forall sendable7 (ms k) /\ sent_messages (fun m => send_sysex7 m k) (ms k) (sent_by (Z.eqb k) t)) ->
  Forall (fun p => wf_packet p /\ type p <> 3) (other_traffic t) -> Forall (respects max) (ms g) ->
  exists c', c7_calls a (c7_set_max a (new_collector7 true) max) (map KFeed (filter (for_group g) (map snd t))) = Ok (c', ms g).
Proof.
  intros A L G KS S O FI.
  assert (PK : forall k p, In (Some k, p) t -> wf_packet p /\ nth 0 (bytes p) 0 = 3 * 16 + k).
  { intros k p I. assert (K := KS k p I). destruct (S k K) as [F SM]. destruct (sender7 k _ _ K F SM) as [H _].
    rewrite Forall_forall in H. apply H. apply (sent_in t k p (Z.eqb k) I). apply Z.eqb_refl. }
  rewrite Forall_forall in O.
  assert (W : Forall wf_packet (filter (for_group g) (map snd t))).
  { apply Forall_filter, Forall_forall. intros p P. apply in_map_iff in P as ([[k|] q] & <- & I).
    - apply (PK k q I).
    - apply (O q). now apply other_in. }
  assert (C : contents content7 (filter (for_group g) (map snd t)) = contents content7 (sent_by (Z.eqb g) t)).
  { apply dispatched.
    - intros k p I. destruct (PK k p I) as [_ H]. assert (K := KS k p I). unfold for_group. rewrite H.
      replace ((3 * 16 + k) mod 16) with k by dlia. apply Z.eqb_sym.
    - intros p I. destruct (O p (other_in t p I)) as [WP T]. destruct (content7 p) eqn:E; [|reflexivity].
      exfalso. apply T. now apply (content7_type p c). }
  destruct (S g G) as [F SM]. destruct (sender7 g _ _ G F SM) as (_ & css & N & CT & M). rewrite CT in C.
  assert (LA := limit_exact a max A L).
  destruct (feeds7 a max _ a_idle _ _ LA (inv7_new a max true LA) W) as (c' & E & _). exists c'.
  rewrite E, C, messages_limited.
  - do 2 f_equal. rewrite map_map. cbn [fst]. exact M.
  - apply idle_clean.
  - rewrite <- M in FI. clear - N FI L. induction N as [|cs css N _ IH]; constructor; apply Forall_cons_iff in FI as [F1 F2]; [|now apply IH].
    split; [exact N|]. apply fits_total; [apply size7_sub|]. apply respects_fits in F1. unfold fits_in in F1. assert (Q := decode7_size (concat cs)).
    change (data_size decode7 []) with 0. lia.
Qed.

(* ---- all together -------------------------------------------------------------------------------- *)

Lemma divided dbg c o body : arguments_ok c o body ->
  exists h, header_is (first_call o (mkChunk 1 1 None)) h /\
    (size (text_of h) < 16384 -> forall max, let room := body_room max (size (text_of h)) in
     exists r, divide dbg max c o body = Ok r /\
     (r = None <-> room < 1 \/ 16383 * room < size body) /\
     forall xs, r = Some xs ->
       size xs = Z.max 1 ((size body + room - 1) / room) /\ Forall (respects max) xs /\
       exists x, tr_common x = c /\ tr_opening x = o /\ body_of x = body /\
         Forall (fun m => sx_id m = 0x7E0000 /\ Forall is_u7 (sx_data m) /\ belongs (pc_dst c) (transfer_key x) m = true) xs /\
         forall ss, Forall wf_sysex ss -> filter (belongs (pc_dst c) (transfer_key x)) ss = xs -> came_through dbg x (text_of h) ss).
Proof.
  intros (S & D & R & V & P & T & B7). destruct (first_text_ok o (mkChunk 1 1 None) P T) as (h & H & HI & H7).
  exists h. split; [exact HI|]. intros L max room.
  assert (IR : pe_in_range c (pe_chunk_of (first_call o (mkChunk 1 1 (Some []))))).
  { rewrite first_chunk. unfold pe_in_range, is_u14. cbn [pk_number pk_this pk_data].
    refine (conj S (conj D (conj R (conj V (conj _ (conj _ (conj _ (conj _ (conj _ _))))))))); try lia; try (cbn; lia). constructor. }
  destruct (call_read dbg c (first_call o (mkChunk 1 1 (Some []))) h H7 L IR) as (s & BS & [SI _] & _ & _).
  { right. rewrite first_chunk. cbn. lia. }
  assert (SZ := call_size dbg _ _ _ _ H7 L IR BS). rewrite first_chunk in SZ. cbn [pk_data text_of] in SZ. change (size (@nil Z)) with 0 in SZ.
  assert (TD : total_data_size s = 22 + size (text_of h)).
  { destruct s as [id d]. cbn [sx_id sx_data] in *. subst id. rewrite total_valid.
    - change (size (id_bytes 8257536)) with 1. lia.
    - left. exists 0x7E. split; [lia|reflexivity].
    - discriminate. }
  unfold divide. rewrite first_build, H. cbn [bind]. rewrite BS. cbn [bind]. rewrite TD.
  replace (max - (22 + size (text_of h) + 2)) with (max - 24 - size (text_of h)) by lia. fold (body_room max (size (text_of h))). fold room. assert (RE : room = Z.min 16383 (max - 24 - size (text_of h))) by reflexivity.
  destruct (Z.ltb_spec room 1) as [RM|RM].
  { exists None. split; [reflexivity|]. split; [split; [intros _; now left|reflexivity]|discriminate]. }
  set (n := Z.to_nat room). assert (N0 : (0 < n)%nat) by lia.
  set (ps := cut (length body) n body).
  assert (CC : concat ps = body) by (apply cut_concat; [exact N0|apply Nat.le_refl]).
  assert (CN : size ps = (size body + room - 1) / room).
  { unfold ps, size. rewrite cut_count by (try exact N0; apply Nat.le_refl). unfold n. rewrite Z2Nat.id by lia. reflexivity. }
  assert (SB : 0 <= size body) by apply Zle_0_nat.
  destruct (Z.ltb_spec 16383 (size ps)) as [CT|CT].
  { exists None. split; [reflexivity|]. split; [|discriminate]. split; [intros _; right|reflexivity].
    rewrite CN in CT. apply Z.lt_le_pred in CT || idtac.
    assert (Q := Z.mul_div_le (size body + room - 1) room ltac:(lia)). nia. }
  set (x := match ps with [] => mkTransfer c o [] [] | p :: r => mkTransfer c o p r end).
  assert (X1 : tr_common x = c) by (unfold x; destruct ps; reflexivity).
  assert (X2 : tr_opening x = o) by (unfold x; destruct ps; reflexivity).
  assert (X3 : body_of x = body) by (rewrite <- CC; unfold x, body_of; destruct ps; reflexivity).
  assert (X4 : tr_count x = Z.max 1 (size ps)).
  { unfold x, tr_count. destruct ps as [|p r]; cbn [tr_rest]; [reflexivity|]. rewrite size_cons. assert (0 <= size r) by apply Zle_0_nat. lia. }
  assert (PC : Forall (fun p => Forall is_u7 p /\ size p <= room) (tr_first x :: tr_rest x)).
  { assert (Q : Forall (fun p => Forall is_u7 p /\ size p <= room) ps).
    { assert (Q1 := cut_bytes n (length body) body B7). assert (Q2 := cut_pieces n (length body) body). fold ps in Q1, Q2.
      rewrite Forall_forall in *. intros p I. split; [now apply Q1|]. specialize (Q2 p I). unfold size. lia. }
    unfold x. destruct ps as [|p r]; cbn [tr_first tr_rest]; [|exact Q]. constructor; [|constructor]. split; [constructor|cbn; lia]. }
  assert (OK : transfer_ok x).
  { unfold transfer_ok. rewrite X1, X2. repeat (split; [assumption|]). split; [|rewrite X4; lia].
    eapply Forall_impl; [|exact PC]. cbn beta. intros p [Q1 Q2]. split; [exact Q1|]. lia. }
  destruct (transfer_text dbg x h OK) as (ms & M & B & CTH); trivial. { now rewrite X2. }
  fold ps. fold x. rewrite M. cbn [bind]. exists (Some ms). split; [reflexivity|]. split.
  { split; [discriminate|]. intros [?|K]; [lia|]. exfalso.
    assert (Q := Z.mul_succ_div_gt (size body + room - 1) room ltac:(lia)). rewrite <- CN in Q. nia. }
  intros xs E. injection E as <-.
  destruct (transfer_sizes dbg x h max ms) as [Z1 Z2]; trivial. { now rewrite X2. }
  { eapply Forall_impl; [|exact PC]. cbn beta. intros p [_ Q]. lia. }
  rewrite Z2, X4, CN. split; [reflexivity|]. split.
  { rewrite Forall_forall in *. intros m I. apply fits_respects; [now apply B|now apply Z1]. }
  exists x. rewrite X1 in B, CTH. rewrite X1, X2, X3. auto.
Qed.

Lemma fit_packets dbg c o body : arguments_ok c o body ->
  exists h, header_is (first_call o (mkChunk 1 1 None)) h /\
    (size (text_of h) < 16384 -> forall max xs, divide dbg max c o body = Ok (Some xs) ->
     exists x, tr_common x = c /\ tr_opening x = o /\ body_of x = body /\
       forall a lim g (ms : Z -> list sysex) (t : traffic Z),
         exact_alloc a -> max <= lim -> 0 <= g < 16 ->
         (forall k p, In (Some k, p) t -> 0 <= k < 16) ->
         (forall k, 0 <= k < 16 -> Forall sendable7 (ms k) /\
            sent_messages (fun m => send_sysex7 m k) (ms k) (sent_by (Z.eqb k) t)) ->
         Forall (fun p => wf_packet p /\ type p <> 3) (other_traffic t) ->
         Forall (respects lim) (ms g) ->
         filter (belongs (pc_dst c) (transfer_key x)) (ms g) = xs ->
         exists c', c7_calls a (c7_set_max a (new_collector7 true) lim) (map KFeed (filter (for_group g) (map snd t))) = Ok (c', ms g) /\
           came_through dbg x (text_of h) (ms g)).
Proof.
  intros OK. destruct (divided dbg c o body OK) as (h & HI & G). exists h. split; [exact HI|]. intros L max xs E.
  destruct (G L max) as (r & E2 & RN & R). rewrite E in E2. apply same_ok in E2. subst r.
  destruct (R xs eq_refl) as (_ & _ & x & X1 & X2 & X3 & _ & X5). exists x. do 3 (split; [assumption|]).
  intros a lim g ms t A ML GG KS S O RS F.
  assert (M : 0 <= max).
  { destruct (Z.le_gt_cases 0 max) as [|N]; [assumption|]. exfalso.
    assert (Q : Some xs = None) by (apply RN; left; unfold body_room; assert (0 <= size (text_of h)) by apply Zle_0_nat; lia). discriminate. }
  destruct (each_limited a lim g ms t) as (c' & CE); trivial; [lia|]. exists c'. split; [exact CE|]. apply X5; [|exact F].
  destruct (S g GG) as [SD _]. eapply Forall_impl; [|exact SD]. apply sendable_wf.
Qed.
