(* Lemmas for C109: both ways, and MIDI 1 bytes. *)
From Coq Require Import ZArith List Bool Lia ZifyBool ZifyNat.
From Verif Require Import Base Bits Packet PacketSpec PacketProofs ByteStream StreamSpec StreamLemmas StreamCalls StreamProofs SessionSpec SessionProofs BridgeProofs
  Messages Types ChannelVoice VoiceSpec VoiceProofs VoiceTranslate ReceiverSpec Engine EngineSpec EngineBytesSpec EngineBytesProofs Translate TranslateSpec TranslateProofs.
Import ListNotations.
Local Open Scope Z_scope.
Local Open Scope res_scope.

(* ---- both ways ------------------------------------------------------------------------------------ *)

Definition unvel (x : item m1msg) : item m1msg := match x with Message g ch m => Message g ch (without_zero_velocity m) | Other p => Other p end.

Lemma each_filter A B (f : A -> option B) (p : item A -> bool) (q : item B -> bool) l :
  (forall x, In x l -> filter q (each f [x]) = filter q (if p x then each f [x] else [])) -> filter q (each f l) = filter q (each f (filter p l)).
Proof.
  induction l as [|x l IH]; [reflexivity|]. intros H.
  assert (E : forall x l, each f (x :: l) = each f [x] ++ each f l) by (intros; unfold each; cbn [flat_map]; now rewrite app_nil_r).
  cbn [filter]. rewrite E, filter_app, H, IH by (try (left; reflexivity); intros; apply H; now right). destruct (p x).
  - rewrite (E x (filter p l)), filter_app. reflexivity.
  - reflexivity.
Qed.

Lemma back_plain xs ys : Forall (item_ok m1_ok) xs -> plainly ys = plainly (each translate_to_midi2 xs) ->
  filter plain1 (each translate_to_midi1 ys) = map unvel (filter plain1 xs).
Proof.
  intros H P. rewrite (each_filter _ _ translate_to_midi1 plain2 plain1 ys).
  - unfold plainly in P. rewrite P. clear P. induction H as [|x xs Hx H IH]; [reflexivity|].
    assert (E : forall A B (f : A -> option B) x l, each f (x :: l) = each f [x] ++ each f l) by (intros; unfold each; cbn [flat_map]; now rewrite app_nil_r).
    assert (E' : forall A B (f : A -> option B) a b, each f (a ++ b) = each f a ++ each f b) by (intros; unfold each; apply flat_map_app).
    rewrite E, filter_app, E', filter_app, IH. replace (x :: xs) with ([x] ++ xs) by reflexivity. rewrite filter_app, map_app. f_equal.
    destruct x as [g ch m|p]; [|reflexivity]. destruct Hx as [_ Hm].
    destruct (translate_to_midi2 m) as [m2|] eqn:T.
    + destruct (translate_back m m2 Hm T) as [B _]. unfold each at 2. cbn [flat_map]. rewrite T. cbn [app].
      destruct m as [n v|n v|n v|n v|p|v|v]; cbn [translate_to_midi2] in T.
      * injection T as <-. cbn [filter plain2]. unfold each. cbn [flat_map]. rewrite B. reflexivity.
      * assert (Q : filter plain2 [Message g ch m2] = [Message g ch m2]) by (destruct (v =? 0); injection T as <-; reflexivity).
        rewrite Q. unfold each. cbn [flat_map]. rewrite B. cbn [app filter plain1 map unvel]. cbn [without_zero_velocity]. destruct v; reflexivity.
      * injection T as <-. cbn [filter plain2]. unfold each. cbn [flat_map]. rewrite B. reflexivity.
      * destruct (existsb _ _) eqn:X; [discriminate|]. injection T as <-. cbn [filter plain2]. unfold each. cbn [flat_map]. rewrite B. cbn [without_zero_velocity app filter plain1]. rewrite X. reflexivity.
      * injection T as <-. reflexivity.
      * injection T as <-. cbn [filter plain2]. unfold each. cbn [flat_map]. rewrite B. reflexivity.
      * injection T as <-. cbn [filter plain2]. unfold each. cbn [flat_map]. rewrite B. reflexivity.
    + unfold each at 2. cbn [flat_map]. rewrite T. cbn [app filter each flat_map].
      destruct m as [n v|n v|n v|n v|p|v|v]; cbn [translate_to_midi2] in T; try discriminate.
      * destruct (v =? 0); discriminate.
      * cbn [plain1]. destruct (existsb _ _); [reflexivity|discriminate].
  - intros x _. destruct x as [g ch m|p]; [|reflexivity].
    destruct m as [| | | | | | |? ? a ?|? ? a ?| |c w|p bk| | |]; try reflexivity. cbn [plain2]. unfold each. cbn [flat_map translate_to_midi1]. now destruct bk.
Qed.

Lemma there_and_back xs : Forall (item_ok m1_ok) xs ->
  exists st ys zs, up_run new_up (map (item_packet layout1) xs) = Ok (st, ys) /\ down_run ys = map (item_packet layout1) zs /\
    Forall (item_ok m1_ok) zs /\
    (forall g ch k b i, parameter1 k b i (said g ch (rev zs)) = parameter1 k b i (said g ch (rev xs))) /\
    (forall g ch, program1 (said g ch (rev zs)) = program1 (said g ch (rev xs))) /\
    filter plain1 zs = map unvel (filter plain1 xs).
Proof.
  intros H. destruct (up_holds xs H) as (st & ys & E & K & P & G & L).
  destruct (down_holds ys K) as (zs & D & Z & P' & G' & L').
  exists st, (map (item_packet layout2) ys), zs. split; [exact E|]. split; [exact D|]. split; [exact Z|].
  assert (R : forall g ch, Forall m1_ok (said g ch (rev xs))) by (intros; now apply said_ok, Forall_rev).
  split; [|split].
  - intros g ch k b i. destruct ((b =? 127) && (i =? 127)) eqn:N.
    + assert (Nul : forall h, parameter1 k b i h = None).
      { induction h as [|m h IH]; [reflexivity|]. cbn [parameter1]. destruct m; trivial.
        assert (A : applies k b i h = false) by (unfold applies; now rewrite N, andb_false_r). now rewrite A, !andb_false_r. }
      now rewrite !Nul.
    + rewrite P' by (intros X; injection X as -> ->; discriminate). rewrite P.
      destruct (parameter1 k b i (said g ch (rev xs))) as [v|] eqn:V; [|reflexivity].
      apply parameter1_range in V; [|apply R]. destruct (mcm_14_32_range v V) as [_ X]. cbn [option_map]. f_equal. exact X.
  - intros g ch. now rewrite G', G.
  - rewrite L'. now apply back_plain.
Qed.

Lemma back_and_there ys : Forall item2_ok ys ->
  exists st zs, up_run new_up (down_run (map (item_packet layout2) ys)) = Ok (st, map (item_packet layout2) zs) /\ Forall item2_ok zs /\
    (forall g ch k b i, (b, i) <> (127, 127) ->
       parameter2 k b i (said g ch (rev zs)) = option_map (fun v => min_center_max 14 32 (v / 2 ^ 18)) (parameter2 k b i (said g ch (rev ys)))) /\
    (forall g ch, program2 (said g ch (rev zs)) = program2 (said g ch (rev ys))).
Proof.
  intros H. destruct (down_holds ys H) as (xs & D & K & P & G & L). destruct (up_holds xs K) as (st & zs & E & Z & P' & G' & L').
  exists st, zs. rewrite D. split; [exact E|]. split; [exact Z|]. split.
  - intros g ch k b i N. rewrite P', P by exact N. now destruct (parameter2 k b i (said g ch (rev ys))).
  - intros g ch. now rewrite G', G.
Qed.

(* ---- any bytes --------------------------------------------------------------------------------------- *)

Lemma w0_type p : wf_packet p -> type p = w0 p / 268435456.
Proof. intros (W & _). unfold type, u8, is_u32 in *. bitlia. Qed.
Lemma output_item g e : 0 <= g < 16 -> wf_output g e ->
  match e with EPacket p => exists x, item_ok m1_ok x /\ p = item_packet layout1 x | ESysex _ => True end.
Proof.
  intros G W. pose proof (output_good g e G W) as O. destruct e as [p|s]; [|exact I]. destruct O as [O _].
  assert (Else : type p <> 2 -> type p <> 4 -> exists x, item_ok m1_ok x /\ p = item_packet layout1 x).
  { intros T2 T4. exists (Other p). split; [|reflexivity]. split; [exact O|]. rewrite <- (w0_type p O). cbn [In]. intuition lia. }
  destruct W as [(m & V & ->)|[(r & R & _ & ->)|(f & ds & F & L & D & _ & ->)]].
  - pose proof (valid_message_status _ V) as [S0 _]. destruct (Z_lt_ge_dec (ms_status m) 0xF0) as [C|C].
    + destruct (voice_layout g m V C G) as (ch & m1 & A & M & ->). exists (Message g ch m1). split; [split; assumption|reflexivity].
    + assert (T : type (short_packet g (ms_status m) (ms_data m)) = 1).
      { pose proof (annotate_u8 m V) as U. apply Forall_cons_iff in U. destruct U.
        rewrite StreamProofs.short_type by assumption. unfold short_ty. now replace (ms_status m <? 0xF0) with false by lia. }
      apply Else; rewrite T; discriminate.
  - assert (T : type (short_packet g r []) = 1).
    { rewrite StreamProofs.short_type by (trivial; unfold is_u8; lia). unfold short_ty. now replace (r <? 0xF0) with false by lia. }
    apply Else; rewrite T; discriminate.
  - assert (U : Forall is_u8 ds) by now apply Forall_u7_u8.
    assert (T := StreamLemmas.sx7_type g f ds G F L U). apply Else; rewrite T; discriminate.
Qed.

Lemma bytes_up g cb on cs : 0 <= g < 16 -> Forall valid_call cs ->
  exists ps out xs st ys, parser_calls (new_parser g cb on) cs = Ok (ps, out) /\
    packets_out out = map (item_packet layout1) xs /\ Forall (item_ok m1_ok) xs /\
    up_run new_up (packets_out out) = Ok (st, map (item_packet layout2) ys) /\ Forall item2_ok ys /\
    (forall g ch k b i, parameter2 k b i (said g ch (rev ys)) = option_map (min_center_max 14 32) (parameter1 k b i (said g ch (rev xs)))) /\
    (forall g ch, program2 (said g ch (rev ys)) = program1 (said g ch (rev xs))) /\
    filter plain2 ys = filter plain2 (each translate_to_midi2 xs).
Proof.
  intros G V. destruct (calls_wf g cb on cs G V) as (ps & out & E & W). exists ps, out.
  assert (C : forall x, configured g cs x -> 0 <= x < 16).
  { intros x [->|J]; [exact G|]. rewrite Forall_forall in V. now apply V in J. }
  assert (X : exists xs, packets_out out = map (item_packet layout1) xs /\ Forall (item_ok m1_ok) xs).
  { clear E. induction W as [|e out (x & Cx & We) W (xs & IH1 & IH2)]; [now exists []|].
    change (packets_out (e :: out)) with (match e with EPacket p => [p] | ESysex _ => [] end ++ packets_out out).
    pose proof (output_item x e (C x Cx) We) as O. destruct e as [p|s]; [|now exists xs].
    destruct O as (y & Oy & ->). exists (y :: xs). cbn [map app]. rewrite IH1. split; [reflexivity|now constructor]. }
  destruct X as (xs & X1 & X2). destruct (up_holds xs X2) as (st & ys & U & K & P). exists xs, st, ys.
  split; [exact E|]. split; [exact X1|]. split; [exact X2|]. rewrite X1. auto.
Qed.

(* ---- over a MIDI 1 cable ---------------------------------------------------------------------------- *)

Lemma wire_valid ch m : 0 <= ch < 16 -> m1_ok m -> valid_message (wire_message (ch, m)).
Proof.
  intros C M. unfold valid_message, wire_message. cbn [ms_status ms_data fst snd].
  destruct m as [n v|n v|n v|n v|n|v|v]; cbn [m1_kind m1_ok] in *;
    (split; [left; split; [lia|]; unfold cv_len; lazymatch goal with |- context[if ?c then _ else _] => destruct c eqn:X end; reflexivity || lia|];
     repeat (apply Forall_cons; [unfold is_u7, is_u14 in *; dlia|]); apply Forall_nil).
Qed.

Lemma cable_session g xs : 0 <= g < 16 -> Forall (item_ok m1_ok) xs -> (forall x, In x xs -> exists ch m, x = Message g ch m) ->
  exists ms, session filled (map (fun m => (g, m)) ms) (map (item_packet layout1) xs).
Proof.
  intros G. induction 1 as [|x xs Hx H IH]; intros A.
  - exists []. constructor.
  - destruct IH as (ms & S); [intros; apply A; now right|]. destruct (A x (or_introl eq_refl)) as (ch & m & ->). destruct Hx as [[_ Hc] Hm].
    exists (Short (wire_message (ch, m)) :: ms). cbn [map]. apply (session_cons filled (g, _) _ [_]); [|exact S].
    split; [exact G|]. split; [now apply wire_valid|]. cbn [fst snd item_packet]. f_equal.
    destruct (wire_layout g (ch, m)) as [E|E]; [symmetry; exact E|now destruct E].
Qed.

Lemma no_realtime ps : realtime_between [] ps ps.
Proof. induction ps; constructor; assumption. Qed.

Lemma over_cable g st ys : reached g false st -> Forall item2_ok ys -> (forall y, In y ys -> exists ch m, y = Message g ch m) ->
  exists bs st' ps up zs, stream_of_packets (down_run (map (item_packet layout2) ys)) = Ok bs /\
    feed_all st bs = Ok (st', map EPacket ps) /\ up_run new_up ps = Ok (up, map (item_packet layout2) zs) /\ Forall item2_ok zs /\
    (forall g ch k b i, (b, i) <> (127, 127) ->
       parameter2 k b i (said g ch (rev zs)) = option_map (fun v => min_center_max 14 32 (v / 2 ^ 18)) (parameter2 k b i (said g ch (rev ys)))) /\
    (forall g ch, program2 (said g ch (rev zs)) = program2 (said g ch (rev ys))).
Proof.
  intros R H A. pose proof (reached_group _ _ _ R) as G.
  destruct (back_and_there ys H) as (up & zs & E & K).
  assert (D := down_run_items ys H).
  destruct (cable_session g (flat_map down_item ys) G) as (ms & S).
  - clear - H. induction H as [|x ys Hx H IH]; [constructor|]. cbn [flat_map]. apply Forall_app. split; [|exact IH].
    destruct x as [g ch m|p].
    + destruct Hx as [HA [Hm _]]. cbn [down_item]. apply Forall_map. eapply Forall_impl; [|apply (down_msg_ok m Hm)]. intros a Ha. split; assumption.
    + repeat constructor; apply Hx.
  - intros x X. apply in_flat_map in X. destruct X as (y & Y & X). destruct (A y Y) as (ch & m & ->). cbn [down_item] in X.
    apply in_map_iff in X. destruct X as (m1 & <- & _). eauto.
  - destruct (session_unchanged g st ms _ [] _ R S (no_realtime _)) as (bs & st' & B & F).
    exists bs, st', (map (item_packet layout1) (flat_map down_item ys)), up, zs. rewrite D in *. auto.
Qed.
