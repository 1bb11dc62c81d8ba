(* Lemmas for C88. *)
From Coq Require Import ZArith List Bool Lia ZifyBool ZifyNat.
From Verif Require Import Base Bits Packet PacketSpec PacketProofs Messages Sysex ByteStream Collector CollectProofs CollectLemmas CollectCalls Types
  ChannelVoice VoiceTranslate VoiceGetters Utility UniversalSysex SysexProofs CapInq CapSpec CapProofs CapWire
  Endpoint EndpointSpec EndpointProofs Flex FlexSpec FlexProofs StreamSpec StreamLemmas StreamProofs StreamCalls StreamBytes
  DataPackets TextIO TextSpec TextProofs Docs DocsSpec DocsProofs Receiver ReceiverSpec.
Import ListNotations.
Local Open Scope Z_scope.
Local Open Scope res_scope.

(* ---- one packet ---------------------------------------------------------------------- *)

Lemma bend_bits p : wf_packet p -> (eight_bit_bend p = true <-> bad_packet p).
Proof.
  intros W. unfold eight_bit_bend, bad_packet. rewrite !andb_true_iff, !Z.eqb_eq, Z.leb_le.
  rewrite type_spec by exact W. rewrite byte4_spec, status_spec, land_240.
  split; intros (A & B); [destruct A as [A C]|destruct B as [C B]].
  - split; [exact A|]. split; [|exact B]. dlia.
  - split; [split; [exact A|]|exact B]. dlia.
Qed.

Lemma processor_exact p : wf_packet p ->
  if eight_bit_bend p then exists f, processor p = Fault f else exists l, processor p = Ok l.
Proof.
  intros W. destruct (eight_bit_bend p) eqn:E.
  - apply bend_bits in E as B; [|exact W]. unfold eight_bit_bend in E.
    rewrite !andb_true_iff, !Z.eqb_eq, Z.leb_le in E. destruct E as [[T K] L].
    rewrite processor_kinds. cbv zeta. rewrite T, K. cbn.
    pose proof (pitch_bend_defined p W) as PB.
    destruct (get_channel_pitch_bend_value p) as [v|f]; [|exists f; reflexivity].
    exfalso. destruct PB as [PB _]. destruct B as (B1 & _ & B2).
    destruct PB as [X|X]; [exists v; reflexivity|lia|lia].
  - destruct (processor_any p W) as [(l & P & _)|B]; [exists l; exact P|].
    exfalso. fold (bad_packet p) in B. apply bend_bits in B; [congruence|exact W].
Qed.

Lemma read_stream_ok dbg p ks : wf_packet p -> exists l, read_stream dbg p ks = Ok l.
Proof.
  intros W. induction ks as [|k ks [l IH]]; cbn [read_stream]; [eauto|].
  destruct (view_iff dbg k p W) as [(_ & _ & ->)|(_ & _ & ->)]; cbn [bind]; [|eauto].
  rewrite read_meaning by exact W. cbn [bind]. rewrite IH. cbn [bind]. eauto.
Qed.

(* the part of a look that is always defined *)
Lemma look_cases careful dbg p : wf_packet p ->
  match (if careful && eight_bit_bend p then Ok [] else l <- processor p ;; Ok [Voices l]) with
  | Ok v => exists l, look careful dbg p = Ok l
  | Fault f => look careful dbg p = Fault f
  end.
Proof.
  intros W. unfold look.
  assert (U : exists u, (if type p =? 0 then m <- utility_view p ;; ts <- jr_get_timestamp m ;; Ok [Timestamp (status m) ts] else Ok []) = Ok u).
  { destruct (type p =? 0) eqn:T; [|eauto]. unfold utility_view, pt_utility. rewrite T. cbn [assert_ bind].
    unfold jr_get_timestamp. rewrite !get_byte_spec by lia. cbn [bind]. eauto. }
  destruct U as [u ->]. cbn [bind].
  destruct (to_midi2_total p) as [t T]. rewrite T.
  destruct (to_bytes_bound p W) as (b & B & _). rewrite B.
  destruct (read_stream_ok dbg p all_stream_kinds W) as [s S]. rewrite S.
  assert (F : exists f, (f <- as_flex_data_message_view dbg p ;;
    match f with Some m => r <- flex_read m ;; Ok [Flexible r] | None => Ok [] end) = Ok f).
  { destruct (flex_view_iff dbg p W) as [(_ & _ & ->)|(_ & _ & ->)]; cbn [bind]; [|eauto].
    rewrite flex_read_meaning by exact W. cbn [bind]. eauto. }
  destruct F as [f F].
  destruct (put_packet_text p (mkOut [] (mkFlags BaseDec false false AdjNone true) 0 32) W) as (ts & _ & P & _).
  { right. split; [discriminate|reflexivity]. }
  rewrite P.
  destruct (if careful && eight_bit_bend p then Ok [] else l <- processor p ;; Ok [Voices l]) as [v|e].
  - cbn [bind].
    destruct (as_flex_data_message_view dbg p) as [o|e]; [|discriminate F]. cbn [bind] in F |- *. rewrite F. cbn [bind].
    eauto.
  - reflexivity.
Qed.

Lemma look_careful dbg p : wf_packet p -> exists l, look true dbg p = Ok l.
Proof.
  intros W. pose proof (look_cases true dbg p W) as L. pose proof (processor_exact p W) as P. cbn [andb] in L.
  destruct (eight_bit_bend p); [exact L|]. destruct P as [l E]. rewrite E in L. exact L.
Qed.

Lemma look_same dbg p : eight_bit_bend p = false -> look false dbg p = look true dbg p.
Proof. intros E. unfold look. rewrite E. reflexivity. Qed.

Lemma look_fault dbg p : wf_packet p -> eight_bit_bend p = true -> exists f, look false dbg p = Fault f.
Proof.
  intros W E. pose proof (look_cases false dbg p W) as L. pose proof (processor_exact p W) as P. cbn [andb] in L.
  rewrite E in P. destruct P as [f P]. rewrite P in L. exists f. exact L.
Qed.

(* ---- one message ---------------------------------------------------------------------- *)

Lemma touch_ok {A} (r : res A) : reads r -> touch r = Ok tt.
Proof. intros [v ->]. reflexivity. Qed.

Ltac touching := rewrite ?touch_ok by assumption; cbn [bind].

Lemma read_ci_ok dbg k s : validate_of k s = Ok true -> read_ci dbg k s = Ok tt.
Proof.
  intros V. destruct (accepted_safe dbg k s V) as [C A]. unfold common_accessors in C.
  destruct C as (C1 & C2 & C3 & C4 & C5 & C6). unfold read_ci. touching.
  destruct k; cbn [accessors] in A; unfold property_accessors in A;
    repeat match goal with H : _ /\ _ |- _ => destruct H end; touching; reflexivity.
Qed.

Lemma read_views_ok dbg s ks : Forall is_u8 (sx_data s) -> ~ bad_message s -> exists l, read_views dbg s ks = Ok l.
Proof.
  intros U G. induction ks as [|k ks [l IH]]; cbn [read_views]; [eauto|].
  assert (V : exists b, validate_of k s = Ok b).
  { destruct (reads_version_first k) eqn:R; [|now apply validate_total].
    destruct (validate_of k s) as [b|f] eqn:E; [eauto|]. exfalso. apply G.
    destruct (discovery_fault k s R) as [D _]. destruct D as [D1 D2]; [eauto|]. split; [exact D1|]. unfold size in D2. lia. }
  destruct V as [b V]. rewrite (as_view_ok dbg k s b U V). cbn [bind]. destruct b; [|eauto].
  rewrite read_ci_ok by exact V. cbn [bind]. rewrite IH. cbn [bind]. eauto.
Qed.

Lemma read_views_short dbg s ks : Forall is_u8 (sx_data s) -> (length (sx_data s) < 4)%nat -> sx_id s <> 0x7E0000 ->
  read_views dbg s ks = Ok [].
Proof.
  intros U L I. induction ks as [|k ks IH]; cbn [read_views]; [reflexivity|].
  assert (V : validate_of k s = Ok false).
  { destruct (validate_of k s) as [[|]|f] eqn:E; [|reflexivity|].
    - apply accepted_size in E. unfold size in E. lia.
    - destruct (reads_version_first k) eqn:R.
      + destruct (discovery_fault k s R) as [D _]. destruct D as [D1 D2]; [eauto|]. contradiction.
      + destruct (validate_total k s R) as [b X]. congruence. }
  rewrite (as_view_ok dbg k s false U V). exact IH.
Qed.

Lemma read_views_first dbg s k ks f : validate_of k s = Fault f -> read_views dbg s (k :: ks) = Fault f.
Proof. intros D. cbn [read_views]. unfold as_view. rewrite D. reflexivity. Qed.

Lemma read_views_bad dbg s : bad_message s -> exists f, read_views dbg s all_kinds = Fault f.
Proof.
  intros [I L]. destruct (discovery_fault KDiscoveryInquiry s eq_refl) as [_ D].
  destruct D as [f D]; [split; [exact I|unfold size; lia]|]. exists f. unfold all_kinds. now apply read_views_first.
Qed.

Lemma reply_view dbg s : wf_sysex s -> is_identity_reply s = Ok true -> message_view dbg s = Ok s.
Proof.
  intros W H. apply is_reply_iff in H; [|exact W]. unfold message_view, check.
  destruct dbg; [|reflexivity].
  destruct H as [I [(dev & b & rest & D & _ & L)|(dev & rest & D & L)]]; rewrite I, D; unfold size;
    cbn [length]; rewrite L; reflexivity.
Qed.

Lemma read_universal_ok dbg s : wf_sysex s -> read_universal dbg s = Ok tt.
Proof.
  intros W. unfold read_universal.
  destruct (classify_total s) as (t & st & d & -> & -> & ->). cbn [touch bind].
  destruct (is_request_iff s W) as [[q Q] _]. rewrite Q. destruct (is_reply_total s) as [r E].
  assert (X : (r <- as_identity_reply_view dbg s ;;
    match r with Some m => touch (reply_identity m) | None => Ok tt end) = Ok tt).
  { unfold as_identity_reply_view, identity_reply_validate. rewrite E. cbn [bind]. destruct r; [|reflexivity].
    rewrite reply_view by assumption. destruct (reply_identity_safe s W E) as [i Y]. cbn [bind]. now rewrite Y. }
  destruct (universal_view_ok dbg s) as [(_ & _ & -> & d' & t' & st' & E1 & E2 & E3)|(_ & ->)]; cbn [bind].
  - rewrite E1, E2, E3. cbn [touch bind]. exact X.
  - cbn [touch bind]. exact X.
Qed.

Lemma bad_dec s : bad_message s \/ ~ bad_message s.
Proof. unfold bad_message. destruct (Z.eq_dec (sx_id s) 0x7E0000); destruct (Nat.lt_ge_cases (length (sx_data s)) 4); lia. Qed.

Lemma sysex7_careful dbg s : wf_sysex s -> exists l, read_sysex7 true dbg s = Ok l.
Proof.
  intros W. unfold read_sysex7. rewrite read_universal_ok by exact W. cbn [bind andb].
  destruct (Z.ltb_spec (size (sx_data s)) 4) as [L|L]; [eauto|].
  apply read_views_ok; [apply W|]. intros [_ B]. unfold size in L. lia.
Qed.

Lemma sysex7_same dbg s : wf_sysex s -> ~ bad_message s -> read_sysex7 false dbg s = read_sysex7 true dbg s.
Proof.
  intros W G. unfold read_sysex7. rewrite read_universal_ok by exact W. cbn [bind andb].
  destruct (Z.ltb_spec (size (sx_data s)) 4) as [L|L]; [|reflexivity].
  apply read_views_short; [apply W|unfold size in L; lia|]. intros I. apply G. split; [exact I|unfold size in L; lia].
Qed.

Lemma sysex7_fault dbg s : wf_sysex s -> bad_message s -> exists f, read_sysex7 false dbg s = Fault f.
Proof.
  intros W B. unfold read_sysex7. rewrite read_universal_ok by exact W. cbn [bind andb]. now apply read_views_bad.
Qed.

(* ---- the collectors hold and deliver bytes ---------------------------------------------- *)

Lemma u32_lor x b : is_u32 x -> is_u8 b -> is_u32 (Z.lor x b).
Proof.
  intros X B. unfold is_u32, is_u8 in *. split; [apply Z.lor_nonneg; lia|].
  destruct (Z.eq_dec (Z.lor x b) 0) as [->|N]; [lia|].
  change 4294967296 with (2 ^ 32). apply Z.log2_lt_pow2; [assert (0 <= Z.lor x b) by (apply Z.lor_nonneg; lia); lia|].
  rewrite Z.log2_lor by lia. apply Z.max_lub_lt.
  - destruct (Z.eq_dec x 0) as [->|]; [reflexivity|]. apply Z.log2_lt_pow2; lia.
  - destruct (Z.eq_dec b 0) as [->|]; [reflexivity|]. apply Z.log2_lt_pow2; lia.
Qed.

Lemma wf_empty : wf_sysex sysex_empty_value.
Proof. split; [unfold is_u32; cbn; lia|constructor]. Qed.

Lemma byte_at p i x : get_byte p i = Ok x -> is_u8 x.
Proof.
  intros E. destruct (Nat.lt_ge_cases i 16) as [L|L].
  - rewrite get_byte_spec in E by exact L. injection E as <-. unfold is_u8.
    do 16 (destruct i as [|i]; [apply Z.mod_pos_bound; lia|]). lia.
  - rewrite get_byte_oob in E by exact L. discriminate.
Qed.

Lemma bytes7_wf p n : forall b s idr s' idr', wf_sysex s -> c7_bytes p b n s idr = Ok (s', idr') -> wf_sysex s'.
Proof.
  induction n as [|n IH]; intros b s idr s' idr' W E; cbn [c7_bytes] in E; [congruence|].
  unfold sysex7_payload_byte in E. destruct (get_byte p (2 + b)) as [x|] eqn:G; [|discriminate]. cbn [bind] in E.
  apply byte_at in G. destruct W as [I D].
  destruct (idr =? 0); [destruct (negb (x =? 0))|destruct (idr =? 1); [|destruct (idr =? 2)]];
    apply IH in E; try exact E; split; cbn [sx_id sx_data]; try exact I; try exact D.
  - rewrite shiftl_mul by lia. change (2 ^ 16) with 65536. unfold is_u8, is_u32 in *. lia.
  - rewrite shiftl_mul by lia. change (2 ^ 8) with 256. unfold is_u8, is_u32 in *. lia.
  - now apply u32_lor.
  - apply Forall_app. split; [exact D|]. now constructor.
Qed.

Lemma low7 x : is_u7 (Z.land x 127).
Proof. rewrite land_127. unfold is_u7. dlia. Qed.

Lemma bytes8_wf p n : forall b s ids s' ids', wf_sysex s -> c8_bytes p b n s ids = Ok (s', ids') -> wf_sysex s'.
Proof.
  induction n as [|n IH]; intros b s ids s' ids' W E; cbn [c8_bytes] in E; [congruence|].
  unfold sysex8_payload_byte in E. destruct (get_byte p (3 + b)) as [x|] eqn:G; [|discriminate]. cbn [bind] in E.
  apply byte_at in G. destruct W as [I D]. pose proof (low7 x) as L. unfold is_u7, is_u32, is_u8 in *.
  destruct ids; [destruct (negb (Z.land x 128 =? 0))| | | |];
    apply IH in E; try exact E; split; cbn [sx_id sx_data]; try exact I; try exact D.
  - rewrite shiftl_mul by lia. change (2 ^ 8) with 256. unfold is_u32. lia.
  - unfold is_u32. lia.
  - rewrite shiftl_mul by lia. change (2 ^ 16) with 65536. unfold is_u32. lia.
  - apply u32_lor; [exact I|]. unfold is_u8. lia.
  - apply Forall_app. split; [exact D|]. now constructor.
Qed.

Lemma Ok_pair {A B} (a a' : A) (b b' : B) : Ok (a, b) = Ok (a', b') -> a = a' /\ b = b'.
Proof. intros H. now inversion H. Qed.

Ltac hif E := match type of E with (if ?b then _ else _) = _ => destruct b end.

Lemma feed7_wf a c p c' out : wf_sysex (c7_sysex c) -> c7_feed a c p = Ok (c', out) ->
  wf_sysex (c7_sysex c') /\ Forall wf_sysex out.
Proof.
  intros W E. unfold c7_feed in E. hif E; [apply Ok_pair in E; destruct E as [<- <-]; auto|]. cbv zeta in E.
  hif E; [apply Ok_pair in E; destruct E as [<- <-]; split; [apply wf_empty|constructor]|].
  match type of E with context [if ?b then c7_reset a c else c] => set (c0 := if b then c7_reset a c else c) in E;
    assert (W0 : wf_sysex (c7_sysex c0)) by (unfold c0; destruct b; [apply wf_empty|exact W]); clearbody c0 end.
  destruct (make_room _ _ _ _ _) as [cap room]. hif E; [apply Ok_pair in E; destruct E as [<- <-]; split; [exact W0|constructor]|].
  destruct (c7_bytes _ _ _ _ _) as [[s idr]|] eqn:B; [|discriminate]. cbn [bind] in E. apply bytes7_wf in B; [|exact W0].
  hif E; apply Ok_pair in E; destruct E as [<- <-].
  - split; [apply wf_empty|]. destruct (c7_has_cb c0); [constructor; [exact B|constructor]|constructor].
  - split; [exact B|constructor].
Qed.

Lemma feed8_wf a c p c' out : wf_sysex (c8_sysex c) -> c8_feed a c p = Ok (c', out) ->
  wf_sysex (c8_sysex c') /\ Forall wf_sysex (map fst out).
Proof.
  intros W E. unfold c8_feed in E. hif E; [apply Ok_pair in E; destruct E as [<- <-]; cbn; auto|].
  destruct (sysex8_stream_id p) as [sid|]; [|discriminate]. cbn [bind] in E. cbv zeta in E.
  hif E; [apply Ok_pair in E; destruct E as [<- <-]; split; [apply wf_empty|constructor]|].
  hif E; [apply Ok_pair in E; destruct E as [<- <-]; cbn; auto|].
  match type of E with context [if ?b then c8_reset a c else c] => set (c0 := if b then c8_reset a c else c) in E;
    assert (W0 : wf_sysex (c8_sysex c0)) by (unfold c0; destruct b; [apply wf_empty|exact W]); clearbody c0 end.
  destruct (make_room _ _ _ _ _) as [cap room]. hif E; [apply Ok_pair in E; destruct E as [<- <-]; split; [exact W0|constructor]|].
  destruct (c8_bytes _ _ _ _ _) as [[s idr]|] eqn:B; [|discriminate]. cbn [bind] in E. apply bytes8_wf in B; [|exact W0].
  hif E; apply Ok_pair in E; destruct E as [<- <-].
  - split; [apply wf_empty|]. destruct (c8_has_cb c0); cbn; [constructor; [exact B|constructor]|constructor].
  - split; [exact B|constructor].
Qed.

Lemma Ok_inj {A} (a b : A) : Ok a = Ok b -> a = b.
Proof. intros H. now inversion H. Qed.

(* ---- the station ------------------------------------------------------------------------ *)

Lemma messages7_careful dbg l : Forall wf_sysex l -> exists r, read_messages7 true dbg l = Ok r.
Proof.
  induction 1 as [|s l W _ [r IH]]; cbn [read_messages7]; [eauto|].
  destruct (sysex7_careful dbg s W) as [ks ->]. cbn [bind]. rewrite IH. cbn [bind]. eauto.
Qed.

Lemma messages7_what careful dbg l r : read_messages7 careful dbg l = Ok r ->
  forall s, In s l <-> exists ks, In (Message7 s ks) r.
Proof.
  revert r; induction l as [|x l IH]; cbn [read_messages7]; intros r E s.
  - injection E as <-. split; [intros []|intros [ks []]].
  - destruct (read_sysex7 careful dbg x) as [ks|]; [|discriminate E]. cbn [bind] in E.
    destruct (read_messages7 careful dbg l) as [r'|]; [|discriminate E]. cbn [bind] in E. injection E as <-.
    cbn [In]. split.
    + intros [->|H]; [exists ks; now left|]. apply (IH r' eq_refl) in H. destruct H as [k H]. exists k. now right.
    + intros [k [H|H]]; [left; congruence|]. right. apply (IH r' eq_refl). now exists k.
Qed.

Lemma messages7_same dbg l : Forall wf_sysex l -> (forall s, In s l -> ~ bad_message s) ->
  read_messages7 false dbg l = read_messages7 true dbg l.
Proof.
  induction 1 as [|s l W _ IH]; intros G; cbn [read_messages7]; [reflexivity|].
  rewrite sysex7_same; [|exact W|apply G; now left]. rewrite IH; [reflexivity|]. intros x I. apply G. now right.
Qed.

Lemma messages7_fault dbg l s : Forall wf_sysex l -> In s l -> bad_message s ->
  exists f, read_messages7 false dbg l = Fault f.
Proof.
  induction 1 as [|x l W _ IH]; intros I B; [destruct I|]. cbn [read_messages7].
  destruct (bad_dec x) as [X|X].
  - destruct (sysex7_fault dbg x W X) as [f ->]. exists f. reflexivity.
  - destruct I as [->|I]; [contradiction|]. destruct (IH I B) as [f F].
    rewrite sysex7_same by assumption. destruct (sysex7_careful dbg x W) as [ks ->]. cbn [bind]. rewrite F. exists f. reflexivity.
Qed.

Lemma messages8_ok dbg l : Forall wf_sysex (map fst l) -> exists r, read_messages8 dbg l = Ok r.
Proof.
  induction l as [|[s i] l IH]; intros W; cbn [read_messages8]; [eauto|].
  cbn in W. inversion W as [|? ? W1 W2]; subst.
  rewrite read_universal_ok by exact W1. cbn [bind]. destruct (IH W2) as [r ->]. cbn [bind]. eauto.
Qed.

Lemma messages8_what dbg l r s ks : read_messages8 dbg l = Ok r -> ~ In (Message7 s ks) r.
Proof.
  revert r; induction l as [|[x i] l IH]; cbn [read_messages8]; intros r E I.
  - injection E as <-. destruct I.
  - destruct (read_universal dbg x) as [[]|]; [|discriminate E]. cbn [bind] in E.
    destruct (read_messages8 dbg l) as [r'|]; [|discriminate E]. cbn [bind] in E. injection E as <-.
    destruct I as [I|I]; [discriminate I|]. exact (IH r' eq_refl I).
Qed.

Lemma read_stream_what dbg p ks l s m : read_stream dbg p ks = Ok l -> ~ In (Message7 s m) l.
Proof.
  revert l; induction ks as [|k ks IH]; cbn [read_stream]; intros l E I.
  - injection E as <-. destruct I.
  - destruct (as_stream_view dbg k p) as [[v|]|]; cbn [bind] in E; [|exact (IH l E I)|discriminate E].
    destruct (stream_read k v) as [r|]; [|discriminate E]. cbn [bind] in E.
    destruct (read_stream dbg p ks) as [l'|]; [|discriminate E]. cbn [bind] in E. injection E as <-.
    destruct I as [I|I]; [discriminate I|]. exact (IH l' eq_refl I).
Qed.

Lemma look_what careful dbg p l s ks : look careful dbg p = Ok l -> ~ In (Message7 s ks) l.
Proof.
  unfold look. intros E I.
  destruct (if type p =? 0 then _ else _) as [u|] eqn:U in E; [|discriminate E]. cbn [bind] in E.
  destruct (if careful && eight_bit_bend p then _ else _) as [v|] eqn:V in E; [|discriminate E]. cbn [bind] in E.
  destruct (to_midi2 p) as [t|]; [|discriminate E]. cbn [bind] in E.
  destruct (to_midi1_byte_stream p) as [b|]; [|discriminate E]. cbn [bind] in E.
  destruct (read_stream dbg p all_stream_kinds) as [rs|] eqn:R; [|discriminate E]. cbn [bind] in E.
  destruct (as_flex_data_message_view dbg p) as [f|]; [|discriminate E]. cbn [bind] in E.
  destruct (match f with Some m => _ | None => _ end) as [f'|] eqn:F in E; [|discriminate E]. cbn [bind] in E.
  destruct (put_packet _ _) as [o|]; [|discriminate E]. cbn [bind] in E. apply Ok_inj in E. subst l.
  rewrite !in_app_iff in I.
  repeat match type of I with _ \/ _ => destruct I as [I|I] end.
  - destruct (type p =? 0); [|injection U as <-; destruct I].
    destruct (utility_view p) as [m|]; [|discriminate U]. cbn [bind] in U.
    destruct (jr_get_timestamp m); [|discriminate U]. cbn [bind] in U. injection U as <-. destruct I as [I|[]]. discriminate I.
  - destruct (as_system_message_view p); [destruct I as [I|[]]; discriminate I|destruct I].
  - destruct (careful && eight_bit_bend p); [injection V as <-; destruct I|].
    destruct (processor p); [|discriminate V]. cbn [bind] in V. injection V as <-. destruct I as [I|[]]. discriminate I.
  - destruct (to_midi1 p); [destruct I as [I|[]]; discriminate I|destruct I].
  - destruct t; [destruct I as [I|[]]; discriminate I|destruct I].
  - destruct I as [I|[]]; discriminate I.
  - exact (read_stream_what _ _ _ _ _ _ R I).
  - destruct f as [m|]; [|injection F as <-; destruct I].
    destruct (flex_read m); [|discriminate F]. cbn [bind] in F. injection F as <-. destruct I as [I|[]]. discriminate I.
  - destruct I as [I|[]]; discriminate I.
Qed.

Definition station_wf (st : station) : Prop := wf_sysex (c7_sysex (s7 st)) /\ wf_sysex (c8_sysex (s8 st)).

Lemma call7 a c k : wf_sysex (c7_sysex c) -> exists c' out, c7_call a c k = Ok (c', out) /\
  wf_sysex (c7_sysex c') /\ Forall wf_sysex out.
Proof.
  intros W. destruct k as [p| |m|b]; cbn [c7_call].
  - destruct (feed7_any a c p) as (c' & out & E & _). exists c', out. split; [exact E|]. exact (feed7_wf a c p c' out W E).
  - eexists _, _. split; [reflexivity|]. split; [apply wf_empty|constructor].
  - eexists _, _. split; [reflexivity|]. split; [exact W|constructor].
  - eexists _, _. split; [reflexivity|]. split; [exact W|constructor].
Qed.

Lemma call8 a c k : wf_sysex (c8_sysex c) -> exists c' out, c8_call a c k = Ok (c', out) /\
  wf_sysex (c8_sysex c') /\ Forall wf_sysex (map fst out).
Proof.
  intros W. destruct k as [p| |m|b]; cbn [c8_call].
  - destruct (feed8_any a c p) as (c' & out & E & _). exists c', out. split; [exact E|]. exact (feed8_wf a c p c' out W E).
  - eexists _, _. split; [reflexivity|]. split; [apply wf_empty|constructor].
  - eexists _, _. split; [reflexivity|]. split; [exact W|constructor].
  - eexists _, _. split; [reflexivity|]. split; [exact W|constructor].
Qed.

(* one step: what a careful receiver sees, and whether a careless one sees the same or meets a fault *)
Lemma step_cases a dbg st k : station_wf st -> (forall p, k = KFeed p -> wf_packet p) ->
  exists st' o, station_step a true dbg st k = Ok (st', o) /\ station_wf st' /\
    (((exists p, k = KFeed p /\ bad_packet p) \/ (exists s ks, In (Message7 s ks) o /\ bad_message s)) ->
       exists f, station_step a false dbg st k = Fault f) /\
    (~ ((exists p, k = KFeed p /\ bad_packet p) \/ (exists s ks, In (Message7 s ks) o /\ bad_message s)) ->
       station_step a false dbg st k = Ok (st', o)).
Proof.
  intros [W7 W8] P.
  destruct (call7 a (s7 st) k W7) as (c7 & o7 & E7 & V7 & F7).
  destruct (call8 a (s8 st) k W8) as (c8 & o8 & E8 & V8 & F8).
  destruct (messages7_careful dbg o7 F7) as [m7 M7]. destruct (messages8_ok dbg o8 F8) as [m8 M8].
  assert (L : exists l, match k with KFeed p => look true dbg p | _ => Ok [] end = Ok l /\
    (forall s ks, ~ In (Message7 s ks) l) /\
    ((exists p, k = KFeed p /\ bad_packet p) -> exists f, match k with KFeed p => look false dbg p | _ => Ok [] end = Fault f) /\
    (~ (exists p, k = KFeed p /\ bad_packet p) -> match k with KFeed p => look false dbg p | _ => Ok [] end = Ok l)).
  { destruct k as [p| |m|b].
    2,3,4: (exists []; split; [reflexivity|]; split; [intros ? ? []|]; split; [intros (p & X & _); discriminate X|reflexivity]).
    specialize (P p eq_refl). destruct (look_careful dbg p P) as [l E]. exists l. split; [exact E|]. split; [|split].
    - intros s ks. exact (look_what _ _ _ _ _ _ E).
    - intros (q & X & B). injection X as <-. apply look_fault; [exact P|]. now apply bend_bits.
    - intros N. rewrite look_same; [exact E|]. destruct (eight_bit_bend p) eqn:X; [|reflexivity].
      exfalso. apply N. exists p. split; [reflexivity|]. now apply bend_bits. }
  destruct L as (l & L1 & L2 & L3 & L4).
  exists (mkStation c7 c8), (l ++ m7 ++ m8). unfold station_step.
  rewrite L1, E7, E8. cbn [bind fst snd]. rewrite M7, M8. cbn [bind]. split; [reflexivity|]. split; [split; assumption|].
  assert (X : (exists s ks, In (Message7 s ks) (l ++ m7 ++ m8) /\ bad_message s) <-> exists s, In s o7 /\ bad_message s).
  { split.
    - intros (s & ks & I & B). exists s. split; [|exact B]. rewrite !in_app_iff in I. destruct I as [I|[I|I]].
      + destruct (L2 _ _ I).
      + apply (messages7_what _ _ _ _ M7). now exists ks.
      + destruct (messages8_what _ _ _ _ _ M8 I).
    - intros (s & I & B). apply (messages7_what _ _ _ _ M7) in I. destruct I as [ks I]. exists s, ks. split; [|exact B].
      rewrite !in_app_iff. auto. }
  rewrite X. clear X. split.
  - intros H. destruct (match k with KFeed p => look false dbg p | _ => Ok [] end) as [l'|f] eqn:Q; [|exists f; reflexivity]. cbn [bind fst snd].
    destruct H as [H|(s & I & B)]; [destruct (L3 H) as [f Y]; discriminate Y|].
    destruct (messages7_fault dbg o7 s F7 I B) as [f ->]. exists f. reflexivity.
  - intros N. rewrite L4 by tauto. cbn [bind fst snd]. rewrite messages7_same; [|exact F7|intros s I B; apply N; right; eauto].
    rewrite M7. cbn [bind]. reflexivity.
Qed.

Lemma seen_dec o : (exists s ks, In (Message7 s ks) o /\ bad_message s) \/ ~ (exists s ks, In (Message7 s ks) o /\ bad_message s).
Proof.
  induction o as [|x o [(s & ks & I & B)|N]]; [right; intros (s & ks & [] & _)| |].
  - left. exists s, ks. split; [now right|exact B].
  - destruct x as [| | | | | | | |s ks|]; try (right; intros (s' & ks' & [I|I] & B); [discriminate I|apply N; eauto]; fail).
    destruct (bad_dec s) as [B|B]; [left; exists s, ks; split; [now left|exact B]|].
    right. intros (s' & ks' & [I|I] & B'); [|apply N; eauto]. injection I as <- <-. contradiction.
Qed.

Lemma fed_dec k : (exists p, k = KFeed p /\ bad_packet p) \/ ~ (exists p, k = KFeed p /\ bad_packet p).
Proof.
  destruct k as [p| | |]; try (right; intros (q & X & _); discriminate X).
  assert (D : bad_packet p \/ ~ bad_packet p) by (unfold bad_packet; lia).
  destruct D as [D|D]; [left; eauto|]. right. intros (q & X & B). injection X as <-. contradiction.
Qed.


Lemma run_cases a dbg ks : forall st, station_wf st -> any_traffic ks ->
  exists st' o, station_run a true dbg st ks = Ok (st', o) /\ station_wf st' /\
    (upset ks o -> exists f, station_run a false dbg st ks = Fault f) /\
    (~ upset ks o -> station_run a false dbg st ks = Ok (st', o)).
Proof.
  induction ks as [|k ks IH]; intros st W T.
  - exists st, []. cbn [station_run]. split; [reflexivity|]. split; [exact W|]. split; [|reflexivity].
    intros [(p & [] & _)|(s & l & [] & _)].
  - inversion T as [|? ? P T']; subst.
    destruct (step_cases a dbg st k W) as (st1 & o1 & E1 & W1 & B1 & G1).
    { intros p ->. exact P. }
    destruct (IH st1 W1 T') as (st2 & o2 & E2 & W2 & B2 & G2).
    exists st2, (o1 ++ o2). cbn [station_run]. rewrite E1. cbn [bind fst snd]. rewrite E2. cbn [bind fst snd].
    split; [reflexivity|]. split; [exact W2|].
    assert (U : upset (k :: ks) (o1 ++ o2) <->
      ((exists p, k = KFeed p /\ bad_packet p) \/ (exists s ks, In (Message7 s ks) o1 /\ bad_message s)) \/ upset ks o2).
    { unfold upset. split.
      - intros [(p & [I|I] & B)|(s & l & I & B)].
        + left. left. eauto.
        + right. left. eauto.
        + apply in_app_iff in I. destruct I as [I|I]; [left|right]; right; eauto.
      - intros [[(p & E & B)|(s & l & I & B)]|[(p & I & B)|(s & l & I & B)]].
        + left. exists p. subst. split; [now left|exact B].
        + right. exists s, l. split; [apply in_app_iff; now left|exact B].
        + left. exists p. split; [now right|exact B].
        + right. exists s, l. split; [apply in_app_iff; now right|exact B]. }
    rewrite U. clear U. split.
    + intros H. destruct (station_step a false dbg st k) as [r|f] eqn:Q; [|exists f; reflexivity]. cbn [bind].
      destruct H as [H|H]; [destruct (B1 H) as [f X]; discriminate X|].
      assert (N : r = (st1, o1)).
      { destruct (fed_dec k) as [D|D]; [destruct (B1 (or_introl D)) as [f X]; discriminate X|].
        destruct (seen_dec o1) as [D'|D']; [destruct (B1 (or_intror D')) as [f X]; discriminate X|].
        apply Ok_inj. apply G1. tauto. }
      subst r. cbn [fst snd]. destruct (B2 H) as [f ->]. exists f. reflexivity.
    + intros N. rewrite G1 by tauto. cbn [bind fst snd]. rewrite G2 by tauto. reflexivity.
Qed.

Lemma upset_dec ks o : upset ks o \/ ~ upset ks o.
Proof.
  unfold upset. destruct (seen_dec o) as [D|D]; [tauto|].
  assert (X : (exists p, In (KFeed p) ks /\ bad_packet p) \/ ~ (exists p, In (KFeed p) ks /\ bad_packet p)).
  { induction ks as [|k ks [(p & I & B)|N]]; [right; intros (p & [] & _)|left; exists p; split; [now right|exact B]|].
    destruct (fed_dec k) as [(p & -> & B)|F]; [left; exists p; split; [now left|exact B]|].
    right. intros (p & [->|I] & B); [apply F; eauto|apply N; eauto]. }
  tauto.
Qed.

Lemma new_wf : station_wf new_station.
Proof. split; apply wf_empty. Qed.

Lemma run_careful a dbg ks : any_traffic ks -> exists st o, station_run a true dbg new_station ks = Ok (st, o).
Proof. intros T. destruct (run_cases a dbg ks new_station new_wf T) as (st & o & E & _). eauto. Qed.

Lemma run_faults a dbg ks st o : any_traffic ks -> station_run a true dbg new_station ks = Ok (st, o) ->
  ((exists f, station_run a false dbg new_station ks = Fault f) <-> upset ks o) /\
  (~ upset ks o -> station_run a false dbg new_station ks = Ok (st, o)).
Proof.
  intros T E. destruct (run_cases a dbg ks new_station new_wf T) as (st' & o' & E' & _ & B & G).
  assert (X : (st', o') = (st, o)) by (apply Ok_inj; congruence). injection X as <- <-.
  split; [|exact G]. split; [|exact B]. intros [f F]. destruct (upset_dec ks o') as [U|U]; [exact U|].
  specialize (G U). rewrite G in F. discriminate F.
Qed.

(* ---- MIDI 1 bytes ------------------------------------------------------------------------ *)

Lemma listen_cases dbg es : Forall (fun e => match e with EPacket p => wf_packet p /\ eight_bit_bend p = false | ESysex s => wf_sysex s end) es ->
  exists l, listen true dbg es = Ok l /\
    ((exists s, In (ESysex s) es /\ bad_message s) -> exists f, listen false dbg es = Fault f) /\
    (~ (exists s, In (ESysex s) es /\ bad_message s) -> listen false dbg es = Ok l).
Proof.
  induction 1 as [|e es W _ (l & E & B & G)]; cbn [listen].
  - exists []. split; [reflexivity|]. split; [intros (s & [] & _)|reflexivity].
  - destruct e as [p|s].
    + destruct W as [W N]. destruct (look_careful dbg p W) as [x X]. exists (x ++ l). rewrite X. cbn [bind]. rewrite E. cbn [bind].
      split; [reflexivity|]. rewrite look_same, X by exact N. cbn [bind]. split.
      * intros (s & [I|I] & H); [discriminate I|]. destruct B as [f ->]; [eauto|]. exists f. reflexivity.
      * intros H. rewrite G; [reflexivity|]. intros (s & I & Y). apply H. exists s. split; [now right|exact Y].
    + destruct (sysex7_careful dbg s W) as [x X]. exists (Message7 s x :: l). rewrite X. cbn [bind]. rewrite E. cbn [bind].
      split; [reflexivity|]. split.
      * intros (t & I & H). destruct (bad_dec s) as [D|D]; [destruct (sysex7_fault dbg s W D) as [f ->]; exists f; reflexivity|].
        rewrite sysex7_same, X by assumption. cbn [bind]. destruct I as [I|I]; [injection I as <-; contradiction|].
        destruct B as [f ->]; [eauto|]. exists f. reflexivity.
      * intros H. rewrite sysex7_same, X; [|exact W|intros D; apply H; exists s; split; [now left|exact D]]. cbn [bind].
        rewrite G; [reflexivity|]. intros (t & I & Y). apply H. exists t. split; [now right|exact Y].
Qed.

Lemma output_fine g e : 0 <= g < 16 -> wf_output g e ->
  match e with EPacket p => wf_packet p /\ eight_bit_bend p = false | ESysex s => wf_sysex s end.
Proof.
  intros G W.
  assert (U : forall ds, Forall is_u7 ds -> Forall is_u8 ds).
  { intros ds. apply Forall_impl. intros x. unfold is_u7, is_u8. lia. }
  assert (N : forall p, wf_packet p -> ~ bad_packet p -> wf_packet p /\ eight_bit_bend p = false).
  { intros p Wp B. split; [exact Wp|]. destruct (eight_bit_bend p) eqn:E; [|reflexivity]. exfalso. apply B. now apply bend_bits. }
  destruct e as [p|s].
  - destruct W as [(m & V & ->)|[(r & R & _ & ->)|(f & ds & F0 & L & D & _ & ->)]]; apply N.
    + destruct V as [V F]. apply short_wf; [exact G| |now apply U].
      destruct V as [V|V]; [unfold is_u8; lia|]. apply sc_len_high in V. unfold is_u8. lia.
    + destruct V as [V F]. pose proof (nth_u7 (ms_data m) 1 F) as D1. pose proof (nth_u7 (ms_data m) 0 F) as D0. unfold is_u7 in *.
      intros (_ & _ & B). unfold short_packet in B. cbn [w0] in B. destruct (ms_status m <? 0xF0); dlia.
    + apply short_wf; [exact G|unfold is_u8; lia|constructor].
    + intros (_ & _ & B). unfold short_packet in B. cbn [w0 nth] in B. destruct (r <? 0xF0); dlia.
    + pose proof (nth_u7 ds 0 D). pose proof (nth_u7 ds 1 D).
      pose proof (nth_u7 ds 2 D). pose proof (nth_u7 ds 3 D). pose proof (nth_u7 ds 4 D). pose proof (nth_u7 ds 5 D).
      unfold is_u7, wf_packet, sx7_packet, be32, is_u32 in *. cbn [w0 w1 w2 w3]. lia.
    + pose proof (nth_u7 ds 0 D). pose proof (nth_u7 ds 1 D). unfold is_u7 in *.
      intros (B & _ & _). unfold sx7_packet, be32 in B. cbn [w0] in B. dlia.
  - destruct W as [I D]. split; [|now apply U].
    unfold is_u32. destruct I as [(m & M & ->)|(a & b & A & B & ->)]; unfold is_u7 in *; lia.
Qed.

Lemma listen_bytes g cb on cs dbg : 0 <= g < 16 -> Forall valid_call cs ->
  exists st es l, parser_calls (new_parser g cb on) cs = Ok (st, es) /\ listen true dbg es = Ok l /\
    ((exists f, listen false dbg es = Fault f) <-> exists s, In (ESysex s) es /\ bad_message s) /\
    ((forall s, In (ESysex s) es -> ~ bad_message s) -> listen false dbg es = Ok l).
Proof.
  intros G V. destruct (calls_wf g cb on cs G V) as (st & es & E & W).
  assert (X : forall x, configured g cs x -> 0 <= x < 16).
  { intros x [->|I]; [exact G|]. rewrite Forall_forall in V. exact (V _ I). }
  destruct (listen_cases dbg es) as (l & L & B & N).
  { revert W. apply Forall_impl. intros e (x & C & Y). exact (output_fine x e (X x C) Y). }
  exists st, es, l. split; [exact E|]. split; [exact L|]. split.
  - split; [|exact B]. intros [f F].
    assert (D : (exists s, In (ESysex s) es /\ bad_message s) \/ ~ (exists s, In (ESysex s) es /\ bad_message s)).
    { clear. induction es as [|e es [(s & I & B)|N]]; [right; intros (s & [] & _)|left; exists s; split; [now right|exact B]|].
      destruct e as [p|s]; [right; intros (s & [I|I] & B); [discriminate I|apply N; eauto]|].
      destruct (bad_dec s) as [B|B]; [left; exists s; split; [now left|exact B]|].
      right. intros (t & [I|I] & Y); [injection I as <-; contradiction|apply N; eauto]. }
    destruct D as [D|D]; [exact D|]. rewrite (N D) in F. discriminate F.
  - intros H. apply N. intros (s & I & Y). exact (H s I Y).
Qed.
