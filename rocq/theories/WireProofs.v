(* Lemmas for C84. *)
From Coq Require Import ZArith List Bool Lia ZifyBool ZifyNat.
From Verif Require Import Base Bits Types Packet Messages Sysex DataPackets DataSpec Utility ByteStream ChannelVoice Endpoint Flex.
From Verif Require Import PacketSpec VoiceSpec EndpointSpec FlexSpec StreamSpec CollectSpec WireSpec.
From Verif Require Import PacketProofs PacketBytes SystemProofs VoiceProofs VoiceTranslate DataProofs SendProofs
  EndpointProofs FlexProofs StreamProofs StreamLemmas StreamCalls PropsStream.
Import ListNotations.
Local Open Scope Z_scope.

(* ---- receiving ---------------------------------------------------------------------------- *)

Lemma psize_first p q : w0 p = w0 q -> psize p = psize q.
Proof. intros E. unfold psize, type. now rewrite E. Qed.

Lemma psize_assembled w l : psize (assembled (w :: l)) = psize (packet1 w).
Proof. now apply psize_first. Qed.

Lemma transmitted_length p : length (transmitted p) = psize p.
Proof. unfold transmitted. rewrite firstn_length. change (length (words p)) with 4%nat. pose proof (psize_range p). lia. Qed.

Lemma transmitted_head p : exists l, transmitted p = w0 p :: l.
Proof.
  unfold transmitted. pose proof (psize_range p). destruct (psize p) as [|n]; [lia|]. cbn. eauto.
Qed.

(* the words of one packet, partly in [got] *)
Lemma receive_one n : forall got rest more w l, got ++ rest = w :: l ->
  length (w :: l) = psize (packet1 w) -> rest <> [] -> n = length rest ->
  receive got (rest ++ more) = (fst (receive [] more), assembled (w :: l) :: snd (receive [] more)).
Proof.
  induction n as [|n IH]; intros got rest more w l E L R N; destruct rest as [|x rest]; try congruence; [discriminate|].
  cbn [app receive]. assert (E' : (got ++ [x]) ++ rest = w :: l) by (rewrite <- app_assoc; exact E).
  destruct rest as [|y rest].
  - rewrite app_nil_r in E'. rewrite E', psize_assembled, L, Nat.eqb_refl. reflexivity.
  - assert (P : psize (assembled (got ++ [x])) = psize (packet1 w)).
    { destruct got as [|a got]; cbn [app] in *; rewrite psize_assembled; congruence. }
    assert (K : length (w :: l) = (length (got ++ [x]) + length (y :: rest))%nat) by now rewrite <- E', app_length.
    rewrite P, <- L. destruct (Nat.eqb_spec (length (got ++ [x])) (length (w :: l))) as [F|F].
    + rewrite K in F. cbn in F. lia.
    + apply IH; [exact E'|exact L|discriminate|]. cbn in N |- *. lia.
Qed.

Lemma receive_packet p more : receive [] (transmitted p ++ more) =
  (fst (receive [] more), assembled (transmitted p) :: snd (receive [] more)).
Proof.
  destruct (transmitted_head p) as (l & E). pose proof (transmitted_length p) as L. rewrite E in *.
  apply (receive_one (length (w0 p :: l))); [reflexivity| |discriminate|reflexivity].
  rewrite L. now apply psize_first.
Qed.

Lemma receive_all ps : receive [] (transmission ps) = ([], map (fun p => assembled (transmitted p)) ps).
Proof.
  induction ps as [|p ps IH]; [reflexivity|]. unfold transmission in *. cbn [map concat].
  now rewrite receive_packet, IH.
Qed.

Lemma assembled_wire p : wf_packet p -> wf_packet (assembled (transmitted p)) /\ wire (assembled (transmitted p)) = wire p.
Proof.
  intros W. assert (W' : wf_packet (assembled (transmitted p))).
  { unfold assembled, transmitted, wf_packet, is_u32 in *. pose proof (psize_range p). destruct p as [a b c d].
    cbn [w0 w1 w2 w3] in *. destruct (psize _) as [|[|[|[|[|]]]]]; cbn; lia. }
  split; [exact W'|].
  assert (E : w0 (assembled (transmitted p)) = w0 p) by (destruct (transmitted_head p) as (l & ->); reflexivity).
  assert (S : ump_words (w0 p / 268435456) = psize p) by (rewrite psize_spec, type_spec by assumption; reflexivity).
  unfold wire. rewrite E, S. unfold transmitted. pose proof (psize_range p).
  destruct (psize p) as [|[|[|[|[|]]]]]; try lia; reflexivity.
Qed.

Lemma received ps : Forall wf_packet ps ->
  exists qs, receive [] (transmission ps) = ([], qs) /\ Forall2 (fun p q => packet_eq p q = Ok true) ps qs.
Proof.
  intros W. eexists. split; [apply receive_all|].
  induction W as [|p ps H W IH]; cbn [map]; constructor; [|exact IH].
  destruct (assembled_wire p H) as [W' E]. destruct (packet_eq_wire p (assembled (transmitted p)) H W') as (b & B & I).
  rewrite B. f_equal. symmetry in E. now apply I.
Qed.

Lemma receive_app a : forall pending b,
  receive pending (a ++ b) =
  (fst (receive (fst (receive pending a)) b), snd (receive pending a) ++ snd (receive (fst (receive pending a)) b)).
Proof.
  induction a as [|w a IH]; intros pending b; cbn [app receive].
  - cbn [fst snd app]. now rewrite <- surjective_pairing.
  - destruct (_ =? _)%nat; [|apply IH]. rewrite (IH [] b). reflexivity.
Qed.

(* ---- any words ------------------------------------------------------------------------------ *)

Lemma transmitted_assembled got : length got = psize (assembled got) -> transmitted (assembled got) = got.
Proof.
  intros L. unfold transmitted. rewrite <- L. pose proof (psize_range (assembled got)).
  destruct got as [|a [|b [|c [|d [|e got]]]]]; cbn [length] in L; try lia; reflexivity.
Qed.

Lemma pending_grows pending w : incomplete pending -> length (pending ++ [w]) <> psize (assembled (pending ++ [w])) ->
  incomplete (pending ++ [w]).
Proof.
  intros [->|I] N; right.
  - pose proof (psize_range (assembled ([] ++ [w]))). cbn [app length] in *. lia.
  - destruct pending as [|a l].
    + pose proof (psize_range (assembled ([] ++ [w]))). cbn [app length] in *. lia.
    + cbn [app] in *. rewrite !psize_assembled in *. cbn [length] in *. rewrite app_length in *. cbn [length] in *. lia.
Qed.

Lemma receive_any ws : forall pending, incomplete pending ->
  let r := receive pending ws in
  pending ++ ws = transmission (snd r) ++ fst r /\ incomplete (fst r) /\
  Forall (fun p => assembled (transmitted p) = p) (snd r).
Proof.
  induction ws as [|w ws IH]; intros pending I; cbn [receive].
  - cbn. rewrite app_nil_r. auto.
  - destruct (Nat.eqb_spec (length (pending ++ [w])) (psize (assembled (pending ++ [w])))) as [L|L].
    + destruct (IH []) as (E & I' & F); [now left|]. cbn [app] in E. cbv zeta. cbn [fst snd].
      pose proof (transmitted_assembled _ L) as T. split; [|split; [exact I'|]].
      * unfold transmission in *. cbn [map concat]. rewrite T. rewrite <- !app_assoc. cbn [app]. now rewrite <- E.
      * constructor; [|exact F]. now rewrite T.
    + destruct (IH (pending ++ [w])) as (E & I' & F); [now apply pending_grows|]. rewrite <- app_assoc in E. cbn [app] in E.
      auto.
Qed.

(* ---- packets made by the library -------------------------------------------------------------- *)

(* nothing beyond the size *)
Definition clean (p : packet) : Prop := assembled (transmitted p) = p.

Lemma clean1 a : clean (mkP a 0 0 0).
Proof.
  unfold clean, assembled, transmitted. pose proof (psize_range (mkP a 0 0 0)).
  destruct (psize _) as [|[|[|[|[|]]]]]; try lia; reflexivity.
Qed.

Lemma clean2 a b : (2 <= psize (mkP a b 0 0))%nat -> clean (mkP a b 0 0).
Proof.
  unfold clean, assembled, transmitted. pose proof (psize_range (mkP a b 0 0)). intros L.
  destruct (psize _) as [|[|[|[|[|]]]]]; try lia; reflexivity.
Qed.

Lemma clean4 p : psize p = 4%nat -> clean p.
Proof. unfold clean, assembled, transmitted. intros ->. now destruct p. Qed.

Definition good (p : packet) : Prop := wf_packet p /\ clean p.

Lemma good1 a : is_u32 a -> good (mkP a 0 0 0).
Proof. intros A. split; [|apply clean1]. unfold wf_packet, is_u32 in *. cbn. lia. Qed.

(* a packet by its first byte *)
Lemma good_pob l : Forall is_u8 l ->
  nth 0 l 0 / 16 = 5 \/ nth 0 l 0 / 16 = 13 \/ nth 0 l 0 / 16 = 15 -> good (packet_of_bytes l).
Proof.
  intros U T. split; [now apply pob_wf|]. apply clean4. rewrite psize_spec, pob_type by assumption.
  now destruct T as [->|[->| ->]].
Qed.

Lemma good_layout1 g ch m : address g ch -> m1_ok m -> good (layout1 g ch m).
Proof.
  intros [Hg Hc] M. apply good1. destruct (m1_data_ok m M) as (D1 & D2).
  destruct (nibbles (m1_kind m) ch (m1_kind_mult m) Hc) as (_ & _ & N3).
  unfold is_u8, is_u7, is_u32, be32 in *. lia.
Qed.

Lemma good_layout2 g ch m : address g ch -> m2_ok m -> good (layout2 g ch m).
Proof.
  intros A M. pose proof (layout2_wf g ch m A M). split; [assumption|].
  apply clean2. change (mkP _ _ _ _) with (layout2 g ch m).
  rewrite psize_spec. rewrite layout2_type by assumption. cbn. lia.
Qed.

(* a system exclusive 7 packet, by its words *)
Lemma good_sx7 g f l : 0 <= g < 16 -> 0 <= f < 4 -> (length l <= 6)%nat -> Forall is_u8 l -> good (sx7_packet g f l).
Proof.
  intros G F L U. assert (W : wf_packet (sx7_packet g f l)).
  { rewrite sx7_pob by assumption. apply pob_wf. now apply sx7_u8. }
  split; [exact W|]. apply clean2. change (mkP _ _ _ _) with (sx7_packet g f l).
  rewrite psize_spec, sx7_pob by assumption. rewrite pob_type by now apply sx7_u8.
  cbn [nth]. replace ((3 * 16 + g) / 16) with 3 by dlia. cbn. lia.
Qed.

Lemma good_utility st v : is_u8 st -> is_u16 v -> good (make_utility_message st v).
Proof.
  intros S V. rewrite utility_layout by assumption. apply good1. unfold is_u8, is_u16, is_u32, be32 in *. dlia.
Qed.

Lemma good_system g st d1 d2 : is_u8 g -> is_u8 st -> is_u8 d1 -> is_u8 d2 -> good (make_system_message g st d1 d2).
Proof.
  intros. rewrite system_layout by assumption. apply good1. unfold is_u8, is_u32, be32 in *. dlia.
Qed.

Lemma good_midi1_voice g ch n v w p : address g ch -> is_u7 n -> is_u16 v -> is_u32 w ->
  In p (midi1_voice_packets g ch n v w) -> good p.
Proof.
  intros A N V W I.
  assert (X1 : is_u7 (v / 512)) by (unfold is_u7, is_u16 in *; dlia).
  assert (X2 : is_u7 (w / 33554432)) by (unfold is_u7, is_u32 in *; dlia).
  assert (X3 : is_u14 (w / 262144)) by (unfold is_u14, is_u32 in *; dlia).
  unfold midi1_voice_packets in I.
  rewrite mk1_note_off, mk1_note_on, mk1_poly, mk1_cc, mk1_program, mk1_pressure, mk1_bend in I by assumption.
  repeat (destruct I as [<-|I]; [apply good_layout1; [assumption|now cbn [m1_ok]]|]). contradiction.
Qed.

Lemma good_midi2_voice g ch n b k i a v w s p : address g ch -> is_u7 n -> is_u7 b -> is_u14 k -> is_u8 i ->
  is_u16 a -> is_u16 v -> is_u32 w -> is_s32 s ->
  In p (midi2_voice_packets g ch n b k i a v w s) -> good p.
Proof.
  intros A N B K I1 AD V W S I. unfold midi2_voice_packets in I.
  assert (Z0 : is_u8 0) by (unfold is_u8; lia). assert (Z3 : is_u8 3) by (unfold is_u8; lia).
  assert (Z00 : is_u16 0) by (unfold is_u16; lia).
  rewrite mk2_note_off, mk2_note_on, mk2_note_on_attribute, mk2_note_on_pitch, mk2_rpn, mk2_apn, mk2_rc, mk2_ac,
    mk2_rrc, mk2_rac, mk2_cc, mk2_poly, mk2_program, mk2_program_bank, mk2_pressure, mk2_bend, mk2_pnpb, mk2_pnm in I by assumption.
  repeat (destruct I as [<-|I]; [apply good_layout2; [assumption|cbn [m2_ok]; tauto]|]). contradiction.
Qed.

Lemma good_to_midi1 q p : wf_packet q -> to_midi1 q = Some p -> good p.
Proof.
  intros W E. destruct (to_midi1_any q p W E) as (_ & m & M & -> & _). apply good_layout1; [|assumption].
  split; apply Z.mod_pos_bound; lia.
Qed.

Lemma good_to_midi2 q p : wf_packet q -> to_midi2 q = Ok (Some p) -> good p.
Proof.
  intros W. unfold to_midi2, as_midi1_view. destruct (is_midi1_channel_voice_message q); [|discriminate].
  assert (A : address (group q) (m1_channel q)).
  { split; [rewrite group_spec; apply Z.mod_pos_bound; lia|]. unfold m1_channel. rewrite land_15. apply Z.mod_pos_bound; lia. }
  assert (D1 : is_u7 (m1_data_byte_1 q)) by apply mod7.
  assert (D2 : is_u7 (m1_data_byte_2 q)) by apply mod7.
  pose proof (m14_range q) as D14.
  assert (V : forall x, is_u7 x -> is_u16 (velocity_of_uint7 x)).
  { intros x X. unfold velocity_of_uint7. rewrite mcm_7_16 by assumption. now apply mcm_7_16_range. }
  assert (C : forall x, is_u7 x -> is_u32 (controller_of_uint7 x)).
  { intros x X. unfold controller_of_uint7. rewrite mcm_7_32 by assumption. now apply mcm_7_32_range. }
  assert (C14 : is_u32 (min_center_max 14 32 (m1_get_14bit_value q))) by now apply mcm_14_32_range.
  unfold as_midi2, pitch_bend_of_uint14. rewrite mcm_14_32 by assumption. cbn [bind].
  set (d1 := m1_data_byte_1 q) in *. set (d2 := m1_data_byte_2 q) in *. set (g := group q) in *. set (c := m1_channel q) in *.
  clearbody d1 d2 g c. assert (S64 : is_u7 64) by (unfold is_u7; lia).
  assert (Z0 : is_u8 0) by (unfold is_u8; lia). assert (Z00 : is_u16 0) by (unfold is_u16; lia).
  repeat match goal with
  | |- context[if ?b then _ else _] => destruct b
  end; intros E; try discriminate; apply (f_equal (fun r => match r with Ok (Some x) => x | _ => p end)) in E; subst p.
  - rewrite mk2_note_off by auto. apply good_layout2; [assumption|]. cbn [m2_ok]. auto.
  - rewrite mk2_note_off by auto. apply good_layout2; [assumption|]. cbn [m2_ok]. auto.
  - rewrite mk2_note_on by auto. apply good_layout2; [assumption|]. cbn [m2_ok]. auto.
  - rewrite mk2_poly by auto. apply good_layout2; [assumption|]. cbn [m2_ok]. auto.
  - rewrite mk2_cc by auto. apply good_layout2; [assumption|]. cbn [m2_ok]. auto.
  - rewrite mk2_program by auto. apply good_layout2; [assumption|]. cbn [m2_ok]. auto.
  - rewrite mk2_pressure by auto. apply good_layout2; [assumption|]. cbn [m2_ok]. auto.
  - rewrite mk2_bend by auto. apply good_layout2; [assumption|]. cbn [m2_ok]. auto.
Qed.

Lemma good_sysex7 k make g l p q : In (k, make) sysex7_makers -> 0 <= g < 16 -> Forall is_u8 l -> (length l <= 6)%nat ->
  make g = Ok p -> add_all sysex7_add_payload_byte p l = Ok q -> good q.
Proof.
  intros M G U L E A. destruct (build7 k make g l M G U L) as (p' & q' & E' & A' & W & _ & B).
  assert (P : p' = p) by congruence. subst p'. assert (Q : q' = q) by congruence. subst q'.
  assert (K : 0 <= k <= 3) by (cbn [sysex7_makers In] in M; destruct M as [M|[M|[M|[M|[]]]]]; inversion M; lia).
  assert (U' : Forall is_u8 (map (fun b => b mod 128) l)) by (apply Forall_map, Forall_forall; unfold is_u8; intros; lia).
  replace q with (sx7_packet g k (map (fun b => b mod 128) l)).
  { apply good_sx7; try assumption; [lia|]. now rewrite map_length. }
  assert (W' : wf_packet (sx7_packet g k (map (fun b => b mod 128) l))) by (apply good_sx7; try assumption; [lia|now rewrite map_length]).
  apply bytes_inj; [exact W'|exact W|]. rewrite B, sx7_pob by (try assumption; rewrite ?map_length; lia).
  rewrite pob_bytes by (apply sx7_u8; try assumption; rewrite ?map_length; lia).
  rewrite map_length. rewrite EndpointProofs.pad16_zeros by (cbn [length]; rewrite map_length; lia).
  cbn [length app]. rewrite map_length. replace (3 * 16 + g) with (48 + g) by lia. f_equal.
  f_equal. lia.
Qed.

Lemma good_sx8 g f i l : 0 <= g < 16 -> 0 <= f < 4 -> is_u8 i -> (length l <= 13)%nat -> Forall is_u8 l -> good (sx8_packet g f i l).
Proof.
  intros. apply good_pob; [now apply sx8_u8|]. left. cbn [nth]. dlia.
Qed.

Lemma good_sysex8 k make s g l q : In (k, make) sysex8_makers -> is_u8 s -> 0 <= g < 16 -> Forall is_u8 l -> (length l <= 13)%nat ->
  add_all sysex8_add_payload_byte (make s g) l = Ok q -> good q.
Proof.
  intros M S G U L E. destruct (build8 k make s g l M S G U L) as (q' & E' & W & (T & _) & _).
  assert (Q : q' = q) by congruence. subst q'. split; [exact W|]. apply clean4. rewrite psize_spec, at_type by assumption.
  now rewrite T.
Qed.

Lemma sent_id7_u8 id : Forall is_u8 (sent_id7 id).
Proof. unfold sent_id7. destruct (_ =? 0); repeat (apply Forall_cons; [unfold is_u8; dlia|]); constructor. Qed.

Lemma good_send7 s g ps p : is_u32 (sx_id s) -> Forall is_u8 (sx_data s) -> 0 <= g < 16 ->
  send_sysex7 s g = Ok ps -> In p ps -> good p.
Proof.
  intros D U G E. destruct (send7_spec s g) as (c & rest & F & C & E'); [now split|assumption|].
  assert (X : ps = sx7_packet g (if total_data_size s <=? 6 then 0 else 1) c :: sx7_tail g rest) by congruence. subst ps.
  assert (K : Forall (chunk_ok 6) (c :: rest)).
  { apply full_chunks_ok; [lia|assumption|]. rewrite C. apply Forall_app. split.
    - apply sent_id7_u8.
    - apply Forall_map, Forall_forall. unfold is_u8. intros. lia. }
  intros [<-|I].
  - inversion K as [|? ? [K1 K2]]; subst. apply good_sx7; try assumption; try tauto. destruct (_ <=? 6); lia.
  - inversion K as [|? ? _ K']; subst. clear - I K' G. induction K' as [|x l [X1 X2] K' IH]; cbn [sx7_tail] in I; [contradiction|].
    destruct l; (destruct I as [<-|I]; [apply good_sx7; try assumption; try lia; tauto|auto]).
Qed.

Lemma good_send8 id d i g ps p : valid_id id -> Forall is_u8 d -> is_u8 i -> 0 <= g < 16 ->
  send_sysex8 (mkSx id d) i g = Ok ps -> In p ps -> good p.
Proof.
  intros V D I G E. destruct (send8_spec id d i g) as (c & rest & F & C & E'); try assumption.
  rewrite E in E'. apply (f_equal (fun r => match r with Ok x => x | _ => ps end)) in E'. subst ps.
  assert (K : Forall (chunk_ok 13) (c :: rest)).
  { apply full_chunks_ok; [lia|assumption|]. rewrite C. apply Forall_app. split; [now apply id_bytes8_u8|assumption]. }
  intros [<-|J].
  - inversion K as [|? ? [K1 K2]]; subst. apply good_sx8; try assumption; try tauto. destruct (_ <=? 13); lia.
  - inversion K as [|? ? _ K']; subst. clear - J K' G I. induction K' as [|x l [X1 X2] K' IH]; cbn [sx8_tail] in J; [contradiction|].
    destruct l; (destruct J as [<-|J]; [apply good_sx8; try assumption; try lia; tauto|auto]).
Qed.

Lemma good_stream_wire c : stream_typed c -> good (stream_wire c).
Proof.
  intros T. destruct (wire_form c T) as (f & st & r & -> & _ & F4 & F). apply good_pob; [assumption|].
  right. right. cbn [nth]. dlia.
Qed.

Lemma stream_checked_dec c : stream_checked c \/ ~ stream_checked c.
Proof. destruct c; cbn [stream_checked]; try tauto; lia. Qed.

Lemma good_stream dbg c p : stream_typed c -> stream_make dbg c = Ok p -> good p.
Proof.
  intros T E. destruct dbg.
  - destruct (stream_checked_dec c) as [C|C].
    + rewrite make_wire in E by auto. injection E as <-. now apply good_stream_wire.
    + rewrite make_unchecked in E by assumption. discriminate.
  - rewrite make_wire in E by (assumption || discriminate). injection E as <-. now apply good_stream_wire.
Qed.

Lemma good_text dbg s t ps p : Forall is_u8 t -> sender_typed s -> (s = TProduct -> size t <= 16) ->
  send_text dbg s t = Ok ps -> In p ps -> good p.
Proof.
  intros U T P E I. destruct (send_packets dbg s t U T P) as (fs & cs & F & PC & C & L & E').
  rewrite E in E'. apply (f_equal (fun r => match r with Ok x => x | _ => ps end)) in E'. subst ps.
  apply in_map_iff in I. destruct I as ((f & c) & <- & I). cbn [fst snd]. apply good_stream_wire.
  pose proof (formats_range fs F) as R. rewrite Forall_forall in R. pose proof (R f (in_combine_l _ _ _ _ I)) as Rf.
  assert (V : Forall is_u8 c).
  { rewrite <- C in U. apply in_combine_r in I. rewrite Forall_forall in U |- *. intros x X. apply U.
    apply in_concat. eauto. }
  destruct s; cbn [text_call stream_typed sender_typed] in *; tauto.
Qed.

Lemma good_flex dbg c p : flex_typed c -> flex_make dbg c = Ok p -> good p.
Proof.
  intros T E. rewrite flex_make_spec in E by assumption.
  destruct (dbg && _); [discriminate|]. destruct (dbg && _); [discriminate|]. injection E as <-.
  apply good_pob; [now apply flex_bytes|]. right. left. cbn [head_bytes app nth]. dlia.
Qed.

Lemma good_bytes s d1 d2 : good (from_midi1_byte_stream s d1 d2).
Proof.
  unfold from_midi1_byte_stream. cbv zeta.
  assert (Z0 : is_u32 0) by (unfold is_u32; lia).
  assert (X : forall x, is_u32 (u32 x)) by (intros; unfold is_u32, u32; apply Z.mod_pos_bound; lia).
  destruct (_ =? _); [destruct (existsb _ _)|destruct (_ <? _)]; now apply good1.
Qed.

Lemma good_short g s ds : 0 <= g < 16 -> is_u8 s -> Forall is_u7 ds -> good (short_packet g s ds).
Proof.
  intros G S D. unfold short_packet. apply good1.
  assert (X : forall k, is_u8 (nth k ds 0)).
  { intros k. destruct (Nat.lt_ge_cases k (length ds)) as [L|L].
    - rewrite Forall_forall in D. pose proof (D _ (nth_In ds 0 L)). unfold is_u7, is_u8 in *. lia.
    - rewrite nth_overflow by lia. unfold is_u8. lia. }
  pose proof (X 0%nat). pose proof (X 1%nat). destruct (s <? 240); unfold is_u8, is_u32, be32 in *; lia.
Qed.

Lemma sc_len_range s n : sc_len s = Some n -> 0xF0 <= s < 0x100.
Proof.
  unfold sc_len. repeat match goal with |- context[if ?b then _ else _] => destruct b eqn:? end; try discriminate; lia.
Qed.

Lemma good_parser g cb on cs st out p : 0 <= g < 16 -> Forall valid_call cs ->
  parser_calls (new_parser g cb on) cs = Ok (st, out) -> In (EPacket p) out -> good p.
Proof.
  intros G V E I. destruct (C16_output_is_well_formed g cb on cs G V) as (st' & out' & E' & W).
  assert (X : out' = out) by congruence. subst out'. clear E E'.
  rewrite Forall_forall in W. destruct (W _ I) as (g' & G' & O).
  assert (R : 0 <= g' < 16).
  { destruct G' as [->|G']; [assumption|]. rewrite Forall_forall in V. exact (V _ G'). }
  destruct O as [(m & M & ->)|[(r & R1 & R2 & ->)|(f & ds & F & L & U & _ & ->)]].
  - destruct M as [M D]. apply good_short; [assumption| |assumption]. destruct M as [[M _]|M]; [unfold is_u8; lia|].
    apply sc_len_range in M. unfold is_u8. lia.
  - apply good_short; [assumption|unfold is_u8; lia|constructor].
  - apply good_sx7; try assumption. eapply Forall_impl; [|exact U]. intros a. unfold is_u7, is_u8. lia.
Qed.

Lemma good_set_group p g q : good p -> 0 <= g < 16 -> set_group p g = Ok q -> good q.
Proof.
  intros [W C] G E. destruct (set_group_fields p g W G) as (q' & E' & W' & _ & T & _ & _ & _ & E1 & E2 & E3).
  assert (X : q' = q) by congruence. subst q'. split; [assumption|].
  assert (S : psize q = psize p) by now rewrite !psize_spec, T.
  clear E E' T W W'. revert C. unfold clean, assembled, transmitted. rewrite S. pose proof (psize_range p) as L.
  clear S. generalize dependent (psize p). intros n L. destruct p as [a b c d], q as [a' b' c' d']; cbn [w0 w1 w2 w3 words] in *.
  subst b' c' d'. destruct n as [|[|[|[|[|]]]]]; try lia; cbn [firstn nth words w0 w1 w2 w3]; intros C; try injection C; congruence.
Qed.

Theorem made_good p : made p -> good p.
Proof.
  induction 1; eauto using good_utility, good_system, good_midi1_voice, good_midi2_voice, good_to_midi1, good_to_midi2,
    good_sysex7, good_sysex8, good_send7, good_send8, good_stream, good_text, good_flex, good_bytes, good_parser, good_set_group.
  - destruct (jr_messages_ok ts) as (A & B & _); [assumption|]. rewrite A in H0. injection H0 as <-.
    apply good_utility; [unfold is_u8; lia|assumption].
  - destruct (jr_messages_ok ts) as (A & B & _); [assumption|]. rewrite B in H0. injection H0 as <-.
    apply good_utility; [unfold is_u8; lia|assumption].
  - unfold make_song_position_message. apply good_system; try assumption; unfold is_u8, u8; try lia; apply Z.mod_pos_bound; lia.
Qed.

Theorem made_unchanged ps : Forall made ps -> receive [] (transmission ps) = ([], ps).
Proof.
  intros M. rewrite receive_all. f_equal. induction M as [|p ps M1 M IH]; [reflexivity|].
  cbn [map]. destruct (made_good p M1) as [_ C]. rewrite C. now f_equal.
Qed.
