(* Collecting the messages of several senders *)
From Coq Require Import ZArith List Bool Lia ZifyBool ZifyNat.
From Verif Require Import Base Bits Packet PacketSpec PacketBytes Messages Sysex Collector StreamSpec StreamProofs StreamLemmas
  CollectSpec CollectProofs CollectLemmas SendProofs CollectCalls ManySpec.
Import ListNotations.
Local Open Scope Z_scope.
Local Open Scope res_scope.

Lemma messages_run dec i css st : a_clean st -> Forall (fun cs => cs <> []) css ->
  snd (a_run dec 0 st (concat (map (message_of i) css))) = map (fun cs => (dec (concat cs), i)) css.
Proof.
  intros C F. revert st C. induction F as [|cs css N _ IH]; intros st C; [reflexivity|]. cbn [map concat].
  rewrite a_run_app, message_fits by auto. cbn [fst snd app]. rewrite IH by apply idle_clean. reflexivity.
Qed.

(* only the packets of one sender reach its collector *)
Lemma dispatched {K} rd (is_k : K -> bool) (f : packet -> bool) (t : traffic K) :
  (forall k p, In (Some k, p) t -> f p = is_k k) -> (forall p, In (None, p) t -> rd p = None) ->
  contents rd (filter f (map snd t)) = contents rd (sent_by is_k t).
Proof.
  induction t as [|[[k|] p] t IH]; intros H1 H2; [reflexivity| |].
  - unfold sent_by in *. cbn [map filter fst snd]. rewrite (H1 k p (or_introl eq_refl)).
    assert (I := IH (fun k' q I => H1 k' q (or_intror I)) (fun q I => H2 q (or_intror I))).
    destruct (is_k k); cbn [map snd contents]; [|exact I]. destruct (rd p); now rewrite I.
  - unfold sent_by in *. cbn [map filter fst snd].
    assert (I := IH (fun k' q I => H1 k' q (or_intror I)) (fun q I => H2 q (or_intror I))).
    destruct (f p); [|exact I]. cbn [contents]. rewrite (H2 p (or_introl eq_refl)). exact I.
Qed.

Lemma sent_in {K} (t : traffic K) k p is_k : In (Some k, p) t -> is_k k = true -> In p (sent_by is_k t).
Proof.
  intros I E. unfold sent_by. apply in_map_iff. exists (Some k, p). split; [reflexivity|]. apply filter_In. now split.
Qed.
Lemma other_in {K} (t : traffic K) p : In (None, p) t -> In p (other_traffic t).
Proof.
  intros I. unfold other_traffic. apply in_map_iff. exists (None, p). split; [reflexivity|]. apply filter_In. now split.
Qed.

Lemma content7_type p x : wf_packet p -> content7 p = Some x -> type p = 3.
Proof.
  intros W. unfold content7. destruct (Z.eqb_spec (nth 0 (bytes p) 0 / 16) 3) as [E|]; [|discriminate]. intros _.
  unfold type. unfold bytes, word_bytes in E; cbn [app nth] in E. destruct W as [W _]. unfold is_u32 in W. rewrite land_15, shiftr_div by lia. pow2_simpl. dlia.
Qed.
Lemma content8_type p x : wf_packet p -> content8 p = Some x -> type p = 5.
Proof.
  intros W. unfold content8. destruct (Z.eqb_spec (nth 0 (bytes p) 0 / 16) 5) as [E|]; [|discriminate]. intros _.
  unfold type. unfold bytes, word_bytes in E; cbn [app nth] in E. destruct W as [W _]. unfold is_u32 in W. rewrite land_15, shiftr_div by lia. pow2_simpl. dlia.
Qed.

Lemma head_bytes g f l : 0 <= g < 16 -> 0 <= f < 4 -> (length l <= 6)%nat -> Forall is_u8 l ->
  nth 0 (bytes (sx7_packet g f l)) 0 = 3 * 16 + g.
Proof. intros. rewrite sx7_pob, pob_bytes by (trivial; now apply sx7_u8). reflexivity. Qed.

Lemma tail_heads7 g rest : 0 <= g < 16 -> Forall (chunk_ok 6) rest ->
  Forall (fun p => nth 0 (bytes p) 0 = 3 * 16 + g) (sx7_tail g rest).
Proof.
  intros G. induction rest as [|c [|c' rest] IH]; intros F; [constructor| |]; inversion_clear F as [|? ? [L U] F'].
  - constructor; [|constructor]. apply head_bytes; trivial; lia.
  - change (sx7_tail g (c :: c' :: rest)) with (sx7_packet g 2 c :: sx7_tail g (c' :: rest)).
    constructor; [apply head_bytes; trivial; lia|auto].
Qed.
Lemma sequence_heads7 g chunks : 0 <= g < 16 -> Forall (chunk_ok 6) chunks ->
  Forall (fun p => nth 0 (bytes p) 0 = 3 * 16 + g) (sx7_sequence g chunks).
Proof.
  intros G F. destruct chunks as [|c [|c' rest]]; [constructor| |]; inversion_clear F as [|? ? [L U] F'].
  - constructor; [|constructor]. apply head_bytes; trivial; lia.
  - change (sx7_sequence g (c :: c' :: rest)) with (sx7_packet g 1 c :: sx7_tail g (c' :: rest)).
    constructor; [apply head_bytes; trivial; lia|now apply tail_heads7].
Qed.

Lemma head_bytes8 g f i l : 0 <= g < 16 -> 0 <= f < 4 -> is_u8 i -> (length l <= 13)%nat -> Forall is_u8 l ->
  nth 0 (bytes (sx8_packet g f i l)) 0 = 5 * 16 + g /\ nth 2 (bytes (sx8_packet g f i l)) 0 = i.
Proof. intros. unfold sx8_packet. rewrite pob_bytes by now apply sx8_u8. split; reflexivity. Qed.

Lemma tail_heads8 g i rest : 0 <= g < 16 -> is_u8 i -> Forall (chunk_ok 13) rest ->
  Forall (fun p => nth 0 (bytes p) 0 = 5 * 16 + g /\ nth 2 (bytes p) 0 = i) (sx8_tail g i rest).
Proof.
  intros G I. induction rest as [|c [|c' rest] IH]; intros F; [constructor| |]; inversion_clear F as [|? ? [L U] F'].
  - constructor; [|constructor]. apply head_bytes8; trivial; lia.
  - change (sx8_tail g i (c :: c' :: rest)) with (sx8_packet g 2 i c :: sx8_tail g i (c' :: rest)).
    constructor; [apply head_bytes8; trivial; lia|auto].
Qed.
Lemma sequence_heads8 g i chunks : 0 <= g < 16 -> is_u8 i -> Forall (chunk_ok 13) chunks ->
  Forall (fun p => nth 0 (bytes p) 0 = 5 * 16 + g /\ nth 2 (bytes p) 0 = i) (sx8_sequence g i chunks).
Proof.
  intros G I F. destruct chunks as [|c [|c' rest]]; [constructor| |]; inversion_clear F as [|? ? [L U] F'].
  - constructor; [|constructor]. apply head_bytes8; trivial; lia.
  - change (sx8_sequence g i (c :: c' :: rest)) with (sx8_packet g 1 i c :: sx8_tail g i (c' :: rest)).
    constructor; [apply head_bytes8; trivial; lia|now apply tail_heads8].
Qed.

(* the packets of a sender *)
Lemma sender7 g ms ps : 0 <= g < 16 -> Forall sendable7 ms -> sent_messages (fun m => send_sysex7 m g) ms ps ->
  Forall (fun p => wf_packet p /\ nth 0 (bytes p) 0 = 3 * 16 + g) ps /\
  exists css, Forall (fun cs => cs <> []) css /\ contents content7 ps = concat (map (message_of 0) css) /\
    map (fun cs => decode7 (concat cs)) css = ms.
Proof.
  intros G F (pss & S & ->). revert F. induction S as [|[id d] qs ms pss E _ IH]; intros F.
  - split; [constructor|]. exists []. repeat split. constructor.
  - inversion_clear F as [|? ? (V & NZ & D) F']. cbn [sx_id sx_data] in *. destruct (IH F') as (W' & css & N & C & M).
    destruct (send7_valid id d g V NZ (Forall_u7_u8 _ D) G) as (chunks & FC & CC & E').
    rewrite E in E'. injection E' as ->. rewrite map_mod_id in CC by assumption.
    assert (OK : Forall (chunk_ok 6) chunks).
    { apply full_chunks_ok; [lia|assumption|]. rewrite CC. apply Forall_u7_u8, Forall_app. split; [now apply id_bytes_u7|assumption]. }
    destruct (contents7_sequence g chunks G OK) as [CT W]. assert (H := sequence_heads7 g chunks G OK). cbn [concat]. split.
    + apply Forall_app; split; [|exact W']. apply Forall_forall. intros p P. rewrite Forall_forall in W, H. split; [apply (W p P)|apply (H p P)].
    + exists (chunks :: css). split; [constructor; [intros ->; destruct FC|exact N]|]. cbn [map concat].
      rewrite contents_app, CT, C, M, CC, decode7_bytes by assumption. auto.
Qed.

Lemma sender8 g i ms ps : 0 <= g < 16 -> is_u8 i -> Forall sendable8 ms -> sent_messages (fun m => send_sysex8 m i g) ms ps ->
  Forall (fun p => wf_packet p /\ nth 0 (bytes p) 0 = 5 * 16 + g /\ nth 2 (bytes p) 0 = i) ps /\
  exists css, Forall (fun cs => cs <> []) css /\ contents content8 ps = concat (map (message_of i) css) /\
    map (fun cs => decode8 (concat cs)) css = ms.
Proof.
  intros G I F (pss & S & ->). revert F. induction S as [|[id d] qs ms pss E _ IH]; intros F.
  - split; [constructor|]. exists []. repeat split. constructor.
  - inversion_clear F as [|? ? (V & D & MC) F']. cbn [sx_id sx_data] in *. destruct (IH F') as (W' & css & N & C & M).
    destruct (send8_valid id d i g V D I G) as (c0 & rest & FC & CC & OK & E' & _). specialize (E' MC).
    remember (c0 :: rest) as chunks eqn:CE. assert (NE : chunks <> []) by now subst. clear CE.
    rewrite E in E'. injection E' as ->.
    destruct (contents8_sequence g i chunks G I OK) as [CT W]. assert (H := sequence_heads8 g i chunks G I OK). cbn [concat]. split.
    + apply Forall_app; split; [|exact W']. apply Forall_forall. intros p P. rewrite Forall_forall in W, H. split; [apply (W p P)|apply (H p P)].
    + exists (chunks :: css). split; [constructor; [exact NE|exact N]|]. cbn [map concat].
      rewrite contents_app, CT, C, M, CC, decode8_bytes by assumption. auto.
Qed.

Lemma each_group a c g (ms : Z -> list sysex) (t : traffic Z) :
  std_alloc a -> reached7 a 0 c -> c7_has_cb c = true -> 0 <= g < 16 ->
  (forall k p, In (Some k, p) t -> 0 <= k < 16) ->
  (forall k, 0 <= k < 16 -> Forall sendable7 (ms k) /\ sent_messages (fun m => send_sysex7 m k) (ms k) (sent_by (Z.eqb k) t)) ->
  Forall (fun p => wf_packet p /\ type p <> 3) (other_traffic t) ->
  exists c', c7_calls a c (map KFeed (filter (for_group g) (map snd t))) = Ok (c', ms g).
Proof.
  intros A R CB G KS S O.
  assert (PK : forall k p, In (Some k, p) t -> wf_packet p /\ nth 0 (bytes p) 0 = 3 * 16 + k).
  { intros k p I. assert (K := KS k p I). destruct (S k K) as [F SM]. destruct (sender7 k _ _ K F SM) as [H _].
    rewrite Forall_forall in H. apply H. apply (sent_in t k p (Z.eqb k) I). apply Z.eqb_refl. }
  rewrite Forall_forall in O.
  assert (W : Forall wf_packet (filter (for_group g) (map snd t))).
  { apply Forall_filter, Forall_forall. intros p P. apply in_map_iff in P as ([[k|] q] & <- & I).
    - apply (PK k q I).
    - apply (O q). now apply other_in. }
  assert (C : contents content7 (filter (for_group g) (map snd t)) = contents content7 (sent_by (Z.eqb g) t)).
  { apply dispatched.
    - intros k p I. destruct (PK k p I) as [_ H]. assert (K := KS k p I). unfold for_group. rewrite H.
      replace ((3 * 16 + k) mod 16) with k by dlia. apply Z.eqb_sym.
    - intros p I. destruct (O p (other_in t p I)) as [WP T]. destruct (content7 p) eqn:E; [|reflexivity].
      exfalso. apply T. now apply (content7_type p c0). }
  destruct (S g G) as [F SM]. destruct (sender7 g _ _ G F SM) as (_ & css & N & CT & M). rewrite CT in C.
  apply limit_std in A. destruct (reached7_inv a 0 c A R) as (st & I & CL).
  destruct (feeds7 a 0 _ st c _ A I W) as (c' & E & _). exists c'.
  rewrite E, CB, C, messages_run by auto. do 2 f_equal. rewrite map_map. cbn [fst]. exact M.
Qed.

Lemma each_stream a c g i (ms : Z -> Z -> list sysex) (t : traffic (Z * Z)) :
  std_alloc a -> reached8 a 0 c -> c8_has_cb c = true -> 0 <= g < 16 -> is_u8 i ->
  (forall k j p, In (Some (k, j), p) t -> 0 <= k < 16 /\ is_u8 j) ->
  (forall k j, 0 <= k < 16 -> is_u8 j -> Forall sendable8 (ms k j) /\
     sent_messages (fun m => send_sysex8 m j k) (ms k j) (sent_by (is_key (k, j)) t)) ->
  Forall (fun p => wf_packet p /\ type p <> 5) (other_traffic t) ->
  exists c', c8_calls a c (map KFeed (filter (for_stream g i) (map snd t))) = Ok (c', map (fun m => (m, i)) (ms g i)).
Proof.
  intros A R CB G I KS S O.
  assert (PK : forall k j p, In (Some (k, j), p) t -> wf_packet p /\ nth 0 (bytes p) 0 = 5 * 16 + k /\ nth 2 (bytes p) 0 = j).
  { intros k j p IN. destruct (KS k j p IN) as [K J]. destruct (S k j K J) as [F SM]. destruct (sender8 k j _ _ K J F SM) as [H _].
    rewrite Forall_forall in H. apply H. apply (sent_in t (k, j) p (is_key (k, j)) IN). unfold is_key. cbn. now rewrite !Z.eqb_refl. }
  rewrite Forall_forall in O.
  assert (W : Forall wf_packet (filter (for_stream g i) (map snd t))).
  { apply Forall_filter, Forall_forall. intros p P. apply in_map_iff in P as ([[[k j]|] q] & <- & IN).
    - apply (PK k j q IN).
    - apply (O q). now apply other_in. }
  assert (C : contents content8 (filter (for_stream g i) (map snd t)) = contents content8 (sent_by (is_key (g, i)) t)).
  { apply dispatched.
    - intros [k j] p IN. destruct (PK k j p IN) as (_ & H & H2). unfold for_stream, is_key. rewrite H, H2. cbn [fst snd]. lia.
    - intros p IN. destruct (O p (other_in t p IN)) as [WP T]. destruct (content8 p) eqn:E; [|reflexivity].
      exfalso. apply T. now apply (content8_type p c0). }
  destruct (S g i G I) as [F SM]. destruct (sender8 g i _ _ G I F SM) as (_ & css & N & CT & M). rewrite CT in C.
  apply limit_std in A. destruct (reached8_inv a 0 c A R) as (st & IV & CL).
  destruct (feeds8 a 0 _ st c _ A IV W) as (c' & E & _). exists c'.
  rewrite E, CB, C, messages_run by auto. do 2 f_equal. rewrite <- M, map_map. reflexivity.
Qed.
