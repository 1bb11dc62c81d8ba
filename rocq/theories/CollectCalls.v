(* Collectors after arbitrary histories *)
From Coq Require Import ZArith List Bool Lia ZifyBool ZifyNat.
From Verif Require Import Base Bits Packet PacketSpec PacketProofs PacketBytes Messages Sysex Collector ByteStream
  StreamSpec StreamProofs StreamLemmas StreamCalls StreamBytes CollectSpec CollectProofs CollectLemmas SendProofs.
Import ListNotations.
Local Open Scope Z_scope.
Local Open Scope res_scope.

Lemma limit_std a : std_alloc a -> limit_alloc a 0.
Proof. intros. repeat split; try apply H; lia. Qed.
Lemma limit_exact a max : exact_alloc a -> 0 <= max -> limit_alloc a max.
Proof. intros H M. split; [assumption|]. split; [apply H|auto]. Qed.

Lemma keeps_feed ps : Forall wf_packet ps -> Forall keeps_limit (map KFeed ps).
Proof. induction 1; constructor; assumption. Qed.

Lemma idle_clean : a_clean a_idle.
Proof. now right. Qed.

Lemma reached7_inv a max c : limit_alloc a max -> reached7 a max c ->
  exists st, inv7 max (c7_has_cb c) st c /\ (max = 0 -> a_clean st).
Proof.
  intros A (cb & ks & o & K & E).
  destruct (calls7_refine a max ks A K cb a_idle _ (inv7_new a max cb A)) as (c' & E' & I).
  rewrite E in E'. injection E' as <- _. eexists. split; [exact I|]. intros ->. apply a_calls_clean, idle_clean.
Qed.
Lemma reached8_inv a max c : limit_alloc a max -> reached8 a max c ->
  exists st, inv8 max (c8_has_cb c) st c /\ (max = 0 -> a_clean st).
Proof.
  intros A (cb & ks & o & K & E).
  destruct (calls8_refine a max ks A K cb a_idle _ (inv8_new a max cb A)) as (c' & E' & I).
  rewrite E in E'. injection E' as <- _. eexists. split; [exact I|]. intros ->. apply a_calls_clean, idle_clean.
Qed.

Lemma c7_calls_app a ks : forall c ks' c1 o1, c7_calls a c ks = Ok (c1, o1) ->
  c7_calls a c (ks ++ ks') = (r <- c7_calls a c1 ks' ;; let '(c, o) := r in Ok (c, o1 ++ o)).
Proof.
  induction ks as [|k ks IH]; intros c ks' c1 o1 E; cbn [app c7_calls] in *.
  - injection E as <- <-. cbn [app]. destruct (c7_calls a c ks') as [[]|]; reflexivity.
  - destruct (c7_call a c k) as [[c2 o2]|]; cbn [bind] in *; [|discriminate].
    destruct (c7_calls a c2 ks) as [[c3 o3]|] eqn:E3; cbn [bind] in *; [|discriminate]. injection E as <- <-.
    rewrite (IH c2 ks' c3 o3 E3). destruct (c7_calls a c3 ks') as [[]|]; cbn [bind]; [|reflexivity]. now rewrite app_assoc.
Qed.
Lemma c8_calls_app a ks : forall c ks' c1 o1, c8_calls a c ks = Ok (c1, o1) ->
  c8_calls a c (ks ++ ks') = (r <- c8_calls a c1 ks' ;; let '(c, o) := r in Ok (c, o1 ++ o)).
Proof.
  induction ks as [|k ks IH]; intros c ks' c1 o1 E; cbn [app c8_calls] in *.
  - injection E as <- <-. cbn [app]. destruct (c8_calls a c ks') as [[]|]; reflexivity.
  - destruct (c8_call a c k) as [[c2 o2]|]; cbn [bind] in *; [|discriminate].
    destruct (c8_calls a c2 ks) as [[c3 o3]|] eqn:E3; cbn [bind] in *; [|discriminate]. injection E as <- <-.
    rewrite (IH c2 ks' c3 o3 E3). destruct (c8_calls a c3 ks') as [[]|]; cbn [bind]; [|reflexivity]. now rewrite app_assoc.
Qed.

(* feeding packets *)
Lemma feeds7 a max cb st c ps : limit_alloc a max -> inv7 max cb st c -> Forall wf_packet ps ->
  exists c', c7_calls a c (map KFeed ps) =
      Ok (c', if cb then map fst (snd (a_run decode7 max st (contents content7 ps))) else []) /\
    inv7 max cb (fst (a_run decode7 max st (contents content7 ps))) c'.
Proof.
  intros A I W. destruct (calls7_refine a max _ A (keeps_feed ps W) cb st c I) as (c' & E & I').
  rewrite a_calls_feed in E, I'. cbn [fst snd] in *. exists c'. split; [rewrite E; now destruct cb|].
  replace cb with (c7_has_cb c'); [exact I'|].
  clear I'. revert c st I c' E. induction W as [|p ps P W IH]; intros c st I c' E; cbn [map c7_calls] in E.
  - injection E as <- _. apply (i7_cb _ _ _ _ I).
  - cbn [c7_call] in E. destruct (content7 p) as [x|] eqn:X.
    + destruct (feed7_step a max cb st c p x A I P X) as (c1 & E1 & I1). rewrite E1 in E. cbn [bind] in E.
      destruct (calls7_refine a max _ A (keeps_feed ps W) cb _ c1 I1) as (c2 & E2 & I2).
      rewrite E2 in E. cbn [bind] in E. injection E as <- _.
      eapply IH; [exact I1|]. rewrite a_calls_feed in E2. cbn [contents]. rewrite E2. now destruct cb.
    + rewrite feed7_skip in E by assumption. cbn [bind] in E.
      destruct (calls7_refine a max _ A (keeps_feed ps W) cb _ c I) as (c2 & E2 & I2).
      rewrite E2 in E. cbn [bind] in E. injection E as <- _.
      eapply IH; [exact I|]. rewrite a_calls_feed in E2. rewrite E2. now destruct cb.
Qed.

Lemma feeds8 a max cb st c ps : limit_alloc a max -> inv8 max cb st c -> Forall wf_packet ps ->
  exists c', c8_calls a c (map KFeed ps) =
      Ok (c', if cb then snd (a_run decode8 max st (contents content8 ps)) else []) /\
    inv8 max cb (fst (a_run decode8 max st (contents content8 ps))) c'.
Proof.
  intros A I W. revert c st I. induction W as [|p ps P W IH]; intros c st I.
  - exists c. split; [now destruct cb|exact I].
  - cbn [map c8_calls c8_call contents]. destruct (content8 p) as [x|] eqn:X.
    + destruct (feed8_step a max cb st c p x A I P X) as (c1 & E1 & I1). rewrite E1. cbn [bind].
      destruct (IH _ _ I1) as (c2 & E2 & I2). rewrite E2. cbn [bind a_run fst snd]. exists c2. split; [|exact I2].
      now destruct cb.
    + rewrite feed8_skip by assumption. cbn [bind]. destruct (IH _ _ I) as (c2 & E2 & I2). rewrite E2. now exists c2.
Qed.

(* ---- messages are delivered after any history ------------------------------------------------- *)

Lemma message_delivered7 a c ps chunks : std_alloc a -> reached7 a 0 c -> c7_has_cb c = true ->
  Forall wf_packet ps -> contents content7 ps = message_of 0 chunks -> chunks <> [] ->
  exists c', c7_calls a c (map KFeed ps) = Ok (c', [decode7 (concat chunks)]).
Proof.
  intros A R CB W C NE. apply limit_std in A. destruct (reached7_inv a 0 c A R) as (st & I & CL).
  destruct (feeds7 a 0 _ st c ps A I W) as (c' & E & _). exists c'.
  rewrite E, CB, C, message_fits by auto. reflexivity.
Qed.
Lemma message_delivered8 a c ps i chunks : std_alloc a -> reached8 a 0 c -> c8_has_cb c = true ->
  Forall wf_packet ps -> contents content8 ps = message_of i chunks -> chunks <> [] ->
  exists c', c8_calls a c (map KFeed ps) = Ok (c', [(decode8 (concat chunks), i)]).
Proof.
  intros A R CB W C NE. apply limit_std in A. destruct (reached8_inv a 0 c A R) as (st & I & CL).
  destruct (feeds8 a 0 _ st c ps A I W) as (c' & E & _). exists c'.
  rewrite E, CB, C, message_fits by auto. reflexivity.
Qed.

(* at the last packet only *)
Lemma last_packet7 a c ps q chunks : std_alloc a -> reached7 a 0 c -> c7_has_cb c = true ->
  Forall wf_packet (ps ++ [q]) -> contents content7 (ps ++ [q]) = message_of 0 chunks -> chunks <> [] -> content7 q <> None ->
  exists c1 c2, c7_calls a c (map KFeed ps) = Ok (c1, []) /\ c7_feed a c1 q = Ok (c2, [decode7 (concat chunks)]).
Proof.
  intros A R CB W C NE Q. destruct (message_delivered7 a c _ chunks A R CB W C NE) as (c' & E).
  apply limit_std in A. destruct (reached7_inv a 0 c A R) as (st & I & _).
  apply Forall_app in W. destruct W as [W1 W2].
  destruct (feeds7 a 0 _ st c ps A I W1) as (c1 & E1 & I1).
  assert (S : snd (a_run decode7 0 st (contents content7 ps)) = []).
  { apply silent_formats. pose proof (message_formats 0 chunks) as F. rewrite <- C, contents_app in F.
    cbn [contents] in F. destruct (content7 q); [|congruence]. now rewrite removelast_last in F. }
  rewrite S in E1. cbn [map] in E1. replace (if c7_has_cb c then [] else []) with (@nil sysex) in E1 by now destruct (c7_has_cb c).
  rewrite map_app, (c7_calls_app a _ c _ c1 [] E1) in E. cbn [map c7_calls c7_call bind app] in E.
  exists c1. destruct (c7_feed a c1 q) as [[c2 o2]|]; cbn [bind] in E; [|discriminate].
  injection E as <- E. rewrite app_nil_r in E. exists c2. subst o2. auto.
Qed.
Lemma last_packet8 a c ps q i chunks : std_alloc a -> reached8 a 0 c -> c8_has_cb c = true ->
  Forall wf_packet (ps ++ [q]) -> contents content8 (ps ++ [q]) = message_of i chunks -> chunks <> [] -> content8 q <> None ->
  exists c1 c2, c8_calls a c (map KFeed ps) = Ok (c1, []) /\ c8_feed a c1 q = Ok (c2, [(decode8 (concat chunks), i)]).
Proof.
  intros A R CB W C NE Q. destruct (message_delivered8 a c _ i chunks A R CB W C NE) as (c' & E).
  apply limit_std in A. destruct (reached8_inv a 0 c A R) as (st & I & _).
  apply Forall_app in W. destruct W as [W1 W2].
  destruct (feeds8 a 0 _ st c ps A I W1) as (c1 & E1 & I1).
  assert (S : snd (a_run decode8 0 st (contents content8 ps)) = []).
  { apply silent_formats. pose proof (message_formats i chunks) as F. rewrite <- C, contents_app in F.
    cbn [contents] in F. destruct (content8 q); [|congruence]. now rewrite removelast_last in F. }
  rewrite S in E1. replace (if c8_has_cb c then [] else []) with (@nil (sysex * Z)) in E1 by now destruct (c8_has_cb c).
  rewrite map_app, (c8_calls_app a _ c _ c1 [] E1) in E. cbn [map c8_calls c8_call bind app] in E.
  exists c1. destruct (c8_feed a c1 q) as [[c2 o2]|]; cbn [bind] in E; [|discriminate].
  injection E as <- E. rewrite app_nil_r in E. exists c2. subst o2. auto.
Qed.

(* ---- round trips -------------------------------------------------------------------------------- *)

Lemma map_mod_id d : Forall is_u7 d -> map (fun b => b mod 128) d = d.
Proof. induction 1 as [|x l X _ IH]; [reflexivity|]. cbn [map]. rewrite IH. f_equal. unfold is_u7 in X. dlia. Qed.

Lemma sequence7_snoc g chunks : chunks <> [] -> exists ps f c, (f = 0 \/ f = 3) /\ In c chunks /\
  sx7_sequence g chunks = ps ++ [sx7_packet g f c].
Proof.
  assert (T : forall rest, rest <> [] -> exists ps c, In c rest /\ sx7_tail g rest = ps ++ [sx7_packet g 3 c]).
  { induction rest as [|c [|c' rest] IH]; intros NE; [congruence| |].
    - exists [], c. split; [now left|reflexivity].
    - destruct (IH ltac:(discriminate)) as (ps & x & X & E). exists (sx7_packet g 2 c :: ps), x. split; [now right|].
      change (sx7_tail g (c :: c' :: rest)) with (sx7_packet g 2 c :: sx7_tail g (c' :: rest)). now rewrite E. }
  destruct chunks as [|c [|c' rest]]; intros NE; [congruence| |].
  - exists [], 0, c. split; [auto|]. split; [now left|reflexivity].
  - destruct (T (c' :: rest) ltac:(discriminate)) as (ps & x & X & E). exists (sx7_packet g 1 c :: ps), 3, x.
    split; [auto|]. split; [now right|].
    change (sx7_sequence g (c :: c' :: rest)) with (sx7_packet g 1 c :: sx7_tail g (c' :: rest)). now rewrite E.
Qed.
Lemma tail8_snoc g i : forall rest, rest <> [] -> exists ps c, In c rest /\ sx8_tail g i rest = ps ++ [sx8_packet g 3 i c].
Proof.
  induction rest as [|c [|c' rest] IH]; intros NE; [congruence| |].
  - exists [], c. split; [now left|reflexivity].
  - destruct (IH ltac:(discriminate)) as (ps & x & X & E). exists (sx8_packet g 2 i c :: ps), x. split; [now right|].
    change (sx8_tail g i (c :: c' :: rest)) with (sx8_packet g 2 i c :: sx8_tail g i (c' :: rest)). now rewrite E.
Qed.
Lemma sequence8_snoc g i chunks : chunks <> [] -> exists ps f c, (f = 0 \/ f = 3) /\ In c chunks /\
  sx8_sequence g i chunks = ps ++ [sx8_packet g f i c].
Proof.
  destruct chunks as [|c [|c' rest]]; intros NE; [congruence| |].
  - exists [], 0, c. split; [auto|]. split; [now left|reflexivity].
  - destruct (tail8_snoc g i (c' :: rest) ltac:(discriminate)) as (ps & x & X & E). exists (sx8_packet g 1 i c :: ps), 3, x.
    split; [auto|]. split; [now right|].
    change (sx8_sequence g i (c :: c' :: rest)) with (sx8_packet g 1 i c :: sx8_tail g i (c' :: rest)). now rewrite E.
Qed.

Lemma contents8_sequence g i chunks : 0 <= g < 16 -> is_u8 i -> Forall (chunk_ok 13) chunks ->
  contents content8 (sx8_sequence g i chunks) = message_of i chunks /\ Forall wf_packet (sx8_sequence g i chunks).
Proof.
  intros G I F. destruct chunks as [|c [|c' rest]]; [split; [reflexivity|constructor]| |].
  - apply (contents8_first g i 0 c [] G I ltac:(lia) F).
  - apply (contents8_first g i 1 c (c' :: rest) G I ltac:(lia) F).
Qed.

Lemma roundtrip7 a c id d g : std_alloc a -> reached7 a 0 c -> c7_has_cb c = true ->
  valid_id id -> id <> 0 -> Forall is_u7 d -> 0 <= g < 16 ->
  exists ps q c1 c2, send_sysex7 (mkSx id d) g = Ok (ps ++ [q]) /\
    c7_calls a c (map KFeed ps) = Ok (c1, []) /\ c7_feed a c1 q = Ok (c2, [mkSx id d]).
Proof.
  intros A R CB V NZ D G. destruct (send7_valid id d g V NZ (Forall_u7_u8 _ D) G) as (chunks & F & C & E).
  rewrite map_mod_id in C by assumption.
  assert (OK : Forall (chunk_ok 6) chunks).
  { apply full_chunks_ok; [lia|assumption|]. rewrite C. apply Forall_u7_u8, Forall_app. split; [now apply id_bytes_u7|assumption]. }
  assert (NE : chunks <> []) by (intros ->; destruct F).
  destruct (sequence7_snoc g chunks NE) as (ps & f & x & FF & X & ES). rewrite ES in E.
  destruct (contents7_sequence g chunks G OK) as [CT W]. rewrite ES in CT, W.
  destruct (last_packet7 a c ps (sx7_packet g f x) chunks A R CB W CT NE) as (c1 & c2 & E1 & E2).
  { rewrite Forall_forall in OK. destruct (OK x X). rewrite content7_packet by (trivial; lia). discriminate. }
  rewrite C, decode7_bytes in E2 by assumption. eauto 10.
Qed.

Lemma roundtrip8 a c id d i g : std_alloc a -> reached8 a 0 c -> c8_has_cb c = true ->
  valid_id id -> Forall is_u8 d -> is_u8 i -> 0 <= g < 16 -> ~ miscounted8 id (size d) ->
  exists ps q c1 c2, send_sysex8 (mkSx id d) i g = Ok (ps ++ [q]) /\
    c8_calls a c (map KFeed ps) = Ok (c1, []) /\ c8_feed a c1 q = Ok (c2, [(mkSx id d, i)]).
Proof.
  intros A R CB V D I G M. destruct (send8_valid id d i g V D I G) as (c0 & rest & F & C & OK & E & _).
  specialize (E M). set (chunks := c0 :: rest) in *.
  assert (NE : chunks <> []) by discriminate.
  destruct (sequence8_snoc g i chunks NE) as (ps & f & x & FF & X & ES). rewrite ES in E.
  destruct (contents8_sequence g i chunks G I OK) as [CT W]. rewrite ES in CT, W.
  destruct (last_packet8 a c ps (sx8_packet g f i x) i chunks A R CB W CT NE) as (c1 & c2 & E1 & E2).
  { rewrite Forall_forall in OK. destruct (OK x X). rewrite content8_packet by (trivial; lia). discriminate. }
  rewrite C, decode8_bytes in E2 by assumption. eauto 10.
Qed.

Lemma full_chunks_first k c rest : full_chunks k (c :: rest) -> rest <> [] -> length c = k /\ c = firstn k (concat (c :: rest)).
Proof.
  intros F NE. destruct rest as [|c' rest]; [congruence|]. destruct F as [F _]. split; [assumption|].
  cbn [concat]. rewrite <- F at 1. now rewrite firstn_app, firstn_all, Nat.sub_diag, firstn_O, app_nil_r.
Qed.

(* what arrives when the size is miscounted *)
Lemma roundtrip8_miscounted a c id d i g : std_alloc a -> reached8 a 0 c -> c8_has_cb c = true ->
  valid_id id -> Forall is_u8 d -> is_u8 i -> 0 <= g < 16 -> miscounted8 id (size d) ->
  exists ps c', send_sysex8 (mkSx id d) i g = Ok ps /\
    (forall j chunks, contents content8 ps <> message_of j chunks) /\
    c8_calls a c (map KFeed ps) = Ok (c', if (id =? 0) || (65536 <=? id) then [(mkSx id (firstn 11 d), i)] else []).
Proof.
  intros A R CB V D I G M. destruct (send8_valid id d i g V D I G) as (c0 & rest & F & C & OK & _ & E).
  apply limit_std in A. destruct (reached8_inv a 0 c A R) as (st & IV & CL).
  destruct (E M) as [(NE & ID & ES)|(RE & ID & ES)]; rewrite ES.
  - destruct (contents8_first g i 0 c0 rest G I ltac:(lia) OK) as [CT W].
    destruct (feeds8 a 0 _ st c _ A IV W) as (c' & E' & _). eexists. exists c'. split; [reflexivity|].
    rewrite CT in *. split.
    + intros j [|x [|y l]] Q; [discriminate| |discriminate Q]. cbn [message_of] in Q. injection Q as _ _ Q.
      destruct rest as [|r1 [|]]; [congruence|discriminate|discriminate].
    + rewrite E', CB. replace ((id =? 0) || (65536 <=? id)) with true by lia. cbn [a_run].
      rewrite a_step_open by auto. cbn [Z.eqb fst snd app]. unfold a_idle. rewrite tail_orphan by assumption. cbn [snd app].
      destruct (full_chunks_first 13 c0 rest F NE) as [_ CF]. rewrite C in CF. rewrite firstn_app, id_bytes8_length in CF.
      rewrite firstn_all2 in CF by (rewrite id_bytes8_length; lia). rewrite CF, decode8_bytes by assumption. reflexivity.
  - subst rest. destruct (contents8_first g i 1 c0 [] G I ltac:(lia) OK) as [CT W]. cbn [sx8_tail message_tail] in *.
    destruct (feeds8 a 0 _ st c _ A IV W) as (c' & E' & _). eexists. exists c'. split; [reflexivity|].
    rewrite CT in *. split.
    + intros j [|x [|y [|z l]]] Q; discriminate Q.
    + rewrite E', CB. replace ((id =? 0) || (65536 <=? id)) with false by lia. cbn [a_run].
      rewrite a_step_open by auto. reflexivity.
Qed.

(* through MIDI 1 bytes *)
Lemma roundtrip_bytes g st id d : reached g true st -> valid_id id -> id <> 0 -> Forall is_u7 d ->
  forall g', 0 <= g' < 16 ->
  exists ps bs st', send_sysex7 (mkSx id d) g' = Ok ps /\ stream_of_packets ps = Ok bs /\
    feed_all st bs = Ok (st', [ESysex (mkSx id d)]).
Proof.
  intros R V NZ D g' G. destruct (send7_valid id d g' V NZ (Forall_u7_u8 _ D) G) as (chunks & F & C & E).
  rewrite map_mod_id in C by assumption.
  assert (U7 : Forall is_u7 (id_bytes id ++ d)) by (apply Forall_app; split; [now apply id_bytes_u7|assumption]).
  assert (OK : Forall (chunk_ok 6) chunks).
  { apply full_chunks_ok; [lia|assumption|]. rewrite C. now apply Forall_u7_u8. }
  assert (C6 : chunked6 chunks).
  { clear -F. induction chunks as [|c [|c' rest] IH]; [destruct F|cbn in *; lia|]. destruct F as [F1 F2]. split; auto. }
  exists (sx7_sequence g' chunks), (0xF0 :: (id_bytes id ++ d) ++ [0xF7]).
  assert (B : Forall is_u8 (0xF0 :: (id_bytes id ++ d) ++ [0xF7])).
  { constructor; [unfold is_u8; lia|]. apply Forall_app; split; [now apply Forall_u7_u8|]. constructor; [unfold is_u8; lia|constructor]. }
  assert (SS : starts_with_status (0xF0 :: (id_bytes id ++ d) ++ [0xF7])).
  { unfold starts_with_status. cbn [filter]. change (not_rt 0xF0) with true. cbv iota. lia. }
  destruct (resync g true st _ R B SS) as (st1 & E1). exists st1.
  split; [exact E|]. split.
  - rewrite sequence_to_bytes; trivial; [now rewrite C|]. eapply Forall_impl; [|exact OK]. intros x X; apply X.
  - rewrite E1, outputs_sysex_cb, sx_decode_id by assumption. reflexivity.
Qed.

(* ---- what is delivered ------------------------------------------------------------------------------ *)

Lemma contents_format rd ps : (forall p x, wf_packet p -> rd p = Some x -> 0 <= ct_format x < 4) -> Forall wf_packet ps ->
  Forall (fun x => 0 <= ct_format x < 4) (contents rd ps).
Proof.
  intros H. induction 1 as [|p ps P _ IH]; cbn [contents]; [constructor|].
  destruct (rd p) eqn:E; [|assumption]. constructor; [now apply (H p)|assumption].
Qed.
Lemma format7 p x : wf_packet p -> content7 p = Some x -> 0 <= ct_format x < 4.
Proof. intros W E. apply (content7_some p x W E). Qed.
Lemma format8 p x : wf_packet p -> content8 p = Some x -> 0 <= ct_format x < 4.
Proof. intros W E. apply (content8_some p x W E). Qed.

Lemma contents_stream7 ps : Forall wf_packet ps -> Forall (fun x => ct_stream x = 0) (contents content7 ps).
Proof.
  induction 1 as [|p ps P _ IH]; cbn [contents]; [constructor|].
  destruct (content7 p) eqn:E; [|assumption]. constructor; [apply (content7_some p _ P E)|assumption].
Qed.

Lemma filter_all_stream i cs : Forall (fun x => ct_stream x = i) cs -> filter (same_stream i) cs = cs.
Proof.
  induction 1 as [|x cs X _ IH]; [reflexivity|]. cbn [filter]. unfold same_stream at 1.
  rewrite X, Z.eqb_refl. now rewrite IH.
Qed.

Lemma delivered7_iff h x v : Forall (fun x => ct_stream x = 0) h -> ct_stream x = 0 ->
  delivered7 h x v <->
     ((ct_format x = 0 /\ v = decode7 (ct_payload x)) \/
      (ct_format x = 3 /\ exists l, open_after h (ct_stream x) l /\ v = decode7 (l ++ ct_payload x))).
Proof.
  intros H X. unfold delivered7, open_after. rewrite X. apply or_iff_compat_l, and_iff_compat_l. split.
  - intros (h0 & s & cs & E & S & F & V). assert (HC := H). rewrite E in HC. apply Forall_app in HC. destruct HC as [_ HC].
    inversion_clear HC as [|? ? HS HCS]. eexists. split.
    + exists h0, s, cs. rewrite filter_all_stream by assumption. repeat split; trivial.
      eapply Forall_impl; [|exact F]. cbn. intros; lia.
    + rewrite <- app_assoc. exact V.
  - intros (l & (h0 & s & cs & E & S & SS & F1 & F2 & L) & V). assert (HC := H). rewrite E in HC. apply Forall_app in HC.
    destruct HC as [_ HC]. inversion_clear HC as [|? ? HS HCS]. rewrite filter_all_stream in * by assumption.
    exists h0, s, cs. repeat split; trivial. rewrite V, L, <- app_assoc. reflexivity.
Qed.

Lemma delivered8_iff h x v : delivered8 h x v <->
     ((ct_format x = 0 /\ v = decode8 (ct_payload x)) \/
      (ct_format x = 3 /\ exists l, open_after h (ct_stream x) l /\ v = decode8 (l ++ ct_payload x))).
Proof.
  unfold delivered8, open_after. apply or_iff_compat_l, and_iff_compat_l. split.
  - intros (h0 & s & cs & E & S & SS & F & M & V). eexists. split; [exists h0, s, cs; repeat split; eassumption|].
    rewrite <- app_assoc. exact V.
  - intros (l & (h0 & s & cs & E & S & SS & F1 & F2 & L) & V). exists h0, s, cs. repeat split; trivial.
    rewrite V, L, <- app_assoc. reflexivity.
Qed.

Lemma exactly7 a ps p : std_alloc a -> Forall wf_packet ps -> wf_packet p ->
  exists c o c' out, c7_calls a (new_collector7 true) (map KFeed ps) = Ok (c, o) /\ c7_feed a c p = Ok (c', out) /\
    (forall v, out = [v] <-> exists x, content7 p = Some x /\ delivered7 (contents content7 ps) x v) /\
    (out = [] \/ exists v, out = [v]).
Proof.
  intros A W P. apply limit_std in A. destruct (feeds7 a 0 true _ _ ps A (inv7_new a 0 true A) W) as (c & E & I).
  change (c7_set_max a (new_collector7 true) 0) with (new_collector7 true) in E.
  exists c. eexists. destruct (content7 p) as [x|] eqn:X.
  - destruct (feed7_step a 0 true _ c p x A I P X) as (c' & E' & _). exists c'. eexists. split; [exact E|]. split; [exact E'|].
    destruct (delivered_iff decode7 (contents content7 ps) x (mkSx 0 []) 0) as [_ O].
    { now apply contents_format; [apply format7|]. } { now apply (format7 p). }
    split.
    + intros v. destruct (delivered_iff decode7 (contents content7 ps) x v 0) as [DI _].
      { now apply contents_format; [apply format7|]. } { now apply (format7 p). }
      assert (S0 : ct_stream x = 0) by apply (content7_some p x P X).
      pose proof (delivered7_iff (contents content7 ps) x v (contents_stream7 ps W) S0) as D7. rewrite S0 in *.
      set (out := snd (a_step decode7 0 (fst (a_run decode7 0 a_idle (contents content7 ps))) x)) in *.
      assert (ST : map fst out = [v] <-> out = [(v, 0)]).
      { assert (SO : forall w, In w out -> snd w = 0).
        { unfold out, a_step. intros w. destruct (_ && _); [intros []|]. destruct (_ && _); [intros []|].
          destruct (_ && _); [intros []|]. destruct (_ || _); [|intros []]. intros [<-|[]]. exact S0. }
        split; [|intros ->; reflexivity]. destruct O as [O|(w & O)]; rewrite O; [discriminate|].
        cbn [map]. intros [= <-]. rewrite <- (SO w) by (rewrite O; now left). now destruct w. }
      rewrite ST, DI. split.
      * intros [_ K]. exists x. split; [reflexivity|]. now apply D7.
      * intros (y & Y & K). injection Y as <-. split; [reflexivity|]. now apply D7.
    + destruct O as [O|(w & O)]; rewrite O; cbn [map]; eauto.
  - rewrite (feed7_skip a c p P X). exists c, []. split; [exact E|]. split; [reflexivity|]. split; [|auto].
    intros v. split; [discriminate|]. intros (x & K & _). discriminate.
Qed.

Lemma exactly8 a ps p : std_alloc a -> Forall wf_packet ps -> wf_packet p ->
  exists c o c' out, c8_calls a (new_collector8 true) (map KFeed ps) = Ok (c, o) /\ c8_feed a c p = Ok (c', out) /\
    (forall v i, out = [(v, i)] <-> exists x, content8 p = Some x /\ i = ct_stream x /\ delivered8 (contents content8 ps) x v) /\
    (out = [] \/ exists w, out = [w]).
Proof.
  intros A W P. apply limit_std in A. destruct (feeds8 a 0 true _ _ ps A (inv8_new a 0 true A) W) as (c & E & I).
  change (c8_set_max a (new_collector8 true) 0) with (new_collector8 true) in E.
  exists c. eexists. destruct (content8 p) as [x|] eqn:X.
  - destruct (feed8_step a 0 true _ c p x A I P X) as (c' & E' & _). exists c'. eexists. split; [exact E|]. split; [exact E'|].
    assert (F := contents_format content8 ps format8 W). assert (FX := format8 p x P X).
    split; [|apply (delivered_iff decode8 _ x (mkSx 0 []) 0 F FX)].
    intros v i. destruct (delivered_iff decode8 _ x v i F FX) as [DI _]. rewrite DI. split.
    + intros [K1 K2]. exists x. split; [reflexivity|]. split; [assumption|]. apply delivered8_iff. now rewrite <- K1.
    + intros (y & Y & K1 & K2). injection Y as <-. split; [assumption|]. apply delivered8_iff in K2. now rewrite K1.
  - rewrite (feed8_skip a c p P X). exists c, []. split; [exact E|]. split; [reflexivity|]. split; [|auto].
    intros v i. split; [discriminate|]. intros (x & K & _). discriminate.
Qed.

(* ---- limits --------------------------------------------------------------------------------------------- *)

Lemma size7_sub l x : data_size decode7 (l ++ x) <= data_size decode7 l + size x.
Proof. apply decode7_size. Qed.
Lemma size8_sub l x : data_size decode8 (l ++ x) <= data_size decode8 l + size x.
Proof. apply decode8_size. Qed.

Lemma bounded7 a L cb ks c o : exact_alloc a -> 0 < L -> Forall keeps_limit ks ->
  c7_calls a (c7_set_max a (new_collector7 cb) L) ks = Ok (c, o) -> Forall (fun s => size (sx_data s) <= L) o.
Proof.
  intros A P K E. assert (LA := limit_exact a L A ltac:(lia)).
  destruct (calls7_refine a L ks LA K cb a_idle _ (inv7_new a L cb LA)) as (c' & E' & _).
  rewrite E in E'. injection E' as _ ->. apply Forall_forall. intros s S. apply in_map_iff in S.
  destruct S as (w & <- & W). eapply limit_bound; [apply size7_sub|exact P|exact W].
Qed.
Lemma bounded8 a L cb ks c o : exact_alloc a -> 0 < L -> Forall keeps_limit ks ->
  c8_calls a (c8_set_max a (new_collector8 cb) L) ks = Ok (c, o) -> Forall (fun s => size (sx_data (fst s)) <= L) o.
Proof.
  intros A P K E. assert (LA := limit_exact a L A ltac:(lia)).
  destruct (calls8_refine a L ks LA K cb a_idle _ (inv8_new a L cb LA)) as (c' & E' & _).
  rewrite E in E'. injection E' as _ ->. apply Forall_forall. intros w W.
  eapply limit_bound; [apply size8_sub|exact P|exact W].
Qed.

Lemma fits_dec dec max : forall chunks acc, {fits dec max acc chunks} + {~ fits dec max acc chunks}.
Proof.
  induction chunks as [|c r IH]; intros acc; cbn [fits]; [now left|].
  destruct (Z_le_gt_dec (data_size dec acc + size c) max); [|right; lia].
  destruct (IH (acc ++ c)); [now left|right; tauto].
Qed.

(* a message after a history that left nothing behind *)
Lemma limited7 a L cb ks c o ps chunks : exact_alloc a -> 0 < L -> Forall keeps_limit ks ->
  c7_calls a (c7_set_max a (new_collector7 cb) L) ks = Ok (c, o) -> c7_has_cb c = true ->
  a_clean (fst (a_calls content7 decode7 L cb a_idle ks)) ->
  Forall wf_packet ps -> contents content7 ps = message_of 0 chunks -> chunks <> [] ->
  exists c' out, c7_calls a c (map KFeed ps) = Ok (c', out) /\
    let after := fst (a_calls content7 decode7 L cb a_idle (ks ++ map KFeed ps)) in
    (fits decode7 L [] chunks -> out = [decode7 (concat chunks)] /\ after = a_idle) /\
    (~ fits decode7 L [] chunks -> out = [] /\
       (~ fits decode7 L [] (removelast chunks) -> after = a_idle) /\
       (fits decode7 L [] (removelast chunks) -> after = mkA (concat (removelast chunks)) false 0)).
Proof.
  intros A P K E CB CL W C NE. assert (LA := limit_exact a L A ltac:(lia)).
  destruct (calls7_refine a L ks LA K cb a_idle _ (inv7_new a L cb LA)) as (c' & E' & I).
  rewrite E in E'. injection E' as <- ->.
  destruct (feeds7 a L _ _ c ps LA I W) as (c2 & E2 & I2).
  exists c2. eexists. split; [exact E2|]. rewrite CB, C.
  destruct (a_calls_app content7 decode7 L ks cb a_idle (map KFeed ps)) as (cb' & EA). rewrite EA, a_calls_feed, C. cbn [fst].
  cbv zeta. set (st := fst (a_calls content7 decode7 L cb a_idle ks)) in *. split.
  - intros F. rewrite message_fits by auto. split; reflexivity.
  - intros F. destruct (message_overflow decode7 L 0 chunks st P CL F) as [H1 H2].
    assert (DEC : snd (a_run decode7 L st (message_of 0 chunks)) = []).
    { destruct (fits_dec decode7 L (removelast chunks) []) as [F'|F']; [rewrite H1 by assumption|rewrite H2 by assumption]; reflexivity. }
    rewrite DEC. split; [reflexivity|]. split; intros F'; [now rewrite H2|now rewrite H1].
Qed.

Lemma limited8 a L cb ks c o ps i chunks : exact_alloc a -> 0 < L -> Forall keeps_limit ks ->
  c8_calls a (c8_set_max a (new_collector8 cb) L) ks = Ok (c, o) -> c8_has_cb c = true ->
  a_clean (fst (a_calls content8 decode8 L cb a_idle ks)) ->
  Forall wf_packet ps -> contents content8 ps = message_of i chunks -> chunks <> [] ->
  exists c' out, c8_calls a c (map KFeed ps) = Ok (c', out) /\
    let after := fst (a_calls content8 decode8 L cb a_idle (ks ++ map KFeed ps)) in
    (fits decode8 L [] chunks -> out = [(decode8 (concat chunks), i)] /\ after = a_idle) /\
    (~ fits decode8 L [] chunks -> out = [] /\
       (~ fits decode8 L [] (removelast chunks) -> after = a_idle) /\
       (fits decode8 L [] (removelast chunks) -> after = mkA (concat (removelast chunks)) false i)).
Proof.
  intros A P K E CB CL W C NE. assert (LA := limit_exact a L A ltac:(lia)).
  destruct (calls8_refine a L ks LA K cb a_idle _ (inv8_new a L cb LA)) as (c' & E' & I).
  rewrite E in E'. injection E' as <- ->.
  destruct (feeds8 a L _ _ c ps LA I W) as (c2 & E2 & I2).
  exists c2. eexists. split; [exact E2|]. rewrite CB, C.
  destruct (a_calls_app content8 decode8 L ks cb a_idle (map KFeed ps)) as (cb' & EA). rewrite EA, a_calls_feed, C. cbn [fst].
  cbv zeta. set (st := fst (a_calls content8 decode8 L cb a_idle ks)) in *. split.
  - intros F. rewrite message_fits by auto. split; reflexivity.
  - intros F. destruct (message_overflow decode8 L i chunks st P CL F) as [H1 H2].
    assert (DEC : snd (a_run decode8 L st (message_of i chunks)) = []).
    { destruct (fits_dec decode8 L (removelast chunks) []) as [F'|F']; [rewrite H1 by assumption|rewrite H2 by assumption]; reflexivity. }
    rewrite DEC. split; [reflexivity|]. split; intros F'; [now rewrite H2|now rewrite H1].
Qed.

(* ---- every packet in every state ------------------------------------------------------------------------- *)

Lemma c7_bytes_any p n : forall b s idr, (2 + b + n <= 16)%nat ->
  exists s' idr' m, c7_bytes p b n s idr = Ok (s', idr') /\ sx_data s' = sx_data s ++ m /\ (length m <= n)%nat.
Proof.
  induction n as [|n IH]; intros b s idr H; cbn [c7_bytes].
  - exists s, idr, []. rewrite app_nil_r. auto.
  - unfold sysex7_payload_byte. rewrite get_byte_spec by lia. cbn [bind].
    set (x := nth (2 + b) (bytes p) 0).
    assert (K : forall s1 i1 m1, sx_data s1 = sx_data s ++ m1 -> (length m1 <= 1)%nat ->
      exists s' idr' m, c7_bytes p (S b) n s1 i1 = Ok (s', idr') /\ sx_data s' = sx_data s ++ m /\ (length m <= S n)%nat).
    { intros s1 i1 m1 E1 L1. destruct (IH (S b) s1 i1 ltac:(lia)) as (s' & i' & m & E & D & L).
      exists s', i', (m1 ++ m). rewrite E, D, E1, app_length, app_assoc. repeat split; lia. }
    destruct (idr =? 0); [destruct (negb (x =? 0))|destruct (idr =? 1); [|destruct (idr =? 2)]];
      try (apply (K _ _ []); [now rewrite app_nil_r|cbn; lia]).
    apply (K _ _ [x]); [reflexivity|cbn; lia].
Qed.

Lemma c8_bytes_any p n : forall b s ids, (3 + b + n <= 16)%nat ->
  exists s' ids' m, c8_bytes p b n s ids = Ok (s', ids') /\ sx_data s' = sx_data s ++ m /\ (length m <= n)%nat.
Proof.
  induction n as [|n IH]; intros b s ids H; cbn [c8_bytes].
  - exists s, ids, []. rewrite app_nil_r. auto.
  - unfold sysex8_payload_byte. rewrite get_byte_spec by lia. cbn [bind].
    set (x := nth (3 + b) (bytes p) 0).
    assert (K : forall s1 i1 m1, sx_data s1 = sx_data s ++ m1 -> (length m1 <= 1)%nat ->
      exists s' idr' m, c8_bytes p (S b) n s1 i1 = Ok (s', idr') /\ sx_data s' = sx_data s ++ m /\ (length m <= S n)%nat).
    { intros s1 i1 m1 E1 L1. destruct (IH (S b) s1 i1 ltac:(lia)) as (s' & i' & m & E & D & L).
      exists s', i', (m1 ++ m). rewrite E, D, E1, app_length, app_assoc. repeat split; lia. }
    destruct ids; [destruct (negb _)| | | |]; try (apply (K _ _ []); [cbn; now rewrite app_nil_r|cbn; lia]).
    apply (K _ _ [x]); [reflexivity|cbn; lia].
Qed.

Lemma sysex7_payload_bound p : is_sysex7_packet p = true -> (sysex7_payload_size p <= 6)%nat.
Proof. unfold is_sysex7_packet, sysex7_payload_size. rewrite !andb_true_iff. lia. Qed.
Lemma sysex8_payload_bound p : is_sysex8_packet p = true -> (sysex8_payload_size p <= 13)%nat.
Proof. unfold is_sysex8_packet, sysex8_payload_size. rewrite !andb_true_iff. destruct (0 <? _); lia. Qed.

Lemma feed7_any a c p : exists c' out, c7_feed a c p = Ok (c', out) /\
  (forall s, s = c7_sysex c' \/ In s out ->
     (length (sx_data s) <= length (sx_data (c7_sysex c)) + sysex7_payload_size p)%nat).
Proof.
  unfold c7_feed. destruct (is_sysex7_packet p) eqn:IS; cbn [negb].
  2:{ eexists _, _. split; [reflexivity|]. intros s [->|[]]. lia. }
  apply sysex7_payload_bound in IS. set (st := Z.land (status p) 0xF0). cbv zeta.
  destruct (_ && negb (c7_state c =? 0x20)).
  { eexists _, _. split; [reflexivity|]. intros s [->|[]]. cbn. lia. }
  set (c1 := if _ && _ then c7_reset a c else c).
  assert (L1 : (length (sx_data (c7_sysex c1)) <= length (sx_data (c7_sysex c)))%nat).
  { unfold c1. destruct (_ && _); cbn; lia. }
  clearbody c1. destruct (make_room _ _ _ _ _) as [cap room]. destruct room; cbn [negb].
  2:{ eexists _, _. split; [reflexivity|]. intros s [->|[]]. cbn. lia. }
  destruct (c7_bytes_any p (sysex7_payload_size p) 0 (c7_sysex c1) (c7_id_bytes c1) ltac:(lia)) as (s' & i' & m & E & D & L).
  rewrite E. cbn [bind]. apply (f_equal (@length Z)) in D. rewrite app_length in D.
  destruct (_ || _); (eexists _, _; split; [reflexivity|]); cbn [c7_sysex c7_reset].
  - intros s [->|K]; [cbn; lia|]. destruct (c7_has_cb c1); [|destruct K]. destruct K as [<-|[]]. lia.
  - intros s [->|[]]. lia.
Qed.

Lemma feed8_any a c p : exists c' out, c8_feed a c p = Ok (c', out) /\
  (forall s, s = c8_sysex c' \/ In s (map fst out) ->
     (length (sx_data s) <= length (sx_data (c8_sysex c)) + sysex8_payload_size p)%nat).
Proof.
  unfold c8_feed. destruct (is_sysex8_packet p) eqn:IS; cbn [negb].
  2:{ eexists _, _. split; [reflexivity|]. intros s [->|[]]. lia. }
  apply sysex8_payload_bound in IS. unfold sysex8_stream_id. rewrite get_byte_spec by lia. cbn [bind]. cbv zeta.
  destruct (_ && negb (c8_state c =? 2)).
  { eexists _, _. split; [reflexivity|]. intros s [->|[]]. cbn. lia. }
  destruct (_ && negb (_ =? c8_stream c)).
  { eexists _, _. split; [reflexivity|]. intros s [->|[]]. lia. }
  set (c1 := if _ && _ then c8_reset a c else c).
  assert (L1 : (length (sx_data (c8_sysex c1)) <= length (sx_data (c8_sysex c)))%nat).
  { unfold c1. destruct (_ && _); cbn; lia. }
  clearbody c1. destruct (make_room _ _ _ _ _) as [cap room]. destruct room; cbn [negb].
  2:{ eexists _, _. split; [reflexivity|]. intros s [->|[]]. cbn. lia. }
  destruct (c8_bytes_any p (sysex8_payload_size p) 0 (c8_sysex c1) (c8_id_state c1) ltac:(lia)) as (s' & i' & m & E & D & L).
  rewrite E. cbn [bind]. apply (f_equal (@length Z)) in D. rewrite app_length in D.
  destruct (_ || _); (eexists _, _; split; [reflexivity|]); cbn [c8_sysex c8_reset].
  - intros s [->|K]; [cbn; lia|]. destruct (c8_has_cb c1); [|destruct K]. destruct K as [<-|[]]. cbn [fst]. lia.
  - intros s [->|[]]. lia.
Qed.

(* ---- reset ------------------------------------------------------------------------------------------------- *)

Lemma reset_new7 a max c ks : limit_alloc a max -> reached7 a max c -> Forall keeps_limit ks ->
  exists c1 c2 o, c7_calls a (c7_reset a c) ks = Ok (c1, o) /\
    c7_calls a (c7_set_max a (new_collector7 (c7_has_cb c)) max) ks = Ok (c2, o).
Proof.
  intros A R K. destruct (reached7_inv a max c A R) as (st & I & _).
  destruct (calls7_refine a max ks A K _ _ _ (inv7_reset a max _ st c 0 A I)) as (c1 & E1 & _).
  destruct (calls7_refine a max ks A K _ _ _ (inv7_new a max (c7_has_cb c) A)) as (c2 & E2 & _).
  exists c1, c2. eexists. split; [exact E1|exact E2].
Qed.
Lemma reset_new8 a max c ks : limit_alloc a max -> reached8 a max c -> Forall keeps_limit ks ->
  exists c1 c2 o, c8_calls a (c8_reset a c) ks = Ok (c1, o) /\
    c8_calls a (c8_set_max a (new_collector8 (c8_has_cb c)) max) ks = Ok (c2, o).
Proof.
  intros A R K. destruct (reached8_inv a max c A R) as (st & I & _).
  destruct (calls8_refine a max ks A K _ _ _ (inv8_reset a max _ st c A I)) as (c1 & E1 & _).
  destruct (calls8_refine a max ks A K _ _ _ (inv8_new a max (c8_has_cb c) A)) as (c2 & E2 & _).
  exists c1, c2. eexists. split; [exact E1|exact E2].
Qed.

(* ---- streams ------------------------------------------------------------------------------------------------- *)

Lemma contents_own i qs : contents content8 (filter (own_packet i) qs) = filter (same_stream i) (contents content8 qs).
Proof.
  induction qs as [|q qs IH]; [reflexivity|]. cbn [filter contents]. unfold own_packet at 1.
  destruct (content8 q) as [x|] eqn:E.
  - cbn [filter]. unfold same_stream at 1. destruct (ct_stream x =? i); [|exact IH].
    cbn [contents]. rewrite E. now rewrite IH.
  - cbn [contents]. now rewrite E.
Qed.

Lemma Forall_filter {A} (P : A -> Prop) f l : Forall P l -> Forall P (filter f l).
Proof. induction 1; cbn; [constructor|]. destruct (f x); auto. Qed.

Lemma foreign_ignored a c s x qs : std_alloc a -> reached8 a 0 c -> wf_packet s -> content8 s = Some x -> ct_format x = 1 ->
  Forall wf_packet qs -> Forall (fun y => ct_format y < 2 -> ct_stream y = ct_stream x) (contents content8 qs) ->
  exists c1 c2 o, c8_calls a c (map KFeed (s :: qs)) = Ok (c1, o) /\
    c8_calls a c (map KFeed (s :: filter (own_packet (ct_stream x)) qs)) = Ok (c2, o).
Proof.
  intros A R S X F W Q. apply limit_std in A. destruct (reached8_inv a 0 c A R) as (st & I & CL).
  destruct (feeds8 a 0 _ st c (s :: qs) A I) as (c1 & E1 & _); [auto|].
  destruct (feeds8 a 0 _ st c (s :: filter (own_packet (ct_stream x)) qs) A I) as (c2 & E2 & _); [auto using Forall_filter|].
  exists c1, c2. eexists. split; [exact E1|]. rewrite E2. do 2 f_equal.
  destruct (c8_has_cb c); [|reflexivity]. cbn [contents]. rewrite X. cbn [a_run snd]. f_equal.
  rewrite contents_own. symmetry. destruct x as [f i l]. cbn [ct_format ct_stream] in *. subst f.
  rewrite a_step_open by auto. cbn [Z.eqb fst]. apply a_run_foreign; trivial. now left.
Qed.

Lemma other_start_abandons a c s x q y rs : std_alloc a -> reached8 a 0 c ->
  wf_packet s -> content8 s = Some x -> ct_format x = 1 ->
  wf_packet q -> content8 q = Some y -> ct_format y < 2 -> ct_stream y <> ct_stream x ->
  Forall wf_packet rs -> Forall (fun z => 2 <= ct_format z /\ ct_stream z = ct_stream x) (contents content8 rs) ->
  exists c1 c2 o, c8_calls a c (map KFeed [s; q]) = Ok (c1, o) /\ c8_calls a c1 (map KFeed rs) = Ok (c2, []).
Proof.
  intros A R S X F Q Y FY D W RS. apply limit_std in A. destruct (reached8_inv a 0 c A R) as (st & I & CL).
  destruct (feeds8 a 0 _ st c [s; q] A I) as (c1 & E1 & I1); [auto|].
  destruct (feeds8 a 0 _ _ c1 rs A I1 W) as (c2 & E2 & _).
  exists c1, c2. eexists. split; [exact E1|]. rewrite E2. do 2 f_equal.
  destruct (c8_has_cb c); [|reflexivity]. cbn [contents]. rewrite X, Y. cbn [a_run fst].
  now apply (a_abandon decode8 _ y _ (ct_stream x)).
Qed.
