(* Lemmas about property transfers *)
From Coq Require Import ZArith List Bool Lia.
From Verif Require Import Base Bits Packet Sysex SysexSpec SysexProofs UniversalSysex CapInq PropEx CapSpec CapCalls CapProofs CapWire
  CapMake CapRead JsonSpec JsonProofs Transfer TransferSpec.
Import ListNotations.
Local Open Scope Z_scope.
Local Open Scope res_scope.

(* ---- keys -------------------------------------------------------------------------------- *)

Lemma tkey_eqb_spec a b : reflect (a = b) (tkey_eqb a b).
Proof.
  destruct a as [[a1 a2] a3], b as [[b1 b2] b3]. unfold tkey_eqb.
  destruct (Z.eqb_spec a1 b1), (Z.eqb_spec a2 b2), (Z.eqb_spec a3 b3); cbn; constructor; congruence.
Qed.
Lemma tkey_refl a : tkey_eqb a a = true.
Proof. now destruct (tkey_eqb_spec a a). Qed.
Lemma tkey_sym a b : tkey_eqb a b = tkey_eqb b a.
Proof. destruct (tkey_eqb_spec a b), (tkey_eqb_spec b a); congruence. Qed.

(* ---- reading a message ------------------------------------------------------------------- *)

Lemma read_chunk_ok dbg s : wf_sysex s ->
  exists b, property_data_validate s = Ok b /\
    if b then exists m, read_chunk dbg s = Ok (Some m) /\ view_subtype s = Ok (cm_subtype m) /\
           source_muid s = Ok (cm_source m) /\ destination_muid s = Ok (cm_destination m) /\ request_id s = Ok (cm_request m)
    else read_chunk dbg s = Ok None.
Proof.
  intros [_ W]. destruct (validate_total KPropertyData s eq_refl) as [b V].
  exists b. split; [exact V|]. pose proof (as_view_ok dbg KPropertyData s b W V) as A.
  change (validate_of KPropertyData) with property_data_validate in A.
  unfold read_chunk. rewrite A. destruct b; [|reflexivity].
  destruct (accepted_safe dbg KPropertyData s V) as [(_ & _ & [t T] & _ & [a B] & [d D]) P].
  destruct P as ([r R] & _ & [h H] & [n N] & [i I] & _ & [c C]).
  exists (mkCM t a d r h n i c). cbn [bind cm_subtype cm_source cm_destination cm_request]. rewrite T, B, D, R, H, N, I, C.
  cbn [bind]. repeat split; reflexivity.
Qed.

Definition mine (me : Z) (k : tkey) (m : chunk_msg) : bool := (cm_destination m =? me) && tkey_eqb k (cm_key m).

Lemma belongs_read dbg me k s : wf_sysex s ->
  exists r, read_chunk dbg s = Ok r /\ belongs me k s = match r with Some m => mine me k m | None => false end.
Proof.
  intros W. destruct (read_chunk_ok dbg s W) as (b & V & H). unfold belongs. rewrite V. destruct b.
  - destruct H as (m & -> & -> & -> & -> & ->). exists (Some m). split; trivial. unfold mine, cm_key, tkey_eqb.
    destruct k as [[k1 k2] k3]. cbn [fst snd]. rewrite (Z.eqb_sym (cm_subtype m)), (Z.eqb_sym (cm_source m)), (Z.eqb_sym (cm_request m)).
    destruct (k1 =? cm_subtype m), (k2 =? cm_source m), (cm_destination m =? me), (k3 =? cm_request m); reflexivity.
  - exists None. split; trivial.
Qed.

(* ---- one transfer among others ----------------------------------------------------------- *)

Definition of_key (k : tkey) (o : pending) : bool := tkey_eqb k (pd_key o).
Definition track (k : tkey) (ps : list pending) : option pending := find (of_key k) ps.

Lemma find_filter {A} (f g : A -> bool) l : (forall x, f x = true -> g x = true) -> find f (filter g l) = find f l.
Proof.
  intros H. induction l as [|x l IH]; [reflexivity|]. cbn [filter find]. destruct (f x) eqn:F.
  - rewrite (H x F). cbn [find]. now rewrite F.
  - destruct (g x); [cbn [find]; now rewrite F|exact IH].
Qed.
Lemma find_filter_none {A} (f g : A -> bool) l : (forall x, f x = true -> g x = false) -> find f (filter g l) = None.
Proof.
  intros H. induction l as [|x l IH]; [reflexivity|]. cbn [filter]. destruct (g x) eqn:G; [|exact IH].
  cbn [find]. destruct (f x) eqn:F; [|exact IH]. now rewrite (H x F) in G.
Qed.

(* what happens to the transfer of key k *)
Definition step1 (k : tkey) (old : option pending) (m : chunk_msg) : option pending * list received :=
  match in_sequence old m with
  | None => (None, [])
  | Some (h, b) => if cm_index m =? cm_count m then (None, [mkRecv k h b]) else (Some (mkPend k h (cm_index m) b), [])
  end.

Lemma receive_same k ps m : cm_key m = k ->
  track k (fst (receive_chunk ps m)) = fst (step1 k (track k ps) m) /\
  filter (about k) (snd (receive_chunk ps m)) = snd (step1 k (track k ps) m).
Proof.
  intros K. unfold receive_chunk, step1. rewrite K. fold (of_key k). fold (track k ps).
  assert (N : track k (filter (fun o => negb (tkey_eqb k (pd_key o))) ps) = None).
  { apply find_filter_none. unfold of_key. intros o ->. reflexivity. }
  destruct (in_sequence (track k ps) m) as [[h b]|]; [|cbn [fst snd filter]; auto].
  destruct (cm_index m =? cm_count m); cbn [fst snd filter].
  - unfold about. cbn [rv_key]. rewrite tkey_refl. auto.
  - split; trivial. unfold track, of_key. cbn [find pd_key]. now rewrite tkey_refl.
Qed.
Lemma receive_other k ps m : cm_key m <> k ->
  track k (fst (receive_chunk ps m)) = track k ps /\ filter (about k) (snd (receive_chunk ps m)) = [].
Proof.
  intros K. unfold receive_chunk.
  assert (N : track k (filter (fun o => negb (tkey_eqb (cm_key m) (pd_key o))) ps) = track k ps).
  { apply find_filter. unfold of_key. intros o. destruct (tkey_eqb_spec k (pd_key o)) as [<-|]; [|discriminate].
    intros _. destruct (tkey_eqb_spec (cm_key m) k); [contradiction|reflexivity]. }
  assert (F : tkey_eqb k (cm_key m) = false) by (destruct (tkey_eqb_spec k (cm_key m)); congruence).
  destruct (in_sequence _ m) as [[h b]|]; [|cbn [fst snd filter]; auto].
  destruct (cm_index m =? cm_count m); cbn [fst snd filter]; unfold about; cbn [rv_key]; rewrite ?F; auto.
  split; trivial. unfold track, of_key. cbn [find pd_key]. now rewrite F.
Qed.

Fixpoint steps (k : tkey) (old : option pending) (ms : list chunk_msg) : option pending * list received :=
  match ms with
  | [] => (old, [])
  | m :: r => let '(o1, e1) := step1 k old m in let '(o2, e2) := steps k o1 r in (o2, e1 ++ e2)
  end.

(* the run is a run of the messages of the key *)
Lemma receive_all_track dbg me k : forall ss ps, Forall wf_sysex ss ->
  exists ps' out ms, receive_all dbg me ps ss = Ok (ps', out) /\
    Forall2 (fun s m => read_chunk dbg s = Ok (Some m)) (filter (belongs me k) ss) ms /\
    track k ps' = fst (steps k (track k ps) ms) /\ filter (about k) out = snd (steps k (track k ps) ms).
Proof.
  induction ss as [|s ss IH]; intros ps W.
  - exists ps, [], []. cbn. repeat split; constructor.
  - inversion W as [|? ? W1 W2]; subst. destruct (belongs_read dbg me k s W1) as (r & R & B).
    cbn [receive_all filter]. unfold receive_sysex. rewrite R, B. cbn [bind].
    destruct r as [m|].
    + unfold mine. destruct (cm_destination m =? me).
      * destruct (tkey_eqb_spec k (cm_key m)) as [K|K]; cbn [andb].
        -- destruct (receive_same k ps m (eq_sym K)) as [T O].
           destruct (IH (fst (receive_chunk ps m)) W2) as (ps' & out & ms & E & F & T' & O').
           cbn [bind]. rewrite E. cbn [bind fst snd].
           exists ps', (snd (receive_chunk ps m) ++ out), (m :: ms). split; [reflexivity|].
           split; [constructor; trivial|]. rewrite T in T', O'. cbn [steps].
           destruct (step1 k (track k ps) m) as [o1 e1]. cbn [fst snd] in *. destruct (steps k o1 ms) as [o2 e2].
           cbn [fst snd] in *. split; trivial. rewrite filter_app, O, O'. reflexivity.
        -- destruct (receive_other k ps m) as [T O]; [congruence|].
           destruct (IH (fst (receive_chunk ps m)) W2) as (ps' & out & ms & E & F & T' & O').
           cbn [bind]. rewrite E. cbn [bind fst snd].
           exists ps', (snd (receive_chunk ps m) ++ out), ms. split; [reflexivity|]. split; trivial.
           rewrite T in T', O'. split; trivial. rewrite filter_app, O, O'. reflexivity.
      * cbn [bind fst snd andb]. destruct (IH ps W2) as (ps' & out & ms & E & F & T' & O'). rewrite E. cbn [bind fst snd app].
        exists ps', out, ms. auto.
    + cbn [bind fst snd]. destruct (IH ps W2) as (ps' & out & ms & E & F & T' & O'). rewrite E. cbn [bind fst snd app].
      exists ps', out, ms. auto.
Qed.

Lemma forall2_fun {A B} (R : A -> B -> Prop) : (forall a b b', R a b -> R a b' -> b = b') ->
  forall l m m', Forall2 R l m -> Forall2 R l m' -> m = m'.
Proof.
  intros F l m m' H. revert m'. induction H; intros m' H'; inversion H'; subst; trivial. f_equal; eauto.
Qed.

Lemma filter_idem {A} (f : A -> bool) l : filter f (filter f l) = filter f l.
Proof.
  induction l as [|x l IH]; [reflexivity|]. cbn [filter]. destruct (f x) eqn:F; [cbn [filter]; rewrite F, IH|]; trivial.
Qed.

Lemma apart dbg me k ps ps' ss ss' : Forall wf_sysex ss -> Forall wf_sysex ss' ->
  find (fun o => tkey_eqb k (pd_key o)) ps = find (fun o => tkey_eqb k (pd_key o)) ps' ->
  filter (belongs me k) ss = filter (belongs me k) ss' ->
  exists q o q' o', receive_all dbg me ps ss = Ok (q, o) /\ receive_all dbg me ps' ss' = Ok (q', o') /\
    filter (about k) o = filter (about k) o'.
Proof.
  intros W W' P E. destruct (receive_all_track dbg me k ss ps W) as (q & o & ms & R & F & _ & O).
  destruct (receive_all_track dbg me k ss' ps' W') as (q' & o' & ms' & R' & F' & _ & O').
  exists q, o, q', o'. repeat split; trivial. rewrite E in F.
  assert (ms = ms') as <-.
  { eapply forall2_fun; [|exact F|exact F']. cbn. intros a b b' X Y. congruence. }
  rewrite O, O'. do 2 f_equal. exact P.
Qed.

(* ---- the messages of a transfer ---------------------------------------------------------- *)

Definition seven_sysex (s : sysex) : Prop := sx_id s = 0x7E0000 /\ Forall is_u7 (sx_data s).

Lemma seven_wf s : seven_sysex s -> wf_sysex s.
Proof. intros [I D]. split; [rewrite I; unfold is_u32; lia|]. eapply Forall_impl; [|exact D]. unfold is_u7, is_u8. lia. Qed.

Lemma call_in_range a p h : all7 (text_of h) -> size (text_of h) < 16384 -> pe_in_range a (pe_chunk_of p) -> in_range (pe_message a p h).
Proof.
  intros H7 L (S & D & R & V & N & C & CN & CD & K). unfold in_range, pe_message.
  cbn [raw_bytes numbers7 numbers14 numbers28 muids identity_of sizes14 sizes28 chunk_numbering proper_subtype].
  refine (conj _ (conj _ (conj _ (conj I (conj _ (conj _ (conj _ _))))))).
  - unfold all7, text_of in *.
    destruct h as [h|], (pk_data (pe_chunk_of p)) as [cd|]; cbn [app]; rewrite ?Forall_app, ?Forall_cons_iff, ?Forall_app;
      repeat apply conj; try (destruct K); try trivial; try (constructor; trivial); try (unfold is_u7 in *; lia);
      try (destruct p; cbn [pe_subtype]; unfold is_u7; lia).
  - constructor; trivial. constructor; trivial.
  - cbn [app]. constructor; trivial. constructor; trivial.
  - unfold text_of in L. destruct h as [h|], (pk_data (pe_chunk_of p)) as [cd|]; repeat constructor; try lia; try apply K; trivial.
  - constructor.
  - auto.
  - destruct p; cbn; tauto.
Qed.

Lemma call_read dbg a p h : all7 (text_of h) -> size (text_of h) < 16384 -> pe_in_range a (pe_chunk_of p) ->
  (text_of h = [] \/ pk_this (pe_chunk_of p) <= 1) ->
  exists s, build dbg (pe_message a p h) = Ok s /\ seven_sysex s /\
    read_chunk dbg s = Ok (Some (mkCM (pe_subtype p) (pc_src a) (pc_dst a) (pc_request a) (text_of h)
      (pk_number (pe_chunk_of p)) (pk_this (pe_chunk_of p)) (text_of (pk_data (pe_chunk_of p))))) /\
    forall me, belongs me (pe_subtype p, pc_src a, pc_request a) s = (pc_dst a =? me).
Proof.
  intros H7 L R F. pose proof (call_in_range a p h H7 L R) as IR.
  destruct (round_trip_ok dbg (pe_message a p h) IR) as (s & B & W & H1 & H2 & H3).
  { unfold header_in_first_chunk, pe_message. destruct h as [[|x h]|]; trivial. destruct F as [F|F]; [discriminate|trivial]. }
  assert (S : seven_sysex s).
  { subst s. split.
    - unfold wire_of. destruct (header_of _) as [[[[? ?] ?] ?] ?]. reflexivity.
    - apply seven_bit. destruct IR as (IR & _). unfold all7 in IR. apply Forall_app in IR. apply IR. }
  exists s. split; trivial. split; trivial.
  assert (V : property_data_validate s = Ok true).
  { specialize (H2 KPropertyData). cbn [validate_of] in H2. rewrite H2. reflexivity. }
  assert (E : read_chunk dbg s = Ok (Some (mkCM (pe_subtype p) (pc_src a) (pc_dst a) (pc_request a) (text_of h)
      (pk_number (pe_chunk_of p)) (pk_this (pe_chunk_of p)) (text_of (pk_data (pe_chunk_of p)))))).
  { unfold read_chunk. change property_data_validate with (validate_of KPropertyData).
    rewrite (as_view_ok dbg KPropertyData s true); [|apply seven_wf; trivial|exact V]. cbn [bind].
    unfold header_fields in H1. cbn [header_of pe_message] in H1.
    destruct H1 as (_ & _ & _ & _ & _ & T & _ & _ & X & Y).
    unfold pe_message in H3. cbn [fields_of] in H3. destruct H3 as (A1 & _ & A2 & A3 & A4 & _ & A5).
    rewrite T, X, Y, A1, A2, A3, A4, A5. reflexivity. }
  split; trivial. intros me. destruct (belongs_read dbg me (pe_subtype p, pc_src a, pc_request a) s (seven_wf s S)) as (r & R1 & ->).
  rewrite E in R1. injection R1 as <-. unfold mine, cm_key. cbn [cm_destination cm_subtype cm_source cm_request].
  rewrite tkey_refl, andb_true_r. reflexivity.
Qed.

Lemma later_subtype o k : pe_subtype (later_call o k) = opening_subtype o.
Proof. destruct o; reflexivity. Qed.
Lemma first_subtype o k : pe_subtype (first_call o k) = opening_subtype o.
Proof. destruct o; reflexivity. Qed.
Lemma later_chunk o k : pe_chunk_of (later_call o k) = k.
Proof. destruct o; reflexivity. Qed.
Lemma first_chunk o k : pe_chunk_of (first_call o k) = k.
Proof. destruct o; reflexivity. Qed.
Lemma first_header o k k' h : header_is (first_call o k) h -> header_is (first_call o k') h.
Proof. destruct o; exact (fun x => x). Qed.
Lemma first_proper o k k' : pe_proper (first_call o k) -> pe_proper (first_call o k').
Proof. destruct o; exact (fun x => x). Qed.
Lemma first_texts o k k' : pe_texts (first_call o k) = pe_texts (first_call o k').
Proof. destruct o; reflexivity. Qed.
Lemma later_build o k dbg a : pe_build dbg a (later_call o k) = build dbg (pe_message a (later_call o k) None).
Proof. destruct o, k, a; reflexivity. Qed.

(* the messages of the chunks with numbers from i, what is read of them *)
Fixpoint later_chunks (x : transfer) (i : Z) (ps : list (list Z)) : list chunk_msg :=
  match ps with
  | [] => []
  | p :: r => mkCM (opening_subtype (tr_opening x)) (pc_src (tr_common x)) (pc_dst (tr_common x)) (pc_request (tr_common x)) []
                (tr_count x) i p :: later_chunks x (i + 1) r
  end.

Definition tchunk_ok (x : transfer) (dbg : bool) (s : sysex) (m : chunk_msg) : Prop :=
  read_chunk dbg s = Ok (Some m) /\ seven_sysex s /\ belongs (pc_dst (tr_common x)) (transfer_key x) s = true.

Lemma size_cons {A} (x : A) l : size (x :: l) = 1 + size l.
Proof. unfold size. cbn [length]. lia. Qed.

Lemma later_ok dbg x : transfer_ok x -> forall ps i, Forall piece_ok ps -> 2 <= i -> i + size ps = tr_count x + 1 ->
  exists ms, later_messages dbg x i ps = Ok ms /\ Forall2 (tchunk_ok x dbg) ms (later_chunks x i ps).
Proof.
  intros (S & D & R & V & _ & _ & _ & N) ps. induction ps as [|p ps IH]; intros i P I E.
  - exists []. split; [reflexivity|constructor].
  - inversion P as [|? ? P1 P2]; subst. rewrite size_cons in E.
    assert (Q : 0 <= size ps) by (unfold size; lia).
    destruct (call_read dbg (tr_common x) (later_call (tr_opening x) (mkChunk (tr_count x) i (Some p))) None) as (s & B & S7 & RC & BL).
    { constructor. }
    { cbn. lia. }
    { rewrite later_chunk. unfold pe_in_range, is_u14. cbn [pk_number pk_this pk_data]. destruct P1 as [P1 P3].
      refine (conj S (conj D (conj R (conj V (conj _ (conj _ (conj _ (conj _ (conj P1 P3))))))))); try lia. }
    { left. reflexivity. }
    rewrite later_subtype, later_chunk in RC. rewrite later_subtype in BL. cbn [pk_number pk_this pk_data text_of] in RC.
    destruct (IH (i + 1) P2) as (ms & M & F); [lia|lia|].
    exists (s :: ms). cbn [later_messages later_chunks]. rewrite later_build, B. cbn [bind]. rewrite M. split; [reflexivity|].
    constructor; trivial. split; [exact RC|]. split; trivial. unfold transfer_key. rewrite BL. apply Z.eqb_refl.
Qed.

Lemma transfer_built dbg x : transfer_ok x ->
  exists h, header_is (first_call (tr_opening x) (mkChunk 1 1 None)) h /\
    (size (text_of h) < 16384 ->
     exists ms, transfer_messages dbg x = Ok ms /\
       Forall2 (tchunk_ok x dbg) ms
         (mkCM (opening_subtype (tr_opening x)) (pc_src (tr_common x)) (pc_dst (tr_common x)) (pc_request (tr_common x)) (text_of h)
            (tr_count x) 1 (tr_first x) :: later_chunks x 2 (tr_rest x))).
Proof.
  intros OK. pose proof OK as (S & D & R & V & P & T & F & N). inversion F as [|? ? F1 F2]; subst.
  set (k := mkChunk (tr_count x) 1 (Some (tr_first x))).
  destruct (pe_header_ok (first_call (tr_opening x) k)) as (h & H & H7 & B).
  { eapply first_proper, P. }
  { rewrite (first_texts _ _ (mkChunk 1 1 None)). exact T. }
  exists h. split; [eapply first_header, H|]. intros L.
  assert (Q : 0 <= size (tr_rest x)) by (unfold size; lia). unfold tr_count in N.
  destruct (call_read dbg (tr_common x) (first_call (tr_opening x) k) h) as (s & B' & S7 & RC & BL); trivial.
  { rewrite first_chunk. unfold pe_in_range, is_u14, k, tr_count. cbn [pk_number pk_this pk_data]. destruct F1 as [P1 P3].
    refine (conj S (conj D (conj R (conj V (conj _ (conj _ (conj _ (conj _ (conj P1 P3))))))))); try lia. }
  { right. rewrite first_chunk. cbn. lia. }
  rewrite first_subtype, first_chunk in RC. rewrite first_subtype in BL. cbn [k pk_number pk_this pk_data text_of] in RC.
  destruct (later_ok dbg x OK (tr_rest x) 2 F2) as (ms & M & G); [lia|unfold tr_count; lia|].
  exists (s :: ms). unfold transfer_messages. fold k. rewrite B, B'. cbn [bind]. rewrite M. split; [reflexivity|].
  constructor; trivial. split; [exact RC|]. split; trivial. unfold transfer_key. rewrite BL. apply Z.eqb_refl.
Qed.

(* running the chunks *)
Lemma later_run x h : forall ps i b, 2 <= i -> i + size ps = tr_count x + 1 -> ps <> [] ->
  steps (transfer_key x) (Some (mkPend (transfer_key x) h (i - 1) b)) (later_chunks x i ps) =
  (None, [mkRecv (transfer_key x) h (b ++ concat ps)]).
Proof.
  induction ps as [|p ps IH]; intros i b I E N; [congruence|]. rewrite size_cons in E.
  assert (Q : 0 <= size ps) by (unfold size; lia).
  cbn [later_chunks steps]. unfold step1, in_sequence. cbn [cm_index cm_count cm_header cm_data pd_last pd_header pd_body].
  destruct (Z.eqb_spec i 1) as [?|_]; [lia|]. replace (i - 1 + 1) with i by lia. rewrite Z.eqb_refl.
  destruct ps as [|q ps].
  - replace (size []) with 0 in E by reflexivity. replace (i =? tr_count x) with true by (symmetry; apply Z.eqb_eq; lia).
    cbn [later_chunks steps concat app]. now rewrite !app_nil_r.
  - rewrite size_cons in E. assert (Q' : 0 <= size ps) by (unfold size; lia).
    replace (i =? tr_count x) with false by (symmetry; apply Z.eqb_neq; lia).
    assert (G := IH (i + 1) (b ++ p)). replace (i + 1 - 1) with i in G by lia. rewrite G; [|lia|rewrite size_cons; lia|discriminate].
    cbn [app concat]. now rewrite <- !app_assoc.
Qed.
Lemma transfer_run x h old :
  steps (transfer_key x) old
    (mkCM (opening_subtype (tr_opening x)) (pc_src (tr_common x)) (pc_dst (tr_common x)) (pc_request (tr_common x)) h
       (tr_count x) 1 (tr_first x) :: later_chunks x 2 (tr_rest x)) =
  (None, [mkRecv (transfer_key x) h (body_of x)]).
Proof.
  cbn [steps]. unfold step1, in_sequence. cbn [cm_index cm_count cm_header cm_data]. rewrite Z.eqb_refl.
  assert (G := later_run x h (tr_rest x) 2 (tr_first x)). change (2 - 1) with 1 in G. unfold body_of.
  destruct (tr_rest x) as [|p ps] eqn:E.
  - replace (tr_count x) with 1 by (unfold tr_count; now rewrite E). cbn. now rewrite app_nil_r.
  - assert (Q : 0 <= size ps) by (unfold size; lia).
    assert (C : tr_count x = 2 + size ps) by (unfold tr_count; rewrite E, size_cons; lia).
    replace (1 =? tr_count x) with false by (symmetry; apply Z.eqb_neq; lia).
    rewrite G; [reflexivity|lia|rewrite size_cons; lia|discriminate].
Qed.

Lemma transfer_received dbg x : transfer_ok x ->
  exists h, header_is (first_call (tr_opening x) (mkChunk 1 1 None)) h /\
    (size (text_of h) < 16384 ->
     exists ms, transfer_messages dbg x = Ok ms /\
       Forall (fun m => sx_id m = 0x7E0000 /\ Forall is_u7 (sx_data m) /\
         belongs (pc_dst (tr_common x)) (transfer_key x) m = true) ms /\
       forall ps ss, Forall wf_sysex ss -> filter (belongs (pc_dst (tr_common x)) (transfer_key x)) ss = ms ->
       exists ps' out, receive_all dbg (pc_dst (tr_common x)) ps ss = Ok (ps', out) /\
         filter (about (transfer_key x)) out = [mkRecv (transfer_key x) (text_of h) (body_of x)]).
Proof.
  intros OK. destruct (transfer_built dbg x OK) as (h & H & G). exists h. split; trivial. intros L.
  destruct (G L) as (ms & M & F). exists ms. split; trivial. split.
  - clear - F. induction F as [|s m ss cs [_ [[I D] B]] _ IH]; constructor; auto.
  - intros ps ss W E. destruct (receive_all_track dbg (pc_dst (tr_common x)) (transfer_key x) ss ps W) as (q & o & cs & R & C & _ & O).
    exists q, o. split; trivial. rewrite E in C.
    assert (cs = mkCM (opening_subtype (tr_opening x)) (pc_src (tr_common x)) (pc_dst (tr_common x)) (pc_request (tr_common x)) (text_of h)
            (tr_count x) 1 (tr_first x) :: later_chunks x 2 (tr_rest x)) as ->.
    { eapply forall2_fun; [|exact C|]. { cbn. intros ? ? ? X Y. congruence. }
      clear - F. induction F as [|s m ss cs [X _] _ IH]; constructor; auto. }
    rewrite O, transfer_run. reflexivity.
Qed.

(* ---- on the way -------------------------------------------------------------------------- *)

From Verif Require Import ByteStream Collector StreamSpec StreamLemmas SessionSpec SessionProofs CollectSpec ManySpec ManyProofs.

Lemma sendable_wf m : sendable7 m -> wf_sysex m.
Proof.
  intros (V & _ & D). split.
  - destruct V as [(x & X & ->)|(a & b & A & B & ->)]; unfold is_u32, is_u7 in *; lia.
  - eapply Forall_impl; [|exact D]. unfold is_u7, is_u8. lia.
Qed.

Lemma sent_valid D gms ps : session D gms ps -> Forall (fun gm => valid_midi_message (snd gm)) gms.
Proof. induction 1 as [|gm gms ps qs (_ & V & _) _ IH]; constructor; trivial. Qed.
Lemma sent_wf gms : Forall (fun gm => valid_midi_message (snd gm)) gms -> Forall wf_sysex (sysexes_sent gms).
Proof.
  unfold sysexes_sent. induction 1 as [|[g m] gms V _ IH]; cbn [map concat]; [constructor|].
  apply Forall_app. split; trivial. cbn [snd] in *. destruct m as [m|ds]; [constructor|].
  destruct V as [_ U]. destruct (sx_decode ds) as [s|] eqn:E; constructor; [|constructor].
  destruct (sx_decode_valid ds s U E) as [V D]. split.
  - destruct V as [(x & X & ->)|(a & b & A & B & ->)]; unfold is_u32, is_u7 in *; lia.
  - eapply Forall_impl; [|exact D]. unfold is_u7, is_u8. lia.
Qed.
Lemma sysexes_app a b : sysexes_of (a ++ b) = sysexes_of a ++ sysexes_of b.
Proof. unfold sysexes_of. rewrite map_app. apply concat_app. Qed.
Lemma sysexes_filter es : sysexes_of (filter not_rt_event es) = sysexes_of es.
Proof.
  induction es as [|e es IH]; [reflexivity|]. cbn [filter]. destruct e as [p|s].
  - destruct (not_rt_event (EPacket p)); exact IH.
  - change (not_rt_event (ESysex s)) with true. cbv iota. unfold sysexes_of in *. cbn [map concat]. now rewrite IH.
Qed.
Lemma sysexes_delivered g gms : sysexes_of (concat (map (delivered g) gms)) = sysexes_sent gms.
Proof.
  induction gms as [|[k m] gms IH]; [reflexivity|]. cbn [map concat]. rewrite sysexes_app, IH.
  unfold sysexes_sent at 2. cbn [map concat]. f_equal. unfold delivered. cbn [snd].
  destruct m as [m|ds]; [reflexivity|]. destruct (sx_decode ds); reflexivity.
Qed.

Lemma over_bytes g st gms ps rs qs : reached g true st -> session divided gms ps -> realtime_between rs ps qs ->
  exists bs st' out, stream_of_packets qs = Ok bs /\ feed_all st bs = Ok (st', out) /\ sysexes_of out = sysexes_sent gms.
Proof.
  intros R S B. destruct (session_delivered g st gms ps rs qs R S B) as (bs & st' & out & P & F & O & _).
  exists bs, st', out. split; trivial. split; trivial. rewrite <- sysexes_filter, O. apply sysexes_delivered.
Qed.

Lemma packets_through dbg x : transfer_ok x ->
  exists h, header_is (first_call (tr_opening x) (mkChunk 1 1 None)) h /\
    (size (text_of h) < 16384 ->
     exists xs, transfer_messages dbg x = Ok xs /\
       forall a c g (ms : Z -> list sysex) (t : traffic Z),
         std_alloc a -> reached7 a 0 c -> c7_has_cb c = true -> 0 <= g < 16 ->
         (forall k p, In (Some k, p) t -> 0 <= k < 16) ->
         (forall k, 0 <= k < 16 -> Forall sendable7 (ms k) /\
            sent_messages (fun m => send_sysex7 m k) (ms k) (sent_by (Z.eqb k) t)) ->
         Forall (fun p => wf_packet p /\ type p <> 3) (other_traffic t) ->
         filter (belongs (pc_dst (tr_common x)) (transfer_key x)) (ms g) = xs ->
         exists c' ss, c7_calls a c (map KFeed (filter (for_group g) (map snd t))) = Ok (c', ss) /\
           came_through dbg x (text_of h) ss).
Proof.
  intros OK. destruct (transfer_received dbg x OK) as (h & H & G). exists h. split; trivial. intros L.
  destruct (G L) as (xs & M & _ & R). exists xs. split; trivial. intros a c g ms t A C CB GG K S O F.
  destruct (each_group a c g ms t A C CB GG K S O) as [c' E]. exists c', (ms g). split; trivial.
  intros ps. apply R; trivial. destruct (S g GG) as [S1 _]. eapply Forall_impl; [apply sendable_wf|exact S1].
Qed.

Lemma bytes_through dbg x : transfer_ok x ->
  exists h, header_is (first_call (tr_opening x) (mkChunk 1 1 None)) h /\
    (size (text_of h) < 16384 ->
     exists xs, transfer_messages dbg x = Ok xs /\
       forall g st gms ps rs qs, reached g true st -> session divided gms ps -> realtime_between rs ps qs ->
         filter (belongs (pc_dst (tr_common x)) (transfer_key x)) (sysexes_sent gms) = xs ->
         exists bs st' out, stream_of_packets qs = Ok bs /\ feed_all st bs = Ok (st', out) /\
           came_through dbg x (text_of h) (sysexes_of out)).
Proof.
  intros OK. destruct (transfer_received dbg x OK) as (h & H & G). exists h. split; trivial. intros L.
  destruct (G L) as (xs & M & _ & R). exists xs. split; trivial. intros g st gms ps rs qs ST S B F.
  destruct (over_bytes g st gms ps rs qs ST S B) as (bs & st' & out & E1 & E2 & E3).
  exists bs, st', out. split; trivial. split; trivial. rewrite E3. intros pend. apply R; trivial.
  apply sent_wf. exact (sent_valid _ _ _ S).
Qed.
