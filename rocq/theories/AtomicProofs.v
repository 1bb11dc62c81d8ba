(* Atomic properties *)
From Coq Require Import ZArith String List Bool Lia ZifyBool ZifyNat.
From Verif Require Import Base Sysex SysexSpec UniversalSysex CapInq PropEx CapSpec CapCalls CapProofs CapRead JsonSpec JsonProofs
  Transfer TransferSpec TransferProofs Fit FitProofs Subscribe SubscribeSpec SubscribeProofs Atomic AtomicSpec.
Import ListNotations.
Local Open Scope Z_scope.
Local Open Scope res_scope.
Local Open Scope list_scope.

(* ---- messages on the way ------------------------------------------------------------------ *)

(* chunks that complete nothing: no first one, and not the next one *)
Definition dead (old : option pending) (cs : list chunk_msg) : Prop :=
  Forall (fun m => cm_index m <> 1 /\ match old with Some o => pd_last o + 1 <> cm_index m | None => True end) cs.
Lemma dead_step k old m ms : dead old (m :: ms) -> step1 k old m = (None, []) /\ dead None ms.
Proof.
  intros D. apply Forall_cons_iff in D as [[D1 D2] D]. split.
  - unfold step1, in_sequence. destruct (Z.eqb_spec (cm_index m) 1); [contradiction|]. destruct old as [o|]; [|reflexivity].
    destruct (Z.eqb_spec (pd_last o + 1) (cm_index m)); [contradiction|reflexivity].
  - unfold dead. eapply Forall_impl; [|exact D]. cbn. tauto.
Qed.

(* the last chunk completes the transfer x, the others nothing; without the next one the others complete nothing *)
Inductive progress (k : tkey) (x : received) : option pending -> list chunk_msg -> Prop :=
| progress_last old m : step1 k old m = (None, [x]) -> progress k x old [m]
| progress_more old m o ms : step1 k old m = (o, []) -> progress k x o ms -> dead old ms -> progress k x old (m :: ms).

Lemma later_index x : forall ps i, Forall (fun m => i <= cm_index m) (later_chunks x i ps).
Proof.
  induction ps as [|p ps IH]; intros i; cbn [later_chunks]; constructor; cbn [cm_index]; [lia|].
  eapply Forall_impl; [|apply IH]. cbn. intros. lia.
Qed.
Lemma later_progress x h : forall ps i b, 2 <= i -> i + size ps = tr_count x + 1 -> ps <> [] ->
  progress (transfer_key x) (mkRecv (transfer_key x) h (b ++ List.concat ps)) (Some (mkPend (transfer_key x) h (i - 1) b)) (later_chunks x i ps).
Proof.
  induction ps as [|p ps IH]; intros i b I E N; [congruence|]. rewrite size_cons in E.
  assert (Q : 0 <= size ps) by (unfold size; lia). cbn [later_chunks].
  assert (S1 : forall c, step1 (transfer_key x) (Some (mkPend (transfer_key x) h (i - 1) b))
     (mkCM (opening_subtype (tr_opening x)) (pc_src (tr_common x)) (pc_dst (tr_common x)) (pc_request (tr_common x)) [] c i p) =
     if i =? c then (None, [mkRecv (transfer_key x) h (b ++ p)]) else (Some (mkPend (transfer_key x) h i (b ++ p)), [])).
  { intros c. unfold step1, in_sequence. cbn [cm_index cm_count cm_header cm_data pd_last pd_header pd_body].
    destruct (Z.eqb_spec i 1) as [?|_]; [lia|]. replace (i - 1 + 1) with i by lia. now rewrite Z.eqb_refl. }
  destruct ps as [|q ps].
  - replace (size []) with 0 in E by reflexivity. cbn [later_chunks]. apply progress_last. rewrite S1.
    replace (i =? tr_count x) with true by (symmetry; apply Z.eqb_eq; lia). cbn [List.concat]. now rewrite app_nil_r.
  - rewrite size_cons in E. assert (Q' : 0 <= size ps) by (unfold size; lia).
    eapply progress_more; [rewrite S1; replace (i =? tr_count x) with false by (symmetry; apply Z.eqb_neq; lia); reflexivity| |].
    + assert (G := IH (i + 1) (b ++ p)). replace (i + 1 - 1) with i in G by lia.
      replace (b ++ List.concat (p :: q :: ps)) with ((b ++ p) ++ List.concat (q :: ps)) by (cbn [List.concat]; now rewrite <- app_assoc).
      apply G; [lia|rewrite size_cons; lia|discriminate].
    + unfold dead. eapply Forall_impl; [|apply later_index]. cbn [pd_last]. intros. lia.
Qed.
Lemma transfer_progress x h :
  progress (transfer_key x) (mkRecv (transfer_key x) h (body_of x)) None
    (mkCM (opening_subtype (tr_opening x)) (pc_src (tr_common x)) (pc_dst (tr_common x)) (pc_request (tr_common x)) h
       (tr_count x) 1 (tr_first x) :: later_chunks x 2 (tr_rest x)).
Proof.
  assert (S1 : forall c, step1 (transfer_key x) None
     (mkCM (opening_subtype (tr_opening x)) (pc_src (tr_common x)) (pc_dst (tr_common x)) (pc_request (tr_common x)) h c 1 (tr_first x)) =
     if 1 =? c then (None, [mkRecv (transfer_key x) h (tr_first x)]) else (Some (mkPend (transfer_key x) h 1 (tr_first x)), [])).
  { intros c. unfold step1, in_sequence. cbn [cm_index cm_count cm_header cm_data]. now rewrite Z.eqb_refl. }
  assert (G := later_progress x h (tr_rest x) 2 (tr_first x)). change (2 - 1) with 1 in G. unfold body_of.
  destruct (tr_rest x) as [|p ps] eqn:E.
  - cbn [later_chunks List.concat]. rewrite app_nil_r. apply progress_last. rewrite S1.
    replace (tr_count x) with 1 by (unfold tr_count; now rewrite E). reflexivity.
  - assert (Q : 0 <= size ps) by (unfold size; lia).
    assert (C : tr_count x = 2 + size ps) by (unfold tr_count; rewrite E, size_cons; lia).
    eapply progress_more; [rewrite S1; replace (1 =? tr_count x) with false by (symmetry; apply Z.eqb_neq; lia); reflexivity| |].
    + apply G; [lia|rewrite size_cons; lia|discriminate].
    + unfold dead. eapply Forall_impl; [|apply later_index]. cbn. intros. lia.
Qed.

(* messages on the way to d; if some were lost they may complete nothing *)
Definition on_way (lossy dbg : bool) (d : Z) (k : tkey) (x : received) (old : option pending) (ss : list sysex) : Prop :=
  exists cs, Forall2 (fun s m => read_chunk dbg s = Ok (Some m) /\ cm_key m = k /\ cm_destination m = d) ss cs /\
    (progress k x old cs \/ lossy = true /\ dead old cs).

Lemma on_way_nonempty dbg d k x old ss : on_way false dbg d k x old ss -> ss <> [].
Proof. intros (cs & F & [G|[G _]]) ->; [|discriminate]. inversion F; subst. inversion G. Qed.

Lemma on_way_step lossy dbg d k x ps s ss : on_way lossy dbg d k x (track k ps) (s :: ss) ->
  exists ps' out, receive_sysex dbg d ps s = Ok (ps', out) /\ (forall k', k' <> k -> track k' ps' = track k' ps) /\
    (ss = [] /\ out = [x] /\ track k ps' = None \/ out = [] /\ on_way lossy dbg d k x (track k ps') ss).
Proof.
  intros (cs & F & G). inversion F as [|? m ? ms (R & K & D) F']; subst.
  destruct (receive_step (cm_key m) ps m eq_refl) as (S1 & S2 & S3).
  unfold receive_sysex. rewrite R. cbn [bind]. rewrite Z.eqb_refl.
  exists (fst (receive_chunk ps m)), (snd (receive_chunk ps m)). split; [now destruct (receive_chunk ps m)|]. split; [exact S3|].
  rewrite S1. destruct G as [G|[L G]].
  - inversion G as [? ? E|? ? o ? E G']; subst.
    + left. inversion F'. subst. rewrite S2, E. auto.
    + right. rewrite E. split; [reflexivity|]. exists ms. split; [exact F'|]. left. rewrite S2, E. exact G'.
  - right. destruct (dead_step (cm_key m) _ _ _ G) as [E G']. rewrite E. split; [reflexivity|]. exists ms. split; [exact F'|].
    right. split; [exact L|]. rewrite S2, E. exact G'.
Qed.
Lemma on_way_loss dbg d k x old ss : on_way true dbg d k x old ss -> on_way true dbg d k x old (tl ss).
Proof.
  intros (cs & F & G). destruct F as [|s m ss cs R F]; [exists []; split; [constructor|exact G]|].
  exists cs. split; [exact F|]. right. split; [reflexivity|]. destruct G as [G|[_ G]].
  - inversion G; subst; [constructor|assumption].
  - now apply Forall_cons_iff in G as [_ G].
Qed.

(* ---- making messages ------------------------------------------------------------------------- *)

Lemma transfer_way dbg x h : transfer_ok x -> first_text (tr_opening x) = Ok (Some h) -> all7 h -> size h < 16384 ->
  exists ms, transfer_messages dbg x = Ok ms /\
    forall lossy, on_way lossy dbg (pc_dst (tr_common x)) (transfer_key x) (mkRecv (transfer_key x) h (body_of x)) None ms.
Proof.
  intros OK H H7 L. destruct (transfer_chunks dbg x (Some h) OK H H7 L) as (ms & TM & F). exists ms. split; [exact TM|]. intros lossy.
  cbn [text_of] in F. eexists. split; [|left; apply transfer_progress].
  assert (K : Forall (fun m => cm_key m = transfer_key x /\ cm_destination m = pc_dst (tr_common x))
      (mkCM (opening_subtype (tr_opening x)) (pc_src (tr_common x)) (pc_dst (tr_common x)) (pc_request (tr_common x)) h
         (tr_count x) 1 (tr_first x) :: later_chunks x 2 (tr_rest x))) by (constructor; [split; reflexivity|apply later_keys]).
  clear - F K. induction F as [|s m ss cs [R _] _ IH]; constructor; apply Forall_cons_iff in K as [K1 K2]; auto.
Qed.

Lemma single_way dbg a p h : all7 h -> size h < 16384 -> pe_in_range a (pe_chunk_of p) ->
  pe_chunk_of p = mkChunk 1 1 None -> pe_build dbg a p = build dbg (pe_message a p (Some h)) ->
  exists s, pe_build dbg a p = Ok s /\
    forall lossy, on_way lossy dbg (pc_dst a) (pe_subtype p, pc_src a, pc_request a) (mkRecv (pe_subtype p, pc_src a, pc_request a) h []) None [s].
Proof.
  intros H7 L R C B. destruct (call_read dbg a p (Some h) H7 L R) as (s & E & _ & RC & _).
  { right. rewrite C. cbn. lia. }
  exists s. rewrite B. split; [exact E|]. intros lossy. rewrite C in RC. cbn [pk_number pk_this pk_data text_of] in RC.
  eexists. split; [constructor; [split; [exact RC|split; reflexivity]|constructor]|].
  left. apply progress_last. unfold step1, in_sequence. cbn [cm_index cm_count cm_header cm_data]. reflexivity.
Qed.

Definition rkey (m q : Z) (r : request) : tkey := match r with RGet _ => (0x34, m, q) | RSet _ _ => (0x36, m, q) end.
Definition rname (r : request) : list Z := match r with RGet x | RSet x _ => x end.
Definition rbody (r : request) : list Z := match r with RGet _ => [] | RSet _ v => v end.

Lemma resource_text x : resource_ok x ->
  all7 (make_rjson_text tag_resource x) /\ size (make_rjson_text tag_resource x) < 16384 /\
  resource_header (make_rjson_text tag_resource x) = Some x.
Proof.
  intros (P & A & L). assert (N1 : plain (str "resource")) by now apply plain_name.
  assert (A1 : all7 (str "resource")) by now apply all7_name.
  split; [|split].
  - rewrite text_eq. apply all7_object; [now apply all7_text_member|constructor].
  - rewrite text_eq. unfold text_member. cbn [options_text]. repeat (rewrite size_cons || rewrite size_app).
    change (size tag_resource) with 8. change (size (@nil Z)) with 0. lia.
  - unfold resource_header. rewrite (rjson_text_ok tag_resource x N1 P). now rewrite text_eqb_refl.
Qed.
Lemma status_text : all7 (make_rjson_int tag_status 200) /\ size (make_rjson_int tag_status 200) < 16384 /\
  succeeded (make_rjson_int tag_status 200) = true.
Proof.
  split; [|split; vm_compute; reflexivity]. apply Forall_forall.
  assert (F : forallb (fun c => (0 <=? c) && (c <? 128)) (make_rjson_int tag_status 200) = true) by (vm_compute; reflexivity).
  rewrite forallb_forall in F. intros c I. specialize (F c I). unfold is_u7. lia.
Qed.

Lemma inquiry_ok dbg cutting n m P q r : is_u28 m -> is_u28 P -> is_u7 q -> cutting_ok n cutting -> request_ok n r ->
  exists ms h, inquiry dbg cutting m P q r = Ok ms /\ resource_header h = Some (rname r) /\
    forall lossy, on_way lossy dbg P (rkey m q r) (mkRecv (rkey m q r) h (rbody r)) None ms.
Proof.
  intros M PP Q C R. destruct r as [x|x v]; cbn [request_ok inquiry rname rkey rbody] in *.
  - destruct (resource_text x R) as (H7 & L & RH).
    destruct (single_way dbg (mkCommon m P q 0x7F) (PGetInquiry x) _ H7 L) as (s & E & W); try reflexivity.
    { unfold pe_in_range, is_u14, is_u7 in *. cbn. repeat split; try lia; try (left; reflexivity); try (right; reflexivity); apply M || apply PP || apply Q. }
    rewrite E. cbn [bind]. eexists _, _. split; [reflexivity|]. split; [exact RH|]. exact W.
  - destruct R as [RX RV]. destruct (resource_text x RX) as (H7 & L & RH). destruct (C v RV) as [B [V1 V2]].
    set (t := mkTransfer (mkCommon m P q 0x7F) (OSet x) (fst (cutting v)) (snd (cutting v))).
    destruct (transfer_way dbg t (make_rjson_text tag_resource x)) as (ms & E & W); trivial.
    { unfold transfer_ok, t. cbn [tr_common tr_opening tr_first tr_rest pc_src pc_dst pc_request pc_device first_call pe_proper pe_texts].
      destruct RX as (X1 & X2 & _). unfold tr_count. cbn [tr_rest]. repeat split; trivial; try (unfold is_u7; lia); try apply M; try apply PP; try apply Q.
      all: try lia. }
    exists ms, (make_rjson_text tag_resource x). split; [exact E|]. split; [exact RH|]. intros lossy.
    specialize (W lossy). unfold t in W. cbn [tr_common pc_dst transfer_key tr_opening opening_subtype pc_src pc_request] in W.
    unfold body_of in W. cbn [tr_first tr_rest] in W. fold (bytes_of (cutting v)) in W. rewrite B in W. exact W.
Qed.
Lemma reply_value_ok dbg cutting n m P q v : is_u28 m -> is_u28 P -> is_u7 q -> cutting_ok n cutting -> content_ok n v ->
  exists ms h, reply_value dbg cutting P m q v = Ok ms /\ succeeded h = true /\
    forall lossy, on_way lossy dbg m (0x35, P, q) (mkRecv (0x35, P, q) h v) None ms.
Proof.
  intros M PP Q C RV. destruct status_text as (H7 & L & SH). destruct (C v RV) as [B [V1 V2]].
  set (t := mkTransfer (mkCommon P m q 0x7F) (OReplyStatus 200) (fst (cutting v)) (snd (cutting v))).
  destruct (transfer_way dbg t (make_rjson_int tag_status 200)) as (ms & E & W); trivial.
  { unfold transfer_ok, t. cbn [tr_common tr_opening tr_first tr_rest pc_src pc_dst pc_request pc_device first_call pe_proper pe_texts].
    unfold tr_count. cbn [tr_rest]. repeat split; trivial; try (unfold is_u7; lia); try apply M; try apply PP; try apply Q; try constructor.
    all: try (unfold is_s32; lia). }
  exists ms, (make_rjson_int tag_status 200). split; [exact E|]. split; [exact SH|]. intros lossy.
  specialize (W lossy). unfold t in W. cbn [tr_common pc_dst transfer_key tr_opening opening_subtype pc_src pc_request] in W.
  unfold body_of in W. cbn [tr_first tr_rest] in W. fold (bytes_of (cutting v)) in W. rewrite B in W. exact W.
Qed.
Lemma reply_done_ok dbg m P q : is_u28 m -> is_u28 P -> is_u7 q ->
  exists ms h, reply_done dbg P m q = Ok ms /\ succeeded h = true /\
    forall lossy, on_way lossy dbg m (0x37, P, q) (mkRecv (0x37, P, q) h []) None ms.
Proof.
  intros M PP Q. destruct status_text as (H7 & L & SH).
  destruct (single_way dbg (mkCommon P m q 0x7F) (PSetReply 200) _ H7 L) as (s & E & W); try reflexivity.
  { unfold pe_in_range, is_u14, is_u7 in *. cbn. repeat split; try lia; try (left; reflexivity); try (right; reflexivity); apply M || apply PP || apply Q. }
  unfold reply_done. rewrite E. cbn [bind]. eexists _, _. split; [reflexivity|]. split; [exact SH|]. exact W.
Qed.

(* ---- the invariant --------------------------------------------------------------------------- *)

Definition slot (lossy dbg : bool) (P cap : Z) (n : system) (m q : Z) (ph : phase) : Prop :=
  let dev := dv_pending (sy_device n) in
  let mine := cl_pending (sy_client n m) in
  match ph with
  | Idle =>
      cl_waiting (sy_client n m) q = None /\ sy_up n m q = [] /\ sy_down n m q = [] /\
      (forall r, track (rkey m q r) dev = None) /\ (forall r, track (expected r, P, q) mine = None)
  | Asked r =>
      cl_waiting (sy_client n m) q = Some r /\ sy_down n m q = [] /\ request_ok cap r /\
      (forall r', rkey m q r' <> rkey m q r -> track (rkey m q r') dev = None) /\ (forall r, track (expected r, P, q) mine = None) /\
      exists h, resource_header h = Some (rname r) /\
        on_way lossy dbg P (rkey m q r) (mkRecv (rkey m q r) h (rbody r)) (track (rkey m q r) dev) (sy_up n m q)
  | Effected a =>
      sy_up n m q = [] /\ (forall r, track (rkey m q r) dev = None) /\
      exists r b h, cl_waiting (sy_client n m) q = Some r /\ a = answer_of r b /\ succeeded h = true /\
        (forall r', expected r' <> expected r -> track (expected r', P, q) mine = None) /\
        on_way lossy dbg m (expected r, P, q) (mkRecv (expected r, P, q) h b) (track (expected r, P, q) mine) (sy_down n m q)
  end.
Definition inv (lossy dbg : bool) (P cap : Z) (s : list Z -> list Z) (f : Z -> Z -> phase) (n : system) : Prop :=
  dv_store (sy_device n) = s /\ (forall x, content_ok cap (s x)) /\ forall m q, is_u28 m -> is_u7 q -> slot lossy dbg P cap n m q (f m q).

Definition waits (n : system) (m q : Z) : bool := match cl_waiting (sy_client n m) q with Some _ => true | None => false end.

Lemma at__same {A} (f : Z -> A) k x : at_ f k x k = x.
Proof. unfold at_. now rewrite Z.eqb_refl. Qed.
Lemma at__other {A} (f : Z -> A) k x l : l <> k -> at_ f k x l = f l.
Proof. unfold at_. intros N. now destruct (Z.eqb_spec l k). Qed.
Lemma at2_same {A} (f : Z -> Z -> A) m q x : at2 f m q x m q = x.
Proof. unfold at2. now rewrite !Z.eqb_refl. Qed.
Lemma at2_other {A} (f : Z -> Z -> A) m q x k l : k <> m \/ l <> q -> at2 f m q x k l = f k l.
Proof. unfold at2. intros N. destruct (Z.eqb_spec k m), (Z.eqb_spec l q); cbn; trivial; lia. Qed.
Lemma changed_at2 f m q x : changed f (at2 f m q x) m q x.
Proof. split; [apply at2_same|intros k l N; now apply at2_other]. Qed.
Lemma pair_dec (k m l q : Z) : (k = m /\ l = q) \/ (k <> m \/ l <> q).
Proof. lia. Qed.
Lemma store_at_stored s x v : stored s (store_at s x v) x v.
Proof.
  unfold stored, store_at, text_eqb. split; [now destruct (list_eq_dec Z.eq_dec x x)|].
  intros k N. now destruct (list_eq_dec Z.eq_dec k x).
Qed.

Lemma unanswered_app m q : forall l l' w, unanswered m q w (l ++ l') = unanswered m q (unanswered m q w l) l'.
Proof. induction l as [|[k i r|k i a] l IH]; intros l' w; cbn [app unanswered]; trivial. Qed.

Lemma rkey_in m q r m' q' r' : rkey m q r = rkey m' q' r' -> m = m' /\ q = q'.
Proof. destruct r, r'; cbn [rkey]; intros E; inversion E; auto. Qed.

(* the slot depends on these only *)
Lemma slot_frame lossy dbg P cap n n' m q ph :
  cl_waiting (sy_client n' m) q = cl_waiting (sy_client n m) q ->
  sy_up n' m q = sy_up n m q -> sy_down n' m q = sy_down n m q ->
  (forall r, track (rkey m q r) (dv_pending (sy_device n')) = track (rkey m q r) (dv_pending (sy_device n))) ->
  (forall r, track (expected r, P, q) (cl_pending (sy_client n' m)) = track (expected r, P, q) (cl_pending (sy_client n m))) ->
  slot lossy dbg P cap n m q ph -> slot lossy dbg P cap n' m q ph.
Proof.
  intros W U D T1 T2. unfold slot. cbv zeta. destruct ph as [|r|a]; rewrite W, U, D.
  - intros (A & B & C & E & F). repeat split; trivial; intros r; [rewrite T1|rewrite T2]; trivial.
  - intros (A & B & C & E & F & h & H & G). repeat split; trivial; [intros r' N; rewrite T1; auto|intros r'; rewrite T2; auto|].
    exists h. split; [exact H|]. now rewrite T1.
  - intros (A & E & r & b & h & B & C & D' & F & G). split; [exact A|]. split; [intros r'; rewrite T1; auto|].
    exists r, b, h. repeat split; trivial; [intros r' N; rewrite T2; auto|]. now rewrite T2.
Qed.

Lemma take_not from w r : (forall q, rv_key r <> (0x35, from, q) /\ rv_key r <> (0x37, from, q)) -> take from w r = (w, []).
Proof.
  intros N. unfold take. destruct (rv_key r) as [[t a] q]. destruct (w q) as [x|]; trivial.
  destruct (Z.eqb_spec a from) as [->|]; trivial. destruct (Z.eqb_spec t (expected x)) as [->|]; trivial.
  destruct (N q). destruct x; cbn [expected] in *; congruence.
Qed.
Lemma take_all_not from : forall rs w, Forall (fun r => forall q, rv_key r <> (0x35, from, q) /\ rv_key r <> (0x37, from, q)) rs ->
  take_all from w rs = (w, []).
Proof.
  induction rs as [|r rs IH]; intros w F; [reflexivity|]. apply Forall_cons_iff in F as [A B]. cbn [take_all].
  rewrite (take_not from w r A). cbn [fst snd app]. now rewrite (IH w B).
Qed.
Lemma serve_all_not dbg cutting me : forall rs d,
  Forall (fun r => forall m q, rv_key r <> (0x34, m, q) /\ rv_key r <> (0x36, m, q)) rs -> serve_all dbg cutting me d rs = Ok (d, []).
Proof.
  induction rs as [|r rs IH]; intros d F; [reflexivity|]. apply Forall_cons_iff in F as [A B]. cbn [serve_all].
  assert (E : serve dbg cutting me d r = Ok (d, [])).
  { unfold serve. destruct (rv_key r) as [[t a] q]. destruct (resource_header _); trivial. destruct (A a q).
    destruct (Z.eqb_spec t 0x34) as [->|]; [congruence|]. destruct (Z.eqb_spec t 0x36) as [->|]; [congruence|reflexivity]. }
  rewrite E. cbn [bind fst snd]. rewrite (IH d B). reflexivity.
Qed.

Section Step.
Context (lossy dbg : bool) (cutting : list Z -> list Z * list (list Z)) (P cap : Z).
Hypothesis PP : is_u28 P.
Hypothesis CC : cutting_ok cap cutting.

(* what one action does *)
Definition fine (n : system) (h : action) (s : list Z -> list Z) (f : Z -> Z -> phase) : Prop :=
  exists n' tr s' f', act dbg cutting P n h = Ok (n', tr) /\ inv lossy dbg P cap s' f' n' /\
    (forall l, atomic s' f' l -> atomic s f (tr ++ l)) /\
    forall m q, is_u28 m -> is_u7 q -> waits n' m q = unanswered m q (waits n m q) tr.

Lemma step_ask n s f m q r : inv lossy dbg P cap s f n -> is_u28 m -> is_u7 q -> request_ok cap r -> fine n (DoAsk m q r) s f.
Proof.
  intros (S1 & S2 & I) M Q R. assert (SL := I m q M Q). unfold fine. cbn [act].
  destruct (cl_waiting (sy_client n m) q) as [x|] eqn:W.
  { exists n, [], s, f. exact (conj eq_refl (conj (conj S1 (conj S2 I)) (conj (fun l X => X) (fun _ _ _ _ => eq_refl)))). }
  destruct (f m q) as [|r'|a] eqn:F; cbn [slot] in SL; [|destruct SL; congruence|destruct SL as (_ & _ & ? & ? & ? & ? & _); congruence].
  destruct SL as (_ & U & D & T1 & T2).
  destruct (inquiry_ok dbg cutting cap m P q r M PP Q CC R) as (ms & h & E & RH & WAY). rewrite E. cbn [bind].
  eexists _, _, s, (at2 f m q (Asked r)). split; [reflexivity|]. split; [|split].
  - split; [exact S1|]. split; [exact S2|]. intros k l K L. destruct (pair_dec k m l q) as [[-> ->]|N].
    + rewrite at2_same. cbn [slot sy_client sy_up sy_down sy_device]. rewrite at__same, at2_same, U. cbn [cl_waiting cl_pending app].
      rewrite at__same. repeat split; trivial. exists h. split; [exact RH|]. rewrite T1. apply WAY.
    + rewrite (at2_other _ _ _ _ _ _ N). apply (slot_frame lossy dbg P cap n); cbn [sy_client sy_up sy_down sy_device]; trivial.
      * destruct (Z.eq_dec k m) as [->|]; [|now rewrite at__other]. rewrite at__same. cbn [cl_waiting]. apply at__other. lia.
      * now apply at2_other.
      * intros x. destruct (Z.eq_dec k m) as [->|]; [now rewrite at__same|now rewrite at__other].
      * now apply I.
  - intros l A. cbn [app]. apply (atomic_asks s f (at2 f m q (Asked r))); trivial. apply changed_at2.
  - intros k l K L. cbn [unanswered]. unfold waits. cbn [sy_client].
    destruct (Z.eqb_spec m k) as [<-|]; cbn [andb].
    + rewrite at__same. cbn [cl_waiting]. destruct (Z.eqb_spec q l) as [<-|]; [now rewrite at__same|]. rewrite at__other by congruence. reflexivity.
    + rewrite at__other by congruence. reflexivity.
Qed.

Lemma rkey_dec m q (r r' : request) : {rkey m q r' = rkey m q r} + {rkey m q r' <> rkey m q r}.
Proof. destruct r, r'; cbn [rkey]; ((left; reflexivity) || (right; discriminate)). Qed.

Lemma step_up n s f m q : inv lossy dbg P cap s f n -> is_u28 m -> is_u7 q -> fine n (DoUp m q) s f.
Proof.
  intros (S1 & S2 & I) M Q. assert (SL := I m q M Q). unfold fine. cbn [act].
  destruct (sy_up n m q) as [|x ss] eqn:U.
  { exists n, [], s, f. exact (conj eq_refl (conj (conj S1 (conj S2 I)) (conj (fun l X => X) (fun _ _ _ _ => eq_refl)))). }
  destruct (f m q) as [|r|a] eqn:F; cbn [slot] in SL; [destruct SL as (_ & ? & _); congruence| |destruct SL; congruence].
  destruct SL as (W & D & R & T1 & T2 & h & RH & G). rewrite U in G.
  destruct (on_way_step lossy dbg P _ _ _ _ _ G) as (ps' & out & E & OT & CASE).
  unfold device_receive. rewrite E. cbn [bind fst snd].
  destruct CASE as [(-> & -> & TN)|[-> G']].
  - (* complete *)
    assert (SV : exists s' b hh ms, serve dbg cutting P (mkDevice ps' (dv_store (sy_device n))) (mkRecv (rkey m q r) h (rbody r)) =
        Ok (mkDevice ps' s', [(m, q, ms)]) /\ (forall x, content_ok cap (s' x)) /\ succeeded hh = true /\
        (forall lossy, on_way lossy dbg m (expected r, P, q) (mkRecv (expected r, P, q) hh b) None ms) /\
        forall l, atomic s' (at2 f m q (Effected (answer_of r b))) l -> atomic s f l).
    { unfold serve. cbn [rv_key rv_header rv_body dv_store dv_pending]. destruct r as [y|y v]; cbn [rkey rname rbody expected answer_of] in *; rewrite RH.
      - destruct (reply_value_ok dbg cutting cap m P q (s y) M PP Q CC (S2 y)) as (ms & hh & EE & SS & WY).
        cbn [Z.eqb]. rewrite S1. exists s, (s y), hh, ms. change (0x34 =? 0x34) with true. cbn match. rewrite EE. cbn [bind].
        split; [reflexivity|]. split; [exact S2|]. split; [exact SS|]. split; [exact WY|].
        intros l A. apply (atomic_reads s f (at2 f m q (Effected (AValue (s y)))) m q y); trivial. apply changed_at2.
      - destruct (reply_done_ok dbg m P q M PP Q) as (ms & hh & EE & SS & WY).
        exists (store_at s y v), [], hh, ms. change (0x36 =? 0x34) with false. change (0x36 =? 0x36) with true. cbn match. rewrite EE. cbn [bind].
        rewrite S1. split; [reflexivity|]. destruct R as [_ RV].
        split; [intros z; unfold store_at; now destruct (text_eqb z y)|]. split; [exact SS|]. split; [exact WY|].
        intros l A. apply (atomic_writes s (store_at s y v) f (at2 f m q (Effected ADone)) m q y v); trivial; [apply store_at_stored|apply changed_at2]. }
    destruct SV as (s' & b & hh & ms & EE & S2' & SS & WY & AT).
    cbn [serve_all]. rewrite EE. cbn [bind fst snd app]. cbn [post_all fold_left fst snd]. rewrite D. cbn [app].
    eexists _, _, s', (at2 f m q (Effected (answer_of r b))). split; [reflexivity|]. split; [|split].
    + split; [reflexivity|]. split; [exact S2'|]. intros k l K L. destruct (pair_dec k m l q) as [[-> ->]|N].
      * rewrite at2_same. cbn [slot sy_client sy_up sy_down sy_device dv_pending]. rewrite !at2_same.
        split; [reflexivity|]. split.
        { intros r'. destruct (rkey_dec m q r r') as [->|N]; [exact TN|]. rewrite (OT _ N). now apply T1. }
        exists r, b, hh. repeat split; trivial. rewrite T2. apply WY.
      * rewrite (at2_other _ _ _ _ _ _ N). apply (slot_frame lossy dbg P cap n); cbn [sy_client sy_up sy_down sy_device dv_pending]; trivial.
        -- now apply at2_other.
        -- now apply at2_other.
        -- intros x'. apply OT. intros EQ. apply rkey_in in EQ. lia.
        -- now apply I.
    + exact AT.
    + reflexivity.
  - cbn [serve_all bind fst snd]. cbn [post_all fold_left].
    eexists _, _, s, f. split; [reflexivity|]. split; [|split; [auto|reflexivity]].
    split; [exact S1|]. split; [exact S2|]. intros k l K L. destruct (pair_dec k m l q) as [[-> ->]|N].
    + rewrite F. cbn [slot sy_client sy_up sy_down sy_device dv_pending]. rewrite at2_same. repeat split; trivial.
      { intros r' N. rewrite (OT _ N). now apply T1. }
      exists h. split; [exact RH|exact G'].
    + apply (slot_frame lossy dbg P cap n); cbn [sy_client sy_up sy_down sy_device dv_pending]; trivial.
      * now apply at2_other.
      * intros x'. apply OT. intros EQ. apply rkey_in in EQ. lia.
      * now apply I.
Qed.

Lemma step_down n s f m q : inv lossy dbg P cap s f n -> is_u28 m -> is_u7 q -> fine n (DoDown m q) s f.
Proof.
  intros (S1 & S2 & I) M Q. assert (SL := I m q M Q). unfold fine. cbn [act].
  destruct (sy_down n m q) as [|x ss] eqn:U.
  { exists n, [], s, f. exact (conj eq_refl (conj (conj S1 (conj S2 I)) (conj (fun l X => X) (fun _ _ _ _ => eq_refl)))). }
  destruct (f m q) as [|r|a] eqn:F; cbn [slot] in SL; [destruct SL as (_ & _ & ? & _); congruence|destruct SL as (_ & ? & _); congruence|].
  destruct SL as (D & T1 & r & b & h & W & -> & SS & T2 & G). rewrite U in G.
  destruct (on_way_step lossy dbg m _ _ _ _ _ G) as (ps' & out & E & OT & CASE).
  assert (OT' : forall r', expected r' <> expected r -> track (expected r', P, q) ps' = None).
  { intros r' N. rewrite OT by congruence. now apply T2. }
  unfold client_receive. rewrite E. cbn [bind fst snd].
  destruct CASE as [(-> & -> & TN)|[-> G']].
  - cbn [take_all]. unfold take. cbn [rv_key rv_header rv_body]. rewrite W, !Z.eqb_refl, SS. cbn [andb fst snd app map].
    eexists _, _, s, (at2 f m q Idle). split; [reflexivity|]. split; [|split].
    + split; [exact S1|]. split; [exact S2|]. intros k l K L. destruct (pair_dec k m l q) as [[-> ->]|N].
      * rewrite at2_same. cbn [slot sy_client sy_up sy_down sy_device]. rewrite at__same, at2_same. cbn [cl_waiting cl_pending]. rewrite at__same.
        repeat split; trivial. intros r'. destruct (Z.eq_dec (expected r') (expected r)) as [->|N]; [exact TN|auto].
      * rewrite (at2_other _ _ _ _ _ _ N). apply (slot_frame lossy dbg P cap n); cbn [sy_client sy_up sy_down sy_device dv_pending]; trivial.
        -- destruct (Z.eq_dec k m) as [->|]; [|now rewrite at__other]. rewrite at__same. cbn [cl_waiting]. apply at__other. lia.
        -- now apply at2_other.
        -- intros x'. destruct (Z.eq_dec k m) as [->|]; [|now rewrite at__other]. rewrite at__same. cbn [cl_pending]. apply OT. intros EQ. inversion EQ. lia.
        -- now apply I.
    + intros l A. cbn [app]. apply (atomic_gets s f (at2 f m q Idle)); trivial. apply changed_at2.
    + intros k l K L. cbn [unanswered]. unfold waits. cbn [sy_client].
      destruct (Z.eqb_spec m k) as [<-|]; cbn [andb].
      * rewrite at__same. cbn [cl_waiting]. destruct (Z.eqb_spec q l) as [<-|]; [now rewrite at__same|]. rewrite at__other by congruence. reflexivity.
      * rewrite at__other by congruence. reflexivity.
  - cbn [take_all fst snd map].
    eexists _, _, s, f. split; [reflexivity|]. split; [|split; [auto|]].
    + split; [exact S1|]. split; [exact S2|]. intros k l K L. destruct (pair_dec k m l q) as [[-> ->]|N].
      * rewrite F. cbn [slot sy_client sy_up sy_down sy_device dv_pending]. rewrite at__same, at2_same. cbn [cl_waiting cl_pending].
        split; [exact D|]. split; [exact T1|]. exists r, b, h. repeat split; trivial.
      * apply (slot_frame lossy dbg P cap n); cbn [sy_client sy_up sy_down sy_device dv_pending]; trivial.
        -- destruct (Z.eq_dec k m) as [->|]; [|now rewrite at__other]. now rewrite at__same.
        -- now apply at2_other.
        -- intros x'. destruct (Z.eq_dec k m) as [->|]; [|now rewrite at__other]. rewrite at__same. cbn [cl_pending]. apply OT. intros EQ. inversion EQ. lia.
        -- now apply I.
    + intros k l K L. unfold waits. cbn [sy_client unanswered]. destruct (Z.eq_dec k m) as [->|]; [|now rewrite at__other]. now rewrite at__same.
Qed.

Lemma step_lose_up n s f m q : lossy = true -> inv lossy dbg P cap s f n -> is_u28 m -> is_u7 q -> fine n (DoLoseUp m q) s f.
Proof.
  intros LO (S1 & S2 & I) M Q. assert (SL := I m q M Q). unfold fine. cbn [act].
  eexists _, _, s, f. split; [reflexivity|]. split; [|split; [auto|reflexivity]].
  split; [exact S1|]. split; [exact S2|]. intros k l K L. destruct (pair_dec k m l q) as [[-> ->]|N].
  - destruct (f m q) as [|r|a]; cbn [slot sy_client sy_up sy_down sy_device] in *; rewrite at2_same.
    + destruct SL as (A & B & C). now rewrite B.
    + destruct SL as (W & D & R & T1 & T2 & h & RH & G). repeat split; trivial. exists h. split; [exact RH|].
      rewrite LO in *. now apply on_way_loss.
    + destruct SL as (A & B). now rewrite A.
  - apply (slot_frame lossy dbg P cap n); cbn [sy_client sy_up sy_down sy_device]; trivial; [now apply at2_other|now apply I].
Qed.
Lemma step_lose_down n s f m q : lossy = true -> inv lossy dbg P cap s f n -> is_u28 m -> is_u7 q -> fine n (DoLoseDown m q) s f.
Proof.
  intros LO (S1 & S2 & I) M Q. assert (SL := I m q M Q). unfold fine. cbn [act].
  eexists _, _, s, f. split; [reflexivity|]. split; [|split; [auto|reflexivity]].
  split; [exact S1|]. split; [exact S2|]. intros k l K L. destruct (pair_dec k m l q) as [[-> ->]|N].
  - destruct (f m q) as [|r|a]; cbn [slot sy_client sy_up sy_down sy_device] in *; rewrite at2_same.
    + destruct SL as (A & B & C & E). now rewrite C.
    + destruct SL as (W & D & E). now rewrite D.
    + destruct SL as (D & T1 & r & b & h & W & E & SS & T2 & G). split; [exact D|]. split; [exact T1|]. exists r, b, h. repeat split; trivial.
      rewrite LO in *. now apply on_way_loss.
  - apply (slot_frame lossy dbg P cap n); cbn [sy_client sy_up sy_down sy_device]; trivial; [now apply at2_other|now apply I].
Qed.

Lemma step_other n s f x : inv lossy dbg P cap s f n -> action_ok P cap (DoOther x) -> fine n (DoOther x) s f.
Proof.
  intros (S1 & S2 & I) (WF & N). unfold fine. cbn [act]. unfold device_receive.
  destruct (other_step dbg P (dv_pending (sy_device n)) x WF) as (ps' & out & E & OT). rewrite E. cbn [bind fst snd].
  rewrite serve_all_not.
  2:{ apply Forall_forall. intros r IN m q. destruct (N m q) as [N1 N2].
      destruct (OT _ N1) as [_ F1]. destruct (OT _ N2) as [_ F2]. rewrite Forall_forall in F1, F2. auto. }
  cbn [bind fst snd post_all fold_left].
  eexists _, _, s, f. split; [reflexivity|]. split; [|split; [auto|reflexivity]].
  split; [exact S1|]. split; [exact S2|]. intros k l K L.
  apply (slot_frame lossy dbg P cap n); cbn [sy_client sy_up sy_down sy_device dv_pending]; trivial; [|now apply I].
  intros r. destruct (N k l) as [N1 N2]. destruct r; cbn [rkey]; now apply OT.
Qed.

Lemma step_other_to n s f m x : inv lossy dbg P cap s f n -> action_ok P cap (DoOtherTo m x) -> fine n (DoOtherTo m x) s f.
Proof.
  intros (S1 & S2 & I) (M & WF & N). unfold fine. cbn [act]. unfold client_receive.
  destruct (other_step dbg m (cl_pending (sy_client n m)) x WF) as (ps' & out & E & OT). rewrite E. cbn [bind fst snd].
  rewrite take_all_not.
  2:{ apply Forall_forall. intros r IN q. destruct (N q) as [N1 N2].
      destruct (OT _ N1) as [_ F1]. destruct (OT _ N2) as [_ F2]. rewrite Forall_forall in F1, F2. auto. }
  cbn [fst snd map].
  eexists _, _, s, f. split; [reflexivity|]. split; [|split; [auto|]].
  - split; [exact S1|]. split; [exact S2|]. intros k l K L.
    apply (slot_frame lossy dbg P cap n); cbn [sy_client sy_up sy_down sy_device dv_pending]; trivial; [| |now apply I].
    + destruct (Z.eq_dec k m) as [->|]; [|now rewrite at__other]. now rewrite at__same.
    + intros r. destruct (Z.eq_dec k m) as [->|]; [|now rewrite at__other]. rewrite at__same. cbn [cl_pending].
      destruct (N l) as [N1 N2]. destruct r; cbn [expected]; now apply OT.
  - intros k l K L. unfold waits. cbn [sy_client unanswered]. destruct (Z.eq_dec k m) as [->|]; [|now rewrite at__other]. now rewrite at__same.
Qed.

Definition permitted (h : action) : Prop := action_ok P cap h /\ (lossy = false -> lossless h).

Lemma act_fine n s f h : inv lossy dbg P cap s f n -> permitted h -> fine n h s f.
Proof.
  intros I [A LL]. destruct h as [m q r|m q|m q|m q|m q|m q|x|m x].
  - destruct A as (M & Q & R). now apply step_ask.
  - destruct A. now apply step_up.
  - destruct A. now apply step_down.
  - destruct A. apply step_lose_up; trivial. cbn in LL. now destruct lossy; [|destruct LL].
  - destruct A. apply step_lose_down; trivial. cbn in LL. now destruct lossy; [|destruct LL].
  - destruct A.
  - now apply step_other.
  - now apply step_other_to.
Qed.

Lemma acts_fine : forall hs n s f, inv lossy dbg P cap s f n -> Forall permitted hs ->
  exists n' tr s' f', acts dbg cutting P n hs = Ok (n', tr) /\ inv lossy dbg P cap s' f' n' /\ (forall l, atomic s' f' l -> atomic s f (tr ++ l)) /\
    forall m q, is_u28 m -> is_u7 q -> waits n' m q = unanswered m q (waits n m q) tr.
Proof.
  induction hs as [|h hs IH]; intros n s f I A.
  - exists n, [], s, f. exact (conj eq_refl (conj I (conj (fun l X => X) (fun _ _ _ _ => eq_refl)))).
  - apply Forall_cons_iff in A as [A1 A2]. destruct (act_fine n s f h I A1) as (n1 & t1 & s1 & f1 & E1 & I1 & T1 & W1).
    destruct (IH n1 s1 f1 I1 A2) as (n2 & t2 & s2 & f2 & E2 & I2 & T2 & W2).
    exists n2, (t1 ++ t2), s2, f2. cbn [acts]. rewrite E1. cbn [bind fst snd]. rewrite E2. cbn [bind fst snd].
    split; [reflexivity|]. split; [exact I2|]. split.
    + intros l X. rewrite <- app_assoc. auto.
    + intros m q M Q. rewrite unanswered_app, <- W1 by trivial. auto.
Qed.

Lemma quiet_inv store : (forall x, content_ok cap (store x)) -> inv lossy dbg P cap store (fun _ _ => Idle) (quiet_system store).
Proof. intros S. split; [reflexivity|]. split; [exact S|]. intros m q _ _. cbn. repeat split. Qed.

Lemma waits_way n s f m q : lossy = false -> inv lossy dbg P cap s f n -> is_u28 m -> is_u7 q -> sy_up n m q = [] -> sy_down n m q = [] -> waits n m q = false.
Proof.
  intros LO (_ & _ & I) M Q U D. specialize (I m q M Q). unfold waits. rewrite LO in I. destruct (f m q) as [|r|a]; cbn [slot] in I.
  - now destruct I as (-> & _).
  - destruct I as (_ & _ & _ & _ & _ & h & _ & G). now apply on_way_nonempty in G.
  - destruct I as (_ & _ & r & b & h & _ & _ & _ & _ & G). now apply on_way_nonempty in G.
Qed.

Lemma drain_up m q : is_u28 m -> is_u7 q -> forall k n s f, List.length (sy_up n m q) = k -> inv lossy dbg P cap s f n ->
  exists n' tr, acts dbg cutting P n (repeat (DoUp m q) k) = Ok (n', tr) /\ sy_up n' m q = [].
Proof.
  intros M Q. induction k as [|k IH]; intros n s f L I.
  - exists n, []. split; [reflexivity|]. now destruct (sy_up n m q).
  - destruct (step_up n s f m q I M Q) as (n1 & t1 & s1 & f1 & E1 & I1 & _).
    assert (L1 : List.length (sy_up n1 m q) = k).
    { cbn [act] in E1. destruct (sy_up n m q) as [|x ss]; [discriminate|]. cbn [List.length] in L.
      destruct (device_receive _ _ _ _ _) as [d|]; [|discriminate]. cbn [bind] in E1. apply same_ok in E1. inversion E1; subst.
      cbn [sy_up]. rewrite at2_same. lia. }
    destruct (IH n1 s1 f1 L1 I1) as (n2 & t2 & E2 & U). exists n2, (t1 ++ t2). cbn [repeat acts]. rewrite E1. cbn [bind fst snd].
    rewrite E2. split; [reflexivity|exact U].
Qed.
Lemma drain_down m q : is_u28 m -> is_u7 q -> forall k n s f, List.length (sy_down n m q) = k -> sy_up n m q = [] -> inv lossy dbg P cap s f n ->
  exists n' tr, acts dbg cutting P n (repeat (DoDown m q) k) = Ok (n', tr) /\ sy_up n' m q = [] /\ sy_down n' m q = [].
Proof.
  intros M Q. induction k as [|k IH]; intros n s f L U0 I.
  - exists n, []. split; [reflexivity|]. split; [exact U0|]. now destruct (sy_down n m q).
  - destruct (step_down n s f m q I M Q) as (n1 & t1 & s1 & f1 & E1 & I1 & _).
    assert (L1 : List.length (sy_down n1 m q) = k /\ sy_up n1 m q = []).
    { cbn [act] in E1. destruct (sy_down n m q) as [|x ss]; [discriminate|]. cbn [List.length] in L.
      destruct (client_receive _ _ _ _ _) as [d|]; [|discriminate]. cbn [bind] in E1. apply same_ok in E1. inversion E1; subst.
      cbn [sy_up sy_down]. rewrite at2_same. split; [lia|exact U0]. }
    destruct L1 as [L1 U1].
    destruct (IH n1 s1 f1 L1 U1 I1) as (n2 & t2 & E2 & U). exists n2, (t1 ++ t2). cbn [repeat acts]. rewrite E1. cbn [bind fst snd].
    rewrite E2. split; [reflexivity|exact U].
Qed.

Lemma acts_app : forall hs hs' n, acts dbg cutting P n (hs ++ hs') =
  (a <- acts dbg cutting P n hs ;; b <- acts dbg cutting P (fst a) hs' ;; Ok (fst b, snd a ++ snd b)).
Proof.
  induction hs as [|h hs IH]; intros hs' n; cbn [app acts bind fst snd].
  - destruct (acts _ _ _ n hs') as [[a b]|]; reflexivity.
  - destruct (act _ _ _ n h) as [[n1 t1]|]; [|reflexivity]. cbn [bind fst snd]. rewrite IH.
    destruct (acts _ _ _ n1 hs) as [[n2 t2]|]; [|reflexivity]. cbn [bind fst snd].
    destruct (acts _ _ _ n2 hs') as [[n3 t3]|]; [|reflexivity]. cbn [bind fst snd]. now rewrite app_assoc.
Qed.

Lemma run_inv store hs : (forall x, content_ok cap (store x)) -> Forall permitted hs ->
  exists n tr s' f', acts dbg cutting P (quiet_system store) hs = Ok (n, tr) /\ inv lossy dbg P cap s' f' n /\ atomic store (fun _ _ => Idle) tr /\
    forall m q, is_u28 m -> is_u7 q -> waits n m q = unanswered m q false tr.
Proof.
  intros S A. destruct (acts_fine hs _ _ _ (quiet_inv store S) A) as (n & tr & s' & f' & E & I & T & W).
  exists n, tr, s', f'. split; [exact E|]. split; [exact I|]. split; [rewrite <- (app_nil_r tr); apply T; constructor|]. exact W.
Qed.
End Step.

Lemma run_atomic dbg cutting P cap : is_u28 P -> cutting_ok cap cutting -> forall store hs,
  (forall x, content_ok cap (store x)) -> Forall (action_ok P cap) hs ->
  exists n tr, acts dbg cutting P (quiet_system store) hs = Ok (n, tr) /\ atomic store (fun _ _ => Idle) tr.
Proof.
  intros PP CC store hs S A. destruct (run_inv true dbg cutting P cap PP CC store hs S) as (n & tr & s & f & E & _ & AT & _).
  { eapply Forall_impl; [|exact A]. intros h H. split; [exact H|discriminate]. }
  exists n, tr. auto.
Qed.

Lemma permitted_lossless P cap hs : Forall (action_ok P cap) hs -> Forall lossless hs -> Forall (permitted false P cap) hs.
Proof.
  intros A B. apply Forall_forall. intros h I. rewrite Forall_forall in A, B. split; [auto|intros _; auto].
Qed.

Lemma run_no_loss dbg cutting P cap : is_u28 P -> cutting_ok cap cutting -> forall store hs n tr,
  (forall x, content_ok cap (store x)) -> Forall (action_ok P cap) hs -> Forall lossless hs ->
  acts dbg cutting P (quiet_system store) hs = Ok (n, tr) ->
  forall m q, is_u28 m -> is_u7 q -> sy_up n m q = [] -> sy_down n m q = [] -> unanswered m q false tr = false.
Proof.
  intros PP CC store hs n tr S A LL E m q M Q U D.
  destruct (run_inv false dbg cutting P cap PP CC store hs S (permitted_lossless P cap hs A LL)) as (n' & tr' & s & f & E' & I & _ & W).
  rewrite E in E'. apply same_ok in E'. inversion E'; subst. rewrite <- W by trivial. now apply (waits_way false dbg P cap n' s f).
Qed.

Lemma run_answered dbg cutting P cap : is_u28 P -> cutting_ok cap cutting -> forall store hs m q,
  (forall x, content_ok cap (store x)) -> Forall (action_ok P cap) hs -> Forall lossless hs -> is_u28 m -> is_u7 q ->
  exists a b n tr, acts dbg cutting P (quiet_system store) (hs ++ repeat (DoUp m q) a ++ repeat (DoDown m q) b) = Ok (n, tr) /\
    unanswered m q false tr = false.
Proof.
  intros PP CC store hs m q S A LL M Q.
  assert (PH := permitted_lossless P cap hs A LL).
  destruct (run_inv false dbg cutting P cap PP CC store hs S PH) as (n & tr & s' & f' & E & I & _ & _).
  set (a := List.length (sy_up n m q)).
  assert (AU : forall k, Forall (permitted false P cap) (repeat (DoUp m q) k)) by (intros k; apply Forall_forall; intros h IN; apply repeat_spec in IN; subst; repeat split; trivial; apply M || apply Q).
  assert (AD : forall k, Forall (permitted false P cap) (repeat (DoDown m q) k)) by (intros k; apply Forall_forall; intros h IN; apply repeat_spec in IN; subst; repeat split; trivial; apply M || apply Q).
  destruct (drain_up false dbg cutting P cap PP CC m q M Q a n s' f' eq_refl I) as (n1 & t1 & E1 & U1).
  destruct (acts_fine false dbg cutting P cap PP CC _ n s' f' I (AU a)) as (n1' & t1' & s1 & f1 & E1' & I1 & _ & _). rewrite E1 in E1'. apply same_ok in E1'. inversion E1'; subst n1' t1'.
  set (b := List.length (sy_down n1 m q)).
  destruct (drain_down false dbg cutting P cap m q M Q b n1 s1 f1 eq_refl U1 I1) as (n2 & t2 & E2 & U2 & D2).
  exists a, b, n2, (tr ++ t1 ++ t2).
  assert (R : acts dbg cutting P (quiet_system store) (hs ++ repeat (DoUp m q) a ++ repeat (DoDown m q) b) = Ok (n2, tr ++ t1 ++ t2)).
  { rewrite acts_app, E. cbn [bind fst snd]. rewrite acts_app, E1. cbn [bind fst snd]. rewrite E2. reflexivity. }
  split; [exact R|].
  destruct (run_inv false dbg cutting P cap PP CC store (hs ++ repeat (DoUp m q) a ++ repeat (DoDown m q) b) S) as (n' & tr' & s2 & f2 & E' & I' & _ & W).
  { rewrite !Forall_app. auto. }
  rewrite R in E'. apply same_ok in E'. inversion E'; subst. rewrite <- W by trivial. now apply (waits_way false dbg P cap n' s2 f2).
Qed.

(* ---- what an atomic memory shows -------------------------------------------------------------- *)

Definition nowrite (x : list Z) (f : Z -> Z -> phase) : Prop := forall k l v, f k l <> Asked (RSet x v).

Lemma nowrite_changed x f f' m q ph : nowrite x f -> changed f f' m q ph -> (forall v, ph <> Asked (RSet x v)) -> nowrite x f'.
Proof. intros N [C1 C2] H k l v. destruct (pair_dec k m l q) as [[-> ->]|D]; [rewrite C1; apply H|rewrite (C2 k l D); apply N]. Qed.
Lemma no_write_tail x e l : no_write x (e :: l) -> no_write x l.
Proof. intros N m q v I. apply (N m q v). now right. Qed.
Lemma no_answer_tail m q e l : no_answer m q (e :: l) -> no_answer m q l.
Proof. intros N a I. apply (N a). now right. Qed.

(* a read that was asked when the value was v and nothing changes it *)
Lemma stable_read x v m q w t5 s f l : atomic s f l -> forall t4, l = t4 ++ Gets m q (AValue w) :: t5 ->
  s x = v -> nowrite x f -> no_write x t4 -> no_answer m q t4 -> (f m q = Asked (RGet x) \/ f m q = Effected (AValue v)) -> w = v.
Proof.
  induction 1 as [s f|s f f' k i r l F C A IH|s f f' k i y l F C A IH|s s' f f' k i y u l F ST C A IH|s f f' k i a l F C A IH];
    intros t4 E SX NW N1 N2 PH.
  - now destruct t4.
  - destruct t4 as [|e t4]; cbn [app] in E; [discriminate|]. injection E as <- ->.
    apply (IH t4); trivial; [|eapply no_write_tail; eauto|eapply no_answer_tail; eauto|].
    + apply (nowrite_changed x f f' k i _ NW C). intros u [= ->]. apply (N1 k i u). now left.
    + destruct C as [_ C]. rewrite C; [exact PH|]. destruct (pair_dec m k q i) as [[-> ->]|]; trivial. rewrite F in PH. destruct PH; discriminate.
  - apply (IH t4); trivial; [apply (nowrite_changed x f f' k i _ NW C); discriminate|].
    destruct C as [C1 C2]. destruct (pair_dec m k q i) as [[-> ->]|D]; [|rewrite (C2 m q D); exact PH].
    right. rewrite C1. destruct PH as [PH|PH]; [|congruence]. rewrite F in PH. injection PH as ->. congruence.
  - apply (IH t4); trivial.
    + destruct ST as [_ ST]. rewrite ST; [exact SX|]. intros ->. now apply (NW k i u).
    + apply (nowrite_changed x f f' k i _ NW C); discriminate.
    + destruct C as [C1 C2]. rewrite C2; [exact PH|]. destruct (pair_dec m k q i) as [[-> ->]|]; trivial. rewrite F in PH. destruct PH; discriminate.
  - destruct t4 as [|e t4]; cbn [app] in E.
    + injection E as -> -> -> ->. rewrite F in PH. destruct PH; congruence.
    + injection E as <- ->. apply (IH t4); trivial; [|eapply no_write_tail; eauto|eapply no_answer_tail; eauto|].
      * apply (nowrite_changed x f f' k i _ NW C); discriminate.
      * destruct C as [_ C]. rewrite C; [exact PH|]. destruct (pair_dec m k q i) as [[-> ->]|]; trivial. exfalso. apply (N2 a). now left.
Qed.

(* the value is v and nothing changes it *)
Lemma stable x v m q w t4 t5 s f l : atomic s f l -> forall t3, l = t3 ++ Asks m q (RGet x) :: t4 ++ Gets m q (AValue w) :: t5 ->
  s x = v -> nowrite x f -> no_write x t3 -> no_write x t4 -> no_answer m q t4 -> w = v.
Proof.
  induction 1 as [s f|s f f' k i r l F C A IH|s f f' k i y l F C A IH|s s' f f' k i y u l F ST C A IH|s f f' k i a l F C A IH];
    intros t3 E SX NW N1 N3 N2.
  - now destruct t3.
  - destruct t3 as [|e t3]; cbn [app] in E.
    + injection E as -> -> -> ->. apply (stable_read x v m q w t5 s f' _ A t4); trivial; [apply (nowrite_changed x f f' m q _ NW C); discriminate|].
      left. apply C.
    + injection E as <- ->. apply (IH t3); trivial; [|eapply no_write_tail; eauto].
      apply (nowrite_changed x f f' k i _ NW C). intros u [= ->]. apply (N1 k i u). now left.
  - apply (IH t3); trivial. apply (nowrite_changed x f f' k i _ NW C); discriminate.
  - apply (IH t3); trivial.
    + destruct ST as [_ ST]. rewrite ST; [exact SX|]. intros ->. now apply (NW k i u).
    + apply (nowrite_changed x f f' k i _ NW C); discriminate.
  - destruct t3 as [|e t3]; cbn [app] in E; [discriminate|]. injection E as <- ->.
    apply (IH t3); trivial; [|eapply no_write_tail; eauto]. apply (nowrite_changed x f f' k i _ NW C); discriminate.
Qed.

(* the only write is on its way, or done *)
Lemma written x v c j b m q w t3 t4 t5 s f l : atomic s f l ->
  forall t2, l = t2 ++ Gets c j b :: t3 ++ Asks m q (RGet x) :: t4 ++ Gets m q (AValue w) :: t5 ->
  (forall k l u, f k l = Asked (RSet x u) -> k = c /\ l = j) ->
  (f c j = Asked (RSet x v) \/ s x = v /\ f c j = Effected ADone) ->
  no_write x t2 -> no_answer c j t2 -> no_write x t3 -> no_write x t4 -> no_answer m q t4 -> w = v.
Proof.
  induction 1 as [s f|s f f' k i r l F C A IH|s f f' k i y l F C A IH|s s' f f' k i y u l F ST C A IH|s f f' k i a l F C A IH];
    intros t2 E NW PH N1 N2 N3 N4 N5.
  - now destruct t2.
  - destruct t2 as [|e t2]; cbn [app] in E; [discriminate|]. injection E as <- ->.
    apply (IH t2); trivial; [| |eapply no_write_tail; eauto|eapply no_answer_tail; eauto].
    + intros k' i' u E'. destruct (pair_dec k' k i' i) as [[-> ->]|D].
      * destruct C as [C _]. rewrite C in E'. injection E' as ->. exfalso. apply (N1 k i u). now left.
      * destruct C as [_ C]. rewrite (C _ _ D) in E'. now apply (NW k' i' u).
    + destruct C as [_ C]. rewrite C; [exact PH|]. destruct (pair_dec c k j i) as [[-> ->]|]; trivial. rewrite F in PH. destruct PH as [|[_ ?]]; discriminate.
  - apply (IH t2); trivial.
    + intros k' i' u E'. destruct (pair_dec k' k i' i) as [[-> ->]|D]; destruct C as [C1 C2]; [congruence|]. rewrite (C2 _ _ D) in E'. now apply (NW k' i' u).
    + destruct C as [_ C]. rewrite C; [exact PH|]. destruct (pair_dec c k j i) as [[-> ->]|]; trivial. rewrite F in PH. destruct PH as [|[_ ?]]; discriminate.
  - apply (IH t2); trivial.
    + intros k' i' z E'. destruct (pair_dec k' k i' i) as [[-> ->]|D]; destruct C as [C1 C2]; [congruence|]. rewrite (C2 _ _ D) in E'. now apply (NW k' i' z).
    + destruct (pair_dec c k j i) as [[-> ->]|D].
      * right. destruct PH as [PH|[_ PH]]; [|congruence]. rewrite F in PH. injection PH as -> ->. destruct ST as [ST _]. split; [exact ST|]. apply C.
      * destruct C as [C1 C2]. rewrite (C2 _ _ D). destruct PH as [PH|[SX PH]]; [now left|]. right. split; [|exact PH].
        destruct ST as [_ ST]. rewrite ST; [exact SX|]. intros ->. destruct (NW k i u F). lia.
  - destruct t2 as [|e t2]; cbn [app] in E.
    + injection E as -> -> -> ->. rewrite F in PH. destruct PH as [|[SX PH]]; [discriminate|].
      apply (stable x v m q w t4 t5 s f' _ A t3); trivial.
      intros k' i' z E'. destruct (pair_dec k' c i' j) as [[-> ->]|D]; destruct C as [C1 C2]; [congruence|]. rewrite (C2 _ _ D) in E'.
      destruct (NW k' i' z E'). lia.
    + injection E as <- ->. apply (IH t2); trivial; [| |eapply no_write_tail; eauto|eapply no_answer_tail; eauto].
      * intros k' i' z E'. destruct (pair_dec k' k i' i) as [[-> ->]|D]; destruct C as [C1 C2]; [congruence|]. rewrite (C2 _ _ D) in E'. now apply (NW k' i' z).
      * destruct C as [_ C]. rewrite C; [exact PH|]. destruct (pair_dec c k j i) as [[-> ->]|]; trivial. exfalso. apply (N2 a). now left.
Qed.

Lemma read_after_write x v c j b m q w t2 t3 t4 t5 s f l : atomic s f l -> nowrite x f ->
  forall t1, l = t1 ++ Asks c j (RSet x v) :: t2 ++ Gets c j b :: t3 ++ Asks m q (RGet x) :: t4 ++ Gets m q (AValue w) :: t5 ->
  no_write x t1 -> no_write x t2 -> no_answer c j t2 -> no_write x t3 -> no_write x t4 -> no_answer m q t4 -> w = v.
Proof.
  induction 1 as [s f|s f f' k i r l F C A IH|s f f' k i y l F C A IH|s s' f f' k i y u l F ST C A IH|s f f' k i a l F C A IH];
    intros NW t1 E N1 N2 NA N3 N4 N5.
  - now destruct t1.
  - destruct t1 as [|e t1]; cbn [app] in E.
    + injection E as -> -> -> ->. apply (written x v c j b m q w t3 t4 t5 s f' _ A t2); trivial; [|left; apply C].
      intros k' i' z E'. destruct (pair_dec k' c i' j) as [|D]; trivial. destruct C as [C1 C2]. rewrite (C2 _ _ D) in E'. exfalso. now apply (NW k' i' z).
    + injection E as <- ->. apply (IH) with (t1 := t1); trivial; [|eapply no_write_tail; eauto].
      apply (nowrite_changed x f f' k i _ NW C). intros u [= ->]. apply (N1 k i u). now left.
  - apply IH with (t1 := t1); trivial. apply (nowrite_changed x f f' k i _ NW C); discriminate.
  - apply IH with (t1 := t1); trivial. apply (nowrite_changed x f f' k i _ NW C); discriminate.
  - destruct t1 as [|e t1]; cbn [app] in E; [discriminate|]. injection E as <- ->.
    apply IH with (t1 := t1); trivial; [|eapply no_write_tail; eauto]. apply (nowrite_changed x f f' k i _ NW C); discriminate.
Qed.
