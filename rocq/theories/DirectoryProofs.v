(* Lemmas about browsers that keep what they have found out *)
From Coq Require Import ZArith List Bool Lia ZifyBool ZifyNat.
From Verif Require Import Base Bits Packet PacketSpec PacketProofs Sysex SysexSpec CapWire Endpoint EndpointSpec EndpointProofs
  Browse BrowseSpec BrowseProofs Directory DirectorySpec.
Import ListNotations.
Local Open Scope Z_scope.
Local Open Scope res_scope.

Lemma topic_spec a b : reflect (a = b) (topic_eqb a b).
Proof.
  destruct a as [| | |x|x], b as [| | |y|y]; cbn; try (constructor; congruence).
  - destruct (Z.eqb_spec x y); constructor; congruence.
  - destruct (text_key_spec x y); constructor; congruence.
Qed.

Lemma find_other k k' (dir : directory) : k <> k' ->
  find (fun x => topic_eqb k (fst x)) (filter (fun x => negb (topic_eqb k' (fst x))) dir) = find (fun x => topic_eqb k (fst x)) dir.
Proof.
  intros N. induction dir as [|[j f] dir IH]; [reflexivity|]. cbn [filter fst]. destruct (topic_spec k' j) as [->|NJ]; cbn [negb].
  - rewrite IH. cbn [find fst]. destruct (topic_spec k j) as [->|_]; [contradiction|reflexivity].
  - cbn [find fst]. destruct (topic_eqb k j); [reflexivity|exact IH].
Qed.
Lemma look_learn dir f k : look_up (learn dir f) k =
  match topic_of f with Some k' => if topic_eqb k k' then Some f else look_up dir k | None => look_up dir k end.
Proof.
  unfold learn, look_up. destruct (topic_of f) as [k'|]; [|reflexivity]. cbn [find fst]. destruct (topic_spec k k') as [->|N]; [reflexivity|].
  now rewrite find_other.
Qed.

(* what is known after the findings *)
Definition kn (fs : list finding) (k : topic) : option finding := look_up (fold_left learn fs []) k.
Lemma kn_snoc fs f k : kn (fs ++ [f]) k =
  match topic_of f with Some k' => if topic_eqb k k' then Some f else kn fs k | None => kn fs k end.
Proof. unfold kn. rewrite fold_left_app. cbn [fold_left]. apply look_learn. Qed.
Lemma kn_in fs f k : In f fs -> topic_of f = Some k -> kn fs k <> None.
Proof.
  induction fs as [|g fs IH] using rev_ind; [intros []|]. intros I T. rewrite kn_snoc. apply in_app_or in I. destruct I as [I|[<-|[]]].
  - specialize (IH I T). destruct (topic_of g) as [k'|]; [|exact IH]. destruct (topic_eqb k k'); [discriminate|exact IH].
  - rewrite T. destruct (topic_spec k k); [discriminate|contradiction].
Qed.
Lemma kn_more fs gs k : kn fs k <> None -> kn (fs ++ gs) k <> None.
Proof.
  intros K. induction gs as [|g gs IH] using rev_ind; [now rewrite app_nil_r|]. rewrite app_assoc, kn_snoc.
  destruct (topic_of g) as [k'|]; [|exact IH]. destruct (topic_eqb k k'); [discriminate|exact IH].
Qed.

Definition told (d : endpoint_desc) (f : finding) : Prop := exists k, topic_of f = Some k /\ says d k = Some f.
Definition consistent (d : endpoint_desc) (fs : list finding) : Prop := forall k f, kn fs k = Some f -> says d k = Some f.
Lemma consistent_nil d : consistent d [].
Proof. intros k f. discriminate. Qed.
Lemma consistent_app d fs gs : consistent d fs -> Forall (told d) gs -> consistent d (fs ++ gs).
Proof.
  intros C T. induction gs as [|g gs IH] using rev_ind; [now rewrite app_nil_r|]. apply Forall_app in T. destruct T as [T G].
  inversion_clear G as [|? ? (k' & K & S) _]. rewrite app_assoc. intros k f. rewrite kn_snoc, K. destruct (topic_spec k k') as [->|N].
  - intros [= <-]. exact S.
  - now apply IH.
Qed.

(* ---- answers ---------------------------------------------------------------------------- *)

Lemma bit_mod i m v : 0 <= i < m -> 0 <= v -> bit i (v mod 2 ^ m) = bit i v.
Proof.
  intros I V. unfold bit. rewrite <- !Z.bit0_odd. rewrite !Z.div_pow2_bits by lia. rewrite Z.mod_pow2_bits_low by lia. reflexivity.
Qed.
Lemma bytes_nonneg p i : wf_packet p -> 0 <= nth i (bytes p) 0.
Proof.
  intros W. destruct (Nat.ltb_spec i (length (bytes p))) as [L|L].
  - assert (B := bytes_range p). assert (In (nth i (bytes p) 0) (bytes p)) by now apply nth_In.
    rewrite Forall_forall in B. specialize (B _ H). unfold is_u8 in B. lia.
  - rewrite nth_overflow by lia. lia.
Qed.

Lemma asked_told d f i l : Forall (told d) l -> Forall (told d) (asked f i l).
Proof. intros T. unfold asked. destruct (bit i f); [exact T|constructor]. Qed.
Lemma endpoint_told d f : Forall (told d) (endpoint_findings d f).
Proof.
  unfold endpoint_findings. repeat (apply Forall_app; split); apply asked_told; (constructor; [|constructor]);
    eexists; (split; [reflexivity|]); reflexivity.
Qed.
Lemma find_block ks k : NoDup (map bd_index ks) -> In k ks -> find (fun x => bd_index x =? bd_index k) ks = Some k.
Proof.
  induction ks as [|j ks IH]; [intros _ []|]. intros N I. cbn [map] in N. inversion_clear N as [|? ? NI N']. cbn [find].
  destruct (Z.eqb_spec (bd_index j) (bd_index k)) as [E|E].
  - destruct I as [->|I]; [reflexivity|]. exfalso. apply NI. rewrite E. now apply in_map.
  - destruct I as [->|I]; [contradiction|]. now apply IH.
Qed.
Lemma blocks_told d b f : NoDup (map bd_index (ed_blocks d)) -> Forall (told d) (blocks_findings d b f).
Proof.
  intros N. unfold blocks_findings. rewrite Forall_concat, Forall_map, Forall_forall. intros k I. apply filter_In in I. destruct I as [I _].
  unfold block_findings. apply Forall_app. split; apply asked_told; (constructor; [|constructor]); eexists; (split; [reflexivity|]);
    cbn [says]; now rewrite (find_block _ k N I).
Qed.
Lemma find_some_index d b k : find (fun x => bd_index x =? b) (ed_blocks d) = Some k -> In k (ed_blocks d) /\ bd_index k = b.
Proof. intros F. apply find_some in F. destruct F as [I E]. split; [exact I|lia]. Qed.

(* the findings of a request *)
Definition replies (d : endpoint_desc) (q : packet) : list finding :=
  if stream_type q && (nth 1 (bytes q) 0 =? 0) then endpoint_findings d (nth 7 (bytes q) 0 mod 32)
  else if stream_type q && (nth 1 (bytes q) 0 =? 16) then blocks_findings d (nth 2 (bytes q) 0) (nth 3 (bytes q) 0 mod 16)
  else [].
Lemma request_answers dbg d q : endpoint_ok d -> wf_packet q -> answers dbg (answer dbg d q) (replies d q).
Proof.
  intros D W. unfold replies. destruct (stream_type q) eqn:T; cbn [andb].
  - assert (T' : nth 0 (bytes q) 0 / 16 = 15) by now apply Z.eqb_eq.
    destruct (Z.eqb_spec (nth 1 (bytes q) 0) 0); [apply answer_discovery; trivial; now split|].
    destruct (Z.eqb_spec (nth 1 (bytes q) 0) 16); [apply answer_block_discovery; trivial; now split|].
    exists []. split; [|apply finds_nil]. apply answer_none; trivial; intros [_ K]; cbn [kind_status] in K; contradiction.
  - exists []. split; [|apply finds_nil].
    assert (N : forall k, ~ of_kind k q).
    { intros k [K _]. unfold stream_type in T. rewrite K in T. discriminate. }
    now apply answer_none.
Qed.
Lemma replies_told d q : NoDup (map bd_index (ed_blocks d)) -> Forall (told d) (replies d q).
Proof.
  intros N. unfold replies. destruct (stream_type q && _); [apply endpoint_told|].
  destruct (stream_type q && _); [now apply blocks_told|constructor].
Qed.
Lemma in_asked f i l x : bit i f = true -> In x l -> In x (asked f i l).
Proof. intros B I. unfold asked. now rewrite B. Qed.
Lemma replies_complete d q k f : wf_packet q -> asks q k = true -> says d k = Some f -> In f (replies d q) /\ topic_of f = Some k.
Proof.
  intros W A S. unfold asks in A. fold (stream_type q) in A. unfold replies.
  assert (B7 := bytes_nonneg q 7 W). assert (B3 := bytes_nonneg q 3 W).
  destruct (stream_type q); [|discriminate]. cbn [andb] in *.
  destruct k as [| | |b|[| |b]]; cbn [says] in S.
  1-3,5-6: apply andb_true_iff in A; destruct A as [A1 A2]; rewrite A1; injection S as <-; split; [|reflexivity];
    change 32 with (2 ^ 5); unfold endpoint_findings; rewrite !in_app_iff.
  - left. apply in_asked; [now rewrite bit_mod by lia|now left].
  - right. left. apply in_asked; [now rewrite bit_mod by lia|now left].
  - do 4 right. apply in_asked; [now rewrite bit_mod by lia|now left].
  - do 2 right. left. apply in_asked; [now rewrite bit_mod by lia|now left].
  - do 3 right. left. apply in_asked; [now rewrite bit_mod by lia|now left].
  - destruct (find _ _) as [x|] eqn:F; [|discriminate]. apply find_some_index in F. destruct F as [I <-].
    apply andb_true_iff in A. destruct A as [A A3]. apply andb_true_iff in A. destruct A as [A1 A2]. rewrite A1.
    replace (nth 1 (bytes q) 0 =? 0) with false by lia. injection S as <-. split; [|reflexivity]. unfold blocks_findings.
    apply in_concat. exists (block_findings (nth 3 (bytes q) 0 mod 16) x). split.
    + apply in_map. apply filter_In. split; [exact I|exact A2].
    + unfold block_findings. rewrite in_app_iff. left. apply in_asked; [|now left]. change 16 with (2 ^ 4). now rewrite bit_mod by lia.
  - destruct (find _ _) as [x|] eqn:F; [|discriminate]. apply find_some_index in F. destruct F as [I <-].
    apply andb_true_iff in A. destruct A as [A A3]. apply andb_true_iff in A. destruct A as [A1 A2]. rewrite A1.
    replace (nth 1 (bytes q) 0 =? 0) with false by lia. injection S as <-. split; [|reflexivity]. unfold blocks_findings.
    apply in_concat. exists (block_findings (nth 3 (bytes q) 0 mod 16) x). split.
    + apply in_map. apply filter_In. split; [exact I|exact A2].
    + unfold block_findings. rewrite in_app_iff. right. apply in_asked; [|now left]. change 16 with (2 ^ 4). now rewrite bit_mod by lia.
Qed.

(* ---- changes ---------------------------------------------------------------------------- *)

Lemma find_changed b b' f ks : (forall k, bd_index (f k) = bd_index k) ->
  find (fun x => bd_index x =? b') (change_block b f ks) =
  match find (fun x => bd_index x =? b') ks with
  | Some x => Some (if b' =? b then f x else x)
  | None => None
  end.
Proof.
  intros F. induction ks as [|k ks IH]; [reflexivity|]. cbn [change_block map find]. fold (change_block b f ks).
  assert (E : bd_index (if bd_index k =? b then f k else k) = bd_index k) by (destruct (bd_index k =? b); [apply F|reflexivity]).
  rewrite E. destruct (Z.eqb_spec (bd_index k) b') as [<-|N]; [reflexivity|exact IH].
Qed.
Lemma indices_changed b f ks : (forall k, bd_index (f k) = bd_index k) -> map bd_index (change_block b f ks) = map bd_index ks.
Proof. intros F. unfold change_block. rewrite map_map. apply map_ext. intros k. destruct (bd_index k =? b); [apply F|reflexivity]. Qed.
Lemma size_changed b f ks : size (change_block b f ks) = size ks.
Proof. unfold size, change_block. now rewrite map_length. Qed.
Lemma blocks_changed b f ks : (forall k, block_ok k -> bd_index k = b -> block_ok (f k)) -> Forall block_ok ks -> Forall block_ok (change_block b f ks).
Proof.
  intros F K. unfold change_block. rewrite Forall_map. revert K. apply Forall_impl. intros k O. destruct (Z.eqb_spec (bd_index k) b); auto.
Qed.

Lemma described_changed d c : described d -> change_ok c -> described (changed d c).
Proof.
  destruct d as [st pr ex ma mi id na pd pc ts ks]. intros [(I & D & G & N & P & PS & B) ND] C. unfold described, endpoint_ok.
  cbn [ed_static ed_protocols ed_extensions ed_major ed_minor ed_identity ed_name ed_product ed_protocol ed_timestamps ed_blocks] in *.
  destruct c as [st' pr' ex' ma' mi'|i|t|t|p e|b o g n|b t]; cbn [changed change_ok] in *;
    cbn [ed_static ed_protocols ed_extensions ed_major ed_minor ed_identity ed_name ed_product ed_protocol ed_timestamps ed_blocks].
  - split; [|exact ND]. cbn [stream_in_range] in *. intuition lia.
  - split; [|exact ND]. tauto.
  - split; [|exact ND]. tauto.
  - split; [|exact ND]. tauto.
  - split; [|exact ND]. tauto.
  - rewrite indices_changed, size_changed by reflexivity. split; [|exact ND]. repeat (split; [assumption|]).
    apply blocks_changed; [|exact B]. intros k [K1 K2] E. unfold block_ok. cbn [bd_index bd_options bd_first_group bd_groups bd_name].
    rewrite E. now split.
  - rewrite indices_changed, size_changed by reflexivity. split; [|exact ND]. repeat (split; [assumption|]).
    apply blocks_changed; [|exact B]. intros k [K1 K2] E. unfold block_ok. cbn [bd_index bd_options bd_first_group bd_groups bd_name]. now split.
Qed.

(* a change is announced by what is new *)
Lemma change_announced dbg d c : described d -> change_ok c ->
  exists fs, answers dbg (announce dbg (changed d c) c) fs /\
    ((fs = [] /\ forall k, says (changed d c) k = says d k) \/
     exists f k, fs = [f] /\ topic_of f = Some k /\ says (changed d c) k = Some f /\ says d k <> None /\
       forall k', k' <> k -> says (changed d c) k' = says d k').
Proof.
  intros D C. assert (D' := described_changed d c D C). destruct D' as [(I & DI & G & N & P & PS & B) _].
  destruct d as [st pr ex ma mi id na pd pc ts ks].
  destruct c as [st' pr' ex' ma' mi'|i|t|t|p e|b o g n|b t]; cbn [changed change_ok announce] in *;
    cbn [ed_static ed_protocols ed_extensions ed_major ed_minor ed_identity ed_name ed_product ed_protocol ed_timestamps ed_blocks] in *.
  - eexists. split; [exact (answers_single dbg (SInfo _ _ _ _ _ _) I ltac:(cbn; tauto))|]. right. do 2 eexists. split; [reflexivity|].
    split; [reflexivity|]. split; [reflexivity|]. split; [discriminate|].
    intros [| | |b|[| |b]] NK; try reflexivity. contradiction.
  - eexists. split; [exact (answers_single dbg (SIdentity _) DI ltac:(cbn; tauto))|]. right. do 2 eexists. split; [reflexivity|].
    split; [reflexivity|]. split; [reflexivity|]. split; [discriminate|].
    intros [| | |b|[| |b]] NK; try reflexivity. contradiction.
  - eexists. split; [exact (answers_text dbg TName _ Logic.I N ltac:(discriminate))|]. right. do 2 eexists. split; [reflexivity|].
    split; [reflexivity|]. split; [reflexivity|]. split; [discriminate|].
    intros [| | |b|[| |b]] NK; try reflexivity. contradiction.
  - eexists. split; [exact (answers_text dbg TProduct _ Logic.I P (fun _ => PS))|]. right. do 2 eexists. split; [reflexivity|].
    split; [reflexivity|]. split; [reflexivity|]. split; [discriminate|].
    intros [| | |b|[| |b]] NK; try reflexivity. contradiction.
  - eexists. split; [exact (answers_single dbg (SConfigured _ _) G ltac:(cbn; tauto))|]. right. do 2 eexists. split; [reflexivity|].
    split; [reflexivity|]. split; [reflexivity|]. split; [discriminate|].
    intros [| | |b|[| |b]] NK; try reflexivity. contradiction.
  - unfold block_of. cbn [ed_blocks]. set (fc := fun k => mkBlockDesc (bd_index k) o g n (bd_name k)) in *.
    assert (FC : forall b', find (fun x => bd_index x =? b') (change_block b fc ks) =
      match find (fun x => bd_index x =? b') ks with Some x => Some (if b' =? b then fc x else x) | None => None end)
      by (intros b'; now apply find_changed).
    rewrite FC. destruct (find (fun x => bd_index x =? b) ks) as [x|] eqn:F.
    + assert (X := find_some _ _ F). destruct X as [XI XB]. rewrite Z.eqb_refl.
      eexists. split.
      { apply (answers_single dbg (SBlockOptions _ _ _ _)); [|cbn; tauto]. unfold fc. cbn [bd_index bd_options bd_first_group bd_groups].
        replace (bd_index x) with b by lia. exact C. }
      right. eexists. exists (OfBlock b). split; [reflexivity|].
      split; [cbn [topic_of call_report]; unfold fc; cbn [bd_index]; do 2 f_equal; lia|]. split; [|split].
      * cbn [says ed_blocks]. rewrite FC, F, Z.eqb_refl. unfold fc. cbn [bd_index bd_options bd_first_group bd_groups call_report].
        replace (bd_index x) with b by lia. reflexivity.
      * cbn [says ed_blocks]. rewrite F. discriminate.
      * intros [| | |b'|[| |b']] NK; cbn [says ed_blocks ed_static ed_protocols ed_extensions ed_major ed_minor]; try reflexivity.
        -- now rewrite size_changed.
        -- rewrite FC. destruct (find (fun x => bd_index x =? b') ks); [|reflexivity]. destruct (Z.eqb_spec b' b) as [->|_]; [contradiction|reflexivity].
        -- rewrite FC. destruct (find (fun x => bd_index x =? b') ks); [|reflexivity]. destruct (Z.eqb_spec b' b) as [->|_]; reflexivity.
    + exists []. split; [exists []; split; [reflexivity|apply finds_nil]|]. left. split; [reflexivity|].
      intros [| | |b'|[| |b']]; cbn [says ed_blocks ed_static ed_protocols ed_extensions ed_major ed_minor]; try reflexivity.
      * now rewrite size_changed.
      * rewrite FC. destruct (find (fun x => bd_index x =? b') ks) eqn:F'; [|reflexivity]. destruct (Z.eqb_spec b' b) as [->|_]; [congruence|reflexivity].
      * rewrite FC. destruct (find (fun x => bd_index x =? b') ks) eqn:F'; [|reflexivity]. destruct (Z.eqb_spec b' b) as [->|_]; [congruence|reflexivity].
  - unfold block_of. cbn [ed_blocks]. set (fc := fun k => mkBlockDesc (bd_index k) (bd_options k) (bd_first_group k) (bd_groups k) t) in *.
    assert (FC : forall b', find (fun x => bd_index x =? b') (change_block b fc ks) =
      match find (fun x => bd_index x =? b') ks with Some x => Some (if b' =? b then fc x else x) | None => None end)
      by (intros b'; now apply find_changed).
    rewrite FC. destruct (find (fun x => bd_index x =? b) ks) as [x|] eqn:F.
    + assert (X := find_some _ _ F). destruct X as [XI XB]. rewrite Z.eqb_refl.
      eexists. split.
      { apply (answers_text dbg (TBlock _)); [|exact C|discriminate]. destruct D as [(_ & _ & _ & _ & _ & _ & BK) _]. cbn [ed_blocks] in BK.
        rewrite Forall_forall in BK. destruct (BK x XI) as [[K1 _] _]. cbn [plain_sender]. unfold fc. cbn [bd_index]. unfold is_u7. lia. }
      right. eexists. exists (OfText (TBlock b)). split; [reflexivity|].
      split; [cbn [topic_of]; unfold fc; cbn [bd_index]; do 3 f_equal; lia|]. split; [|split].
      * cbn [says ed_blocks]. rewrite FC, F, Z.eqb_refl. unfold fc. cbn [bd_index bd_name]. replace (bd_index x) with b by lia. reflexivity.
      * cbn [says ed_blocks]. rewrite F. discriminate.
      * intros [| | |b'|[| |b']] NK; cbn [says ed_blocks ed_static ed_protocols ed_extensions ed_major ed_minor]; try reflexivity.
        -- now rewrite size_changed.
        -- rewrite FC. destruct (find (fun x => bd_index x =? b') ks); [|reflexivity]. destruct (Z.eqb_spec b' b) as [->|_]; reflexivity.
        -- rewrite FC. destruct (find (fun x => bd_index x =? b') ks); [|reflexivity]. destruct (Z.eqb_spec b' b) as [->|_]; [contradiction|reflexivity].
    + exists []. split; [exists []; split; [reflexivity|apply finds_nil]|]. left. split; [reflexivity|].
      intros [| | |b'|[| |b']]; cbn [says ed_blocks ed_static ed_protocols ed_extensions ed_major ed_minor]; try reflexivity.
      * now rewrite size_changed.
      * rewrite FC. destruct (find (fun x => bd_index x =? b') ks) eqn:F'; [|reflexivity]. destruct (Z.eqb_spec b' b) as [->|_]; [congruence|reflexivity].
      * rewrite FC. destruct (find (fun x => bd_index x =? b') ks) eqn:F'; [|reflexivity]. destruct (Z.eqb_spec b' b) as [->|_]; [congruence|reflexivity].
Qed.

(* ---- runs ------------------------------------------------------------------------------- *)

Lemma run_app dbg l : forall s l', site_run dbg s (l ++ l') = (s' <- site_run dbg s l ;; site_run dbg s' l').
Proof.
  induction l as [|a l IH]; intros s l'; cbn [app site_run]; [reflexivity|].
  destruct (site_step dbg s a); cbn [bind]; [apply IH|reflexivity].
Qed.
Lemma learn_app dir l : forall l', fold_left learn (l ++ l') dir = fold_left learn l' (fold_left learn l dir).
Proof. intros l'. apply fold_left_app. Qed.

(* findings with the times at which they were said *)
Definition latest (l : list (finding * nat)) : nat := fold_right (fun x n => Nat.max (snd x) n) O l.
Lemma latest_app l l' : latest (l ++ l') = Nat.max (latest l) (latest l').
Proof. induction l as [|x l IH]; cbn [latest app fold_right]; [reflexivity|]. fold (latest (l ++ l')) (latest l). rewrite IH. lia. Qed.
Lemma latest_le l n : Forall (fun x => (snd x <= n)%nat) l -> (latest l <= n)%nat.
Proof. induction 1 as [|x l X _ IH]; cbn [latest fold_right]; [lia|]. fold (latest l). lia. Qed.
Lemma latest_new l n : l <> [] -> latest (map (fun f : finding => (f, n)) l) = n.
Proof.
  destruct l as [|f l]; [contradiction|]. intros _. cbn [map latest fold_right snd]. fold (latest (map (fun f : finding => (f, n)) l)).
  assert (latest (map (fun f : finding => (f, n)) l) <= n)%nat; [|lia].
  apply latest_le. rewrite Forall_map. apply Forall_forall. intros; cbn; lia.
Qed.
Lemma map_fst_new (l : list finding) (n : nat) : map fst (map (fun f => (f, n)) l) = l.
Proof. rewrite map_map. cbn. apply map_id. Qed.

Section Runs.
Variables (dbg : bool) (d0 : endpoint_desc) (i : nat).
Notation start := (new_site d0).

Definition consistent_at (acts : list act) (m : nat) (fs : list finding) : Prop :=
  forall s, site_run dbg start (firstn m acts) = Ok s -> consistent (si_endpoint s) fs.

Record inv (acts : list act) (s : site) (H : list packet) (o : list finding) (log : list (finding * nat)) (t : nat -> nat) : Prop := {
  in_desc : described (si_endpoint s);
  in_topics : forall k, says (si_endpoint s) k = None <-> says d0 k = None;
  in_requests : forall j, Forall wf_packet (si_requests s j);
  in_heard : browse dbg [] H = Ok (bw_unfinished (si_browsers s i), o);
  in_dir : bw_directory (si_browsers s i) = fold_left learn o [];
  in_wf : Forall wf_packet (H ++ si_links s i);
  in_said : exists u, browse dbg [] (H ++ si_links s i) = Ok (u, map fst log);
  in_times : Forall (fun x => (snd x <= length acts)%nat) log;
  in_prefixes : forall l1 l2, log = l1 ++ l2 -> consistent_at acts (latest l1) (map fst l1);
  in_now : consistent (si_endpoint s) (map fst log);
  in_questions : forall q k, In (AAsk i q) acts -> asks q k = true -> In q (si_requests s i) \/ says d0 k = None \/ kn (map fst log) k <> None;
  in_t : t (length acts) = latest (firstn (length o) log);
  in_t_le : forall m, (m <= length acts)%nat -> (t m <= m)%nat;
  in_t_mono : forall m m', (m <= m' <= length acts)%nat -> (t m <= t m')%nat;
  in_snap : forall m sm s1 k f, (m <= length acts)%nat -> site_run dbg start (firstn m acts) = Ok sm ->
    site_run dbg start (firstn (t m) acts) = Ok s1 -> knows sm i k = Some f -> says (si_endpoint s1) k = Some f
}.

Lemma inv_new : described d0 -> inv [] start [] [] [] (fun _ => O).
Proof.
  intros D. split; cbn; trivial; try tauto; try discriminate.
  - now exists [].
  - intros l1 l2 E. symmetry in E. apply app_eq_nil in E. destruct E as [-> ->]. intros s _. apply consistent_nil.
  - intros m _. lia.
  - intros [|m] sm s1 k f L E _ K; [|cbn in L; lia]. injection E as <-. discriminate.
Qed.

(* what has been heard is the beginning of what was said *)
Lemma heard_prefix acts s H o log t : inv acts s H o log t -> exists o', map fst log = o ++ o' /\ (si_links s i = [] -> o' = []).
Proof.
  intros V. destruct (in_said _ _ _ _ _ _ V) as [u E]. rewrite browse_app, (in_heard _ _ _ _ _ _ V) in E. cbn [bind fst snd] in E.
  destruct (browse dbg _ (si_links s i)) as [[v o']|f] eqn:B; [|discriminate]. cbn [bind fst snd] in E. injection E as _ <-.
  exists o'. split; [reflexivity|]. intros L. rewrite L in B. cbn in B. now injection B as _ <-.
Qed.
Lemma firstn_heard (log : list (finding * nat)) o o' : map fst log = o ++ o' -> map fst (firstn (length o) log) = o.
Proof. intros E. rewrite <- firstn_map, E. rewrite firstn_app, firstn_all, Nat.sub_diag. cbn [firstn]. apply app_nil_r. Qed.

(* one more action *)
Lemma inv_extend acts s H o log t a s' H' o' new : inv acts s H o log t -> site_run dbg start acts = Ok s -> site_step dbg s a = Ok s' ->
  described (si_endpoint s') -> (forall k, says (si_endpoint s') k = None <-> says (si_endpoint s) k = None) ->
  (forall j, Forall wf_packet (si_requests s' j)) ->
  browse dbg [] H' = Ok (bw_unfinished (si_browsers s' i), o') -> bw_directory (si_browsers s' i) = fold_left learn o' [] ->
  Forall wf_packet (H' ++ si_links s' i) -> (exists u, browse dbg [] (H' ++ si_links s' i) = Ok (u, map fst log ++ new)) ->
  (exists x, o' = o ++ x) ->
  (forall n1 n2, new = n1 ++ n2 -> n1 <> [] -> consistent (si_endpoint s') (map fst log ++ n1)) ->
  (new = [] -> consistent (si_endpoint s') (map fst log)) ->
  (forall q k, a = AAsk i q \/ In q (si_requests s i) -> asks q k = true ->
     In q (si_requests s' i) \/ says d0 k = None \/ kn (map fst log ++ new) k <> None) ->
  exists log' t', inv (acts ++ [a]) s' H' o' log' t'.
Proof.
  intros V R ST D TP RQ HE DI WF [u SA] [x OX] NE NO AS.
  set (n := S (length acts)). set (log' := log ++ map (fun f => (f, n)) new).
  set (t' := fun m => if (m <=? length acts)%nat then t m else latest (firstn (length o') log')).
  assert (LA : length (acts ++ [a]) = n) by (rewrite app_length; cbn; lia).
  assert (ML : map fst log' = map fst log ++ new) by (unfold log'; now rewrite map_app, map_fst_new).
  assert (TI : Forall (fun x => (snd x <= n)%nat) log').
  { unfold log'. apply Forall_app. split.
    - generalize (in_times _ _ _ _ _ _ V). apply Forall_impl. intros y. lia.
    - rewrite Forall_map. apply Forall_forall. intros; cbn; lia. }
  assert (RN : site_run dbg start (acts ++ [a]) = Ok s') by (rewrite run_app, R; cbn [bind site_run]; rewrite ST; reflexivity).
  assert (FN : forall m, (m <= length acts)%nat -> firstn m (acts ++ [a]) = firstn m acts).
  { intros m L. rewrite firstn_app. replace (m - length acts)%nat with O by lia. cbn [firstn]. apply app_nil_r. }
  assert (FA : firstn n (acts ++ [a]) = acts ++ [a]) by (apply firstn_all2; lia).
  assert (CN : consistent (si_endpoint s') (map fst log')).
  { rewrite ML. destruct new as [|g new]; [rewrite app_nil_r; now apply NO|]. apply (NE (g :: new) []); [now rewrite app_nil_r|discriminate]. }
  destruct (heard_prefix _ _ _ _ _ _ V) as (o1 & E1 & _).
  assert (PX : exists y, map fst log' = o' ++ y).
  { rewrite browse_app, HE in SA. cbn [bind fst snd] in SA. destruct (browse dbg _ (si_links s' i)) as [[v y]|f]; [|discriminate].
    cbn [bind fst snd] in SA. injection SA as _ SA. exists y. now rewrite ML, SA. }
  destruct PX as [y PX].
  assert (T1 : latest (firstn (length o) log) = t (length acts)) by (symmetry; apply V).
  assert (T2 : (t (length acts) <= latest (firstn (length o') log'))%nat).
  { rewrite <- T1. rewrite OX, app_length. unfold log'.
    assert (L1 : (length o <= length log)%nat) by (rewrite <- (map_length fst log), E1, app_length; lia).
    replace (firstn (length o) log) with (firstn (length o) (log ++ map (fun f => (f, n)) new)).
    2:{ rewrite firstn_app. replace (length o - length log)%nat with O by lia. cbn [firstn]. apply app_nil_r. }
    set (q := log ++ _). rewrite <- (firstn_skipn (length o) (firstn (length o + length x) q)), firstn_firstn, latest_app.
    replace (Nat.min (length o) (length o + length x)) with (length o) by lia. lia. }
  assert (T3 : (latest (firstn (length o') log') <= n)%nat).
  { apply latest_le. apply Forall_forall. intros z Z. rewrite Forall_forall in TI. apply TI.
    rewrite <- (firstn_skipn (length o') log'). apply in_or_app. now left. }
  assert (PREF : forall l1 l2, log' = l1 ++ l2 -> consistent_at (acts ++ [a]) (latest l1) (map fst l1)).
  { intros l1 l2 E. unfold log' in E. apply app_eq_app in E. destruct E as (l & [(E2 & E3)|(E2 & E3)]).
    + (* within the old log *)
      intros sm. assert (L : (latest l1 <= length acts)%nat).
      { apply latest_le. assert (X := in_times _ _ _ _ _ _ V). rewrite E2 in X. apply Forall_app in X. apply X. }
      rewrite FN by exact L. apply (in_prefixes _ _ _ _ _ _ V l1 l E2).
    + subst l1. apply map_eq_app in E3. destruct E3 as (n1 & n2 & -> & <- & <-).
      destruct n1 as [|g n1].
      * cbn [map]. rewrite app_nil_r. intros sm.
        assert (L : (latest log <= length acts)%nat) by (apply latest_le, V).
        rewrite FN by exact L. apply (in_prefixes _ _ _ _ _ _ V log []). now rewrite app_nil_r.
      * intros sm. rewrite latest_app, latest_new by discriminate.
        assert (L : (latest log <= length acts)%nat) by (apply latest_le, V).
        replace (Nat.max (latest log) n) with n by lia. rewrite FA, RN. intros [= <-].
        rewrite map_app, map_fst_new. apply (NE (g :: n1) n2); [reflexivity|discriminate]. }
  exists log', t'. split; trivial.
  - intros k. rewrite TP. apply V.
  - exists u. now rewrite ML.
  - now rewrite LA.
  - intros q k I A. rewrite ML. apply in_app_or in I. destruct I as [I|[I|[]]].
    + destruct (in_questions _ _ _ _ _ _ V q k I A) as [Q|[Q|Q]]; [apply AS; auto| |]; right; [now left|right]. now apply kn_more.
    + apply AS; auto.
  - rewrite LA. unfold t'. replace (n <=? length acts)%nat with false by (unfold n; lia). reflexivity.
  - rewrite LA. intros m L. unfold t'. destruct (Nat.leb_spec m (length acts)) as [M|M]; [now apply V|]. lia.
  - rewrite LA. intros m m' L. unfold t'. destruct (Nat.leb_spec m (length acts)) as [M|M], (Nat.leb_spec m' (length acts)) as [M'|M']; try lia.
    + apply V. lia.
    + assert (t m <= t (length acts))%nat by (apply V; lia). lia.
  - rewrite LA. intros m sm s1 k f L E1' E2' K. unfold t' in E2'. destruct (Nat.leb_spec m (length acts)) as [M|M].
    + rewrite FN in E1' by exact M. rewrite FN in E2' by (assert (t m <= m)%nat by (now apply V); lia).
      eapply (in_snap _ _ _ _ _ _ V); eassumption.
    + replace m with n in * by lia. rewrite FA, RN in E1'. injection E1' as <-.
      unfold knows in K. rewrite DI in K. fold (kn o' k) in K. rewrite <- (firstn_heard log' o' y PX) in K.
      set (lp := firstn (length o') log') in *.
      assert (CP := PREF lp (skipn (length o') log') (eq_sym (firstn_skipn _ _))).
      exact (CP _ E2' k f K).
Qed.
End Runs.

Definition all_inv (dbg : bool) (d0 : endpoint_desc) (acts : list act) (s : site) : Prop :=
  forall i, exists H o log t, inv dbg d0 i acts s H o log t.

Lemma hear_ok dbg d0 i acts s H o log t p r : inv dbg d0 i acts s H o log t -> si_links s i = p :: r ->
  exists v x, browse_packet dbg (bw_unfinished (si_browsers s i)) p = Ok (v, x).
Proof.
  intros V L. destruct (in_said _ _ _ _ _ _ _ _ _ V) as [u E]. rewrite L, browse_app, (in_heard _ _ _ _ _ _ _ _ _ V) in E.
  cbn [bind fst snd browse] in E. destruct (browse_packet dbg _ p) as [[v x]|f]; [eauto|discriminate].
Qed.

Lemma nil_split {A} (a b : list A) : [] = a ++ b -> a = [].
Proof. destruct a; [reflexivity|discriminate]. Qed.

Lemma step_inv dbg d0 acts s a : all_inv dbg d0 acts s -> site_run dbg (new_site d0) acts = Ok s -> act_ok a ->
  exists s', site_step dbg s a = Ok s' /\ all_inv dbg d0 (acts ++ [a]) s'.
Proof.
  intros V R OK. destruct a as [c|j q|j|j|j n p]; cbn [act_ok] in OK.
  - (* a change *)
    destruct (V O) as (H0 & o0 & l0 & t0 & V0). assert (D := in_desc _ _ _ _ _ _ _ _ _ V0).
    destruct (change_announced dbg _ c D OK) as (fs & (ps & E & F) & CH).
    assert (D' := described_changed _ _ D OK).
    eexists. split; [cbn [site_step]; rewrite E; reflexivity|].
    intros i. destruct (V i) as (H & o & log & t & VI). exists H, o. destruct F as (FW & _ & FB).
    eapply inv_extend with (new := fs); [exact VI|exact R|cbn [site_step]; rewrite E; reflexivity|..]; cbn [si_endpoint si_requests si_links si_browsers].
    + exact D'.
    + intros k. destruct CH as [(_ & S)|(f & k0 & _ & _ & S1 & S2 & S3)]; [now rewrite S|].
      destruct (topic_spec k k0) as [->|N]; [rewrite S1; split; [discriminate|contradiction]|now rewrite S3].
    + apply VI.
    + apply VI.
    + apply VI.
    + rewrite app_assoc. apply Forall_app. split; [apply VI|exact FW].
    + destruct (in_said _ _ _ _ _ _ _ _ _ VI) as [u B]. destruct (FB u) as [u' B']. exists u'. rewrite app_assoc, browse_app, B.
      cbn [bind fst snd]. rewrite B'. reflexivity.
    + exists []. now rewrite app_nil_r.
    + intros n1 n2 E1 N1. destruct CH as [(-> & _)|(f & k0 & -> & TF & S1 & S2 & S3)].
      * now apply nil_split in E1.
      * destruct n1 as [|g n1]; [contradiction|]. injection E1 as <- E1. apply nil_split in E1. subst n1.
        intros k g. rewrite kn_snoc, TF. destruct (topic_spec k k0) as [->|N]; [intros [= <-]; exact S1|].
        rewrite S3 by exact N. apply VI.
    + intros ->. destruct CH as [(_ & S)|(f & k0 & X & _)]; [|discriminate]. intros k g K. rewrite S. now apply VI.
    + intros q k [Q|Q] A; [discriminate|]. now left.
  - (* a request is sent *)
    eexists. split; [reflexivity|]. intros i. destruct (V i) as (H & o & log & t & VI). exists H, o.
    eapply inv_extend with (new := []); [exact VI|exact R|reflexivity|..]; cbn [si_endpoint si_requests si_links si_browsers]; try apply VI.
    + tauto.
    + intros i'. unfold set_at. destruct (Nat.eqb i' j); [|apply VI]. apply Forall_app. split; [apply VI|]. now constructor.
    + rewrite app_nil_r. apply VI.
    + exists []. now rewrite app_nil_r.
    + intros n1 n2 E1 N1. now apply nil_split in E1.
    + intros _. apply VI.
    + intros q' k [Q|Q] A; left; unfold set_at.
      * injection Q as -> ->. rewrite Nat.eqb_refl. apply in_or_app. right. now left.
      * destruct (Nat.eqb_spec i j) as [->|N]; [apply in_or_app; now left|exact Q].
  - (* a request is answered *)
    cbn [site_step]. destruct (si_requests s j) as [|q r] eqn:Q.
    { exists s. split; [reflexivity|]. intros i. destruct (V i) as (H & o & log & t & VI). exists H, o.
      eapply inv_extend with (new := []); [exact VI|exact R|cbn [site_step]; rewrite Q; reflexivity|..]; try apply VI.
      - tauto.
      - rewrite app_nil_r. apply VI.
      - exists []. now rewrite app_nil_r.
      - intros n1 n2 E1 N1. now apply nil_split in E1.
      - intros _. apply VI.
      - intros q' k [X|X] A; [discriminate|now left]. }
    destruct (V O) as (H0 & o0 & l0 & t0 & V0). assert (D := in_desc _ _ _ _ _ _ _ _ _ V0). destruct D as [DE DN].
    assert (WQ := in_requests _ _ _ _ _ _ _ _ _ V0 j). rewrite Q in WQ. inversion_clear WQ as [|? ? WQ1 WQ2].
    destruct (request_answers dbg _ q DE WQ1) as (ps & E & (FW & _ & FB)).
    eexists. split; [rewrite E; reflexivity|].
    intros i. destruct (V i) as (H & o & log & t & VI). exists H, o.
    eapply inv_extend with (new := replies (si_endpoint s) q); [exact VI|exact R|cbn [site_step]; rewrite Q, E; reflexivity|..];
      cbn [si_endpoint si_requests si_links si_browsers]; try apply VI.
    + tauto.
    + intros i'. unfold set_at. destruct (Nat.eqb i' j); [exact WQ2|apply VI].
    + rewrite app_assoc. apply Forall_app. split; [apply VI|exact FW].
    + destruct (in_said _ _ _ _ _ _ _ _ _ VI) as [u B]. destruct (FB u) as [u' B']. exists u'. rewrite app_assoc, browse_app, B.
      cbn [bind fst snd]. rewrite B'. reflexivity.
    + exists []. now rewrite app_nil_r.
    + intros n1 n2 E1 N1. apply consistent_app; [apply VI|]. assert (T := replies_told (si_endpoint s) q DN). rewrite E1 in T.
      now apply Forall_app in T.
    + intros _. apply VI.
    + intros q' k [X|X] A; [discriminate|]. unfold set_at. destruct (Nat.eqb_spec i j) as [->|N]; [|now left].
      rewrite Q in X. destruct X as [<-|X]; [|now left]. right.
      destruct (says (si_endpoint s) k) as [f|] eqn:S.
      * right. destruct (replies_complete _ q k f WQ1 A S) as [I T]. apply (kn_in _ f); [apply in_or_app; now right|exact T].
      * left. now apply VI.
  - (* a packet is heard *)
    cbn [site_step]. destruct (si_links s j) as [|p r] eqn:L.
    { exists s. split; [reflexivity|]. intros i. destruct (V i) as (H & o & log & t & VI). exists H, o.
      eapply inv_extend with (new := []); [exact VI|exact R|cbn [site_step]; rewrite L; reflexivity|..]; try apply VI.
      - tauto.
      - rewrite app_nil_r. apply VI.
      - exists []. now rewrite app_nil_r.
      - intros n1 n2 E1 N1. now apply nil_split in E1.
      - intros _. apply VI.
      - intros q' k [X|X] A; [discriminate|now left]. }
    destruct (V j) as (Hj & oj & logj & tj & Vj). destruct (hear_ok _ _ _ _ _ _ _ _ _ _ _ Vj L) as (v & x & B).
    eexists. split; [unfold browser_receive; rewrite B; reflexivity|].
    intros i. destruct (V i) as (H & o & log & t & VI).
    exists (if Nat.eqb i j then H ++ [p] else H), (if Nat.eqb i j then o ++ x else o).
    eapply inv_extend with (new := []); [exact VI|exact R|cbn [site_step]; unfold browser_receive; rewrite L, B; reflexivity|..];
      cbn [si_endpoint si_requests si_links si_browsers]; unfold set_at; try apply VI.
    + tauto.
    + destruct (Nat.eqb_spec i j) as [->|N]; [|apply VI]. rewrite browse_app, (in_heard _ _ _ _ _ _ _ _ _ VI). cbn [bind fst snd browse].
      rewrite B. cbn [bind fst snd bw_unfinished]. now rewrite app_nil_r.
    + destruct (Nat.eqb_spec i j) as [->|N]; [|apply VI]. cbn [bw_directory]. rewrite fold_left_app. f_equal. apply VI.
    + destruct (Nat.eqb_spec i j) as [->|N]; [|apply VI]. rewrite <- app_assoc. cbn [app]. rewrite <- L. apply VI.
    + rewrite app_nil_r. destruct (Nat.eqb_spec i j) as [->|N]; [|apply VI]. rewrite <- app_assoc. cbn [app]. rewrite <- L. apply VI.
    + destruct (Nat.eqb i j); [now exists x|exists []; now rewrite app_nil_r].
    + intros n1 n2 E1 N1. now apply nil_split in E1.
    + intros _. apply VI.
    + intros q' k [X|X] A; [discriminate|now left].
  - (* another packet *)
    destruct OK as [WP TP]. eexists. split; [reflexivity|]. intros i. destruct (V i) as (H & o & log & t & VI). exists H, o.
    eapply inv_extend with (new := []); [exact VI|exact R|reflexivity|..]; cbn [si_endpoint si_requests si_links si_browsers];
      unfold set_at; try apply VI.
    + tauto.
    + destruct (Nat.eqb_spec i j) as [->|N]; [|apply VI]. assert (W := in_wf _ _ _ _ _ _ _ _ _ VI). apply Forall_app in W. destruct W as [W1 W2].
      apply Forall_app. split; [exact W1|]. rewrite <- (firstn_skipn n (si_links s j)) in W2. apply Forall_app in W2. destruct W2 as [W2 W3].
      apply Forall_app. split; [exact W2|]. now constructor.
    + rewrite app_nil_r. destruct (Nat.eqb_spec i j) as [->|N]; [|apply VI].
      assert (W := in_wf _ _ _ _ _ _ _ _ _ VI). destruct (in_said _ _ _ _ _ _ _ _ _ VI) as [u B]. exists u. rewrite <- B.
      assert (W' : Forall wf_packet (H ++ firstn n (si_links s j) ++ p :: skipn n (si_links s j))).
      { apply Forall_app in W. destruct W as [W1 W2]. apply Forall_app. split; [exact W1|].
        rewrite <- (firstn_skipn n (si_links s j)) in W2. apply Forall_app in W2. destruct W2 as [W2 W3].
        apply Forall_app. split; [exact W2|]. now constructor. }
      rewrite (browse_filter dbg _ W'), (browse_filter dbg _ W). f_equal. rewrite <- (firstn_skipn n (si_links s j)) at 3.
      rewrite !filter_app. cbn [filter]. now rewrite TP.
    + exists []. now rewrite app_nil_r.
    + intros n1 n2 E1 N1. now apply nil_split in E1.
    + intros _. apply VI.
    + intros q' k [X|X] A; [discriminate|now left].
Qed.

Lemma run_inv dbg d acts : described d -> Forall act_ok acts -> exists s, site_run dbg (new_site d) acts = Ok s /\ all_inv dbg d acts s.
Proof.
  intros D. induction acts as [|a acts IH] using rev_ind; intros OK.
  - exists (new_site d). split; [reflexivity|]. intros i. do 4 eexists. now apply inv_new.
  - apply Forall_app in OK. destruct OK as [OK OA]. inversion_clear OA as [|? ? O1 _]. destruct (IH OK) as (s & R & V).
    destruct (step_inv dbg d acts s a V R O1) as (s' & ST & V'). exists s'. split; [|exact V'].
    rewrite run_app, R. cbn [bind site_run]. now rewrite ST.
Qed.

Lemma site_runs dbg d acts : described d -> Forall act_ok acts ->
  exists s, site_run dbg (new_site d) acts = Ok s /\ described (si_endpoint s).
Proof.
  intros D OK. destruct (run_inv dbg d acts D OK) as (s & R & V). exists s. split; [exact R|]. destruct (V O) as (H & o & log & t & VI). apply VI.
Qed.

Lemma up_to_date dbg d acts s i : described d -> Forall act_ok acts -> site_run dbg (new_site d) acts = Ok s ->
  si_links s i = [] -> forall k f, knows s i k = Some f -> says (si_endpoint s) k = Some f.
Proof.
  intros D OK R L k f K. destruct (run_inv dbg d acts D OK) as (s0 & R0 & V). rewrite R in R0. injection R0 as <-.
  destruct (V i) as (H & o & log & t & VI). destruct (heard_prefix _ _ _ _ _ _ _ _ _ VI) as (o' & E & N). rewrite (N L), app_nil_r in E.
  apply (in_now _ _ _ _ _ _ _ _ _ VI). rewrite E. unfold knows in K. now rewrite (in_dir _ _ _ _ _ _ _ _ _ VI) in K.
Qed.
Lemma complete dbg d acts s i q k : described d -> Forall act_ok acts -> site_run dbg (new_site d) acts = Ok s ->
  si_links s i = [] -> si_requests s i = [] -> In (AAsk i q) acts -> asks q k = true -> knows s i k = says (si_endpoint s) k.
Proof.
  intros D OK R L Q I A. destruct (run_inv dbg d acts D OK) as (s0 & R0 & V). rewrite R in R0. injection R0 as <-.
  destruct (V i) as (H & o & log & t & VI). destruct (heard_prefix _ _ _ _ _ _ _ _ _ VI) as (o' & E & N). rewrite (N L), app_nil_r in E.
  assert (U : forall f, knows s i k = Some f -> says (si_endpoint s) k = Some f) by now apply (up_to_date dbg d acts).
  destruct (in_questions _ _ _ _ _ _ _ _ _ VI q k I A) as [X|[X|X]].
  - rewrite Q in X. destruct X.
  - apply VI in X. rewrite X. destruct (knows s i k) as [f|]; [|reflexivity]. specialize (U f eq_refl). congruence.
  - rewrite E in X. unfold knows in *. rewrite (in_dir _ _ _ _ _ _ _ _ _ VI) in *. unfold kn in X.
    destruct (look_up _ k) as [f|]; [|contradiction]. symmetry. now apply U.
Qed.
Lemma snapshots dbg d acts i : described d -> Forall act_ok acts ->
  exists t : nat -> nat, (forall m, (m <= length acts)%nat -> (t m <= m)%nat) /\
    (forall m m', (m <= m' <= length acts)%nat -> (t m <= t m')%nat) /\
    forall m s s', (m <= length acts)%nat -> site_run dbg (new_site d) (firstn m acts) = Ok s ->
      site_run dbg (new_site d) (firstn (t m) acts) = Ok s' ->
      forall k f, knows s i k = Some f -> says (si_endpoint s') k = Some f.
Proof.
  intros D OK. destruct (run_inv dbg d acts D OK) as (s & R & V). destruct (V i) as (H & o & log & t & VI).
  exists t. split; [apply VI|]. split; [apply VI|]. intros m sm s' L E1 E2 k f. eapply (in_snap _ _ _ _ _ _ _ _ _ VI); eassumption.
Qed.
