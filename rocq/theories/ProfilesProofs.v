(* Lemmas about profiles. *)
From Coq Require Import ZArith List Bool Lia ZifyBool ZifyNat.
From Verif Require Import Base Bits Packet Messages Sysex UniversalSysex SysexSpec SysexProofs CapInq CapSpec CapProofs CapWire
  CapCalls CapMake CapRead CapReport CapReportProofs CiNetSpec CiNetProofs Profiles ProfilesSpec.
Import ListNotations.
Local Open Scope Z_scope.
Local Open Scope res_scope.

(* ---- lists of profiles --------------------------------------------------------------------- *)

Lemma same_iff p q : same_profile p q = true <-> p = q.
Proof.
  unfold same_profile, profile_id_eq. destruct p, q. cbn. rewrite !andb_true_iff, !Z.eqb_eq. split.
  - intros ((((-> & ->) & ->) & ->) & ->). reflexivity.
  - intros E. injection E as -> -> -> -> ->. auto.
Qed.
Lemma key_iff dev p e : at_key dev p e = true <-> pe_dev e = dev /\ pe_id e = p.
Proof. unfold at_key. rewrite andb_true_iff, Z.eqb_eq, same_iff. reflexivity. Qed.
Lemma key_same dev p on : at_key dev p (mkEntry dev p on) = true.
Proof. apply key_iff. auto. Qed.

Lemma find_app {A} (f : A -> bool) l1 l2 :
  find f (l1 ++ l2) = match find f l1 with Some x => Some x | None => find f l2 end.
Proof. induction l1 as [|x l IH]; [reflexivity|]. cbn [app find]. destruct (f x); trivial. Qed.
Lemma find_none_iff {A} (f : A -> bool) l : (forall x, In x l -> f x = false) -> find f l = None.
Proof.
  induction l as [|x l IH]; intros H; [reflexivity|]. cbn [find]. rewrite (H x) by now left. apply IH. intros y Y. apply H. now right.
Qed.

Definition key_eqb (dev : Z) (p : profile_id) (dev' : Z) (p' : profile_id) : bool := (dev =? dev') && same_profile p p'.

Lemma status_drop l dev p dev' p' :
  status_of (drop_entry dev p l) dev' p' = if key_eqb dev p dev' p' then None else status_of l dev' p'.
Proof.
  unfold status_of, drop_entry. induction l as [|e l IH]; [now destruct key_eqb|]. cbn [filter find].
  destruct (at_key dev p e) eqn:K; cbn [negb].
  - rewrite IH. apply key_iff in K. destruct K as [<- <-]. unfold at_key, key_eqb. now destruct (_ && _).
  - cbn [find]. destruct (at_key dev' p' e) eqn:K'; [|apply IH].
    apply key_iff in K'. destruct K' as [<- <-]. unfold key_eqb.
    destruct ((dev =? pe_dev e) && same_profile p (pe_id e)) eqn:Q; [|reflexivity].
    apply andb_true_iff in Q. destruct Q as [Q1 Q2]. apply Z.eqb_eq in Q1. apply same_iff in Q2. subst.
    rewrite (proj2 (key_iff _ _ _)) in K by auto. discriminate.
Qed.
Lemma status_put l dev p on dev' p' :
  status_of (put_entry dev p on l) dev' p' = if key_eqb dev p dev' p' then Some on else status_of l dev' p'.
Proof.
  unfold put_entry, status_of. cbn [find]. change (at_key dev' p' (mkEntry dev p on)) with (key_eqb dev p dev' p').
  destruct (key_eqb dev p dev' p') eqn:K; [reflexivity|]. fold (status_of (drop_entry dev p l) dev' p').
  rewrite status_drop, K. reflexivity.
Qed.

Lemma status_In l dev p b : status_of l dev p = Some b -> In (mkEntry dev p b) l.
Proof.
  unfold status_of. destruct (find (at_key dev p) l) as [e|] eqn:F; [|discriminate]. cbn. intros E. injection E as <-.
  apply find_some in F. destruct F as [I K]. apply key_iff in K. destruct K as [<- <-]. now destruct e.
Qed.
Lemma In_status l dev p b : NoDup (map (fun e => (pe_dev e, pe_id e)) l) -> In (mkEntry dev p b) l -> status_of l dev p = Some b.
Proof.
  unfold status_of. induction l as [|e l IH]; [intros _ []|]. cbn [map]. intros N I. inversion_clear N as [|? ? N1 N2]. cbn [find].
  destruct I as [->|I]; [now rewrite key_same|].
  destruct (at_key dev p e) eqn:K; [|now apply IH]. exfalso. apply N1. apply key_iff in K. destruct K as [-> ->].
  apply in_map_iff. now exists (mkEntry dev p b).
Qed.

Lemma listed_In dev on l p : In p (listed dev on l) <-> In (mkEntry dev p on) l.
Proof.
  unfold listed, of_dev. rewrite in_map_iff. split.
  - intros (e & <- & I). apply filter_In in I. destruct I as [I O]. apply filter_In in I. destruct I as [I D].
    apply Z.eqb_eq in D. apply eqb_prop in O. subst. now destruct e.
  - intros I. exists (mkEntry dev p on). split; [reflexivity|]. apply filter_In. split; [|apply eqb_reflx].
    apply filter_In. split; trivial. apply Z.eqb_refl.
Qed.
Lemma find_map dev on dev' p' l :
  find (at_key dev' p') (map (fun p => mkEntry dev p on) l) =
  if (dev =? dev') && existsb (same_profile p') l then Some (mkEntry dev' p' on) else None.
Proof.
  induction l as [|p l IH]; [cbn; now rewrite andb_false_r|]. cbn [map find existsb].
  unfold at_key at 1. cbn [pe_dev pe_id]. destruct (Z.eqb_spec dev dev') as [<-|N]; cbn [andb] in *.
  - destruct (same_profile p p') eqn:S1.
    + apply same_iff in S1. subst. rewrite (proj2 (same_iff p' p') eq_refl). reflexivity.
    + rewrite IH. destruct (same_profile p' p) eqn:S2; [|reflexivity]. apply same_iff in S2. subst.
      rewrite (proj2 (same_iff p p) eq_refl) in S1. discriminate.
  - exact IH.
Qed.
Lemma exists_listed dev on l p : existsb (same_profile p) (listed dev on l) = true <-> In (mkEntry dev p on) l.
Proof.
  rewrite existsb_exists, <- listed_In. split.
  - intros (q & I & S). apply same_iff in S. now subst.
  - intros I. exists p. split; trivial. now apply same_iff.
Qed.

Lemma status_reply st m dev dev' p' : NoDup (map (fun e => (pe_dev e, pe_id e)) st) ->
  status_of (map (fun p => mkEntry dev p true) (listed dev true st) ++ map (fun p => mkEntry dev p false) (listed dev false st) ++
             filter (fun x => negb (pe_dev x =? dev)) m) dev' p' =
  if dev =? dev' then status_of st dev' p' else status_of m dev' p'.
Proof.
  intros N. unfold status_of at 1. rewrite !find_app, !find_map. destruct (Z.eqb_spec dev dev') as [<-|E]; cbn [andb].
  - destruct (existsb (same_profile p') (listed dev true st)) eqn:A.
    { apply exists_listed in A. rewrite (In_status _ _ _ _ N A). reflexivity. }
    destruct (existsb (same_profile p') (listed dev false st)) eqn:B.
    { apply exists_listed in B. rewrite (In_status _ _ _ _ N B). reflexivity. }
    rewrite find_none_iff.
    + destruct (status_of st dev p') as [[|]|] eqn:Q; [| |reflexivity].
      * apply status_In, exists_listed in Q. congruence.
      * apply status_In, exists_listed in Q. congruence.
    + intros x X. apply filter_In in X. destruct X as [_ X]. destruct (at_key dev p' x) eqn:K; [|reflexivity].
      apply key_iff in K. destruct K as [K _]. rewrite K, Z.eqb_refl in X. discriminate.
  - unfold status_of. f_equal. induction m as [|x m IH]; [reflexivity|]. cbn [filter find].
    destruct (Z.eqb_spec (pe_dev x) dev) as [D|D]; cbn [negb].
    + rewrite IH. destruct (at_key dev' p' x) eqn:K; [|reflexivity]. apply key_iff in K. destruct K as [K _]. congruence.
    + cbn [find]. destruct (at_key dev' p' x); trivial.
Qed.

(* ---- what a device may have ------------------------------------------------------------------- *)

Lemma filter_length_le {A} (f : A -> bool) l : (length (filter f l) <= length l)%nat.
Proof. induction l as [|x l IH]; [apply le_n|]. cbn. destruct (f x); cbn; lia. Qed.
Lemma filter_length_lt {A} (f : A -> bool) l x : In x l -> f x = false -> (length (filter f l) < length l)%nat.
Proof.
  induction l as [|y l IH]; [intros []|]. intros [->|I] F; cbn [filter length].
  - rewrite F. pose proof (filter_length_le f l). lia.
  - specialize (IH I F). destruct (f y); cbn [length]; lia.
Qed.
Lemma filter_comm {A} (f g : A -> bool) l : filter f (filter g l) = filter g (filter f l).
Proof.
  induction l as [|x l IH]; [reflexivity|]. cbn. destruct (f x) eqn:F, (g x) eqn:G; cbn; rewrite ?F, ?G, IH; reflexivity.
Qed.
Lemma NoDup_map_filter {A B} (g : A -> B) (f : A -> bool) l : NoDup (map g l) -> NoDup (map g (filter f l)).
Proof.
  induction l as [|x l IH]; [trivial|]. cbn [map filter]. intros N. inversion_clear N as [|? ? N1 N2].
  destruct (f x); [|now apply IH]. cbn [map]. constructor; [|now apply IH]. intros I. apply N1.
  apply in_map_iff in I. destruct I as (y & E & I). apply in_map_iff. exists y. split; trivial. apply filter_In in I. apply I.
Qed.
Lemma Forall_filter {A} (P : A -> Prop) f l : Forall P l -> Forall P (filter f l).
Proof. rewrite !Forall_forall. intros H x I. apply H. apply filter_In in I. apply I. Qed.

Lemma drop_ok st dev p : profiles_ok st -> profiles_ok (drop_entry dev p st).
Proof.
  intros (F & N & C). split; [now apply Forall_filter|]. split; [now apply NoDup_map_filter|].
  intros d. specialize (C d). unfold of_dev, drop_entry, size in *. rewrite filter_comm.
  pose proof (filter_length_le (fun e => negb (at_key dev p e)) (filter (fun e => pe_dev e =? d) st)). lia.
Qed.
Lemma put_ok st dev p on : profiles_ok st -> is_u7 dev -> profile_ok p ->
  (status_of st dev p <> None \/ size (of_dev dev st) < 16383) -> profiles_ok (put_entry dev p on st).
Proof.
  intros O D P H. pose proof (drop_ok st dev p O) as (F' & N' & C'). destruct O as (F & N & C). unfold put_entry. split.
  - constructor; auto.
  - split.
    + cbn [map pe_dev pe_id]. constructor; trivial. intros I. apply in_map_iff in I. destruct I as (e & E & I).
      unfold drop_entry in I. apply filter_In in I. destruct I as [_ K]. injection E as E1 E2.
      rewrite (proj2 (key_iff dev p e)) in K by auto. discriminate.
    + intros d. specialize (C' d). unfold of_dev, size in *. cbn [filter pe_dev].
      destruct (Z.eqb_spec dev d) as [<-|E]; [|exact C']. cbn [length]. specialize (C dev).
      unfold drop_entry in *. rewrite filter_comm in *.
      destruct H as [H|H].
      * destruct (status_of st dev p) as [b|] eqn:S1; [|now elim H]. apply status_In in S1.
        pose proof (filter_length_lt (fun e => negb (at_key dev p e)) (filter (fun e => pe_dev e =? dev) st) (mkEntry dev p b)) as L.
        specialize (L ltac:(apply filter_In; cbn; now rewrite Z.eqb_refl)). cbv beta in L. rewrite key_same in L. specialize (L eq_refl). lia.
      * pose proof (filter_length_le (fun e => negb (at_key dev p e)) (filter (fun e => pe_dev e =? dev) st)). lia.
Qed.
Lemma known_ok st dev p : profiles_ok st -> status_of st dev p <> None -> is_u7 dev /\ profile_ok p.
Proof.
  intros (F & _) H. destruct (status_of st dev p) as [b|] eqn:S1; [|now elim H]. apply status_In in S1.
  rewrite Forall_forall in F. apply (F _ S1).
Qed.
Lemma listed_ok dev on st : profiles_ok st -> Forall profile_ok (listed dev on st) /\ size (listed dev on st) <= 16383.
Proof.
  intros (F & N & C). split.
  - rewrite Forall_forall. intros p I. apply listed_In in I. rewrite Forall_forall in F. apply (F _ I).
  - specialize (C dev). unfold listed, size in *. rewrite map_length.
    pose proof (filter_length_le (fun e => eqb (pe_on e) on) (of_dev dev st)). lia.
Qed.

(* ---- messages -------------------------------------------------------------------------------- *)

Definition is_ci (s : sysex) : bool := (sx_id s =? 0x7E0000) && (12 <=? size (sx_data s)) && (nth 1 (sx_data s) 0 =? 0x0D).
Lemma is_ci_eq s : is_capability_inquiry_message s = Ok (is_ci s).
Proof.
  unfold is_capability_inquiry_message, at_is, is_ci. change universal_non_realtime with 0x7E0000.
  destruct (sx_id s =? 0x7E0000); [|reflexivity]. cbn [and_ andb].
  destruct (12 <=? size (sx_data s)) eqn:L; [|reflexivity]. cbn [and_ andb]. now rewrite (at_nth _ _ 0) by lia.
Qed.
Lemma is_ci_size s : is_ci s = true -> 12 <= size (sx_data s).
Proof. unfold is_ci. rewrite !andb_true_iff, Z.leb_le. tauto. Qed.

Lemma for_me_eq me s : all7 (sx_data s) ->
  for_me me s = Ok (if is_ci s && negb (muid_at 4 s =? me) && ((muid_at 8 s =? me) || (muid_at 8 s =? broadcast_muid))
                    then Some (muid_at 4 s) else None) /\
  (is_ci s = true -> is_u28 (muid_at 4 s)).
Proof.
  intros A. unfold for_me. rewrite is_ci_eq. cbn [bind]. destruct (is_ci s) eqn:C; cbn [negb andb]; [|split; [reflexivity|discriminate]].
  apply is_ci_size in C. change (source_muid s) with (make_uint28 s 4). change (destination_muid s) with (make_uint28 s 8).
  destruct (muid_eq s 4 A) as [E4 U4]; [lia|]. destruct (muid_eq s 8 A) as [E8 U8]; [lia|]. rewrite E4, E8. cbn [bind].
  split; [|trivial]. destruct (muid_at 4 s =? me); [reflexivity|]. cbn [negb orb andb]. now destruct (_ || _).
Qed.
Lemma for_me_wire me c : in_range c -> let '(dev, st, v, src, dst) := header_of c in
  header_fields c (wire_of c) -> src <> me -> dst = me \/ dst = broadcast_muid -> for_me me (wire_of c) = Ok (Some src).
Proof.
  intros R. unfold header_fields. destruct (header_of c) as [[[[dev st] v] src] dst].
  intros (H1 & _ & _ & _ & _ & _ & _ & _ & H2 & H3) N D. unfold for_me. rewrite H1. cbn [bind negb]. rewrite H2, H3. cbn [bind].
  replace (src =? me) with false by lia. cbn [orb].
  replace ((dst =? me) || (dst =? broadcast_muid)) with true by lia. reflexivity.
Qed.

Lemma follow_other dbg me device m s : all7 (sx_data s) -> from device s = false -> follow dbg me device m s = Ok m.
Proof.
  intros A F. unfold follow. rewrite (proj1 (for_me_eq me s A)). cbn [bind].
  change (from device s) with (is_ci s && (muid_at 4 s =? device)) in F.
  destruct (is_ci s); cbn [andb] in *; [|reflexivity].
  destruct (negb (muid_at 4 s =? me) && _); [|reflexivity]. rewrite F. reflexivity.
Qed.
Lemma follow_filter dbg me device ss : Forall (fun s => all7 (sx_data s)) ss ->
  forall m, follow_all dbg me device m ss = follow_all dbg me device m (filter (from device) ss).
Proof.
  induction 1 as [|s ss A _ IH]; intros m; [reflexivity|]. cbn [follow_all filter]. destruct (from device s) eqn:F.
  - cbn [follow_all]. destruct (follow dbg me device m s); cbn [bind]; auto.
  - rewrite follow_other by trivial. cbn [bind]. apply IH.
Qed.
Lemma follow_app dbg me device ss1 ss2 m m1 : follow_all dbg me device m ss1 = Ok m1 ->
  follow_all dbg me device m (ss1 ++ ss2) = follow_all dbg me device m1 ss2.
Proof.
  revert m. induction ss1 as [|s ss1 IH]; intros m E; [now injection E as <-|]. cbn [follow_all app] in *.
  destruct (follow dbg me device m s); cbn [bind] in *; [now apply IH|discriminate].
Qed.

Ltac pranges := unfold in_range; cbn [raw_bytes numbers7 numbers14 numbers28 muids identity_of sizes14 sizes28 chunk_numbering proper_subtype app];
  unfold all7, muid_ok, broadcast_muid, profile_ok, profile_bytes in *; cbn [map app pd_scope pd_channels] in *; repeat apply conj;
  repeat (apply Forall_cons; [first [assumption | unfold is_u7, is_u14, is_u28 in *; lia]|]); try apply Forall_nil; trivial.

Lemma reply_range device dst dev st : muid_ok device -> is_u28 dst -> is_u7 dev -> profiles_ok st ->
  in_range (CProfileInquiryReply device dst (listed dev true st) (listed dev false st) dev).
Proof.
  intros M D V O. destruct (listed_ok dev true st O) as [T1 T2]. destruct (listed_ok dev false st O) as [F1 F2].
  pranges; try lia. apply Forall_forall. intros b B. apply in_concat in B. destruct B as (l & L & B). apply in_map_iff in L.
  destruct L as (p & <- & I). apply in_app_iff in I. rewrite Forall_forall in T1, F1.
  assert (P : Forall is_u7 (profile_bytes p)) by (destruct I as [I|I]; [apply (T1 _ I)|apply (F1 _ I)]).
  rewrite Forall_forall in P. now apply P.
Qed.

Ltac open_trip c R :=
  let s := fresh "s" in let B := fresh "B" in let E := fresh "E" in
  destruct (round_trip_ok true c R I) as (s & B & E & H & A & F); subst s; clear B.

Lemma follow_reply dbg me device m dst dev st : muid_ok me -> muid_ok device -> me <> device -> is_u28 dst -> is_u7 dev -> profiles_ok st ->
  let s := wire_of (CProfileInquiryReply device dst (listed dev true st) (listed dev false st) dev) in
  all7 (sx_data s) /\ from device s = true /\
  follow dbg me device m s =
    Ok (if (dst =? me) || (dst =? broadcast_muid) then
          map (fun p => mkEntry dev p true) (listed dev true st) ++ map (fun p => mkEntry dev p false) (listed dev false st) ++
          filter (fun x => negb (pe_dev x =? dev)) m
        else m).
Proof.
  intros M N X D V O. pose proof (reply_range device dst dev st N D V O) as R. cbv zeta.
  destruct (round_trip_ok dbg _ R I) as (s & B & E & H & A & F). rewrite <- E in *.
  pose proof (wire_seven _ R) as S7. rewrite <- E in S7.
  unfold header_fields, header_of in H. destruct H as (H1 & _ & _ & H4 & _ & _ & _ & _ & H2 & H3).
  rewrite is_ci_eq in H1. assert (C : is_ci s = true) by now injection H1. clear H1.
  change (source_muid s) with (make_uint28 s 4) in H2. change (destination_muid s) with (make_uint28 s 8) in H3.
  pose proof (is_ci_size s C) as L. destruct (muid_eq s 4 S7) as [E4 _]; [lia|]. destruct (muid_eq s 8 S7) as [E8 _]; [lia|].
  rewrite H2 in E4. rewrite H3 in E8. injection E4 as E4. injection E8 as E8.
  split; [exact S7|]. split.
  { change (from device s) with (is_ci s && (muid_at 4 s =? device)). rewrite C, <- E4, Z.eqb_refl. reflexivity. }
  unfold follow. rewrite (proj1 (for_me_eq me s S7)), C, <- E4, <- E8. cbn [bind andb].
  replace (device =? me) with false by lia. cbn [negb andb].
  destruct ((dst =? me) || (dst =? broadcast_muid)); [|reflexivity]. rewrite Z.eqb_refl. cbn [negb].
  pose proof (view_of dbg KProfileInquiryReply s _ S7 A) as W.
  change (as_view dbg (validate_of KProfileInquiryReply) s = Ok (Some s)) in W.
  change profile_inquiry_reply_validate with (validate_of KProfileInquiryReply). rewrite W. cbn [bind].
  destruct F as (_ & _ & _ & _ & F5 & F6). rewrite H4, F5, F6. reflexivity.
Qed.

(* the four reports *)
Inductive report_kind : Set := RkEnabled (channels : Z) | RkDisabled (channels : Z) | RkAdded | RkRemoved.
Definition report_call (device : Z) (k : report_kind) (dev : Z) (p : profile_id) : ci_call :=
  match k with
  | RkEnabled n => CProfileEnabled device broadcast_muid p (mkDest dev n)
  | RkDisabled n => CProfileDisabled device broadcast_muid p (mkDest dev n)
  | RkAdded => CProfileAdded device broadcast_muid p dev
  | RkRemoved => CProfileRemoved device broadcast_muid p dev
  end.
Definition report_effect (k : report_kind) (dev : Z) (p : profile_id) (m : list prof_entry) : list prof_entry :=
  match k with
  | RkEnabled _ => put_entry dev p true m
  | RkDisabled _ | RkAdded => put_entry dev p false m
  | RkRemoved => drop_entry dev p m
  end.
Definition report_ok (k : report_kind) : Prop := match k with RkEnabled n | RkDisabled n => is_u14 n | _ => True end.

Lemma report_range device k dev p : muid_ok device -> report_ok k -> is_u7 dev -> profile_ok p -> in_range (report_call device k dev p).
Proof. intros N K V P. destruct k; cbn [report_call report_ok] in *; pranges. Qed.

Lemma follow_report dbg me device m k dev p : muid_ok me -> muid_ok device -> me <> device -> report_ok k -> is_u7 dev -> profile_ok p ->
  let s := wire_of (report_call device k dev p) in
  all7 (sx_data s) /\ from device s = true /\ follow dbg me device m s = Ok (report_effect k dev p m).
Proof.
  intros M N X K V P. pose proof (report_range device k dev p N K V P) as R. cbv zeta.
  assert (FC : header_in_first_chunk (report_call device k dev p)) by (destruct k; exact I).
  destruct (round_trip_ok dbg _ R FC) as (s & B & E & H & A & F). rewrite <- E in *.
  pose proof (wire_seven _ R) as S7. rewrite <- E in S7.
  assert (G : is_capability_inquiry_message s = Ok true /\ source_muid s = Ok device /\ destination_muid s = Ok broadcast_muid /\
              view_device_id s = Ok dev /\ view_profile s = Ok p /\
              view_subtype s = Ok (match k with RkEnabled _ => 0x24 | RkDisabled _ => 0x25 | RkAdded => 0x26 | RkRemoved => 0x27 end) /\
              as_view dbg profile_inquiry_reply_validate s = Ok None /\ as_view dbg profile_id_validate s = Ok (Some s)).
  { pose proof (view_of dbg KProfileInquiryReply s _ S7 A) as W1. pose proof (view_of dbg KProfileId s _ S7 A) as W2.
    destruct k; unfold header_fields in H; cbn [report_call header_of pd_scope] in H;
      destruct H as (H1 & _ & _ & H4 & _ & H5 & _ & _ & H2 & H3); cbn [report_call fields_of] in F;
      repeat apply conj; try assumption; try exact W1; try exact W2; try exact F; try exact (proj1 F). }
  clear A F H B. destruct G as (H1 & H2 & H3 & H4 & H5 & H6 & W1 & W2).
  rewrite is_ci_eq in H1. assert (C : is_ci s = true) by now injection H1. clear H1.
  change (source_muid s) with (make_uint28 s 4) in H2. change (destination_muid s) with (make_uint28 s 8) in H3.
  pose proof (is_ci_size s C) as L. destruct (muid_eq s 4 S7) as [E4 _]; [lia|]. destruct (muid_eq s 8 S7) as [E8 _]; [lia|].
  rewrite H2 in E4. rewrite H3 in E8. injection E4 as E4. injection E8 as E8.
  split; [exact S7|]. split.
  { change (from device s) with (is_ci s && (muid_at 4 s =? device)). rewrite C, <- E4, Z.eqb_refl. reflexivity. }
  unfold follow. rewrite (proj1 (for_me_eq me s S7)), C, <- E4, <- E8. cbn [bind andb].
  replace (device =? me) with false by lia. rewrite (Z.eqb_refl broadcast_muid), orb_true_r. cbn [negb andb]. rewrite Z.eqb_refl. cbn [negb].
  rewrite W1. cbn [bind]. rewrite W2. cbn [bind]. rewrite H6, H5, H4. cbn [bind]. destruct k; reflexivity.
Qed.

Lemma keyb_iff dev p dev' p' : key_eqb dev p dev' p' = true <-> dev = dev' /\ p = p'.
Proof. unfold key_eqb. now rewrite andb_true_iff, Z.eqb_eq, same_iff. Qed.
Lemma keyb_same dev p : key_eqb dev p dev p = true.
Proof. now apply keyb_iff. Qed.

(* ---- one step of the device --------------------------------------------------------------------- *)

(* what the controller makes of the output *)
Definition tracked (dbg : bool) (me device : Z) (st st' : list prof_entry) (outs : list sysex) : Prop :=
  Forall (fun s => all7 (sx_data s) /\ from device s = true) outs /\
  forall m, exists m', follow_all dbg me device m outs = Ok m' /\
    forall dev, (forall p, status_of m dev p = status_of st dev p) -> forall p, status_of m' dev p = status_of st' dev p.

Lemma tracked_nothing dbg me device st : tracked dbg me device st st [].
Proof. split; [constructor|]. intros m. exists m. split; [reflexivity|]. auto. Qed.
Lemma tracked_report dbg me device st k dev p : muid_ok me -> muid_ok device -> me <> device -> report_ok k -> is_u7 dev -> profile_ok p ->
  tracked dbg me device st (report_effect k dev p st) [wire_of (report_call device k dev p)].
Proof.
  intros M N X K V P. destruct (follow_report dbg me device st k dev p M N X K V P) as (A & B & _). split; [apply Forall_cons; [split; assumption|apply Forall_nil]|].
  intros m. destruct (follow_report dbg me device m k dev p M N X K V P) as (_ & _ & C).
  exists (report_effect k dev p m). split; [cbn [follow_all]; rewrite C; reflexivity|].
  intros d H q. destruct k; cbn [report_effect]; rewrite ?status_put, ?status_drop; destruct (key_eqb _ _ _ _); trivial.
Qed.
Lemma tracked_reply dbg me device st dst dev : muid_ok me -> muid_ok device -> me <> device -> is_u28 dst -> is_u7 dev -> profiles_ok st ->
  tracked dbg me device st st [wire_of (CProfileInquiryReply device dst (listed dev true st) (listed dev false st) dev)].
Proof.
  intros M N X D V O. destruct (follow_reply dbg me device [] dst dev st M N X D V O) as (A & B & _). split; [apply Forall_cons; [split; assumption|apply Forall_nil]|].
  intros m. destruct (follow_reply dbg me device m dst dev st M N X D V O) as (_ & _ & C).
  eexists. split; [cbn [follow_all]; rewrite C; reflexivity|].
  intros d H q. destruct (_ || _); [|apply H]. rewrite status_reply by apply O. destruct (Z.eqb_spec dev d); trivial.
Qed.

Lemma serve_tracked dbg me device st i : muid_ok me -> muid_ok device -> me <> device -> profiles_ok st -> input_ok i ->
  exists st' outs, serve dbg device st i = Ok (st', outs) /\ profiles_ok st' /\ tracked dbg me device st st' outs.
Proof.
  intros M N X O IO. destruct i as [s|dev p|dev p]; cbn [serve input_ok] in *.
  - unfold serve_message. destruct (for_me_eq device s IO) as [FM U]. rewrite FM. cbn [bind].
    destruct (is_ci s) eqn:C; cbn [andb].
    2: { exists st, []. split; [reflexivity|]. split; [exact O|apply tracked_nothing]. }
    destruct (negb (muid_at 4 s =? device) && _).
    2: { exists st, []. split; [reflexivity|]. split; [exact O|apply tracked_nothing]. }
    specialize (U eq_refl). pose proof (is_ci_size s C) as L.
    assert (D7 : exists dev, view_device_id s = Ok dev /\ is_u7 dev).
    { exists (nth 0 (sx_data s) 0). split; [apply at_nth; lia|]. unfold all7 in IO. rewrite Forall_forall in IO. apply IO.
      apply nth_In. unfold size in L. lia. }
    destruct D7 as (dev & D1 & D2).
    destruct (validate_total KProfileInquiry s eq_refl) as (b & V1).
    change profile_inquiry_validate with (validate_of KProfileInquiry). rewrite (as_view_ok dbg _ s _ (u7s _ IO) V1). cbn [bind].
    destruct b.
    { rewrite D1. cbn [bind]. pose proof (reply_range device (muid_at 4 s) dev st N U D2 O) as R.
      pose proof (ci_built dbg _ R) as BD. cbn [build] in BD. rewrite BD. cbn [bind].
      eexists st, _. split; [reflexivity|]. split; [exact O|now apply tracked_reply]. }
    destruct (validate_total KProfileDestination s eq_refl) as (b & V2).
    change profile_destination_validate with (validate_of KProfileDestination). rewrite (as_view_ok dbg _ s _ (u7s _ IO) V2). cbn [bind].
    destruct b.
    2: { exists st, []. split; [reflexivity|]. split; [exact O|apply tracked_nothing]. }
    destruct (accepted_safe dbg KProfileDestination s V2) as [(_ & _ & (t & R1) & _) RA].
    pose proof V2 as V3. cbn [validate_of] in V3. apply range_size in V3.
    assert (RP : exists p, view_profile s = Ok p) by (cbn [accessors] in RA; destruct RA as (Q & _); exact Q).
    destruct RP as (p & R2).
    assert (N14 : exists n, view_num_channels s = Ok n /\ is_u14 n).
    { assert (19 <= size (sx_data s)) as L19 by lia. unfold view_num_channels, size in *.
      destruct (nth_error (sx_data s) 17) as [a|] eqn:E1; [|apply nth_error_None in E1; lia].
      destruct (nth_error (sx_data s) 18) as [c|] eqn:E2; [|apply nth_error_None in E2; lia].
      rewrite (make14_nth s 17 a c E1 E2). unfold all7 in IO. rewrite Forall_forall in IO.
      pose proof (IO _ (nth_error_In _ _ E1)) as Q1. pose proof (IO _ (nth_error_In _ _ E2)) as Q2.
      exists (a + 128 * c). rewrite join2 by trivial. unfold is_u7, is_u14 in *. split; [reflexivity|lia]. }
    destruct N14 as (n & N1 & N2).
    unfold view_destination. rewrite R1, R2, D1, N1. cbn [bind pd_scope].
    destruct (status_of st dev p) as [b|] eqn:S1.
    2: { exists st, []. split; [reflexivity|]. split; [exact O|apply tracked_nothing]. }
    assert (KN : status_of st dev p <> None) by congruence. destruct (known_ok st dev p O KN) as [_ P7].
    destruct (t =? 0x22).
    { pose proof (ci_built dbg _ (report_range device (RkEnabled n) dev p N N2 D2 P7)) as BD. cbn [build report_call] in BD.
      rewrite BD. cbn [bind]. eexists _, _. split; [reflexivity|]. split; [apply put_ok; auto|].
      exact (tracked_report dbg me device st (RkEnabled n) dev p M N X N2 D2 P7). }
    destruct (t =? 0x23).
    { pose proof (ci_built dbg _ (report_range device (RkDisabled n) dev p N N2 D2 P7)) as BD. cbn [build report_call] in BD.
      rewrite BD. cbn [bind]. eexists _, _. split; [reflexivity|]. split; [apply put_ok; auto|].
      exact (tracked_report dbg me device st (RkDisabled n) dev p M N X N2 D2 P7). }
    exists st, []. split; [reflexivity|]. split; [exact O|apply tracked_nothing].
  - destruct IO as [D2 P7]. destruct (status_of st dev p) as [b|] eqn:S1.
    { exists st, []. split; [reflexivity|]. split; [exact O|apply tracked_nothing]. }
    destruct (Z.leb_spec 16383 (size (of_dev dev st))) as [Q|Q].
    { exists st, []. split; [reflexivity|]. split; [exact O|apply tracked_nothing]. }
    pose proof (ci_built dbg _ (report_range device RkAdded dev p N I D2 P7)) as BD. cbn [build report_call] in BD.
    rewrite BD. cbn [bind]. eexists _, _. split; [reflexivity|]. split; [apply put_ok; auto|].
    exact (tracked_report dbg me device st RkAdded dev p M N X I D2 P7).
  - destruct IO as [D2 P7]. destruct (status_of st dev p) as [b|] eqn:S1.
    2: { exists st, []. split; [reflexivity|]. split; [exact O|apply tracked_nothing]. }
    pose proof (ci_built dbg _ (report_range device RkRemoved dev p N I D2 P7)) as BD. cbn [build report_call] in BD.
    rewrite BD. cbn [bind]. eexists _, _. split; [reflexivity|]. split; [now apply drop_ok|].
    exact (tracked_report dbg me device st RkRemoved dev p M N X I D2 P7).
Qed.

(* ---- messages of the controller ----------------------------------------------------------------- *)

Lemma serve_inquiry dbg me device st dev q : muid_ok me -> muid_ok device -> me <> device -> profiles_ok st -> is_u7 dev ->
  make_profile_inquiry_message dbg me device dev = Ok q ->
  serve dbg device st (InMessage q) = Ok (st, [wire_of (CProfileInquiryReply device me (listed dev true st) (listed dev false st) dev)]).
Proof.
  intros M N X O V Q. assert (R : in_range (CProfileInquiry me device dev)) by pranges.
  destruct (round_trip_ok dbg _ R I) as (s & B & E & H & A & F). cbn [build] in B. rewrite B in Q. injection Q as ->.
  pose proof (for_me_wire device _ R) as FM. cbn [header_of] in FM. rewrite <- E in FM. specialize (FM H X (or_introl eq_refl)).
  pose proof (wire_seven _ R) as S7. rewrite <- E in S7.
  cbn [serve]. unfold serve_message. rewrite FM. cbn [bind].
  pose proof (view_of dbg KProfileInquiry q _ S7 A) as W. change (as_view dbg (validate_of KProfileInquiry) q = Ok (Some q)) in W.
  change profile_inquiry_validate with (validate_of KProfileInquiry). rewrite W. cbn [bind].
  unfold header_fields in H. cbn [header_of] in H. destruct H as (_ & _ & _ & H4 & _). rewrite H4. cbn [bind].
  assert (U : is_u28 me) by (unfold muid_ok, is_u28 in *; lia).
  pose proof (ci_built dbg _ (reply_range device me dev st N U V O)) as BD. cbn [build] in BD. rewrite BD. reflexivity.
Qed.

Definition request (dbg on : bool) (src dst : Z) (p : profile_id) (d : profile_destination) : res sysex :=
  if on then make_profile_on_request dbg src dst p d else make_profile_off_request dbg src dst p d.
Lemma serve_request dbg on me device st p d : muid_ok me -> muid_ok device -> me <> device -> profiles_ok st ->
  is_u7 (pd_scope d) -> is_u14 (pd_channels d) -> profile_ok p ->
  exists q, request dbg on me device p d = Ok q /\ Forall is_u7 (sx_data q) /\
    exists outs, serve dbg device st (InMessage q) =
      Ok (match status_of st (pd_scope d) p with None => st | Some _ => put_entry (pd_scope d) p on st end, outs).
Proof.
  intros M N X O V1 V2 P. set (c := if on then CProfileOn me device p d else CProfileOff me device p d).
  assert (R : in_range c) by (subst c; destruct on; pranges).
  assert (FC : header_in_first_chunk c) by (subst c; destruct on; exact I).
  destruct (round_trip_ok dbg _ R FC) as (q & B & E & H & A & F).
  pose proof (wire_seven _ R) as S7. rewrite <- E in S7.
  exists q. split. { rewrite <- B. subst c. destruct on; reflexivity. } split; [exact S7|].
  assert (FM : for_me device q = Ok (Some me)).
  { pose proof (for_me_wire device _ R) as FM. rewrite <- E in FM. subst c.
    destruct on; cbn [header_of] in FM; exact (FM H X (or_introl eq_refl)). }
  cbn [serve]. unfold serve_message. rewrite FM. cbn [bind].
  assert (W1 : as_view dbg profile_inquiry_validate q = Ok None).
  { pose proof (view_of dbg KProfileInquiry q _ S7 A) as W. subst c. destruct on; exact W. }
  assert (W2 : as_view dbg profile_destination_validate q = Ok (Some q)).
  { pose proof (view_of dbg KProfileDestination q _ S7 A) as W. subst c. destruct on; exact W. }
  rewrite W1. cbn [bind]. rewrite W2. cbn [bind].
  set (n := if on then pd_channels d else 0).
  assert (G : view_subtype q = Ok (if on then 0x22 else 0x23) /\ view_device_id q = Ok (pd_scope d) /\ view_profile q = Ok p /\
              view_num_channels q = Ok n).
  { subst c n. destruct on; unfold header_fields in H; cbn [header_of] in H; destruct H as (_ & _ & _ & H4 & _ & H5 & _);
      cbn [fields_of] in F; destruct F as (F1 & F2 & F3); repeat apply conj; assumption. }
  destruct G as (G1 & G2 & G3 & G4). unfold view_destination. rewrite G1, G3, G2, G4. cbn [bind pd_scope].
  destruct (status_of st (pd_scope d) p) as [b|]; [|eexists; reflexivity].
  assert (N14 : is_u14 n) by (subst n; destruct on; [exact V2|unfold is_u14; lia]).
  destruct on; cbn [Z.eqb Pos.eqb].
  - pose proof (ci_built dbg _ (report_range device (RkEnabled n) (pd_scope d) p N N14 V1 P)) as BD. cbn [build report_call] in BD.
    rewrite BD. eexists; reflexivity.
  - pose proof (ci_built dbg _ (report_range device (RkDisabled n) (pd_scope d) p N N14 V1 P)) as BD. cbn [build report_call] in BD.
    rewrite BD. eexists; reflexivity.
Qed.

(* ---- any history -------------------------------------------------------------------------------- *)

Lemma serve_history dbg me device is : muid_ok me -> muid_ok device -> me <> device -> Forall input_ok is ->
  forall st, profiles_ok st -> exists st' outs,
    serve_all dbg device st is = Ok (st', outs) /\ profiles_ok st' /\
    Forall (fun s => all7 (sx_data s) /\ from device s = true) outs /\
    forall m, exists m', follow_all dbg me device m outs = Ok m' /\
      forall dev, is_u7 dev ->
        (forall p, status_of m dev p = status_of st dev p) \/
        (exists q, make_profile_inquiry_message dbg me device dev = Ok q /\ In (InMessage q) is) ->
        forall p, status_of m' dev p = status_of st' dev p.
Proof.
  intros M N X I. induction I as [|i is I1 I2 IH]; intros st O.
  { exists st, []. split; [reflexivity|]. split; [exact O|]. split; [constructor|]. intros m. exists m. split; [reflexivity|]. intros dev V [H|(q & _ & [])]. exact H. }
  destruct (serve_tracked dbg me device st i M N X O I1) as (st1 & o1 & S1 & O1 & T1 & T2).
  destruct (IH st1 O1) as (st2 & o2 & S2 & O2 & T3 & T4).
  exists st2, (o1 ++ o2). split. { cbn [serve_all]. rewrite S1. cbn [bind fst snd]. rewrite S2. reflexivity. }
  split; [exact O2|]. split; [now apply Forall_app|]. intros m.
  destruct (T2 m) as (m1 & F1 & E1). destruct (T4 m1) as (m2 & F2 & E2).
  exists m2. split. { rewrite (follow_app _ _ _ _ _ _ _ F1). exact F2. }
  intros dev V C. apply E2; [exact V|].
  destruct C as [H|(q & Q & [->|C])].
  - left. now apply E1.
  - left. rewrite (serve_inquiry dbg me device st dev q M N X O V Q) in S1. injection S1 as <- <-.
    assert (U : is_u28 me) by (unfold muid_ok, is_u28 in *; lia).
    destruct (follow_reply dbg me device m me dev st M N X U V O) as (_ & _ & F). cbn [follow_all] in F1. rewrite F in F1.
    cbn [bind] in F1. rewrite Z.eqb_refl in F1. cbn [orb] in F1. injection F1 as <-.
    intros p. rewrite status_reply by apply O. now rewrite Z.eqb_refl.
  - right. exists q. auto.
Qed.

(* ---- bytes that are not 7-bit -------------------------------------------------------------------- *)

Lemma for_me_total me s : exists o, for_me me s = Ok o.
Proof.
  unfold for_me. rewrite is_ci_eq. cbn [bind]. destruct (is_ci s) eqn:C; cbn [negb]; [|eexists; reflexivity].
  pose proof (is_ci_size s C) as L. unfold source_muid, destination_muid.
  destruct (make28_total s 4) as (a & A & _); [lia|]. destruct (make28_total s 8) as (b & B & _); [lia|].
  rewrite A, B. cbn [bind]. eexists; reflexivity.
Qed.
Lemma follow_total dbg me device m s : Forall is_u8 (sx_data s) -> exists m', follow dbg me device m s = Ok m'.
Proof.
  intros U. unfold follow. destruct (for_me_total me s) as (o & ->). cbn [bind]. destruct o as [src|]; [|eexists; reflexivity].
  destruct (negb (src =? device)); [eexists; reflexivity|].
  destruct (validate_total KProfileInquiryReply s eq_refl) as (b & V1).
  change profile_inquiry_reply_validate with (validate_of KProfileInquiryReply). rewrite (as_view_ok dbg _ s _ U V1). cbn [bind].
  destruct b.
  { destruct (accepted_safe dbg KProfileInquiryReply s V1) as [((d & R1) & _) RA]. cbn [accessors] in RA.
    destruct RA as (_ & _ & _ & _ & (e1 & R2) & (e2 & R3)). rewrite R1, R2, R3. cbn [bind]. eexists; reflexivity. }
  destruct (validate_total KProfileId s eq_refl) as (b & V2).
  change profile_id_validate with (validate_of KProfileId). rewrite (as_view_ok dbg _ s _ U V2). cbn [bind].
  destruct b; [|eexists; reflexivity].
  destruct (accepted_safe dbg KProfileId s V2) as [((d & R1) & _ & (t & R2) & _) (p & R3)].
  rewrite R1, R2, R3. cbn [bind]. eexists; reflexivity.
Qed.
Lemma follow_all_total dbg me device ss : Forall (fun s => Forall is_u8 (sx_data s)) ss ->
  forall m, exists m', follow_all dbg me device m ss = Ok m'.
Proof.
  induction 1 as [|s ss U _ IH]; intros m; [eexists; reflexivity|]. cbn [follow_all].
  destruct (follow_total dbg me device m s U) as (m1 & ->). apply IH.
Qed.
