(* Property C106: MIDI-CI devices that chose the same MUID come apart *)
From Coq Require Import ZArith List Bool Lia.
From Verif Require Import Base Sysex UniversalSysex SysexSpec CapInq CapSpec CapCalls CiNet CiNetSpec Muids MuidsSpec MuidsProofs.
Import ListNotations.
Local Open Scope Z_scope.
Local Open Scope res_scope.
Local Open Scope list_scope.

(* Nothing fails, and apart from the MUID every device remains what it is. *)
Theorem C106_safe : forall dbg ids dev choose es, choices_ok dev choose -> Forall (event_ok ids) es ->
  exists n, history dbg ids choose (silent_net dev) es = Ok n /\ forall i, same_but_muid (dev i) (nd_device (nt_node n i)).
Proof.
  intros dbg ids dev choose es OK V. destruct (refine_all dbg ids dev choose OK es _ _ (refine_silent dev choose) V) as (n & E & _).
  exists n. split; [exact E|]. exact (kept dbg ids dev choose OK es n V E).
Qed.
Print Assumptions C106_safe.

(* Whatever MUIDs are chosen: once no messages are on the way, any two devices that have asked have different ones. *)
Theorem C106_different : forall dbg ids dev choose es n i j, choices_ok dev choose -> Forall (event_ok ids) es ->
  history dbg ids choose (silent_net dev) es = Ok n -> settled ids n ->
  In i ids -> In j ids -> i <> j -> In (EvAsk i) es -> In (EvAsk j) es -> muid_of n i <> muid_of n j.
Proof. intros dbg ids dev choose es n i j OK. exact (different dbg ids dev choose OK es n i j). Qed.
Print Assumptions C106_different.

(* If the MUID a device chooses when it has to choose again is chosen by nobody else, each knows every device that has asked
   by its MUID, and nobody who is not there. *)
Theorem C106_known : forall dbg ids dev choose es n, choices_ok dev choose -> fresh ids dev choose -> Forall (event_ok ids) es ->
  history dbg ids choose (silent_net dev) es = Ok n -> settled ids n ->
  forall i, In i ids ->
  (forall j, In j ids -> j <> i -> In (EvAsk j) es -> knows n i (muid_of n j) = Some (peer_of (nd_device (nt_node n j)))) /\
  (forall m p, knows n i m = Some p -> exists j, In j ids /\ j <> i /\ m = muid_of n j /\ p = peer_of (nd_device (nt_node n j))).
Proof. intros dbg ids dev choose es n OK. exact (everybody_known dbg ids dev choose OK es n). Qed.
Print Assumptions C106_known.

(* Then each chooses again at most once, and the exchange of messages ends, in whatever order they arrive. *)
Theorem C106_ends : forall dbg ids dev choose es n, choices_ok dev choose -> NoDup ids -> fresh ids dev choose -> Forall (event_ok ids) es ->
  history dbg ids choose (silent_net dev) es = Ok n ->
  (exists bound, forall ds, Forall (event_ok ids) ds -> delivers dbg ids choose n ds -> (length ds <= bound)%nat) /\
  (exists ds n', Forall (event_ok ids) ds /\ delivers dbg ids choose n ds /\ history dbg ids choose n ds = Ok n' /\ settled ids n') /\
  (forall i, In i ids -> (nd_turn (nt_node n i) <= 1)%nat).
Proof. intros dbg ids dev choose es n OK. exact (ends dbg ids dev choose OK es n). Qed.
Print Assumptions C106_ends.

(* ---- three devices, two with the same MUID ---------------------------------------------------- *)

Definition c106_dev (m : Z) : ci_device := mkCiDevice m (mkDevId 0x002109 300 5 77) 0x1C 4096 0 0x7F.
Definition c106_devs (i : Z) : ci_device := c106_dev (if i =? 3 then 0x333 else 0x111).
Definition c106_choose (i : Z) (n : nat) : Z := 0x10000 + i mod 0x10000.
Definition c106_ids : list Z := [1; 2; 3].
(* the next message of each to each other arrives *)
Definition round (ids : list Z) : list event := flat_map (fun a => flat_map (fun b => if a =? b then [] else [EvArrive a b]) ids) ids.
Definition rounds (k : nat) (ids : list Z) : list event := concat (repeat (round ids) k).
(* a profile inquiry, and a message of another manufacturer that has the same bytes *)
Definition c106_inquiry (m : Z) : sysex :=
  mkSx 0x7E0000 [0x7F; 0x0D; 0x20; 2; m mod 128; m / 128 mod 128; m / 16384 mod 128; m / 2097152 mod 128; 0x7F; 0x7F; 0x7F; 0x7F].
Definition c106_noise (m : Z) : sysex := mkSx 0x7D0000 (sx_data (c106_inquiry m)).
Definition c106_says : list event := [EvSay 3 c106_inquiry; EvSay 1 c106_noise; EvSay 2 c106_inquiry].
Definition c106_es : list event := c106_says ++ EvAsk 1 :: EvArrive 1 3 :: EvAsk 2 :: EvAsk 3 :: rounds 8 c106_ids.
Lemma c106_says_ok : Forall (event_ok c106_ids) c106_says.
Proof.
  assert (B : forall m, all7 (sx_data (c106_inquiry m))).
  { intros m. unfold c106_inquiry. cbn [sx_data].
    assert (H : forall x, is_u7 (x mod 128)) by (intros x; unfold is_u7; pose proof (Z.mod_pos_bound x 128); lia).
    repeat (constructor; [first [apply H|unfold is_u7; lia]|]). constructor. }
  assert (Q : forall m, 0 <= m < 0x0FFFFFFF -> other_message m (c106_inquiry m)).
  { intros m M. split; [apply B|]. intros _. split; [|cbn; intuition discriminate]. unfold muid_at, c106_inquiry. cbn [sx_data skipn firstn val7].
    Z.div_mod_to_equations. lia. }
  assert (N : forall m, 0 <= m < 0x0FFFFFFF -> other_message m (c106_noise m)).
  { intros m _. split; [apply (B m)|]. discriminate. }
  repeat (constructor; [split; [cbn; auto|assumption]|]). constructor.
Qed.

Definition quiet (ids : list Z) (n : net) : bool :=
  forallb (fun a => forallb (fun b => (a =? b) || match nt_link n a b with [] => true | _ => false end) ids) ids.
(* whether messages are on the way, the MUIDs, and the MUIDs each knows *)
Definition view (ids : list Z) (r : res net) : option (bool * list Z * list (list Z)) :=
  match r with
  | Ok n => Some (quiet ids n, map (muid_of n) ids, map (fun i => map pr_muid (nd_known (nt_node n i))) ids)
  | Fault _ => None
  end.
Lemma quiet_settled ids n : quiet ids n = true -> settled ids n.
Proof.
  unfold quiet. rewrite forallb_forall. intros H a b A B N. specialize (H a A). rewrite forallb_forall in H. specialize (H b B).
  destruct (Z.eqb_spec a b); [contradiction|]. now destruct (nt_link n a b).
Qed.
Lemma c106_dev_ok m : 0 <= m < 0x0FFFFFFF -> device_ok (c106_dev m).
Proof. intros M. unfold device_ok, c106_dev, is_u7, is_u28. cbn. repeat apply conj; try lia.
  exists 0, 0x21, 9. unfold identity_in_range, is_u7, is_u14, is_u28. cbn. lia.
Qed.
Definition event_okb (ids : list Z) (e : event) : bool :=
  match e with EvAsk i => existsb (Z.eqb i) ids | EvSay _ _ => false | EvArrive a b => existsb (Z.eqb a) ids && existsb (Z.eqb b) ids && negb (a =? b) end.
Lemma events_ok ids es : forallb (event_okb ids) es = true -> Forall (event_ok ids) es.
Proof.
  intros H. apply Forall_forall. intros e I. rewrite forallb_forall in H. specialize (H e I).
  assert (X : forall i, existsb (Z.eqb i) ids = true -> In i ids) by (intros i E; apply existsb_exists in E as (j & J & E); apply Z.eqb_eq in E; now subst).
  destruct e as [i|i f|a b]; cbn [event_okb event_ok] in *; [auto|discriminate|]. apply andb_true_iff in H as [H N]. apply andb_true_iff in H as [A B].
  repeat split; auto. intros ->. now rewrite Z.eqb_refl in N.
Qed.

Example C106_ex : choices_ok c106_devs c106_choose /\ NoDup c106_ids /\ fresh c106_ids c106_devs c106_choose /\
  Forall (event_ok c106_ids) c106_es /\ muid_of (silent_net c106_devs) 1 = muid_of (silent_net c106_devs) 2 /\
  view c106_ids (history true c106_ids c106_choose (silent_net c106_devs) c106_es) =
    Some (true, [0x10001; 0x10002; 0x333], [[0x10002; 0x333]; [0x10001; 0x333]; [0x10002; 0x10001]]).
Proof.
  split; [|split; [|split; [|split; [|split]]]].
  - split; [intros i; apply c106_dev_ok; destruct (i =? 3); lia|]. intros i n. unfold c106_choose. pose proof (Z.mod_pos_bound i 0x10000). lia.
  - repeat constructor; cbn; lia.
  - split.
    + intros i j I J. unfold c106_choose, c106_devs, c106_dev. cbn [cd_muid]. pose proof (Z.mod_pos_bound i 0x10000). destruct (j =? 3); lia.
    + intros i j I J. cbn [c106_ids In] in I, J. unfold c106_choose. destruct I as [<-|[<-|[<-|[]]]], J as [<-|[<-|[<-|[]]]]; cbn; lia.
  - apply Forall_app. split; [exact c106_says_ok|]. apply events_ok. reflexivity.
  - reflexivity.
  - vm_compute. reflexivity.
Qed.

(* ---- a MUID that somebody else just gave up ------------------------------------------------------ *)

Definition c106_devs4 (i : Z) : ci_device := c106_dev (if i =? 3 then 0xB else if i =? 4 then 0x44 else 0xA).
Definition c106_choose4 (i : Z) (n : nat) : Z :=
  match n with O => if i =? 1 then 0xB else if i =? 3 then 0xA else 0xC | _ => 0xD end.
Definition c106_ids4 : list Z := [1; 2; 3; 4].
Definition c106_es4 : list event :=
  [EvAsk 3; EvAsk 4] ++ rounds 3 c106_ids4 ++
  [EvAsk 2; EvArrive 2 1] ++ repeat (EvArrive 1 2) 2 ++ repeat (EvArrive 2 3) 3 ++ repeat (EvArrive 2 4) 3 ++
  repeat (EvArrive 1 3) 2 ++ repeat (EvArrive 3 4) 4 ++ repeat (EvArrive 1 4) 3 ++ [EvAsk 1] ++ rounds 6 c106_ids4.

(* Otherwise a farewell that is late may be taken for one of the device that has the MUID now: it is not known although all have
   asked and everything has arrived. *)
Theorem C106_unknown_refuted : exists dbg ids dev choose es n i j, choices_ok dev choose /\ NoDup ids /\ Forall (event_ok ids) es /\
  history dbg ids choose (silent_net dev) es = Ok n /\ settled ids n /\ (forall k, In k ids -> In (EvAsk k) es) /\
  In i ids /\ In j ids /\ i <> j /\ knows n i (muid_of n j) = None.
Proof.
  assert (V : view c106_ids4 (history true c106_ids4 c106_choose4 (silent_net c106_devs4) c106_es4) =
    Some (true, [0xD; 0xC; 0xA; 0x44], [[0x44; 0xA; 0xC]; [0xD; 0xA; 0x44]; [0xD; 0xC; 0x44]; [0xD; 0xC]])) by (vm_compute; reflexivity).
  destruct (history true c106_ids4 c106_choose4 (silent_net c106_devs4) c106_es4) as [n|] eqn:E; [|discriminate V].
  cbn [view] in V. injection V as Q M1 M2 M3 M4 K1 K2 K3 K4.
  exists true, c106_ids4, c106_devs4, c106_choose4, c106_es4, n, 4, 3.
  split; [|split; [|split; [|split; [exact E|split; [now apply quiet_settled|split; [|split; [|split; [|split]]]]]]]].
  - split; [intros i; apply c106_dev_ok; destruct (i =? 3), (i =? 4); lia|]. intros i [|k]; cbn; [destruct (i =? 1), (i =? 3)|]; lia.
  - repeat constructor; cbn; lia.
  - apply events_ok. reflexivity.
  - intros k [<-|[<-|[<-|[<-|[]]]]].
    + change (In (EvAsk 1) c106_es4). unfold c106_es4. rewrite !in_app_iff. cbn [In]. tauto.
    + unfold c106_es4. rewrite !in_app_iff. cbn [In]. tauto.
    + unfold c106_es4. rewrite !in_app_iff. cbn [In]. tauto.
    + unfold c106_es4. rewrite !in_app_iff. cbn [In]. tauto.
  - cbn. tauto.
  - cbn. tauto.
  - lia.
  - rewrite M3. unfold knows. revert K4. generalize (nd_known (nt_node n 4)). intros l K4.
    destruct l as [|p [|q [|]]]; try discriminate K4. cbn [map] in K4. injection K4 as P1 P2. unfold look_up. cbn [find]. now rewrite P1, P2.
Qed.
Print Assumptions C106_unknown_refuted.
