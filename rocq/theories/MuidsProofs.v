(* Lemmas about devices that chose the same MUID. *)
From Coq Require Import ZArith List Bool Lia ZifyBool ZifyNat.
From Verif Require Import Base Bits Packet Messages Sysex UniversalSysex SysexSpec SysexProofs CapInq CapSpec CapProofs CapWire
  CapCalls CapMake CapRead CapReport CapReportProofs CiNet CiNetSpec CiNetProofs Muids MuidsSpec.
Import ListNotations.
Local Open Scope Z_scope.
Local Open Scope res_scope.
Local Open Scope list_scope.

(* ---- single messages ---------------------------------------------------------------------- *)

Lemma inquiry_collides a d : device_ok a -> collides d (inquiry_of a) = Ok (cd_muid a =? cd_muid d).
Proof.
  intros OA. pose proof (inquiry_range a OA) as R.
  destruct (round_trip_ok true _ R I) as (s & B & E & H & A & F).
  change (wire_of (inquiry_call a)) with (inquiry_of a) in E. rewrite <- E in *.
  unfold header_fields, inquiry_call, header_of in H. destruct H as (H1 & _ & _ & _ & _ & _ & _ & _ & H2 & H3).
  unfold collides. now rewrite H1, H2.
Qed.
Lemma answer_collides a m d : device_ok a -> is_u28 m -> collides d (answer_of a m) = Ok (cd_muid a =? cd_muid d).
Proof.
  intros OA M. pose proof (answer_range a m OA M) as R.
  destruct (round_trip_ok true _ R I) as (s & B & E & H & A & F).
  change (wire_of (answer_call a m)) with (answer_of a m) in E. rewrite <- E in *.
  unfold header_fields, answer_call, header_of in H. destruct H as (H1 & _ & _ & _ & _ & _ & _ & _ & H2 & H3).
  unfold collides. now rewrite H1, H2.
Qed.
Lemma farewell_collides a d : device_ok a -> collides d (farewell_of a) = Ok (cd_muid a =? cd_muid d).
Proof.
  intros OA. pose proof (farewell_range a OA) as R.
  destruct (round_trip_ok true _ R I) as (s & B & E & H & A & F).
  change (wire_of (farewell_call a)) with (farewell_of a) in E. rewrite <- E in *.
  unfold header_fields, farewell_call, header_of in H. destruct H as (H1 & _ & _ & _ & _ & _ & _ & _ & H2 & H3).
  unfold collides. now rewrite H1, H2.
Qed.
Lemma on_other_answer dbg a d m k : device_ok d -> 0 <= m < 0x0FFFFFFF -> cd_muid a <> cd_muid d -> cd_muid a <> m ->
  handle dbg a k (answer_of d m) = Ok (k, []).
Proof.
  intros OD M N N'. assert (M28 : is_u28 m) by (unfold is_u28; lia). pose proof (answer_range d m OD M28) as R.
  destruct (round_trip_ok dbg _ R I) as (s & B & E & H & A & F).
  change (wire_of (answer_call d m)) with (answer_of d m) in E. rewrite <- E in *.
  unfold header_fields, answer_call, header_of in H. destruct H as (H1 & _ & _ & _ & _ & _ & _ & _ & H2 & H3).
  unfold handle. rewrite H1. cbn [bind negb]. rewrite H2, H3. cbn [bind].
  replace (cd_muid d =? cd_muid a) with false by lia. replace (m =? cd_muid a) with false by lia.
  replace (m =? broadcast_muid) with false by (change broadcast_muid with 0x0FFFFFFF; lia). reflexivity.
Qed.

Lemma ci_eq s : is_capability_inquiry_message s = Ok (ci_message s).
Proof.
  unfold is_capability_inquiry_message, ci_message, at_is. change universal_non_realtime with 0x7E0000.
  destruct (sx_id s =? 0x7E0000); [|reflexivity]. cbn [and_ andb].
  destruct (12 <=? size (sx_data s)) eqn:L; [|reflexivity]. cbn [and_ andb]. now rewrite (at_nth _ _ 0) by lia.
Qed.
Lemma other_collides m d s : other_message m s -> collides d s = Ok (ci_message s && (m =? cd_muid d)).
Proof.
  intros (A & H). unfold collides. rewrite ci_eq. cbn [bind]. destruct (ci_message s) eqn:C; [|reflexivity]. destruct (H eq_refl) as [<- _].
  unfold ci_message in C. apply andb_true_iff in C as [C _]. apply andb_true_iff in C as [_ C]. apply Z.leb_le in C.
  change (source_muid s) with (make_uint28 s 4). destruct (muid_eq s 4 A) as [E _]; [lia|]. now rewrite E.
Qed.
Lemma on_other dbg m d k s : device_ok d -> other_message m s -> handle dbg d k s = Ok (k, []).
Proof.
  intros OD (A & H). destruct (ci_message s) eqn:C; [|unfold handle; rewrite ci_eq, C; reflexivity].
  destruct (H eq_refl) as [_ N]. cbn [In] in N. destruct (handle_cases dbg d s OD (u7s _ A)) as (t & rs & E & _ & P). destruct (P A) as [P1 ->].
  rewrite E. replace (asks d s) with false.
  - destruct t as [[x p]|]; [|reflexivity]. exfalso. specialize (P1 x p eq_refl). unfold concerns in P1.
    apply andb_true_iff in P1 as [_ P1]. apply orb_true_iff in P1 as [P1|P1]; apply andb_true_iff in P1 as [P1 _]; [apply orb_true_iff in P1 as [P1|P1]|];
      apply Z.eqb_eq in P1; apply N; rewrite P1; auto.
  - unfold asks. destruct (Z.eqb_spec (nth 2 (sx_data s) 0) 0x70) as [X|]; [exfalso; apply N; rewrite X; auto|].
    now rewrite !andb_false_r.
Qed.

(* ---- the same without bytes ------------------------------------------------------------------- *)

Section Net.
Context (dbg : bool) (ids : list Z) (dev : Z -> ci_device) (choose : Z -> nat -> Z) (OK : choices_ok dev choose).

(* device i after the t-th choice *)
Definition dev_at (i : Z) (t : nat) : ci_device := match t with O => dev i | S u => with_muid (dev i) (choose i u) end.
Definition mu (i : Z) (t : nat) : Z := cd_muid (dev_at i t).
Lemma dev_at_ok i t : device_ok (dev_at i t).
Proof.
  destruct OK as [O1 O2]. destruct t as [|t]; [apply O1|]. destruct (O1 i) as (_ & H). split; [apply O2|exact H].
Qed.
Lemma dev_at_next i t : with_muid (dev_at i t) (choose i t) = dev_at i (S t).
Proof. now destruct t. Qed.

Inductive amsg := MInq (t : nat) | MRep (t : nat) (m : Z) | MBye (t : nat) | MSay (t : nat) (s : sysex) | MNoise (s : sysex).
Definition turn_of (m : amsg) : nat := match m with MInq t | MRep t _ | MBye t | MSay t _ => t | MNoise _ => O end.
Definition conc (a : Z) (m : amsg) : sysex :=
  match m with MInq t => inquiry_of (dev_at a t) | MRep t x => answer_of (dev_at a t) x | MBye t => farewell_of (dev_at a t)
  | MSay _ s | MNoise s => s end.
Definition src (a : Z) (m : amsg) : Z := match m with MNoise _ => -1 | _ => mu a (turn_of m) end.
Lemma mu_pos a t : 0 <= mu a t.
Proof. apply (dev_at_ok a t). Qed.
Lemma src_mu a m b t : src a m = mu b t -> mu a (turn_of m) = mu b t.
Proof. intros E. assert (0 <= mu b t) by apply mu_pos. destruct m; cbn [src] in *; [exact E..|lia]. Qed.
Definition spoken_by (a : Z) (t : nat) (f : Z -> sysex) : amsg := let s := f (mu a t) in if ci_message s then MSay t s else MNoise s.
Definition amsg_ok (a : Z) (m : amsg) : Prop :=
  match m with
  | MRep _ x => 0 <= x < 0x0FFFFFFF
  | MSay t s => other_message (mu a t) s /\ ci_message s = true
  | MNoise s => all7 (sx_data s) /\ ci_message s = false
  | _ => True
  end.

Record anet := mkA { a_turn : Z -> nat; a_known : Z -> list ci_peer; a_link : Z -> Z -> list amsg }.

Definition learn (a b : Z) (tb : nat) (k : list ci_peer) (m : amsg) : list ci_peer :=
  match m with
  | MInq t => peer_of (dev_at a t) :: forget (mu a t) k
  | MRep t x => if x =? mu b tb then peer_of (dev_at a t) :: forget (mu a t) k else k
  | MBye t => forget (mu a t) k
  | _ => k
  end.
Definition respond (a b : Z) (tb : nat) (m : amsg) : list amsg := match m with MInq t => [MRep tb (mu a t)] | _ => [] end.
Definition aarrive (x : anet) (a b : Z) (m : amsg) (r : list amsg) : anet :=
  if src a m =? mu b (a_turn x b) then
    mkA (node_at (a_turn x) b (S (a_turn x b))) (a_known x)
        (broadcast ids b [MBye (a_turn x b); MInq (S (a_turn x b))] (link_at (a_link x) a b r))
  else
    mkA (a_turn x) (node_at (a_known x) b (learn a b (a_turn x b) (a_known x b) m))
        (broadcast ids b (respond a b (a_turn x b) m) (link_at (a_link x) a b r)).
Definition astep (x : anet) (e : event) : anet :=
  match e with
  | EvAsk i => mkA (a_turn x) (a_known x) (broadcast ids i [MInq (a_turn x i)] (a_link x))
  | EvSay i f => mkA (a_turn x) (a_known x) (broadcast ids i [spoken_by i (a_turn x i) f] (a_link x))
  | EvArrive a b => match a_link x a b with [] => x | m :: r => aarrive x a b m r end
  end.

Definition refines (n : net) (x : anet) : Prop :=
  (forall i, nt_node n i = mkNode (dev_at i (a_turn x i)) (a_known x i) (a_turn x i)) /\
  (forall a b, nt_link n a b = map (conc a) (a_link x a b)) /\
  forall a b, Forall (amsg_ok a) (a_link x a b).

Lemma map_broadcast i ms f g : (forall a b, g a b = map (conc a) (f a b)) ->
  forall a b, broadcast ids i (map (conc i) ms) g a b = map (conc a) (broadcast ids i ms f a b).
Proof.
  intros E a b. unfold broadcast. destruct (Z.eqb_spec a i) as [->|]; cbn [andb]; [|apply E].
  destruct (negb (b =? i) && existsb (Z.eqb b) ids); [rewrite map_app; now rewrite E|apply E].
Qed.
Lemma map_link_at f g a b r : (forall k l, g k l = map (conc k) (f k l)) ->
  forall k l, link_at g a b (map (conc a) r) k l = map (conc k) (link_at f a b r k l).
Proof.
  intros E k l. unfold link_at. destruct (Z.eqb_spec k a) as [->|]; cbn [andb]; [|apply E]. destruct (l =? b); [reflexivity|apply E].
Qed.
Lemma forall_broadcast (P : Z -> amsg -> Prop) i (ms : list amsg) f : Forall (P i) ms -> (forall a b, Forall (P a) (f a b)) -> forall a b, Forall (P a) (broadcast ids i ms f a b).
Proof.
  intros A B a b. unfold broadcast. destruct (Z.eqb_spec a i) as [->|]; cbn [andb]; [|apply B]. destruct (_ && _); [apply Forall_app|]; auto.
Qed.
Lemma forall_link_at (P : Z -> amsg -> Prop) a b r f : Forall (P a) r -> (forall a b, Forall (P a) (f a b)) -> forall k l, Forall (P k) (link_at f a b r k l).
Proof. intros A B k l. unfold link_at. destruct (Z.eqb_spec k a) as [->|]; cbn [andb]; [|apply B]. destruct (l =? b); auto. Qed.

Lemma collides_conc a m d : amsg_ok a m -> device_ok d -> collides d (conc a m) = Ok (src a m =? cd_muid d).
Proof.
  intros X (D & _). destruct m as [t|t x|t|t s|s]; cbn [conc amsg_ok] in *.
  - apply inquiry_collides, dev_at_ok.
  - apply answer_collides; [apply dev_at_ok|unfold is_u28; lia].
  - apply farewell_collides, dev_at_ok.
  - destruct X as [X E]. rewrite (other_collides _ d s X), E. reflexivity.
  - destruct X as [X E]. unfold collides. rewrite ci_eq, E. cbn [bind src]. f_equal. lia.
Qed.
Lemma handle_conc a b tb k m : amsg_ok a m -> src a m <> mu b tb ->
  handle dbg (dev_at b tb) k (conc a m) = Ok (learn a b tb k m, map (conc b) (respond a b tb m)).
Proof.
  intros X N. assert (OA := dev_at_ok a (turn_of m)). assert (OB := dev_at_ok b tb). destruct m as [t|t x|t|t s|s]; cbn [conc amsg_ok learn respond map turn_of] in *.
  - now apply on_inquiry.
  - destruct (Z.eqb_spec x (mu b tb)) as [->|N'].
    + apply on_answer; trivial. unfold src, mu in *. cbn [turn_of] in N. congruence.
    + apply on_other_answer; trivial; unfold src, mu in *; cbn [turn_of] in N; congruence.
  - apply on_farewell; trivial. unfold src, mu in *. cbn [turn_of] in N. congruence.
  - exact (on_other dbg _ _ k s OB (proj1 X)).
  - destruct X as [X E]. apply (on_other dbg 0 _ k s OB). split; [exact X|]. rewrite E. discriminate.
Qed.

Lemma refine_step n x e : refines n x -> event_ok ids e -> exists n', happen dbg ids choose n e = Ok n' /\ refines n' (astep x e).
Proof.
  intros (R1 & R2 & R3) V. destruct e as [i|i f|a b]; cbn [happen astep].
  - rewrite R1. cbn [nd_device]. rewrite (ask_eq dbg _ (dev_at_ok i _)). cbn [bind]. eexists. split; [reflexivity|].
    split; [exact R1|]. split; cbn [nt_link a_link].
    + exact (map_broadcast i [MInq (a_turn x i)] _ _ R2).
    + apply forall_broadcast; [repeat constructor|exact R3].
  - destruct V as [V1 V2]. assert (O := V2 _ (proj1 (dev_at_ok i (a_turn x i)))). fold (mu i (a_turn x i)) in O.
    rewrite R1. cbn [nd_device]. eexists. split; [reflexivity|]. fold (mu i (a_turn x i)).
    assert (E : f (mu i (a_turn x i)) = conc i (spoken_by i (a_turn x i) f)) by (unfold spoken_by; cbv zeta; now destruct (ci_message _)).
    split; [exact R1|]. split; cbn [nt_link a_link].
    + rewrite E. exact (map_broadcast i [spoken_by i (a_turn x i) f] _ _ R2).
    + apply forall_broadcast; [|exact R3]. constructor; [|constructor]. unfold spoken_by. cbv zeta.
      destruct (ci_message (f (mu i (a_turn x i)))) eqn:C; cbn [amsg_ok]; [auto|]. split; [apply O|exact C].
  - rewrite R2. assert (F := R3 a b). destruct (a_link x a b) as [|m r] eqn:L; cbn [map].
    { exists n. exact (conj eq_refl (conj R1 (conj R2 R3))). }
    apply Forall_cons_iff in F as [F1 F2]. unfold node_receive. rewrite R1. cbn [nd_device nd_known nd_turn].
    rewrite (collides_conc a m _ F1 (dev_at_ok _ _)). cbn [bind]. unfold aarrive. fold (mu b (a_turn x b)).
    destruct (Z.eqb_spec (src a m) (mu b (a_turn x b))) as [E|E].
    + rewrite (leave_eq dbg _ (dev_at_ok b _)), dev_at_next, (ask_eq dbg _ (dev_at_ok b _)). cbn [bind fst snd].
      eexists. split; [reflexivity|]. split; [|split]; cbn [nt_node nt_link a_turn a_known a_link].
      * intros i. unfold node_at. destruct (Z.eqb_spec i b) as [->|]; [reflexivity|apply R1].
      * exact (map_broadcast b [MBye (a_turn x b); MInq (S (a_turn x b))] _ _ (map_link_at _ _ a b r R2)).
      * apply forall_broadcast; [repeat constructor|]. now apply forall_link_at.
    + rewrite (handle_conc a b _ _ m F1 E). cbn [bind fst snd].
      eexists. split; [reflexivity|]. split; [|split]; cbn [nt_node nt_link a_turn a_known a_link].
      * intros i. unfold node_at. destruct (Z.eqb_spec i b) as [->|]; [reflexivity|apply R1].
      * exact (map_broadcast b _ _ _ (map_link_at _ _ a b r R2)).
      * apply forall_broadcast; [|now apply forall_link_at]. destruct m; cbn [respond]; repeat constructor; apply (dev_at_ok a t).
Qed.

Definition asteps (x : anet) (es : list event) : anet := fold_left astep es x.
Lemma refine_all : forall es n x, refines n x -> Forall (event_ok ids) es ->
  exists n', history dbg ids choose n es = Ok n' /\ refines n' (asteps x es).
Proof.
  induction es as [|e es IH]; intros n x R V; [now exists n|]. apply Forall_cons_iff in V as [V1 V2].
  destruct (refine_step n x e R V1) as (n1 & E1 & R1). destruct (IH n1 _ R1 V2) as (n2 & E2 & R2).
  exists n2. cbn [history]. rewrite E1. cbn [bind]. auto.
Qed.
Definition asilent : anet := mkA (fun _ => O) (fun _ => []) (fun _ _ => []).
Lemma refine_silent : refines (silent_net dev) asilent.
Proof. repeat split. intros. constructor. Qed.

(* ---- invariants ------------------------------------------------------------------------------- *)

Lemma existsb_in b : In b ids -> existsb (Z.eqb b) ids = true.
Proof. intros I. apply existsb_exists. exists b. split; [exact I|apply Z.eqb_refl]. Qed.
Lemma broadcast_eq {A} i (ms : list A) f a b : In b ids -> a <> b -> broadcast ids i ms f a b = if a =? i then f a b ++ ms else f a b.
Proof.
  intros I N. unfold broadcast. destruct (Z.eqb_spec a i) as [->|]; cbn [andb]; [|reflexivity].
  replace (b =? i) with false by lia. cbn [negb andb]. now rewrite (existsb_in b I).
Qed.
Lemma link_eq {A} (f : Z -> Z -> A) a b r c d : link_at f a b r c d = if (c =? a) && (d =? b) then r else f c d.
Proof. reflexivity. Qed.
(* the links after an arrival *)
Lemma arrived_link {A} (out : list A) f a b (m : A) r c d : f a b = m :: r -> In d ids -> c <> d -> a <> b ->
  broadcast ids b out (link_at f a b r) c d =
  if c =? b then f b d ++ out else if (c =? a) && (d =? b) then r else f c d.
Proof.
  intros L I N N'. rewrite broadcast_eq by trivial. rewrite link_eq. destruct (Z.eqb_spec c b) as [->|].
  - replace (b =? a) with false by lia. reflexivity.
  - reflexivity.
Qed.

Definition has (M a : Z) (l : list amsg) : Prop := exists m, In m l /\ src a m = M.
Lemma has_app M a l l' : has M a l -> has M a (l ++ l').
Proof. intros (m & I & E). exists m. split; [apply in_or_app; now left|exact E]. Qed.
Lemma has_app_r M a l l' : has M a l' -> has M a (l ++ l').
Proof. intros (m & I & E). exists m. split; [apply in_or_app; now right|exact E]. Qed.
Lemma has_tail M a m r : has M a (m :: r) -> src a m <> M -> has M a r.
Proof. intros (m' & [<-|I] & E) N; [contradiction|]. now exists m'. Qed.
Lemma has_inq a t : has (mu a t) a [MInq t].
Proof. exists (MInq t). split; [now left|reflexivity]. Qed.

Definition cur (x : anet) (i : Z) : Z := mu i (a_turn x i).
(* two that have spoken and have the same MUID: one of them is going to notice *)
Definition apart (sp : list Z) (x : anet) : Prop :=
  forall i j, In i ids -> In j ids -> i <> j -> In i sp -> In j sp -> cur x i = cur x j ->
    has (cur x i) i (a_link x i j) \/ has (cur x i) j (a_link x j i).

Definition speaks (e : event) : list Z := match e with EvAsk i => [i] | _ => [] end.

Lemma apart_step sp x e : apart sp x -> event_ok ids e -> apart (speaks e ++ sp) (astep x e).
Proof.
  intros D V. destruct e as [i|i f|a b]; cbn [astep speaks app].
  - cbn [event_ok] in V. intros k j K J N SK SJ E. cbn [a_turn a_link] in *.
    rewrite !broadcast_eq by auto. change (cur x k = cur x j) in E. change (cur (mkA _ _ _) k) with (cur x k).
    destruct (Z.eqb_spec k i) as [->|NK]; [left; apply has_app_r, has_inq|].
    destruct (Z.eqb_spec j i) as [->|NJ]; [right; rewrite E; apply has_app_r, has_inq|].
    destruct SK as [?|SK]; [congruence|]. destruct SJ as [?|SJ]; [congruence|]. now apply D.
  - intros k j K J N SK SJ E. cbn [a_turn a_link] in *. rewrite !broadcast_eq by auto.
    change (cur x k = cur x j) in E. change (cur (mkA _ _ _) k) with (cur x k).
    destruct (D k j K J N SK SJ E) as [G|G]; [left|right]; (destruct (_ =? i); [now apply has_app|exact G]).
  - destruct V as (IA & IB & NAB). destruct (a_link x a b) as [|m r] eqn:L; [exact D|]. unfold aarrive.
    destruct (Z.eqb_spec (src a m) (mu b (a_turn x b))) as [C|C].
    + intros k j K J N SK SJ E. unfold cur in *. cbn [a_turn a_link] in *. rewrite !(arrived_link _ _ a b m r) by auto.
      assert (HB : forall l, has (mu b (S (a_turn x b))) b (l ++ [MBye (a_turn x b); MInq (S (a_turn x b))])).
      { intros l. apply has_app_r. exists (MInq (S (a_turn x b))). split; [right; now left|reflexivity]. }
      unfold node_at in *. destruct (Z.eqb_spec k b) as [->|NK].
      * left. apply HB.
      * destruct (Z.eqb_spec j b) as [->|NJ].
        -- right. rewrite E. apply HB.
        -- rewrite !andb_false_r. now apply D.
    + intros k j K J N SK SJ E. unfold cur in *. cbn [a_turn a_link] in *. rewrite !(arrived_link _ _ a b m r) by auto.
      assert (G := D k j K J N SK SJ E). unfold cur in G.
      destruct (Z.eqb_spec k b) as [->|NK]; destruct (Z.eqb_spec j b) as [->|NJ]; cbn [andb]; [congruence| | |].
      * destruct G as [G|G]; [left; now apply has_app|]. right. rewrite andb_true_r.
        destruct (Z.eqb_spec j a) as [->|]; [|exact G]. rewrite L in G. apply (has_tail _ _ _ _ G). exact C.
      * destruct G as [G|G]; [|right; now apply has_app]. left. rewrite andb_true_r.
        destruct (Z.eqb_spec k a) as [->|]; [|exact G]. rewrite L in G. apply (has_tail _ _ _ _ G). rewrite E. exact C.
      * rewrite !andb_false_r. exact G.
Qed.
Definition spoken (es : list event) : list Z := flat_map speaks es.
Lemma apart_all : forall es sp x, apart sp x -> Forall (event_ok ids) es -> apart (rev (spoken es) ++ sp) (asteps x es).
Proof.
  induction es as [|e es IH]; intros sp x D V; [exact D|]. apply Forall_cons_iff in V as [V1 V2].
  assert (G := IH _ _ (apart_step sp x e D V1) V2). cbn [asteps fold_left spoken flat_map]. rewrite rev_app_distr, <- app_assoc.
  assert (X : rev (speaks e) = speaks e) by now destruct e. rewrite X. exact G.
Qed.
Lemma spoken_in es i : In (EvAsk i) es -> In i (rev (spoken es) ++ []).
Proof.
  intros I. rewrite app_nil_r, <- in_rev. unfold spoken. apply in_flat_map. exists (EvAsk i). split; [exact I|now left].
Qed.
Lemma different es n i j : Forall (event_ok ids) es -> history dbg ids choose (silent_net dev) es = Ok n -> settled ids n ->
  In i ids -> In j ids -> i <> j -> In (EvAsk i) es -> In (EvAsk j) es -> muid_of n i <> muid_of n j.
Proof.
  intros V E S I J N SI SJ EQ. destruct (refine_all es _ _ refine_silent V) as (n' & E' & R1 & R2 & R3).
  rewrite E in E'. injection E' as <-.
  assert (D : apart [] asilent) by (intros ? ? ? ? ? []).
  assert (G := apart_all es [] asilent D V i j I J N (spoken_in es i SI) (spoken_in es j SJ)).
  unfold muid_of in EQ. rewrite !R1 in EQ. cbn [nd_device] in EQ.
  assert (Z : forall k l, In k ids -> In l ids -> k <> l -> a_link (asteps asilent es) k l = []).
  { intros k l K L NN. specialize (S k l K L NN). rewrite R2 in S. now destruct (a_link (asteps asilent es) k l). }
  rewrite !Z in G by auto. destruct (G EQ) as [(m & [] & _)|(m & [] & _)].
Qed.


(* ---- with choices nobody else makes ------------------------------------------------------------- *)

Section Fresh.
Context (FR : fresh ids dev choose).

Lemma mu_other i j t u : In i ids -> In j ids -> (t <= 1)%nat -> (u <= 1)%nat -> i <> j -> mu i t = mu j u -> t = O /\ u = O.
Proof.
  destruct FR as [F1 F2]. intros I J T U N E. unfold mu in E. destruct t as [|[|t]], u as [|[|u]]; cbn [dev_at with_muid cd_muid] in E; try lia.
  - exfalso. apply (F1 j i J I). congruence.
  - exfalso. apply (F1 i j I J). congruence.
  - exfalso. apply N. now apply F2.
Qed.
Lemma mu_same i t u : In i ids -> (t <= 1)%nat -> (u <= 1)%nat -> mu i t = mu i u -> t = u.
Proof.
  destruct FR as [F1 F2]. intros I T U E. unfold mu in E. destruct t as [|[|t]], u as [|[|u]]; cbn [dev_at with_muid cd_muid] in E; try lia;
    exfalso; apply (F1 i i I I); congruence.
Qed.

(* messages of earlier turns are followed by the farewell; no farewell of the current turn *)
Fixpoint followed (t : nat) (l : list amsg) : Prop :=
  match l with
  | [] => True
  | m :: r =>
      match m with
      | MBye u => (u < t)%nat
      | MNoise _ => True
      | _ => turn_of m = t \/ (turn_of m < t)%nat /\ In (MBye (turn_of m)) r
      end /\ followed t r
  end.
Definition current (t : nat) (m : amsg) : Prop := match m with MBye _ => False | MNoise _ => True | _ => turn_of m = t end.
Lemma followed_more t l m : followed t l -> current t m -> followed t (l ++ [m]).
Proof.
  intros F E. induction l as [|x l IH]; cbn [app followed].
  - destruct m; cbn [current turn_of] in *; try contradiction; auto.
  - destruct F as [F1 F2]. split; [|auto]. destruct x; trivial; (destruct F1 as [|[? I]]; [now left|right; split; [trivial|apply in_or_app; now left]]).
Qed.
Lemma followed_next t l : followed t l -> followed (S t) (l ++ [MBye t; MInq (S t)]).
Proof.
  intros F. induction l as [|x l IH]; cbn [app followed].
  - cbn [turn_of]. repeat split; auto.
  - destruct F as [F1 F2]. split; [|auto]. destruct x; [| |lia| |exact I];
      (right; destruct F1 as [->|[L I]]; (split; [lia|apply in_or_app; ((right; now left) || now left)])).
Qed.
Lemma followed_turn t l m : followed t l -> In m l -> (turn_of m <= t)%nat.
Proof.
  induction l as [|x l IH]; [intros _ []|]. intros [F1 F2] [->|I]; [|auto]. destruct m; cbn [turn_of] in *; lia.
Qed.

Definition uncontested (x : anet) (j : Z) : Prop := a_turn x j = O -> forall k, In k ids -> k <> j -> mu k 0 <> mu j 0.
Record finv (sp : list Z) (x : anet) : Prop := {
  f_order : forall a b, In a ids -> In b ids -> a <> b -> followed (a_turn x a) (a_link x a b);
  f_gone : forall j k, In j ids -> In k ids -> j <> k -> mu j 0 = mu k 0 -> a_turn x j = O -> (0 < a_turn x k)%nat ->
    has (mu j 0) k (a_link x k j);
  f_both : forall j k, In j ids -> In k ids -> j <> k -> In j sp -> mu j 0 = mu k 0 -> a_turn x j = O -> a_turn x k = O ->
    has (mu j 0) j (a_link x j k);
  f_knows : forall i j, In i ids -> In j ids -> i <> j -> In j sp -> uncontested x j ->
    In (MInq (a_turn x j)) (a_link x j i) \/ look_up (cur x j) (a_known x i) = Some (peer_of (dev_at j (a_turn x j)));
  f_only : forall i M p, In i ids -> look_up M (a_known x i) = Some p ->
    exists j t, In j ids /\ j <> i /\ M = mu j t /\ p = peer_of (dev_at j t) /\
      (t = a_turn x j \/ (t < a_turn x j)%nat /\ In (MBye t) (a_link x j i));
  f_self : forall i, In i ids -> look_up (cur x i) (a_known x i) = None;
  f_once : forall i, In i ids -> (a_turn x i <= 1)%nat
}.

Lemma learn_look M a b tb k m : look_up M (learn a b tb k m) =
  if mu a (turn_of m) =? M then
    match m with
    | MInq t => Some (peer_of (dev_at a t))
    | MRep t y => if y =? mu b tb then Some (peer_of (dev_at a t)) else look_up M k
    | MBye _ => None
    | _ => look_up M k
    end
  else look_up M k.
Proof.
  assert (L : forall t, look_up M (peer_of (dev_at a t) :: forget (mu a t) k) = if mu a t =? M then Some (peer_of (dev_at a t)) else look_up M k)
    by (intros t; apply (look_up_learn M (peer_of (dev_at a t)) k)).
  destruct m as [t|t y|t|t s|s]; cbn [learn turn_of]; [apply L| |apply look_up_forget|now destruct (mu a t =? M)|now destruct (mu a 0 =? M)].
  destruct (y =? mu b tb); [apply L|now destruct (mu a t =? M)].
Qed.

(* device i sends m *)
Definition sends (x : anet) (i : Z) (m : amsg) : anet := mkA (a_turn x) (a_known x) (broadcast ids i [m] (a_link x)).
Lemma finv_sends sp x i m : finv sp x -> In i ids -> current (a_turn x i) m -> finv sp (sends x i m).
Proof.
  intros [F1 F2 F3 F4 F5 F6 F7] V C.
  assert (LE : forall c d, In d ids -> c <> d -> broadcast ids i [m] (a_link x) c d = if c =? i then a_link x c d ++ [m] else a_link x c d)
    by (intros; now apply broadcast_eq).
  assert (HG : forall M c d, In d ids -> c <> d -> has M c (a_link x c d) -> has M c (broadcast ids i [m] (a_link x) c d)).
  { intros M c d I N H. rewrite LE by trivial. destruct (c =? i); [now apply has_app|exact H]. }
  assert (IG : forall m' c d, In d ids -> c <> d -> In m' (a_link x c d) -> In m' (broadcast ids i [m] (a_link x) c d)).
  { intros m' c d I N H. rewrite LE by trivial. destruct (c =? i); [apply in_or_app; now left|exact H]. }
  split; cbn [sends a_turn a_known a_link]; trivial.
  - intros a b A B N. rewrite LE by trivial. destruct (Z.eqb_spec a i) as [->|]; [|auto]. apply followed_more; auto.
  - intros j k J K N E TJ TK. apply HG; auto.
  - intros j k J K N S E TJ TK. apply HG; auto.
  - intros k j K J N S U. destruct (F4 k j K J N S U) as [G|G]; [left; apply IG; auto|right; exact G].
  - intros k M p K G. destruct (F5 k M p K G) as (j & t & J & N & EM & EP & Q). exists j, t. repeat split; trivial.
    destruct Q as [Q|[Q1 Q2]]; [now left|right]. split; [exact Q1|]. apply IG; auto.
Qed.
Lemma finv_ask sp x i : finv sp x -> In i ids -> finv (i :: sp) (astep x (EvAsk i)).
Proof.
  intros F V. assert (G := finv_sends sp x i (MInq (a_turn x i)) F V eq_refl). change (astep x (EvAsk i)) with (sends x i (MInq (a_turn x i))).
  destruct G as [F1 F2 F3 F4 F5 F6 F7].
  assert (LE : forall d, In d ids -> i <> d -> a_link (sends x i (MInq (a_turn x i))) i d = a_link x i d ++ [MInq (a_turn x i)])
    by (intros d D N; cbn [sends a_link]; rewrite broadcast_eq, Z.eqb_refl by trivial; reflexivity).
  split; trivial.
  - intros j k J K N [<-|S] E TJ TK; [|now apply F3]. rewrite LE by trivial. apply has_app_r. change (a_turn x i = O) in TJ. rewrite TJ. apply has_inq.
  - intros k j K J N [<-|S] U; [|now apply F4]. left. rewrite LE by auto. apply in_or_app. right. now left.
Qed.
Lemma finv_say sp x i f : finv sp x -> In i ids -> finv sp (astep x (EvSay i f)).
Proof.
  intros F V. apply (finv_sends sp x i (spoken_by i (a_turn x i) f) F V). unfold spoken_by. cbv zeta. now destruct (ci_message _).
Qed.

Lemma finv_arrive sp x a b : finv sp x -> In a ids -> In b ids -> a <> b -> finv sp (astep x (EvArrive a b)).
Proof.
  intros [F1 F2 F3 F4 F5 F6 F7] IA IB NAB. cbn [astep]. destruct (a_link x a b) as [|m r] eqn:L; [now constructor|].
  assert (FA := F1 a b IA IB NAB). rewrite L in FA.
  assert (TM := followed_turn _ _ m FA (or_introl eq_refl)). destruct FA as [FA1 FA2].
  assert (TA1 := F7 a IA). assert (TB1 := F7 b IB). assert (TM1 : (turn_of m <= 1)%nat) by lia.
  unfold aarrive. destruct (Z.eqb_spec (src a m) (mu b (a_turn x b))) as [C|C].
  - (* collision *)
    destruct (mu_other a b _ _ IA IB TM1 TB1 NAB (src_mu _ _ _ _ C)) as [TM0 TB0]. rewrite TB0 in *.
    set (out := [MBye 0; MInq 1]).
    assert (LE : forall c d, In d ids -> c <> d -> broadcast ids b out (link_at (a_link x) a b r) c d =
       if c =? b then a_link x b d ++ out else if (c =? a) && (d =? b) then r else a_link x c d) by (intros; now apply arrived_link with m).
    assert (NB : forall k, k <> b -> node_at (a_turn x) b 1%nat k = a_turn x k) by (intros k N; unfold node_at; now replace (k =? b) with false by lia).
    assert (NB' : node_at (a_turn x) b 1%nat b = 1%nat) by (unfold node_at; now rewrite Z.eqb_refl).
    split; unfold cur, uncontested; cbn [a_turn a_known a_link].
    + intros c d IC ID N. rewrite LE by trivial. destruct (Z.eqb_spec c b) as [->|NC].
      * rewrite NB'. assert (G := F1 b d IB ID N). rewrite TB0 in G. exact (followed_next 0 _ G).
      * rewrite NB by trivial. destruct (Z.eqb_spec c a) as [->|]; cbn [andb]; [|auto]. destruct (Z.eqb_spec d b) as [->|]; [exact FA2|auto].
    + intros j k J K N E TJ TK. destruct (Z.eq_dec j b) as [->|NJ]; [rewrite NB' in TJ; discriminate|]. rewrite NB in TJ by trivial.
      rewrite LE by auto. destruct (Z.eqb_spec k b) as [->|NK].
      * apply has_app_r. exists (MBye 0). split; [now left|]. unfold src. cbn [turn_of]. congruence.
      * rewrite NB in TK by trivial. replace ((k =? a) && (j =? b)) with false by lia. auto.
    + intros j k J K N S E TJ TK. destruct (Z.eq_dec j b) as [->|NJ]; [rewrite NB' in TJ; discriminate|]. rewrite NB in TJ by trivial.
      destruct (Z.eq_dec k b) as [->|NK]; [rewrite NB' in TK; discriminate|]. rewrite NB in TK by trivial.
      rewrite LE by auto. replace (j =? b) with false by lia. replace ((j =? a) && (k =? b)) with false by lia. auto.
    + intros i j I J N S U. rewrite LE by auto. destruct (Z.eqb_spec j b) as [->|NJ].
      * rewrite NB'. left. apply in_or_app. right. right. now left.
      * rewrite NB in * by trivial. destruct (F4 i j I J N S U) as [G|G]; [|now right]. left.
        destruct (Z.eqb_spec j a) as [->|]; cbn [andb]; [|exact G]. destruct (Z.eqb_spec i b) as [->|]; [|exact G].
        rewrite L in G. destruct G as [->|G]; [|exact G]. exfalso. cbn [turn_of] in TM0. apply (U TM0 b IB); [auto|].
        unfold src in C. cbn [turn_of] in C. rewrite TM0 in C. congruence.
    + intros i M p I G. destruct (F5 i M p I G) as (j & t & J & N & EM & EP & Q). exists j, t. repeat split; trivial. rewrite LE by auto.
      destruct (Z.eqb_spec j b) as [->|NJ].
      * rewrite NB', TB0 in *. destruct Q as [->|[Q1 Q2]]; [|lia]. right. split; [lia|]. apply in_or_app. right. now left.
      * rewrite NB by trivial. destruct Q as [Q|[Q1 Q2]]; [now left|]. right. split; [exact Q1|].
        destruct (Z.eqb_spec j a) as [->|]; cbn [andb]; [|exact Q2]. destruct (Z.eqb_spec i b) as [->|]; [|exact Q2].
        rewrite L in Q2. destruct Q2 as [->|Q2]; [|exact Q2]. exfalso. assert (Z := F6 b IB). unfold cur in Z. rewrite TB0 in Z.
        unfold src in C. cbn [turn_of] in C. rewrite <- C, <- EM in Z. congruence.
    + intros i I. destruct (Z.eq_dec i b) as [->|NI]; [|rewrite NB by trivial; now apply F6]. rewrite NB'.
      destruct (look_up (mu b 1) (a_known x b)) as [p|] eqn:G; [|reflexivity]. exfalso.
      destruct (F5 b _ p I G) as (j & t & J & N & EM & _ & Q). assert (TJ := F7 j J).
      destruct (mu_other b j 1 t I J ltac:(lia) ltac:(lia) ltac:(auto) EM). discriminate.
    + intros i I. destruct (Z.eq_dec i b) as [->|NI]; [rewrite NB'; lia|rewrite NB by trivial; now apply F7].
  - (* no collision *)
    set (out := respond a b (a_turn x b) m).
    assert (LE : forall c d, In d ids -> c <> d -> broadcast ids b out (link_at (a_link x) a b r) c d =
       if c =? b then a_link x b d ++ out else if (c =? a) && (d =? b) then r else a_link x c d) by (intros; now apply arrived_link with m).
    assert (KE : forall i, i <> b -> node_at (a_known x) b (learn a b (a_turn x b) (a_known x b) m) i = a_known x i)
      by (intros i N; unfold node_at; now replace (i =? b) with false by lia).
    assert (KB : node_at (a_known x) b (learn a b (a_turn x b) (a_known x b) m) b = learn a b (a_turn x b) (a_known x b) m)
      by (unfold node_at; now rewrite Z.eqb_refl).
    split; unfold cur, uncontested; cbn [a_turn a_known a_link].
    + intros c d IC ID N. rewrite LE by trivial. destruct (Z.eqb_spec c b) as [->|NC].
      * unfold out, respond. destruct m; rewrite ?app_nil_r; auto. apply followed_more; auto. reflexivity.
      * destruct (Z.eqb_spec c a) as [->|]; cbn [andb]; [|auto]. destruct (Z.eqb_spec d b) as [->|]; [exact FA2|auto].
    + intros j k J K N E TJ TK. rewrite LE by auto. assert (G := F2 j k J K N E TJ TK). destruct (Z.eqb_spec k b) as [->|NK]; [now apply has_app|].
      destruct (Z.eqb_spec k a) as [->|]; cbn [andb]; [|exact G]. destruct (Z.eqb_spec j b) as [->|]; [|exact G].
      rewrite L in G. apply (has_tail _ _ _ _ G). now rewrite <- TJ.
    + intros j k J K N S E TJ TK. rewrite LE by auto. assert (G := F3 j k J K N S E TJ TK). destruct (Z.eqb_spec j b) as [->|NK]; [now apply has_app|].
      destruct (Z.eqb_spec j a) as [->|]; cbn [andb]; [|exact G]. destruct (Z.eqb_spec k b) as [->|]; [|exact G].
      rewrite L in G. apply (has_tail _ _ _ _ G). rewrite E, <- TK. exact C.
    + intros i j I J N S U. assert (G := F4 i j I J N S U). rewrite LE by auto. destruct (Z.eqb_spec j b) as [->|NJ].
      * rewrite KE by trivial. destruct G as [G|G]; [left; apply in_or_app; now left|now right].
      * destruct (Z.eq_dec i b) as [->|NI].
        2:{ replace ((j =? a) && (i =? b)) with false by lia. rewrite KE by trivial. exact G. }
        rewrite KB, learn_look, Z.eqb_refl, andb_true_r. destruct (Z.eqb_spec j a) as [->|NJA].
        -- destruct G as [G|G].
           ++ rewrite L in G. destruct G as [->|G]; [|now left]. right. cbn [turn_of]. now rewrite Z.eqb_refl.
           ++ right. destruct (Z.eqb_spec (mu a (turn_of m)) (mu a (a_turn x a))) as [E|]; [|exact G].
              apply (mu_same a _ _ IA TM1 TA1) in E. destruct m as [t|t y|t|t s|s]; cbn [turn_of] in *; subst; [reflexivity| |lia|exact G|exact G].
              destruct (y =? _); [reflexivity|exact G].
        -- destruct G as [G|G]; [now left|]. right. destruct (Z.eqb_spec (mu a (turn_of m)) (mu j (a_turn x j))) as [E|]; [|exact G].
           exfalso. destruct (mu_other a j _ _ IA J TM1 (F7 j J) ltac:(auto) E) as [E1 E2]. apply (U E2 a IA ltac:(auto)). now rewrite E1, E2 in E.
    + intros i M p I. destruct (Z.eq_dec i b) as [->|NI].
      * rewrite KB, learn_look. intros G.
        assert (OLD : look_up M (a_known x b) = Some p -> (forall t, m = MBye t -> mu a t <> M) -> exists j t, In j ids /\ j <> b /\ M = mu j t /\ p = peer_of (dev_at j t) /\
          (t = a_turn x j \/ (t < a_turn x j)%nat /\ In (MBye t) (broadcast ids b out (link_at (a_link x) a b r) j b))).
        { intros H NB. destruct (F5 b M p I H) as (j & t & J & N & EM & EP & Q). exists j, t. repeat split; trivial.
          destruct Q as [Q|[Q1 Q2]]; [now left|]. right. split; [exact Q1|]. rewrite LE by auto. replace (j =? b) with false by lia.
          rewrite Z.eqb_refl, andb_true_r. destruct (Z.eqb_spec j a) as [->|]; [|exact Q2].
          rewrite L in Q2. destruct Q2 as [->|Q2]; [|exact Q2]. exfalso. now apply (NB t). }
        assert (NEW : forall t, turn_of m = t -> (forall u, m <> MBye u) -> (forall s, m <> MNoise s) -> mu a t = M -> peer_of (dev_at a t) = p -> exists j t, In j ids /\ j <> b /\ M = mu j t /\ p = peer_of (dev_at j t) /\
          (t = a_turn x j \/ (t < a_turn x j)%nat /\ In (MBye t) (broadcast ids b out (link_at (a_link x) a b r) j b))).
        { intros t ET NB NS EM EP. exists a, t. repeat split; auto. rewrite LE by auto. replace (a =? b) with false by lia. rewrite !Z.eqb_refl. cbn [andb].
          rewrite <- ET. destruct m as [u|u y|u|u s|s]; [exact FA1|exact FA1|now destruct (NB u)|exact FA1|now destruct (NS s)]. }
        destruct (Z.eqb_spec (mu a (turn_of m)) M) as [E|E].
        -- destruct m as [t|t y|t|t s|s]; [|destruct (y =? _)|discriminate| |].
           ++ injection G as <-. apply (NEW t); trivial; discriminate.
           ++ injection G as <-. apply (NEW t); trivial; discriminate.
           ++ apply OLD; [exact G|discriminate].
           ++ apply OLD; [exact G|discriminate].
           ++ apply OLD; [exact G|discriminate].
        -- apply OLD; [exact G|]. intros t ->. exact E.
      * rewrite KE by trivial. intros G. destruct (F5 i M p I G) as (j & t & J & N & EM & EP & Q). exists j, t. repeat split; trivial.
        destruct Q as [Q|[Q1 Q2]]; [now left|]. right. split; [exact Q1|]. rewrite LE by auto. replace ((j =? a) && (i =? b)) with false by lia.
        destruct (Z.eqb_spec j b) as [->|]; [apply in_or_app; now left|exact Q2].
    + intros i I. destruct (Z.eq_dec i b) as [->|NI]; [|rewrite KE by trivial; now apply F6].
      rewrite KB, learn_look. destruct (Z.eqb_spec (mu a (turn_of m)) (mu b (a_turn x b))); [|now apply F6].
      destruct m; cbn [src] in C; try contradiction. now apply F6.
    + exact F7.
Qed.
Lemma finv_all : forall es sp x, finv sp x -> Forall (event_ok ids) es -> finv (rev (spoken es) ++ sp) (asteps x es).
Proof.
  induction es as [|e es IH]; intros sp x D V; [exact D|]. apply Forall_cons_iff in V as [V1 V2].
  assert (H : finv (speaks e ++ sp) (astep x e)).
  { destruct e as [i|i f|a b]; [now apply finv_ask|apply finv_say; [exact D|apply V1]|]. destruct V1 as (A & B & N). now apply finv_arrive. }
  assert (G := IH _ _ H V2). cbn [asteps fold_left spoken flat_map]. rewrite rev_app_distr, <- app_assoc.
  assert (X : rev (speaks e) = speaks e) by now destruct e. rewrite X. exact G.
Qed.
Lemma finv_silent : finv [] asilent.
Proof.
  split; cbn; try (intros; contradiction); try lia; try discriminate; auto.
Qed.
End Fresh.

Lemma everybody_known es n : fresh ids dev choose -> Forall (event_ok ids) es -> history dbg ids choose (silent_net dev) es = Ok n -> settled ids n ->
  forall i, In i ids ->
  (forall j, In j ids -> j <> i -> In (EvAsk j) es -> knows n i (muid_of n j) = Some (peer_of (nd_device (nt_node n j)))) /\
  (forall m p, knows n i m = Some p -> exists j, In j ids /\ j <> i /\ m = muid_of n j /\ p = peer_of (nd_device (nt_node n j))).
Proof.
  intros FR V E S i I. destruct (refine_all es _ _ refine_silent V) as (n' & E' & R1 & R2 & R3).
  rewrite E in E'. injection E' as <-.
  assert (Z : forall k l, In k ids -> In l ids -> k <> l -> a_link (asteps asilent es) k l = []).
  { intros k l K L NN. specialize (S k l K L NN). rewrite R2 in S. now destruct (a_link (asteps asilent es) k l). }
  destruct (finv_all FR es [] asilent finv_silent V) as [F1 F2 F3 F4 F5 F6 F7].
  unfold knows, muid_of. split.
  - intros j J N SJ. rewrite !R1. cbn [nd_device nd_known]. destruct (F4 i j I J ltac:(auto) (spoken_in es j SJ)) as [G|G].
    + intros T0 k K NK EQ. destruct (a_turn (asteps asilent es) k) as [|u] eqn:TK.
      * destruct (F3 j k J K ltac:(auto) (spoken_in es j SJ) ltac:(auto) T0 TK) as (m & IM & _). rewrite Z in IM by auto. destruct IM.
      * destruct (F2 j k J K ltac:(auto) ltac:(auto) T0 ltac:(lia)) as (m & IM & _). rewrite Z in IM by auto. destruct IM.
    + rewrite Z in G by auto. destruct G.
    + exact G.
  - intros m p. rewrite R1. cbn [nd_known]. intros G. destruct (F5 i m p I G) as (j & t & J & N & EM & EP & Q).
    exists j. rewrite R1. cbn [nd_device]. destruct Q as [->|[_ Q]]; [auto|]. rewrite Z in Q by auto. destruct Q.
Qed.


(* ---- it ends ------------------------------------------------------------------------------------- *)

Definition tot (f : Z -> nat) (l : list Z) : nat := fold_right (fun i s => f i + s)%nat O l.
Lemma tot_le f g l : (forall i, In i l -> (f i <= g i)%nat) -> (tot f l <= tot g l)%nat.
Proof.
  induction l as [|y l IH]; intros H; [cbn; lia|]. cbn [tot fold_right]. assert (A := H y (or_introl eq_refl)).
  assert (B : (tot f l <= tot g l)%nat) by (apply IH; intros i I; apply H; now right). unfold tot in B. lia.
Qed.
Lemma tot_add f g l : tot (fun i => f i + g i)%nat l = (tot f l + tot g l)%nat.
Proof. induction l as [|y l IH]; [reflexivity|]. unfold tot in *. cbn [fold_right]. lia. Qed.
Lemma tot_point f l b : In b l -> (f b <= tot f l)%nat.
Proof. induction l as [|y l IH]; [intros []|]. intros [->|I]; unfold tot in *; cbn [fold_right]; [lia|]. specialize (IH I). lia. Qed.
Lemma tot_const v l : tot (fun _ => v) l = (length l * v)%nat.
Proof. induction l as [|y l IH]; [reflexivity|]. unfold tot in *. cbn [fold_right length]. lia. Qed.
Lemma tot_single v l b : NoDup l -> (tot (fun c => if Z.eqb c b then v else O) l <= v)%nat.
Proof.
  induction 1 as [|y l NI ND IH]; [cbn; lia|]. unfold tot in *. cbn [fold_right]. destruct (Z.eqb_spec y b) as [->|]; [|lia].
  assert (Q : fold_right (fun i s => (if Z.eqb i b then v else O) + s)%nat O l = O); [|lia].
  clear - NI. induction l as [|z l IH]; [reflexivity|]. cbn [fold_right]. destruct (Z.eqb_spec z b) as [->|]; [destruct NI; now left|].
  rewrite IH; [reflexivity|]. intros I. apply NI. now right.
Qed.

Definition weight (m : amsg) : nat := match m with MInq _ => S (length ids) | _ => 1%nat end.
Definition weights (l : list amsg) : nat := fold_right (fun m s => weight m + s)%nat O l.
Lemma weights_app l l' : weights (l ++ l') = (weights l + weights l')%nat.
Proof. induction l as [|m l IH]; [reflexivity|]. unfold weights in *. cbn [app fold_right]. lia. Qed.
Definition burden (f : Z -> Z -> list amsg) : nat := tot (fun c => tot (fun d => if Z.eqb c d then O else weights (f c d)) ids) ids.
Definition patience (x : anet) : nat := tot (fun i => (1 - a_turn x i) * (length ids * (length ids + 2)))%nat ids.

Lemma burden_arrive out f a b m r : NoDup ids -> In a ids -> In b ids -> a <> b -> f a b = m :: r ->
  (burden (broadcast ids b out (link_at f a b r)) + weight m <= burden f + length ids * weights out)%nat.
Proof.
  intros ND A B N L.
  assert (P1 : (weight m <= tot (fun c => tot (fun d => if Z.eqb c a && Z.eqb d b then weight m else O) ids) ids)%nat).
  { eapply Nat.le_trans; [|apply (tot_point _ ids a A)]. eapply Nat.le_trans; [|apply (tot_point _ ids b B)]. now rewrite !Z.eqb_refl. }
  assert (P2 : (tot (fun c => tot (fun d => if Z.eqb c b then weights out else O) ids) ids <= length ids * weights out)%nat).
  { eapply Nat.le_trans; [|apply (tot_single _ ids b ND)]. apply tot_le. intros c _. rewrite tot_const. destruct (c =? b); lia. }
  assert (P3 : (burden (broadcast ids b out (link_at f a b r)) + tot (fun c => tot (fun d => if Z.eqb c a && Z.eqb d b then weight m else O) ids) ids <=
    burden f + tot (fun c => tot (fun d => if Z.eqb c b then weights out else O) ids) ids)%nat); [|lia].
  unfold burden. rewrite <- !tot_add. apply tot_le. intros c C. rewrite <- !tot_add. apply tot_le. intros d D.
  destruct (Z.eqb_spec c d) as [->|NCD].
  - replace ((d =? a) && (d =? b)) with false by lia. lia.
  - rewrite (arrived_link out f a b m r) by trivial. destruct (Z.eqb_spec c b) as [->|].
    + replace (b =? a) with false by lia. cbn [andb]. rewrite weights_app. lia.
    + destruct (Z.eqb_spec c a) as [->|]; cbn [andb]; [|lia]. destruct (Z.eqb_spec d b) as [->|]; [|lia].
      rewrite L. unfold weights at 2. cbn [fold_right]. fold (weights r). lia.
Qed.
Lemma patience_turn x b t k l : In b ids -> a_turn x b = O -> t = 1%nat ->
  (patience (mkA (node_at (a_turn x) b t) k l) + length ids * (length ids + 2) <= patience x)%nat.
Proof.
  intros B T ->. set (v := (length ids * (length ids + 2))%nat).
  assert (P1 : (v <= tot (fun i => if Z.eqb i b then v else O) ids)%nat) by (assert (Q := tot_point (fun i => if Z.eqb i b then v else O) ids b B); cbn beta in Q; now rewrite Z.eqb_refl in Q).
  assert (P2 : (patience (mkA (node_at (a_turn x) b 1%nat) k l) + tot (fun i => if Z.eqb i b then v else O) ids <= patience x)%nat); [|lia].
  unfold patience. rewrite <- tot_add. apply tot_le. intros i _. cbn [a_turn]. fold v. unfold node_at.
  destruct (Z.eqb_spec i b) as [->|]; [rewrite T; lia|lia].
Qed.

Lemma progress_made sp x a b : NoDup ids -> fresh ids dev choose -> finv sp x -> In a ids -> In b ids -> a <> b -> a_link x a b <> [] ->
  (patience (astep x (EvArrive a b)) + burden (a_link (astep x (EvArrive a b))) < patience x + burden (a_link x))%nat.
Proof.
  intros ND FR F A B N L. cbn [astep]. destruct (a_link x a b) as [|m r] eqn:E; [contradiction|]. clear L. unfold aarrive.
  destruct (Z.eqb_spec (src a m) (mu b (a_turn x b))) as [C|C].
  - assert (TM := followed_turn _ _ m (f_order _ _ F a b A B N) ltac:(rewrite E; now left)).
    assert (TA := f_once _ _ F a A). assert (TB := f_once _ _ F b B).
    assert (TM1 : (turn_of m <= 1)%nat) by lia. destruct (mu_other FR a b _ _ A B TM1 TB N (src_mu _ _ _ _ C)) as [_ T]. rewrite T.
    assert (Q := patience_turn x b 1%nat (a_known x) (broadcast ids b [MBye 0; MInq 1] (link_at (a_link x) a b r)) B T eq_refl).
    assert (Q' := burden_arrive [MBye 0; MInq 1] (a_link x) a b m r ND A B N E).
    cbn [a_link]. change (weights [MBye 0; MInq 1]) with (1 + (S (length ids) + 0))%nat in Q'.
    assert (1 <= weight m)%nat by (destruct m; cbn [weight]; lia). lia.
  - assert (Q' := burden_arrive (respond a b (a_turn x b) m) (a_link x) a b m r ND A B N E).
    cbn [a_link]. change (patience (mkA (a_turn x) _ _)) with (patience x).
    destruct m as [t|t y|t|t s|s]; cbn [respond weight weights fold_right] in *; lia.
Qed.

Lemma settled_dec x : (forall a b, In a ids -> In b ids -> a <> b -> a_link x a b = []) \/
  exists a b, In a ids /\ In b ids /\ a <> b /\ a_link x a b <> [].
Proof.
  assert (D : forall a b, {a = b \/ a_link x a b = []} + {~ (a = b \/ a_link x a b = [])}).
  { intros a b. destruct (Z.eq_dec a b); [auto|]. destruct (a_link x a b); [auto|]. right. intros [?|?]; [contradiction|discriminate]. }
  assert (D2 : forall a, {Forall (fun b => a = b \/ a_link x a b = []) ids} + {~ Forall (fun b => a = b \/ a_link x a b = []) ids}).
  { intros a. apply Forall_dec. apply D. }
  destruct (Forall_Exists_dec _ D2 ids) as [H|H].
  - left. intros a b A B N. rewrite Forall_forall in H. specialize (H a A). rewrite Forall_forall in H. destruct (H b B); [contradiction|trivial].
  - right. apply Exists_exists in H as (a & A & H). destruct (Forall_Exists_dec _ (D a) ids) as [G|G]; [contradiction|].
    apply Exists_exists in G as (b & B & G). exists a, b. split; [exact A|]. split; [exact B|]. split; intros X; apply G; auto.
Qed.

Lemma always_settles : NoDup ids -> fresh ids dev choose -> forall k sp x n, (patience x + burden (a_link x) <= k)%nat -> finv sp x -> refines n x ->
  exists ds n', Forall (event_ok ids) ds /\ delivers dbg ids choose n ds /\ history dbg ids choose n ds = Ok n' /\ settled ids n'.
Proof.
  intros ND FR. induction k as [|k IH]; intros sp x n K F R; (destruct (settled_dec x) as [S|(a & b & A & B & N & L)];
    [exists [], n; repeat split; [constructor|]; intros a b A B N; destruct R as (_ & R2 & _); rewrite R2, S by trivial; reflexivity|]);
    assert (P := progress_made sp x a b ND FR F A B N L); [lia|].
  destruct (refine_step n x (EvArrive a b) R (conj A (conj B N))) as (n1 & E1 & R1).
  destruct (IH sp (astep x (EvArrive a b)) n1 ltac:(lia) (finv_arrive FR sp x a b F A B N) R1) as (ds & n' & V & D & E & S).
  exists (EvArrive a b :: ds), n'. split; [constructor; [repeat split; trivial|exact V]|]. split; [|split; [|exact S]].
  - cbn [delivers]. split; [|exists n1; auto]. destruct R as (_ & R2 & _). rewrite R2. now destruct (a_link x a b).
  - cbn [history]. rewrite E1. exact E.
Qed.
Lemma always_ends : NoDup ids -> fresh ids dev choose -> forall ds sp x n, finv sp x -> refines n x -> Forall (event_ok ids) ds ->
  delivers dbg ids choose n ds -> (length ds <= patience x + burden (a_link x))%nat.
Proof.
  intros ND FR. induction ds as [|e ds IH]; intros sp x n F R V D; [cbn; lia|]. apply Forall_cons_iff in V as [V1 V2].
  destruct e as [i|i f|a b]; [destruct D|destruct D|]. cbn [delivers] in D. destruct D as (L & n1 & E1 & D). destruct V1 as (A & B & N).
  destruct (refine_step n x (EvArrive a b) R (conj A (conj B N))) as (n1' & E1' & R1). rewrite E1 in E1'. injection E1' as <-.
  assert (LX : a_link x a b <> []) by (destruct R as (_ & R2 & _); rewrite R2 in L; now destruct (a_link x a b)).
  assert (P := progress_made sp x a b ND FR F A B N LX).
  assert (Q := IH sp (astep x (EvArrive a b)) n1 (finv_arrive FR sp x a b F A B N) R1 V2 D). cbn [length]. lia.
Qed.

Lemma ends es n : NoDup ids -> fresh ids dev choose -> Forall (event_ok ids) es -> history dbg ids choose (silent_net dev) es = Ok n ->
  (exists bound, forall ds, Forall (event_ok ids) ds -> delivers dbg ids choose n ds -> (length ds <= bound)%nat) /\
  (exists ds n', Forall (event_ok ids) ds /\ delivers dbg ids choose n ds /\ history dbg ids choose n ds = Ok n' /\ settled ids n') /\
  (forall i, In i ids -> (nd_turn (nt_node n i) <= 1)%nat).
Proof.
  intros ND FR V E. destruct (refine_all es _ _ refine_silent V) as (n' & E' & R). rewrite E in E'. injection E' as <-.
  assert (F := finv_all FR es [] asilent (finv_silent) V). split; [|split].
  - eexists. intros ds VD D. exact (always_ends ND FR ds _ _ n F R VD D).
  - exact (always_settles ND FR _ _ _ n (le_n _) F R).
  - intros i I. destruct R as (R1 & _). rewrite R1. cbn [nd_turn]. destruct F. auto.
Qed.

Lemma kept es n : Forall (event_ok ids) es -> history dbg ids choose (silent_net dev) es = Ok n -> forall i, same_but_muid (dev i) (nd_device (nt_node n i)).
Proof.
  intros V E i. destruct (refine_all es _ _ refine_silent V) as (n' & E' & R1 & _). rewrite E in E'. injection E' as <-.
  rewrite R1. cbn [nd_device]. unfold same_but_muid. destruct (a_turn _ i); cbn [dev_at with_muid cd_muid]; [now destruct (dev i)|reflexivity].
Qed.

End Net.
