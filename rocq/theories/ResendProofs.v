(* Property transfers over connections that lose, repeat and reorder messages *)
From Coq Require Import ZArith List Bool Lia ZifyNat.
From Verif Require Import Base Sysex SysexSpec SysexProofs UniversalSysex CapInq CapSpec CapProofs JsonSpec Transfer TransferSpec TransferProofs.
Import ListNotations.
Local Open Scope Z_scope.

Definition chunk_at (x : transfer) (h : list Z) (i : nat) : chunk_msg :=
  mkCM (opening_subtype (tr_opening x)) (pc_src (tr_common x)) (pc_dst (tr_common x)) (pc_request (tr_common x))
    (if Nat.eqb i 0 then h else []) (tr_count x) (Z.of_nat i + 1) (nth i (tr_first x :: tr_rest x) []).

Lemma later_at x h : forall ps k, (forall i, nth i ps [] = nth (i + S k) (tr_first x :: tr_rest x) []) ->
  later_chunks x (Z.of_nat k + 2) ps = map (chunk_at x h) (seq (S k) (length ps)).
Proof.
  induction ps as [|p ps IH]; intros k N; [reflexivity|]. cbn [later_chunks length seq map]. f_equal.
  - unfold chunk_at. replace (Z.of_nat (S k) + 1) with (Z.of_nat k + 2) by lia. cbn [Nat.eqb]. f_equal. exact (N 0%nat).
  - replace (Z.of_nat k + 2 + 1) with (Z.of_nat (S k) + 2) by lia. apply IH. intros i. rewrite <- plus_n_Sm. exact (N (S i)).
Qed.
Lemma chunks_at x h :
  mkCM (opening_subtype (tr_opening x)) (pc_src (tr_common x)) (pc_dst (tr_common x)) (pc_request (tr_common x)) h
    (tr_count x) 1 (tr_first x) :: later_chunks x 2 (tr_rest x) = map (chunk_at x h) (seq 0 (S (length (tr_rest x)))).
Proof.
  cbn [seq map]. f_equal. apply (later_at x h (tr_rest x) 0). intros i. rewrite Nat.add_comm. reflexivity.
Qed.

Definition body_upto (x : transfer) (n : nat) : list Z := concat (firstn n (tr_first x :: tr_rest x)).
Lemma firstn_more {A} (l : list A) d : forall n, (n < length l)%nat -> firstn (S n) l = firstn n l ++ [nth n l d].
Proof. induction l as [|a l IH]; intros n L; cbn [length] in L; [lia|]. destruct n; [reflexivity|]. cbn [firstn nth app]. rewrite <- IH by lia. reflexivity. Qed.
Lemma body_more x n : (n < S (length (tr_rest x)))%nat -> body_upto x (S n) = body_upto x n ++ nth n (tr_first x :: tr_rest x) [].
Proof.
  intros L. unfold body_upto. rewrite (firstn_more (tr_first x :: tr_rest x) []) by exact L. rewrite concat_app. cbn [concat].
  now rewrite app_nil_r.
Qed.
Lemma body_all x : body_upto x (S (length (tr_rest x))) = body_of x.
Proof. unfold body_upto, body_of. now rewrite firstn_all2 by (cbn [length]; lia). Qed.

(* the chunks so far, all of which have been seen *)
Definition under_way (x : transfer) (h : list Z) (seen : list chunk_msg) (o : option pending) : Prop :=
  match o with
  | None => True
  | Some p => exists n, (1 <= n <= length (tr_rest x))%nat /\ p = mkPend (transfer_key x) h (Z.of_nat n) (body_upto x n) /\
      forall i, (i < n)%nat -> In (chunk_at x h i) seen
  end.

Lemma step_under_way x h seen o i : under_way x h seen o -> (i <= length (tr_rest x))%nat ->
  let r := step1 (transfer_key x) o (chunk_at x h i) in
  under_way x h (seen ++ [chunk_at x h i]) (fst r) /\
  (snd r = [] \/ snd r = [mkRecv (transfer_key x) h (body_of x)] /\
     forall j, (j <= length (tr_rest x))%nat -> In (chunk_at x h j) (seen ++ [chunk_at x h i])).
Proof.
  intros U L. unfold step1, in_sequence. cbn [chunk_at cm_index cm_header cm_data cm_count].
  assert (TC : tr_count x = Z.of_nat (length (tr_rest x)) + 1) by (unfold tr_count, size; lia).
  destruct (Z.eqb_spec (Z.of_nat i + 1) 1) as [I|I].
  - assert (i = 0%nat) as -> by lia. cbn [Nat.eqb nth]. destruct (Z.eqb_spec (Z.of_nat 0 + 1) (tr_count x)) as [E|E]; cbn [fst snd].
    + split; [exact Logic.I|]. right. split.
      * do 3 f_equal. rewrite <- body_all. replace (length (tr_rest x)) with 0%nat by lia. unfold body_upto. cbn. now rewrite app_nil_r.
      * intros j J. assert (j = 0%nat) as -> by lia. apply in_or_app. right. now left.
    + split; [|now left]. exists 1%nat. split; [lia|]. split.
      * unfold body_upto. cbn [firstn concat]. rewrite app_nil_r. reflexivity.
      * intros j J. assert (j = 0%nat) as -> by lia. apply in_or_app. right. now left.
  - destruct o as [p|]; cbn [fst snd]; [|split; [exact Logic.I|now left]].
    destruct U as (n & N & -> & SE). cbn [pd_last pd_header pd_body].
    destruct (Z.eqb_spec (Z.of_nat n + 1) (Z.of_nat i + 1)) as [E|E]; cbn [fst snd]; [|split; [exact Logic.I|now left]].
    assert (n = i) as -> by lia. rewrite <- body_more by lia.
    assert (SE' : forall j, (j < S i)%nat -> In (chunk_at x h j) (seen ++ [chunk_at x h i])).
    { intros j J. apply in_or_app. destruct (Nat.eq_dec j i) as [->|NJ]; [right; now left|left; apply SE; lia]. }
    destruct (Z.eqb_spec (Z.of_nat i + 1) (tr_count x)) as [E'|E']; cbn [fst snd].
    + split; [exact Logic.I|]. right. split; [|intros j J; apply SE'; lia].
      do 2 f_equal. rewrite <- body_all. f_equal. lia.
    + split; [|now left]. exists (S i). split; [lia|]. split; [f_equal; lia|exact SE'].
Qed.

Lemma steps_under_way x h cms : forall seen o, under_way x h seen o ->
  Forall (fun c => exists i, (i <= length (tr_rest x))%nat /\ c = chunk_at x h i) cms ->
  Forall (fun r => r = mkRecv (transfer_key x) h (body_of x)) (snd (steps (transfer_key x) o cms)) /\
  (snd (steps (transfer_key x) o cms) <> [] -> forall j, (j <= length (tr_rest x))%nat -> In (chunk_at x h j) (seen ++ cms)).
Proof.
  induction cms as [|c cms IH]; intros seen o U F; cbn [steps].
  - split; [constructor|]. cbn [snd]. congruence.
  - apply Forall_cons_iff in F as [(i & L & ->) F]. destruct (step_under_way x h seen o i U L) as [U1 D].
    destruct (step1 (transfer_key x) o (chunk_at x h i)) as [o1 e1]. cbn [fst snd] in *.
    destruct (IH _ _ U1 F) as [I1 I2]. destruct (steps (transfer_key x) o1 cms) as [o2 e2]. cbn [snd] in *.
    rewrite <- app_assoc in I2. split.
    + apply Forall_app. split; [|exact I1]. destruct D as [->|[-> _]]; [constructor|constructor; [reflexivity|constructor]].
    + intros NE j J. destruct D as [->|[-> D]]; [now apply I2|]. specialize (D j J). rewrite in_app_iff in *. cbn [In] in *. tauto.
Qed.

Lemma steps_app k a b : forall o, snd (steps k o (a ++ b)) = snd (steps k o a) ++ snd (steps k (fst (steps k o a)) b).
Proof.
  induction a as [|c a IH]; intros o; cbn [app steps]; [reflexivity|]. destruct (step1 k o c) as [o1 e1]. specialize (IH o1).
  destruct (steps k o1 (a ++ b)) as [o2 e2], (steps k o1 a) as [o3 e3]. cbn [fst snd] in *. rewrite IH. apply app_assoc.
Qed.

Lemma forall2_in {A B} (R : A -> B -> Prop) l m : Forall2 R l m -> forall a, In a l -> exists b, In b m /\ R a b.
Proof. induction 1 as [|a b l m H F IH]; intros y Y; [destruct Y|]. destruct Y as [<-|Y]; [exists b; split; [now left|exact H]|]. destruct (IH y Y) as (z & Z1 & Z2). exists z. split; [now right|exact Z2]. Qed.
Lemma forall2_in' {A B} (R : A -> B -> Prop) l m : Forall2 R l m -> forall b, In b m -> exists a, In a l /\ R a b.
Proof. induction 1 as [|a b l m H F IH]; intros y Y; [destruct Y|]. destruct Y as [<-|Y]; [exists a; split; [now left|exact H]|]. destruct (IH y Y) as (z & Z1 & Z2). exists z. split; [now right|exact Z2]. Qed.
Lemma forall2_inj {A B} (R : A -> B -> Prop) l m : (forall a b b', R a b -> R a b' -> b = b') -> Forall2 R l m -> NoDup m ->
  forall a a' b, In a l -> In a' l -> R a b -> R a' b -> a = a'.
Proof.
  intros FN. induction 1 as [|a0 b0 l m H F IH]; intros ND a a' b I I' H1 H2; [destruct I|]. inversion_clear ND as [|? ? N ND'].
  assert (X : forall y, In y l -> R y b0 -> False).
  { intros y Y HY. destruct (forall2_in R l m F y Y) as (z & Z1 & Z2). rewrite (FN _ _ _ HY Z2) in N. contradiction. }
  destruct I as [<-|I], I' as [<-|I'].
  - reflexivity.
  - exfalso. rewrite (FN _ _ _ H1 H) in H2. eauto.
  - exfalso. rewrite (FN _ _ _ H2 H) in H1. eauto.
  - eapply IH; eauto.
Qed.

Theorem whole_or_nothing dbg x : transfer_ok x ->
  exists h, header_is (first_call (tr_opening x) (mkChunk 1 1 None)) h /\
    (size (text_of h) < 16384 ->
     exists ms, transfer_messages dbg x = Ok ms /\
       forall ps ss, Forall wf_sysex ss -> find (fun o => tkey_eqb (transfer_key x) (pd_key o)) ps = None ->
       Forall (fun s => In s ms) (filter (belongs (pc_dst (tr_common x)) (transfer_key x)) ss) ->
       exists ps' out, receive_all dbg (pc_dst (tr_common x)) ps ss = Ok (ps', out) /\
         Forall (fun r => r = mkRecv (transfer_key x) (text_of h) (body_of x)) (filter (about (transfer_key x)) out) /\
         (forall a b, filter (belongs (pc_dst (tr_common x)) (transfer_key x)) ss = a ++ ms ++ b -> filter (about (transfer_key x)) out <> []) /\
         (forall m, In m ms -> ~ In m ss -> filter (about (transfer_key x)) out = [])).
Proof.
  intros OK. destruct (transfer_built dbg x OK) as (h & H & G). exists h. split; trivial. intros L.
  destruct (G L) as (ms & M & F). exists ms. split; trivial. intros ps ss W P A.
  assert (F' : Forall2 (fun s m => read_chunk dbg s = Ok (Some m)) ms (map (chunk_at x (text_of h)) (seq 0 (S (length (tr_rest x)))))).
  { rewrite <- chunks_at. revert F. generalize (mkCM (opening_subtype (tr_opening x)) (pc_src (tr_common x)) (pc_dst (tr_common x)) (pc_request (tr_common x)) (text_of h)
      (tr_count x) 1 (tr_first x) :: later_chunks x 2 (tr_rest x)). clear. intros l F. induction F as [|s m ss cs [X _] _ IH]; constructor; auto. }
  set (me := pc_dst (tr_common x)) in *. set (k := transfer_key x) in *.
  assert (FN : forall s m m', read_chunk dbg s = Ok (Some m) -> read_chunk dbg s = Ok (Some m') -> m = m') by (intros; congruence).
  destruct (receive_all_track dbg me k ss ps W) as (q & o & cms & R & C & _ & O).
  exists q, o. split; [exact R|]. change (track k ps) with (find (fun o => tkey_eqb k (pd_key o)) ps) in O. rewrite P in O.
  assert (CI : Forall (fun c => exists i, (i <= length (tr_rest x))%nat /\ c = chunk_at x (text_of h) i) cms).
  { apply Forall_forall. intros c I. destruct (forall2_in' _ _ _ C c I) as (s & S & RS). rewrite Forall_forall in A.
    destruct (forall2_in _ _ _ F' s (A s S)) as (c' & I' & R'). cbn beta in RS, R'. rewrite (FN _ _ _ RS R').
    apply in_map_iff in I' as (i & <- & I'). apply in_seq in I'. exists i. split; [lia|reflexivity]. }
  destruct (steps_under_way x (text_of h) cms [] None I CI) as [S1 S2]. fold k in S1, S2. rewrite O. split; [exact S1|]. split.
  - intros a b E. rewrite E in C. apply Forall2_app_inv_l in C as (ca & c2 & C1 & C2 & ->).
    apply Forall2_app_inv_l in C2 as (cm & cb & C2 & C3 & ->).
    assert (cm = map (chunk_at x (text_of h)) (seq 0 (S (length (tr_rest x))))) as -> by (eapply forall2_fun; [exact FN|exact C2|exact F']).
    rewrite <- chunks_at, !steps_app. unfold k at 2. rewrite (transfer_run x (text_of h)). cbn [snd].
    intros Z. apply app_eq_nil in Z as [_ Z]. discriminate.
  - intros m I N. destruct (snd (steps k None cms)) as [|r l]; [reflexivity|]. exfalso. apply N.
    destruct (forall2_in _ _ _ F' m I) as (c & I' & R'). cbn beta in R'. apply in_map_iff in I' as (i & <- & I'). apply in_seq in I'.
    assert (J := S2 ltac:(discriminate) i ltac:(lia)). cbn [app] in J. destruct (forall2_in' _ _ _ C _ J) as (s & S & RS). cbn beta in RS.
    assert (s = m) as ->; [|apply filter_In in S; apply S].
    rewrite Forall_forall in A. eapply (forall2_inj _ _ _ FN F'); [|exact (A s S)|exact I|exact RS|exact R'].
    clear. assert (ND := seq_NoDup (S (length (tr_rest x))) 0). revert ND. generalize (seq 0 (S (length (tr_rest x)))).
    induction l as [|a l IH]; intros ND; cbn [map]; [constructor|]. inversion_clear ND as [|? ? N ND']. constructor; [|auto].
    intros Y. apply in_map_iff in Y as (b & E & Y). apply (f_equal cm_index) in E. cbn [chunk_at cm_index] in E.
    assert (a = b) as -> by lia. contradiction.
Qed.
