(* Property C105: properties read and written by several devices are atomic *)
From Coq Require Import ZArith String List Bool Lia.
From Verif Require Import Base Sysex SysexSpec UniversalSysex CapInq PropEx CapSpec JsonSpec JsonProofs Transfer TransferSpec FitProofs SubscribeSpec
  Atomic AtomicSpec AtomicProofs.
Import ListNotations.
Local Open Scope Z_scope.
Local Open Scope res_scope.
Local Open Scope list_scope.

(* Whatever is asked, delivered and lost in whatever order, what the users see is what an atomic memory shows. *)
Theorem C105_atomic : forall dbg cutting P cap, is_u28 P -> cutting_ok cap cutting -> forall store hs,
  (forall x, content_ok cap (store x)) -> Forall (action_ok P cap) hs ->
  exists n tr, acts dbg cutting P (quiet_system store) hs = Ok (n, tr) /\ atomic store (fun _ _ => Idle) tr.
Proof. exact run_atomic. Qed.
Print Assumptions C105_atomic.

(* If nothing is lost, a request without messages on the way has been answered. *)
Theorem C105_no_loss : forall dbg cutting P cap, is_u28 P -> cutting_ok cap cutting -> forall store hs n tr,
  (forall x, content_ok cap (store x)) -> Forall (action_ok P cap) hs -> Forall lossless hs ->
  acts dbg cutting P (quiet_system store) hs = Ok (n, tr) ->
  forall m q, is_u28 m -> is_u7 q -> sy_up n m q = [] -> sy_down n m q = [] -> unanswered m q false tr = false.
Proof. exact run_no_loss. Qed.
Print Assumptions C105_no_loss.

(* Then delivering the messages of a request answers it, whether or not those of others are delivered. *)
Theorem C105_answered : forall dbg cutting P cap, is_u28 P -> cutting_ok cap cutting -> forall store hs m q,
  (forall x, content_ok cap (store x)) -> Forall (action_ok P cap) hs -> Forall lossless hs -> is_u28 m -> is_u7 q ->
  exists a b n tr, acts dbg cutting P (quiet_system store) (hs ++ repeat (DoUp m q) a ++ repeat (DoDown m q) b) = Ok (n, tr) /\
    unanswered m q false tr = false.
Proof. exact run_answered. Qed.
Print Assumptions C105_answered.

(* Therefore: who asks for a value after a change has been answered obtains what was written, if there is no other change. *)
Theorem C105_read_after_write : forall dbg cutting P cap store hs n x v c j b m q w t1 t2 t3 t4 t5,
  is_u28 P -> cutting_ok cap cutting -> (forall x, content_ok cap (store x)) -> Forall (action_ok P cap) hs ->
  acts dbg cutting P (quiet_system store) hs =
    Ok (n, t1 ++ Asks c j (RSet x v) :: t2 ++ Gets c j b :: t3 ++ Asks m q (RGet x) :: t4 ++ Gets m q (AValue w) :: t5) ->
  no_write x (t1 ++ t2 ++ t3 ++ t4) -> no_answer c j t2 -> no_answer m q t4 -> w = v.
Proof.
  intros dbg cutting P cap store hs n x v c j b m q w t1 t2 t3 t4 t5 PP CC S A E N N2 N4.
  destruct (run_atomic dbg cutting P cap PP CC store hs S A) as (n' & tr & E' & AT).
  rewrite E in E'. injection E' as _ <-.
  refine (read_after_write x v c j b m q w t2 t3 t4 t5 store _ _ AT _ t1 eq_refl _ _ N2 _ _ N4); try (intros k i u; discriminate); try (intros k i u I; apply (N k i u); rewrite !in_app_iff; auto).
Qed.
Print Assumptions C105_read_after_write.

(* An atomic memory shows no value that was replaced before it was asked for. *)
Theorem C105_not_stale : forall store x v w c m, v <> w ->
  ~ atomic store (fun _ _ => Idle) [Asks c 1 (RSet x v); Gets c 1 ADone; Asks m 2 (RGet x); Gets m 2 (AValue w)].
Proof.
  intros store x v w c m N A. apply N. symmetry.
  refine (read_after_write x v c 1 ADone m 2 w [] [] [] [] store _ _ A _ [] eq_refl _ _ _ _ _ _); try (intros ? ? ?; discriminate); try (intros ? ? ? []); try (intros ? []).
Qed.
Print Assumptions C105_not_stale.

(* ---- a concrete case: two devices, values in two chunks, messages interleaved, others in between ------------------ *)

Definition c105_cutting (v : list Z) : list Z * list (list Z) := (firstn 2 v, [skipn 2 v]).
Definition c105_store (x : list Z) : list Z := if list_eq_dec Z.eq_dec x (str "State") then [1; 2; 3] else [].
Definition c105_noise : sysex :=
  match pe_build true (mkCommon 0x111 0x333 5 0x7F) (PSubscribe (str "State") (str "start") (str "one")) with Ok s => s | Fault _ => mkSx 0 [] end.
Definition c105_hs : list action :=
  [DoAsk 0x111 1 (RSet (str "State") [10; 11; 12]); DoAsk 0x222 1 (RGet (str "State")); DoUp 0x111 1; DoOther c105_noise; DoUp 0x222 1;
   DoAsk 0x222 2 (RSet (str "State") [20]); DoUp 0x222 2; DoUp 0x111 1; DoAsk 0x111 2 (RGet (str "State")); DoDown 0x222 1; DoUp 0x111 2;
   DoDown 0x111 1; DoOtherTo 0x222 c105_noise; DoDown 0x111 2; DoDown 0x111 2; DoUp 0x222 2; DoDown 0x222 2; DoDown 0x222 1;
   DoAsk 0x111 1 (RGet (str "State")); DoUp 0x111 1; DoDown 0x111 1; DoDown 0x111 1].
Definition c105_seen (dbg : bool) : res (list seen) := r <- acts dbg c105_cutting 0x333 (quiet_system c105_store) c105_hs ;; Ok (snd r).

(* a read and the first part of a write are lost; another device reads what was there before *)
Definition c105_losing : list action :=
  [DoAsk 0x111 1 (RSet (str "State") [10; 11; 12]); DoAsk 0x111 2 (RGet (str "State")); DoLoseUp 0x111 1; DoUp 0x111 1; DoUp 0x111 2;
   DoAsk 0x222 1 (RGet (str "State")); DoUp 0x222 1; DoDown 0x222 1; DoDown 0x222 1; DoDown 0x111 2; DoLoseDown 0x111 2].
Definition c105_lost (dbg : bool) : res (list seen) := r <- acts dbg c105_cutting 0x333 (quiet_system c105_store) c105_losing ;; Ok (snd r).

(* A device that gives up and uses the request id again: a chunk of each of two writes is lost, and the others together are a
   value nobody wrote. *)
Definition c105_reusing : list action :=
  [DoAsk 0x111 1 (RSet (str "State") [10; 11; 12]); DoUp 0x111 1; DoLoseUp 0x111 1; DoGiveUp 0x111 1;
   DoAsk 0x111 1 (RSet (str "State") [20; 21; 22]); DoLoseUp 0x111 1; DoUp 0x111 1; DoDown 0x111 1;
   DoAsk 0x222 1 (RGet (str "State")); DoUp 0x222 1; DoDown 0x222 1; DoDown 0x222 1].

Lemma c105_noise_wf : wf_sysex c105_noise.
Proof.
  split; [vm_compute; split; congruence|]. apply Forall_forall.
  assert (F : forallb (fun c => (0 <=? c) && (c <? 256)) (sx_data c105_noise) = true) by (vm_compute; reflexivity).
  rewrite forallb_forall in F. intros c I. specialize (F c I). unfold is_u8. lia.
Qed.
Lemma c105_noise_other d t m q : t <> 0x38 -> belongs d (t, m, q) c105_noise = false.
Proof.
  intros N. unfold belongs. change (view_subtype c105_noise) with (Ok 0x38). cbn [fst snd].
  destruct (Z.eqb_spec 0x38 t) as [<-|_]; [contradiction|]. cbn [andb].
  now destruct (property_data_validate c105_noise) as [[]|], (source_muid c105_noise), (destination_muid c105_noise), (request_id c105_noise).
Qed.
Lemma c105_cutting_ok : cutting_ok 1000 c105_cutting.
Proof.
  intros v [A L]. unfold c105_cutting, bytes_of, value_ok. cbn [fst snd List.concat]. rewrite app_nil_r. split; [apply firstn_skipn|].
  split; [|cbn; lia]. unfold all7 in A. rewrite <- (firstn_skipn 2 v), Forall_app in A. destruct A as [A1 A2].
  assert (Q := f_equal (@List.length Z) (firstn_skipn 2 v)). rewrite app_length in Q. unfold size in L.
  repeat constructor; trivial; unfold size; lia.
Qed.
Lemma c105_name : resource_ok (str "State").
Proof. split; [now apply plain_name|]. split; [now apply all7_name|]. cbn. lia. Qed.
Lemma c105_store_ok x : content_ok 1000 (c105_store x).
Proof. unfold c105_store. destruct (list_eq_dec _ _ _); (split; [|cbn; lia]); repeat constructor; unfold is_u7; lia. Qed.
Ltac c105_actions :=
  assert (U7 : forall q, 0 <= q < 128 -> is_u7 q) by (unfold is_u7; lia);
  assert (C : forall l, forallb (fun c => (0 <=? c) && (c <? 128)) l = true -> size l <= 1000 -> content_ok 1000 l)
    by (intros l F L; split; [|exact L]; apply Forall_forall; rewrite forallb_forall in F; intros c I; specialize (F c I); unfold is_u7; lia);
  repeat (apply Forall_cons || apply Forall_nil); cbn [action_ok request_ok];
  repeat (apply c105_name || (apply C; [reflexivity|cbn; lia]) || apply c105_noise_wf || (apply U7; lia) || (unfold is_u28; lia) || split);
  try (intros; split; apply c105_noise_other; discriminate).
Example C105_ex : cutting_ok 1000 c105_cutting /\ (forall x, content_ok 1000 (c105_store x)) /\
  Forall (action_ok 0x333 1000) c105_hs /\ Forall lossless c105_hs /\
  c105_seen true = Ok
    [Asks 0x111 1 (RSet (str "State") [10; 11; 12]); Asks 0x222 1 (RGet (str "State")); Asks 0x222 2 (RSet (str "State") [20]);
     Asks 0x111 2 (RGet (str "State")); Gets 0x111 1 ADone; Gets 0x111 2 (AValue [10; 11; 12]); Gets 0x222 2 ADone;
     Gets 0x222 1 (AValue [1; 2; 3]); Asks 0x111 1 (RGet (str "State")); Gets 0x111 1 (AValue [20])].
Proof.
  split; [apply c105_cutting_ok|]. split; [apply c105_store_ok|]. split; [unfold c105_hs; c105_actions|].
  split; [unfold c105_hs; repeat constructor|vm_compute; reflexivity].
Qed.
Example C105_lossy_ex : Forall (action_ok 0x333 1000) c105_losing /\
  c105_lost true = Ok
    [Asks 0x111 1 (RSet (str "State") [10; 11; 12]); Asks 0x111 2 (RGet (str "State")); Asks 0x222 1 (RGet (str "State"));
     Gets 0x222 1 (AValue [1; 2; 3])].
Proof. split; [unfold c105_losing; c105_actions|vm_compute; reflexivity]. Qed.

Definition gives_up (h : action) : Prop := match h with DoGiveUp _ _ => True | _ => False end.
(* Who waits no longer must not use the request id again: a value may be read that nobody wrote. *)
Theorem C105_reused_id_refuted : exists dbg cutting P cap store hs n tr x m q w,
  is_u28 P /\ cutting_ok cap cutting /\ (forall x, content_ok cap (store x)) /\ Forall (fun h => action_ok P cap h \/ gives_up h) hs /\
  acts dbg cutting P (quiet_system store) hs = Ok (n, tr) /\
  In (Asks m q (RGet x)) tr /\ In (Gets m q (AValue w)) tr /\ w <> store x /\ forall k i y, ~ In (Asks k i (RSet y w)) tr.
Proof.
  assert (T : (r <- acts true c105_cutting 0x333 (quiet_system c105_store) c105_reusing ;; Ok (snd r)) = Ok
    [Asks 0x111 1 (RSet (str "State") [10; 11; 12]); Asks 0x111 1 (RSet (str "State") [20; 21; 22]); Gets 0x111 1 ADone;
     Asks 0x222 1 (RGet (str "State")); Gets 0x222 1 (AValue [10; 11; 22])]) by (vm_compute; reflexivity).
  destruct (acts true c105_cutting 0x333 (quiet_system c105_store) c105_reusing) as [[n tr]|] eqn:E; [|discriminate T].
  cbn [bind snd] in T. apply same_ok in T.
  exists true, c105_cutting, 0x333, 1000, c105_store, c105_reusing, n, tr, (str "State"), 0x222, 1, [10; 11; 22].
  split; [unfold is_u28; lia|]. split; [apply c105_cutting_ok|]. split; [apply c105_store_ok|]. split.
  { assert (H : Forall (action_ok 0x333 1000) (filter (fun h => match h with DoGiveUp _ _ => false | _ => true end) c105_reusing)) by (cbn [c105_reusing filter]; c105_actions).
    apply Forall_forall. intros h I. destruct h as [| | | | |m q| |]; try (left; rewrite Forall_forall in H; apply H; apply filter_In; split; [exact I|reflexivity]).
    right. exact Logic.I. }
  split; [exact E|]. subst tr. split; [cbn; tauto|]. split; [cbn; tauto|]. split; [vm_compute; discriminate|].
  intros k i y I. cbn [In] in I. repeat (destruct I as [I|I]; [discriminate I|]). exact I.
Qed.
Print Assumptions C105_reused_id_refuted.
