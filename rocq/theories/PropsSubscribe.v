(* Property C104: subscribers follow a property *)
From Coq Require Import ZArith String List Bool Lia.
From Verif Require Import Base Sysex SysexSpec UniversalSysex CapInq PropEx CapSpec JsonSpec JsonProofs Transfer TransferSpec Subscribe SubscribeSpec SubscribeProofs.
Import ListNotations.
Local Open Scope Z_scope.
Local Open Scope res_scope.
Local Open Scope list_scope.

(* Whatever happens in whatever order, other messages included: at any time the values a device has received are values that the property has had,
   in this order; and once nothing is on the way any more, a device that wants to be subscribed has the present value. *)
Theorem C104_copies : forall dbg ids P r v0 hs, subscription_ok ids P r v0 -> Forall (happening_ok ids P r) hs ->
  exists n, run dbg ids (quiet_net P r v0) hs = Ok n /\ forall m, is_u28 m ->
    follows (sb_values (nt_sub n m)) (bytes_of v0 :: history hs) /\
    (nt_up n m = [] -> nt_down n m = [] -> wants m false hs = true -> exists l, sb_values (nt_sub n m) = l ++ [present v0 hs]).
Proof. exact copies. Qed.
Print Assumptions C104_copies.

(* Nothing is on the way any more as soon as the messages have been delivered, which is always possible. *)
Theorem C104_delivered : forall dbg ids P r v0 hs m, subscription_ok ids P r v0 -> Forall (happening_ok ids P r) hs -> is_u28 m ->
  exists a b n, run dbg ids (quiet_net P r v0) (hs ++ repeat (HUp m) a ++ repeat (HDown m) b) = Ok n /\
    nt_up n m = [] /\ nt_down n m = [] /\ (wants m false hs = true -> exists l, sb_values (nt_sub n m) = l ++ [present v0 hs]).
Proof. exact delivered. Qed.
Print Assumptions C104_delivered.

(* A device that has ended its subscription receives no value any more until it subscribes again. *)
Theorem C104_ended : forall dbg ids P r v0 hs hs' n n' m, subscription_ok ids P r v0 -> Forall (happening_ok ids P r) (hs ++ hs') -> is_u28 m ->
  run dbg ids (quiet_net P r v0) hs = Ok n -> wants m false hs = false -> nt_up n m = [] -> nt_down n m = [] ->
  ~ In (HStart m) hs' -> run dbg ids n hs' = Ok n' -> sb_values (nt_sub n' m) = sb_values (nt_sub n m).
Proof. exact ended. Qed.
Print Assumptions C104_ended.

(* ---- a concrete case: two subscribers, values in pieces, messages delivered late ------------------------------- *)

Definition c104_ids (m : Z) : list Z := if m =? 0x222 then str "two" else str "one".
Definition c104_v0 : list Z * list (list Z) := ([1; 2], [[3]]).
(* a reply of the publisher whose header looks like that of a subscription *)
Definition c104_noise : sysex :=
  match pe_build true (mkCommon 0x333 0x111 0 0x7F) (PGetReply (Some (sub_text (str "ChannelList") cmd_full (str "one"))) (mkChunk 1 1 (Some [99]))) with
  | Ok s => s
  | Fault _ => mkSx 0 []
  end.
Definition c104_hs : list happening :=
  [HStart 0x111; HSet ([10], []); HUp 0x111; HDown 0x111; HOtherTo 0x111 c104_noise; HOther c104_noise; HElse 0x222 (str "Other") cmd_start (str "two"); HAlso 0x111 (str "ChannelList") cmd_full (str "two") ([98], []); HAlso 0x111 (str "ChannelList") (str "partial") (str "one") ([97], [[96]]); HAlso 0x111 (str "Other") cmd_full (str "one") ([95], []); HSet ([20; 21], [[22]; [23]]); HStart 0x222; HUp 0x222; HDown 0x111; HDown 0x111;
   HEnd 0x222; HSet ([30], [[31]])].
Definition c104_rest : list happening :=
  [HUp 0x222] ++ repeat (HDown 0x222) 15 ++ repeat (HDown 0x111) 15 ++ [HSet ([40], [])].

Lemma c104_name s : forallb (fun c => (32 <=? c) && (c <? 128) && negb (c =? 34) && negb (c =? 92) && negb (is_digit c) && negb (c =? 45)) (str s) = true ->
  str s <> [] -> size (str s) <= 8000 -> name_ok (str s).
Proof.
  intros F N L. rewrite forallb_forall in F.
  assert (D : forall c, In c (str s) -> 32 <= c < 128 /\ c <> 34 /\ c <> 92 /\ is_digit c = false /\ c <> 45).
  { intros c C. specialize (F c C). rewrite !andb_true_iff, !negb_true_iff in F. rewrite !Z.eqb_neq in F. intuition lia. }
  assert (PI : parse_integer (str s) = None).
  { destruct (str s) as [|c t] eqn:E; [contradiction|]. destruct (D c (or_introl eq_refl)) as (_ & _ & _ & X & Y).
    unfold parse_integer. destruct (Z.eq_dec c 45) as [|_]; [contradiction|].
    assert (SD : span_digits (c :: t) = ([], c :: t)) by (cbn [span_digits]; now rewrite X).
    destruct c as [|p|p]; rewrite ?SD; cbn [proper_digits]; try reflexivity.
    repeat (destruct p as [p|p|]; rewrite ?SD; cbn [proper_digits]; try reflexivity; try (exfalso; now apply Y)). }
  split; [split; [|split; [exact N|]]|split; [|split]].
  - apply Forall_forall. intros c C. destruct (D c C) as (A & B & E & _). lia.
  - intros (_ & FD & _). destruct (str s) as [|c t]; [contradiction|]. destruct (D c (or_introl eq_refl)) as (_ & _ & _ & X & Y).
    assert (FD' : Forall (fun c => is_digit c = true) (c :: t)).
    { revert FD. destruct c as [|p|p]; trivial. repeat (destruct p as [p|p|]; trivial). exfalso. now apply Y. }
    apply Forall_cons_iff in FD' as [FD' _]. congruence.
  - unfold value_of. now rewrite PI.
  - apply Forall_forall. intros c C. destruct (D c C) as (A & _). unfold is_u7. lia.
  - exact L.
Qed.
Lemma c104_ok : subscription_ok c104_ids 0x333 (str "ChannelList") c104_v0.
Proof.
  split; [|split; [unfold is_u28; lia|split]].
  - intros m _. unfold c104_ids. destruct (m =? 546); apply c104_name; try reflexivity; try discriminate; cbn; lia.
  - apply c104_name; [reflexivity|discriminate|cbn; lia].
  - split; [|cbn; lia]. repeat constructor; unfold is_u7; try (cbn; lia).
Qed.
Lemma c104_noise_wf : wf_sysex c104_noise.
Proof.
  split; [vm_compute; split; congruence|]. apply Forall_forall.
  assert (F : forallb (fun c => (0 <=? c) && (c <? 256)) (sx_data c104_noise) = true) by (vm_compute; reflexivity).
  rewrite forallb_forall in F. intros c I. specialize (F c I). unfold is_u8. lia.
Qed.
Lemma c104_noise_other d m q : belongs d (0x38, m, q) c104_noise = false.
Proof.
  unfold belongs. change (view_subtype c104_noise) with (Ok 0x35). cbn [fst snd]. change (0x35 =? 0x38) with false. cbn [andb].
  now destruct (property_data_validate c104_noise) as [[]|], (source_muid c104_noise), (destination_muid c104_noise), (request_id c104_noise).
Qed.
Definition c104_values (dbg : bool) (hs : list happening) (m : Z) : res (list (list Z)) :=
  n <- run dbg c104_ids (quiet_net 0x333 (str "ChannelList") c104_v0) hs ;; Ok (sb_values (nt_sub n m)).
Example C104_ex : subscription_ok c104_ids 0x333 (str "ChannelList") c104_v0 /\ Forall (happening_ok c104_ids 0x333 (str "ChannelList")) (c104_hs ++ c104_rest) /\
  wants 0x111 false c104_hs = true /\ wants 0x222 false c104_hs = false /\
  c104_values true c104_hs 0x111 = Ok [[10]] /\ c104_values true c104_hs 0x222 = Ok [] /\
  c104_values true (c104_hs ++ c104_rest) 0x111 = Ok [[10]; [20; 21; 22; 23]; [30; 31]] /\
  c104_values true (c104_hs ++ c104_rest) 0x222 = Ok [[20; 21; 22; 23]; [30; 31]].
Proof.
  split; [apply c104_ok|]. split.
  { unfold c104_hs, c104_rest. repeat (apply Forall_cons || (apply Forall_app; split) || apply Forall_nil);
      try (apply Forall_forall; intros h X; apply repeat_spec in X; subst h); cbn [happening_ok]; try (unfold is_u28; lia);
      try exact (conj c104_noise_wf (c104_noise_other 0x333)); try (split; [unfold is_u28; lia|exact (conj c104_noise_wf (c104_noise_other 0x111 0x333))]);
      try (split; [unfold is_u28; lia|]; split; [apply c104_name; [reflexivity|discriminate|cbn; lia]|]; split; [discriminate|];
        split; [apply c104_name; [reflexivity|discriminate|cbn; lia]|now left]);
      try (split; [unfold is_u28; lia|]; split; [apply c104_name; [reflexivity|discriminate|cbn; lia]|];
        split; [apply c104_name; [reflexivity|discriminate|cbn; lia]|];
        split; [split; [repeat constructor; unfold is_u7; try (cbn; lia)|cbn; lia]|]; split; [unfold cmd_full; cbn [In]; tauto|];
        (left; discriminate) || (right; left; discriminate) || (right; right; discriminate));
      unfold value_ok, piece_ok, all7; cbn; repeat constructor; unfold is_u7; try (cbn; lia). }
  vm_compute. repeat split; reflexivity.
Qed.

(* make_subscription_inquiry without chunk arguments numbers its message as chunk 0 of 0, all other constructors as chunk 1
   of 1: a receiver that puts chunks together as those of C89 does not obtain the command. *)
Theorem C104_command_as_property_refuted : exists s m, command true 0x111 0x333 (str "ChannelList") cmd_start (str "one") = Ok s /\
  read_chunk true s = Ok (Some m) /\ cm_destination m = 0x333 /\ cm_count m = 0 /\ cm_index m = 0 /\
  receive_all true 0x333 [] [s] = Ok ([], []).
Proof. eexists _, _. split; [vm_compute; reflexivity|]. split; [vm_compute; reflexivity|]. vm_compute. auto. Qed.
Print Assumptions C104_command_as_property_refuted.
