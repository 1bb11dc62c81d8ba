(* C107: browsers that keep what they have found out are up to date *)
From Coq Require Import ZArith List Bool Lia.
From Verif Require Import Base Packet PacketSpec Sysex SysexSpec Endpoint EndpointSpec Browse BrowseSpec PropsBrowse Directory DirectorySpec DirectoryProofs.
Import ListNotations.
Local Open Scope Z_scope.
Local Open Scope res_scope.

(* Whatever changes, whatever is asked by whom, whenever packets arrive: no call has undefined behaviour. *)
Theorem C107_runs : forall dbg d acts, described d -> Forall act_ok acts ->
  exists s, site_run dbg (new_site d) acts = Ok s /\ described (si_endpoint s).
Proof. exact site_runs. Qed.
Print Assumptions C107_runs.

(* When nothing is on its way to a browser, everything it knows is what the endpoint says now. *)
Theorem C107_up_to_date : forall dbg d acts s i, described d -> Forall act_ok acts -> site_run dbg (new_site d) acts = Ok s ->
  si_links s i = [] -> forall k f, knows s i k = Some f -> says (si_endpoint s) k = Some f.
Proof. exact up_to_date. Qed.
Print Assumptions C107_up_to_date.

(* If in addition none of its requests is on its way, it knows all it has ever asked for. *)
Theorem C107_complete : forall dbg d acts s i q k, described d -> Forall act_ok acts -> site_run dbg (new_site d) acts = Ok s ->
  si_links s i = [] -> si_requests s i = [] -> In (AAsk i q) acts -> asks q k = true -> knows s i k = says (si_endpoint s) k.
Proof. exact complete. Qed.
Print Assumptions C107_complete.

(* At any time, all that a browser knows was true at one and the same moment, and these moments never go back. *)
Theorem C107_snapshot : forall dbg d acts i, described d -> Forall act_ok acts ->
  exists t : nat -> nat, (forall m, (m <= length acts)%nat -> (t m <= m)%nat) /\
    (forall m m', (m <= m' <= length acts)%nat -> (t m <= t m')%nat) /\
    forall m s s', (m <= length acts)%nat -> site_run dbg (new_site d) (firstn m acts) = Ok s ->
      site_run dbg (new_site d) (firstn (t m) acts) = Ok s' ->
      forall k f, knows s i k = Some f -> says (si_endpoint s') k = Some f.
Proof. exact snapshots. Qed.
Print Assumptions C107_snapshot.

(* ---- a concrete case: the endpoint of C90, renamed while its answers are on the way ------------------------------- *)

Definition c107_new_name : list Z := [78; 101; 119; 32; 110; 97; 109; 101; 32; 111; 102; 32; 105; 116; 33; 33].
Definition c107_ask_all : packet := mkP 0xF0000101 0x0000001F 0 0.
Definition c107_ask_blocks : packet := mkP 0xF010FF03 0 0 0.
Definition c107_acts : list act :=
  [AAsk 0 c107_ask_all; AServe 0; AHear 0; AChange (ChName c107_new_name); AOther 0 2 c90_note; AAsk 1 c107_ask_blocks;
   AHear 0; AHear 0; AHear 0; AHear 0; AHear 0; AServe 1; AChange (ChBlock 1 (mkFbOptions false 1 0 1 2 8) 5 2); AChange (ChBlockName 1 [65])]
  ++ repeat (AHear 0) 20 ++ repeat (AHear 1) 20.
Example C107_ex : described c90_d /\ Forall act_ok c107_acts /\
  asks c107_ask_all (OfText TName) = true /\ asks c107_ask_blocks (OfBlock 1) = true /\
  (* the old name is known first, then the new one *)
  match site_run true (new_site c90_d) (firstn 11 c107_acts) with
  | Ok s => knows s 0 (OfText TName) = Some (FText TName c90_name) /\ says (si_endpoint s) (OfText TName) = Some (FText TName c107_new_name)
  | Fault _ => False
  end /\
  match site_run true (new_site c90_d) c107_acts with
  | Ok s => si_links s 0 = [] /\ si_links s 1 = [] /\ si_requests s 0 = [] /\ si_requests s 1 = [] /\
    knows s 0 (OfText TName) = Some (FText TName c107_new_name) /\ knows s 0 OfInfo = says c90_d OfInfo /\
    knows s 1 (OfBlock 1) = Some (FReport (RBlockInfo false 1 1 0 1 5 2 2 8)) /\
    knows s 1 (OfText (TBlock 1)) = Some (FText (TBlock 1) [65]) /\
    knows s 1 (OfText (TBlock 0)) = Some (FText (TBlock 0) [77; 97; 105; 110])
  | Fault _ => False
  end.
Proof.
  split; [|split].
  - split; [exact C90_ok|]. repeat constructor; cbn; intuition discriminate.
  - unfold c107_acts. apply Forall_app. split; [|apply Forall_app; split; apply Forall_forall; intros a I; apply repeat_spec in I; now subst a].
    repeat (constructor; [cbn [act_ok change_ok stream_in_range fo_direction fo_midi1 fo_ui_hint fo_ci_version fo_sysex8]; trivial;
      try (split; [|reflexivity]); try (unfold wf_packet, c107_ask_all, c107_ask_blocks, c90_note, is_u32; cbn; lia);
      try (unfold is_u8; lia); try (repeat (constructor; [unfold is_char7; lia|]); constructor)|]). constructor.
  - vm_compute. auto 20.
Qed.
