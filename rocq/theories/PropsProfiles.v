(* C93: a controller follows the profiles of a device *)
From Coq Require Import ZArith List Bool Lia.
From Verif Require Import Base Sysex UniversalSysex SysexSpec CapInq CapSpec CapCalls CapMake CapRead CiNetSpec Profiles ProfilesSpec ProfilesProofs.
Import ListNotations.
Local Open Scope Z_scope.
Local Open Scope res_scope.

(* Whatever arrives at the device and whatever profiles it adds and removes, nothing goes wrong, and the controller that
   receives the messages of the device in their order, with any messages of others between them, agrees with the device about all
   profiles of a channel, group or function block, if it agreed before or if its inquiry was among the messages the device got. *)
Theorem C93_follows : forall dbg me device st is,
  muid_ok me -> muid_ok device -> me <> device -> profiles_ok st -> Forall input_ok is ->
  exists st' outs, serve_all dbg device st is = Ok (st', outs) /\ profiles_ok st' /\
    forall m received,
      Forall (fun s => Forall is_u7 (sx_data s)) received -> filter (from device) received = outs ->
      exists m', follow_all dbg me device m received = Ok m' /\
        forall dev, is_u7 dev ->
          (forall p, status_of m dev p = status_of st dev p) \/
          (exists q, make_profile_inquiry_message dbg me device dev = Ok q /\ In (InMessage q) is) ->
          forall p, status_of m' dev p = status_of st' dev p.
Proof.
  intros dbg me device st is M N X O I. destruct (serve_history dbg me device is M N X I st O) as (st' & outs & S & O' & _ & T).
  exists st', outs. split; [exact S|]. split; [exact O'|]. intros m received R F. destruct (T m) as (m' & E & A).
  exists m'. split; [|exact A]. rewrite (follow_filter dbg me device received R m), F. exact E.
Qed.
Print Assumptions C93_follows.

(* All a device says is 7-bit and in its name. *)
Theorem C93_said : forall dbg me device st is st' outs,
  muid_ok me -> muid_ok device -> me <> device -> profiles_ok st -> Forall input_ok is ->
  serve_all dbg device st is = Ok (st', outs) ->
  Forall (fun s => Forall is_u7 (sx_data s) /\ from device s = true) outs.
Proof.
  intros dbg me device st is st' outs M N X O I S. destruct (serve_history dbg me device is M N X I st O) as (a & b & S' & _ & T & _).
  rewrite S in S'. injection S' as <- <-. exact T.
Qed.
Print Assumptions C93_said.

(* A request to set a profile on or off is obeyed if the device has the profile, and concerns nothing else. *)
Theorem C93_switch : forall dbg me device st p d,
  muid_ok me -> muid_ok device -> me <> device -> profiles_ok st ->
  is_u7 (pd_scope d) -> is_u14 (pd_channels d) -> profile_ok p ->
  forall on : bool, exists q st' outs,
    (if on then make_profile_on_request dbg me device p d else make_profile_off_request dbg me device p d) = Ok q /\
    input_ok (InMessage q) /\ serve dbg device st (InMessage q) = Ok (st', outs) /\
    status_of st' (pd_scope d) p = option_map (fun _ => on) (status_of st (pd_scope d) p) /\
    forall dev r, (dev, r) <> (pd_scope d, p) -> status_of st' dev r = status_of st dev r.
Proof.
  intros dbg me device st p d M N X O V1 V2 P on.
  destruct (serve_request dbg on me device st p d M N X O V1 V2 P) as (q & Q & S7 & outs & S).
  eexists q, _, outs. split; [exact Q|]. split; [exact S7|]. split; [exact S|].
  destruct (status_of st (pd_scope d) p) as [b|] eqn:E; cbn [option_map].
  - split; [rewrite status_put, keyb_same; reflexivity|]. intros dev r D. rewrite status_put.
    destruct (key_eqb (pd_scope d) p dev r) eqn:K; [|reflexivity]. apply keyb_iff in K. destruct D. now destruct K as [-> ->].
  - split; [exact E|reflexivity].
Qed.
Print Assumptions C93_switch.

(* A profile added is off and one removed is gone; an addition is refused only if the profile is there already or there
   is no room in a report. *)
Theorem C93_changes : forall dbg device st dev p,
  muid_ok device -> profiles_ok st -> is_u7 dev -> profile_ok p ->
  (exists st' outs, serve dbg device st (InRemove dev p) = Ok (st', outs) /\ status_of st' dev p = None /\
     forall e r, (e, r) <> (dev, p) -> status_of st' e r = status_of st e r) /\
  (exists st' outs, serve dbg device st (InAdd dev p) = Ok (st', outs) /\
     (forall e r, (e, r) <> (dev, p) -> status_of st' e r = status_of st e r) /\
     (status_of st' dev p = Some false \/
      st' = st /\ (status_of st dev p <> None \/ 16383 <= size (filter (fun e => pe_dev e =? dev) st)))).
Proof.
  intros dbg device st dev p N O V P. split.
  - destruct (status_of st dev p) as [b|] eqn:E.
    + cbn [serve]. rewrite E. pose proof (ci_built dbg _ (report_range device RkRemoved dev p N I V P)) as BD. cbn [build report_call] in BD.
      rewrite BD. cbn [bind]. eexists _, _. split; [reflexivity|]. split; [rewrite status_drop, keyb_same; reflexivity|].
      intros e r D. rewrite status_drop. destruct (key_eqb dev p e r) eqn:K; [|reflexivity]. apply keyb_iff in K. destruct D.
      now destruct K as [-> ->].
    + cbn [serve]. rewrite E. exists st, []. auto.
  - cbn [serve]. destruct (status_of st dev p) as [b|] eqn:E.
    { exists st, []. split; [reflexivity|]. split; [reflexivity|]. right. split; [reflexivity|]. left. discriminate. }
    destruct (Z.leb_spec 16383 (size (of_dev dev st))) as [Q|Q].
    { exists st, []. split; [reflexivity|]. split; [reflexivity|]. right. split; [reflexivity|]. right. exact Q. }
    pose proof (ci_built dbg _ (report_range device RkAdded dev p N I V P)) as BD. cbn [build report_call] in BD.
    rewrite BD. cbn [bind]. eexists _, _. split; [reflexivity|]. split.
    + intros e r D. rewrite status_put. destruct (key_eqb dev p e r) eqn:K; [|reflexivity]. apply keyb_iff in K. destruct D.
      now destruct K as [-> ->].
    + left. rewrite status_put, keyb_same. reflexivity.
Qed.
Print Assumptions C93_changes.

(* The controller survives messages of any bytes and sizes. *)
Theorem C93_safe : forall dbg me device m ss,
  Forall (fun s => Forall is_u8 (sx_data s)) ss -> exists m', follow_all dbg me device m ss = Ok m'.
Proof. intros dbg me device m ss F. exact (follow_all_total dbg me device ss F m). Qed.
Print Assumptions C93_safe.

(* ---- a device with three profiles, asked in the middle of its life -------------------------------- *)

Definition c93_p (n : Z) : profile_id := mkProf 0x7E n 1 1 0.
Definition c93_dev : Z := 0x0ABCDEF. Definition c93_ctl : Z := 0x0000123.
Definition c93_st : list prof_entry := [mkEntry 0 (c93_p 1) true; mkEntry 0 (c93_p 2) false; mkEntry 0x7F (c93_p 1) false].

Example C93_ok : muid_ok c93_dev /\ muid_ok c93_ctl /\ c93_ctl <> c93_dev /\ profiles_ok c93_st.
Proof.
  unfold muid_ok, c93_dev, c93_ctl. repeat apply conj; try lia.
  - repeat constructor; cbn; lia.
  - cbn [map c93_st pe_dev pe_id]. repeat (apply NoDup_cons; [cbn; unfold c93_p; intros H; repeat destruct H as [H|H]; try discriminate H; try destruct H|]). apply NoDup_nil.
  - intros d. unfold of_dev, c93_st, size. cbn [filter pe_dev]. destruct (0 =? d), (0x7F =? d); cbn; lia.
Qed.

Definition c93_junk : list sysex :=
  [mkSx 0x7E0000 [0x7F; 0x0D; 0x21]; mkSx 0x7E0000 [0x7F; 0x06; 0x01]; mkSx 0x002109 [0x7F; 0x0D; 0x24; 2; 1; 2; 3; 4]].
Example C93_ex :
  (q <- make_profile_inquiry_message true c93_ctl c93_dev 0 ;;
   on <- make_profile_on_request true c93_ctl c93_dev (c93_p 2) (mkDest 0 1) ;;
   off <- make_profile_off_request true c93_ctl c93_dev (c93_p 1) (mkDest 0 1) ;;
   d <- serve_all true c93_dev c93_st
          ([InAdd 0 (c93_p 3)] ++ map InMessage c93_junk ++ [InMessage on; InMessage q; InRemove 0 (c93_p 3); InMessage off]) ;;
   m <- follow_all true c93_ctl c93_dev [mkEntry 0 (c93_p 9) true] (c93_junk ++ snd d) ;;
   Ok (map (fun p => (status_of (fst d) 0 p, status_of m 0 p)) [c93_p 1; c93_p 2; c93_p 3; c93_p 9], length (snd d)))
  = Ok ([(Some false, Some false); (Some true, Some true); (None, None); (None, None)], 5%nat).
Proof. vm_compute. reflexivity. Qed.
