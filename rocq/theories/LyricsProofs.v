(* Lemmas about texts in flex data messages *)
From Coq Require Import ZArith List Bool Lia ZifyBool ZifyNat.
From Verif Require Import Base Bits Packet PacketSpec PacketProofs Sysex SysexSpec CapWire Endpoint EndpointSpec EndpointProofs
  Flex FlexSpec FlexProofs Lyrics LyricsSpec.
Import ListNotations.
Local Open Scope Z_scope.
Local Open Scope res_scope.

Lemma flex_key_spec a b : reflect (a = b) (flex_key_eqb a b).
Proof.
  destruct a as [g a c b' s], b as [g' a' c' b'' s']. unfold flex_key_eqb. cbn [fk_group fk_address fk_channel fk_bank fk_status].
  destruct (Z.eqb_spec g g'), (Z.eqb_spec a a'), (Z.eqb_spec c c'), (Z.eqb_spec b' b''), (Z.eqb_spec s s');
    cbn [andb]; constructor; congruence.
Qed.
Lemma flex_key_refl k : flex_key_eqb k k = true.
Proof. now destruct (flex_key_spec k k). Qed.

(* ---- one text among others --------------------------------------------------------------- *)

Definition of_key (k : flex_key) (x : flex_key * list Z) : bool := flex_key_eqb k (fst x).
Definition so_far (k : flex_key) (u : open_texts) : option (list Z) :=
  match find (of_key k) u with Some x => Some (snd x) | None => None end.
Definition spell_step (k : flex_key) (o : option (list Z)) (f : Z) (t : list Z) : option (list Z) * list (flex_key * list Z) :=
  if f =? 0 then (None, [(k, t)])
  else if f =? 1 then (Some t, [])
  else match o with
       | None => (None, [])
       | Some x => if f =? 2 then (Some (x ++ t), []) else (None, [(k, x ++ t)])
       end.
Fixpoint spell_steps (k : flex_key) (o : option (list Z)) (l : list (Z * list Z)) : option (list Z) * list (flex_key * list Z) :=
  match l with
  | [] => (o, [])
  | (f, t) :: r => (fst (spell_steps k (fst (spell_step k o f t)) r),
                    snd (spell_step k o f t) ++ snd (spell_steps k (fst (spell_step k o f t)) r))
  end.

Lemma find_kept k k' u : k <> k' -> find (of_key k) (filter (fun x => negb (flex_key_eqb k' (fst x))) u) = find (of_key k) u.
Proof.
  intros N. induction u as [|x u IH]; [reflexivity|]. cbn [filter find]. unfold of_key at 2.
  destruct (flex_key_spec k (fst x)) as [E|E].
  - destruct (flex_key_spec k' (fst x)); [congruence|]. cbn [negb find]. unfold of_key. rewrite <- E, flex_key_refl. reflexivity.
  - destruct (flex_key_spec k' (fst x)); cbn [negb find]; trivial. unfold of_key at 1. destruct (flex_key_spec k (fst x)); [contradiction|exact IH].
Qed.
Lemma find_gone k u : find (of_key k) (filter (fun x => negb (flex_key_eqb k (fst x))) u) = None.
Proof.
  induction u as [|x u IH]; [reflexivity|]. cbn [filter]. destruct (flex_key_eqb k (fst x)) eqn:E; cbn [negb]; trivial.
  cbn [find]. unfold of_key at 1. now rewrite E.
Qed.

Lemma spell_same k u f t :
  so_far k (fst (spell u k f t)) = fst (spell_step k (so_far k u) f t) /\ snd (spell u k f t) = snd (spell_step k (so_far k u) f t).
Proof.
  assert (Q : forall x l, so_far k ((k, x) :: l) = Some x).
  { intros x l. unfold so_far, of_key. cbn [find fst]. now rewrite flex_key_refl. }
  assert (G : so_far k (filter (fun x => negb (flex_key_eqb k (fst x))) u) = None) by (unfold so_far; now rewrite find_gone).
  unfold spell, spell_step, pf_complete, pf_start, pf_cont. destruct (f =? 0); [cbn [fst snd]; now rewrite G|].
  destruct (f =? 1); [cbn [fst snd]; now rewrite Q|].
  assert (D : so_far k u = match find (of_key k) u with Some x => Some (snd x) | None => None end) by reflexivity.
  rewrite D. clear D. fold (of_key k). destruct (find (of_key k) u) as [x|]; [destruct (f =? 2)|]; cbn [fst snd]; rewrite ?Q, ?G; auto.
Qed.
Lemma spell_other k k' u f t : k <> k' ->
  so_far k (fst (spell u k' f t)) = so_far k u /\ filter (about_key k) (snd (spell u k' f t)) = [].
Proof.
  intros K. assert (F : flex_key_eqb k k' = false) by (destruct (flex_key_spec k k'); congruence).
  assert (G : so_far k (filter (fun x => negb (flex_key_eqb k' (fst x))) u) = so_far k u) by (unfold so_far; now rewrite find_kept).
  assert (Q : forall x l, so_far k ((k', x) :: l) = so_far k l).
  { intros x l. unfold so_far, of_key. cbn [find fst]. now rewrite F. }
  assert (A : forall x, filter (about_key k) [(k', x)] = []) by (intros x; unfold about_key; cbn [filter fst]; now rewrite F).
  unfold spell, pf_complete, pf_start, pf_cont. destruct (f =? 0); [cbn [fst snd]; now rewrite G, A|].
  destruct (f =? 1); [cbn [fst snd]; now rewrite Q, G|].
  destruct (find (fun x => flex_key_eqb k' (fst x)) u); [destruct (f =? 2)|]; cbn [fst snd]; rewrite ?Q, ?G, ?A; auto.
Qed.
Lemma step_filter k o f t : filter (about_key k) (snd (spell_step k o f t)) = snd (spell_step k o f t).
Proof.
  assert (A : forall x, filter (about_key k) [(k, x)] = [(k, x)]) by (intros x; unfold about_key; cbn [filter fst]; now rewrite flex_key_refl).
  unfold spell_step. destruct (f =? 0); [apply A|]. destruct (f =? 1); [reflexivity|]. destruct o; [destruct (f =? 2)|]; trivial. apply A.
Qed.

(* ---- packets ----------------------------------------------------------------------------- *)

(* format and text of a packet, by its bytes *)
Definition part_of (p : packet) : Z * list Z := (nth 1 (bytes p) 0 / 64 mod 4, until_zero (skipn 4 (bytes p))).

Lemma byte_range p i : wf_packet p -> 0 <= nth i (bytes p) 0 <= 255.
Proof.
  intros W. destruct (packet_is_bytes p W) as (l & L & U & B & E). rewrite B.
  destruct (Nat.lt_ge_cases i (length l)) as [H|H].
  - rewrite Forall_forall in U. pose proof (U _ (nth_In _ 0 H)) as X. unfold is_u8 in X. lia.
  - rewrite nth_overflow by assumption. lia.
Qed.

Lemma report_inj g f a c b s d1 d2 d3 t g' f' a' c' b' s' d1' d2' d3' t' :
  mkFlexReport (mkHead g f a c b s) d1 d2 d3 t = mkFlexReport (mkHead g' f' a' c' b' s') d1' d2' d3' t' ->
  g = g' /\ f = f' /\ a = a' /\ c = c' /\ b = b' /\ s = s' /\ t = t'.
Proof. intros E. injection E. intros; subst. auto 10. Qed.
Lemma head_inj g f a c b s g' f' a' c' b' s' : mkHead g f a c b s = mkHead g' f' a' c' b' s' ->
  g = g' /\ f = f' /\ a = a' /\ c = c' /\ b = b' /\ s = s'.
Proof. intros E. injection E. intros; subst. auto 10. Qed.

Lemma packet_mine dbg k p : key_ok k -> wf_packet p -> spells k p = true ->
  forall u, spell_packet dbg u p = Ok (spell u k (fst (part_of p)) (snd (part_of p))).
Proof.
  intros (G & C & A & B & S) W M u. unfold spells in M.
  repeat (apply andb_prop in M; destruct M as [M ?]). rewrite !Z.eqb_eq in *.
  unfold spell_packet. destruct (flex_view_iff dbg p W) as [(T & _ & ->)|(T & _)]; [|exfalso; apply T; dlia].
  cbn [bind]. pose proof (flex_read_meaning p W) as R. unfold flex_read in R.
  destruct (flex_payload_as_string p) as [t|]; [|discriminate R]. cbn [bind] in *. apply ok_inj in R.
  unfold flex_meaning, head_meaning in R. apply report_inj in R. destruct R as (E1 & E2 & E3 & E4 & E5 & E6 & E7).
  rewrite E1, E2, E3, E4, E5, E6, E7. replace (nth 2 (bytes p) 0 =? 0) with false by lia.
  unfold part_of. cbn [fst snd]. f_equal. f_equal. destruct k as [g a c b s]. cbn [fk_group fk_address fk_channel fk_bank fk_status] in *.
  pose proof (byte_range p 1 W). f_equal; dlia.
Qed.
Lemma packet_other dbg k p : key_ok k -> wf_packet p -> spells k p = false -> forall u,
  exists v o, spell_packet dbg u p = Ok (v, o) /\ so_far k v = so_far k u /\ filter (about_key k) o = [].
Proof.
  intros (G & C & A & B & S) W M u. unfold spell_packet.
  destruct (flex_view_iff dbg p W) as [(T & _ & ->)|(T & _ & ->)]; cbn [bind]; [|exists u, []; auto].
  pose proof (flex_read_meaning p W) as R. unfold flex_read in R.
  destruct (flex_payload_as_string p) as [t|]; [|discriminate R]. cbn [bind] in *. apply ok_inj in R.
  unfold flex_meaning, head_meaning in R. apply report_inj in R. destruct R as (E1 & E2 & E3 & E4 & E5 & E6 & E7).
  rewrite E1, E2, E3, E4, E5, E6, E7. destruct (nth 2 (bytes p) 0 =? 0); [exists u, []; auto|].
  match goal with |- context [spell u ?k' ?f ?t] => set (key := k'); destruct (spell_other k key u f t) as [H1 H2] end.
  - intros ->. subst key. unfold spells in M. cbn [fk_group fk_address fk_channel fk_bank fk_status] in *.
    pose proof (byte_range p 0 W). pose proof (byte_range p 1 W). rewrite !Z.eqb_refl, !andb_true_r in M.
    replace (nth 0 (bytes p) 0 =? _) with true in M by dlia. replace (nth 1 (bytes p) 0 mod 64 =? _) with true in M by dlia. discriminate.
  - eexists _, _. split; [|split; [exact H1|exact H2]]. f_equal. apply surjective_pairing.
Qed.

Lemma spell_track dbg k : key_ok k -> forall ps u, Forall wf_packet ps ->
  exists u' out, spell_all dbg u ps = Ok (u', out) /\
    so_far k u' = fst (spell_steps k (so_far k u) (map part_of (filter (spells k) ps))) /\
    filter (about_key k) out = snd (spell_steps k (so_far k u) (map part_of (filter (spells k) ps))).
Proof.
  intros K. induction ps as [|p ps IH]; intros u W.
  - exists u, []. cbn. auto.
  - inversion W as [|? ? W1 W2]; subst. cbn [spell_all filter]. destruct (spells k p) eqn:M.
    + rewrite (packet_mine dbg k p K W1 M u). cbn [bind fst snd]. set (x := part_of p).
      destruct (spell_same k u (fst x) (snd x)) as [T1 T2].
      destruct (IH (fst (spell u k (fst x) (snd x))) W2) as (u' & out & E & P & O). rewrite E. cbn [bind fst snd].
      exists u', (snd (spell u k (fst x) (snd x)) ++ out). split; [reflexivity|].
      rewrite T1 in P, O. cbn [map]. fold x. rewrite (surjective_pairing x). cbn [spell_steps fst snd].
      split; trivial. now rewrite filter_app, O, T2, step_filter.
    + destruct (packet_other dbg k p K W1 M u) as (v & o & E & T1 & T2). rewrite E. cbn [bind fst snd].
      destruct (IH v W2) as (u' & out & E' & P & O). rewrite E'. cbn [bind fst snd].
      exists u', (o ++ out). split; [reflexivity|]. rewrite T1 in P, O. split; trivial. now rewrite filter_app, O, T2.
Qed.

Lemma lyrics_apart dbg k u u' qs qs' : key_ok k -> Forall wf_packet qs -> Forall wf_packet qs' ->
  find (fun x => flex_key_eqb k (fst x)) u = find (fun x => flex_key_eqb k (fst x)) u' ->
  filter (spells k) qs = filter (spells k) qs' ->
  exists v o v' o', spell_all dbg u qs = Ok (v, o) /\ spell_all dbg u' qs' = Ok (v', o') /\
    filter (about_key k) o = filter (about_key k) o'.
Proof.
  intros K W W' P E. destruct (spell_track dbg k K qs u W) as (v & o & B & _ & O).
  destruct (spell_track dbg k K qs' u' W') as (v' & o' & B' & _ & O').
  exists v, o, v', o'. split; trivial. split; trivial. rewrite O, O', E. unfold so_far. fold (of_key k) in P. now rewrite P.
Qed.

(* ---- the packets of a text --------------------------------------------------------------- *)

Lemma text_message_ok dbg k f t : key_ok k -> 0 <= f < 4 -> Forall is_char8 t -> (length t <= 12)%nat ->
  (f = 0 \/ f = 3 \/ length t = 12%nat) ->
  exists p, text_message dbg k f t = Ok p /\ wf_packet p /\ spells k p = true /\ part_of p = (f, t).
Proof.
  intros (G & C & A & B & S) F V L FL. set (c := FText (mkHead (fk_group k) f (fk_address k) (fk_channel k) (fk_bank k) (fk_status k)) t).
  assert (T : flex_typed c).
  { unfold flex_typed, c, head_typed, is_u8 in *. cbn [flex_head_of fh_group fh_format fh_address fh_channel fh_bank fh_status].
    split; [lia|]. revert V. apply Forall_impl. unfold is_char8. intros; lia. }
  assert (R : head_in_range (flex_head_of c)).
  { unfold head_in_range, c, is_u8 in *. cbn [flex_head_of fh_group fh_format fh_address fh_channel fh_bank fh_status]. lia. }
  assert (CK : flex_checked c).
  { unfold flex_checked, c, size in *. cbn [flex_head_of fh_group fh_format fh_address fh_channel fh_bank fh_status]. lia. }
  destruct (flex_round_trip dbg c T R (fun _ => CK)) as (p & M & W & _ & BY & r & RD & H & _ & TX).
  exists p. split; [exact M|]. split; trivial. rewrite flex_read_meaning in RD by assumption. apply ok_inj in RD. subst r.
  specialize (TX _ _ eq_refl L V). cbn [fr_text flex_meaning] in TX. cbn [fr_head flex_meaning head_meaning c flex_head_of] in H.
  apply head_inj in H. destruct H as (E1 & E2 & E3 & E4 & E5 & E6). split.
  - unfold spells. assert (B0 : nth 0 (bytes p) 0 = 13 * 16 + fk_group k mod 16) by (rewrite BY; reflexivity).
    pose proof (byte_range p 1 W). rewrite B0, E5, E6, !Z.eqb_refl, !andb_true_r.
    replace (13 * 16 + fk_group k mod 16 =? 13 * 16 + fk_group k) with true by dlia.
    replace (nth 1 (bytes p) 0 mod 64 =? 16 * fk_address k + fk_channel k) with true by dlia. reflexivity.
  - unfold part_of. rewrite E2, TX. reflexivity.
Qed.

Lemma firstn_char8 n t : Forall is_char8 t -> Forall is_char8 (firstn n t) /\ Forall is_char8 (skipn n t).
Proof. intros V. rewrite <- (firstn_skipn n t) in V. now apply Forall_app in V. Qed.

Lemma rest_ok dbg k : key_ok k -> forall n t, Forall is_char8 t -> (length t < n)%nat ->
  exists ps, send_rest dbg k n t = Ok ps /\ Forall wf_packet ps /\ Forall (fun p => spells k p = true) ps /\
    (length ps = Nat.max 1 ((length t + 11) / 12))%nat /\
    forall x, spell_steps k (Some x) (map part_of ps) = (None, [(k, x ++ t)]).
Proof.
  intros K. induction n as [|n IH]; intros t V L; [lia|]. cbn [send_rest]. unfold size. destruct (Z.leb_spec (Z.of_nat (length t)) 12) as [H|H].
  - destruct (text_message_ok dbg k 3 t K ltac:(lia) V ltac:(lia) ltac:(lia)) as (p & E & W & S & P).
    unfold pf_end. rewrite E. cbn [bind]. exists [p]. split; [reflexivity|]. split; [auto|]. split; [auto|].
    split. { cbn [length]. assert ((length t + 11) / 12 <= 1)%nat; [|lia]. apply (Nat.div_le_mono _ 23 12); lia. }
    intros x. cbn [map]. rewrite P. cbn. now rewrite ?app_nil_r.
  - destruct (firstn_char8 12 t V) as [V1 V2]. assert (L1 : length (firstn 12 t) = 12%nat) by (rewrite firstn_length; lia).
    destruct (text_message_ok dbg k 2 (firstn 12 t) K ltac:(lia) V1 ltac:(lia) ltac:(lia)) as (p & E & W & S & P).
    unfold pf_cont. rewrite E. cbn [bind].
    destruct (IH (skipn 12 t) V2) as (ps & E' & W' & S' & N & ST); [rewrite skipn_length; lia|]. rewrite E'. cbn [bind].
    exists (p :: ps). split; [reflexivity|]. split; [auto|]. split; [auto|]. split.
    { cbn [length]. rewrite N, skipn_length. replace (length t + 11)%nat with ((length t - 12 + 11) + 1 * 12)%nat by lia.
      rewrite Nat.div_add by lia. assert (1 <= (length t - 12 + 11) / 12)%nat; [|lia]. apply (Nat.div_le_mono 12 _ 12); lia. }
    intros x. cbn [map]. rewrite P. cbn [spell_steps]. unfold spell_step. cbn [Z.eqb Pos.eqb fst snd app]. rewrite ST. cbn [fst snd].
    now rewrite <- app_assoc, firstn_skipn.
Qed.

Lemma send_ok dbg k t : key_ok k -> Forall is_char8 t ->
  exists ps, send_flex_text dbg k t = Ok ps /\ Forall wf_packet ps /\ Forall (fun p => spells k p = true) ps /\
    (length ps = Nat.max 1 ((length t + 11) / 12))%nat /\
    forall o, spell_steps k o (map part_of ps) = (None, [(k, t)]).
Proof.
  intros K V. unfold send_flex_text, size. destruct (Z.leb_spec (Z.of_nat (length t)) 12) as [H|H].
  - destruct (text_message_ok dbg k 0 t K ltac:(lia) V ltac:(lia) ltac:(lia)) as (p & E & W & S & P).
    unfold pf_complete. rewrite E. cbn [bind]. exists [p]. split; [reflexivity|]. split; [auto|]. split; [auto|].
    split. { cbn [length]. assert ((length t + 11) / 12 <= 1)%nat; [|lia]. apply (Nat.div_le_mono _ 23 12); lia. }
    intros o. cbn [map]. rewrite P. reflexivity.
  - destruct (firstn_char8 12 t V) as [V1 V2]. assert (L1 : length (firstn 12 t) = 12%nat) by (rewrite firstn_length; lia).
    destruct (text_message_ok dbg k 1 (firstn 12 t) K ltac:(lia) V1 ltac:(lia) ltac:(lia)) as (p & E & W & S & P).
    unfold pf_start. rewrite E. cbn [bind].
    destruct (rest_ok dbg k K (length t) (skipn 12 t) V2) as (ps & E' & W' & S' & N & ST); [rewrite skipn_length; lia|]. rewrite E'. cbn [bind].
    exists (p :: ps). split; [reflexivity|]. split; [auto|]. split; [auto|]. split.
    { cbn [length]. rewrite N, skipn_length. replace (length t + 11)%nat with ((length t - 12 + 11) + 1 * 12)%nat by lia.
      rewrite Nat.div_add by lia. assert (1 <= (length t - 12 + 11) / 12)%nat; [|lia]. apply (Nat.div_le_mono 12 _ 12); lia. }
    intros o. cbn [map]. rewrite P. cbn [spell_steps]. unfold spell_step. cbn [Z.eqb Pos.eqb fst snd app]. rewrite ST. cbn [fst snd].
    now rewrite firstn_skipn.
Qed.

Lemma steps_app k a : forall o b, spell_steps k o (a ++ b) =
  (fst (spell_steps k (fst (spell_steps k o a)) b), snd (spell_steps k o a) ++ snd (spell_steps k (fst (spell_steps k o a)) b)).
Proof.
  induction a as [|[f t] a IH]; intros o b; cbn [app spell_steps fst snd]; [apply surjective_pairing|].
  rewrite IH. cbn [fst snd]. now rewrite app_assoc.
Qed.

Lemma texts_ok dbg k ts : key_ok k -> Forall (Forall is_char8) ts ->
  exists pss, Forall2 (fun t ps => send_flex_text dbg k t = Ok ps /\ length ps = Nat.max 1 ((length t + 11) / 12)) ts pss /\
    Forall wf_packet (concat pss) /\ Forall (fun p => spells k p = true) (concat pss) /\
    forall o, snd (spell_steps k o (map part_of (concat pss))) = map (fun t => (k, t)) ts /\
      (ts <> [] -> fst (spell_steps k o (map part_of (concat pss))) = None).
Proof.
  intros K. induction 1 as [|t ts V _ IH].
  - exists []. repeat split; constructor || congruence.
  - destruct IH as (pss & F & W & S & ST). destruct (send_ok dbg k t K V) as (ps & E & W1 & S1 & N & ST1).
    exists (ps :: pss). cbn [concat map]. split; [constructor; auto|]. split; [now apply Forall_app|]. split; [now apply Forall_app|].
    intros o. rewrite map_app, steps_app, ST1. cbn [fst snd]. destruct (ST None) as [O1 O2]. rewrite O1. split; [reflexivity|].
    intros _. destruct ts as [|t' ts]; [|apply O2; discriminate]. inversion F; subst. reflexivity.
Qed.

Lemma lyrics_received dbg k ts : key_ok k -> Forall (Forall is_char8) ts ->
  exists pss, Forall2 (fun t ps => send_flex_text dbg k t = Ok ps /\ length ps = Nat.max 1 ((length t + 11) / 12)) ts pss /\
    Forall wf_packet (concat pss) /\ Forall (fun p => spells k p = true) (concat pss) /\
    forall u qs, Forall wf_packet qs -> filter (spells k) qs = concat pss ->
    exists u' out, spell_all dbg u qs = Ok (u', out) /\ filter (about_key k) out = map (fun t => (k, t)) ts /\
      (ts <> [] -> find (fun x => flex_key_eqb k (fst x)) u' = None).
Proof.
  intros K V. destruct (texts_ok dbg k ts K V) as (pss & F & W & S & ST). exists pss.
  split; trivial. split; trivial. split; trivial. intros u qs WQ Q.
  destruct (spell_track dbg k K qs u WQ) as (u' & out & B & P & O). rewrite Q in P, O. destruct (ST (so_far k u)) as [O1 O2].
  exists u', out. split; trivial. split; [congruence|]. intros N. rewrite (O2 N) in P. unfold so_far in P. fold (of_key k).
  destruct (find (of_key k) u'); [discriminate|reflexivity].
Qed.
