(* Lemmas about endpoint discovery *)
From Coq Require Import ZArith List Bool Lia ZifyBool ZifyNat.
From Verif Require Import Base Bits Packet PacketSpec PacketProofs Sysex SysexSpec CapWire Endpoint EndpointSpec EndpointProofs Browse BrowseSpec.
Import ListNotations.
Local Open Scope Z_scope.
Local Open Scope res_scope.

Lemma text_key_spec a b : reflect (a = b) (text_key_eqb a b).
Proof.
  destruct a as [| |x], b as [| |y]; cbn; try (constructor; congruence).
  destruct (Z.eqb_spec x y); constructor; congruence.
Qed.
Lemma text_key_refl s : text_key_eqb s s = true.
Proof. now destruct (text_key_spec s s). Qed.

(* ---- reading a packet -------------------------------------------------------------------- *)

Definition browsed : list stream_kind := [KInfo; KIdentity; KName; KProduct; KConfiguration; KBlockInfo; KBlockName].

Lemma views_kind dbg k p : wf_packet p -> of_kind k p -> forall ks, In k ks ->
  browse_views dbg ks p = Ok (Some (stream_meaning k (bytes p))).
Proof.
  intros W K. induction ks as [|x ks IH]; [intros []|]. intros I. cbn [browse_views].
  destruct (view_iff dbg x p W) as [(X & _ & ->)|(X & _ & ->)]; cbn [bind].
  - assert (x = k) as ->. { destruct X as [_ X], K as [_ K]. now apply kind_status_inj with (1 := X). }
    rewrite read_meaning by assumption. reflexivity.
  - apply IH. destruct I as [->|I]; trivial. contradiction.
Qed.
Lemma views_none dbg p : wf_packet p -> forall ks, (forall k, In k ks -> ~ of_kind k p) -> browse_views dbg ks p = Ok None.
Proof.
  intros W. induction ks as [|x ks IH]; intros N; [reflexivity|]. cbn [browse_views].
  destruct (view_iff dbg x p W) as [(X & _ & _)|(_ & _ & ->)].
  - exfalso. apply (N x); [now left|exact X].
  - cbn [bind]. apply IH. intros k I. apply N. now right.
Qed.
Lemma of_kind_dec k p : of_kind k p \/ ~ of_kind k p.
Proof. unfold of_kind. destruct k; cbn [kind_status]; lia. Qed.
Lemma views_cases dbg p : wf_packet p ->
  (exists k, In k browsed /\ of_kind k p /\ browse_views dbg browsed p = Ok (Some (stream_meaning k (bytes p)))) \/
  ((forall k, In k browsed -> ~ of_kind k p) /\ browse_views dbg browsed p = Ok None).
Proof.
  intros W.
  assert (D : forall ks, (exists k, In k ks /\ of_kind k p) \/ (forall k, In k ks -> ~ of_kind k p)).
  { induction ks as [|x ks [(k & I & K)|IH]]; [right; intros k []|left; exists k; split; trivial; now right|].
    destruct (of_kind_dec x p) as [X|X]; [left; exists x; split; trivial; now left|right].
    intros k [<-|I]; trivial. now apply IH. }
  destruct (D browsed) as [(k & I & K)|N]; [left|right].
  - exists k. split; trivial. split; trivial. now apply views_kind.
  - split; trivial. now apply views_none.
Qed.

(* the part of a text in a report *)
Definition text_part (r : stream_report) : option (text_sender * Z * list Z) :=
  match r with
  | RName f t => Some (TName, f, t)
  | RProduct f t => Some (TProduct, f, t)
  | RBlockName f b t => Some (TBlock b, f, t)
  | _ => None
  end.

Lemma report_part u r : browse_report u r =
  match text_part r with Some (s, f, t) => browse_text u s f t | None => (u, [FReport r]) end.
Proof. destruct r; reflexivity. Qed.

Lemma carries_part s k p : of_kind k p -> carries s p =
  match text_part (stream_meaning k (bytes p)) with Some (s', _, _) => text_key_eqb s s' | None => false end.
Proof.
  intros [T K]. unfold carries, stream_type. rewrite T. cbn [Z.eqb Pos.eqb andb].
  destruct k; cbn [kind_status stream_meaning text_part] in *; try (destruct K as [K|K]); rewrite ?K; destruct s; cbn; try reflexivity.
  now rewrite Z.eqb_sym.
Qed.
Lemma carries_kind s p : carries s p = true -> exists k, In k browsed /\ of_kind k p.
Proof.
  unfold carries, stream_type, of_kind. intros H. destruct (Z.eqb_spec (nth 0 (bytes p) 0 / 16) 15) as [->|]; [|discriminate].
  cbn [andb] in H. destruct s as [| |b].
  - exists KName. cbn. apply Z.eqb_eq in H. split; [tauto|auto].
  - exists KProduct. cbn. apply Z.eqb_eq in H. split; [tauto|auto].
  - exists KBlockName. cbn. apply andb_prop in H. destruct H as [H _]. apply Z.eqb_eq in H. split; [tauto|auto].
Qed.

Lemma browse_packet_cases dbg u p s : wf_packet p ->
  exists r, browse_packet dbg u p = Ok (match r with Some x => browse_report u x | None => (u, []) end) /\
    (forall u', browse_packet dbg u' p = Ok (match r with Some x => browse_report u' x | None => (u', []) end)) /\
    carries s p = match r with
                  | Some x => match text_part x with Some (s', _, _) => text_key_eqb s s' | None => false end
                  | None => false end.
Proof.
  intros W. unfold browse_packet. fold browsed. destruct (views_cases dbg p W) as [(k & I & K & ->)|[N ->]]; cbn [bind].
  - exists (Some (stream_meaning k (bytes p))). repeat split. now apply carries_part.
  - exists None. repeat split. destruct (carries s p) eqn:C; trivial. apply carries_kind in C as (k & I & K). now destruct (N k I).
Qed.

(* ---- one text among others --------------------------------------------------------------- *)

Definition mine (s : text_sender) (x : text_sender * list Z) : bool := text_key_eqb s (fst x).
Definition progress_of (s : text_sender) (u : unfinished) : option (list Z) :=
  match find (mine s) u with Some x => Some (snd x) | None => None end.

Lemma find_filter_same {A} (f g : A -> bool) l : (forall x, f x = true -> g x = true) -> find f (filter g l) = find f l.
Proof.
  intros H. induction l as [|x l IH]; [reflexivity|]. cbn [filter find]. destruct (f x) eqn:F.
  - rewrite (H x F). cbn [find]. now rewrite F.
  - destruct (g x); [cbn [find]; now rewrite F|exact IH].
Qed.
Lemma find_filter_none {A} (f g : A -> bool) l : (forall x, f x = true -> g x = false) -> find f (filter g l) = None.
Proof.
  intros H. induction l as [|x l IH]; [reflexivity|]. cbn [filter]. destruct (g x) eqn:G; [|exact IH].
  cbn [find]. destruct (f x) eqn:F; [|exact IH]. now rewrite (H x F) in G.
Qed.

Definition text_step (s : text_sender) (o : option (list Z)) (f : Z) (t : list Z) : option (list Z) * list finding :=
  if f =? 0 then (None, [FText s t])
  else if f =? 1 then (Some t, [])
  else match o with
       | None => (None, [])
       | Some x => if f =? 2 then (Some (x ++ t), []) else (None, [FText s (x ++ t)])
       end.

Lemma text_same s u f t :
  progress_of s (fst (browse_text u s f t)) = fst (text_step s (progress_of s u) f t) /\
  snd (browse_text u s f t) = snd (text_step s (progress_of s u) f t).
Proof.
  assert (N : find (mine s) (filter (fun x => negb (text_key_eqb s (fst x))) u) = None).
  { apply find_filter_none. unfold mine. intros x ->. reflexivity. }
  assert (Q : forall x l, progress_of s ((s, x) :: l) = Some x).
  { intros x l. unfold progress_of, mine. cbn [find fst]. now rewrite text_key_refl. }
  unfold browse_text, text_step. destruct (f =? 0).
  - cbn [fst snd]. unfold progress_of at 1. now rewrite N.
  - destruct (f =? 1); [cbn [fst snd]; now rewrite Q|].
    assert (D : progress_of s u = match find (mine s) u with Some x => Some (snd x) | None => None end) by reflexivity.
    rewrite D. clear D. fold (mine s). destruct (find (mine s) u) as [x|].
    + destruct (f =? 2); cbn [fst snd]; [now rewrite Q|]. unfold progress_of. now rewrite N.
    + cbn [fst snd]. unfold progress_of. now rewrite N.
Qed.
Lemma text_other s s' u f t : s <> s' ->
  progress_of s (fst (browse_text u s' f t)) = progress_of s u /\ filter (about_text s) (snd (browse_text u s' f t)) = [].
Proof.
  intros K.
  assert (N : find (mine s) (filter (fun x => negb (text_key_eqb s' (fst x))) u) = find (mine s) u).
  { apply find_filter_same. unfold mine. intros x. destruct (text_key_spec s (fst x)) as [<-|]; [|discriminate].
    intros _. destruct (text_key_spec s' s); [congruence|reflexivity]. }
  assert (F : text_key_eqb s s' = false) by (destruct (text_key_spec s s'); congruence).
  assert (Q : forall x l, progress_of s ((s', x) :: l) = progress_of s l).
  { intros x l. unfold progress_of, mine. cbn [find fst]. now rewrite F. }
  unfold browse_text. destruct (f =? 0).
  - cbn [fst snd filter about_text]. rewrite F. unfold progress_of. now rewrite N.
  - destruct (f =? 1); [cbn [fst snd]; rewrite Q; unfold progress_of; now rewrite N|].
    destruct (find (fun x => text_key_eqb s' (fst x)) u) as [x|]; [destruct (f =? 2)|]; cbn [fst snd filter about_text]; rewrite ?F, ?Q; (split; [unfold progress_of; now rewrite N|reflexivity]).
Qed.

Fixpoint text_steps (s : text_sender) (o : option (list Z)) (l : list (Z * list Z)) : option (list Z) * list finding :=
  match l with
  | [] => (o, [])
  | (f, t) :: r => (fst (text_steps s (fst (text_step s o f t)) r),
                    snd (text_step s o f t) ++ snd (text_steps s (fst (text_step s o f t)) r))
  end.

(* what a packet says of the text *)
Definition part_is (dbg : bool) (s : text_sender) (p : packet) (x : Z * list Z) : Prop :=
  forall u, browse_packet dbg u p = Ok (browse_text u s (fst x) (snd x)).

Lemma text_filter s o f t : filter (about_text s) (snd (text_step s o f t)) = snd (text_step s o f t).
Proof.
  unfold text_step. destruct (f =? 0); [cbn; now rewrite text_key_refl|]. destruct (f =? 1); [reflexivity|].
  destruct o; [destruct (f =? 2)|]; cbn; rewrite ?text_key_refl; reflexivity.
Qed.

Lemma browse_track dbg s : forall ps u, Forall wf_packet ps ->
  exists u' out l, browse dbg u ps = Ok (u', out) /\ Forall2 (part_is dbg s) (filter (carries s) ps) l /\
    progress_of s u' = fst (text_steps s (progress_of s u) l) /\
    filter (about_text s) out = snd (text_steps s (progress_of s u) l).
Proof.
  induction ps as [|p ps IH]; intros u W.
  - exists u, [], []. cbn. repeat split; constructor.
  - inversion W as [|? ? W1 W2]; subst. destruct (browse_packet_cases dbg u p s W1) as (r & E & EU & C).
    cbn [browse filter]. rewrite E, C. cbn [bind]. destruct r as [x|]; cbn [fst snd].
    + rewrite report_part in *. destruct (text_part x) as [[[s' f] t]|] eqn:X.
      * destruct (text_key_spec s s') as [<-|NE].
        -- destruct (IH (fst (browse_text u s f t)) W2) as (u' & out & l & B & F & P & O).
           exists u', (snd (browse_text u s f t) ++ out), ((f, t) :: l). rewrite B. cbn [bind fst snd]. split; [reflexivity|].
           split; [constructor; trivial|].
           { intros v. rewrite (EU v), report_part, X. reflexivity. }
           destruct (text_same s u f t) as [T1 T2]. rewrite T1 in P, O. cbn [text_steps fst snd].
           split; trivial. rewrite filter_app, O, T2, text_filter. reflexivity.
        -- destruct (IH (fst (browse_text u s' f t)) W2) as (u' & out & l & B & F & P & O).
           exists u', (snd (browse_text u s' f t) ++ out), l. rewrite B. cbn [bind fst snd]. split; [reflexivity|].
           split; trivial. destruct (text_other s s' u f t NE) as [T1 T2]. rewrite T1 in P, O.
           split; trivial. rewrite filter_app, O, T2. reflexivity.
      * cbn [fst snd]. destruct (IH u W2) as (u' & out & l & B & F & P & O). rewrite B. cbn [bind fst snd].
        exists u', ([FReport x] ++ out), l. repeat split; trivial.
    + destruct (IH u W2) as (u' & out & l & B & F & P & O). rewrite B. cbn [bind fst snd app]. exists u', out, l. repeat split; trivial.
Qed.

Lemma part_fun dbg s p x y : part_is dbg s p x -> part_is dbg s p y -> forall o, text_step s o (fst x) (snd x) = text_step s o (fst y) (snd y).
Proof.
  intros X Y o. assert (H : exists u : unfinished, progress_of s u = o).
  { destruct o as [t|]; [exists [(s, t)]|exists []; reflexivity]. unfold progress_of, mine. cbn [find fst]. now rewrite text_key_refl. }
  destruct H as [u P]. specialize (X u). rewrite (Y u) in X.
  destruct (text_same s u (fst x) (snd x)) as [A1 A2]. destruct (text_same s u (fst y) (snd y)) as [B1 B2].
  assert (Z1 : browse_text u s (fst y) (snd y) = browse_text u s (fst x) (snd x)) by (now injection X).
  rewrite Z1 in B1, B2. rewrite P in *. rewrite A1 in B1. rewrite A2 in B2.
  destruct (text_step s o (fst x) (snd x)), (text_step s o (fst y) (snd y)). cbn [fst snd] in *. congruence.
Qed.
Lemma steps_same dbg s ps : forall l l', Forall2 (part_is dbg s) ps l -> Forall2 (part_is dbg s) ps l' ->
  forall o, text_steps s o l = text_steps s o l'.
Proof.
  intros l l' F. revert l'. induction F as [|p x ps l X _ IH]; intros l' F' o; inversion F' as [|? y ? l2 Y F2]; subst; trivial.
  destruct x as [f t], y as [f' t']. pose proof (part_fun dbg s p _ _ X Y o) as E. cbn [fst snd] in E.
  cbn [text_steps]. rewrite E. rewrite (IH l2 F2). reflexivity.
Qed.

Lemma texts_apart dbg s u u' ps ps' : Forall wf_packet ps -> Forall wf_packet ps' ->
  find (fun x => text_key_eqb s (fst x)) u = find (fun x => text_key_eqb s (fst x)) u' ->
  filter (carries s) ps = filter (carries s) ps' ->
  exists v o v' o', browse dbg u ps = Ok (v, o) /\ browse dbg u' ps' = Ok (v', o') /\
    filter (about_text s) o = filter (about_text s) o'.
Proof.
  intros W W' P E. destruct (browse_track dbg s ps u W) as (v & o & l & B & F & _ & O).
  destruct (browse_track dbg s ps' u' W') as (v' & o' & l' & B' & F' & _ & O').
  exists v, o, v', o'. repeat split; trivial. rewrite E in F. rewrite O, O', (steps_same dbg s _ l l' F F').
  unfold progress_of. fold (mine s) in P. now rewrite P.
Qed.

(* ---- the packets of a text --------------------------------------------------------------- *)

Definition plain_sender (s : text_sender) : Prop := match s with TBlock b => is_u7 b | _ => True end.

Lemma plain_typed s : plain_sender s -> sender_typed s.
Proof. destruct s; cbn; trivial. unfold is_u7, is_u8. lia. Qed.
Lemma char7_visible t : Forall is_char7 t -> Forall visible t.
Proof. apply Forall_impl. unfold is_char7, visible, is_u8. intros c C. split; [lia|]. rewrite Z.mod_small; lia. Qed.

Lemma text_packet dbg s f t : 0 <= f < 4 -> plain_sender s -> (length t <= room s)%nat -> Forall is_char7 t ->
  let p := stream_wire (text_call s f t) in
  wf_packet p /\ stream_type p = true /\ part_is dbg s p (f, t) /\ carries s p = true.
Proof.
  intros F S L V p. destruct (text_wire s f t F (plain_typed s S) L (char7_visible t V)) as (W & K & TF & TX & TB). fold p in W, K, TF, TX, TB.
  rewrite char7_mod in TX by assumption. split; trivial. split; [unfold stream_type; destruct K as [-> _]; reflexivity|].
  assert (M : stream_meaning (text_kind s) (bytes p) =
    match s with TName => RName f t | TProduct => RProduct f t | TBlock b => RBlockName f b t end).
  { pose proof (read_meaning (text_kind s) p W) as R. destruct s as [| |b]; cbn [text_kind stream_read stream_text text_format] in *.
    - rewrite TX, TF in R. cbn [bind] in R. congruence.
    - rewrite TX, TF in R. cbn [bind] in R. congruence.
    - rewrite TX, TF, (TB b eq_refl) in R. cbn [bind plain_sender] in *. unfold is_u7 in S. rewrite Z.mod_small in R by lia. congruence. }
  split.
  - intros u. unfold browse_packet. fold browsed. rewrite (views_kind dbg (text_kind s) p W K); [|destruct s; cbn; tauto].
    cbn [bind]. rewrite M. destruct s; reflexivity.
  - rewrite (carries_part s _ p K), M. destruct s; cbn [text_part]; apply text_key_refl.
Qed.

Lemma text_parts dbg s t : plain_sender s -> Forall is_char7 t -> (s = TProduct -> size t <= 16) ->
  exists ps l, send_text dbg s t = Ok ps /\ Forall wf_packet ps /\ Forall (fun p => stream_type p = true) ps /\
    Forall (fun p => carries s p = true) ps /\ Forall2 (part_is dbg s) ps l /\
    forall o, text_steps s o l = (None, [FText s t]).
Proof.
  intros PS V P. destruct (send_packets dbg s t (char7_u8 t V) (plain_typed s PS) P) as (fs & cs & F & PC & C & L & E).
  eexists _, (combine fs cs). split; [exact E|]. clear E P.
  pose proof (formats_range fs F) as FR. pose proof (pieces_short _ _ PC) as LR. clear PC.
  assert (VR : Forall (Forall is_char7) cs).
  { rewrite <- C in V. clear - V. induction cs as [|c cs IH]; cbn [concat] in V; constructor; apply Forall_app in V; tauto. }
  assert (X : Forall wf_packet (map (fun fc => stream_wire (text_call s (fst fc) (snd fc))) (combine fs cs)) /\
    Forall (fun p => stream_type p = true) (map (fun fc => stream_wire (text_call s (fst fc) (snd fc))) (combine fs cs)) /\
    Forall (fun p => carries s p = true) (map (fun fc => stream_wire (text_call s (fst fc) (snd fc))) (combine fs cs)) /\
    Forall2 (part_is dbg s) (map (fun fc => stream_wire (text_call s (fst fc) (snd fc))) (combine fs cs)) (combine fs cs)).
  { clear F C V. revert cs L LR VR. induction FR as [|f fs F _ IH]; intros [|c cs] L LR VR; cbn [length] in L; try lia.
    - cbn. repeat split; constructor.
    - inversion LR; subst. inversion VR; subst. destruct (text_packet dbg s f c F PS) as (A & B & D & G); trivial.
      destruct (IH cs) as (I1 & I2 & I3 & I4); trivial; [lia|]. cbn [combine map fst snd]. repeat split; constructor; trivial. }
  destruct X as (X1 & X2 & X3 & X4). split; trivial. split; trivial. split; trivial. split; trivial.
  intros o. subst t. destruct F as [|n].
  - destruct cs as [|c [|? ?]]; try discriminate L. cbn. now rewrite app_nil_r.
  - destruct cs as [|c cs]; [discriminate L|]. cbn [combine text_steps]. unfold text_step at 1 2 3. cbn [Z.eqb Pos.eqb fst snd app].
    cbn [concat]. assert (L' : length cs = S n) by (cbn [length] in L; rewrite app_length, repeat_length in L; cbn in L; lia).
    assert (G : forall n cs c, length cs = S n ->
      text_steps s (Some c) (combine (repeat 2 n ++ [3]) cs) = (None, [FText s (c ++ concat cs)])).
    { clear. induction n as [|n IH]; intros cs c L.
      - destruct cs as [|d [|? ?]]; try discriminate L. cbn. now rewrite app_nil_r.
      - destruct cs as [|d cs]; [discriminate L|]. cbn [repeat app combine text_steps]. unfold text_step. cbn [Z.eqb Pos.eqb fst snd app].
        rewrite IH by (cbn [length] in L; lia). cbn [fst snd concat]. now rewrite app_assoc. }
    rewrite G by assumption. reflexivity.
Qed.

Lemma text_received dbg s t : plain_sender s -> Forall is_char7 t -> (s = TProduct -> size t <= 16) ->
  exists ps, send_text dbg s t = Ok ps /\ Forall (fun p => carries s p = true) ps /\
    forall u qs, Forall wf_packet qs -> filter (carries s) qs = ps ->
    exists u' out, browse dbg u qs = Ok (u', out) /\ filter (about_text s) out = [FText s t].
Proof.
  intros S V P. destruct (text_parts dbg s t S V P) as (ps & l & E & W & _ & CR & F & T). exists ps. split; trivial. split; trivial.
  intros u qs WQ Q. destruct (browse_track dbg s qs u WQ) as (u' & out & l' & B & F' & _ & O).
  exists u', out. split; trivial. rewrite Q in F'. rewrite O, <- (steps_same dbg s ps l l' F F'), T. reflexivity.
Qed.

(* ---- the conversation -------------------------------------------------------------------- *)

Lemma browse_app dbg a : forall u b, browse dbg u (a ++ b) =
  (x <- browse dbg u a ;; y <- browse dbg (fst x) b ;; Ok (fst y, snd x ++ snd y)).
Proof.
  induction a as [|p a IH]; intros u b; cbn [browse app bind fst snd].
  - destruct (browse dbg u b) as [[v o]|f]; reflexivity.
  - destruct (browse_packet dbg u p) as [[v o]|f]; cbn [bind fst snd]; [|reflexivity].
    rewrite IH. destruct (browse dbg v a) as [[v2 o2]|f]; cbn [bind fst snd]; [|reflexivity].
    destruct (browse dbg v2 b) as [[v3 o3]|f]; cbn [bind fst snd]; [|reflexivity]. now rewrite app_assoc.
Qed.

Lemma browse_filter dbg ps : Forall wf_packet ps -> forall u, browse dbg u ps = browse dbg u (filter stream_type ps).
Proof.
  induction 1 as [|p ps W _ IH]; intros u; [reflexivity|]. cbn [filter]. destruct (stream_type p) eqn:T.
  - cbn [browse]. destruct (browse_packet dbg u p) as [[v o]|]; cbn [bind fst snd]; [now rewrite IH|reflexivity].
  - assert (E : browse_packet dbg u p = Ok (u, [])).
    { unfold browse_packet. fold browsed. rewrite views_none; [reflexivity|assumption|].
      intros k _ [K _]. unfold stream_type in T. rewrite K in T. discriminate. }
    cbn [browse]. rewrite E. cbn [bind fst snd app]. rewrite IH. destruct (browse dbg u _) as [[v o]|]; reflexivity.
Qed.

(* the browser finds [l] in the packets [ps], whatever state it is in *)
Definition finds (dbg : bool) (ps : list packet) (l : list finding) : Prop :=
  Forall wf_packet ps /\ Forall (fun p => stream_type p = true) ps /\ forall u, exists u', browse dbg u ps = Ok (u', l).

Lemma finds_nil dbg : finds dbg [] [].
Proof. split; [constructor|]. split; [constructor|]. intros u. now exists u. Qed.
Lemma finds_app dbg a b l m : finds dbg a l -> finds dbg b m -> finds dbg (a ++ b) (l ++ m).
Proof.
  intros (W & T & F) (W' & T' & G). split; [now apply Forall_app|]. split; [now apply Forall_app|].
  intros u. rewrite browse_app. destruct (F u) as [v ->]. cbn [bind fst snd]. destruct (G v) as [v' ->]. now exists v'.
Qed.
Lemma finds_text dbg s t : plain_sender s -> Forall is_char7 t -> (s = TProduct -> size t <= 16) ->
  exists ps, send_text dbg s t = Ok ps /\ finds dbg ps [FText s t].
Proof.
  intros S V P. destruct (text_parts dbg s t S V P) as (ps & l & E & W & T & _ & F & ST). exists ps. split; trivial.
  split; trivial. split; trivial. intros u. clear E T.
  assert (G : forall o, progress_of s u = o -> exists u', browse dbg u ps = Ok (u', snd (text_steps s o l)) ).
  { clear ST. revert u. induction F as [|p [f x] ps l X _ IH]; intros u o O.
    - exists u. reflexivity.
    - inversion W; subst. cbn [browse text_steps fst snd]. rewrite (X u). cbn [bind fst snd].
      destruct (text_same s u f x) as [T1 T2].
      destruct (IH ltac:(assumption) (fst (browse_text u s f x)) _ T1) as [u' ->]. cbn [bind fst snd]. exists u'. now rewrite T2. }
  destruct (G _ eq_refl) as [u' B]. exists u'. rewrite B, ST. reflexivity.
Qed.
Lemma finds_call dbg c : stream_in_range c -> In (call_kind c) [KInfo; KIdentity; KConfiguration; KBlockInfo] ->
  exists p, stream_make dbg c = Ok p /\ finds dbg [p] [FReport (call_report c)].
Proof.
  intros R I. destruct (in_range_typed c R) as [T C]. exists (stream_wire c). split; [now apply make_wire|].
  pose proof (wire_wf c T) as W. pose proof (wire_kind c T) as K.
  split; [constructor; trivial|]. split; [constructor; trivial; unfold stream_type; destruct K as [-> _]; reflexivity|].
  intros u. exists u. cbn [browse]. unfold browse_packet. fold browsed. rewrite (views_kind dbg _ _ W K).
  - cbn [bind]. rewrite wire_meaning by assumption. destruct c; cbn [call_report browse_report bind fst snd app]; trivial;
      cbn in I; intuition discriminate.
  - unfold browsed. cbn in *. intuition (subst; auto 10).
Qed.

Definition answers (dbg : bool) (r : res (list packet)) (l : list finding) : Prop := exists ps, r = Ok ps /\ finds dbg ps l.

Lemma answers_app dbg a b l m : answers dbg a l -> answers dbg b m ->
  answers dbg (x <- a ;; y <- b ;; Ok (x ++ y)) (l ++ m).
Proof.
  intros (x & -> & F) (y & -> & G). exists (x ++ y). split; [reflexivity|]. now apply finds_app.
Qed.
Lemma answers_if dbg b f i r l : b = bit i f -> answers dbg r l -> answers dbg (if_asked b r) (asked f i l).
Proof.
  intros -> A. unfold if_asked, asked. destruct (bit i f); trivial. exists []. split; [reflexivity|]. apply finds_nil.
Qed.
Lemma answers_single dbg c : stream_in_range c -> In (call_kind c) [KInfo; KIdentity; KConfiguration; KBlockInfo] ->
  answers dbg (single (stream_make dbg c)) [FReport (call_report c)].
Proof. intros R I. destruct (finds_call dbg c R I) as (p & E & F). exists [p]. unfold single. rewrite E. split; trivial. Qed.
Lemma answers_text dbg s t : plain_sender s -> Forall is_char7 t -> (s = TProduct -> size t <= 16) ->
  answers dbg (send_text dbg s t) [FText s t].
Proof. apply finds_text. Qed.

(* requests with any contents *)
Lemma answer_discovery dbg d p : endpoint_ok d -> wf_packet p -> of_kind KDiscovery p ->
  answers dbg (answer dbg d p) (endpoint_findings d (nth 7 (bytes p) 0 mod 32)).
Proof.
  intros (I & D & G & N & P & PS & B) W K.
  destruct (view_iff dbg KDiscovery p W) as [(_ & _ & V)|(K' & _)]; [|contradiction].
  cbn [as_stream_view] in V. unfold answer. rewrite V. cbn [bind].
  assert (Q : forall a b c d e f' g h i a' b' c' d' e' f'' g' h' i', RDiscovery a b c d e f' g h i = RDiscovery a' b' c' d' e' f'' g' h' i' ->
    e = e' /\ f' = f'' /\ g = g' /\ h = h' /\ i = i') by (intros; injection H; intros; subst; auto).
  pose proof (read_meaning KDiscovery p W) as RD. cbn [stream_read stream_meaning] in RD.
  apply ok_inj in RD. apply Q in RD. destruct RD as (R0 & R1 & R2 & R3 & R4).
  set (f := nth 7 (bytes p) 0 mod 32) in *. unfold answer_endpoint, endpoint_findings.
  assert (A0 := answers_if dbg _ f 0 _ _ R0 (answers_single dbg (SInfo _ _ _ _ _ _) I ltac:(cbn; tauto))).
  assert (A1 := answers_if dbg _ f 1 _ _ R1 (answers_single dbg (SIdentity _) D ltac:(cbn; tauto))).
  assert (A2 := answers_if dbg _ f 2 _ _ R2 (answers_text dbg TName _ Logic.I N ltac:(discriminate))).
  assert (A3 := answers_if dbg _ f 3 _ _ R3 (answers_text dbg TProduct _ Logic.I P (fun _ => PS))).
  assert (A4 := answers_if dbg _ f 4 _ _ R4 (answers_single dbg (SConfigured _ _) G ltac:(cbn; tauto))).
  cbn [stream_make send_text] in *.
  destruct A0 as (p0 & E0 & F0), A1 as (p1 & E1 & F1), A2 as (p2 & E2 & F2), A3 as (p3 & E3 & F3), A4 as (p4 & E4 & F4).
  cbn [single bind] in E1. rewrite E0. cbn [bind]. rewrite E1. cbn [bind]. rewrite E2. cbn [bind]. rewrite E3. cbn [bind]. rewrite E4. cbn [bind].
  eexists. split; [reflexivity|]. repeat apply finds_app; trivial.
Qed.

Lemma answer_block_discovery dbg d p : endpoint_ok d -> wf_packet p -> of_kind KBlockDiscovery p ->
  answers dbg (answer dbg d p) (blocks_findings d (nth 2 (bytes p) 0) (nth 3 (bytes p) 0 mod 16)).
Proof.
  intros (_ & _ & _ & _ & _ & _ & B) W K.
  destruct (view_iff dbg KBlockDiscovery p W) as [(_ & _ & V)|(K' & _)]; [|contradiction].
  destruct (view_iff dbg KDiscovery p W) as [(K' & _)|(_ & _ & NV)].
  { exfalso. destruct K as [_ K], K' as [_ K']. cbn [kind_status] in *. lia. }
  cbn [as_stream_view] in V, NV. unfold answer. rewrite NV. cbn [bind]. rewrite V. cbn [bind].
  assert (Q : forall a b c d a' b' c' d', RBlockDiscovery a b c d = RBlockDiscovery a' b' c' d' -> a = a' /\ c = c' /\ d = d')
    by (intros; injection H; intros; subst; auto).
  pose proof (read_meaning KBlockDiscovery p W) as RD. cbn [stream_read stream_meaning] in RD.
  apply ok_inj in RD. apply Q in RD. destruct RD as (R0 & R1 & R2).
  set (b := nth 2 (bytes p) 0) in *. set (f := nth 3 (bytes p) 0 mod 16) in *.
  unfold blocks_findings. induction B as [|k ks [K1 K2] _ IH]; cbn [answer_blocks filter map concat].
  - exists []. split; [reflexivity|]. apply finds_nil.
  - assert (A : answers dbg (answer_block dbg p k) (if (b =? 255) || (b =? bd_index k) then block_findings f k else [])).
    { unfold answer_block, requests_function_block. rewrite R0. change 0xFF with 255.
      replace ((b =? 255) || (b =? bd_index k)) with ((b =? bd_index k) || (b =? 255)) by apply orb_comm.
      destruct ((b =? bd_index k) || (b =? 255)).
      - unfold block_findings.
        assert (A0 := answers_if dbg _ f 0 _ _ R1 (answers_single dbg (SBlockOptions _ _ _ _) K1 ltac:(cbn; tauto))).
        assert (A1 := answers_if dbg _ f 1 _ _ R2 (answers_text dbg (TBlock (bd_index k)) _
          ltac:(cbn [plain_sender stream_in_range] in *; unfold is_u7; lia) K2 ltac:(discriminate))).
        exact (answers_app dbg _ _ _ _ A0 A1).
      - exists []. split; [reflexivity|]. apply finds_nil. }
    destruct A as (x & -> & F). cbn [bind]. destruct IH as (y & -> & G). cbn [bind].
    eexists. split; [reflexivity|]. destruct ((b =? 255) || (b =? bd_index k)); cbn [map concat];
      [now apply finds_app|exact (finds_app dbg x y [] _ F G)].
Qed.

Lemma answer_endpoint_ok dbg d f ma mi : endpoint_ok d -> stream_in_range (SDiscovery f ma mi) ->
  exists p, make_endpoint_discovery_message f ma mi = Ok p /\ answers dbg (answer dbg d p) (endpoint_findings d f).
Proof.
  intros D R. destruct (in_range_typed _ R) as [T C]. set (c := SDiscovery f ma mi) in *.
  exists (stream_wire c). split; [exact (make_wire dbg c T (fun _ => C))|].
  pose proof (wire_wf c T) as W. pose proof (wire_kind c T) as K. pose proof (wire_meaning c R) as M.
  assert (E : nth 7 (bytes (stream_wire c)) 0 mod 32 = f) by (cbn [call_kind stream_meaning call_report c] in M; now injection M).
  rewrite <- E. now apply answer_discovery.
Qed.
Lemma answer_blocks_ok dbg d b f : endpoint_ok d -> stream_in_range (SBlockDiscovery b f) ->
  exists p, make_function_block_discovery_message dbg b f = Ok p /\ answers dbg (answer dbg d p) (blocks_findings d b f).
Proof.
  intros D R. destruct (in_range_typed _ R) as [T C]. set (c := SBlockDiscovery b f) in *.
  exists (stream_wire c). split; [exact (make_wire dbg c T (fun _ => C))|].
  pose proof (wire_wf c T) as W. pose proof (wire_kind c T) as K. pose proof (wire_meaning c R) as M.
  assert (E : nth 2 (bytes (stream_wire c)) 0 = b /\ nth 3 (bytes (stream_wire c)) 0 mod 16 = f)
    by (cbn [call_kind stream_meaning call_report c] in M; now injection M).
  destruct E as [E1 E2]. rewrite <- E1, <- E2. now apply answer_block_discovery.
Qed.

(* the answers arrive among other packets *)
Lemma answers_among dbg r l : answers dbg r l ->
  exists ps, r = Ok ps /\ forall u qs, Forall wf_packet qs -> filter stream_type qs = ps -> exists u', browse dbg u qs = Ok (u', l).
Proof.
  intros (ps & -> & (W & T & F)). exists ps. split; trivial. intros u qs WQ Q. rewrite browse_filter by assumption. rewrite Q. apply F.
Qed.

(* packets that are no requests are not answered *)
Lemma answer_none dbg d p : wf_packet p -> ~ of_kind KDiscovery p -> ~ of_kind KBlockDiscovery p -> answer dbg d p = Ok [].
Proof.
  intros W A B. unfold answer.
  destruct (view_iff dbg KDiscovery p W) as [(K & _)|(_ & _ & E)]; [contradiction|]. cbn [as_stream_view] in E. rewrite E. cbn [bind].
  destruct (view_iff dbg KBlockDiscovery p W) as [(K & _)|(_ & _ & E')]; [contradiction|]. cbn [as_stream_view] in E'. now rewrite E'.
Qed.

Lemma any_request dbg d q : endpoint_ok d -> wf_packet q ->
  exists rs, answer dbg d q = Ok rs /\
    (stream_type q = false -> rs = []) /\
    forall u qs, Forall wf_packet qs -> filter stream_type qs = rs ->
    exists u', browse dbg u qs = Ok (u',
      if stream_type q && (nth 1 (bytes q) 0 =? 0) then endpoint_findings d (nth 7 (bytes q) 0 mod 32)
      else if stream_type q && (nth 1 (bytes q) 0 =? 16) then blocks_findings d (nth 2 (bytes q) 0) (nth 3 (bytes q) 0 mod 16)
      else []).
Proof.
  intros D W. destruct (stream_type q) eqn:T; cbn [andb].
  - assert (T' : nth 0 (bytes q) 0 / 16 = 15) by now apply Z.eqb_eq.
    assert (A : answers dbg (answer dbg d q)
      (if nth 1 (bytes q) 0 =? 0 then endpoint_findings d (nth 7 (bytes q) 0 mod 32)
       else if nth 1 (bytes q) 0 =? 16 then blocks_findings d (nth 2 (bytes q) 0) (nth 3 (bytes q) 0 mod 16)
       else [])).
    { destruct (Z.eqb_spec (nth 1 (bytes q) 0) 0); [apply answer_discovery; trivial; now split|].
      destruct (Z.eqb_spec (nth 1 (bytes q) 0) 16); [apply answer_block_discovery; trivial; now split|].
      exists []. split; [|apply finds_nil]. apply answer_none; trivial; intros [_ K]; cbn [kind_status] in K; contradiction. }
    destruct (answers_among dbg _ _ A) as (rs & E & G). exists rs. split; trivial. split; [discriminate|exact G].
  - exists []. assert (N : forall k, ~ of_kind k q).
    { intros k [K _]. unfold stream_type in T. rewrite K in T. discriminate. }
    split; [now apply answer_none|]. split; trivial.
    intros u qs WQ Q. exists u. rewrite browse_filter by assumption. now rewrite Q.
Qed.
