(* Proofs about a SysEx that grows while memory may run out. *)
From Coq Require Import ZArith List Bool Lia ZifyBool ZifyNat.
From Verif Require Import Base Bits Packet Sysex SysexSpec UniversalSysex SysexProofs StreamSpec Collector CollectSpec SendProofs Growing GrowingSpec.
Import ListNotations.
Local Open Scope Z_scope.
Local Open Scope res_scope.

Fixpoint inserts (a : allocator) (ok : nat -> bool) (st : growing) (cs : list (list Z)) : gresult :=
  match cs with
  | [] => Ok (st, true)
  | c :: t => then_m (insert_m a ok st c) (fun st => inserts a ok st t)
  end.

Lemma then_done r : then_m r (fun st => Ok (st, true)) = r.
Proof. unfold then_m. destruct r as [[st []]|]; reflexivity. Qed.
Lemma then_ext r k k' : (forall st, k st = k' st) -> then_m r k = then_m r k'.
Proof. intros E. unfold then_m. destruct r as [[st []]|]; cbn [bind]; trivial. Qed.

(* the bytes that the functions insert *)
Lemma uint7_inserts dbg a ok st v : is_u7 v -> add_uint7_m dbg a ok st v = insert_m a ok st [v].
Proof.
  unfold is_u7. intros H. unfold add_uint7_m. rewrite digit0, (Z.mod_small v 128) by lia. rewrite check_true by lia. reflexivity.
Qed.
Lemma uint14_inserts dbg a ok st v : is_u14 v -> add_uint14_m dbg a ok st v = insert_m a ok st (le7 2 v).
Proof. unfold is_u14. intros H. unfold add_uint14_m. rewrite le7_2, digit0, digit by lia. rewrite check_true by lia. reflexivity. Qed.
Lemma uint28_inserts dbg a ok st v : is_u28 v -> add_uint28_m dbg a ok st v = insert_m a ok st (le7 4 v).
Proof. unfold is_u28. intros H. unfold add_uint28_m. rewrite le7_4, digit0, !digit by lia. rewrite check_true by lia. reflexivity. Qed.
Lemma uint32_inserts a ok st v : is_u32 v -> add_uint32_m a ok st v = insert_m a ok st (le7 5 v).
Proof.
  intros H. pose proof (add32_eq (mkSx 0 []) v H) as E. unfold add_uint32, push in E. cbn [sx_id sx_data app] in E.
  unfold add_uint32_m. f_equal. remember (le7 5 v) as L. clear HeqL. congruence.
Qed.
Lemma data_inserts dbg a ok st ds : ds <> [] -> add_data_m dbg a ok st ds = insert_m a ok st ds.
Proof. intros H. unfold add_data_m. rewrite check_true; [reflexivity|]. destruct ds; [congruence|]. unfold size. cbn [length]. lia. Qed.

Lemma piece_inserts dbg a ok st p : valid_piece p -> add_piece dbg a ok st p = inserts a ok st (portions p).
Proof.
  destruct p as [v|ds|v|v|v|d]; cbn [valid_piece add_piece portions inserts]; intros V; rewrite ?then_done.
  - now apply uint7_inserts.
  - now apply data_inserts.
  - now apply uint14_inserts.
  - now apply uint28_inserts.
  - now apply uint32_inserts.
  - destruct d as [i f m r]. cbn [di_manufacturer di_family di_model di_revision] in *.
    destruct V as ((m0 & m1 & m2 & H0 & H1 & H2 & ->) & F & M & R). unfold add_device_identity_m. cbn [di_manufacturer di_family di_model di_revision].
    rewrite manu_mask, u14_mask, u14_mask, u28_mask by trivial. rewrite !check_true by reflexivity. cbn [bind].
    rewrite manu_digit0, manu_digit1, manu_digit2 by trivial.
    replace ((m0 * 65536 + m1 * 256 + m2) / 65536) with m0 by (unfold is_u7 in *; dlia).
    replace ((m0 * 65536 + m1 * 256 + m2) / 256 mod 256) with m1 by (unfold is_u7 in *; dlia).
    replace ((m0 * 65536 + m1 * 256 + m2) mod 256) with m2 by (unfold is_u7 in *; dlia).
    do 5 (apply then_ext; intros ?; rewrite ?uint14_inserts by trivial). rewrite then_done. now apply uint28_inserts.
Qed.

(* ---- insertions ---------------------------------------------------------------------------- *)

Definition answers_yes (ok : nat -> bool) (m n : nat) : Prop := forall i, (m <= i < n)%nat -> ok i = true.

Lemma size_app (l k : list Z) : size (l ++ k) = size l + size k.
Proof. unfold size. rewrite app_length. lia. Qed.
Lemma size_pos (l : list Z) : 0 <= size l.
Proof. unfold size. lia. Qed.

Lemma insert_spec a ok st c : std_alloc a -> sound st ->
  exists st' fin, insert_m a ok st c = Ok (st', fin) /\ sound st' /\ sx_id (gr_sysex st') = sx_id (gr_sysex st) /\
    (if fin then content st' = content st ++ c /\ (gr_asked st <= gr_asked st')%nat /\ answers_yes ok (gr_asked st) (gr_asked st')
     else content st' = content st /\ gr_asked st' = S (gr_asked st) /\ ok (gr_asked st) = false) /\
    gr_capacity st <= gr_capacity st' /\
    (size (content st) + size c <= gr_capacity st -> fin = true /\ gr_asked st' = gr_asked st /\ gr_capacity st' = gr_capacity st).
Proof.
  intros (A1 & A2 & _) S. unfold sound, content in *. unfold insert_m. pose proof (size_pos c). pose proof (size_pos (sx_data (gr_sysex st))).
  destruct (Z.leb_spec (size (sx_data (gr_sysex st)) + size c) (gr_capacity st)) as [L|L].
  - do 2 eexists. split; [reflexivity|]. cbn [gr_sysex gr_capacity gr_asked push sx_id sx_data]. rewrite size_app.
    split; [lia|]. split; [reflexivity|]. split; [|split; [lia|auto]]. split; [reflexivity|]. split; [lia|]. intros i I. lia.
  - destruct (ok (gr_asked st)) eqn:O; do 2 eexists; (split; [reflexivity|]); cbn [gr_sysex gr_capacity gr_asked push sx_id sx_data].
    + rewrite size_app. specialize (A2 (gr_capacity st) (size (sx_data (gr_sysex st)) + Z.max (size (sx_data (gr_sysex st))) (size c)) ltac:(lia)).
      split; [lia|]. split; [reflexivity|]. split; [|split; [lia|lia]]. split; [reflexivity|]. split; [lia|]. intros i I.
      replace i with (gr_asked st) by lia. exact O.
    + split; [lia|]. split; [reflexivity|]. split; [auto|]. split; [lia|lia].
Qed.

Lemma inserts_spec a ok cs : std_alloc a -> forall st, sound st ->
  exists st' fin, inserts a ok st cs = Ok (st', fin) /\ sound st' /\ sx_id (gr_sysex st') = sx_id (gr_sysex st) /\
    (if fin then content st' = content st ++ concat cs /\ (gr_asked st <= gr_asked st')%nat /\ answers_yes ok (gr_asked st) (gr_asked st')
     else exists k n, (k < length cs)%nat /\ content st' = content st ++ concat (firstn k cs) /\ gr_asked st' = S n /\
       (gr_asked st <= n)%nat /\ ok n = false /\ answers_yes ok (gr_asked st) n) /\
    gr_capacity st <= gr_capacity st' /\
    (size (content st) + size (concat cs) <= gr_capacity st -> fin = true /\ gr_asked st' = gr_asked st /\ gr_capacity st' = gr_capacity st).
Proof.
  intros A. induction cs as [|c cs IH]; intros st S; cbn [inserts].
  - exists st, true. split; [reflexivity|]. split; [exact S|]. split; [reflexivity|]. split; [|split; [lia|auto]].
    cbn [concat]. rewrite app_nil_r. split; [reflexivity|]. split; [lia|]. intros i I. lia.
  - destruct (insert_spec a ok st c A S) as (s1 & f1 & E & S1 & I1 & F1 & C1 & R1). rewrite E. unfold then_m. cbn [bind]. destruct f1.
    + destruct F1 as (D1 & L1 & Y1). destruct (IH s1 S1) as (s2 & f2 & E2 & S2 & I2 & F2 & C2 & R2). rewrite E2.
      exists s2, f2. split; [reflexivity|]. split; [exact S2|]. split; [congruence|]. split; [|split; [lia|]].
      * destruct f2.
        -- destruct F2 as (D2 & L2 & Y2). cbn [concat]. rewrite D2, D1, <- app_assoc. split; [reflexivity|]. split; [lia|].
           intros i I. destruct (Nat.ltb_spec i (gr_asked s1)); [apply Y1|apply Y2]; lia.
        -- destruct F2 as (k & n & K & D2 & N & G & O & Y2). exists (Datatypes.S k), n. cbn [length firstn concat]. rewrite D2, D1, <- app_assoc.
           split; [lia|]. split; [reflexivity|]. split; [exact N|]. split; [lia|]. split; [exact O|].
           intros i I. destruct (Nat.ltb_spec i (gr_asked s1)); [apply Y1|apply Y2]; lia.
      * cbn [concat]. rewrite size_app. intros R. pose proof (size_pos c). pose proof (size_pos (concat cs)).
        destruct (R1 ltac:(lia)) as (_ & Q1 & Q2). rewrite D1, size_app in R2. destruct (R2 ltac:(lia)) as (? & ? & ?). repeat split; congruence.
    + destruct F1 as (D1 & L1 & O). exists s1, false. split; [reflexivity|]. split; [exact S1|]. split; [exact I1|]. split; [|split; [exact C1|]].
      * exists 0%nat, (gr_asked st). cbn [length firstn concat]. rewrite app_nil_r. split; [lia|]. split; [exact D1|]. split; [exact L1|]. split; [lia|].
        split; [exact O|]. intros i I. lia.
      * cbn [concat]. rewrite size_app. intros R. pose proof (size_pos (concat cs)). destruct (R1 ltac:(lia)) as (? & _). discriminate.
Qed.

(* ---- values -------------------------------------------------------------------------------- *)

Theorem build_spec dbg a ok ps : std_alloc a -> Forall valid_piece ps -> forall st, sound st ->
  exists st' fin, build dbg a ok st ps = Ok (st', fin) /\ sound st' /\ sx_id (gr_sysex st') = sx_id (gr_sysex st) /\
    (if fin then content st' = content st ++ all_bytes ps /\ (gr_asked st <= gr_asked st')%nat /\
       (forall i, (gr_asked st <= i < gr_asked st')%nat -> ok i = true)
     else exists before p after k n, ps = before ++ p :: after /\ (k < length (portions p))%nat /\
       content st' = content st ++ all_bytes before ++ concat (firstn k (portions p)) /\
       gr_asked st' = S n /\ (gr_asked st <= n)%nat /\ ok n = false /\ (forall i, (gr_asked st <= i < n)%nat -> ok i = true)) /\
    gr_capacity st <= gr_capacity st' /\
    (size (content st) + size (all_bytes ps) <= gr_capacity st -> fin = true /\ gr_asked st' = gr_asked st /\ gr_capacity st' = gr_capacity st).
Proof.
  intros A V. induction V as [|p ps Vp V IH]; intros st S; cbn [build].
  - exists st, true. split; [reflexivity|]. split; [exact S|]. split; [reflexivity|]. split; [|split; [lia|auto]].
    unfold all_bytes. cbn [map concat]. rewrite app_nil_r. split; [reflexivity|]. split; [lia|]. intros i I. lia.
  - rewrite piece_inserts by trivial. destruct (inserts_spec a ok (portions p) A st S) as (s1 & f1 & E & S1 & I1 & F1 & C1 & R1).
    rewrite E. unfold then_m. cbn [bind]. assert (B : all_bytes (p :: ps) = concat (portions p) ++ all_bytes ps) by reflexivity. destruct f1.
    + destruct F1 as (D1 & L1 & Y1). destruct (IH s1 S1) as (s2 & f2 & E2 & S2 & I2 & F2 & C2 & R2). rewrite E2.
      exists s2, f2. split; [reflexivity|]. split; [exact S2|]. split; [congruence|]. split; [|split; [lia|]].
      * destruct f2.
        -- destruct F2 as (D2 & L2 & Y2). rewrite B, D2, D1, <- app_assoc. split; [reflexivity|]. split; [lia|].
           intros i I. destruct (Nat.ltb_spec i (gr_asked s1)); [apply Y1|apply Y2]; lia.
        -- destruct F2 as (before & q & after & k & n & -> & K & D2 & N & G & O & Y2). exists (p :: before), q, after, k, n.
           split; [reflexivity|]. split; [exact K|]. split.
           { rewrite D2, D1. unfold all_bytes at 2. cbn [map concat]. fold (all_bytes before). unfold bytes_of at 1. now rewrite <- !app_assoc. }
           split; [exact N|]. split; [lia|]. split; [exact O|].
           intros i I. destruct (Nat.ltb_spec i (gr_asked s1)); [apply Y1|apply Y2]; lia.
      * rewrite B, size_app. intros R. pose proof (size_pos (concat (portions p))). pose proof (size_pos (all_bytes ps)).
        destruct (R1 ltac:(lia)) as (_ & Q1 & Q2). rewrite D1, size_app in R2. destruct (R2 ltac:(lia)) as (? & ? & ?). repeat split; congruence.
    + destruct F1 as (k & n & K & D1 & N & G & O & Y). exists s1, false. split; [reflexivity|]. split; [exact S1|]. split; [exact I1|].
      split; [|split; [exact C1|]].
      * exists [], p, ps, k, n. split; [reflexivity|]. split; [exact K|]. split; [exact D1|]. auto.
      * rewrite B, size_app. intros R. pose proof (size_pos (all_bytes ps)). destruct (R1 ltac:(lia)) as (? & _). discriminate.
Qed.

Lemma single_portion p : single p -> exists c, portions p = [c] /\ bytes_of p = c.
Proof. destruct p; intros S; [..|destruct S]; eexists; (split; [reflexivity|]); unfold bytes_of; cbn [portions concat]; apply app_nil_r. Qed.

Theorem insist_spec dbg a ok : std_alloc a -> forall n ps, Forall valid_piece ps -> Forall single ps -> forall st, sound st ->
  exists st' fin, insist dbg a ok n st ps = Ok (st', fin) /\ sound st' /\ sx_id (gr_sysex st') = sx_id (gr_sysex st) /\
    (if fin then content st' = content st ++ all_bytes ps
     else exists before after, ps = before ++ after /\ after <> [] /\ content st' = content st ++ all_bytes before) /\
    ((forall i, (gr_asked st + n <= i)%nat -> ok i = true) -> fin = true).
Proof.
  intros A n. induction n as [|n IHn]; intros ps V; induction V as [|p ps Vp V IH]; intros Sg st S.
  1,3: exists st, true; split; [reflexivity|]; split; [exact S|]; split; [reflexivity|]; split; [|auto]; unfold all_bytes; cbn [map concat];
    now rewrite app_nil_r.
  - pose proof (Forall_inv Sg) as Sp. pose proof (Forall_inv_tail Sg) as St. destruct (single_portion p Sp) as (c & P & Bc).
    cbn [insist]. rewrite piece_inserts, P by trivial. cbn [inserts]. rewrite then_done.
    destruct (insert_spec a ok st c A S) as (s1 & f1 & E & S1 & I1 & F1 & C1 & R1). rewrite E. cbn [bind].
    assert (B : all_bytes (p :: ps) = c ++ all_bytes ps) by (unfold all_bytes; cbn [map concat]; now rewrite Bc). destruct f1.
    + destruct F1 as (D1 & L1 & Y1). destruct (IH St s1 S1) as (s2 & f2 & E2 & S2 & I2 & F2 & T2). cbn [insist] in E2. rewrite E2.
      exists s2, f2. split; [reflexivity|]. split; [exact S2|]. split; [congruence|]. split.
      * destruct f2; [now rewrite B, F2, D1, <- app_assoc|]. destruct F2 as (b & r & -> & R & D2). exists (p :: b), r. split; [reflexivity|].
        split; [exact R|]. rewrite D2, D1. unfold all_bytes at 2. cbn [map concat]. rewrite Bc. fold (all_bytes b). now rewrite <- app_assoc.
      * intros T. apply T2. intros i I. apply T. lia.
    + destruct F1 as (D1 & L1 & O). exists s1, false. split; [reflexivity|]. split; [exact S1|]. split; [exact I1|]. split.
      * exists [], (p :: ps). split; [reflexivity|]. split; [discriminate|]. rewrite D1. symmetry. apply app_nil_r.
      * intros T. rewrite T in O by lia. discriminate.
  - pose proof (Forall_inv Sg) as Sp. pose proof (Forall_inv_tail Sg) as St. destruct (single_portion p Sp) as (c & P & Bc).
    cbn [insist]. rewrite piece_inserts, P by trivial. cbn [inserts]. rewrite then_done.
    destruct (insert_spec a ok st c A S) as (s1 & f1 & E & S1 & I1 & F1 & C1 & R1). rewrite E. cbn [bind].
    assert (B : all_bytes (p :: ps) = c ++ all_bytes ps) by (unfold all_bytes; cbn [map concat]; now rewrite Bc). destruct f1.
    + destruct F1 as (D1 & L1 & Y1). destruct (IH St s1 S1) as (s2 & f2 & E2 & S2 & I2 & F2 & T2). cbn [insist] in E2. rewrite E2.
      exists s2, f2. split; [reflexivity|]. split; [exact S2|]. split; [congruence|]. split.
      * destruct f2; [now rewrite B, F2, D1, <- app_assoc|]. destruct F2 as (b & r & -> & R & D2). exists (p :: b), r. split; [reflexivity|].
        split; [exact R|]. rewrite D2, D1. unfold all_bytes at 2. cbn [map concat]. rewrite Bc. fold (all_bytes b). now rewrite <- app_assoc.
      * intros T. apply T2. intros i I. apply T. lia.
    + destruct F1 as (D1 & L1 & O). destruct (IHn (p :: ps) (Forall_cons _ Vp V) Sg s1 S1) as (s2 & f2 & E2 & S2 & I2 & F2 & T2).
      rewrite E2. exists s2, f2. split; [reflexivity|]. split; [exact S2|]. split; [congruence|]. split; [now rewrite D1 in F2|].
      intros T. apply T2. intros i I. apply T. lia.
Qed.

(* ---- without memory ------------------------------------------------------------------------ *)

Lemma constructed_spec a ok id n : std_alloc a -> 0 <= n ->
  exists st fin, new_with_capacity a ok id n = Ok (st, fin) /\ sound st /\ gr_sysex st = mkSx id [] /\ (gr_asked st <= 1)%nat /\
    (fin = true -> n <= gr_capacity st) /\ (fin = false -> ok 0%nat = false).
Proof.
  intros (A1 & A2 & _) N. unfold new_with_capacity, reserve_m, new_growing. cbn [gr_sysex gr_capacity gr_asked].
  destruct (Z.leb_spec n 0) as [L|L]; [|destruct (ok 0%nat) eqn:O]; do 2 eexists; (split; [reflexivity|]); unfold sound, content;
    cbn [gr_sysex gr_capacity gr_asked sx_data]; unfold size; cbn [length]; pose proof (A2 0 n).
  - split; [lia|]. split; [reflexivity|]. split; [lia|]. split; [lia|discriminate].
  - split; [lia|]. split; [reflexivity|]. split; [lia|]. split; [lia|discriminate].
  - split; [lia|]. split; [reflexivity|]. split; [lia|]. split; [discriminate|reflexivity].
Qed.

Lemma cleared_spec a st : std_alloc a -> sound st -> sound (clear_m a st) /\ content (clear_m a st) = [] /\ gr_asked (clear_m a st) = gr_asked st /\
  (gr_capacity st <= 16384 -> gr_capacity (clear_m a st) = gr_capacity st).
Proof.
  intros (_ & _ & A3) S. unfold sound, content in *. pose proof (size_pos (sx_data (gr_sysex st))). specialize (A3 (gr_capacity st) ltac:(lia)).
  unfold clear_m, clear_capacity. cbn [gr_sysex gr_capacity gr_asked sysex_empty_value sx_data]. unfold size at 1. cbn [length].
  destruct (Z.ltb_spec 16384 (gr_capacity st)); repeat split; trivial; lia.
Qed.

Theorem reuse_spec dbg a ok l : std_alloc a -> Forall (Forall valid_piece) l -> forall st, sound st -> gr_capacity st <= 16384 ->
  Forall (fun ps => size (all_bytes ps) <= gr_capacity st) l ->
  exists st', reuse dbg a ok st l = Ok (st', true) /\ gr_asked st' = gr_asked st /\
    match rev l with [] => st' = st | ps :: _ => gr_sysex st' = mkSx 0 (all_bytes ps) end.
Proof.
  intros A V. induction V as [|ps l Vp V IH]; intros st S C R.
  - exists st. repeat split.
  - cbn [reuse]. destruct (cleared_spec a st A S) as (S0 & D0 & N0 & C0). specialize (C0 C).
    destruct (build_spec dbg a ok ps A Vp (clear_m a st) S0) as (s1 & f1 & E & S1 & I1 & F1 & _ & R1).
    destruct R1 as (-> & N1 & C1); [pose proof (Forall_inv R) as Q; cbn beta in Q; rewrite D0, C0; unfold size at 1; cbn [length]; lia|].
    rewrite E. unfold then_m. cbn [bind]. rewrite C0 in C1. destruct (IH s1 S1 ltac:(lia)) as (s2 & E2 & N2 & L2).
    { rewrite C1. exact (Forall_inv_tail R). }
    exists s2. split; [exact E2|]. split; [congruence|]. cbn [rev].
    assert (G : gr_sysex s1 = mkSx 0 (all_bytes ps)).
    { destruct F1 as (D1 & _). rewrite D0 in D1. cbn [app] in D1. unfold content in D1. destruct (gr_sysex s1) as [i0 d0]. cbn [sx_id sx_data] in *.
      rewrite I1, D1. reflexivity. }
    destruct (rev l) as [|q r]; cbn [app]; [now rewrite L2|exact L2].
Qed.

(* ---- identity replies ---------------------------------------------------------------------- *)

Lemma then_assoc r k k' : then_m (then_m r k) k' = then_m r (fun st => then_m (k st) k').
Proof. unfold then_m. destruct r as [[st []]|]; reflexivity. Qed.

Lemma reply_inserts a ok n (cs : list (list Z)) st0 r : std_alloc a -> sound st0 -> content st0 = [] ->
  r = then_m (reserve_m a ok st0 n) (fun st => inserts a ok st cs) -> gr_capacity st0 < n -> size (concat cs) <= n ->
  exists st, r = Ok (st, ok (gr_asked st0)) /\ gr_asked st = S (gr_asked st0) /\
    (ok (gr_asked st0) = true -> gr_sysex st = mkSx (sx_id (gr_sysex st0)) (concat cs)).
Proof.
  intros A Sd D -> C L. unfold reserve_m. replace (n <=? gr_capacity st0) with false by lia.
  destruct (ok (gr_asked st0)) eqn:O; unfold then_m; cbn [bind]; [|eexists; split; [reflexivity|]; split; [reflexivity|discriminate]].
  set (s0 := mkG _ _ _). destruct A as (A1 & A2 & A3). pose proof (A2 _ _ C) as C'.
  assert (S0 : sound s0). { unfold sound, s0, content in *. cbn [gr_sysex gr_capacity]. rewrite D. unfold size. cbn [length]. unfold sound, content in Sd. rewrite D in Sd. unfold size in Sd. cbn [length] in Sd. lia. }
  destruct (inserts_spec a ok cs (conj A1 (conj A2 A3)) s0 S0) as (s1 & f1 & E & S1 & I1 & F1 & _ & R1).
  destruct R1 as (-> & N1 & _). { change (content s0) with (content st0). rewrite D. change (gr_capacity s0) with (al_reserve a (gr_capacity st0) n). unfold size at 1. cbn [length]. lia. }
  rewrite E. exists s1. split; [reflexivity|]. split; [exact N1|]. intros _. destruct F1 as (D1 & _). change (content s0) with (content st0) in D1. rewrite D in D1.
  unfold content in D1. destruct (gr_sysex s1) as [i0 d0]. cbn [sx_id sx_data app] in *. rewrite I1, D1. reflexivity.
Qed.

Theorem reply_spec dbg a ok m f fm r dev : std_alloc a ->
  ((exists b, 1 <= b < 128 /\ m = b * 65536) \/ (exists b c, is_u7 b /\ is_u7 c /\ m = b * 256 + c)) -> is_u14 f -> is_u14 fm -> is_u28 r -> is_u8 dev ->
  exists st, identity_reply_m dbg a ok m f fm r dev = Ok (st, ok 0%nat) /\ gr_asked st = 1%nat /\
    (ok 0%nat = true -> identity_reply dbg m f fm r dev = Ok (gr_sysex st)).
Proof.
  intros A [(b & B & ->)|(b & c & B & C & ->)] F M V D.
  - destruct (reply_short_ok dbg b f fm r dev B F M V D) as (s & -> & -> & _).
    destruct (reply_inserts a ok 12 ([[dev]; [6]; [2]; [b]] ++ [le7 2 f; le7 2 fm; le7 4 r]) (new_growing universal_non_realtime)
      (identity_reply_m dbg a ok (b * 65536) f fm r dev) A) as (st & E & N & G); trivial.
    + unfold sound, content, new_growing. cbn. lia.
    + unfold identity_reply_m. replace (b * 65536 <? 65536) with false by lia. apply then_ext. intros st. cbn [app inserts].
      do 3 (apply then_ext; intros ?). rewrite digit by lia. pow2_simpl. replace (b * 65536 / 65536 mod 128) with b by dlia.
      do 3 (apply then_ext; intros ?; rewrite ?uint14_inserts by trivial). rewrite then_done. now apply uint28_inserts.
    + cbn. lia.
    + unfold size. cbn [app concat length]. rewrite !app_length, !le7_length. cbn [length]. lia.
    + exists st. split; [exact E|]. split; [exact N|]. intros O. rewrite (G O). cbn [app concat]. rewrite app_nil_r. reflexivity.
  - destruct (reply_long_ok dbg b c f fm r dev B C F M V D) as (s & -> & -> & _).
    destruct (reply_inserts a ok 14 ([[dev]; [6]; [2]; [0]; [b]; [c]] ++ [le7 2 f; le7 2 fm; le7 4 r]) (new_growing universal_non_realtime)
      (identity_reply_m dbg a ok (b * 256 + c) f fm r dev) A) as (st & E & N & G); trivial.
    + unfold sound, content, new_growing. cbn. lia.
    + unfold is_u7 in *. unfold identity_reply_m. replace (b * 256 + c <? 65536) with true by lia. apply then_ext. intros st. cbn [app inserts].
      do 3 (apply then_ext; intros ?). rewrite digit by lia. rewrite digit0. pow2_simpl.
      replace ((b * 256 + c) / 256 mod 128) with b by dlia. replace ((b * 256 + c) mod 128) with c by dlia.
      rewrite then_assoc. apply then_ext; intros ?. rewrite then_assoc. apply then_ext; intros ?.
      do 3 (apply then_ext; intros ?; rewrite ?uint14_inserts by trivial). rewrite then_done. now apply uint28_inserts.
    + cbn. lia.
    + unfold size. cbn [app concat length]. rewrite !app_length, !le7_length. cbn [length]. lia.
    + exists st. split; [exact E|]. split; [exact N|]. intros O. rewrite (G O). cbn [app concat]. rewrite app_nil_r. reflexivity.
Qed.

(* ---- combined ------------------------------------------------------------------------------ *)

Theorem room_enough dbg a ok st ps : std_alloc a -> Forall valid_piece ps -> sound st -> size (content st) + size (all_bytes ps) <= gr_capacity st ->
  exists st', build dbg a ok st ps = Ok (st', true) /\ gr_asked st' = gr_asked st /\ content st' = content st ++ all_bytes ps.
Proof.
  intros A V S R. destruct (build_spec dbg a ok ps A V st S) as (s1 & f1 & E & _ & _ & F1 & _ & R1). destruct (R1 R) as (-> & N & _).
  exists s1. split; [exact E|]. split; [exact N|]. apply F1.
Qed.

Theorem reserved_once dbg a ok id n l : exact_alloc a -> 0 <= n <= 16384 -> Forall (Forall valid_piece) l ->
  Forall (fun ps => size (all_bytes ps) <= n) l ->
  exists st fin, new_with_capacity a ok id n = Ok (st, fin) /\ (gr_asked st <= 1)%nat /\ (fin = false -> ok 0%nat = false) /\
    (fin = true -> exists st', reuse dbg a ok st l = Ok (st', true) /\ gr_asked st' = gr_asked st /\
       match rev l with [] => st' = st | ps :: _ => gr_sysex st' = mkSx 0 (all_bytes ps) end).
Proof.
  intros [A X] N V R. destruct (constructed_spec a ok id n A ltac:(lia)) as (st & fin & E & S & _ & K & C & O).
  exists st, fin. split; [exact E|]. split; [exact K|]. split; [exact O|]. intros ->. specialize (C eq_refl).
  assert (Q : gr_capacity st = n).
  { unfold new_with_capacity, reserve_m, new_growing in E. cbn [gr_sysex gr_capacity gr_asked] in E. destruct (Z.leb_spec n 0).
    - injection E as <-. cbn [gr_capacity] in *. lia.
    - destruct (ok 0%nat); [|discriminate]. injection E as <-. cbn [gr_capacity]. apply X. lia. }
  apply reuse_spec; trivial; [lia|]. now rewrite Q.
Qed.

(* ---- packets ------------------------------------------------------------------------------- *)

Lemma push_room a ok cap asked ps : forall r, size r + size ps <= cap -> push_packets a ok cap asked r ps = (r ++ ps, asked, true).
Proof.
  induction ps as [|p ps IH]; intros r L; cbn [push_packets]; [now rewrite app_nil_r|].
  unfold size in *. cbn [length] in L. replace (Z.of_nat (length r) <? cap) with true by lia.
  rewrite IH by (rewrite app_length; cbn [length]; lia). now rewrite <- app_assoc.
Qed.
Lemma chunk_number k cs : full_chunks k cs -> (k * length cs < length (concat cs) + k)%nat.
Proof.
  induction cs as [|c cs IH]; [intros []|]. intros F. destruct cs as [|c' cs].
  - cbn in *. rewrite app_nil_r. lia.
  - destruct F as [L F]. specialize (IH F). cbn [concat length] in *. rewrite app_length. lia.
Qed.
Lemma tail_length g cs : length (sx7_tail g cs) = length cs.
Proof. induction cs as [|c cs IH]; [reflexivity|]. destruct cs; cbn [sx7_tail length] in *; [reflexivity|]. f_equal. exact IH. Qed.

Theorem packets_once a ok id d g : std_alloc a -> valid_id id -> Forall is_u8 d -> 0 <= g < 16 ->
  exists ps, send_sysex7 (mkSx id d) g = Ok ps /\ as_sysex7_packets_m a ok (mkSx id d) g = Ok (if ok 0%nat then Some ps else None, 1%nat).
Proof.
  intros (_ & A2 & _) V D G. destruct (send7_spec (mkSx id d) g) as (c & rest & F & C & E); trivial.
  { split; [now apply valid_id_u32|assumption]. }
  unfold as_sysex7_packets_m. rewrite E. eexists. split; [reflexivity|]. cbn [bind]. unfold collect_packets. destruct (ok 0%nat); [|reflexivity].
  rewrite push_room; [reflexivity|]. pose proof (chunk_number 6 _ F) as N. rewrite C, app_length, map_length in N. cbn [sx_id sx_data] in *.
  assert (L : Z.of_nat (length (sent_id7 id)) + size d <= total_data_size (mkSx id d) + 1 /\ (total_data_size (mkSx id d) = size d -> length (sent_id7 id) = 1%nat) /\
    (total_data_size (mkSx id d) <> size d -> Z.of_nat (length (sent_id7 id)) + size d = total_data_size (mkSx id d))).
  { destruct (Z.eq_dec id 0) as [->|NZ].
    - change (sent_id7 0) with [0]. change (total_data_size (mkSx 0 d)) with (size d). cbn [length]. lia.
    - rewrite sent_id7_valid by assumption. unfold total_data_size. cbn [sx_id sx_data]. replace (id =? 0) with false by lia. cbn [negb].
      unfold id_bytes. destruct V as [(m & M & ->)|(x & y & X & Y & ->)].
      + replace (65536 <=? m * 65536) with true by lia. replace (Z.land (m * 65536) 16711680 =? 0) with false; [cbn [negb length]; lia|].
        symmetry. apply Z.eqb_neq. change 16711680 with (Z.shiftl 255 16). replace (m * 65536) with (Z.shiftl m 16) by (rewrite Z.shiftl_mul_pow2; lia).
        rewrite <- Z.shiftl_land. change 255 with (Z.ones 8). rewrite Z.land_ones, Z.mod_small by lia. rewrite Z.shiftl_mul_pow2 by lia. lia.
      + unfold is_u7 in *. replace (65536 <=? x * 256 + y) with false by lia. replace (Z.land (x * 256 + y) 16711680 =? 0) with true; [cbn [negb length]; lia|].
        symmetry. apply Z.eqb_eq. change 16711680 with (Z.shiftl 255 16). apply Z.bits_inj'. intros i I. rewrite Z.land_spec, Z.bits_0.
        destruct (Z.ltb_spec i 16); [rewrite Z.shiftl_spec_low by lia; apply andb_false_r|].
        rewrite (Z.bits_above_log2 (x * 256 + y)); [reflexivity|lia|]. destruct (Z.eq_dec (x * 256 + y) 0) as [->|]; [cbn; lia|].
        apply Z.log2_lt_pow2; [lia|]. apply Z.lt_le_trans with (2 ^ 16); [lia|]. apply Z.pow_le_mono_r; lia. }
  set (T := total_data_size (mkSx id d)) in *. assert (T0 : 0 <= T) by (subst T; unfold total_data_size; cbn [sx_id sx_data]; unfold size; destruct (negb (id =? 0)); [destruct (negb _)|]; lia).
  pose proof (A2 0 (T / 6 + 1) ltac:(dlia)) as R. unfold size in *. cbn [length] in *. rewrite tail_length. dlia.
Qed.

Lemma push_any a ok ps : forall cap asked r,
  (exists n, push_packets a ok cap asked r ps = (r ++ ps, n, true) /\ (asked <= n)%nat /\ answers_yes ok asked n) \/
  (exists n l, push_packets a ok cap asked r ps = (l, S n, false) /\ (asked <= n)%nat /\ ok n = false /\ answers_yes ok asked n).
Proof.
  induction ps as [|p ps IH]; intros cap asked r; cbn [push_packets].
  - left. exists asked. rewrite app_nil_r. repeat split; [lia|]. intros i I. lia.
  - assert (X : (r ++ [p]) ++ ps = r ++ p :: ps) by now rewrite <- app_assoc. rewrite <- X. destruct (size r <? cap); [apply IH|].
    destruct (ok asked) eqn:O.
    + destruct (IH (al_reserve a cap (size r + Z.max (size r) 1)) (S asked) (r ++ [p])) as [(n & E & L & Y)|(n & l & E & L & F & Y)]; rewrite E.
      * left. exists n. repeat split; [lia|]. intros i I. destruct (Nat.eq_dec i asked) as [->|]; [exact O|]. apply Y. lia.
      * right. exists n, l. repeat split; [lia|exact F|]. intros i I. destruct (Nat.eq_dec i asked) as [->|]; [exact O|]. apply Y. lia.
    + right. exists asked, r. repeat split; [lia|exact O|]. intros i I. lia.
Qed.
Theorem packets_all_or_none a ok n ps : exists m, 
  (collect_packets a ok n ps = (Some ps, S m) /\ (forall i, (i <= m)%nat -> ok i = true)) \/
  (collect_packets a ok n ps = (None, S m) /\ ok m = false /\ (forall i, (i < m)%nat -> ok i = true)).
Proof.
  unfold collect_packets. destruct (ok 0%nat) eqn:O; [|exists 0%nat; right; repeat split; [exact O|]; intros i I; lia].
  destruct (push_any a ok ps (al_reserve a 0 n) 1 []) as [(m & E & L & Y)|(m & l & E & L & F & Y)]; rewrite E.
  - exists (m - 1)%nat. left. replace (S (m - 1)) with m by lia. split; [reflexivity|]. intros [|i] I; [exact O|]. apply Y. lia.
  - exists m. right. split; [reflexivity|]. split; [exact F|]. intros [|i] I; [exact O|]. apply Y. lia.
Qed.
Theorem packets8_all_or_none a ok id d i g ps : send_sysex8 (mkSx id d) i g = Ok ps -> exists m,
  (as_sysex8_packets_m a ok (mkSx id d) i g = Ok (Some ps, S m) /\ (forall i, (i <= m)%nat -> ok i = true)) \/
  (as_sysex8_packets_m a ok (mkSx id d) i g = Ok (None, S m) /\ ok m = false /\ (forall i, (i < m)%nat -> ok i = true)).
Proof.
  intros E. unfold as_sysex8_packets_m. rewrite E. cbn [bind]. destruct (packets_all_or_none a ok ((total_data_size (mkSx id d) + 1) / 14 + 1) ps) as [m [(Q & Y)|(Q & Y)]];
    exists m; rewrite Q; [left|right]; auto.
Qed.

(* Requests get rare: every two of them the size doubles. *)
Definition rare (st : growing) : Prop :=
  2 ^ (Z.of_nat (gr_asked st) / 2) <= size (sx_data (gr_sysex st)) + 1 /\ 2 ^ ((Z.of_nat (gr_asked st) + 1) / 2) <= gr_capacity st + 2.
Definition keeps (f : growing -> gresult) : Prop := forall st st', rare st -> f st = Ok (st', true) -> rare st'.
Lemma keeps_insert a ok ds : std_alloc a -> keeps (fun st => insert_m a ok st ds).
Proof.
  intros (A0 & A & _) [s cap k] st' [R1 R2] H. unfold insert_m in H. cbn [gr_sysex gr_capacity gr_asked] in *.
  assert (D : 0 <= size ds) by (unfold size; lia). assert (L0 : 0 <= size (sx_data s)) by (unfold size; lia).
  assert (P : size (sx_data (push s ds)) = size (sx_data s) + size ds) by (unfold size, push; cbn [sx_data]; rewrite app_length; lia).
  destruct (Z.leb_spec (size (sx_data s) + size ds) cap) as [F|F]; [injection H as <-; split; cbn [gr_sysex gr_capacity gr_asked]; [lia|exact R2]|].
  destruct (ok k); [|discriminate]. injection H as <-. split; cbn [gr_sysex gr_capacity gr_asked].
  - rewrite Nat2Z.inj_succ. unfold Z.succ. lia.
  - assert (C : 2 * size (sx_data s) <= al_reserve a cap (size (sx_data s) + Z.max (size (sx_data s)) (size ds))).
    { destruct (Z.le_gt_cases (size (sx_data s) + Z.max (size (sx_data s)) (size ds)) cap) as [Y|Y]; [lia|]. specialize (A _ _ Y). lia. }
    replace ((Z.of_nat (S k) + 1) / 2) with (Z.succ (Z.of_nat k / 2)) by (rewrite Nat2Z.inj_succ; Z.div_mod_to_equations; lia).
    rewrite Z.pow_succ_r by (apply Z.div_pos; lia). lia.
Qed.
Lemma keeps_then f g : keeps f -> keeps g -> keeps (fun st => then_m (f st) g).
Proof.
  intros F G st st' R H. unfold then_m in H. destruct (f st) as [[s b]|] eqn:E; [|discriminate]. cbn [bind] in H. destruct b; [|discriminate].
  eapply G; [|exact H]. eapply F; [exact R|exact E].
Qed.
Lemma keeps_check {A} (c : res A) f : keeps f -> keeps (fun st => bind c (fun _ => f st)).
Proof. intros F st st' R H. destruct c; [|discriminate]. exact (F _ _ R H). Qed.
Lemma keeps_piece dbg a ok p : std_alloc a -> keeps (fun st => add_piece dbg a ok st p).
Proof.
  intros A. destruct p; cbn [add_piece]; unfold add_uint7_m, add_data_m, add_uint14_m, add_uint28_m, add_uint32_m, add_device_identity_m.
  all: repeat (apply keeps_check). all: try (now apply keeps_insert).
  apply keeps_then; [now apply keeps_insert|]. apply keeps_then; [now apply keeps_insert|]. apply keeps_then; [now apply keeps_insert|].
  apply keeps_then; [apply keeps_check; now apply keeps_insert|]. apply keeps_then; [apply keeps_check; now apply keeps_insert|].
  apply keeps_check. now apply keeps_insert.
Qed.
Lemma keeps_build dbg a ok ps : std_alloc a -> keeps (fun st => build dbg a ok st ps).
Proof.
  intros A. induction ps as [|p t IH]; cbn [build].
  - intros st st' R H. injection H as <-. exact R.
  - apply keeps_then; [now apply keeps_piece|exact IH].
Qed.
Theorem amortised dbg a ok id ps st : std_alloc a -> build dbg a ok (new_growing id) ps = Ok (st, true) ->
  2 ^ (Z.of_nat (gr_asked st) / 2) <= size (content st) + 1.
Proof.
  intros A H. apply (keeps_build dbg a ok ps A _ _) in H; [exact (proj1 H)|]. split; cbn; lia.
Qed.
