(* Lemmas for C47: what the integer fields of any SysEx are read as *)
From Coq Require Import ZArith List Bool Lia ZifyBool ZifyNat.
From Verif Require Import Base Bits Sysex SysexSpec SysexProofs.
Import ListNotations.
Local Open Scope Z_scope.
Local Open Scope res_scope.

(* the k bytes from position n on *)
Lemma field_split (l : list Z) n k : (n + k <= length l)%nat ->
  exists pre f post, l = pre ++ f ++ post /\ length pre = n /\ length f = k /\ firstn k (skipn n l) = f.
Proof.
  intros H. exists (firstn n l), (firstn k (skipn n l)), (skipn k (skipn n l)).
  rewrite !firstn_skipn. rewrite !firstn_length, skipn_length. repeat split; lia.
Qed.

Tactic Notation "shape" ident(f) integer(n) :=
  do n (destruct f as [|? f]; [discriminate|]); destruct f as [|? f]; [|discriminate].

Lemma all7_app l m : all7 (l ++ m) <-> all7 l /\ all7 m.
Proof. apply Forall_app. Qed.

Ltac split7 := repeat match goal with
  | H : all7 (_ ++ _) |- _ => apply all7_app in H; destruct H
  | H : all7 (_ :: _) |- _ => apply Forall_cons_iff in H; destruct H
  | H : Forall is_u7 (_ :: _) |- _ => apply Forall_cons_iff in H; destruct H
  end.

Lemma read14 s n : all7 (sx_data s) ->
  make_uint14 s n = if (n + 2 <=? length (sx_data s))%nat then Ok (val7 (firstn 2 (skipn n (sx_data s)))) else Fault AssertFail.
Proof.
  intros H. destruct (Nat.leb_spec (n + 2) (length (sx_data s))) as [L|L].
  - destruct (field_split _ _ _ L) as (pre & f & post & E & Hp & Hf & ->). subst n.
    destruct s as [id l]. cbn [sx_data] in *. subst l. shape f 2. cbn [app].
    rewrite make14_at. split7. rewrite join2 by assumption. cbn [val7]. f_equal. lia.
  - apply out_of_message. lia.
Qed.

Lemma read28 s n : all7 (sx_data s) ->
  make_uint28 s n = if (n + 4 <=? length (sx_data s))%nat then Ok (val7 (firstn 4 (skipn n (sx_data s)))) else Fault AssertFail.
Proof.
  intros H. destruct (Nat.leb_spec (n + 4) (length (sx_data s))) as [L|L].
  - destruct (field_split _ _ _ L) as (pre & f & post & E & Hp & Hf & ->). subst n.
    destruct s as [id l]. cbn [sx_data] in *. subst l. shape f 4. cbn [app].
    rewrite make28_at. split7. rewrite join4 by assumption. cbn [val7]. f_equal. lia.
  - unfold make_uint28, assert_.
    replace (Z.of_nat n + 3 <? _) with false by (symmetry; apply Z.ltb_ge; unfold size; lia). reflexivity.
Qed.

Lemma read32 s n : all7 (sx_data s) ->
  make_uint32 s n = if (n + 5 <=? length (sx_data s))%nat
                    then Ok (val7 (firstn 5 (skipn n (sx_data s))) mod 4294967296) else Fault AssertFail.
Proof.
  intros H. destruct (Nat.leb_spec (n + 5) (length (sx_data s))) as [L|L].
  - destruct (field_split _ _ _ L) as (pre & f & post & E & Hp & Hf & ->). subst n.
    destruct s as [id l]. cbn [sx_data] in *. subst l. shape f 5. cbn [app].
    rewrite make32_at. split7.
    match goal with |- context [Z.land ?e 0x0F] => 
      replace (Z.land e 0x0F) with (Z.land (e mod 16) 0x0F) by (rewrite !land_15; dlia) end.
    rewrite join5 by (try assumption; apply Z.mod_pos_bound; lia). cbn [val7]. unfold is_u7 in *. f_equal. dlia.
  - unfold make_uint32, assert_.
    replace (Z.of_nat n + 4 <? _) with false by (symmetry; apply Z.ltb_ge; unfold size; lia). reflexivity.
Qed.

Lemma read_identity s n : all7 (sx_data s) ->
  make_device_identity s n = if (n + 11 <=? length (sx_data s))%nat
    then (let f := firstn 11 (skipn n (sx_data s)) in
          Ok (mkDevId (nth 0 f 0 * 65536 + nth 1 f 0 * 256 + nth 2 f 0)
                (val7 (firstn 2 (skipn 3 f))) (val7 (firstn 2 (skipn 5 f))) (val7 (firstn 4 (skipn 7 f)))))
    else Fault AssertFail.
Proof.
  intros H. destruct (Nat.leb_spec (n + 11) (length (sx_data s))) as [L|L].
  - destruct (field_split _ _ _ L) as (pre & f & post & E & Hp & Hf & ->). subst n.
    destruct s as [id l]. cbn [sx_data] in *. subst l. shape f 11. split7. cbn [firstn skipn nth].
    match goal with |- make_device_identity (mkSx id (pre ++ (?m0 :: ?m1 :: ?m2 :: ?f0 :: ?f1 :: ?g0 :: ?g1 :: ?r0 :: ?r1 :: ?r2 :: [?r3]) ++ post)) _ = _ =>
      replace (m0 :: m1 :: m2 :: f0 :: f1 :: g0 :: g1 :: r0 :: r1 :: r2 :: [r3])
        with (identity_bytes m0 m1 m2 (val7 [f0; f1]) (val7 [g0; g1]) (val7 [r0; r1; r2; r3])) end.
    + rewrite make_identity_at; try assumption; try (cbn [val7]; unfold is_u7, is_u14, is_u28 in *; lia). reflexivity.
    + unfold identity_bytes. cbn [val7 le7 app]. unfold is_u7 in *. repeat f_equal; dlia.
  - unfold make_device_identity, assert_.
    replace (Z.of_nat n + 10 <? _) with false by (symmetry; apply Z.ltb_ge; unfold size; lia). reflexivity.
Qed.

Lemma reading s n : all7 (sx_data s) ->
  let field k := firstn k (skipn n (sx_data s)) in let inside k := (n + k <=? length (sx_data s))%nat in
  make_uint14 s n = (if inside 2%nat then Ok (val7 (field 2%nat)) else Fault AssertFail) /\
  make_uint28 s n = (if inside 4%nat then Ok (val7 (field 4%nat)) else Fault AssertFail) /\
  make_uint32 s n = (if inside 5%nat then Ok (val7 (field 5%nat) mod 4294967296) else Fault AssertFail) /\
  make_device_identity s n = (if inside 11%nat
    then Ok (mkDevId (nth 0 (field 11%nat) 0 * 65536 + nth 1 (field 11%nat) 0 * 256 + nth 2 (field 11%nat) 0)
               (val7 (firstn 2 (skipn 3 (field 11%nat)))) (val7 (firstn 2 (skipn 5 (field 11%nat))))
               (val7 (firstn 4 (skipn 7 (field 11%nat)))))
    else Fault AssertFail).
Proof.
  intros H field inside. split; [now apply read14|]. split; [now apply read28|].
  split; [now apply read32|]. now apply read_identity.
Qed.

Lemma release_writes s v : 0 <= v ->
  (exists s', add_uint7 false s v = Ok s' /\ s' = mkSx (sx_id s) (sx_data s ++ le7 1 v) /\
     vec_at (sx_data s') (length (sx_data s)) = Ok (v mod 128)) /\
  (exists s', add_uint14 false s v = Ok s' /\ s' = mkSx (sx_id s) (sx_data s ++ le7 2 v) /\
     make_uint14 s' (length (sx_data s)) = Ok (v mod 16384)) /\
  (exists s', add_uint28 false s v = Ok s' /\ s' = mkSx (sx_id s) (sx_data s ++ le7 4 v) /\
     make_uint28 s' (length (sx_data s)) = Ok (v mod 268435456)).
Proof.
  intros H. split; [|now apply release_truncates]. eexists. split; [apply add7_eq; trivial; discriminate|].
  split; [reflexivity|]. cbn [sx_data]. now rewrite vec_at_app0.
Qed.
