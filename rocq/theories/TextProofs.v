(* Lemmas about packets as text. *)
From Coq Require Import ZArith List Bool Lia ZifyBool ZifyNat.
From Verif Require Import Base Bits Packet PacketSpec PacketProofs TextIO TextSpec.
Import ListNotations.
Local Open Scope Z_scope.

(* ---- digits ------------------------------------------------------------------------------------ *)

(* n digits, leading zeros included *)
Fixpoint fixed (upper : bool) (n : nat) (v : Z) : list Z :=
  match n with
  | O => []
  | S m => fixed upper m (v / 16) ++ [digit_char upper (v mod 16)]
  end.

Lemma fixed_length u n : forall v, length (fixed u n v) = n.
Proof. induction n; intros v; cbn [fixed]; [reflexivity|]. rewrite app_length, IHn. cbn [length]. lia. Qed.

Lemma fixed_zero u n : fixed u n 0 = repeat 48 n.
Proof.
  induction n; cbn [fixed]; [reflexivity|]. change (0 / 16) with 0. rewrite IHn. change (digit_char u (0 mod 16)) with 48.
  change (repeat 48 n ++ repeat 48 1 = repeat 48 (S n)). rewrite <- repeat_app. f_equal. lia.
Qed.

Lemma digits_fixed u n : forall v acc, (0 < n)%nat -> 0 <= v < 16 ^ Z.of_nat n ->
  exists m, (1 <= m <= n)%nat /\ v < 16 ^ Z.of_nat m /\ (v = 0 -> m = 1%nat) /\ digits_of 16 u n v acc = fixed u m v ++ acc.
Proof.
  induction n as [|n IH]; intros v acc N V; [lia|]. cbn [digits_of].
  destruct (v / 16 =? 0) eqn:E.
  - exists 1%nat. split; [lia|]. split; [change (16 ^ Z.of_nat 1) with 16; dlia|]. split; [reflexivity|reflexivity].
  - rewrite Nat2Z.inj_succ, Z.pow_succ_r in V by lia.
    destruct n as [|n']. { change (16 ^ Z.of_nat 0) with 1 in V. dlia. }
    set (n := S n') in *.
    destruct (IH (v / 16) (digit_char u (v mod 16) :: acc)) as (m & M & VM & _ & H); [lia|dlia|].
    exists (S m). split; [lia|]. rewrite Nat2Z.inj_succ, Z.pow_succ_r by lia. split; [dlia|].
    split; [intros ->; discriminate E|].
    rewrite H. cbn [fixed]. now rewrite <- app_assoc.
Qed.

(* leading zeros *)
Lemma fixed_pad u m : forall k v, 0 <= v < 16 ^ Z.of_nat m -> repeat 48 k ++ fixed u m v = fixed u (k + m) v.
Proof.
  induction m as [|m IH]; intros k v V.
  - change (16 ^ Z.of_nat 0) with 1 in V. assert (v = 0) as -> by lia. now rewrite !fixed_zero, <- repeat_app.
  - rewrite Nat.add_succ_r. cbn [fixed]. rewrite app_assoc. f_equal. apply IH.
    rewrite Nat2Z.inj_succ, Z.pow_succ_r in V by lia. dlia.
Qed.

Lemma digit_char_spec u d : 0 <= d < 16 -> digit_char u d = nth (Z.to_nat d) (hex_alphabet u) 0 /\
  hex_value (digit_char u d) = Some d /\ is_space (digit_char u d) = false /\
  (digit_char u d =? 120) || (digit_char u d =? 88) = false /\ (digit_char u d =? 45) || (digit_char u d =? 43) = false /\
  (digit_char u d = 48 <-> d = 0).
Proof.
  intros D. assert (In d (zrange 16 0)) as I by (apply in_zrange; lia). clear D.
  cbn [zrange] in I. repeat (destruct I as [<-|I]; [destruct u; cbn; repeat split; lia|]). destruct I.
Qed.

Lemma fixed_hex8 u v : 0 <= v < 4294967296 -> fixed u 8 v = hex8 u v.
Proof.
  intros V. unfold hex8. cbn [fixed app map].
  repeat rewrite Z.div_div by lia.
  rewrite !(fun x => proj1 (digit_char_spec u (x mod 16) (Z.mod_pos_bound x 16 eq_refl))).
  change (16 ^ 7) with 268435456. change (16 ^ 6) with 16777216. change (16 ^ 5) with 1048576. change (16 ^ 4) with 65536.
  change (16 ^ 3) with 4096. change (16 ^ 2) with 256. change (16 ^ 1) with 16. change (16 ^ 0) with 1. rewrite Z.div_1_r. reflexivity.
Qed.

Lemma scan_fixed u n : forall v a over seen r, 0 <= v < 16 ^ Z.of_nat n -> 0 <= a -> a * 16 ^ Z.of_nat n + v < 4294967296 ->
  scan_digits 16 (fixed u n v ++ r) a over seen = scan_digits 16 r (a * 16 ^ Z.of_nat n + v) over (seen || (0 <? n)%nat).
Proof.
  induction n as [|n IH]; intros v a over seen r V A B.
  - cbn [fixed app]. change (16 ^ Z.of_nat 0) with 1 in *. rewrite orb_false_r. f_equal. lia.
  - rewrite Nat2Z.inj_succ, Z.pow_succ_r in * by lia. cbn [fixed]. rewrite <- app_assoc. cbn [app].
    rewrite IH by nia. cbn [scan_digits].
    destruct (digit_char_spec u (v mod 16)) as (_ & -> & _); [lia|].
    replace (16 <=? v mod 16) with false by (symmetry; apply Z.leb_gt; lia).
    set (x := a * 16 ^ Z.of_nat n + v / 16). assert (X : x * 16 + v mod 16 = a * (16 * 16 ^ Z.of_nat n) + v) by (unfold x; nia).
    change (0xFFFFFFFF / 16) with 268435455.
    replace (268435455 <? x) with false by (symmetry; apply Z.ltb_ge; nia).
    replace (0xFFFFFFFF - v mod 16 <? x * 16) with false by (symmetry; apply Z.ltb_ge; lia).
    rewrite orb_false_r. rewrite X. unfold u32. rewrite Z.mod_small by nia. f_equal.
    destruct seen; reflexivity.
Qed.

Lemma scan_stop r v over seen : no_digit r -> scan_digits 16 r v over seen = (v, over, seen, r).
Proof.
  destruct r as [|c r]; [reflexivity|]. cbn [no_digit scan_digits]. intros N. unfold hex_value.
  replace ((48 <=? c) && (c <=? 57)) with false by lia. replace ((97 <=? c) && (c <=? 102)) with false by lia.
  replace ((65 <=? c) && (c <=? 70)) with false by lia. reflexivity.
Qed.

Lemma fixed_head u n v : 0 <= v < 16 ^ Z.of_nat (S n) ->
  fixed u (S n) v = digit_char u (v / 16 ^ Z.of_nat n) :: fixed u n (v mod 16 ^ Z.of_nat n).
Proof.
  revert v. induction n as [|n IH]; intros v V.
  - cbn [fixed app]. change (16 ^ Z.of_nat 0) with 1. change (16 ^ Z.of_nat 1) with 16 in V. rewrite Z.div_1_r, Z.mod_small by lia. reflexivity.
  - change (fixed u (S (S n)) v) with (fixed u (S n) (v / 16) ++ [digit_char u (v mod 16)]).
    assert (P : 0 < 16 ^ Z.of_nat n) by (apply Z.pow_pos_nonneg; lia).
    assert (Q : 16 ^ Z.of_nat (S n) = 16 * 16 ^ Z.of_nat n) by (rewrite Nat2Z.inj_succ, Z.pow_succ_r by lia; reflexivity).
    assert (Q2 : 16 ^ Z.of_nat (S (S n)) = 16 * 16 ^ Z.of_nat (S n)) by (rewrite (Nat2Z.inj_succ (S n)), Z.pow_succ_r by lia; reflexivity).
    rewrite IH by (rewrite Q2, Q in V; rewrite Q; dlia).
    cbn [fixed app]. rewrite Q. rewrite Z.div_div by lia. f_equal.
    set (b := 16 ^ Z.of_nat n) in *.
    assert (E1 : v mod (16 * b) = 16 * ((v / 16) mod b) + v mod 16) by (rewrite Z.rem_mul_r by lia; lia).
    rewrite E1. f_equal; [f_equal; dlia|]. f_equal. f_equal. dlia.
Qed.

(* ---- words --------------------------------------------------------------------------------------- *)

(* a text that is read as v and does not start with a space *)
Definition readable (t : list Z) (v : Z) : Prop :=
  (exists c t', t = c :: t' /\ is_space c = false) /\
  forall r, no_digit r -> extract_u32 BaseHex (t ++ r) = (v, false, r).

Lemma readable_fixed u n v : 0 <= v < 16 ^ Z.of_nat (S (S n)) -> v < 4294967296 -> readable (fixed u (S (S n)) v) v.
Proof.
  intros V W. set (h := v / 16 ^ Z.of_nat (S n)).
  assert (P : 0 < 16 ^ Z.of_nat (S n)) by (apply Z.pow_pos_nonneg; lia).
  assert (Q2 : 16 ^ Z.of_nat (S (S n)) = 16 * 16 ^ Z.of_nat (S n)) by (rewrite (Nat2Z.inj_succ (S n)), Z.pow_succ_r by lia; reflexivity).
  assert (H : 0 <= h < 16) by (unfold h; rewrite Q2 in V; split; [apply Z.div_pos; lia|apply Z.div_lt_upper_bound; lia]).
  set (b := 16 ^ Z.of_nat (S n)) in *.
  assert (R : 0 <= v mod b < b) by (apply Z.mod_pos_bound; lia).
  assert (VE : v = h * b + v mod b) by (unfold h; rewrite (Z.div_mod v b) at 1; lia).
  split.
  - exists (digit_char u h), (fixed u (S n) (v mod b)). split; [now apply fixed_head|]. now apply digit_char_spec.
  - intros r N.
    destruct (digit_char_spec u h H) as (_ & _ & _ & DX & DS & D0).
    rewrite fixed_head by assumption. fold b. fold h. unfold extract_u32. cbn [app]. rewrite DS.
    destruct (Z.eq_dec (digit_char u h) 48) as [E|E].
    + rewrite E. assert (H0 : h = 0) by now apply D0. rewrite H0 in VE.
      assert (SC : scan_digits 16 (fixed u (S n) (v mod b) ++ r) 0 false false = (v, false, true, r)).
      { rewrite scan_fixed by (fold b; lia). rewrite scan_stop by assumption. f_equal. f_equal. f_equal. lia. }
      rewrite (fixed_head u n) by (fold b; lia). cbn [app].
      set (g := digit_char u (v mod b / 16 ^ Z.of_nat n)) in *.
      assert (GX : (g =? 120) || (g =? 88) = false).
      { unfold g. apply digit_char_spec.
        assert (0 < 16 ^ Z.of_nat n) by (apply Z.pow_pos_nonneg; lia).
        assert (b = 16 * 16 ^ Z.of_nat n) by (unfold b; rewrite Nat2Z.inj_succ, Z.pow_succ_r by lia; reflexivity).
        split; [apply Z.div_pos; lia|apply Z.div_lt_upper_bound; lia]. }
      cbn [scan_prefix]. change (48 =? 48) with true. unfold is_x. rewrite GX. cbv iota beta. rewrite (fixed_head u n) in SC by (fold b; lia). cbn [app] in SC. fold g in SC. rewrite SC. reflexivity.
    + assert (SC : scan_digits 16 (fixed u (S (S n)) v ++ r) 0 false false = (v, false, true, r)).
      { rewrite scan_fixed by (rewrite ?Q2; lia). rewrite scan_stop by assumption. reflexivity. }
      rewrite (fixed_head u (S n)) in SC by assumption. cbn [app] in SC. fold b in SC. fold h in SC.
      cbn [scan_prefix base_value]. replace (digit_char u h =? 48) with false by (symmetry; now apply Z.eqb_neq).
      cbv iota beta. rewrite SC. reflexivity.
Qed.

Lemma readable_prefixed u (x : Z) n v : (x = 120 \/ x = 88) -> 0 <= v < 16 ^ Z.of_nat (S n) -> v < 4294967296 ->
  readable (48 :: x :: fixed u (S n) v) v.
Proof.
  intros X V W. split; [exists 48, (x :: fixed u (S n) v); split; reflexivity|].
  intros r N. unfold extract_u32. cbn [app]. change ((48 =? 45) || (48 =? 43)) with false. cbv iota beta.
  cbn [scan_prefix]. change (48 =? 48) with true. unfold is_x. replace ((x =? 120) || (x =? 88)) with true by lia. cbv iota beta.
  rewrite scan_fixed by lia. rewrite scan_stop by assumption. reflexivity.
Qed.

Lemma digits_fuel u k n : forall v acc, 0 <= v < 16 ^ Z.of_nat (S n) -> digits_of 16 u (S n + k) v acc = digits_of 16 u (S n) v acc.
Proof.
  induction n as [|n IH]; intros v acc V.
  - change (16 ^ Z.of_nat 1) with 16 in V. cbn [Nat.add digits_of]. now rewrite (Z.div_small v 16) by lia.
  - change (S (S n) + k)%nat with (S (S n + k)). rewrite (Nat2Z.inj_succ (S n)), Z.pow_succ_r in V by lia.
    assert (W : 0 <= v / 16 < 16 ^ Z.of_nat (S n)) by dlia.
    specialize (IH (v / 16) (digit_char u (v mod 16) :: acc) W).
    remember (S n) as n1. cbn [digits_of]. now rewrite IH.
Qed.

Lemma put_u32_safe f v : ff_base f = BaseHex -> safe_flags f -> is_u32 v -> exists t,
  (forall o, o_flags o = f -> put_u32 v (o_setw 8 (o_setfill 48 o)) = mkOut (o_text o ++ t) f 0 48) /\ readable t v /\
  (ff_showbase f = false -> t = hex8 (ff_uppercase f) v).
Proof.
  intros B S V. unfold is_u32 in V.
  destruct (digits_fixed (ff_uppercase f) 8 v []) as (m & M & VM & M0 & H); [lia|change (16 ^ Z.of_nat 8) with 4294967296; lia|].
  rewrite app_nil_r in H. rewrite <- (digits_fuel _ 3 7) in H by (change (16 ^ Z.of_nat 8) with 4294967296; lia). cbn [Nat.add] in H.
  assert (F8 : repeat 48 (8 - m) ++ fixed (ff_uppercase f) m v = fixed (ff_uppercase f) 8 v).
  { rewrite fixed_pad by lia. f_equal. lia. }
  unfold put_u32, o_setw, o_setfill. cbn [o_flags o_width o_fill o_text].
  destruct (ff_showbase f) eqn:SB.
  - assert (A : ff_adjust f = AdjInternal) by (destruct S as [S|[_ S]]; [exact S|congruence]).
    destruct (Z.eq_dec v 0) as [->|NZ].
    + exists (fixed (ff_uppercase f) 8 0). split; [|split; [|discriminate]].
      * intros o E. unfold base_prefix. rewrite E, SB, A, B. cbn [base_value]. rewrite H. cbn [andb negb Z.eqb app length Nat.add].
        rewrite fixed_length. rewrite <- F8. rewrite (M0 eq_refl). f_equal.
      * apply readable_fixed; change (16 ^ Z.of_nat 8) with 4294967296; lia.
    + set (x := if ff_uppercase f then 88 else 120).
      exists (48 :: x :: fixed (ff_uppercase f) (Nat.max 6 m) v). split; [|split; [|discriminate]].
      * intros o E. unfold base_prefix. rewrite E, SB, A, B. cbn [base_value]. rewrite H. replace (v =? 0) with false by lia. cbn [andb negb app length Nat.add].
        rewrite fixed_length. fold x. f_equal. f_equal. f_equal. f_equal.
        rewrite fixed_pad by lia. f_equal. lia.
      * destruct (Nat.max 6 m) as [|k] eqn:EK; [lia|]. apply readable_prefixed; [unfold x; destruct (ff_uppercase f); lia| |lia].
        split; [lia|]. eapply Z.lt_le_trans; [exact VM|]. apply Z.pow_le_mono_r; lia.
  - exists (hex8 (ff_uppercase f) v). split; [|split; [|reflexivity]].
    + intros o E. unfold base_prefix. rewrite E, SB, B. cbn [base_value]. rewrite H. cbn [andb app length Nat.add]. rewrite fixed_length.
      rewrite <- fixed_hex8 by lia. rewrite <- F8.
      replace (Z.to_nat (8 - Z.of_nat m)) with (8 - m)%nat by lia.
      destruct (ff_adjust f) eqn:A; try reflexivity.
      destruct S as [S|[S _]]; [rewrite A in S; discriminate|now destruct S].
    + rewrite <- fixed_hex8 by lia. apply readable_fixed; change (16 ^ Z.of_nat 8) with 4294967296; lia.
Qed.

Lemma whitespace_space c : whitespace c -> is_space c = true.
Proof. unfold whitespace, is_space. lia. Qed.

Lemma skip_all sp c t : Forall whitespace sp -> is_space c = false -> skip_spaces (sp ++ c :: t) = c :: t.
Proof.
  intros S C. induction S as [|x sp X S IH]; cbn [app skip_spaces].
  - now rewrite C.
  - now rewrite whitespace_space.
Qed.

Definition is_nil (l : list Z) : bool := match l with [] => true | _ => false end.

Lemma get_u32_read sp t v r f : readable t v -> Forall whitespace sp -> no_digit r -> ff_skipws f = true ->
  get_u32 (i_hex (mkIn (sp ++ t ++ r) f false false)) = (mkIn r (set_hex f) (is_nil r) false, Some v).
Proof.
  intros ((c & t' & -> & C) & R) S N F. unfold get_u32, i_hex, sentry, i_good. cbn [i_rest i_flags i_eof i_fail negb andb set_hex ff_skipws ff_base].
  rewrite F. cbn [app]. rewrite skip_all by assumption.
  cbn [i_rest i_flags set_hex ff_base]. specialize (R r N). cbn [app] in R. rewrite R. reflexivity.
Qed.

(* ---- packets ------------------------------------------------------------------------------------- *)

(* the first n words of p, then those of q *)
Definition merged (n : nat) (p q : packet) : packet :=
  mkP (w0 p) (if (1 <? n)%nat then w1 p else w1 q) (if (2 <? n)%nat then w2 p else w2 q) (if (3 <? n)%nat then w3 p else w3 q).

Lemma put_char_0 o c : o_width o = 0 -> put_char c o = mkOut (o_text o ++ [c]) (o_flags o) 0 (o_fill o).
Proof. intros W. unfold put_char. rewrite W. cbn. now destruct (ff_adjust (o_flags o)). Qed.

Lemma hex_flags f : set_hex (set_hex f) = set_hex f.
Proof. reflexivity. Qed.

Lemma put_word_hex f v t : (forall o, o_flags o = set_hex f -> put_u32 v (o_setw 8 (o_setfill 48 o)) = mkOut (o_text o ++ t) (set_hex f) 0 48) ->
  forall o, set_hex (o_flags o) = set_hex f -> put_u32 v (o_setw 8 (o_setfill 48 (o_hex o))) = mkOut (o_text o ++ t) (set_hex f) 0 48.
Proof. intros H o E. apply (H (o_hex o)). exact E. Qed.

Lemma put_packet_text p o : wf_packet p -> safe_flags (o_flags o) ->
  exists ts, length ts = psize p /\ put_packet p o = Ok (mkOut (o_text o ++ join [32] ts) (o_flags o) 0 48) /\
    Forall2 readable ts (wire p) /\
    (ff_showbase (o_flags o) = false -> ts = map (hex8 (ff_uppercase (o_flags o))) (wire p)).
Proof.
  intros W S. set (f := o_flags o) in *.
  assert (SH : safe_flags (set_hex f)) by exact S.
  pose proof W as (W0 & W1 & W2 & W3).
  destruct (put_u32_safe (set_hex f) (w0 p) eq_refl SH W0) as (t0 & P0 & R0 & H0).
  destruct (put_u32_safe (set_hex f) (w1 p) eq_refl SH W1) as (t1 & P1 & R1 & H1).
  destruct (put_u32_safe (set_hex f) (w2 p) eq_refl SH W2) as (t2 & P2 & R2 & H2).
  destruct (put_u32_safe (set_hex f) (w3 p) eq_refl SH W3) as (t3 & P3 & R3 & H3).
  pose proof (put_word_hex f _ _ P0) as Q0. pose proof (put_word_hex f _ _ P1) as Q1.
  pose proof (put_word_hex f _ _ P2) as Q2. pose proof (put_word_hex f _ _ P3) as Q3.
  assert (WR : wire p = firstn (psize p) (words p)).
  { unfold wire. rewrite psize_spec, type_spec by exact W. reflexivity. }
  rewrite WR. unfold put_packet. pose proof (psize_range p) as SZ.
  exists (firstn (psize p) [t0; t1; t2; t3]).
  set (n := psize p) in *. clearbody n. clear WR.
  assert (n = 1 \/ n = 2 \/ n = 3 \/ n = 4)%nat as [-> | [-> | [-> | ->]]] by lia;
    cbn [firstn length put_words word bind Nat.eqb Nat.sub join words map]; (split; [reflexivity|]); (split; [|split]);
    try (repeat (apply Forall2_cons; [assumption|]); apply Forall2_nil);
    try (intros SB; specialize (H0 SB); specialize (H1 SB); specialize (H2 SB); specialize (H3 SB);
         cbn [set_hex ff_uppercase] in H0, H1, H2, H3; subst; reflexivity).
  - rewrite Q0 by reflexivity. cbn [bind o_text o_flags o_width o_fill]. reflexivity.
  - rewrite Q0 by reflexivity. rewrite put_char_0 by reflexivity. rewrite Q1 by reflexivity.
    cbn [bind o_text o_flags o_width o_fill]. now rewrite <- !app_assoc.
  - rewrite Q0 by reflexivity. rewrite put_char_0 by reflexivity. rewrite Q1 by reflexivity. rewrite put_char_0 by reflexivity. rewrite Q2 by reflexivity.
    cbn [bind o_text o_flags o_width o_fill]. now rewrite <- !app_assoc.
  - rewrite Q0 by reflexivity. rewrite put_char_0 by reflexivity. rewrite Q1 by reflexivity. rewrite put_char_0 by reflexivity. rewrite Q2 by reflexivity.
    rewrite put_char_0 by reflexivity. rewrite Q3 by reflexivity.
    cbn [bind o_text o_flags o_width o_fill]. now rewrite <- !app_assoc.
Qed.

Lemma no_digit_space c l : whitespace c -> no_digit (c :: l).
Proof. unfold whitespace, no_digit. lia. Qed.

Lemma psize_w0 p q : w0 p = w0 q -> psize p = psize q.
Proof. intros E. unfold psize, type. now rewrite E. Qed.

Lemma get_packet_text p q ts sp r f : wf_packet p -> Forall2 readable ts (wire p) -> Forall whitespace sp -> no_digit r ->
  ff_skipws f = true ->
  get_packet (mkIn (sp ++ join [32] ts ++ r) f false false) q = (mkIn r f (is_nil r) false, merged (psize p) p q).
Proof.
  intros W T S N F.
  assert (WR : wire p = firstn (psize p) (words p)).
  { unfold wire. rewrite psize_spec, type_spec by assumption. reflexivity. }
  rewrite WR in T. pose proof (psize_range p) as SZ.
  assert (SP : Forall whitespace [32]) by (repeat constructor; unfold whitespace; lia).
  assert (ND : forall l, no_digit ([32] ++ l)) by (intros; apply no_digit_space; unfold whitespace; lia).
  assert (FH : ff_skipws (set_hex f) = true) by exact F.
  assert (ST : psize (set_word q 0 (w0 p)) = psize p) by (apply psize_w0; reflexivity).
  unfold get_packet. unfold merged.
  set (n := psize p) in *. clearbody n. clear WR.
  assert (n = 1 \/ n = 2 \/ n = 3 \/ n = 4)%nat as [-> | [-> | [-> | ->]]] by lia;
    cbn [firstn words] in T; inversion T as [|t0 ? ts0 ? R0 T0]; subst; clear T.
  - inversion T0; subst. cbn [join]. rewrite get_u32_read with (v := w0 p) by assumption.
    cbn [store]. rewrite ST. cbn [Nat.sub get_words]. destruct (i_good _); reflexivity.
  - inversion T0 as [|t1 ? ts1 ? R1 T1]; subst; clear T0. inversion T1; subst. cbn [join].
    rewrite <- !app_assoc. rewrite get_u32_read with (v := w0 p) by (trivial; apply ND).
    change (is_nil ([32] ++ ?l)) with false. cbn [store i_good i_eof i_fail negb andb]. rewrite ST. cbn [Nat.sub get_words].
    rewrite get_u32_read with (v := w1 p) by assumption. cbn [store].
    destruct (i_good _); reflexivity.
  - inversion T0 as [|t1 ? ts1 ? R1 T1]; subst; clear T0. inversion T1 as [|t2 ? ts2 ? R2 T2]; subst; clear T1. inversion T2; subst. cbn [join].
    rewrite <- !app_assoc. rewrite get_u32_read with (v := w0 p) by (trivial; apply ND).
    change (is_nil ([32] ++ ?l)) with false. cbn [store i_good i_eof i_fail negb andb]. rewrite ST. cbn [Nat.sub get_words].
    rewrite get_u32_read with (v := w1 p) by (trivial; apply ND).
    change (is_nil ([32] ++ ?l)) with false. cbn [store i_good i_eof i_fail negb andb].
    rewrite get_u32_read with (v := w2 p) by assumption. cbn [store].
    destruct (i_good _); reflexivity.
  - inversion T0 as [|t1 ? ts1 ? R1 T1]; subst; clear T0. inversion T1 as [|t2 ? ts2 ? R2 T2]; subst; clear T1.
    inversion T2 as [|t3 ? ts3 ? R3 T3]; subst; clear T2. inversion T3; subst. cbn [join].
    rewrite <- !app_assoc. rewrite get_u32_read with (v := w0 p) by (trivial; apply ND).
    change (is_nil ([32] ++ ?l)) with false. cbn [store i_good i_eof i_fail negb andb]. rewrite ST. cbn [Nat.sub get_words].
    rewrite get_u32_read with (v := w1 p) by (trivial; apply ND).
    change (is_nil ([32] ++ ?l)) with false. cbn [store i_good i_eof i_fail negb andb].
    rewrite get_u32_read with (v := w2 p) by (trivial; apply ND).
    change (is_nil ([32] ++ ?l)) with false. cbn [store i_good i_eof i_fail negb andb].
    rewrite get_u32_read with (v := w3 p) by assumption. cbn [store].
    destruct (i_good _); reflexivity.
Qed.

Lemma merged_wire p q : wf_packet p -> wire (merged (psize p) p q) = wire p.
Proof.
  intros W. unfold wire. cbn [w0 merged].
  assert (E : ump_words (w0 p / 268435456) = psize p) by (rewrite psize_spec, type_spec by exact W; reflexivity).
  rewrite E. pose proof (psize_range p) as SZ. unfold merged, words. cbn [w0 w1 w2 w3].
  set (n := psize p) in *. clearbody n.
  assert (n = 1 \/ n = 2 \/ n = 3 \/ n = 4)%nat as [-> | [-> | [-> | ->]]] by lia; reflexivity.
Qed.

Lemma merged_words p q n k : nth k (words (merged n p q)) 0 = if (k <? Nat.max 1 n)%nat then nth k (words p) 0 else nth k (words q) 0.
Proof.
  unfold merged, words. cbn [w0 w1 w2 w3].
  destruct n as [|[|[|[|n]]]], k as [|[|[|[|k]]]]; try reflexivity; cbn [nth]; now destruct k, (_ <? _)%nat.
Qed.

Lemma merged_wf n p q : wf_packet p -> wf_packet q -> wf_packet (merged n p q).
Proof.
  intros (A & B & C & D) (E & F & G & H). unfold wf_packet, merged. cbn [w0 w1 w2 w3].
  split; [assumption|]. split; [now destruct (1 <? n)%nat|]. split; [now destruct (2 <? n)%nat|now destruct (3 <? n)%nat].
Qed.

(* ---- several packets -------------------------------------------------------------------------------- *)

Lemma put_chars s : forall o, o_width o = 0 ->
  fold_left (fun o c => put_char c o) s o = mkOut (o_text o ++ s) (o_flags o) 0 (o_fill o).
Proof.
  induction s as [|c s IH]; intros o W; cbn [fold_left].
  - rewrite app_nil_r. destruct o; cbn in *. now subst.
  - rewrite put_char_0 by assumption. rewrite IH by reflexivity. cbn [o_text o_flags o_fill]. now rewrite <- app_assoc.
Qed.

Lemma is_nil_app s r : is_nil (s ++ r) = match s ++ r with [] => true | _ => false end.
Proof. reflexivity. Qed.

Lemma put_get_all l : forall o rest f sp q, Forall wf_packet (map fst l) -> safe_flags (o_flags o) -> separated l rest ->
  ff_skipws f = true -> Forall whitespace sp -> l <> [] ->
  exists o' text, put_all l o = Ok o' /\ o_text o' = o_text o ++ text /\ o_flags o' = o_flags o /\
  exists qs, get_all (length l) (mkIn (sp ++ text ++ rest) f false false) q =
    (qs, mkIn (last (map snd l) [] ++ rest) f (is_nil (last (map snd l) [] ++ rest)) false) /\
    map wire qs = map wire (map fst l) /\ (wf_packet q -> Forall wf_packet qs).
Proof.
  induction l as [|(p, s) l IH]; intros o rest f sp q W S SE F SP NE; [now destruct NE|].
  cbn [map fst] in W. inversion W as [|? ? Wp Wl]; subst.
  destruct (put_packet_text p o Wp S) as (ts & _ & P & R & _).
  cbn [put_all]. rewrite P. cbn [bind]. rewrite put_chars by reflexivity. cbn [o_text o_flags o_fill].
  destruct l as [|(p2, s2) l].
  - cbn [separated] in SE. destruct SE as (SS & SN).
    assert (ND : no_digit (s ++ rest)).
    { destruct s as [|c s]; [now apply SN|]. inversion SS; subst. now apply no_digit_space. }
    exists (mkOut ((o_text o ++ join [32] ts) ++ s) (o_flags o) 0 48), (join [32] ts ++ s).
    split; [reflexivity|]. split; [cbn [o_text]; now rewrite app_assoc|]. split; [reflexivity|].
    exists [merged (psize p) p q]. cbn [length get_all map snd last fst].
    rewrite <- app_assoc. rewrite (get_packet_text p q ts sp (s ++ rest) f Wp R SP ND F). cbn [map].
    split; [reflexivity|]. split; [now rewrite merged_wire|]. intros Q. repeat constructor; now apply merged_wf.
  - cbn [separated] in SE. destruct SE as (SS & SN & SE).
    assert (ND : forall x, no_digit (s ++ x)).
    { intros x. destruct s as [|c s]; [now destruct SN|]. inversion SS; subst. now apply no_digit_space. }
    assert (NN : forall x, is_nil (s ++ x) = false) by (intros x; destruct s; [now destruct SN|reflexivity]).
    destruct (IH (mkOut ((o_text o ++ join [32] ts) ++ s) (o_flags o) 0 48) rest f s (merged (psize p) p q) Wl S SE F SS ltac:(discriminate))
      as (o' & text & PA & OT & OF & qs & G & M & WQ).
    exists o', (join [32] ts ++ s ++ text). split; [exact PA|]. split; [rewrite OT; cbn [o_text]; now rewrite <- !app_assoc|]. split; [exact OF|].
    exists (merged (psize p) p q :: qs).
    change (length ((p, s) :: (p2, s2) :: l)) with (Datatypes.S (length ((p2, s2) :: l))).
    cbn [get_all]. rewrite <- !app_assoc.
    rewrite (get_packet_text p q ts sp (s ++ text ++ rest) f Wp R SP (ND _) F). rewrite NN. rewrite G.
    cbn [map fst] in M |- *. rewrite M. rewrite merged_wire by assumption. split; [reflexivity|]. split; [reflexivity|].
    intros Q. constructor; [|apply WQ]; now apply merged_wf.
Qed.

Lemma get_not_good i q : i_good i = false -> get_packet i q = (mkIn (i_rest i) (i_flags i) (i_eof i) true, q).
Proof.
  intros G. unfold get_packet, get_u32, i_hex, sentry. unfold i_good in *. cbn [i_eof i_fail i_rest i_flags]. rewrite G. cbn [negb store i_eof i_fail].
  rewrite andb_false_r. reflexivity.
Qed.

Lemma wires_equal qs : forall ps, Forall wf_packet qs -> Forall wf_packet ps -> map wire qs = map wire ps ->
  Forall2 (fun q p => packet_eq q p = Ok true) qs ps.
Proof.
  induction qs as [|q qs IH]; intros [|p ps] Q P E; try discriminate; constructor.
  - inversion Q; inversion P; subst. destruct (packet_eq_wire q p) as (b & B & I); try assumption.
    rewrite B. f_equal. apply I. exact (f_equal (fun l => hd [] l) E).
  - inversion Q; inversion P; subst. apply IH; try assumption. exact (f_equal (@tl _) E).
Qed.

Lemma wire_size p : wf_packet p -> length (wire p) = psize p.
Proof.
  intros W. unfold wire. rewrite firstn_length, psize_spec, type_spec by exact W. change (length (words p)) with 4%nat.
  pose proof (psize_range p) as R. rewrite psize_spec, type_spec in R by exact W. lia.
Qed.

Lemma skip_only sp : Forall whitespace sp -> skip_spaces sp = [].
Proof. intros S. induction S as [|x sp X S IH]; cbn [skip_spaces]; [reflexivity|]. now rewrite whitespace_space. Qed.

Lemma get_only_space sp f q : Forall whitespace sp -> ff_skipws f = true ->
  get_packet (mkIn sp f false false) q = (mkIn [] f true true, q).
Proof.
  intros S F. unfold get_packet, get_u32, i_hex, sentry, i_good. cbn [i_rest i_flags i_eof i_fail negb andb set_hex ff_skipws].
  rewrite F, skip_only by assumption. reflexivity.
Qed.

Lemma get_garbage sp c t f q : Forall whitespace sp -> ff_skipws f = true ->
  is_space c = false -> hex_value c = None -> c <> 43 -> c <> 45 ->
  get_packet (mkIn (sp ++ c :: t) f false false) q = (mkIn (c :: t) f false true, mkP 0 (w1 q) (w2 q) (w3 q)).
Proof.
  intros S F C H P M. unfold get_packet, get_u32, i_hex, sentry, i_good. cbn [i_rest i_flags i_eof i_fail negb andb set_hex ff_skipws].
  rewrite F, skip_all by assumption. unfold extract_u32. cbn [i_rest i_flags set_hex ff_base].
  replace ((c =? 45) || (c =? 43)) with false by lia. cbv iota beta. cbn [scan_prefix].
  replace (c =? 48) with false by (symmetry; apply Z.eqb_neq; intros ->; discriminate H).
  cbn [base_value scan_digits]. rewrite H. reflexivity.
Qed.
