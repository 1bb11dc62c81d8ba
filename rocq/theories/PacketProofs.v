(* Lemmas about Packet.v *)
From Coq Require Import ZArith List Bool Lia ZifyBool ZifyNat.
From Verif Require Import Base Bits Packet PacketSpec.
Import ListNotations.
Local Open Scope Z_scope.

Ltac u32x := unfold u32, u16, u8 in *; unfold is_u32, is_u16, is_u8, is_u7 in *.

(* ---- word level ------------------------------------------------------------ *)

Lemma clear0 w : is_u32 w -> Z.land w 0x00FFFFFF = w mod 16777216.
Proof. intros; now rewrite land_24. Qed.
Lemma clear1 w : is_u32 w -> Z.land w 0xFF00FFFF = w - (w / 65536 mod 256) * 65536.
Proof. intros; exact (land_clear 16 8 w 32 ltac:(lia) ltac:(lia) ltac:(lia) H). Qed.
Lemma clear2 w : is_u32 w -> Z.land w 0xFFFF00FF = w - (w / 256 mod 256) * 256.
Proof. intros; exact (land_clear 8 8 w 32 ltac:(lia) ltac:(lia) ltac:(lia) H). Qed.
Lemma clear3 w : is_u32 w -> Z.land w 0xFFFFFF00 = w - w mod 256.
Proof.
  intros. pose proof (land_clear 0 8 w 32 ltac:(lia) ltac:(lia) ltac:(lia) H) as E.
  change (2 ^ 0) with 1 in E. rewrite Z.div_1_r, Z.mul_1_r in E. exact E.
Qed.
Lemma clear_group w : is_u32 w -> Z.land w 0xF0FFFFFF = w - (w / 16777216 mod 16) * 16777216.
Proof. intros; exact (land_clear 24 4 w 32 ltac:(lia) ltac:(lia) ltac:(lia) H). Qed.

(* adding a field into a hole *)
Lemma lor_hole k m w v :
  0 <= k -> 0 <= m -> 0 <= w -> 0 <= v < 2 ^ m ->
  Z.lor (w - (w / 2 ^ k mod 2 ^ m) * 2 ^ k) (v * 2 ^ k) =
  w - (w / 2 ^ k mod 2 ^ m) * 2 ^ k + v * 2 ^ k.
Proof.
  intros Hk Hm Hw Hv.
  set (x := w - (w / 2 ^ k mod 2 ^ m) * 2 ^ k).
  assert (Ex : x = Z.ldiff w (Z.shiftl (Z.ones m) k)).
  { unfold x. rewrite <- land_field by lia. set (M := Z.shiftl (Z.ones m) k).
    rewrite (Z.sub_nocarry_ldiff w (Z.land w M)).
    - apply Z.bits_inj'; intros n Hn. rewrite !Z.ldiff_spec, Z.land_spec.
      now destruct (Z.testbit w n), (Z.testbit M n).
    - apply Z.bits_inj'; intros n Hn. rewrite Z.ldiff_spec, Z.land_spec, Z.bits_0.
      now destruct (Z.testbit w n), (Z.testbit M n). }
  assert (D : Z.land x (v * 2 ^ k) = 0).
  { rewrite Ex, <- Z.shiftl_mul_pow2 by lia.
    apply Z.bits_inj'; intros n Hn.
    rewrite Z.land_spec, Z.ldiff_spec, !Z.shiftl_spec, Z.bits_0 by lia.
    destruct (Z.lt_ge_cases n k).
    - now rewrite (Z.testbit_neg_r v), andb_false_r by lia.
    - destruct (Z.lt_ge_cases (n - k) m).
      + now rewrite Z.ones_spec_low, andb_false_r by lia.
      + replace (Z.testbit v (n - k)) with false; [apply andb_false_r|].
        symmetry. rewrite <- (Z.mod_small v (2 ^ m)) by lia.
        apply Z.mod_pow2_bits_high. lia. }
  rewrite <- Z.lxor_lor, <- Z.add_nocarry_lxor by assumption. reflexivity.
Qed.

Lemma put_byte_be w k v : is_u32 w -> is_u8 v -> (k < 4)%nat ->
  put_byte w k v =
  match k with
  | 0%nat => w mod 16777216 + v * 16777216
  | 1%nat => w - (w / 65536 mod 256) * 65536 + v * 65536
  | 2%nat => w - (w / 256 mod 256) * 256 + v * 256
  | _ => w - w mod 256 + v
  end.
Proof.
  intros Hw Hv Hk. unfold is_u32, is_u8 in *.
  destruct k as [|[|[|[|k]]]]; unfold put_byte, u32; rewrite ?Z.shiftl_mul_pow2 by lia; pow2_simpl.
  - rewrite clear0 by assumption. rewrite (Z.mod_small (v * _)) by lia.
    rewrite (lor_add_r 24) by (pow2_simpl; dlia). reflexivity.
  - rewrite clear1 by assumption. rewrite (Z.mod_small (v * _)) by lia.
    exact (lor_hole 16 8 w v ltac:(lia) ltac:(lia) ltac:(lia) ltac:(lia)).
  - rewrite clear2 by assumption. rewrite (Z.mod_small (v * _)) by lia.
    exact (lor_hole 8 8 w v ltac:(lia) ltac:(lia) ltac:(lia) ltac:(lia)).
  - rewrite clear3 by assumption.
    rewrite (lor_add 8) by (pow2_simpl; dlia). reflexivity.
  - lia.
Qed.

Lemma word_bytes_put w k v : is_u32 w -> is_u8 v -> (k < 4)%nat ->
  word_bytes (put_byte w k v) = upd (word_bytes w) k v /\ is_u32 (put_byte w k v).
Proof.
  intros Hw Hv Hk. rewrite put_byte_be by assumption. unfold is_u32, is_u8 in *.
  destruct k as [|[|[|[|k]]]]; [ | | | | lia];
    (split; [unfold word_bytes, upd; repeat (f_equal; try dlia) | dlia]).
Qed.

Lemma word_bytes_inj w w' : is_u32 w -> is_u32 w' -> word_bytes w = word_bytes w' -> w = w'.
Proof. unfold word_bytes, is_u32. intros H H' E. injection E; intros. dlia. Qed.

Lemma word_bytes_range w : Forall is_u8 (word_bytes w).
Proof. unfold word_bytes, is_u8. repeat constructor; dlia. Qed.

Lemma bytes_range p : Forall is_u8 (bytes p).
Proof. unfold bytes. repeat (apply Forall_app; split); auto using word_bytes_range. Qed.

Lemma bytes_length p : length (bytes p) = 16%nat.
Proof. reflexivity. Qed.

Lemma bytes_inj p q : wf_packet p -> wf_packet q -> bytes p = bytes q -> p = q.
Proof.
  intros (A0 & A1 & A2 & A3) (B0 & B1 & B2 & B3) E.
  destruct p as [a0 a1 a2 a3], q as [b0 b1 b2 b3]; simpl in *.
  unfold bytes in E; cbn [w0 w1 w2 w3] in E.
  assert (E0 := f_equal (firstn 4) E). assert (E1 := f_equal (fun l => firstn 4 (skipn 4 l)) E).
  assert (E2 := f_equal (fun l => firstn 4 (skipn 8 l)) E).
  assert (E3 := f_equal (fun l => firstn 4 (skipn 12 l)) E). clear E.
  f_equal; apply word_bytes_inj; assumption.
Qed.

(* ---- get_byte / set_byte ---------------------------------------------------- *)

Ltac case_byte b :=
  destruct b as [|[|[|[|[|[|[|[|[|[|[|[|[|[|[|[|b]]]]]]]]]]]]]]]];
  [ | | | | | | | | | | | | | | | | exfalso; lia ].

Lemma get_byte_spec p b : (b < 16)%nat -> get_byte p b = Ok (nth b (bytes p) 0).
Proof.
  intros Hb. case_byte b; cbn -[Z.div Z.modulo Z.land Z.shiftr];
    rewrite land_255, ?shiftr_div by lia; rewrite ?Z.pow_0_r, ?Z.div_1_r; reflexivity.
Qed.

Lemma get_byte_oob p b : (16 <= b)%nat -> get_byte p b = Fault AssertFail.
Proof. intros. unfold get_byte. destruct (Nat.ltb_spec b 16); [lia|reflexivity]. Qed.

Lemma get_byte_7bit_spec p b : (b < 16)%nat -> get_byte_7bit p b = Ok (nth b (bytes p) 0 mod 128).
Proof. intros. unfold get_byte_7bit. rewrite get_byte_spec by assumption. simpl. now rewrite land_127. Qed.

Lemma set_byte_nd_spec p b v : wf_packet p -> is_u8 v -> (b < 16)%nat ->
  bytes (set_byte_nd p b v) = upd (bytes p) b v /\ wf_packet (set_byte_nd p b v).
Proof.
  intros (A0 & A1 & A2 & A3) Hv Hb. destruct p as [a0 a1 a2 a3]; cbn [w0 w1 w2 w3] in *.
  unfold wf_packet.
  case_byte b;
  (match goal with
   | |- context[set_byte_nd _ ?b _] =>
     let k := eval compute in (b mod 4)%nat in
     pose proof (word_bytes_put a0 k v A0 Hv ltac:(lia)) as [Q0 R0];
     pose proof (word_bytes_put a1 k v A1 Hv ltac:(lia)) as [Q1 R1];
     pose proof (word_bytes_put a2 k v A2 Hv ltac:(lia)) as [Q2 R2];
     pose proof (word_bytes_put a3 k v A3 Hv ltac:(lia)) as [Q3 R3]
   end;
   cbn [set_byte_nd word set_word Nat.div Nat.modulo Nat.divmod fst snd Nat.ltb Nat.leb w0 w1 w2 w3 Nat.sub];
   unfold bytes; cbn [w0 w1 w2 w3]; rewrite ?Q0, ?Q1, ?Q2, ?Q3;
   split; [reflexivity | tauto]).
Qed.

Lemma set_byte_nd_oob p b v : (16 <= b)%nat -> set_byte_nd p b v = p.
Proof. intros. unfold set_byte_nd. destruct (Nat.ltb_spec b 16); [lia|reflexivity]. Qed.

Lemma set_byte_ok p b v : (b < 16)%nat -> set_byte p b v = Ok (set_byte_nd p b v).
Proof. intros. unfold set_byte, assert_. destruct (Nat.ltb_spec b 16); [reflexivity|lia]. Qed.

Lemma upd_length {A} (l : list A) b v : length (upd l b v) = length l.
Proof. revert b; induction l; destruct b; simpl; auto. Qed.

Lemma nth_upd {A} (l : list A) b c v d : (b < length l)%nat ->
  nth c (upd l b v) d = if (c =? b)%nat then v else nth c l d.
Proof.
  revert b c; induction l; intros b c H; simpl in *; [lia|].
  destruct b, c; simpl; try reflexivity. apply IHl. lia.
Qed.

Lemma upd_upd {A} (l : list A) b u v : upd (upd l b u) b v = upd l b v.
Proof. revert b; induction l; destruct b; simpl; try reflexivity. now rewrite IHl. Qed.

Lemma upd_comm {A} (l : list A) a b u v : a <> b -> upd (upd l a u) b v = upd (upd l b v) a u.
Proof.
  revert a b; induction l as [|h t IHl]; intros [|a] [|b] ?; simpl; try reflexivity; try congruence.
  f_equal. apply IHl. congruence.
Qed.

Lemma set_get p b c v : wf_packet p -> is_u8 v -> (b < 16)%nat -> (c < 16)%nat ->
  get_byte (set_byte_nd p b v) c = if (c =? b)%nat then Ok v else get_byte p c.
Proof.
  intros Hp Hv Hb Hc. rewrite !get_byte_spec by assumption.
  destruct (set_byte_nd_spec p b v Hp Hv Hb) as [-> _].
  rewrite nth_upd by (rewrite bytes_length; lia). now destruct (c =? b)%nat.
Qed.

(* ---- header fields ---------------------------------------------------------- *)

Lemma type_spec p : wf_packet p -> type p = w0 p / 268435456.
Proof. intros (H & _). unfold type, is_u32 in *. bitlia. Qed.
Lemma type_range p : 0 <= type p < 16.
Proof. unfold type. bitlia. Qed.
Lemma group_spec p : group p = w0 p / 16777216 mod 16.
Proof. unfold group. now bitnorm. Qed.
Lemma byte2_spec p : byte2 p = w0 p / 65536 mod 256.
Proof. unfold byte2. now bitnorm. Qed.
Lemma byte3_spec p : byte3 p = w0 p / 256 mod 256.
Proof. unfold byte3. now bitnorm. Qed.
Lemma byte4_spec p : byte4 p = w0 p mod 256.
Proof. unfold byte4. now bitnorm. Qed.
Lemma status_spec p : status p = w0 p / 65536 mod 256.
Proof. apply byte2_spec. Qed.

Lemma psize_spec p : psize p = ump_words (type p).
Proof.
  unfold psize. pose proof (type_range p) as H. set (t := type p) in *. clearbody t.
  assert (E : Z.of_nat (nth (Z.to_nat t) size_lookup 0%nat) =? Z.of_nat (ump_words t) = true).
  { revert t H. apply (sweep (fun t =>
      Z.of_nat (nth (Z.to_nat t) size_lookup 0%nat) =? Z.of_nat (ump_words t)) 16 0).
    vm_compute. reflexivity. }
  apply Z.eqb_eq in E. lia.
Qed.

Lemma psize_range p : (1 <= psize p <= 4)%nat.
Proof. rewrite psize_spec. unfold ump_words. repeat destruct (_ <? _); try lia; destruct (_ =? _); lia. Qed.

Lemma set_type_spec p t : wf_packet p -> 0 <= t < 16 ->
  set_type p t = Ok (mkP (w0 p mod 268435456 + t * 268435456) (w1 p) (w2 p) (w3 p)).
Proof.
  intros (H & _) Ht. unfold set_type, assert_.
  destruct (Z.ltb_spec t 16); [|lia]. cbn [bind]. do 2 f_equal.
  unfold u32, is_u32 in *.
  rewrite land_28, Z.shiftl_mul_pow2 by lia. pow2_simpl. rewrite (Z.mod_small (t * _)) by lia.
  rewrite (lor_add_r 28) by (pow2_simpl; dlia). reflexivity.
Qed.

Lemma set_group_spec p g : wf_packet p -> 0 <= g < 16 ->
  set_group p g =
  Ok (mkP (w0 p - (w0 p / 16777216 mod 16) * 16777216 + g * 16777216) (w1 p) (w2 p) (w3 p)).
Proof.
  intros (H & _) Hg. unfold set_group, assert_, set_group_nd.
  destruct (Z.ltb_spec g 16); [|lia]. cbn [bind]. do 2 f_equal.
  unfold u32, is_u32 in *.
  rewrite clear_group, Z.shiftl_mul_pow2 by (unfold is_u32; lia). pow2_simpl.
  rewrite (Z.mod_small (g * _)) by lia.
  exact (lor_hole 24 4 (w0 p) g ltac:(lia) ltac:(lia) ltac:(lia) ltac:(lia)).
Qed.

(* ---- equality ---------------------------------------------------------------- *)

Lemma packet_eq_spec p q : wf_packet p ->
  packet_eq p q = Ok true /\ firstn (psize p) (words p) = firstn (psize p) (words q)
  \/ packet_eq p q = Ok false /\ firstn (psize p) (words p) <> firstn (psize p) (words q).
Proof.
  intros _. unfold packet_eq. pose proof (psize_range p) as H.
  destruct p as [a0 a1 a2 a3], q as [b0 b1 b2 b3].
  set (n := psize _) in *. clearbody n. unfold words; cbn [w0 w1 w2 w3].
  assert (n = 1 \/ n = 2 \/ n = 3 \/ n = 4)%nat as C by lia.
  destruct C as [-> | [-> | [-> | ->]]];
  cbn -[Z.eqb];
  repeat match goal with |- context[Z.eqb ?a ?b] => destruct (Z.eqb_spec a b); cbn -[Z.eqb] end;
  subst; (left; split; [reflexivity|reflexivity]) || (right; split; [reflexivity|congruence]).
Qed.

Lemma wire_eq_first p q : wf_packet p -> wf_packet q ->
  (wire p = wire q <-> firstn (psize p) (words p) = firstn (psize p) (words q)).
Proof.
  intros Hp Hq. unfold wire. rewrite <- (type_spec p), <- (type_spec q), <- (psize_spec p), <- (psize_spec q) by assumption.
  pose proof (psize_range p) as Rp. pose proof (psize_range q) as Rq.
  assert (W : forall n, (1 <= n)%nat -> forall r, hd 0 (firstn n (words r)) = w0 r)
    by (intros [|n] Hn r; [lia|reflexivity]).
  assert (K : w0 p = w0 q -> psize p = psize q) by (intros E; unfold psize, type; now rewrite E).
  split; intros E.
  - assert (E0 : w0 p = w0 q).
    { rewrite <- (W (psize p)), <- (W (psize q) ltac:(lia) q) by lia. now rewrite E. }
    rewrite (K E0) in *. assumption.
  - assert (E0 : w0 p = w0 q).
    { rewrite <- (W (psize p)), <- (W (psize p) ltac:(lia) q) by lia. now rewrite E. }
    rewrite <- (K E0). assumption.
Qed.

Lemma packet_eq_wire p q : wf_packet p -> wf_packet q ->
  exists b, packet_eq p q = Ok b /\ (b = true <-> wire p = wire q).
Proof.
  intros Hp Hq. pose proof (wire_eq_first p q Hp Hq) as W.
  destruct (packet_eq_spec p q Hp) as [[-> E]|[-> E]]; eexists; (split; [reflexivity|]);
    split; intros; try congruence; tauto.
Qed.

(* ---- statements used by PropsPacket.v --------------------------------------- *)

Lemma set_byte_cases p b v :
  set_byte p b v = if (b <? 16)%nat then Ok (set_byte_nd p b v) else Fault AssertFail.
Proof. unfold set_byte, assert_. now destruct (b <? 16)%nat. Qed.

Lemma set_byte_last p b u v : wf_packet p -> is_u8 u -> is_u8 v ->
  set_byte_nd (set_byte_nd p b u) b v = set_byte_nd p b v.
Proof.
  intros Hp Hu Hv. destruct (Nat.lt_ge_cases b 16) as [Hb|Hb].
  - destruct (set_byte_nd_spec p b u Hp Hu Hb) as [E1 W1].
    destruct (set_byte_nd_spec _ b v W1 Hv Hb) as [E2 W2].
    destruct (set_byte_nd_spec p b v Hp Hv Hb) as [E3 W3].
    apply bytes_inj; try assumption. now rewrite E2, E1, E3, upd_upd.
  - now rewrite !set_byte_nd_oob by assumption.
Qed.

Lemma set_byte_commute p b c u v : wf_packet p -> is_u8 u -> is_u8 v -> b <> c ->
  set_byte_nd (set_byte_nd p b u) c v = set_byte_nd (set_byte_nd p c v) b u.
Proof.
  intros Hp Hu Hv Hn.
  destruct (Nat.lt_ge_cases b 16) as [Hb|Hb]; destruct (Nat.lt_ge_cases c 16) as [Hc|Hc];
    rewrite ?(set_byte_nd_oob _ b), ?(set_byte_nd_oob _ c) by assumption; try reflexivity.
  destruct (set_byte_nd_spec p b u Hp Hu Hb) as [E1 W1].
  destruct (set_byte_nd_spec p c v Hp Hv Hc) as [E2 W2].
  destruct (set_byte_nd_spec _ c v W1 Hv Hc) as [E3 W3].
  destruct (set_byte_nd_spec _ b u W2 Hu Hb) as [E4 W4].
  apply bytes_inj; try assumption. now rewrite E3, E1, E4, E2, upd_comm.
Qed.

Lemma set_7bit_get p b v : wf_packet p -> is_u8 v -> (b < 16)%nat ->
  exists q, set_byte_7bit p b v = Ok q /\ get_byte q b = Ok (v mod 128) /\
            get_byte_7bit q b = Ok (v mod 128).
Proof.
  intros Hp Hv Hb. unfold set_byte_7bit. rewrite set_byte_ok, land_127 by assumption.
  eexists; split; [reflexivity|].
  assert (R : is_u8 (v mod 128)) by (unfold is_u8 in *; dlia).
  assert (G : get_byte (set_byte_nd p b (v mod 128)) b = Ok (v mod 128))
    by (rewrite set_get by assumption; now rewrite Nat.eqb_refl).
  split; [exact G|]. unfold get_byte_7bit. rewrite G. simpl. rewrite land_127. f_equal. dlia.
Qed.

Lemma header_fields p : wf_packet p ->
  w0 p = type p * 268435456 + group p * 16777216 + byte2 p * 65536 + byte3 p * 256 + byte4 p
  /\ 0 <= type p < 16 /\ 0 <= group p < 16 /\ is_u8 (byte2 p) /\ is_u8 (byte3 p) /\ is_u8 (byte4 p)
  /\ status p = byte2 p /\ psize p = ump_words (type p).
Proof.
  intros Hp. rewrite psize_spec. unfold status. rewrite (type_spec p Hp), group_spec, byte2_spec, byte3_spec, byte4_spec.
  destruct Hp as (H & _). unfold is_u32, is_u8 in *.
  repeat split; dlia.
Qed.

Lemma set_type_fields p t : wf_packet p -> 0 <= t < 16 ->
  exists q, set_type p t = Ok q /\ wf_packet q /\ type q = t /\ group q = group p /\
    byte2 q = byte2 p /\ byte3 q = byte3 p /\ byte4 q = byte4 p /\
    w1 q = w1 p /\ w2 q = w2 p /\ w3 q = w3 p.
Proof.
  intros Hp Ht. rewrite set_type_spec by assumption. eexists; split; [reflexivity|].
  assert (W : wf_packet (mkP (w0 p mod 268435456 + t * 268435456) (w1 p) (w2 p) (w3 p))).
  { destruct Hp as (H0 & H1 & H2 & H3). unfold wf_packet, is_u32 in *; cbn [w0 w1 w2 w3].
    repeat split; try lia; dlia. }
  split; [exact W|]. rewrite (type_spec _ W), !group_spec, !byte2_spec, !byte3_spec, !byte4_spec.
  cbn [w0 w1 w2 w3]. destruct Hp as (H0 & _). unfold is_u32 in *.
  repeat split; dlia.
Qed.

Lemma set_group_fields p g : wf_packet p -> 0 <= g < 16 ->
  exists q, set_group p g = Ok q /\ wf_packet q /\ group q = g /\ type q = type p /\
    byte2 q = byte2 p /\ byte3 q = byte3 p /\ byte4 q = byte4 p /\
    w1 q = w1 p /\ w2 q = w2 p /\ w3 q = w3 p.
Proof.
  intros Hp Hg. rewrite set_group_spec by assumption. eexists; split; [reflexivity|].
  match goal with |- wf_packet ?q /\ _ => assert (W : wf_packet q) end.
  { destruct Hp as (H0 & H1 & H2 & H3). unfold wf_packet, is_u32 in *; cbn [w0 w1 w2 w3].
    repeat split; try lia; dlia. }
  split; [exact W|]. rewrite (type_spec _ W), (type_spec _ Hp), !group_spec, !byte2_spec, !byte3_spec, !byte4_spec.
  cbn [w0 w1 w2 w3]. destruct Hp as (H0 & _). unfold is_u32 in *.
  repeat split; dlia.
Qed.

Lemma midi1_protocol_spec p : wf_packet p ->
  (is_midi1_protocol_message p = true <->
   type p = 1 /\ defined_system_status (status p) \/ type p = 2 /\ 0x80 <= status p < 0xF0).
Proof.
  intros _. unfold is_midi1_protocol_message, defined_system_status, pt_system, pt_midi1_channel_voice.
  destruct (Z.eqb_spec (type p) 1) as [->|]; [|destruct (Z.eqb_spec (type p) 2) as [->|]].
  - cbn [existsb]. rewrite !orb_true_iff, !Z.eqb_eq. lia.
  - lia.
  - split; [discriminate|lia].
Qed.

Lemma packet_eq_equiv :
  (forall p, wf_packet p -> packet_eq p p = Ok true) /\
  (forall p q, wf_packet p -> wf_packet q -> packet_eq p q = packet_eq q p) /\
  (forall p q r, wf_packet p -> wf_packet q -> wf_packet r ->
     packet_eq p q = Ok true -> packet_eq q r = Ok true -> packet_eq p r = Ok true).
Proof.
  repeat split.
  - intros p Hp. destruct (packet_eq_wire p p Hp Hp) as ([|] & -> & E); [reflexivity|].
    destruct E as [_ E]. now rewrite E.
  - intros p q Hp Hq. destruct (packet_eq_wire p q Hp Hq) as ([|] & -> & E);
    destruct (packet_eq_wire q p Hq Hp) as ([|] & -> & F); try reflexivity.
    + destruct E as [E _]. destruct F as [_ F]. rewrite F; auto. symmetry; auto.
    + destruct E as [_ E]. destruct F as [F _]. rewrite E; auto. symmetry; auto.
  - intros p q r Hp Hq Hr A B.
    destruct (packet_eq_wire p q Hp Hq) as (b1 & E1 & I1).
    destruct (packet_eq_wire q r Hq Hr) as (b2 & E2 & I2).
    destruct (packet_eq_wire p r Hp Hr) as (b3 & E3 & I3).
    rewrite E3. f_equal. apply I3. rewrite A in E1. rewrite B in E2.
    injection E1 as <-. injection E2 as <-. transitivity (wire q); [now apply I1|now apply I2].
Qed.

Lemma packet_neq_negb p q : wf_packet p -> wf_packet q ->
  exists b, packet_neq p q = Ok b /\ (b = true <-> wire p <> wire q).
Proof.
  intros Hp Hq. destruct (packet_eq_wire p q Hp Hq) as (b & E & I).
  exists (negb b). unfold packet_neq. rewrite E. split; [reflexivity|].
  destruct b; simpl; split; intros H; try discriminate; try tauto.
  intros W. apply I in W. discriminate.
Qed.

Lemma named_bytes p :
  byte2 p = nth 1 (bytes p) 0 /\ byte3 p = nth 2 (bytes p) 0 /\ byte4 p = nth 3 (bytes p) 0 /\
  status p = nth 1 (bytes p) 0.
Proof.
  rewrite byte2_spec, byte3_spec, byte4_spec, status_spec. unfold bytes, word_bytes. cbn [app nth]. repeat split.
Qed.
