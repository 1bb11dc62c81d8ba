(* The parser refines the reference semantics of StreamSpec.v *)
From Coq Require Import ZArith List Bool Lia ZifyBool ZifyNat.
From Verif Require Import Base Bits Packet PacketSpec PacketProofs PacketBytes
  Messages Sysex ByteStream StreamSpec.
Import ListNotations.
Local Open Scope Z_scope.
Local Open Scope res_scope.

Ltac Zify.zify_post_hook ::= idtac.

(* ---- layouts as byte sequences ---------------------------------------------- *)

Lemma u7_u8 x : is_u7 x -> is_u8 x.
Proof. unfold is_u7, is_u8; lia. Qed.
Lemma Forall_u7_u8 l : Forall is_u7 l -> Forall is_u8 l.
Proof. intros H; eapply Forall_impl; [|exact H]. apply u7_u8. Qed.

Definition short_ty (s : Z) : Z := if s <? 0xF0 then 2 else 1.

Lemma short_pob g s ds :
  short_packet g s ds = packet_of_bytes [short_ty s * 16 + g; s; nth 0 ds 0; nth 1 ds 0].
Proof.
  unfold short_packet, packet_of_bytes, short_ty, be32; cbn [nth]. f_equal; try lia.
Qed.

Lemma nth_1 g s ds : (length ds <= 2)%nat -> forall i, (i < 16)%nat ->
  nth i [g; s; nth 0 ds 0; nth 1 ds 0] 0 = nth i (g :: s :: ds) 0.
Proof.
  intros H i Hi. destruct i as [|[|[|[|i]]]]; try reflexivity.
  cbn [nth]. rewrite (nth_overflow ds) by lia. now destruct i.
Qed.

Lemma short_pob' g s ds : (length ds <= 2)%nat ->
  short_packet g s ds = packet_of_bytes ((short_ty s * 16 + g) :: s :: ds).
Proof. intros. rewrite short_pob. now apply pob_eq, nth_1. Qed.

Lemma sx7_pob g fmt ds : (length ds <= 6)%nat ->
  sx7_packet g fmt ds = packet_of_bytes ((3 * 16 + g) :: (fmt * 16 + Z.of_nat (length ds)) :: ds).
Proof.
  intros H. unfold sx7_packet, packet_of_bytes; cbn [nth].
  rewrite !(nth_overflow ds) with (n := 6%nat) by lia.
  rewrite !(nth_overflow ds) with (n := 7%nat) by lia.
  rewrite !(nth_overflow ds) with (n := 8%nat) by lia.
  rewrite !(nth_overflow ds) with (n := 9%nat) by lia.
  rewrite !(nth_overflow ds) with (n := 10%nat) by lia.
  rewrite !(nth_overflow ds) with (n := 11%nat) by lia.
  rewrite !(nth_overflow ds) with (n := 12%nat) by lia.
  rewrite !(nth_overflow ds) with (n := 13%nat) by lia.
  reflexivity.
Qed.

(* the packet being collected: size nibble still 0 *)
Definition raw7 (g fmt : Z) (ds : list Z) : packet :=
  packet_of_bytes ((3 * 16 + g) :: (fmt * 16) :: ds).

Lemma make_system_short g s : 0 <= g < 16 -> 0xF0 <= s < 256 ->
  make_system_message g s 0 0 = short_packet g s [].
Proof.
  intros. unfold make_system_message, short_packet, packet1; cbn [nth].
  replace (s <? 0xF0) with false by lia. f_equal. bitlia.
Qed.

Lemma midi1_cv_short g s : 0 <= g < 16 -> 0x80 <= s < 0xF0 ->
  midi1_cv g s 0 0 = short_packet g s [].
Proof.
  intros. unfold midi1_cv, short_packet, packet1; cbn [nth].
  replace (s <? 0xF0) with true by lia. f_equal. bitlia.
Qed.

Lemma sysex7_packet_raw g fmt : 0 <= g < 16 -> 0 <= fmt < 4 ->
  sysex7_packet (fmt * 16) g = Ok (raw7 g fmt []).
Proof.
  intros Hg Hf. unfold sysex7_packet. rewrite set_group_spec; [|split; cbn -[Z.lor Z.shiftl]; unfold is_u32|assumption].
  - unfold raw7, packet_of_bytes, packet1, be32; cbn [w0 w1 w2 w3 nth].
    f_equal. f_equal. bitlia.
  - bitlia.
  - lia.
Qed.

Lemma short_type g s ds : 0 <= g < 16 -> is_u8 s -> Forall is_u8 ds ->
  type (short_packet g s ds) = short_ty s.
Proof.
  intros Hg Hs Hd. rewrite short_pob, pob_type.
  - cbn [nth]. unfold short_ty. destruct (s <? 0xF0); dlia.
  - pose proof (nth_u8 ds 0 Hd); pose proof (nth_u8 ds 1 Hd).
    repeat constructor; try apply Hs; unfold short_ty, is_u8 in *; destruct (s <? 0xF0); try lia.
Qed.

Lemma short_status g s ds : 0 <= g < 16 -> is_u8 s -> Forall is_u8 ds ->
  status (short_packet g s ds) = s.
Proof.
  intros Hg Hs Hd. rewrite short_pob, pob_status; [reflexivity|].
  pose proof (nth_u8 ds 0 Hd); pose proof (nth_u8 ds 1 Hd).
  repeat constructor; try apply Hs; unfold short_ty, is_u8 in *; destruct (s <? 0xF0); try lia.
Qed.

Lemma short_hdr_u8 g s ds : 0 <= g < 16 -> is_u8 s -> Forall is_u8 ds ->
  Forall is_u8 (short_ty s * 16 + g :: s :: ds).
Proof.
  intros. repeat constructor; try assumption;
    unfold short_ty, is_u8 in *; destruct (s <? 0xF0); lia.
Qed.

(* storing the data byte at position 2 or 3 *)
Lemma short_set2 g s a b v : 0 <= g < 16 -> is_u8 s -> is_u8 a -> is_u8 b -> is_u8 v ->
  set_byte (short_packet g s [a; b]) 2 v = Ok (short_packet g s [v; b]).
Proof.
  intros. rewrite set_byte_ok by lia. f_equal. rewrite !short_pob' by (simpl; lia).
  rewrite pob_upd; [reflexivity| | |simpl; lia|lia]; auto using short_hdr_u8.
Qed.
Lemma short_set3 g s a b v : 0 <= g < 16 -> is_u8 s -> is_u8 a -> is_u8 b -> is_u8 v ->
  set_byte (short_packet g s [a; b]) 3 v = Ok (short_packet g s [a; v]).
Proof.
  intros. rewrite set_byte_ok by lia. f_equal. rewrite !short_pob' by (simpl; lia).
  rewrite pob_upd; [reflexivity| | |simpl; lia|lia]; auto using short_hdr_u8.
Qed.
Lemma short_pad1 g s a : short_packet g s [a; 0] = short_packet g s [a].
Proof. reflexivity. Qed.
Lemma short_pad0 g s : short_packet g s [0; 0] = short_packet g s [].
Proof. reflexivity. Qed.

(* ---- lists ------------------------------------------------------------------ *)

Lemma lastn_app1 {A} n (l : list A) x : (n <= length l)%nat ->
  lastn (S n) (l ++ [x]) = lastn n l ++ [x].
Proof.
  intros. unfold lastn. rewrite app_length; simpl.
  replace (length l + 1 - S n)%nat with (length l - n)%nat by lia.
  rewrite skipn_app. replace (length l - n - length l)%nat with 0%nat by lia. reflexivity.
Qed.
Lemma lastn_all {A} n (l : list A) : (length l <= n)%nat -> lastn n l = l.
Proof. intros. unfold lastn. now replace (length l - n)%nat with 0%nat by lia. Qed.
Lemma lastn_0 {A} (l : list A) : lastn 0 l = [].
Proof. unfold lastn. rewrite Nat.sub_0_r. apply skipn_all. Qed.
Lemma lastn_length {A} n (l : list A) : (n <= length l)%nat -> length (lastn n l) = n.
Proof. intros. unfold lastn. rewrite skipn_length. lia. Qed.
Lemma Forall_lastn {A} (P : A -> Prop) n l : Forall P l -> Forall P (lastn n l).
Proof.
  intros H. unfold lastn. rewrite Forall_forall in *. intros x Hx. apply H.
  rewrite <- (firstn_skipn (length l - n) l). apply in_or_app. now right.
Qed.

(* ---- the abstraction relation ------------------------------------------------ *)

(* SysEx collected in callback mode, and m_packet_byte *)
Definition cb_state (ds : list Z) : sysex * Z :=
  match ds with
  | [] => (sysex_empty_value, 2)
  | m :: rest =>
      if m =? 0 then
        match rest with
        | [] => (mkSx 0 [], 3)
        | [a] => (mkSx (a * 256) [], 4)
        | a :: b :: rest => (mkSx (a * 256 + b) rest, 5)
        end
      else (mkSx (m * 65536) rest, 3)
  end.

Definition cv_inv (g s : Z) (ds : list Z) (st : parser) : Prop :=
  exists a b, is_u7 a /\ is_u7 b /\ m_packet st = short_packet g s [a; b] /\
    if (cv_len s =? 1)%nat then
      b = 0 /\ m_packet_byte st = 2 /\ m_num_missing_bytes st = 1
    else if Nat.even (length ds) then
      m_packet_byte st = 2 /\ m_num_missing_bytes st = 2
    else m_packet_byte st = 3 /\ m_num_missing_bytes st = 1 /\ lastn 1 ds = [a].

(* al: callbacks were enabled when the SysEx started *)
Definition sx_inv (g : Z) (al : bool) (ds : list Z) (st : parser) : Prop :=
  if has_cb st then
    (exists g', 0 <= g' < 16 /\ m_packet st = raw7 g' 1 []) /\
    (m_sysex st, m_packet_byte st) = if al then cb_state ds else (sysex_empty_value, 0)
  else
    let r := (length ds mod 6)%nat in
    m_packet st = raw7 g (if (length ds <? 6)%nat then 1 else 2) (lastn r ds) /\
    m_packet_byte st = 2 + Z.of_nat r.

Definition sc_inv (g s : Z) (ds : list Z) (st : parser) : Prop :=
  match sc_len s with
  | Some n =>
      if (length ds <? n)%nat then
        m_packet st = short_packet g s ds /\ m_packet_byte st = 2 + Z.of_nat (length ds)
        /\ m_num_missing_bytes st = Z.of_nat (n - length ds)
      else m_packet st = packet0
  | None => m_packet st = packet0
  end.

(* g: current group, p: group of the packet being collected *)
Definition inv (g p : Z) (al cb on : bool) (c : option (Z * list Z)) (st : parser) : Prop :=
  m_group st = g /\ has_cb st = cb /\ m_invoke_callbacks st = on /\
  match c with
  | None => m_packet st = packet0
  | Some (s, ds) =>
      0x80 <= s < 0xF8 /\ Forall is_u7 ds /\
      if s <? 0xF0 then cv_inv p s ds st
      else if s =? 0xF0 then sx_inv p al ds st
      else sc_inv p s ds st
  end.

(* ---- what one byte does, in terms of the context ------------------------------ *)

Definition emit_call (cb : bool) (g p : Z) (al : bool) (c : option (Z * list Z)) (b : Z) : list event :=
  if is_rt b then
    if rt_defined b then [EPacket (short_packet g b [])] else []
  else if b <? 0x80 then
    match c with
    | Some (s, ds) => on_data cb p s (ds ++ [b])
    | None => []
    end
  else if b =? 0xF6 then [EPacket (short_packet g b [])]
  else if b =? 0xF7 then
    match c with
    | Some (s, ds) => if (s =? 0xF0) && (negb cb || al) then on_sysex_end cb p ds else []
    | None => []
    end
  else [].

(* group of the packet being collected, after byte b *)
Definition next_group (g p : Z) (c : option (Z * list Z)) (b : Z) : Z :=
  if is_rt b then p
  else if 0x80 <=? b then g
  else match c with
       | Some (s, ds) => if (s =? 0xF0) && (length (ds ++ [b]) mod 6 =? 0)%nat then g else p
       | None => p
       end.
Definition next_alive (on al : bool) (b : Z) : bool :=
  if is_rt b then al else if 0x80 <=? b then on else al.

Definition emit_ctx (cb : bool) (g : Z) (c : option (Z * list Z)) (b : Z) : list event :=
  if is_rt b then
    if rt_defined b then [EPacket (short_packet g b [])] else []
  else if b <? 0x80 then
    match c with
    | Some (s, ds) => on_data cb g s (ds ++ [b])
    | None => []
    end
  else if b =? 0xF6 then [EPacket (short_packet g b [])]
  else if b =? 0xF7 then
    match c with
    | Some (s, ds) => if s =? 0xF0 then on_sysex_end cb g ds else []
    | None => []
    end
  else [].

Lemma emission_ctx cb g h b : emission cb g h b = emit_ctx cb g (context h) b.
Proof. reflexivity. Qed.

Definition next_ctx (c : option (Z * list Z)) (b : Z) : option (Z * list Z) :=
  if is_rt b then c else ctx_step c b.

Lemma context_remember h b : context (remember h b) = next_ctx (context h) b.
Proof.
  unfold remember, next_ctx, context. destruct (is_rt b); [reflexivity|].
  now rewrite fold_left_app.
Qed.

Definition visible (on : bool) (l : list event) : list event := if on then l else [].

(* realtime *)
Lemma feed_rt st b : 0xF8 <= b < 256 -> 0 <= m_group st < 16 ->
  feed st b = Ok (st, visible (m_invoke_callbacks st)
                (if rt_defined b then [EPacket (short_packet (m_group st) b [])] else [])).
Proof.
  intros Hb Hg. unfold feed. replace (0xF8 <=? b) with true by lia.
  unfold system_realtime, rt_defined, visible, post.
  destruct ((b =? 0xF9) || (b =? 0xFD)); simpl.
  - now destruct (m_invoke_callbacks st).
  - rewrite make_system_short by lia. now destruct (m_invoke_callbacks st).
Qed.

(* status bytes outside of SysEx *)
Lemma feed_plain_status g cb on st b :
  m_group st = g -> has_cb st = cb -> m_invoke_callbacks st = on -> 0 <= g < 16 ->
  0x80 <= b < 0xF8 ->
  exists st', feed_plain st b = Ok (st', visible on (emit_ctx cb g None b)) /\
    inv g g on cb on (Some (b, [])) st'.
Proof.
  intros Hg Hcb Hon G Hb. unfold feed_plain, emit_ctx, is_rt.
  replace (0xF8 <=? b) with false by lia. replace (b <? 0x80) with false by lia.
  destruct (Z.eqb_spec b 0xF0) as [->|NB].
  { (* SysEx start *)
    unfold sysex_start. change (make_sysex7_start_packet (m_group st)) with (sysex7_packet (1 * 16) (m_group st)).
    rewrite Hg, sysex7_packet_raw by lia. cbn [bind].
    cbn [Z.eqb Pos.eqb]. replace (visible on []) with (@nil event) by now destruct on.
    destruct (has_cb (with_state st (raw7 g 1 []) 2 0)) eqn:E; cbn in E; rewrite Hcb in E.
    - eexists; split; [reflexivity|]. unfold inv, sx_inv; cbn.
      rewrite Hcb, E. repeat split; try assumption; try lia; auto.
      + exists g. auto.
      + rewrite Hon. now destruct on.
    - eexists; split; [reflexivity|]. unfold inv, sx_inv; cbn.
      rewrite Hcb, E. repeat split; try assumption; try lia; auto. }
  destruct (Z.ltb_spec 0xF0 b) as [Hsc|Hcv].
  { unfold system_common. rewrite Hg, make_system_short, short_status by (try constructor; unfold is_u8; lia).
    assert (D : b = 0xF1 \/ b = 0xF2 \/ b = 0xF3 \/ b = 0xF6 \/ b = 0xF4 \/ b = 0xF5 \/ b = 0xF7) by lia.
    assert (V : visible on [] = @nil event) by now destruct on.
    destruct D as [->|[->|[->|[->|[->|[->| ->]]]]]]; cbn [Z.eqb Pos.eqb orb]; rewrite ?V;
      (eexists; split; [first [reflexivity | unfold post, visible; cbn; rewrite Hon; reflexivity]|unfold inv, sc_inv; cbn; repeat split; try assumption; try constructor; try lia; try (symmetry; exact Hg)]). }
  replace (0x80 <=? b) with true by lia. replace (b =? 0xF6) with false by lia.
  replace (b =? 0xF7) with false by lia.
  assert (V : visible on [] = @nil event) by now destruct on. rewrite V.
  unfold channel_voice. rewrite Hg, midi1_cv_short, short_status by (try constructor; unfold is_u8; lia).
  rewrite land_240.
  set (missing := if _ || _ || _ || _ || _ then 2 else _).
  assert (M : missing = Z.of_nat (cv_len b)).
  { unfold missing, cv_len.
    assert (D : b / 16 mod 16 = 8 \/ b / 16 mod 16 = 9 \/ b / 16 mod 16 = 10 \/ b / 16 mod 16 = 11
             \/ b / 16 mod 16 = 12 \/ b / 16 mod 16 = 13 \/ b / 16 mod 16 = 14) by dlia.
    destruct D as [E|[E|[E|[E|[E|[E|E]]]]]]; rewrite E; cbn [Z.mul Pos.mul Z.eqb Pos.eqb orb];
      destruct (Z.leb_spec 0xC0 b), (Z.ltb_spec b 0xE0); cbn; try reflexivity; dlia. }
  rewrite M. replace (Z.of_nat (cv_len b) =? 0) with false
    by (unfold cv_len; destruct ((0xC0 <=? b) && (b <? 0xE0)); reflexivity).
  eexists; split; [reflexivity|]. unfold inv; cbn.
  repeat split; try assumption; try lia; [constructor|].
  replace (b <? 0xF0) with true by lia. unfold cv_inv; cbn.
  exists 0, 0. unfold is_u7; repeat split; try lia.
  unfold cv_len. destruct ((0xC0 <=? b) && (b <? 0xE0)); cbn; auto.
Qed.

Lemma visible_nil on : visible on [] = @nil event.
Proof. now destruct on. Qed.

Lemma inv_not_data g p al cb on s ds st : 0 <= p < 16 ->
  inv g p al cb on (Some (s, ds)) st -> (type (m_packet st) =? pt_data) = (s =? 0xF0).
Proof.
  intros G (Hg & Hcb & Hon & Hs & Hd & H).
  destruct (Z.ltb_spec s 0xF0).
  - destruct H as (a & b & Ha & Hb & -> & _).
    rewrite short_type by (repeat constructor; unfold is_u8, is_u7 in *; lia).
    unfold short_ty. replace (s <? 0xF0) with true by lia. cbn. lia.
  - destruct (Z.eqb_spec s 0xF0) as [->|N].
    + assert (exists g' f l, 0 <= g' < 16 /\ 0 <= f < 4 /\ Forall is_u8 l /\ m_packet st = raw7 g' f l) as (g' & f & l & Hg' & Hf & Hl & ->).
      { unfold sx_inv in H. destruct (has_cb st).
        - destruct H as [(g' & Hg' & ->) _]. exists g', 1, []. repeat split; auto; lia.
        - destruct H as [-> _]. eexists p, _, _. split; [assumption|]. split; [|split; [|reflexivity]].
          + destruct (_ <? _)%nat; lia.
          + now apply Forall_lastn, Forall_u7_u8. }
      unfold raw7. rewrite pob_type by (repeat constructor; try assumption; unfold is_u8; lia).
      cbn [nth]. replace ((3 * 16 + g') / 16) with 3 by dlia. reflexivity.
    + unfold sc_inv in H. destruct (sc_len s) eqn:E; [|now rewrite H].
      destruct (_ <? _)%nat; [|now rewrite H].
      destruct H as [-> _]. rewrite short_type by (try apply Forall_u7_u8; unfold is_u8; trivial; lia).
      unfold short_ty. replace (s <? 0xF0) with false by lia. reflexivity.
Qed.

(* data byte in a channel voice message *)
Lemma feed_cv_data g p al cb on s ds st b : 0 <= p < 16 -> 0x80 <= s < 0xF0 ->
  inv g p al cb on (Some (s, ds)) st -> is_u7 b ->
  exists st', feed_plain st b = Ok (st', visible on (on_data cb p s (ds ++ [b]))) /\
    inv g p al cb on (Some (s, ds ++ [b])) st'.
Proof.
  intros G Hs (Hg & Hcb & Hon & _ & Hd & H) Hb.
  replace (s <? 0xF0) with true in H by lia.
  destruct H as (x & y & Hx & Hy & HP & H).
  assert (Fd : Forall is_u7 (ds ++ [b])) by (apply Forall_app; split; auto).
  unfold feed_plain, on_data. unfold is_u7 in *.
  replace (b =? 0xF0) with false by lia. replace (0xF0 <? b) with false by lia.
  replace (0x80 <=? b) with false by lia. replace (s <? 0xF0) with true by lia.
  assert (Fxy : Forall is_u8 [x; y]) by (repeat constructor; lia).
  rewrite HP, short_status by (trivial; unfold is_u8; lia).
  replace (s =? 0) with false by lia.
  rewrite app_length; cbn [length].
  destruct (Nat.eqb_spec (cv_len s) 1) as [L|L].
  - destruct H as (-> & -> & ->). cbn [negb Z.eqb andb Z.ltb Z.compare Pos.compare Pos.compare_cont Z.to_nat Pos.to_nat Pos.iter_op Init.Nat.add].
    rewrite short_set2 by (unfold is_u8; lia). cbn [bind u8].
    change (u8 (1 - 1) =? 0) with true. cbv iota.
    rewrite short_status by (repeat constructor; unfold is_u8; lia).
    replace (s <? 0xF0) with true by lia. replace (0xF0 <=? s) with false by lia.
    cbv beta iota zeta. change (u8 (2 - 1)) with 1. rewrite L.
    replace ((length ds + 1) mod 1 =? 0)%nat with true by (now rewrite Nat.mod_1_r).
    eexists. split.
    + f_equal. f_equal. unfold post, visible. rewrite Hon. destruct on; [|reflexivity].
      rewrite lastn_app1, lastn_0 by lia. reflexivity.
    + unfold inv; cbn. repeat split; try assumption; try lia.
      replace (s <? 0xF0) with true by lia. unfold cv_inv; cbn. rewrite L. cbn.
      exists b, 0. unfold is_u7. repeat split; try lia.
  - assert (L2 : cv_len s = 2%nat) by (unfold cv_len in *; destruct ((0xC0 <=? s) && (s <? 0xE0)); congruence).
    rewrite L2 in *.
    destruct (Nat.even (length ds)) eqn:Ev.
    + destruct H as (-> & ->). cbn [negb Z.eqb andb Z.ltb Z.compare Pos.compare Pos.compare_cont Z.to_nat Pos.to_nat Pos.iter_op Init.Nat.add].
      rewrite short_set2 by (unfold is_u8; lia). cbn [bind u8].
      change (u8 (2 - 1) =? 0) with false. cbv iota.
      apply Nat.even_spec in Ev as [m Hm].
      replace ((length ds + 1) mod 2 =? 0)%nat with false
        by (rewrite Hm; replace (2 * m + 1)%nat with (1 + m * 2)%nat by lia; rewrite Nat.mod_add by lia; reflexivity).
      rewrite visible_nil. eexists; split; [reflexivity|].
      unfold inv; cbn. repeat split; try assumption; try lia.
      replace (s <? 0xF0) with true by lia. unfold cv_inv; cbn. rewrite L2. cbn.
      exists b, y. unfold is_u7. repeat split; try lia.
      rewrite app_length. cbn [length].
      replace (Nat.even (length ds + 1)) with false
        by (rewrite Nat.add_1_r, Nat.even_succ; rewrite <- Nat.negb_even; replace (Nat.even (length ds)) with true; [reflexivity|symmetry; apply Nat.even_spec; now exists m]).
      repeat split. rewrite lastn_app1, lastn_0 by lia. reflexivity.
    + destruct H as (-> & -> & Hl). cbn [negb Z.eqb andb Z.ltb Z.compare Pos.compare Pos.compare_cont Z.to_nat Pos.to_nat Pos.iter_op Init.Nat.add].
      rewrite short_set3 by (unfold is_u8; lia). cbn [bind u8].
      change (u8 (1 - 1) =? 0) with true. cbv iota.
      rewrite short_status by (repeat constructor; unfold is_u8; lia).
      replace (s <? 0xF0) with true by lia. replace (0xF0 <=? s) with false by lia.
      cbv beta iota zeta. change (u8 (3 - 1)) with 2.
      assert (Od : Nat.odd (length ds) = true) by now rewrite <- Nat.negb_even, Ev.
      apply Nat.odd_spec in Od as [m Hm].
      replace ((length ds + 1) mod 2 =? 0)%nat with true
        by (rewrite Hm; replace (2 * m + 1 + 1)%nat with (0 + (m + 1) * 2)%nat by lia; rewrite Nat.mod_add by lia; reflexivity).
      eexists; split.
      * f_equal. f_equal. unfold post, visible. rewrite Hon. destruct on; [|reflexivity].
        rewrite lastn_app1, Hl by lia. reflexivity.
      * unfold inv; cbn. repeat split; try assumption; try lia.
        replace (s <? 0xF0) with true by lia. unfold cv_inv; cbn. rewrite L2. cbn.
        exists x, b. unfold is_u7. repeat split; try lia.
        rewrite app_length. cbn [length].
        replace (Nat.even (length ds + 1)) with true by (symmetry; apply Nat.even_spec; exists (m + 1)%nat; lia).
        repeat split.
Qed.

Ltac pcbn := cbn [with_state with_packet with_sysex m_group has_cb m_invoke_callbacks m_packet
  m_sysex m_packet_byte m_num_missing_bytes fst snd Z.ltb Z.compare Pos.compare
  Pos.compare_cont Z.eqb Pos.eqb].

(* data byte after a system common status *)
Lemma feed_sc_data g p al cb on s ds st b : 0 <= p < 16 -> 0xF0 < s < 0xF8 ->
  inv g p al cb on (Some (s, ds)) st -> is_u7 b ->
  exists st', feed_plain st b = Ok (st', visible on (on_data cb p s (ds ++ [b]))) /\
    inv g p al cb on (Some (s, ds ++ [b])) st'.
Proof.
  intros G Hs (Hg & Hcb & Hon & _ & Hd & H) Hb.
  replace (s <? 0xF0) with false in H by lia. replace (s =? 0xF0) with false in H by lia.
  assert (Fd : Forall is_u7 (ds ++ [b])) by (apply Forall_app; split; auto).
  unfold feed_plain, on_data. unfold is_u7 in *.
  replace (b =? 0xF0) with false by lia. replace (0xF0 <? b) with false by lia.
  replace (0x80 <=? b) with false by lia. replace (s <? 0xF0) with false by lia.
  replace (s =? 0xF0) with false by lia. rewrite app_length; cbn [length].
  assert (KEEP : m_packet st = packet0 ->
    (forall n, sc_len s = Some n -> (n <= length ds)%nat) ->
    exists st',
      (if negb (status (m_packet st) =? 0) && negb (m_num_missing_bytes st =? 0) && (m_packet_byte st <? 4)
       then q0 <- set_byte (m_packet st) (Z.to_nat (m_packet_byte st)) b;;
         (let missing := u8 (m_num_missing_bytes st - 1) in
          if missing =? 0 then
            let '(missing, pb) := if status q0 <? 240 then (u8 (m_packet_byte st - 1), 2) else (missing, m_packet_byte st) in
            let out := post st (EPacket q0) in
            let q := if 240 <=? status q0 then packet0 else q0 in
            Ok (with_state st q pb missing, out)
          else Ok (with_state st q0 (u8 (m_packet_byte st + 1)) missing, []))
       else Ok (st, [])) =
      Ok (st', visible on match sc_len s with
         | Some n => if (length ds + 1 =? n)%nat then [EPacket (short_packet p s (ds ++ [b]))] else []
         | None => [] end) /\ inv g p al cb on (Some (s, ds ++ [b])) st').
  { intros -> Hn. cbn. exists st. split.
    - f_equal. f_equal. destruct (sc_len s) as [n|]; [|now rewrite visible_nil].
      specialize (Hn n eq_refl). replace (length ds + 1 =? n)%nat with false by lia. now rewrite visible_nil.
    - unfold inv. repeat split; try assumption; try lia.
      replace (s <? 0xF0) with false by lia. replace (s =? 0xF0) with false by lia.
      unfold sc_inv in *. destruct (sc_len s) as [n|] eqn:E; [|assumption].
      specialize (Hn n eq_refl). rewrite app_length; cbn [length].
      replace (length ds + 1 <? n)%nat with false by lia.
      now replace (length ds <? n)%nat with false in H by lia. }
  unfold sc_inv in H. destruct (sc_len s) as [n|] eqn:E.
  2:{ apply KEEP; [assumption|discriminate]. }
  destruct (Nat.ltb_spec (length ds) n) as [Hk|Hk].
  2:{ apply KEEP; [assumption|intros ? [= <-]; assumption]. }
  clear KEEP. destruct H as (HP & HB & HM).
  assert (Hn : (n <= 2)%nat).
  { unfold sc_len in E. repeat (destruct (_ =? _) in E; [injection E as <-; lia|]). discriminate. }
  rewrite HP, short_status by (try apply Forall_u7_u8; trivial; unfold is_u8; lia).
  replace (s =? 0) with false by lia. replace (m_num_missing_bytes st =? 0) with false by lia.
  replace (m_packet_byte st <? 4) with true by lia. cbn [negb andb].
  rewrite HB. replace (Z.to_nat (2 + Z.of_nat (length ds))) with (length (short_ty s * 16 + p :: s :: ds)) by (cbn [length]; lia).
  rewrite set_byte_ok by (cbn [length]; lia). cbn [bind].
  rewrite (short_pob' p s ds) by lia.
  assert (FH : Forall is_u8 (short_ty s * 16 + p :: s :: ds))
    by (apply short_hdr_u8; [lia|unfold is_u8; lia|now apply Forall_u7_u8]).
  rewrite pob_append by (trivial; unfold is_u8; cbn [length]; lia).
  cbn [app]. rewrite <- short_pob' by (rewrite app_length; simpl; lia).
  rewrite short_status by (try apply Forall_u7_u8; trivial; unfold is_u8; lia).
  replace (s <? 0xF0) with false by lia. replace (0xF0 <=? s) with true by lia.
  rewrite HM. replace (u8 (Z.of_nat (n - length ds) - 1)) with (Z.of_nat (n - length ds) - 1) by (unfold u8; dlia).
  destruct (Nat.eqb_spec (length ds + 1) n) as [En|En].
  - replace (Z.of_nat (n - length ds) - 1 =? 0) with true by lia.
    eexists. split.
    + f_equal. f_equal. unfold post, visible. rewrite Hon. now destruct on.
    + unfold inv; pcbn. repeat split; try assumption; try lia.
      replace (s <? 0xF0) with false by lia. replace (s =? 0xF0) with false by lia.
      unfold sc_inv; cbn [with_state m_packet m_packet_byte m_num_missing_bytes]. rewrite E, app_length; cbn [length].
      replace (length ds + 1 <? n)%nat with false by lia. reflexivity.
  - replace (Z.of_nat (n - length ds) - 1 =? 0) with false by lia. rewrite visible_nil.
    eexists. split; [reflexivity|].
    unfold inv; pcbn. repeat split; try assumption; try lia.
    replace (s <? 0xF0) with false by lia. replace (s =? 0xF0) with false by lia.
    unfold sc_inv; cbn [with_state m_packet m_packet_byte m_num_missing_bytes]. rewrite E, app_length; cbn [length].
    replace (length ds + 1 <? n)%nat with true by lia. repeat split; unfold u8; dlia.
Qed.

(* data byte inside of SysEx *)
Lemma raw7_u8 g f l : 0 <= g < 16 -> 0 <= f < 4 -> Forall is_u7 l ->
  Forall is_u8 ((3 * 16 + g) :: (f * 16) :: l).
Proof. intros. repeat constructor; try (unfold is_u8; lia). now apply Forall_u7_u8. Qed.

Lemma raw7_append g f l v : 0 <= g < 16 -> 0 <= f < 4 -> Forall is_u7 l -> is_u7 v ->
  (length l < 6)%nat ->
  set_byte (raw7 g f l) (2 + length l) v = Ok (raw7 g f (l ++ [v])).
Proof.
  intros. rewrite set_byte_ok by lia. f_equal. unfold raw7.
  change (2 + length l)%nat with (length ((3 * 16 + g) :: (f * 16) :: l)).
  rewrite pob_append; auto using raw7_u8, u7_u8. cbn [length]; lia.
Qed.

Lemma raw7_status g f l : 0 <= g < 16 -> 0 <= f < 4 -> Forall is_u7 l ->
  status (raw7 g f l) = f * 16.
Proof. intros. unfold raw7. now rewrite pob_status by now apply raw7_u8. Qed.

Lemma raw7_finish g f f' l : 0 <= g < 16 -> 0 <= f < 4 -> 0 <= f' < 4 -> Forall is_u7 l ->
  (length l <= 6)%nat ->
  set_byte (raw7 g f l) 1 (f' * 16 + Z.of_nat (length l)) = Ok (sx7_packet g f' l).
Proof.
  intros. rewrite set_byte_ok by lia. f_equal. unfold raw7. rewrite sx7_pob by assumption.
  rewrite pob_upd; [reflexivity|now apply raw7_u8|unfold is_u8; lia|cbn [length]; lia|lia].
Qed.

Lemma cb_state_pb ds : Forall is_u7 ds -> 2 <= snd (cb_state ds) <= 5.
Proof.
  intros _. unfold cb_state. destruct ds as [|m [|a [|b rest]]]; cbn; try lia;
    destruct (m =? 0); cbn; lia.
Qed.

Lemma hi_byte_zero id : 0 <= id < 16777216 -> (Z.land id 0xFF0000 =? 0) = (id <? 65536).
Proof.
  intros H. change 0xFF0000 with (Z.shiftl (Z.ones 8) 16). rewrite land_field by lia.
  pow2_simpl. destruct (Z.ltb_spec id 65536); dlia.
Qed.

Lemma cb_step ds b st : Forall is_u7 (ds ++ [b]) ->
  (m_sysex st, m_packet_byte st) = cb_state ds ->
  exists st', sysex_continue_callback st b = Ok (st', []) /\
    m_group st' = m_group st /\ has_cb st' = has_cb st /\
    m_invoke_callbacks st' = m_invoke_callbacks st /\ m_packet st' = m_packet st /\
    (m_sysex st', m_packet_byte st') = cb_state (ds ++ [b]).
Proof.
  intros Hd E. apply Forall_app in Hd as [Hd Hb]. inversion_clear Hb as [|? ? Hb' _]. rename Hb' into Hb.
  unfold sysex_continue_callback. 
  pose proof (f_equal fst E) as ES. pose proof (f_equal snd E) as EB. cbn [fst snd] in ES, EB.
  rewrite ES, EB. clear E ES EB.
  destruct ds as [|m rest].
  - cbn -[Z.land Z.shiftl]. eexists. split; [reflexivity|]. repeat split.
    unfold is_u7 in Hb. replace (u32 (Z.shiftl b 16)) with (b * 65536)
      by (rewrite shiftl_mul by lia; unfold u32; pow2_simpl; dlia).
    destruct (Z.eqb_spec b 0) as [->|N]; reflexivity.
  - inversion_clear Hd as [|? ? Hm Hr]. unfold is_u7 in Hb, Hm.
    cbn [cb_state app]. destruct (Z.eqb_spec m 0) as [->|N].
    + destruct rest as [|a [|c rest]]; cbn [app].
      * cbn [fst snd sx_id sx_data orb andb Z.eqb Pos.eqb].
        change (Z.land 0 0xFF0000 =? 0) with true. cbv iota.
        eexists. split; [reflexivity|]. repeat split. pcbn.
        f_equal. f_equal. rewrite Z.shiftl_mul_pow2 by lia. change (2 ^ ((4 - 3) * 8)) with 256. unfold u32. dlia.
      * inversion_clear Hr as [|? ? Ha _]. unfold is_u7 in Ha.
        cbn [fst snd sx_id sx_data orb andb Z.eqb Pos.eqb].
        rewrite hi_byte_zero by lia. replace (a * 256 <? 65536) with true by lia.
        eexists. split; [reflexivity|]. repeat split. pcbn.
        f_equal. f_equal. change ((4 - 4) * 8) with 0. rewrite Z.shiftl_0_r. unfold u32. dlia.
      * cbn. eexists. split; [reflexivity|]. repeat split.
    + cbn [fst snd sx_id sx_data orb andb Z.eqb Pos.eqb].
      rewrite hi_byte_zero by lia. replace (m * 65536 <? 65536) with false by lia.
      eexists. split; [reflexivity|]. repeat split.
Qed.

Lemma mod6_succ k : ((k + 1) mod 6)%nat = (if (k mod 6 =? 5)%nat then 0 else k mod 6 + 1)%nat.
Proof.
  pose proof (Nat.div_mod k 6 ltac:(lia)) as D. pose proof (Nat.mod_upper_bound k 6 ltac:(lia)) as B.
  set (q := (k / 6)%nat) in *. set (r := (k mod 6)%nat) in *. clearbody q r.
  destruct (Nat.eqb_spec r 5) as [E|E].
  - replace (k + 1)%nat with (0 + (q + 1) * 6)%nat by lia. now rewrite Nat.mod_add by lia.
  - replace (k + 1)%nat with ((r + 1) + q * 6)%nat by lia. rewrite Nat.mod_add by lia.
    apply Nat.mod_small. lia.
Qed.

Lemma mod6_zero_iff k : (k < 6)%nat -> k <> 0%nat -> (k mod 6 =? 0)%nat = false.
Proof. intros. rewrite Nat.mod_small by lia. lia. Qed.

Lemma feed_sx_data g p al cb on ds st b : 0 <= g < 16 -> 0 <= p < 16 ->
  inv g p al cb on (Some (0xF0, ds)) st -> is_u7 b ->
  exists st', (if has_cb st then sysex_continue_callback st b else sysex_continue_packet st b)
     = Ok (st', visible on (on_data cb p 0xF0 (ds ++ [b]))) /\
    inv g (next_group g p (Some (0xF0, ds)) b) al cb on (Some (0xF0, ds ++ [b])) st'.
Proof.
  intros G P (Hg & Hcb & Hon & _ & Hd & H) Hb. cbn [Z.ltb Z.compare Pos.compare Pos.compare_cont Z.eqb Pos.eqb] in H.
  assert (Fd : Forall is_u7 (ds ++ [b])) by (apply Forall_app; split; auto).
  unfold sx_inv in H. destruct (has_cb st) eqn:C.
  - destruct H as [HP HS].
    assert (CS : exists st', sysex_continue_callback st b = Ok (st', []) /\
      m_group st' = m_group st /\ has_cb st' = has_cb st /\
      m_invoke_callbacks st' = m_invoke_callbacks st /\ m_packet st' = m_packet st /\
      (m_sysex st', m_packet_byte st') = if al then cb_state (ds ++ [b]) else (sysex_empty_value, 0)).
    { destruct al; [now apply cb_step|]. exists st. injection HS as S1 S2.
      unfold sysex_continue_callback. rewrite S2. repeat split. congruence. }
    destruct CS as (st' & E & E1 & E2 & E3 & E4 & E5).
    exists st'. rewrite E. split.
    + rewrite <- Hcb. cbn. now rewrite visible_nil.
    + unfold inv; pcbn. repeat split; try congruence; try lia; try assumption.
      unfold sx_inv. replace (has_cb st') with true by congruence. rewrite E4. split; assumption.
  - destruct H as [HP HB]. unfold sysex_continue_packet.
    assert (NG : next_group g p (Some (0xF0, ds)) b = if ((length ds + 1) mod 6 =? 0)%nat then g else p).
    { unfold next_group, is_rt. unfold is_u7 in Hb. replace (0xF8 <=? b) with false by lia.
      replace (0x80 <=? b) with false by lia. rewrite app_length. reflexivity. }
    rewrite NG. clear NG.
    set (k := length ds) in *. set (r := (k mod 6)%nat) in *.
    assert (Hr : (r < 6)%nat) by (apply Nat.mod_upper_bound; lia).
    assert (Hrk : (r <= k)%nat) by (apply Nat.mod_le; lia).
    assert (L : length (lastn r ds) = r) by now apply lastn_length.
    set (f := if (k <? 6)%nat then 1 else 2) in *.
    assert (Hf : 0 <= f < 4) by (unfold f; destruct (k <? 6)%nat; lia).
    rewrite HP, HB. replace (Z.to_nat (2 + Z.of_nat r)) with (2 + length (lastn r ds))%nat by lia.
    rewrite raw7_append by (try apply Forall_lastn; trivial; lia). cbn [bind].
    rewrite <- lastn_app1 by assumption.
    assert (FL : Forall is_u7 (lastn (S r) (ds ++ [b]))) by now apply Forall_lastn.
    assert (LL : length (lastn (S r) (ds ++ [b])) = S r) by (apply lastn_length; rewrite app_length; cbn [length]; fold k; lia).
    replace (u8 (2 + Z.of_nat r + 1)) with (3 + Z.of_nat r) by (unfold u8; dlia).
    unfold on_data. cbn [Z.ltb Z.compare Pos.compare Pos.compare_cont Z.eqb Pos.eqb].
    rewrite app_length; cbn [length]. fold k. rewrite <- Hcb. rewrite mod6_succ. fold r.
    destruct (Nat.eqb_spec r 5) as [R5|R5].
    + replace (3 + Z.of_nat r =? 8) with true by lia. rewrite R5 in *.
      rewrite Hon, Hg. rewrite raw7_status by trivial.
      change (make_sysex7_continue_packet g) with (sysex7_packet (2 * 16) g).
      rewrite sysex7_packet_raw by lia.
      replace (u8 (Z.land (f * 16) 0xF0 + 6)) with (f * 16 + Z.of_nat (length (lastn 6 (ds ++ [b]))))
        by (rewrite land_240, LL; unfold u8; dlia).
      rewrite raw7_finish by (trivial; lia).
      eexists. split.
      * destruct on; cbn [bind visible Nat.eqb]; [|reflexivity].
        assert (F' : (if (k + 1 =? 6)%nat then 1 else 2) = f).
        { unfold f. destruct (Nat.eqb_spec (k + 1) 6), (Nat.ltb_spec k 6); lia. }
        rewrite F'. reflexivity.
      * unfold inv; pcbn. repeat split; try assumption; try lia.
        unfold sx_inv; pcbn. rewrite C, app_length; cbn [length]. fold k.
        rewrite mod6_succ. fold r. rewrite R5. cbn [Nat.eqb]. rewrite lastn_0.
        assert (5 <= k)%nat by lia. replace (k + 1 <? 6)%nat with false by lia. split; reflexivity.
    + replace (3 + Z.of_nat r =? 8) with false by lia.
      replace (r + 1 =? 0)%nat with false by lia. rewrite visible_nil.
      eexists. split; [reflexivity|]. unfold inv; pcbn. repeat split; try assumption; try lia.
      unfold sx_inv; pcbn. rewrite C, app_length; cbn [length]. fold k.
      rewrite mod6_succ. fold r. replace (r =? 5)%nat with false by lia.
      replace (r + 1)%nat with (S r) by lia. split; [|lia]. f_equal. unfold f.
      destruct (Nat.ltb_spec k 6), (Nat.ltb_spec (k + 1) 6); lia.
Qed.

(* F7 inside of SysEx *)
Lemma cb_end ds : Forall is_u7 ds ->
  sx_decode ds = if (Z.land (sx_id (fst (cb_state ds))) 0xFF0000 =? 0) && (snd (cb_state ds) <? 5)
                 then None else Some (fst (cb_state ds)).
Proof.
  intros Hd. destruct ds as [|m rest]; [reflexivity|].
  inversion_clear Hd as [|? ? Hm Hr]. unfold is_u7 in Hm.
  destruct (Z.eqb_spec m 0) as [->|N].
  - destruct rest as [|a [|b rest]]; cbn [cb_state fst snd sx_id Z.eqb].
    + reflexivity.
    + inversion_clear Hr as [|? ? Ha _]. unfold is_u7 in Ha.
      rewrite hi_byte_zero by lia. replace (a * 256 <? 65536) with true by lia. reflexivity.
    + now rewrite andb_false_r.
  - cbn [cb_state]. replace (m =? 0) with false by lia. cbn [fst snd sx_id].
    rewrite hi_byte_zero by lia. replace (m * 65536 <? 65536) with false by lia. cbn [andb].
    destruct m; [lia|reflexivity|lia].
Qed.

Lemma feed_sx_end g p al cb on ds st : 0 <= p < 16 ->
  inv g p al cb on (Some (0xF0, ds)) st ->
  exists st', (if has_cb st then sysex_end_callback st else sysex_end_packet st)
     = Ok (st', visible on (if negb cb || al then on_sysex_end cb p ds else [])) /\
    inv g g on cb on (Some (0xF7, [])) st'.
Proof.
  intros G (Hg & Hcb & Hon & _ & Hd & H). cbn [Z.ltb Z.compare Pos.compare Pos.compare_cont Z.eqb Pos.eqb] in H.
  unfold sx_inv in H. unfold on_sysex_end. rewrite <- Hcb. destruct (has_cb st) eqn:C.
  - destruct H as [HP HS]. unfold sysex_end_callback. cbn.
    destruct al; cbn [negb orb].
    2:{ injection HS as S1 S2. rewrite S1, S2. cbn. eexists. split; [now rewrite visible_nil|].
        unfold inv, sc_inv; cbn. repeat split; try assumption; try lia; try constructor. }
    rewrite (cb_end ds Hd), <- HS. cbn [fst snd].
    destruct (_ && _).
    + eexists. split; [now rewrite visible_nil|].
      unfold inv, sc_inv; cbn. repeat split; try assumption; try lia; try constructor.
    + eexists. split; [unfold post; cbn; rewrite Hon; now destruct on|].
      unfold inv, sc_inv; cbn. repeat split; try assumption; try lia; try constructor.
  - destruct H as [HP HB]. unfold sysex_end_packet. cbn [negb orb].
    set (k := length ds) in *. set (r := (k mod 6)%nat) in *.
    assert (Hr : (r < 6)%nat) by (apply Nat.mod_upper_bound; lia).
    assert (Hrk : (r <= k)%nat) by (apply Nat.mod_le; lia).
    assert (L : length (lastn r ds) = r) by now apply lastn_length.
    assert (FL : Forall is_u7 (lastn r ds)) by now apply Forall_lastn.
    set (f := if (k <? 6)%nat then 1 else 2) in *.
    assert (Hf : 0 <= f < 4) by (unfold f; destruct (k <? 6)%nat; lia).
    rewrite HP, HB, raw7_status by trivial.
    replace (u8 (Z.land (f * 16) 0xF0)) with (f * 16) by (rewrite land_240; unfold u8; dlia).
    replace (u8 (Z.land (2 + Z.of_nat r - 2) 0x0F)) with (Z.of_nat (length (lastn r ds)))
      by (rewrite L, land_15; unfold u8; dlia).
    destruct (Nat.ltb_spec k 6) as [K|K].
    + assert (RK : r = k) by (unfold r; apply Nat.mod_small; lia).
      cbn [f]. unfold f. cbn [Z.mul Pos.mul Z.eqb Pos.eqb].
      destruct (Nat.eqb_spec k 0) as [K0|K0].
      * replace (2 + Z.of_nat r <? 3) with true by lia. cbn [andb].
        eexists. split; [now rewrite visible_nil|].
        unfold inv, sc_inv; cbn. repeat split; try assumption; try lia; try constructor.
      * replace (2 + Z.of_nat r <? 3) with false by lia. cbn [andb].
        replace (u8 (0 + Z.of_nat (length (lastn r ds)))) with (0 * 16 + Z.of_nat (length (lastn r ds))) by (rewrite L; unfold u8; dlia).
        rewrite raw7_finish by (trivial; lia). cbn [bind].
        replace (lastn r ds) with ds by (rewrite lastn_all; trivial; lia).
        eexists. split; [unfold post; cbn; rewrite Hon; now destruct on|].
        unfold inv, sc_inv; cbn. repeat split; try assumption; try lia; try constructor.
    + unfold f. cbn [Z.mul Pos.mul Z.eqb Pos.eqb andb].
      replace (u8 (48 + Z.of_nat (length (lastn r ds)))) with (3 * 16 + Z.of_nat (length (lastn r ds))) by (rewrite L; unfold u8; dlia).
      change (raw7 p 2 (lastn r ds)) with (raw7 p 2 (lastn r ds)).
      rewrite raw7_finish by (trivial; lia). cbn [bind].
      replace (k =? 0)%nat with false by lia.
      eexists. split; [unfold post; cbn; rewrite Hon; now destruct on|].
      unfold inv, sc_inv; cbn. repeat split; try assumption; try lia; try constructor.
Qed.

Lemma emit_call_status cb g p al c b : 0x80 <= b < 0xF7 -> emit_call cb g p al c b = emit_ctx cb g None b.
Proof.
  intros. unfold emit_call, emit_ctx. replace (b <? 0x80) with false by lia.
  replace (b =? 0xF7) with false by lia. reflexivity.
Qed.

(* one byte *)
Theorem feed_step_call g p al cb on c st b : 0 <= g < 16 -> 0 <= p < 16 -> 0 <= b < 256 ->
  inv g p al cb on c st ->
  exists st', feed st b = Ok (st', visible on (emit_call cb g p al c b)) /\
    inv g (next_group g p c b) (next_alive on al b) cb on (next_ctx c b) st'.
Proof.
  intros G P Hb I. assert (I' := I). destruct I as (Hg & Hcb & Hon & H).
  unfold next_ctx, next_alive, is_rt.
  destruct (Z.leb_spec 0xF8 b) as [RT|RT].
  { rewrite feed_rt by (rewrite ?Hg; lia). rewrite Hon, Hg.
    exists st. split.
    - unfold emit_call, is_rt. now replace (0xF8 <=? b) with true by lia.
    - unfold next_group, is_rt. now replace (0xF8 <=? b) with true by lia. }
  unfold feed. replace (0xF8 <=? b) with false by lia. unfold ctx_step.
  assert (ST : forall st, m_group st = g -> has_cb st = cb -> m_invoke_callbacks st = on -> 0x80 <= b < 0xF8 ->
     exists st', feed_plain st b = Ok (st', visible on (emit_ctx cb g None b)) /\
       inv g g on cb on (Some (b, [])) st').
  { intros. apply feed_plain_status; assumption. }
  assert (NG : 0x80 <= b -> next_group g p c b = g).
  { intros. unfold next_group, is_rt. replace (0xF8 <=? b) with false by lia. now replace (0x80 <=? b) with true by lia. }
  destruct c as [[s ds]|].
  - rewrite (inv_not_data g p al cb on s ds st P I').
    destruct H as (Hs & Hd & H).
    destruct (Z.eqb_spec s 0xF0) as [->|NS].
    + destruct (Z.ltb_spec b 0x80) as [D|D].
      * replace (0x80 <=? b) with false by lia.
        unfold emit_call, is_rt. replace (0xF8 <=? b) with false by lia.
        replace (b <? 0x80) with true by lia.
        apply feed_sx_data; [assumption|assumption|assumption|unfold is_u7; lia].
      * replace (0x80 <=? b) with true by lia. rewrite NG by lia.
        destruct (Z.eqb_spec b 0xF7) as [->|N7]; cbn [negb].
        -- destruct (feed_sx_end g p al cb on ds st P I') as (st' & E & I2). exists st'. rewrite E.
           split; [reflexivity|assumption].
        -- rewrite emit_call_status by lia. apply ST; cbn; trivial; lia.
    + destruct (Z.leb_spec 0x80 b) as [D|D].
      * rewrite NG by lia.
        destruct (ST st Hg Hcb Hon ltac:(lia)) as (st' & E & I2). exists st'. rewrite E. split; [|assumption].
        f_equal. f_equal. f_equal. unfold emit_ctx, emit_call.
        destruct (is_rt b); [reflexivity|]. destruct (b <? 0x80) eqn:?; [lia|].
        destruct (b =? 0xF6); [reflexivity|]. destruct (b =? 0xF7); [|reflexivity].
        now replace (s =? 0xF0) with false by lia.
      * unfold emit_call, is_rt. replace (0xF8 <=? b) with false by lia. replace (b <? 0x80) with true by lia.
        assert (NG' : next_group g p (Some (s, ds)) b = p).
        { unfold next_group, is_rt. replace (0xF8 <=? b) with false by lia. replace (0x80 <=? b) with false by lia.
          now replace (s =? 0xF0) with false by lia. }
        rewrite NG'.
        destruct (Z.lt_ge_cases s 0xF0).
        -- apply feed_cv_data; trivial; unfold is_u7; lia.
        -- apply feed_sc_data; trivial; unfold is_u7; lia.
  - rewrite H. change (type packet0 =? pt_data) with false. cbv iota.
    destruct (Z.leb_spec 0x80 b) as [D|D].
    + rewrite NG by lia. destruct (ST st Hg Hcb Hon ltac:(lia)) as (st' & E & I2). exists st'. rewrite E. split; [|assumption].
      unfold emit_ctx, emit_call. reflexivity.
    + unfold feed_plain. replace (b =? 0xF0) with false by lia. replace (0xF0 <? b) with false by lia.
      replace (0x80 <=? b) with false by lia. rewrite H. change (status packet0 =? 0) with true.
      cbn [negb andb]. exists st. split.
      * unfold emit_call, is_rt. replace (0xF8 <=? b) with false by lia.
        replace (b <? 0x80) with true by lia. now rewrite visible_nil.
      * repeat split; assumption.
Qed.

(* fixed group, callbacks enabled *)
Lemma next_group_same g c b : next_group g g c b = g.
Proof.
  unfold next_group. destruct (is_rt b); [reflexivity|]. destruct (0x80 <=? b); [reflexivity|].
  destruct c as [[s ds]|]; [|reflexivity]. now destruct (_ && _).
Qed.
Lemma next_alive_same al b : next_alive al al b = al.
Proof. unfold next_alive. destruct (is_rt b); [reflexivity|]. now destruct (0x80 <=? b). Qed.
Lemma emit_call_same cb g c b : emit_call cb g g true c b = emit_ctx cb g c b.
Proof.
  unfold emit_call, emit_ctx. destruct (is_rt b); [reflexivity|]. destruct (b <? 0x80); [reflexivity|].
  destruct (b =? 0xF6); [reflexivity|]. destruct (b =? 0xF7); [|reflexivity].
  destruct c as [[s ds]|]; [|reflexivity]. now rewrite orb_true_r, andb_true_r.
Qed.

Theorem feed_step g cb c st b : 0 <= g < 16 -> 0 <= b < 256 ->
  inv g g true cb true c st ->
  exists st', feed st b = Ok (st', emit_ctx cb g c b) /\
    inv g g true cb true (next_ctx c b) st'.
Proof.
  intros G B I. destruct (feed_step_call g g true cb true c st b G G B I) as (st' & E & I').
  rewrite next_group_same, next_alive_same in I'. rewrite emit_call_same in E.
  exists st'. now split.
Qed.

(* a stream *)
Lemma feed_all_outputs g cb bs : 0 <= g < 16 -> Forall is_u8 bs ->
  forall h st, inv g g true cb true (context h) st ->
  exists st', feed_all st bs = Ok (st', outputs cb g h bs) /\
    inv g g true cb true (context (fold_left remember bs h)) st'.
Proof.
  intros G. induction bs as [|b bs IH]; intros Hb h st I.
  - exists st. split; [reflexivity|assumption].
  - inversion_clear Hb as [|? ? H1 H2].
    destruct (feed_step g cb (context h) st b G H1 I) as (st1 & E1 & I1).
    rewrite <- context_remember in I1.
    destruct (IH H2 (remember h b) st1 I1) as (st2 & E2 & I2).
    exists st2. cbn [feed_all]. rewrite E1. cbn [bind]. rewrite E2. cbn [bind].
    split; [|assumption]. cbn [outputs]. now rewrite emission_ctx.
Qed.

Lemma inv_new g p al cb on : inv g p al cb on None (new_parser g cb on).
Proof. repeat split. Qed.
Lemma inv_reset st p al : inv (m_group st) p al (has_cb st) (m_invoke_callbacks st) None (parser_reset st).
Proof. repeat split. Qed.
