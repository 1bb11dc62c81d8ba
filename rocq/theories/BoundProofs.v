(* Lemmas for C74 *)
From Coq Require Import ZArith List Bool Lia ZifyBool ZifyNat.
From Verif Require Import Base Bits Packet PacketSpec Messages Sysex ByteStream Collector StreamSpec StreamProofs StreamLemmas
  StreamCalls CollectSpec CollectProofs CollectLemmas SendProofs BoundSpec.
Import ListNotations.
Local Open Scope Z_scope.
Local Open Scope res_scope.

Lemma total_app a b : total (a ++ b) = total a + total b.
Proof. induction a as [|x a IH]; [reflexivity|]. cbn [app total fold_right] in *. unfold total in *. lia. Qed.

(* ---- parser ---- *)

Definition seven (c : calls_context) : Prop :=
  match c with Some (x0, ds) => 0x80 <= f_byte x0 < 0xF8 /\ group_ok x0 /\ Forall group_ok ds /\ Forall (fun x => is_u7 (f_byte x)) ds | None => True end.

(* bytes received but not posted *)
Definition pending (cb : bool) (c : calls_context) : Z :=
  match c with
  | Some (x0, ds) => if f_byte x0 =? 0xF0 then if cb then size ds else Z.of_nat (length ds mod 6) else 0
  | None => 0
  end.

Lemma carried_short g s ds : 0 <= g < 16 -> (0x80 <= s < 0xF0 \/ 0xF0 <= s < 256) -> (length ds <= 2)%nat -> Forall is_u7 ds ->
  carried (EPacket (short_packet g s ds)) = 1.
Proof.
  intros G S L U. unfold carried. destruct (content7 _) as [x|] eqn:E; [|reflexivity]. exfalso.
  unfold content7 in E. destruct (_ && _) eqn:B in E; [|discriminate].
  apply andb_true_iff in B. destruct B as [B _]. apply andb_true_iff in B. destruct B as [B _].
  apply Z.eqb_eq in B.
  assert (N : nth 0 (bytes (short_packet g s ds)) 0 / 16 = if s <? 0xF0 then 2 else 1).
  { unfold short_packet. 
    assert (0 <= nth 0 ds 0 < 128 /\ 0 <= nth 1 ds 0 < 128).
    { rewrite Forall_forall in U. split.
      - destruct ds as [|a ds]; [cbn; lia|]. apply U. now left.
      - destruct ds as [|a [|b ds]]; try (cbn; lia). apply U. right. now left. }
    unfold bytes. cbn. destruct (Z.ltb_spec s 0xF0); dlia. }
  rewrite N in B. destruct (s <? 0xF0); lia.
Qed.

Lemma seven_step c x : is_u8 (f_byte x) -> group_ok x -> seven c -> seven (calls_ctx_step c x).
Proof.
  unfold calls_ctx_step, is_rt, is_u8. intros B G C. destruct (Z.leb_spec 0xF8 (f_byte x)); [exact C|].
  destruct (Z.leb_spec 0x80 (f_byte x)). { cbn. repeat split; try lia; trivial; apply G. }
  destruct c as [[x0 ds]|]; [|exact I]. destruct C as (S & G0 & GD & U). cbn.
  repeat split; try lia; try apply G0; apply Forall_app; split; trivial; repeat constructor; try apply G; unfold is_u7; lia.
Qed.

Lemma cv_len_12 s : cv_len s = 1%nat \/ cv_len s = 2%nat.
Proof. unfold cv_len. destruct (_ && _); auto. Qed.
Lemma sc_len_2 s n : sc_len s = Some n -> (n <= 2)%nat.
Proof. unfold sc_len. repeat match goal with |- (if ?b then _ else _) = _ -> _ => destruct b end; intros [= <-]; lia. Qed.
Lemma lastn_length {A} n (l : list A) : (length (lastn n l) = min n (length l))%nat.
Proof. unfold lastn. rewrite skipn_length. lia. Qed.
Lemma Forall_lastn' {A} (P : A -> Prop) n l : Forall P l -> Forall P (lastn n l).
Proof. intros F. unfold lastn. rewrite <- (firstn_skipn (length l - n) l) in F. now apply Forall_app in F. Qed.

Lemma carried_sx7 g f c : 0 <= g < 16 -> 0 <= f < 4 -> (length c <= 6)%nat -> Forall is_u7 c ->
  carried (EPacket (sx7_packet g f c)) = size c.
Proof. intros G F L U. unfold carried. rewrite content7_packet; trivial. now apply Forall_u7_u8. Qed.

Lemma carried_decode ds s : Forall is_u7 ds -> sx_decode ds = Some s -> carried (ESysex s) = size ds.
Proof.
  intros U. unfold sx_decode. destruct ds as [|m r]; [discriminate|]. inversion_clear U as [|? ? M R]. unfold is_u7 in M.
  assert (K : m <> 0 -> carried (ESysex (mkSx (m * 65536) r)) = size (m :: r)).
  { intros N. cbn [carried sx_id sx_data]. unfold id_bytes. replace (65536 <=? m * 65536) with true by lia. unfold size. cbn [length]. lia. }
  destruct m as [|m|m]; [|intros [= <-]; now apply K|intros [= <-]; now apply K].
  destruct r as [|a [|b r]]; try discriminate. intros [= <-].
  inversion_clear R as [|? ? A R']. inversion_clear R' as [|? ? B _]. unfold is_u7 in *.
  cbn [carried sx_id sx_data]. unfold id_bytes. replace (65536 <=? a * 256 + b) with false by lia. unfold size. cbn [length]. lia.
Qed.

Lemma step_bound cb c x : is_u8 (f_byte x) -> group_ok x -> seven c ->
  pending cb (calls_ctx_step c x) + total (map carried (calls_emission cb c x)) <= pending cb c + 1 /\
  (length (calls_emission cb c x) <= 1)%nat.
Proof.
  intros B G C. unfold is_u8 in B. assert (P0 : 0 <= pending cb c).
  { destruct c as [[x0 ds]|]; cbn; [|lia]. unfold size. destruct (_ =? _), cb; lia. }
  unfold calls_emission, calls_ctx_step.
  destruct (negb (f_on x)).
  { cbn [map total fold_right length]. split; [|lia].
    destruct (is_rt _); [lia|]. destruct (_ <=? _). { cbn. destruct (_ =? _), cb; cbn; lia. }
    destruct c as [[x0 ds]|]; [|cbn; lia]. cbn [pending] in *. unfold size in *. rewrite app_length. cbn [length].
    destruct (_ =? _); [|lia]. destruct cb; [lia|].
    pose proof (Nat.mod_upper_bound (length ds) 6 ltac:(lia)). rewrite <- Nat.add_mod_idemp_l by lia.
    assert (((length ds mod 6 + 1) mod 6 <= length ds mod 6 + 1)%nat) by (apply Nat.mod_le; lia). lia. }
  destruct (is_rt (f_byte x)) eqn:RT.
  { unfold is_rt in RT. destruct (rt_defined _); [|cbn; lia]. cbn [map total fold_right length].
    rewrite carried_short; trivial; cbn; try lia; constructor. }
  unfold is_rt in RT. destruct (Z.ltb_spec (f_byte x) 0x80) as [L|L].
  { replace (0x80 <=? f_byte x) with false by lia. destruct c as [[x0 ds]|]; [|cbn; lia].
    destruct C as (S & G0 & GD & U). assert (PG := packet_group_ok x0 ds G0 GD).
    set (g := packet_group x0 ds) in *. set (ds' := map f_byte (ds ++ [x])).
    assert (U' : Forall is_u7 ds').
    { unfold ds'. apply Forall_map, Forall_app. split; [exact U|]. repeat constructor; unfold is_u7; lia. }
    assert (K : length ds' = (length ds + 1)%nat) by (unfold ds'; rewrite map_length, app_length; cbn; lia).
    unfold on_data. cbv zeta. destruct (Z.ltb_spec (f_byte x0) 0xF0) as [V|V].
    - cbn [pending]. replace (f_byte x0 =? 0xF0) with false by lia.
      destruct (_ =? 0)%nat; [|cbn; lia]. cbn [map total fold_right length]. destruct (cv_len_12 (f_byte x0)) as [N|N].
      + rewrite carried_short; [lia|lia|lia|rewrite lastn_length; lia|now apply Forall_lastn'].
      + rewrite carried_short; [lia|lia|lia|rewrite lastn_length; lia|now apply Forall_lastn'].
    - destruct (Z.eqb_spec (f_byte x0) 0xF0) as [E|E].
      + cbn [pending]. rewrite E, Z.eqb_refl.
        unfold size. rewrite app_length. cbn [length]. rewrite K. destruct cb; [cbn; lia|].
        assert (MB := Nat.mod_upper_bound (length ds) 6 ltac:(lia)).
        assert (ME : (((length ds + 1) mod 6 = length ds mod 6 + 1 \/ (length ds + 1) mod 6 = 0 /\ length ds mod 6 = 5))%nat).
        { rewrite <- Nat.add_mod_idemp_l by lia. set (r := (length ds mod 6)%nat) in *.
          destruct (Nat.eq_dec r 5) as [->|]; [right; now split|left; apply Nat.mod_small; lia]. }
        destruct (Nat.eqb_spec ((length ds + 1) mod 6) 0) as [Z0|Z0].
        * cbn [map total fold_right length]. rewrite carried_sx7; [|lia|destruct (_ =? 6)%nat; lia|rewrite lastn_length; lia|now apply Forall_lastn'].
          unfold size. rewrite lastn_length. lia.
        * cbn [map total fold_right length]. lia.
      + cbn [pending]. replace (f_byte x0 =? 0xF0) with false by lia. destruct (sc_len (f_byte x0)) as [n|] eqn:SC; [|cbn; lia].
        destruct (Nat.eqb_spec (length ds') n) as [N|N]; [|cbn; lia]. cbn [map total fold_right length].
        apply sc_len_2 in SC. rewrite carried_short; [lia|lia|lia|lia|exact U']. }
  replace (0x80 <=? f_byte x) with true by lia.
  assert (PN : pending cb (Some (x, [])) = 0) by (cbn; destruct (_ =? _), cb; reflexivity). rewrite PN.
  destruct (Z.eqb_spec (f_byte x) 0xF6) as [E|E].
  { cbn [map total fold_right length]. rewrite carried_short; trivial; cbn; try lia; constructor. }
  destruct (Z.eqb_spec (f_byte x) 0xF7) as [E7|E7]; [|cbn [map total fold_right length]; lia].
  destruct c as [[x0 ds]|]; [|cbn [map total fold_right length]; lia]. destruct C as (S & G0 & GD & U). assert (PG := packet_group_ok x0 ds G0 GD).
  destruct (Z.eqb_spec (f_byte x0) 0xF0) as [E0|E0]; cbn [andb]; [|cbn [map total fold_right length]; lia]. destruct (negb cb || f_on x0); [|cbn [map total fold_right length]; lia].
  unfold on_sysex_end. cbv zeta. set (ds' := map f_byte ds).
  assert (U' : Forall is_u7 ds') by (unfold ds'; apply Forall_map; exact U).
  assert (K : length ds' = length ds) by (unfold ds'; apply map_length).
  cbn [pending] in *. rewrite E0, Z.eqb_refl in *. destruct cb.
  - destruct (sx_decode ds') as [s|] eqn:D; [|cbn [map total fold_right length]; lia].
    cbn [map total fold_right length]. rewrite (carried_decode ds' s U' D). unfold size. lia.
  - destruct (Nat.eqb_spec (length ds') 0); [cbn [map total fold_right length]; lia|].
    destruct (Nat.ltb_spec (length ds') 6) as [N|N]; cbn [map total fold_right length].
    + rewrite carried_sx7; [|lia|lia|lia|exact U']. unfold size. rewrite K, Nat.mod_small by lia. lia.
    + assert (MB := Nat.mod_upper_bound (length ds') 6 ltac:(lia)).
      assert (ML := Nat.mod_le (length ds') 6 ltac:(lia)).
      rewrite carried_sx7; [|lia|lia|rewrite lastn_length; lia|now apply Forall_lastn'].
      unfold size. rewrite lastn_length, K in *. lia.
Qed.

Lemma bytes_bound cb g on bs : 0 <= g < 16 -> Forall is_u8 bs -> forall c, seven c ->
  let r := bytes_outputs cb g on c bs in
  seven (fst r) /\ pending cb (fst r) + total (map carried (snd r)) <= pending cb c + size bs /\ size (snd r) <= size bs.
Proof.
  intros G. induction 1 as [|b bs B _ IH]; intros c C; cbv zeta. { cbn. repeat split; trivial; lia. }
  assert (X : group_ok (mkFed b g on)) by exact G.
  destruct (step_bound cb c (mkFed b g on) B X C) as [S1 L1].
  destruct (IH _ (seven_step c (mkFed b g on) B X C)) as (C2 & S2 & L2). cbn [bytes_outputs fst snd].
  split; [exact C2|]. rewrite map_app, total_app. unfold size in *. rewrite app_length. cbn [length]. lia.
Qed.
Lemma pending_nonneg cb c : 0 <= pending cb c.
Proof. destruct c as [[x0 ds]|]; cbn; [|lia]. unfold size. destruct (_ =? _), cb; lia. Qed.
Lemma bytes_fed_cons k cs : bytes_fed (k :: cs) = match k with CFeed bs => size bs | _ => 0 end + bytes_fed cs.
Proof. reflexivity. Qed.
Lemma calls_bound cb cs : Forall valid_call cs -> forall g on c, 0 <= g < 16 -> seven c ->
  total (map carried (calls_outputs cb g on c cs)) <= pending cb c + bytes_fed cs /\
  size (calls_outputs cb g on c cs) <= bytes_fed cs.
Proof.
  induction 1 as [|k cs K _ IH]; intros g on c G C. { cbn. pose proof (pending_nonneg cb c). lia. }
  rewrite bytes_fed_cons. destruct k as [bs|on'|g'|]; cbn [calls_outputs].
  - destruct (bytes_bound cb g on bs G K c C) as (C' & S & L). cbv zeta in *.
    destruct (IH g on _ G C') as [S' L']. rewrite map_app, total_app. unfold size in *. rewrite app_length. lia.
  - destruct (IH g on' c G C). lia.
  - destruct (IH g' on c K C). lia.
  - destruct (IH g on None G I). pose proof (pending_nonneg cb c). cbn [pending] in *. lia.
Qed.

(* what the parser holds *)
Lemma feed_holds st b st' o : feed st b = Ok (st', o) -> size (sx_data (m_sysex st')) <= size (sx_data (m_sysex st)) + 1.
Proof.
  assert (P : forall st b st' o, feed_plain st b = Ok (st', o) -> size (sx_data (m_sysex st')) <= size (sx_data (m_sysex st)) + 1).
  { clear. intros st b st' o. unfold feed_plain, sysex_start, system_common, channel_voice. cbv zeta.
    repeat match goal with
    | |- (if ?c then _ else _) = _ -> _ => destruct c
    | |- bind ?a _ = _ -> _ => destruct a; cbn [bind]; [|discriminate]
    | |- (let '(_, _) := if ?c then _ else _ in _) = _ -> _ => destruct c
    end; intros H; apply (f_equal (fun r => match r with Ok (s, _) => size (sx_data (m_sysex s)) | Fault _ => 0 end)) in H;
    cbn in H; rewrite <- H; unfold size; cbn; lia. }
  unfold feed. destruct (_ <=? _).
  { unfold system_realtime. destruct (_ || _); intros H; apply (f_equal (fun r => match r with Ok (s, _) => size (sx_data (m_sysex s)) | Fault _ => 0 end)) in H; cbn in H; lia. }
  destruct (_ =? _); [|apply P]. destruct (_ <? _).
  - destruct (has_cb st).
    + unfold sysex_continue_callback. cbv zeta.
      repeat match goal with |- (if ?c then _ else _) = _ -> _ => destruct c end;
      intros H; apply (f_equal (fun r => match r with Ok (s, _) => size (sx_data (m_sysex s)) | Fault _ => 0 end)) in H;
      cbn in H; rewrite <- H; unfold size; cbn; rewrite ?app_length; cbn; lia.
    + unfold sysex_continue_packet. cbv zeta. destruct (set_byte _ _ _); [|discriminate]. cbn [bind]. destruct (_ =? 8).
      * destruct (if m_invoke_callbacks st then _ else _); [|discriminate]. cbn [bind].
        destruct (make_sysex7_continue_packet _); [|discriminate]. cbn [bind].
        intros H; apply (f_equal (fun r => match r with Ok (s, _) => size (sx_data (m_sysex s)) | Fault _ => 0 end)) in H; cbn in H; lia.
      * intros H; apply (f_equal (fun r => match r with Ok (s, _) => size (sx_data (m_sysex s)) | Fault _ => 0 end)) in H; cbn in H; lia.
  - destruct (negb _); [apply P|]. destruct (has_cb st).
    + unfold sysex_end_callback. cbv zeta. destruct (_ && _);
      intros H; apply (f_equal (fun r => match r with Ok (s, _) => size (sx_data (m_sysex s)) | Fault _ => 0 end)) in H; cbn in H; try lia.
      rewrite <- H. unfold size. cbn. lia.
    + unfold sysex_end_packet. cbv zeta. destruct (_ && _).
      * intros H; apply (f_equal (fun r => match r with Ok (s, _) => size (sx_data (m_sysex s)) | Fault _ => 0 end)) in H; cbn in H; lia.
      * destruct (set_byte _ _ _); [|discriminate]. cbn [bind].
        intros H; apply (f_equal (fun r => match r with Ok (s, _) => size (sx_data (m_sysex s)) | Fault _ => 0 end)) in H; cbn in H; lia.
Qed.
Lemma feed_all_holds bs : forall st st' o, feed_all st bs = Ok (st', o) -> size (sx_data (m_sysex st')) <= size (sx_data (m_sysex st)) + size bs.
Proof.
  induction bs as [|b bs IH]; intros st st' o. { intros [= <- _]. unfold size. cbn. lia. }
  cbn [feed_all]. destruct (feed st b) as [[s1 o1]|] eqn:E1; [|discriminate]. cbn [bind].
  destruct (feed_all s1 bs) as [[s2 o2]|] eqn:E2; [|discriminate]. cbn [bind]. intros [= <- _].
  apply feed_holds in E1. apply IH in E2. unfold size in *. cbn [length]. lia.
Qed.
Lemma calls_hold cs : forall st st' o, parser_calls st cs = Ok (st', o) ->
  size (sx_data (m_sysex st')) <= size (sx_data (m_sysex st)) + bytes_fed cs.
Proof.
  induction cs as [|k cs IH]; intros st st' o. { intros [= <- _]. cbn. lia. }
  cbn [parser_calls]. destruct (parser_call_step st k) as [[s1 o1]|] eqn:E1; [|discriminate]. cbn [bind].
  destruct (parser_calls s1 cs) as [[s2 o2]|] eqn:E2; [|discriminate]. cbn [bind]. intros [= <- _].
  apply IH in E2. rewrite bytes_fed_cons.
  destruct k as [bs|on|g|]; cbn [parser_call_step] in E1.
  - apply feed_all_holds in E1. lia.
  - injection E1 as <- _. cbn in E2. lia.
  - injection E1 as <- _. cbn in E2. lia.
  - injection E1 as <- _. cbn in E2. unfold size in *. cbn in *. lia.
Qed.

Lemma parser_bound g cb on cs : 0 <= g < 16 -> Forall valid_call cs ->
  exists st out, parser_calls (new_parser g cb on) cs = Ok (st, out) /\
    total (map carried out) <= bytes_fed cs /\ size out <= bytes_fed cs /\ size (sx_data (m_sysex st)) <= bytes_fed cs.
Proof.
  intros G V. destruct (calls_refine_new g cb on cs G V) as (st & E). exists st. eexists. split; [exact E|].
  destruct (calls_bound cb cs V g on None G I) as [S L]. cbn [pending] in S. split; [lia|]. split; [exact L|].
  apply calls_hold in E. cbn in E. lia.
Qed.

(* ---- collectors ---- *)
Lemma decode7_size l : size (sx_data (decode7 l)) <= size l.
Proof. unfold size. destruct l as [|m [|a [|b l]]]; cbn; try lia; destruct (m =? 0); cbn; lia. Qed.
Lemma decode8_size l : size (sx_data (decode8 l)) <= size l.
Proof. unfold size. destruct l as [|m [|a l]]; cbn; try lia; destruct (128 <=? m); cbn; lia. Qed.

Lemma step_collect dec max st x : (forall l, size (sx_data (dec l)) <= size l) ->
  let r := a_step dec max st x in
  size (a_bytes (fst r)) + total (map (fun e => size (sx_data (fst e))) (snd r)) <= size (a_bytes st) + size (ct_payload x) /\
  size (snd r) <= 1.
Proof.
  intros D. unfold a_step, size in *. cbv zeta.
  repeat match goal with |- context[if ?b then _ else _] => destruct b end; cbn; rewrite ?app_length;
    try match goal with |- context[dec ?l] => pose proof (D l) as DL; rewrite ?app_length in DL end; cbn in *; lia.
Qed.
Lemma a_calls_bound rd dec max ks : (forall l, size (sx_data (dec l)) <= size l) -> forall cb st,
  let r := a_calls rd dec max cb st ks in
  size (a_bytes (fst r)) + total (map (fun e => size (sx_data (fst e))) (snd r)) <= size (a_bytes st) + payload_fed rd ks /\
  size (snd r) <= size (packets_fed rd ks).
Proof.
  intros D. unfold payload_fed, packets_fed. induction ks as [|k ks IH]; intros cb st; cbv zeta. { cbn. unfold size. cbn. lia. }
  destruct k as [p| |max'|cb']; cbn [a_calls flat_map app].
  - destruct (rd p) as [x|]; [|apply IH]. destruct (step_collect dec max st x D) as [S L]. cbv zeta in *.
    destruct (IH cb (fst (a_step dec max st x))) as [S' L']. cbn [fst snd app map total fold_right].
    rewrite map_app, total_app. unfold total, size in *. destruct cb.
    + rewrite app_length. cbn [length]. lia.
    + cbn [app map fold_right length]. 
      assert (0 <= fold_right Z.add 0 (map (fun e => Z.of_nat (length (sx_data (fst e)))) (snd (a_step dec max st x)))).
      { clear. induction (snd (a_step dec max st x)) as [|e l IH]; cbn [map fold_right]; lia. }
      lia.
  - destruct (IH cb a_idle). unfold size in *. cbn [a_bytes a_idle length] in *. lia.
  - apply IH.
  - apply IH.
Qed.

Lemma collect7_bound a max cb ks : limit_alloc a max -> Forall keeps_limit ks ->
  exists c out, c7_calls a (c7_set_max a (new_collector7 cb) max) ks = Ok (c, out) /\
    total (map (fun s => size (sx_data s)) out) + size (sx_data (c7_sysex c)) <= payload_fed content7 ks /\
    size out <= size (packets_fed content7 ks).
Proof.
  intros A K. destruct (calls7_refine a max ks A K cb a_idle _ (inv7_new a max cb A)) as (c & E & I).
  exists c. eexists. split; [exact E|]. destruct (a_calls_bound content7 decode7 max ks decode7_size cb a_idle) as [S L]. cbv zeta in *.
  rewrite map_map, (i7_sysex _ _ _ _ I). pose proof (decode7_size (a_bytes (fst (a_calls content7 decode7 max cb a_idle ks)))).
  unfold size in *. rewrite map_length. cbn in S. lia.
Qed.
Lemma collect8_bound a max cb ks : limit_alloc a max -> Forall keeps_limit ks ->
  exists c out, c8_calls a (c8_set_max a (new_collector8 cb) max) ks = Ok (c, out) /\
    total (map (fun s => size (sx_data (fst s))) out) + size (sx_data (c8_sysex c)) <= payload_fed content8 ks /\
    size out <= size (packets_fed content8 ks).
Proof.
  intros A K. destruct (calls8_refine a max ks A K cb a_idle _ (inv8_new a max cb A)) as (c & E & I).
  exists c. eexists. split; [exact E|]. destruct (a_calls_bound content8 decode8 max ks decode8_size cb a_idle) as [S L]. cbv zeta in *.
  rewrite (i8_sysex _ _ _ _ I). pose proof (decode8_size (a_bytes (fst (a_calls content8 decode8 max cb a_idle ks)))).
  unfold size in *. cbn in S. lia.
Qed.
