(* send_sysex7 and send_sysex8 *)
From Coq Require Import ZArith List Bool Lia ZifyBool ZifyNat Btauto.
From Verif Require Import Base Bits Packet PacketSpec PacketProofs PacketBytes Messages Sysex Collector
  StreamSpec StreamProofs StreamLemmas StreamBytes CollectSpec CollectProofs CollectLemmas.
Import ListNotations.
Local Open Scope Z_scope.
Local Open Scope res_scope.

(* ---- splitting into chunks --------------------------------------------------------------- *)

(* the loops of send_sysex7 and send_sysex8 on lists: format and payload of the packet
   being filled, the packets sent *)
Fixpoint fill (k : nat) (f : Z) (l bs : list Z) (left : Z) (sent : list (Z * list Z))
  : Z * list Z * list (Z * list Z) :=
  match bs with
  | [] => (f, l, sent)
  | b :: bs' =>
      let l := l ++ [b] in
      if (length l =? k)%nat then fill k (if left - 1 <=? Z.of_nat k then 3 else 2) [] bs' (left - 1) (sent ++ [(f, l)])
      else fill k f l bs' (left - 1) sent
  end.

Definition flush (r : Z * list Z * list (Z * list Z)) : list (Z * list Z) :=
  let '(f, l, sent) := r in match l with [] => sent | _ => sent ++ [(f, l)] end.

Fixpoint tail_frames (chunks : list (list Z)) : list (Z * list Z) :=
  match chunks with
  | [] => []
  | [c] => [(3, c)]
  | c :: rest => (2, c) :: tail_frames rest
  end.

Lemma full_chunks_single k c chunks : (0 < k)%nat -> full_chunks k chunks -> concat chunks = c -> (length c <= k)%nat -> chunks = [c].
Proof.
  intros K F E L. destruct chunks as [|c1 [|c2 rest]]; [destruct F| |].
  - cbn in E. now rewrite app_nil_r in E; subst.
  - exfalso. destruct F as [F1 F2]. rewrite <- E in L. cbn [concat] in L. rewrite !app_length in L.
    assert (1 <= length c2)%nat by (destruct rest; destruct F2; lia). lia.
Qed.

Lemma fill_spec k : (0 < k)%nat -> forall bs f l sent, (length l < k)%nat -> l ++ bs <> [] ->
  exists c rest, full_chunks k (c :: rest) /\ concat (c :: rest) = l ++ bs /\
    flush (fill k f l bs (size bs) sent) = sent ++ (f, c) :: tail_frames rest.
Proof.
  intros K. induction bs as [|b bs IH]; intros f l sent L NE.
  - exists l, []. rewrite app_nil_r in *. cbn [full_chunks concat tail_frames fill flush].
    rewrite app_nil_r. destruct l as [|x l]; [congruence|]. cbn [length] in *. repeat split; lia.
  - cbn [fill]. replace (size (b :: bs) - 1) with (size bs) by (unfold size; cbn [length]; lia).
    destruct (Nat.eqb_spec (length (l ++ [b])) k) as [E|E].
    + destruct bs as [|b' bs].
      * exists (l ++ [b]), []. cbn [full_chunks concat tail_frames fill flush]. rewrite app_nil_r.
        repeat split; lia.
      * set (r := b' :: bs) in *.
        destruct (IH (if size r <=? Z.of_nat k then 3 else 2) [] (sent ++ [(f, l ++ [b])])) as (c & rest & F & C & R);
          [cbn; lia|discriminate|].
        exists (l ++ [b]), (c :: rest). split; [|split].
        -- split; assumption.
        -- change (concat ((l ++ [b]) :: c :: rest)) with ((l ++ [b]) ++ concat (c :: rest)). rewrite C.
           cbn [app]. now rewrite <- app_assoc.
        -- rewrite R, <- app_assoc. cbn [app]. do 2 f_equal.
           destruct (Z.leb_spec (size r) (Z.of_nat k)) as [Q|Q].
           ++ apply (full_chunks_single k r) in F; [|exact K|exact C|unfold size in Q; lia].
              injection F as -> ->. reflexivity.
           ++ destruct rest; [|reflexivity]. exfalso. cbn [full_chunks] in F. cbn [concat] in C. rewrite app_nil_r in C.
              cbn [app] in C. subst c. unfold size in Q. lia.
    + destruct (IH f (l ++ [b]) sent) as (c & rest & F & C & R).
      * rewrite app_length in *. cbn [length] in *. lia.
      * now destruct l.
      * exists c, rest. rewrite C, <- app_assoc. auto.
Qed.

(* ---- SysEx7 --------------------------------------------------------------------------------- *)

Definition pk7 (g : Z) (x : Z * list Z) : packet := sx7_packet g (fst x) (snd x).

Lemma sx7_u8 g f l : 0 <= g < 16 -> 0 <= f < 4 -> (length l <= 6)%nat -> Forall is_u8 l ->
  Forall is_u8 ((3 * 16 + g) :: (f * 16 + Z.of_nat (length l)) :: l).
Proof. intros. repeat (constructor; [unfold is_u8; lia|]). assumption. Qed.

Lemma sx7_status' g f l : 0 <= g < 16 -> 0 <= f < 4 -> (length l <= 6)%nat -> Forall is_u8 l ->
  status (sx7_packet g f l) = f * 16 + Z.of_nat (length l).
Proof. intros. rewrite sx7_pob, pob_status by (try apply sx7_u8; trivial). reflexivity. Qed.

Lemma sx7_size g f l : 0 <= g < 16 -> 0 <= f < 4 -> (length l <= 6)%nat -> Forall is_u8 l ->
  sysex7_payload_size (sx7_packet g f l) = length l.
Proof. intros. unfold sysex7_payload_size. rewrite sx7_status', land_15 by trivial. dlia. Qed.

Lemma add7 g f l v : 0 <= g < 16 -> 0 <= f < 4 -> (length l < 6)%nat -> Forall is_u8 l -> is_u8 v ->
  sysex7_add_payload_byte (sx7_packet g f l) v = Ok (sx7_packet g f (l ++ [v mod 128])).
Proof.
  intros G F L U V. unfold sysex7_add_payload_byte. rewrite sx7_size by (trivial; lia).
  replace (length l <? 6)%nat with true by lia. cbn [assert_ bind].
  assert (UL := sx7_u8 g f l G F ltac:(lia) U).
  unfold set_byte_7bit. rewrite land_127. assert (V' : is_u8 (v mod 128)) by (unfold is_u8 in *; dlia).
  rewrite set_byte_ok by lia. cbn [bind].
  rewrite sx7_pob by lia.
  change (2 + length l)%nat with (length (3 * 16 + g :: f * 16 + Z.of_nat (length l) :: l)).
  rewrite pob_append by (cbn [length]; trivial; lia). cbn [app].
  unfold sysex7_set_payload_size. replace (length l + 1 <=? 6)%nat with true by lia. cbn [assert_ bind].
  assert (UL' : Forall is_u8 (3 * 16 + g :: f * 16 + Z.of_nat (length l) :: l ++ [v mod 128])).
  { inversion_clear UL as [|? ? U1 U2]. inversion_clear U2 as [|? ? U2' U3].
    repeat (constructor; [assumption|]). apply Forall_app; split; auto. }
  rewrite pob_status by assumption. cbn [nth]. rewrite land_240, land_15.
  rewrite set_byte_ok by lia. f_equal. rewrite sx7_pob by (rewrite app_length; cbn [length]; lia).
  replace (u8 _) with (f * 16 + Z.of_nat (length (l ++ [v mod 128]))).
  2:{ rewrite app_length. cbn [length]. unfold u8. dlia. }
  rewrite pob_upd; [reflexivity|assumption|rewrite app_length; cbn [length]; unfold is_u8; lia|cbn [length]; lia|lia].
Qed.

Lemma new7 g f : 0 <= g < 16 -> 0 <= f < 4 -> sysex7_packet (f * 16) g = Ok (sx7_packet g f []).
Proof.
  intros. rewrite sysex7_packet_raw by trivial. unfold raw7. rewrite sx7_pob by (cbn; lia). cbn [length].
  now rewrite Z.add_0_r.
Qed.

Lemma loop7 g : 0 <= g < 16 -> forall bs f l left sent, 0 <= f < 4 -> (length l < 6)%nat ->
  Forall is_u8 l -> Forall is_u8 bs ->
  send7_loop g bs (sx7_packet g f l) left (map (pk7 g) sent) =
    (let '(f', l', s') := fill 6 f l (map (fun b => b mod 128) bs) left sent in
     Ok (sx7_packet g f' l', map (pk7 g) s')) /\
  (let '(f', l', s') := fill 6 f l (map (fun b => b mod 128) bs) left sent in
   0 <= f' < 4 /\ (length l' < 6)%nat /\ Forall is_u8 l').
Proof.
  intros G. induction bs as [|b bs IH]; intros f l left sent F L UL UB; cbn [send7_loop map fill]; [auto|].
  inversion_clear UB as [|? ? B UB']. rewrite add7 by trivial. cbn [bind].
  assert (LL : length (l ++ [b mod 128]) = S (length l)) by (rewrite app_length; cbn [length]; lia).
  assert (UL' : Forall is_u8 (l ++ [b mod 128])).
  { apply Forall_app; split; trivial. constructor; [unfold is_u8 in *; dlia|constructor]. }
  rewrite sx7_size by (trivial; lia).
  destruct (Nat.eqb_spec (length (l ++ [b mod 128])) 6) as [E|E].
  - replace (Z.of_nat (length (l ++ [b mod 128])) =? 6) with true by lia.
    change (Z.of_nat 6) with 6.
    replace (if left - 1 <=? 6 then make_sysex7_end_packet g else make_sysex7_continue_packet g)
      with (Ok (sx7_packet g (if left - 1 <=? 6 then 3 else 2) [])).
    2:{ symmetry. destruct (left - 1 <=? 6); [apply (new7 g 3)|apply (new7 g 2)]; lia. }
    cbn [bind]. replace (map (pk7 g) sent ++ [sx7_packet g f (l ++ [b mod 128])])
      with (map (pk7 g) (sent ++ [(f, l ++ [b mod 128])])) by now rewrite map_app.
    apply IH; trivial; [|cbn; lia]. destruct (left - 1 <=? 6); lia.
  - replace (Z.of_nat (length (l ++ [b mod 128])) =? 6) with false by lia. apply IH; trivial. lia.
Qed.

(* the packets that are sent, given the format of the first one and the id bytes *)
Lemma send7_core s g f pre : 0 <= g < 16 -> 0 <= f < 4 -> (1 <= length pre < 6)%nat -> Forall is_u8 pre ->
  Forall is_u8 (sx_data s) ->
  exists c rest, full_chunks 6 (c :: rest) /\ concat (c :: rest) = pre ++ map (fun b => b mod 128) (sx_data s) /\
    (r <- send7_loop g (sx_data s) (sx7_packet g f pre) (size (sx_data s)) [] ;;
     let '(p, sent) := r in
     Ok (if negb (Z.of_nat (sysex7_payload_size p) =? 0) then sent ++ [p] else sent))
    = Ok (map (pk7 g) ((f, c) :: tail_frames rest)).
Proof.
  intros G F L U D. destruct (loop7 g G (sx_data s) f pre (size (sx_data s)) [] F ltac:(lia) U D) as [E B].
  change (map (pk7 g) []) with (@nil packet) in E. rewrite E.
  destruct (fill_spec 6 ltac:(lia) (map (fun b => b mod 128) (sx_data s)) f pre [] ltac:(lia)) as (c & rest & FC & CC & R).
  { destruct pre; [cbn in L; lia|discriminate]. }
  unfold size in R at 1. rewrite map_length in R. fold (size (sx_data s)) in R.
  exists c, rest. split; [exact FC|]. split; [exact CC|]. cbn [app] in R. rewrite <- R.
  destruct (fill 6 f pre _ _ []) as [[f' l'] s']. destruct B as (B1 & B2 & B3). cbn [bind flush].
  rewrite sx7_size by (trivial; lia). f_equal. destruct l' as [|x l']; [reflexivity|].
  cbn [length]. replace (Z.of_nat _ =? 0) with false by lia. cbn [negb]. now rewrite map_app.
Qed.

Lemma map_tail7 g rest : map (pk7 g) (tail_frames rest) = sx7_tail g rest.
Proof.
  induction rest as [|c [|c' rest] IH]; [reflexivity|reflexivity|].
  change (tail_frames (c :: c' :: rest)) with ((2, c) :: tail_frames (c' :: rest)).
  cbn [map]. rewrite IH. reflexivity.
Qed.

Lemma land_65535_id id : Z.land id 0x00FFFF = id mod 65536.
Proof. apply land_65535. Qed.

Lemma land_FF0000 x : 0 <= x -> Z.land x 0xFF0000 = x / 65536 mod 256 * 65536.
Proof. intros. change 0xFF0000 with (Z.shiftl (Z.ones 8) 16). rewrite land_field by lia. pow2_simpl. reflexivity. Qed.

(* manufacturer id bytes written by send_sysex7 *)
Definition sent_id7 (id : Z) : list Z :=
  if id mod 65536 =? 0 then [id / 65536 mod 128] else [id / 65536 mod 128; id / 256 mod 128; id mod 128].

Lemma send7_spec s g : wf_sysex s -> 0 <= g < 16 ->
  exists c rest, full_chunks 6 (c :: rest) /\
    concat (c :: rest) = sent_id7 (sx_id s) ++ map (fun b => b mod 128) (sx_data s) /\
    send_sysex7 s g = Ok (sx7_packet g (if total_data_size s <=? 6 then 0 else 1) c :: sx7_tail g rest).
Proof.
  intros [I D] G. unfold send_sysex7. set (f := if total_data_size s <=? 6 then 0 else 1).
  replace (if total_data_size s <=? 6 then make_sysex7_complete_packet g else make_sysex7_start_packet g)
    with (Ok (sx7_packet g f [])).
  2:{ symmetry. unfold f. destruct (total_data_size s <=? 6); [apply (new7 g 0)|apply (new7 g 1)]; lia. }
  assert (F : 0 <= f < 4) by (unfold f; destruct (_ <=? _); lia). cbn [bind].
  set (id := sx_id s) in *. unfold is_u32 in I. rewrite !land_127, land_65535_id, !shiftr_div by lia. pow2_simpl.
  rewrite add7 by (trivial; try constructor; cbn [length]; unfold is_u8; dlia). cbn [app bind].
  rewrite Zmod_mod. unfold sent_id7.
  assert (U : forall x, is_u8 (x mod 128)) by (intros; unfold is_u8; dlia).
  destruct (id mod 65536 =? 0); cbn [negb].
  - cbn [bind]. destruct (send7_core s g f [id / 65536 mod 128]) as (c & rest & FC & CC & E); trivial.
    + cbn [length]; lia.
    + auto.
    + exists c, rest. split; [exact FC|]. split; [exact CC|]. etransitivity; [exact E|].
      cbn [map]. now rewrite map_tail7.
  - rewrite add7 by (trivial; auto; cbn [length]; lia). cbn [app bind].
    rewrite add7 by (trivial; auto; cbn [length]; lia). cbn [app bind]. rewrite !Zmod_mod.
    destruct (send7_core s g f [id / 65536 mod 128; id / 256 mod 128; id mod 128]) as (c & rest & FC & CC & E); trivial.
    + cbn [length]; lia.
    + auto.
    + exists c, rest. split; [exact FC|]. split; [exact CC|]. etransitivity; [exact E|].
      cbn [map]. now rewrite map_tail7.
Qed.

Lemma full_chunks_count k c rest : (0 < k)%nat -> full_chunks k (c :: rest) -> (rest = [] <-> (length (concat (c :: rest)) <= k)%nat).
Proof.
  intros K F. split.
  - intros ->. cbn in *. rewrite app_nil_r. lia.
  - intros L. apply (full_chunks_single k (concat (c :: rest))) in F; trivial. now injection F.
Qed.

Lemma sent_id7_valid id : valid_id id -> id <> 0 -> sent_id7 id = id_bytes id.
Proof.
  unfold sent_id7, id_bytes. intros [(m & M & ->)|(a & b & A & B & ->)] NZ.
  - replace (m * 65536 mod 65536 =? 0) with true by dlia. replace (65536 <=? m * 65536) with true by lia.
    f_equal. dlia.
  - unfold is_u7 in *. replace (65536 <=? a * 256 + b) with false by lia.
    replace ((a * 256 + b) mod 65536 =? 0) with false by dlia. repeat (f_equal; try dlia).
Qed.

Lemma total_valid id d : valid_id id -> id <> 0 -> total_data_size (mkSx id d) = size (id_bytes id) + size d.
Proof.
  unfold total_data_size, id_bytes. cbn [sx_id sx_data]. intros V NZ.
  replace (id =? 0) with false by lia. cbn [negb].
  destruct V as [(m & M & ->)|(a & b & A & B & ->)].
  - rewrite land_FF0000 by lia. replace (m * 65536 / 65536 mod 256 * 65536 =? 0) with false by dlia.
    replace (65536 <=? m * 65536) with true by lia. cbn [negb]. unfold size at 2. cbn [length]. lia.
  - unfold is_u7 in *. rewrite land_FF0000 by lia. replace ((a * 256 + b) / 65536 mod 256 * 65536 =? 0) with true by dlia.
    replace (65536 <=? a * 256 + b) with false by lia. cbn [negb]. unfold size at 2. cbn [length]. lia.
Qed.

Lemma valid_id_u32 id : valid_id id -> is_u32 id.
Proof. unfold is_u32. intros [(m & M & ->)|(a & b & A & B & ->)]; unfold is_u7 in *; lia. Qed.

Lemma map_mod_length (d : list Z) : length (map (fun b => b mod 128) d) = length d.
Proof. apply map_length. Qed.

Theorem send7_valid id d g : valid_id id -> id <> 0 -> Forall is_u8 d -> 0 <= g < 16 ->
  exists chunks, full_chunks 6 chunks /\ concat chunks = id_bytes id ++ map (fun b => b mod 128) d /\
    send_sysex7 (mkSx id d) g = Ok (sx7_sequence g chunks).
Proof.
  intros V NZ D G. destruct (send7_spec (mkSx id d) g) as (c & rest & F & C & E); trivial.
  { split; [now apply valid_id_u32|assumption]. }
  cbn [sx_id sx_data] in C. rewrite sent_id7_valid in C by assumption.
  exists (c :: rest). split; [exact F|]. split; [exact C|]. rewrite E. f_equal.
  pose proof (full_chunks_count 6 c rest ltac:(lia) F) as N. rewrite C, app_length, map_length in N.
  pose proof (total_valid id d V NZ) as T. unfold size in T.
  destruct (Z.leb_spec (total_data_size (mkSx id d)) 6).
  - assert (R : rest = []) by (apply N; lia). rewrite R. reflexivity.
  - destruct rest; [|reflexivity]. assert (length (id_bytes id) + length d <= 6)%nat by now apply N. lia.
Qed.

(* ---- SysEx8 --------------------------------------------------------------------------------- *)

Definition pk8 (g i : Z) (x : Z * list Z) : packet := sx8_packet g (fst x) i (snd x).

Lemma sx8_u8 g f i l : 0 <= g < 16 -> 0 <= f < 4 -> is_u8 i -> (length l <= 13)%nat -> Forall is_u8 l ->
  Forall is_u8 ((5 * 16 + g) :: (f * 16 + Z.of_nat (length l) + 1) :: i :: l).
Proof. intros. constructor; [unfold is_u8; lia|]. constructor; [unfold is_u8; lia|]. auto. Qed.

Lemma sx8_status g f i l : 0 <= g < 16 -> 0 <= f < 4 -> is_u8 i -> (length l <= 13)%nat -> Forall is_u8 l ->
  status (sx8_packet g f i l) = f * 16 + Z.of_nat (length l) + 1.
Proof. intros. unfold sx8_packet. rewrite pob_status by (apply sx8_u8; trivial). reflexivity. Qed.

Lemma sx8_size g f i l : 0 <= g < 16 -> 0 <= f < 4 -> is_u8 i -> (length l <= 13)%nat -> Forall is_u8 l ->
  sysex8_payload_size (sx8_packet g f i l) = length l.
Proof.
  intros. unfold sysex8_payload_size. rewrite sx8_status, land_15 by trivial.
  replace (0 <? _) with true by dlia. dlia.
Qed.

Lemma add8 g f i l v : 0 <= g < 16 -> 0 <= f < 4 -> is_u8 i -> (length l < 13)%nat -> Forall is_u8 l -> is_u8 v ->
  sysex8_add_payload_byte (sx8_packet g f i l) v = Ok (sx8_packet g f i (l ++ [v])).
Proof.
  intros G F I L U V. unfold sysex8_add_payload_byte. rewrite sx8_size by (trivial; lia).
  replace (length l <? 13)%nat with true by lia. cbn [assert_ bind].
  assert (UL := sx8_u8 g f i l G F I ltac:(lia) U).
  rewrite set_byte_ok by lia. cbn [bind]. unfold sx8_packet.
  change (3 + length l)%nat with (length (5 * 16 + g :: f * 16 + Z.of_nat (length l) + 1 :: i :: l)).
  rewrite pob_append by (cbn [length]; trivial; lia). cbn [app].
  unfold sysex8_set_payload_size. replace (length l + 1 <=? 13)%nat with true by lia. cbn [assert_ bind].
  assert (UL' : Forall is_u8 (5 * 16 + g :: f * 16 + Z.of_nat (length l) + 1 :: i :: l ++ [v])).
  { inversion_clear UL as [|? ? U1 U2]. inversion_clear U2 as [|? ? U2' U3].
    repeat (constructor; [assumption|]). apply Forall_app; split; auto. }
  rewrite pob_status by assumption. cbn [nth]. rewrite land_240, land_15.
  rewrite set_byte_ok by lia. f_equal.
  replace (u8 _) with (f * 16 + Z.of_nat (length (l ++ [v])) + 1).
  2:{ rewrite app_length. cbn [length]. unfold u8. dlia. }
  rewrite pob_upd; [reflexivity|assumption|rewrite app_length; cbn [length]; unfold is_u8; lia|cbn [length]; lia|lia].
Qed.

Lemma new8 g f i : 0 <= g < 16 -> 0 <= f < 4 -> is_u8 i -> sysex8_packet (f * 16) i g = sx8_packet g f i [].
Proof.
  unfold is_u8. intros. unfold sysex8_packet, sx8_packet, packet_of_bytes, packet1, be32. cbn [nth length].
  f_equal. unfold u32. change 0x50010000 with (Z.lor 0x50000000 0x10000).
  assert (R : forall a b c d e, Z.lor (Z.lor (Z.lor (Z.lor a b) c) d) e = Z.lor (Z.lor (Z.lor a c) (Z.lor d b)) e).
  { intros. apply Z.bits_inj'. intros n _. rewrite !Z.lor_spec. btauto. }
  rewrite R.
  replace (Z.lor (Z.shiftl (f * 16) 16) 0x10000) with ((f * 16 + 1) * 65536)
    by (assert (f = 0 \/ f = 1 \/ f = 2 \/ f = 3) as [->|[->|[->| ->]]] by lia; reflexivity).
  bitlia.
Qed.

Lemma loop8 g i : 0 <= g < 16 -> is_u8 i -> forall bs f l left sent, 0 <= f < 4 -> (length l < 13)%nat ->
  Forall is_u8 l -> Forall is_u8 bs ->
  send8_loop i g bs (sx8_packet g f i l) left (map (pk8 g i) sent) =
    (let '(f', l', s') := fill 13 f l bs left sent in
     Ok (sx8_packet g f' i l', map (pk8 g i) s')) /\
  (let '(f', l', s') := fill 13 f l bs left sent in
   0 <= f' < 4 /\ (length l' < 13)%nat /\ Forall is_u8 l').
Proof.
  intros G I. induction bs as [|b bs IH]; intros f l left sent F L UL UB; cbn [send8_loop map fill]; [auto|].
  inversion_clear UB as [|? ? B UB']. rewrite add8 by trivial. cbn [bind].
  assert (LL : length (l ++ [b]) = S (length l)) by (rewrite app_length; cbn [length]; lia).
  assert (UL' : Forall is_u8 (l ++ [b])) by (apply Forall_app; split; auto).
  rewrite sx8_size by (trivial; lia).
  destruct (Nat.eqb_spec (length (l ++ [b])) 13) as [E|E].
  - replace (Z.of_nat (length (l ++ [b])) =? 13) with true by lia.
    change (Z.of_nat 13) with 13.
    replace (if left - 1 <=? 13 then make_sysex8_end_packet i g else make_sysex8_continue_packet i g)
      with (sx8_packet g (if left - 1 <=? 13 then 3 else 2) i []).
    2:{ symmetry. destruct (left - 1 <=? 13); [apply (new8 g 3)|apply (new8 g 2)]; trivial; lia. }
    cbn [bind]. replace (map (pk8 g i) sent ++ [sx8_packet g f i (l ++ [b])])
      with (map (pk8 g i) (sent ++ [(f, l ++ [b])])) by now rewrite map_app.
    apply IH; trivial; [|cbn; lia]. destruct (left - 1 <=? 13); lia.
  - replace (Z.of_nat (length (l ++ [b])) =? 13) with false by lia. apply IH; trivial. lia.
Qed.

Lemma map_tail8 g i rest : map (pk8 g i) (tail_frames rest) = sx8_tail g i rest.
Proof.
  induction rest as [|c [|c' rest] IH]; [reflexivity|reflexivity|].
  change (tail_frames (c :: c' :: rest)) with ((2, c) :: tail_frames (c' :: rest)).
  cbn [map]. rewrite IH. reflexivity.
Qed.

Lemma send8_core s g i f pre : 0 <= g < 16 -> is_u8 i -> 0 <= f < 4 -> (1 <= length pre < 13)%nat -> Forall is_u8 pre ->
  Forall is_u8 (sx_data s) ->
  exists c rest, full_chunks 13 (c :: rest) /\ concat (c :: rest) = pre ++ sx_data s /\
    (r <- send8_loop i g (sx_data s) (sx8_packet g f i pre) (size (sx_data s)) [] ;;
     let '(p, sent) := r in
     Ok (if negb (Z.of_nat (sysex8_payload_size p) =? 0) then sent ++ [p] else sent))
    = Ok (sx8_packet g f i c :: sx8_tail g i rest).
Proof.
  intros G I F L U D. destruct (loop8 g i G I (sx_data s) f pre (size (sx_data s)) [] F ltac:(lia) U D) as [E B].
  change (map (pk8 g i) []) with (@nil packet) in E. rewrite E.
  destruct (fill_spec 13 ltac:(lia) (sx_data s) f pre [] ltac:(lia)) as (c & rest & FC & CC & R).
  { destruct pre; [cbn in L; lia|discriminate]. }
  exists c, rest. split; [exact FC|]. split; [exact CC|]. cbn [app] in R.
  rewrite <- map_tail8. change (sx8_packet g f i c) with (pk8 g i (f, c)). change (pk8 g i (f, c) :: map (pk8 g i) (tail_frames rest))
    with (map (pk8 g i) ((f, c) :: tail_frames rest)). rewrite <- R.
  destruct (fill 13 f pre _ _ []) as [[f' l'] s']. destruct B as (B1 & B2 & B3). cbn [bind flush].
  rewrite sx8_size by (trivial; lia). f_equal. destruct l' as [|x l']; [reflexivity|].
  cbn [length]. replace (Z.of_nat _ =? 0) with false by lia. cbn [negb]. now rewrite map_app.
Qed.

Lemma id_bytes8_length id : length (id_bytes8 id) = 2%nat.
Proof. unfold id_bytes8. now destruct (_ =? _). Qed.

Lemma id_bytes8_u8 id : valid_id id -> Forall is_u8 (id_bytes8 id).
Proof.
  unfold id_bytes8. intros [(m & M & ->)|(a & b & A & B & ->)]; unfold is_u7 in *.
  - replace (m * 65536 mod 65536 =? 0) with true by dlia. repeat constructor; unfold is_u8; dlia.
  - destruct (_ =? 0); repeat constructor; unfold is_u8; dlia.
Qed.

Lemma send8_spec id d i g : valid_id id -> Forall is_u8 d -> is_u8 i -> 0 <= g < 16 ->
  exists c rest, full_chunks 13 (c :: rest) /\
    concat (c :: rest) = id_bytes8 id ++ d /\
    send_sysex8 (mkSx id d) i g =
      Ok (sx8_packet g (if total_data_size (mkSx id d) <=? 13 then 0 else 1) i c :: sx8_tail g i rest).
Proof.
  intros V D I G. unfold send_sysex8. set (f := if total_data_size _ <=? 13 then 0 else 1).
  replace (if total_data_size _ <=? 13 then make_sysex8_complete_packet i g else make_sysex8_start_packet i g)
    with (sx8_packet g f i []).
  2:{ symmetry. unfold f. destruct (total_data_size _ <=? 13); [apply (new8 g 0)|apply (new8 g 1)]; trivial; lia. }
  assert (F : 0 <= f < 4) by (unfold f; destruct (_ <=? _); lia). cbv zeta. cbn [sx_id].
  assert (B := valid_id_u32 id V). unfold is_u32 in B.
  rewrite !land_127, land_65535_id, !shiftr_div by lia. pow2_simpl.
  assert (U := id_bytes8_u8 id V). assert (L := id_bytes8_length id).
  destruct (send8_core (mkSx id d) g i f (id_bytes8 id)) as (c & rest & FC & CC & E); trivial; [lia|].
  exists c, rest. split; [exact FC|]. split; [exact CC|]. rewrite <- E.
  unfold id_bytes8 in *. destruct (Z.eqb_spec (id mod 65536) 0) as [Q|Q]; cbn [negb].
  - replace (id / 65536 mod 128) with (id / 65536) by (destruct V as [(m & M & ->)|(a & b & A & B' & ->)]; unfold is_u7 in *; dlia).
    inversion_clear U as [|? ? U1 U2]. inversion_clear U2 as [|? ? U2' _].
    rewrite add8 by (trivial; cbn [length]; lia). cbn [app bind].
    rewrite add8 by (auto; cbn [length]; lia). reflexivity.
  - inversion_clear U as [|? ? U1 U2]. inversion_clear U2 as [|? ? U2' _].
    replace (u8 (0x80 + id / 256 mod 128)) with (128 + id / 256)
      by (unfold u8; destruct V as [(m & M & ->)|(a & b & A & B' & ->)]; unfold is_u7 in *; dlia).
    replace (id mod 128) with (id mod 256) by (destruct V as [(m & M & ->)|(a & b & A & B' & ->)]; unfold is_u7 in *; dlia).
    rewrite add8 by (trivial; cbn [length]; lia). cbn [app bind].
    rewrite add8 by (auto; cbn [length]; lia). reflexivity.
Qed.

Lemma total8 id d : valid_id id ->
  total_data_size (mkSx id d) = size d + (if id =? 0 then 0 else if 65536 <=? id then 1 else 3).
Proof.
  intros V. destruct (Z.eqb_spec id 0) as [->|NZ]; [unfold total_data_size; cbn; lia|].
  rewrite total_valid by assumption. unfold id_bytes. destruct (65536 <=? id); unfold size; cbn [length]; lia.
Qed.


(* ---- reading the packets back ------------------------------------------------------------------ *)

Lemma nth_firstn' (l : list Z) n i : (i < n)%nat -> nth i (firstn n l) 0 = nth i l 0.
Proof.
  revert l i; induction n as [|n IH]; intros [|a l] [|i] K; cbn; try reflexivity; try lia. apply IH. lia.
Qed.
Lemma nth_skipn' (l : list Z) n i : nth i (skipn n l) 0 = nth (n + i) l 0.
Proof.
  revert l; induction n as [|n IH]; intros [|a l]; cbn [skipn Nat.add nth]; try reflexivity; [now destruct i|apply IH].
Qed.

Lemma firstn_pad16 l k : (k + length l <= 16)%nat -> forall h, (length h = k)%nat ->
  firstn (length l) (skipn k (pad16 (h ++ l))) = l.
Proof.
  intros L h H. apply nth_ext0.
  - rewrite firstn_length, skipn_length, pad16_length. lia.
  - rewrite firstn_length, skipn_length, pad16_length. intros j J.
    rewrite nth_firstn', nth_skipn', nth_pad16 by lia. rewrite app_nth2 by lia. f_equal. lia.
Qed.

Lemma content7_packet g f c : 0 <= g < 16 -> 0 <= f < 4 -> (length c <= 6)%nat -> Forall is_u8 c ->
  content7 (sx7_packet g f c) = Some (mkCt f 0 c).
Proof.
  intros G F L U. assert (UL := sx7_u8 g f c G F L U). unfold content7.
  rewrite sx7_pob, pob_bytes by assumption. rewrite !nth_pad16 by lia. cbn [nth].
  replace ((3 * 16 + g) / 16 =? 3) with true by dlia.
  replace ((f * 16 + Z.of_nat (length c)) / 16) with f by dlia.
  replace ((f * 16 + Z.of_nat (length c)) mod 16) with (Z.of_nat (length c)) by dlia.
  replace (f <? 4) with true by lia. replace (Z.of_nat (length c) <=? 6) with true by lia. cbn [andb].
  rewrite Nat2Z.id. do 2 f_equal. apply (firstn_pad16 c 2 ltac:(lia) [_; _] eq_refl).
Qed.

Lemma content8_packet g f i c : 0 <= g < 16 -> 0 <= f < 4 -> is_u8 i -> (length c <= 13)%nat -> Forall is_u8 c ->
  content8 (sx8_packet g f i c) = Some (mkCt f i c).
Proof.
  intros G F I L U. assert (UL := sx8_u8 g f i c G F I L U). unfold content8, sx8_packet.
  rewrite pob_bytes by assumption. rewrite !nth_pad16 by lia. cbn [nth].
  replace ((5 * 16 + g) / 16 =? 5) with true by dlia.
  replace ((f * 16 + Z.of_nat (length c) + 1) / 16) with f by dlia.
  replace ((f * 16 + Z.of_nat (length c) + 1) mod 16) with (Z.of_nat (length c) + 1) by dlia.
  replace (f <? 4) with true by lia. replace (1 <=? Z.of_nat (length c) + 1) with true by lia.
  replace (Z.of_nat (length c) + 1 <=? 14) with true by lia. cbn [andb].
  replace (Z.of_nat (length c) + 1 - 1) with (Z.of_nat (length c)) by lia.
  rewrite Nat2Z.id. do 2 f_equal. apply (firstn_pad16 c 3 ltac:(lia) [_; _; _] eq_refl).
Qed.

Definition chunk_ok (k : nat) (c : list Z) : Prop := (length c <= k)%nat /\ Forall is_u8 c.

Lemma full_chunks_ok k chunks : (0 < k)%nat -> full_chunks k chunks -> Forall is_u8 (concat chunks) -> Forall (chunk_ok k) chunks.
Proof.
  intros K. induction chunks as [|c rest IH]; intros F U; [constructor|]. cbn [concat] in U.
  apply Forall_app in U. destruct U as [U1 U2]. destruct rest as [|c' rest].
  - constructor; [|constructor]. cbn in F. split; [lia|assumption].
  - destruct F as [F1 F2]. constructor; [split; [lia|assumption]|]. now apply IH.
Qed.

Lemma contents7_tail g rest : 0 <= g < 16 -> Forall (chunk_ok 6) rest ->
  contents content7 (sx7_tail g rest) = message_tail 0 rest /\ Forall wf_packet (sx7_tail g rest).
Proof.
  intros G. induction rest as [|c rest IH]; intros F; [split; [reflexivity|constructor]|].
  inversion_clear F as [|? ? [L U] F'].
  assert (W : forall f, 0 <= f < 4 -> wf_packet (sx7_packet g f c))
    by (intros; rewrite sx7_pob by assumption; apply pob_wf, sx7_u8; trivial).
  destruct rest as [|c' rest].
  - cbn [sx7_tail contents message_tail]. rewrite content7_packet by (trivial; lia). auto with zarith.
  - change (sx7_tail g (c :: c' :: rest)) with (sx7_packet g 2 c :: sx7_tail g (c' :: rest)).
    cbn [contents]. rewrite content7_packet by (trivial; lia). destruct (IH F') as [-> W'].
    split; [reflexivity|]. constructor; [apply W; lia|assumption].
Qed.

Lemma contents7_sequence g chunks : 0 <= g < 16 -> Forall (chunk_ok 6) chunks ->
  contents content7 (sx7_sequence g chunks) = message_of 0 chunks /\ Forall wf_packet (sx7_sequence g chunks).
Proof.
  intros G F. destruct chunks as [|c [|c' rest]]; [split; [reflexivity|constructor]| |];
    inversion_clear F as [|? ? [L U] F'].
  - cbn [sx7_sequence contents message_of]. rewrite content7_packet by (trivial; lia). split; [reflexivity|].
    constructor; [|constructor]. rewrite sx7_pob by assumption. apply pob_wf, sx7_u8; trivial; lia.
  - change (sx7_sequence g (c :: c' :: rest)) with (sx7_packet g 1 c :: sx7_tail g (c' :: rest)).
    cbn [contents]. rewrite content7_packet by (trivial; lia).
    destruct (contents7_tail g (c' :: rest) G F') as [-> W']. split; [reflexivity|]. constructor; [|assumption].
    rewrite sx7_pob by assumption. apply pob_wf, sx7_u8; trivial; lia.
Qed.

Lemma contents8_tail g i rest : 0 <= g < 16 -> is_u8 i -> Forall (chunk_ok 13) rest ->
  contents content8 (sx8_tail g i rest) = message_tail i rest /\ Forall wf_packet (sx8_tail g i rest).
Proof.
  intros G I. induction rest as [|c rest IH]; intros F; [split; [reflexivity|constructor]|].
  inversion_clear F as [|? ? [L U] F'].
  assert (W : forall f, 0 <= f < 4 -> wf_packet (sx8_packet g f i c))
    by (intros; apply pob_wf, sx8_u8; trivial).
  destruct rest as [|c' rest].
  - cbn [sx8_tail contents message_tail]. rewrite content8_packet by (trivial; lia). auto with zarith.
  - change (sx8_tail g i (c :: c' :: rest)) with (sx8_packet g 2 i c :: sx8_tail g i (c' :: rest)).
    cbn [contents]. rewrite content8_packet by (trivial; lia). destruct (IH F') as [-> W'].
    split; [reflexivity|]. constructor; [apply W; lia|assumption].
Qed.

Lemma contents8_first g i f c rest : 0 <= g < 16 -> is_u8 i -> 0 <= f < 4 -> Forall (chunk_ok 13) (c :: rest) ->
  contents content8 (sx8_packet g f i c :: sx8_tail g i rest) = mkCt f i c :: message_tail i rest /\
  Forall wf_packet (sx8_packet g f i c :: sx8_tail g i rest).
Proof.
  intros G I F U. inversion_clear U as [|? ? [L U'] F']. cbn [contents].
  rewrite content8_packet by trivial. destruct (contents8_tail g i rest G I F') as [-> W].
  split; [reflexivity|]. constructor; [|assumption]. apply pob_wf, sx8_u8; trivial.
Qed.

Lemma miscounted_iff id n : valid_id id -> miscounted8 id n <->
  ((n + (if id =? 0 then 0 else if 65536 <=? id then 1 else 3) <= 13) <-> ~ (n + 2 <= 13)).
Proof.
  intros V. unfold miscounted8. destruct (Z.eqb_spec id 0) as [->|NZ]; [lia|].
  assert (0 < id) by (destruct V as [(m & M & ->)|(a & b & A & B & ->)]; unfold is_u7 in *; lia).
  destruct (Z.leb_spec 65536 id); lia.
Qed.

Theorem send8_valid id d i g : valid_id id -> Forall is_u8 d -> is_u8 i -> 0 <= g < 16 ->
  exists c rest, full_chunks 13 (c :: rest) /\ concat (c :: rest) = id_bytes8 id ++ d /\
    Forall (chunk_ok 13) (c :: rest) /\
    (~ miscounted8 id (size d) -> send_sysex8 (mkSx id d) i g = Ok (sx8_sequence g i (c :: rest))) /\
    (miscounted8 id (size d) ->
       (rest <> [] /\ (id = 0 \/ 65536 <= id) /\
        send_sysex8 (mkSx id d) i g = Ok (sx8_packet g 0 i c :: sx8_tail g i rest)) \/
       (rest = [] /\ 0 < id < 65536 /\
        send_sysex8 (mkSx id d) i g = Ok [sx8_packet g 1 i c])).
Proof.
  intros V D I G. destruct (send8_spec id d i g V D I G) as (c & rest & F & C & E).
  exists c, rest. split; [exact F|]. split; [exact C|]. split.
  { apply full_chunks_ok; [lia|exact F|]. rewrite C. apply Forall_app; split; [now apply id_bytes8_u8|assumption]. }
  pose proof (full_chunks_count 13 c rest ltac:(lia) F) as N. rewrite C, app_length, id_bytes8_length in N.
  rewrite E, (miscounted_iff id (size d) V), (total8 id d V). unfold size in *.
  set (t := if id =? 0 then 0 else if 65536 <=? id then 1 else 3).
  assert (T : t = 0 /\ id = 0 \/ t = 1 /\ 65536 <= id \/ t = 3 /\ 0 < id < 65536).
  { unfold t. destruct (Z.eqb_spec id 0); [auto|]. destruct (Z.leb_spec 65536 id); [auto|].
    destruct V as [(m & M & ->)|(a & b & A & B & ->)]; unfold is_u7 in *; lia. }
  clearbody t. destruct (Z.leb_spec (Z.of_nat (length d) + t) 13).
  - split.
    + intros M. assert (R : rest = []) by (apply N; lia). now rewrite R.
    + intros M. left. split; [|split; [lia|reflexivity]]. intros R. apply N in R. lia.
  - split.
    + intros M. destruct rest as [|c' rest]; [|reflexivity]. assert (2 + length d <= 13)%nat by now apply N. lia.
    + intros M. right. assert (R : rest = []) by (apply N; lia). rewrite R. split; [reflexivity|split; [lia|reflexivity]].
Qed.

Lemma decode8_bytes id d : valid_id id -> decode8 (id_bytes8 id ++ d) = mkSx id d.
Proof.
  unfold id_bytes8. intros [(m & M & ->)|(a & b & A & B & ->)]; unfold is_u7 in *.
  - replace (m * 65536 mod 65536 =? 0) with true by dlia. cbn [app decode8 Z.leb Z.compare Z.eqb]. f_equal. dlia.
  - destruct (Z.eqb_spec ((a * 256 + b) mod 65536) 0).
    + assert (a = 0 /\ b = 0) as [-> ->] by dlia. reflexivity.
    + cbn [app decode8]. replace (128 <=? 128 + (a * 256 + b) / 256) with true by dlia. f_equal. dlia.
Qed.

Lemma decode7_bytes id d : valid_id id -> decode7 (id_bytes id ++ d) = mkSx id d.
Proof.
  unfold id_bytes. intros [(m & M & ->)|(a & b & A & B & ->)]; unfold is_u7 in *.
  - replace (65536 <=? m * 65536) with true by lia. cbn [app decode7].
    replace (m * 65536 / 65536 =? 0) with false by dlia. f_equal. dlia.
  - replace (65536 <=? a * 256 + b) with false by lia. cbn [app decode7 Z.eqb]. f_equal. dlia.
Qed.
