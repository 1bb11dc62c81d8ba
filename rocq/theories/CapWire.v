(* Lemmas about MIDI-CI messages given by their layout: which kinds accept them, and what
   the accessors return. *)
From Coq Require Import ZArith List Bool Lia.
From Verif Require Import Base Bits Packet Messages Sysex UniversalSysex SysexSpec SysexProofs CapInq CapSpec CapProofs.
Import ListNotations.
Local Open Scope Z_scope.
Local Open Scope res_scope.

(* ---- positions in a message --------------------------------------------------------------- *)

Definition hdr (dev st ver src dst : Z) : list Z := [dev; 0x0D; st; ver] ++ le7 4 src ++ le7 4 dst.
Lemma hdr_length dev st ver src dst : length (hdr dev st ver src dst) = 12%nat.
Proof. reflexivity. Qed.
Lemma wire_hdr dev st ver src dst body : ci_wire dev st ver src dst body = mkSx 0x7E0000 (hdr dev st ver src dst ++ body).
Proof. reflexivity. Qed.

Lemma wire_size dev st ver src dst body : size (sx_data (ci_wire dev st ver src dst body)) = 12 + size body.
Proof. rewrite wire_hdr. cbn [sx_data]. rewrite size_app'. reflexivity. Qed.

Lemma wire_split dev st ver src dst pre post :
  ci_wire dev st ver src dst (pre ++ post) = mkSx 0x7E0000 ((hdr dev st ver src dst ++ pre) ++ post).
Proof. rewrite wire_hdr. now rewrite app_assoc. Qed.

Lemma pre_length dev st ver src dst pre : length (hdr dev st ver src dst ++ pre) = (12 + length pre)%nat.
Proof. rewrite app_length, hdr_length. reflexivity. Qed.

Lemma wire_at dev st ver src dst pre x post n : n = (12 + length pre)%nat ->
  vec_at (sx_data (ci_wire dev st ver src dst (pre ++ x :: post))) n = Ok x.
Proof.
  intros ->. rewrite wire_split. cbn [sx_data]. rewrite <- (pre_length dev st ver src dst). rewrite vec_at_app0. reflexivity.
Qed.
Lemma wire14 dev st ver src dst pre a b post n : n = (12 + length pre)%nat -> is_u7 a -> is_u7 b ->
  make_uint14 (ci_wire dev st ver src dst (pre ++ a :: b :: post)) n = Ok (val7 [a; b]).
Proof.
  intros -> A B. rewrite wire_split. rewrite <- (pre_length dev st ver src dst). rewrite make14_at, join2 by trivial.
  f_equal. cbn [val7]. lia.
Qed.
Lemma wire28 dev st ver src dst pre a b c d post n : n = (12 + length pre)%nat ->
  is_u7 a -> is_u7 b -> is_u7 c -> is_u7 d ->
  make_uint28 (ci_wire dev st ver src dst (pre ++ a :: b :: c :: d :: post)) n = Ok (val7 [a; b; c; d]).
Proof.
  intros -> A B C D. rewrite wire_split. rewrite <- (pre_length dev st ver src dst). rewrite make28_at, join4 by trivial.
  f_equal. cbn [val7]. lia.
Qed.
Lemma wire14_le dev st ver src dst pre v post n : n = (12 + length pre)%nat -> is_u14 v ->
  make_uint14 (ci_wire dev st ver src dst (pre ++ le7 2 v ++ post)) n = Ok v.
Proof.
  intros -> V. rewrite wire_split. rewrite <- (pre_length dev st ver src dst). unfold is_u14 in V.
  rewrite make14_le7 by lia. f_equal. apply Z.mod_small. lia.
Qed.
Lemma wire28_le dev st ver src dst pre v post n : n = (12 + length pre)%nat -> is_u28 v ->
  make_uint28 (ci_wire dev st ver src dst (pre ++ le7 4 v ++ post)) n = Ok v.
Proof.
  intros -> V. rewrite wire_split. rewrite <- (pre_length dev st ver src dst). unfold is_u28 in V.
  rewrite make28_le7 by lia. f_equal. apply Z.mod_small. lia.
Qed.
Lemma wire_bytes dev st ver src dst pre block post n len : n = (12 + length pre)%nat -> len = length block ->
  bytes_at (ci_wire dev st ver src dst (pre ++ block ++ post)) n len = Ok block.
Proof.
  intros -> ->. rewrite bytes_total.
  - rewrite wire_split. cbn [sx_data]. rewrite <- (pre_length dev st ver src dst).
    rewrite skipn_app, skipn_all, Nat.sub_diag. cbn [app skipn].
    rewrite firstn_app, firstn_all, Nat.sub_diag. cbn [firstn]. now rewrite app_nil_r.
  - rewrite wire_size. autorewrite with sizes. pose proof (size_pos post). unfold size. lia.
Qed.
Lemma wire_identity dev st ver src dst i m0 m1 m2 post : identity_in_range i m0 m1 m2 ->
  make_device_identity (ci_wire dev st ver src dst (identity_bytes m0 m1 m2 (di_family i) (di_model i) (di_revision i) ++ post)) 12
  = Ok i.
Proof.
  intros (A & B & C & D & E & F & G). rewrite wire_hdr. change 12%nat with (length (hdr dev st ver src dst)).
  rewrite make_identity_at by trivial. destruct i. cbn in *. now rewrite D.
Qed.

Lemma wire_common dev st ver src dst body : is_u28 src -> is_u28 dst ->
  common_fields (ci_wire dev st ver src dst body) dev st ver src dst.
Proof.
  intros S D. unfold common_fields, is_capability_inquiry_message, view_device_id, view_type, view_subtype,
    message_version, source_muid, destination_muid.
  rewrite type_of_eq, subtype_of_eq, device_of_eq, !wire_size. pose proof (size_pos body).
  replace (12 <=? 12 + size body) with true by (symmetry; apply Z.leb_le; lia).
  replace (2 <? 12 + size body) with true by (symmetry; apply Z.ltb_lt; lia).
  repeat apply conj; try reflexivity.
  - change (ci_wire dev st ver src dst body) with (mkSx 0x7E0000 ([dev; 13; st; ver] ++ le7 4 src ++ (le7 4 dst ++ body))).
    change 4%nat with (length [dev; 13; st; ver]) at 2. unfold is_u28 in S. rewrite make28_le7 by lia. f_equal. apply Z.mod_small. lia.
  - replace (ci_wire dev st ver src dst body) with (mkSx 0x7E0000 (([dev; 13; st; ver] ++ le7 4 src) ++ le7 4 dst ++ body))
      by (unfold ci_wire; now rewrite <- !app_assoc).
    change 8%nat with (length ([dev; 13; st; ver] ++ le7 4 src)). unfold is_u28 in D.
    rewrite make28_le7 by lia. f_equal. apply Z.mod_small. lia.
Qed.

(* ---- every accepted message has the layout -------------------------------------------------- *)

Lemma shape s st : sx_id s = 0x7E0000 -> 12 <= size (sx_data s) ->
  vec_at (sx_data s) 1 = Ok 0x0D -> vec_at (sx_data s) 2 = Ok st -> all7 (sx_data s) ->
  exists dev ver src dst body, s = ci_wire dev st ver src dst body /\ all7 body.
Proof.
  intros I L A B S. destruct s as [id d]. cbn [sx_id sx_data] in *. subst id.
  do 12 (destruct d as [|? d]; [exfalso; repeat rewrite size_cons in L; rewrite size_nil in L; lia|]).
  cbn in A, B. injection A as ->. injection B as ->.
  do 4 (apply Forall_inv_tail in S as S'; clear S; rename S' into S).
  do 8 (match type of S with Forall _ (?x :: _) => pose proof (Forall_inv S) end; apply Forall_inv_tail in S as S'; clear S; rename S' into S).
  exists z, z2, (z3 + 128 * z4 + 16384 * z5 + 2097152 * z6), (z7 + 128 * z8 + 16384 * z9 + 2097152 * z10), d.
  split; trivial. unfold ci_wire. rewrite !le7_4_of by trivial. reflexivity.
Qed.

Lemma split_at {A} (l : list A) n : Z.of_nat n <= size l -> exists a b, l = a ++ b /\ length a = n.
Proof.
  intros H. exists (firstn n l), (skipn n l). split; [now rewrite firstn_skipn|].
  rewrite firstn_length. unfold size in H. lia.
Qed.
Lemma two_heads (l : list Z) : 2 <= size l -> exists a b t, l = a :: b :: t.
Proof.
  intros H. destruct l as [|a [|b t]]; try (repeat rewrite size_cons in H; rewrite size_nil in H; lia). eauto.
Qed.
Lemma four_heads (l : list Z) : 4 <= size l -> exists a b c d t, l = a :: b :: c :: d :: t.
Proof.
  intros H. destruct l as [|a [|b [|c [|d t]]]]; try (repeat rewrite size_cons in H; rewrite size_nil in H; lia). eauto 6.
Qed.

Lemma app_inj_1 {A} (a b c d : list A) : length a = length c -> a ++ b = c ++ d -> a = c /\ b = d.
Proof.
  revert c. induction a as [|x a IH]; intros [|y c] L E; cbn in *; try discriminate L; auto.
  injection E as -> E. injection L as L. destruct (IH c L E) as [-> ->]. auto.
Qed.

Lemma ok_inj {A} (a b : A) : Ok a = Ok b -> a = b.
Proof. now injection 1. Qed.

Section Wire.
  Variables (dev st ver src dst : Z) (body : list Z).
  Hypothesis B7 : all7 body.
  Let s := ci_wire dev st ver src dst body.

  Lemma s_size : size (sx_data s) = 12 + size body.
  Proof. apply wire_size. Qed.

  Lemma tail_wire st0 : and_res (at_is s 1 0x0D) (at_is s 2 st0) = Ok (st =? st0).
  Proof. reflexivity. Qed.

  Lemma plain_wire n st0 : 12 <= n ->
    plain_validate n st0 s = Ok true <-> st = st0 /\ n - 12 <= size body.
  Proof.
    intros N. unfold plain_validate. rewrite tail_wire, s_size.
    change (sx_id s =? universal_non_realtime) with true. cbn [and_].
    destruct (Z.leb_spec n (12 + size body)); cbn [and_]; destruct (Z.eqb_spec st st0); split; intros H'; try discriminate; try lia; auto with zarith.
  Qed.
  Lemma range_wire n lo hi : 12 <= n ->
    range_validate n lo hi s = Ok true <-> lo <= st <= hi /\ n - 12 <= size body.
  Proof.
    intros N. unfold range_validate. rewrite s_size.
    change (sx_id s =? universal_non_realtime) with true. cbn [and_].
    change (and_res _ _) with (Ok ((lo <=? st) && (st <=? hi))).
    destruct (Z.leb_spec n (12 + size body)); cbn [and_];
    destruct (Z.leb_spec lo st), (Z.leb_spec st hi); cbn [andb]; split; intros H'; try discriminate; try lia; trivial.
  Qed.
  Lemma typed_wire n st0 : 12 <= n ->
    typed_validate n st0 s = Ok true <-> st = st0 /\ n - 12 <= size body.
  Proof.
    intros N. unfold typed_validate.
    replace (universal_sysex_type_of s) with (@Ok Z 0x7E0D) by (now rewrite type_of_eq).
    replace (universal_sysex_subtype_of s) with (Ok st) by (now rewrite subtype_of_eq).
    cbn [bind]. change (0x7E0D =? 0x7E0D) with true. cbn [and_]. rewrite s_size.
    destruct (Z.eqb_spec st st0); cbn [and_]; split; intros H'; try discriminate; try lia.
    - apply ok_inj in H'. apply Z.leb_le in H'. split; [trivial|lia].
    - f_equal. apply Z.leb_le. lia.
  Qed.

  Lemma all7_app_inv a b : all7 (a ++ b) -> all7 a /\ all7 b.
  Proof. unfold all7. rewrite Forall_app. auto. Qed.

  Lemma counted_wire f st0 n pos : n = 14 + Z.of_nat f -> pos = (12 + f)%nat ->
    counted_validate n pos st0 s = Ok true <->
    st = st0 /\ exists fixed l0 l1 block rest, length fixed = f /\ counted fixed [l0; l1] 1 body block rest.
  Proof.
    intros -> ->. unfold counted_validate. rewrite tail_wire, s_size.
    change (sx_id s =? universal_non_realtime) with true. cbn [and_].
    destruct (Z.leb_spec (14 + Z.of_nat f) (12 + size body)) as [L|L]; cbn [and_].
    - destruct (split_at body f) as (fixed & r & E & F); [lia|].
      destruct (two_heads r) as (a & b & t & ->).
      { rewrite E, size_app' in L. unfold size in L at 1. lia. }
      pose proof B7 as B. rewrite E in B. apply all7_app_inv in B. destruct B as [_ B].
      pose proof (Forall_inv B) as Ha. pose proof (Forall_inv (Forall_inv_tail B)) as Hb.
      unfold s. rewrite E. rewrite wire14 by (trivial; lia). cbn [bind].
      assert (V : 0 <= val7 [a; b]) by (cbn [val7]; unfold is_u7 in *; lia).
      destruct (Z.leb_spec (14 + Z.of_nat f + val7 [a; b]) (12 + size (fixed ++ a :: b :: t))) as [M|M]; cbn [and_].
      + rewrite !size_app', !size_cons in M. unfold size in M at 1. rewrite F in M.
        split.
        * intros H. split; [destruct (Z.eqb_spec st st0); [trivial|discriminate]|].
          destruct (split_at t (Z.to_nat (val7 [a; b]))) as (blk & rest & -> & G); [lia|].
          exists fixed, a, b, blk, rest. split; trivial. split; [reflexivity|]. unfold size. rewrite G. lia.
        * intros [-> _]. now rewrite Z.eqb_refl.
      + split; [discriminate|]. intros (_ & fixed' & l0 & l1 & blk & rest & F' & C & Z').
        exfalso. assert (X : fixed = fixed' /\ a :: b :: t = l0 :: l1 :: blk ++ rest).
        { apply app_inj_1; [lia|]. exact C. }
        destruct X as [-> X]. injection X as -> -> ->.
        rewrite !size_app', !size_cons, size_app' in M. pose proof (size_pos rest). unfold size in M at 1. rewrite F' in M. lia.
    - split; [discriminate|]. intros (_ & fixed' & l0 & l1 & blk & rest & F' & C & Z'). exfalso.
      rewrite C in L. autorewrite with sizes in L. pose proof (size_pos rest). pose proof (size_pos blk). unfold size in L at 1. lia.
  Qed.

  Lemma discovery_wire d st0 : 0 <= d ->
    and_ (sx_id s =? universal_non_realtime)
      (v <- vec_at (sx_data s) 3 ;;
       and_ (28 + (if 1 <? v then d else 0) <=? size (sx_data s)) (and_res (at_is s 1 0x0D) (at_is s 2 st0)))
    = Ok true <-> st = st0 /\ 16 + (if 1 <? ver then d else 0) <= size body.
  Proof.
    intros D. rewrite tail_wire, s_size. change (sx_id s =? universal_non_realtime) with true.
    change (vec_at (sx_data s) 3) with (Ok ver). cbn [and_ bind].
    destruct (Z.leb_spec (28 + (if 1 <? ver then d else 0)) (12 + size body)); cbn [and_];
    destruct (Z.eqb_spec st st0); split; intros H'; try discriminate; try lia; trivial.
  Qed.

  Lemma specific_wire :
    profile_specific_data_validate s = Ok true <->
    st = 0x2F /\ exists fixed l0 l1 l2 l3 data rest, length fixed = 5%nat /\ counted fixed [l0; l1; l2; l3] 1 body data rest.
  Proof.
    unfold profile_specific_data_validate. rewrite tail_wire, s_size.
    change (sx_id s =? universal_non_realtime) with true. cbn [and_].
    destruct (Z.leb_spec 21 (12 + size body)) as [L|L]; cbn [and_].
    - destruct (split_at body 5) as (fixed & r & E & F); [lia|].
      destruct (four_heads r) as (a & b & c & d & t & ->).
      { rewrite E, size_app' in L. unfold size in L at 1. rewrite F in L. lia. }
      pose proof B7 as B. rewrite E in B. apply all7_app_inv in B. destruct B as [_ B].
      pose proof (Forall_inv B) as Ha. apply Forall_inv_tail in B. pose proof (Forall_inv B) as Hb.
      apply Forall_inv_tail in B. pose proof (Forall_inv B) as Hc. apply Forall_inv_tail in B. pose proof (Forall_inv B) as Hd.
      unfold s. rewrite E. rewrite wire28 by (trivial; lia). cbn [bind].
      assert (V : 0 <= val7 [a; b; c; d]) by (cbn [val7]; unfold is_u7 in *; lia).
      destruct (Z.leb_spec (21 + val7 [a; b; c; d]) (12 + size (fixed ++ a :: b :: c :: d :: t))) as [M|M]; cbn [and_].
      + rewrite !size_app', !size_cons in M. unfold size in M at 1. rewrite F in M.
        split.
        * intros H. split; [destruct (Z.eqb_spec st 0x2F); [trivial|discriminate]|].
          destruct (split_at t (Z.to_nat (val7 [a; b; c; d]))) as (blk & rest & -> & G); [lia|].
          exists fixed, a, b, c, d, blk, rest. split; trivial. split; [reflexivity|]. unfold size. rewrite G. lia.
        * intros [-> _]. now rewrite Z.eqb_refl.
      + split; [discriminate|]. intros (_ & fixed' & l0 & l1 & l2 & l3 & blk & rest & F' & C & Z').
        exfalso. assert (X : fixed = fixed' /\ a :: b :: c :: d :: t = l0 :: l1 :: l2 :: l3 :: blk ++ rest).
        { apply app_inj_1; [lia|]. exact C. }
        destruct X as [-> X]. injection X as -> -> -> -> ->.
        rewrite !size_app', !size_cons, size_app' in M. pose proof (size_pos rest). unfold size in M at 1. rewrite F' in M. lia.
    - split; [discriminate|]. intros (_ & fixed' & l0 & l1 & l2 & l3 & blk & rest & F' & C & Z'). exfalso.
      rewrite C in L. autorewrite with sizes in L. pose proof (size_pos rest). pose proof (size_pos blk). unfold size in L at 1. lia.
  Qed.

  Lemma inquiry_reply_wire :
    profile_inquiry_reply_validate s = Ok true <->
    st = 0x21 /\ body_ok KProfileInquiryReply ver body.
  Proof.
    unfold profile_inquiry_reply_validate. rewrite tail_wire, s_size.
    change (sx_id s =? universal_non_realtime) with true. cbn [and_].
    destruct (Z.leb_spec 16 (12 + size body)) as [L|L]; cbn [and_ bind].
    2: { split; [discriminate|]. intros (_ & e0 & e1 & d0 & d1 & en & di & r1 & r2 & (C1 & _) & (C2 & _)). exfalso.
         rewrite C1, C2 in L. cbn [app] in L. autorewrite with sizes in L.
         pose proof (size_pos en). pose proof (size_pos di). pose proof (size_pos r2). lia. }
    destruct (Z.eqb_spec st 0x21) as [->|N]; cbn [bind].
    2: { split; [discriminate|]. intros [? _]. contradiction. }
    destruct (two_heads body) as (a & b & t & E); [lia|].
    pose proof B7 as B. rewrite E in B. pose proof (Forall_inv B) as Ha. apply Forall_inv_tail in B.
    pose proof (Forall_inv B) as Hb. apply Forall_inv_tail in B.
    unfold s. rewrite E. rewrite (wire14 _ _ _ _ _ [] a b t) by trivial. cbn [bind].
    assert (V : 0 <= val7 [a; b]) by (cbn [val7]; unfold is_u7 in *; lia).
    set (n := val7 [a; b]) in *.
    destruct (Z.leb_spec (16 + n * 5) (12 + size (a :: b :: t))) as [M|M].
    - rewrite !size_cons in M.
      destruct (split_at t (Z.to_nat (n * 5))) as (en & r & -> & G); [lia|].
      destruct (two_heads r) as (c & d & t' & ->). { rewrite size_app' in M. unfold size in M at 1. lia. }
      apply all7_app_inv in B. destruct B as [_ B].
      pose proof (Forall_inv B) as Hc. apply Forall_inv_tail in B. pose proof (Forall_inv B) as Hd.
      change (a :: b :: en ++ c :: d :: t') with ((a :: b :: en) ++ c :: d :: t').
      rewrite wire14 by (trivial; cbn [length]; lia). cbn [bind].
      assert (W : 0 <= val7 [c; d]) by (cbn [val7]; unfold is_u7 in *; lia).
      autorewrite with sizes. split.
      + intros H. apply ok_inj in H. apply Z.leb_le in H. split; trivial. unfold size in H at 1. 
        destruct (split_at t' (Z.to_nat (5 * val7 [c; d]))) as (di & rest & -> & G'); [lia|].
        exists a, b, c, d, en, di, (c :: d :: di ++ rest), rest. unfold counted. cbn [app]. repeat apply conj; trivial.
        * unfold size. fold n. lia.
        * unfold size. lia.
      + intros (_ & e0 & e1 & d0 & d1 & en' & di & r1 & r2 & (C1 & S1) & (C2 & S2)). f_equal. apply Z.leb_le.
        cbn [app] in C1, C2. injection C1 as <- <- C1. fold n in S1.
        apply app_inj_1 in C1; [|unfold size in S1; lia]. destruct C1 as [<- C1]. rewrite C2 in C1. injection C1 as <- <- C1.
        rewrite C1. rewrite size_app'. pose proof (size_pos r2). lia.
    - split; [discriminate|].
      intros (_ & e0 & e1 & d0 & d1 & en' & di & r1 & r2 & (C1 & S1) & (C2 & S2)). exfalso.
      cbn [app] in C1, C2. injection C1 as <- <- C1. fold n in S1. rewrite C1, C2 in M. autorewrite with sizes in M.
      pose proof (size_pos di). pose proof (size_pos r2). lia.
  Qed.

  Definition property_body : Prop := body_ok KPropertyData ver body.

  Lemma property_wire :
    property_data_validate s = Ok true <-> In st (subtypes KPropertyData) /\ property_body.
  Proof.
    assert (T : In st (subtypes KPropertyData) <-> 0x34 <= st <= 0x39 \/ st = 0x3F).
    { cbn [subtypes In]. lia. }
    rewrite T. clear T. split.
    - intros H. apply property_size in H.
      destruct H as (_ & _ & st' & h & n & t & c & E0 & S & E1 & H1 & E2 & H2 & E3 & H3 & E4 & H4 & L & P1 & P2 & P3).
      cbn in E0. injection E0 as <-. split; trivial.
      rewrite s_size in L.
      destruct (split_at body 1) as (rq & b1 & E & F); [lia|]. destruct rq as [|rq [|]]; try discriminate F. clear F.
      destruct (two_heads b1) as (h0 & h1 & b2 & ->). { rewrite E in L. autorewrite with sizes in L. lia. }
      pose proof B7 as B. rewrite E in B. cbn [app] in B. apply Forall_inv_tail in B.
      pose proof (Forall_inv B) as Q0. apply Forall_inv_tail in B. pose proof (Forall_inv B) as Q1. apply Forall_inv_tail in B.
      unfold s in E1. rewrite E in E1. rewrite wire14 in E1 by trivial. apply ok_inj in E1. subst h.
      rewrite E in L. autorewrite with sizes in L. set (h := val7 [h0; h1]) in *.
      destruct (split_at b2 (Z.to_nat h)) as (header & b3 & -> & G); [lia|].
      apply all7_app_inv in B. destruct B as [_ B]. rewrite size_app' in L. unfold size in L at 1. rewrite G in L.
      destruct (four_heads b3) as (n0 & n1 & t0 & t1 & b4 & ->); [lia|]. autorewrite with sizes in L.
      destruct (two_heads b4) as (c0 & c1 & b5 & ->); [lia|].
      unfold all7 in B. do 6 (match type of B with Forall _ (?x :: _) => pose proof (Forall_inv B) end; apply Forall_inv_tail in B as B'; clear B; rename B' into B).
      unfold s in E2, E3, E4. rewrite E in E2, E3, E4.
      replace ([rq] ++ h0 :: h1 :: header ++ n0 :: n1 :: t0 :: t1 :: c0 :: c1 :: b5)
        with ((rq :: h0 :: h1 :: header) ++ n0 :: n1 :: t0 :: t1 :: c0 :: c1 :: b5) in E2 by reflexivity.
      rewrite wire14 in E2 by (trivial; cbn [length]; lia). apply ok_inj in E2. subst n.
      replace ([rq] ++ h0 :: h1 :: header ++ n0 :: n1 :: t0 :: t1 :: c0 :: c1 :: b5)
        with (((rq :: h0 :: h1 :: header) ++ [n0; n1]) ++ t0 :: t1 :: c0 :: c1 :: b5) in E3 by (now rewrite <- app_assoc).
      rewrite wire14 in E3 by (trivial; rewrite app_length; cbn [length]; lia). apply ok_inj in E3. subst t.
      replace ([rq] ++ h0 :: h1 :: header ++ n0 :: n1 :: t0 :: t1 :: c0 :: c1 :: b5)
        with (((rq :: h0 :: h1 :: header) ++ [n0; n1; t0; t1]) ++ c0 :: c1 :: b5) in E4 by (now rewrite <- app_assoc).
      rewrite wire14 in E4 by (trivial; rewrite app_length; cbn [length]; lia). apply ok_inj in E4. subst c.
      autorewrite with sizes in L.
      destruct (split_at b5 (Z.to_nat (val7 [c0; c1]))) as (chunk & rest & -> & G'); [lia|].
      exists rq, h0, h1, header, n0, n1, t0, t1, c0, c1, chunk, (n0 :: n1 :: t0 :: t1 :: c0 :: c1 :: chunk ++ rest), rest.
      unfold counted. fold h. repeat apply conj; trivial; unfold size; lia.
    - intros [S (rq & h0 & h1 & header & n0 & n1 & t0 & t1 & c0 & c1 & chunk & r1 & r2 & (C1 & S1) & (C2 & S2) & P1 & P2 & P3)].
      unfold property_data_validate. rewrite s_size. change (sx_id s =? universal_non_realtime) with true. cbn [negb].
      assert (E : body = [rq; h0; h1] ++ header ++ [n0; n1; t0; t1; c0; c1] ++ chunk ++ r2).
      { rewrite C1, C2. reflexivity. }
      pose proof B7 as B. rewrite E in B. apply all7_app_inv in B. destruct B as [Ba B]. apply all7_app_inv in B. destruct B as [_ B].
      apply all7_app_inv in B. destruct B as [B _].
      apply Forall_inv_tail in Ba. pose proof (Forall_inv Ba) as Q0. pose proof (Forall_inv (Forall_inv_tail Ba)) as Q1.
      unfold all7 in B. do 6 (match type of B with Forall _ (?x :: _) => pose proof (Forall_inv B) end; apply Forall_inv_tail in B as B'; clear B; rename B' into B).
      assert (V : 0 <= val7 [h0; h1]) by (cbn [val7]; unfold is_u7 in *; lia).
      assert (V0 : 0 <= val7 [n0; n1]) by (cbn [val7]; unfold is_u7 in *; lia).
      assert (V1 : 0 <= val7 [t0; t1]) by (cbn [val7]; unfold is_u7 in *; lia).
      assert (V2 : 0 <= val7 [c0; c1]) by (cbn [val7]; unfold is_u7 in *; lia).
      assert (Sz : size body = 9 + val7 [h0; h1] + val7 [c0; c1] + size r2).
      { rewrite E. autorewrite with sizes. lia. }
      pose proof (size_pos r2).
      destruct (Z.ltb_spec (12 + size body) 21); [lia|].
      change (vec_at (sx_data s) 1) with (Ok 0x0D). cbn [bind]. change (0x0D =? 0x0D) with true. cbn [negb].
      change (vec_at (sx_data s) 2) with (Ok st). cbn [bind].
      destruct (Z.ltb_spec st 0x34); [lia|].
      replace ((st <=? 0x39) || (st =? 0x3F)) with true
        by (symmetry; apply orb_true_iff; rewrite Z.leb_le, Z.eqb_eq; lia).
      assert (Lh : length header = Z.to_nat (val7 [h0; h1])) by (unfold size in S1; lia).
      assert (R1 : make_uint14 s 13 = Ok (val7 [h0; h1])).
      { unfold s. rewrite E. apply (wire14 dev st ver src dst [rq] h0 h1); trivial. }
      set (h := val7 [h0; h1]) in *.
      assert (R2 : make_uint14 s (15 + Z.to_nat h) = Ok (val7 [n0; n1])).
      { unfold s. rewrite E, app_assoc. apply (wire14 dev st ver src dst ([rq; h0; h1] ++ header) n0 n1); trivial.
        rewrite app_length. cbn [length]. lia. }
      assert (R3 : make_uint14 s (17 + Z.to_nat h) = Ok (val7 [t0; t1])).
      { unfold s. replace body with (([rq; h0; h1] ++ header ++ [n0; n1]) ++ t0 :: t1 :: c0 :: c1 :: chunk ++ r2)
          by (rewrite E; now rewrite <- !app_assoc).
        apply wire14; trivial. rewrite !app_length. cbn [length]. lia. }
      assert (R4 : make_uint14 s (19 + Z.to_nat h) = Ok (val7 [c0; c1])).
      { unfold s. replace body with (([rq; h0; h1] ++ header ++ [n0; n1; t0; t1]) ++ c0 :: c1 :: chunk ++ r2)
          by (rewrite E; now rewrite <- !app_assoc).
        apply wire14; trivial. rewrite !app_length. cbn [length]. lia. }
      rewrite R1. cbn [bind]. destruct (Z.ltb_spec (12 + size body) (15 + h + 6)); [lia|].
      rewrite R2. cbn [bind]. rewrite R3. cbn [bind]. rewrite R4. cbn [bind].
      set (n := val7 [n0; n1]) in *. set (t := val7 [t0; t1]) in *. set (c := val7 [c0; c1]) in *.
      destruct (Z.eqb_spec n 0), (Z.ltb_spec n t); cbn [negb andb]; try lia;
      destruct (Z.eqb_spec h 0), (Z.ltb_spec 1 t); cbn [negb andb]; try lia;
      destruct (Z.eqb_spec c 0), (Z.ltb_spec t 1); cbn [negb andb]; try lia;
      f_equal; apply Z.leb_le; lia.
  Qed.

  Lemma property_among_wire l k : incl l (subtypes KPropertyData) ->
    subtypes k = l -> body_ok k = body_ok KPropertyData ->
    and_res (property_data_validate s) (subtype_among l s) = Ok true <-> In st (subtypes k) /\ body_ok k ver body.
  Proof.
    intros I -> ->. rewrite and_res_ok, property_wire. unfold subtype_among.
    change (vec_at (sx_data s) 2) with (Ok st). cbn [bind].
    split.
    - intros [[_ P] H]. split; trivial. apply ok_inj in H. apply existsb_exists in H. destruct H as (x & X & Y).
      apply Z.eqb_eq in Y. now subst.
    - intros [J P]. split; [split; auto|]. f_equal. apply existsb_exists. exists st. split; trivial. apply Z.eqb_refl.
  Qed.

  Lemma validate_wire k : validate_of k s = Ok true <-> In st (subtypes k) /\ body_ok k ver body.
  Proof.
    assert (O : forall x, In st [x] <-> st = x) by (intros; cbn [In]; split; [intros [->|[]]; trivial|auto]).
    destruct k; cbn [validate_of].
    all: try (rewrite property_wire; reflexivity).
    all: try (apply property_among_wire; [intros x; cbn [subtypes In]; tauto|reflexivity|reflexivity]).
    - unfold discovery_inquiry_validate. rewrite discovery_wire by lia. cbn [subtypes body_ok]. rewrite O. unfold at_least.
      destruct (1 <? ver); lia.
    - unfold discovery_reply_validate. rewrite discovery_wire by lia. cbn [subtypes body_ok]. rewrite O. unfold at_least.
      destruct (1 <? ver); lia.
    - unfold endpoint_inquiry_validate. rewrite plain_wire by lia. cbn [subtypes body_ok]. rewrite O. unfold at_least. lia.
    - unfold endpoint_reply_validate. rewrite (counted_wire 1) by reflexivity. cbn [subtypes body_ok]. rewrite O.
      split; intros [-> H]; (split; [trivial|]).
      + destruct H as (fx & l0 & l1 & b & r & F & C). destruct fx as [|x [|]]; try discriminate F. eauto 10.
      + destruct H as (x & l0 & l1 & b & r & C). exists [x]. eauto 10.
    - unfold ack_validate. rewrite (counted_wire 8) by reflexivity. cbn [subtypes body_ok]. rewrite O. reflexivity.
    - unfold nak_validate. rewrite and_res_ok, (counted_wire 8) by reflexivity. cbn [subtypes body_ok]. rewrite O.
      change (vec_at (sx_data s) 3) with (Ok ver). cbn [bind].
      destruct (Z.leb_spec 2 ver); split.
      + intros [[-> H'] _]. auto.
      + intros (-> & _ & H'). auto.
      + intros [_ X]. discriminate X.
      + intros (_ & X & _). lia.
    - unfold invalidate_muid_validate. rewrite typed_wire by lia. cbn [subtypes body_ok]. rewrite O. unfold at_least. lia.
    - unfold profile_inquiry_validate. rewrite typed_wire by lia. cbn [subtypes body_ok]. rewrite O.
      pose proof (size_pos body). split; intros [? ?]; split; trivial; lia.
    - rewrite inquiry_reply_wire. cbn [subtypes]. rewrite O. reflexivity.
    - unfold profile_id_validate. rewrite range_wire by lia. cbn [subtypes body_ok In]. unfold at_least. lia.
    - unfold profile_destination_validate. rewrite range_wire by lia. cbn [subtypes body_ok In]. unfold at_least. lia.
    - unfold details_inquiry_validate. rewrite plain_wire by lia. cbn [subtypes body_ok]. rewrite O. unfold at_least. lia.
    - unfold details_reply_validate. rewrite (counted_wire 6) by reflexivity. cbn [subtypes body_ok]. rewrite O. reflexivity.
    - rewrite specific_wire. cbn [subtypes body_ok]. rewrite O. reflexivity.
    - unfold pe_capabilities_validate. rewrite and_res_ok, range_wire by lia. change (vec_at (sx_data s) 3) with (Ok ver). cbn [bind].
      rewrite s_size. cbn [subtypes body_ok In]. unfold at_least.
      destruct (Z.ltb_spec ver 2), (Z.ltb_spec 1 ver); try lia; cbn [orb].
      + split; [intros [? _]; lia|]. intros [? ?]. split; trivial. lia.
      + split.
        * intros [A X]. apply ok_inj in X. apply Z.leb_le in X. lia.
        * intros [A X]. split; [lia|]. f_equal. apply Z.leb_le. lia.
    - unfold process_capabilities_reply_validate. rewrite plain_wire by lia. cbn [subtypes body_ok]. rewrite O. unfold at_least. lia.
    - unfold report_inquiry_validate. rewrite plain_wire by lia. cbn [subtypes body_ok]. rewrite O. unfold at_least. lia.
    - unfold report_reply_validate. rewrite plain_wire by lia. cbn [subtypes body_ok]. rewrite O. unfold at_least. lia.
  Qed.

  Lemma validate_wire_total k : exists b, validate_of k s = Ok b.
  Proof.
    destruct (reads_version_first k) eqn:E.
    - destruct (validate_of k s) as [b|f] eqn:V; [eauto|]. exfalso.
      destruct (discovery_fault k s E) as [X _]. destruct X as [_ X]; [eauto|]. rewrite s_size in X. pose proof (size_pos body). lia.
    - now apply validate_total.
  Qed.

  Lemma accepted_wire ks :
    (forall k, In k ks <-> In st (subtypes k) /\ body_ok k ver body) -> accepted_as s ks.
  Proof.
    intros H k. destruct (validate_wire_total k) as [b V]. rewrite V. f_equal.
    assert (Q : forall a b, kind_eqb a b = true <-> a = b).
    { intros x y. split; [destruct x, y; cbn; intros; congruence|intros ->; now destruct y]. }
    assert (X : existsb (kind_eqb k) ks = true <-> In k ks).
    { rewrite existsb_exists. split.
      - intros (x & I & E). apply Q in E. now subst.
      - intros I. exists k. split; trivial. now apply Q. }
    rewrite H, <- validate_wire, V in X. destruct b, (existsb _ _); trivial.
    - symmetry. now apply X.
    - assert (@Ok bool false = Ok true) by now apply X. discriminate.
  Qed.
End Wire.

Lemma u7_is_u8 x : is_u7 x -> is_u8 x.
Proof. unfold is_u7, is_u8. lia. Qed.

Lemma accepted_subtype k s : validate_of k s = Ok true -> Forall is_u8 (sx_data s) ->
  sx_id s = 0x7E0000 /\ 12 <= size (sx_data s) /\ vec_at (sx_data s) 1 = Ok 0x0D /\ exists st, vec_at (sx_data s) 2 = Ok st.
Proof.
  intros H A7. pose proof (accepted_size _ _ H) as L.
  assert (G : sx_id s = 0x7E0000 /\ vec_at (sx_data s) 1 = Ok 0x0D).
  { destruct k; cbn [validate_of] in H.
    all: try (apply plain_size in H; tauto).
    all: try (apply counted_size in H; destruct H as (? & ? & ? & ? & ? & ? & ?); tauto).
    all: try (apply range_size in H; tauto).
    all: try (apply and_res_ok in H; destruct H as [H _]).
    all: try (apply property_size in H; tauto).
    - apply discovery_size in H. tauto.
    - apply discovery_size in H. tauto.
    - apply counted_size in H; destruct H as (? & ? & ? & ? & ? & ? & ?); tauto.
    - apply typed_size in H. destruct H as (_ & H & _). rewrite type_of_eq in H. apply ok_inj in H.
      revert H A7. destruct (sx_data s) as [|a [|b t]]; try discriminate.
      intros H A7. pose proof (Forall_inv (Forall_inv_tail A7)) as Hb. unfold is_u8 in Hb.
      destruct (Z.eqb_spec (sx_id s) 0x7F0000) as [E|E].
      + cbn [orb] in H. rewrite E, type_7F in H by (unfold is_u8; lia). lia.
      + destruct (Z.eqb_spec (sx_id s) 0x7E0000) as [E'|E']; cbn [orb] in H; [|discriminate].
        rewrite E', type_7E in H by (unfold is_u8; lia). split; trivial. cbn. f_equal. lia.
    - apply typed_size in H. destruct H as (_ & H & _). rewrite type_of_eq in H. apply ok_inj in H.
      revert H A7. destruct (sx_data s) as [|a [|b t]]; try discriminate.
      intros H A7. pose proof (Forall_inv (Forall_inv_tail A7)) as Hb. unfold is_u8 in Hb.
      destruct (Z.eqb_spec (sx_id s) 0x7F0000) as [E|E].
      + cbn [orb] in H. rewrite E, type_7F in H by (unfold is_u8; lia). lia.
      + destruct (Z.eqb_spec (sx_id s) 0x7E0000) as [E'|E']; cbn [orb] in H; [|discriminate].
        rewrite E', type_7E in H by (unfold is_u8; lia). split; trivial. cbn. f_equal. lia.
    - apply (plain_size 16 0x21) in H. tauto.
    - apply specific_size in H. destruct H as (? & ? & ? & ? & ?). tauto.
    - apply range_size in H. tauto. }
  destruct G as [G1 G2]. repeat split; trivial. apply vec_total. lia.
Qed.

Lemma validate_iff k s : all7 (sx_data s) -> (validate_of k s = Ok true <-> well_formed k s).
Proof.
  intros A7. split.
  - intros H. destruct (accepted_subtype k s H (Forall_impl _ u7_is_u8 A7)) as (I & L & E1 & st & E2).
    destruct (shape s st I L E1 E2 A7) as (dev & ver & src & dst & body & -> & B).
    apply validate_wire in H; trivial. destruct H as [H1 H2].
    exists dev, st, ver, src, dst, body. auto.
  - intros (dev & st & ver & src & dst & body & -> & H). apply validate_wire; trivial.
    rewrite wire_hdr in A7. cbn [sx_data] in A7. unfold all7 in A7. apply Forall_app in A7. apply A7.
Qed.

(* as<view>() *)
Lemma as_view_ok dbg k s b : Forall is_u8 (sx_data s) -> validate_of k s = Ok b ->
  as_view dbg (validate_of k) s = Ok (if b then Some s else None).
Proof.
  intros U H. unfold as_view. rewrite H. cbn [bind]. destruct b; [|reflexivity].
  destruct (accepted_subtype k s H U) as (I & L & E & _).
  unfold ci_view, message_view. rewrite I. rewrite !check_true; [|apply Z.leb_le; lia|reflexivity]. cbn [bind].
  assert (V : ci_validate s = Ok true).
  { unfold ci_validate, is_capability_inquiry_message, at_is. rewrite I, E. cbn [bind].
    replace (12 <=? size (sx_data s)) with true by (symmetry; apply Z.leb_le; lia). reflexivity. }
  rewrite V. destruct dbg; reflexivity.
Qed.
