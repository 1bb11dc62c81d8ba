(* Lemmas about MIDI-CI messages: layout, validation, accessors. *)
From Coq Require Import ZArith List Bool Lia.
From Verif Require Import Base Bits Packet Messages Sysex UniversalSysex SysexSpec SysexProofs CapInq CapSpec.
Import ListNotations.
Local Open Scope Z_scope.
Local Open Scope res_scope.

(* ---- reading ------------------------------------------------------------------------ *)

Lemma make14_total s n : Z.of_nat n + 1 < size (sx_data s) ->
  exists v, make_uint14 s n = Ok v /\ 0 <= v < 65536.
Proof.
  intros H. unfold size in H.
  destruct (vec_at_some (sx_data s) n) as (a & A & _); [lia|].
  destruct (vec_at_some (sx_data s) (n + 1)) as (b & B & _); [lia|].
  unfold make_uint14, assert_, size. replace (_ <? _) with true by (symmetry; apply Z.ltb_lt; lia).
  cbn [bind]. rewrite A. cbn [bind]. rewrite B. cbn [bind]. eexists. split; [reflexivity|].
  unfold u16. apply Z.mod_pos_bound. lia.
Qed.
Lemma make28_total s n : Z.of_nat n + 3 < size (sx_data s) ->
  exists v, make_uint28 s n = Ok v /\ 0 <= v < 4294967296.
Proof.
  intros H. unfold size in H.
  destruct (vec_at_some (sx_data s) n) as (a & A & _); [lia|].
  destruct (vec_at_some (sx_data s) (n + 1)) as (b & B & _); [lia|].
  destruct (vec_at_some (sx_data s) (n + 2)) as (c & C & _); [lia|].
  destruct (vec_at_some (sx_data s) (n + 3)) as (d & D & _); [lia|].
  unfold make_uint28, assert_, size. replace (_ <? _) with true by (symmetry; apply Z.ltb_lt; lia).
  cbn [bind]. rewrite A. cbn [bind]. rewrite B. cbn [bind]. rewrite C. cbn [bind]. rewrite D. cbn [bind].
  eexists. split; [reflexivity|]. unfold u32. apply Z.mod_pos_bound. lia.
Qed.
Lemma vec_total (s : sysex) n : Z.of_nat n < size (sx_data s) -> exists v, vec_at (sx_data s) n = Ok v.
Proof.
  intros H. unfold size in H. destruct (vec_at_some (sx_data s) n) as (a & A & _); [lia|eauto].
Qed.
Lemma bytes_total s off len : Z.of_nat off + Z.of_nat len <= size (sx_data s) ->
  bytes_at s off len = Ok (firstn len (skipn off (sx_data s))).
Proof. intros H. unfold bytes_at. apply Z.leb_le in H. now rewrite H. Qed.
Lemma identity_total s n : Z.of_nat n + 10 < size (sx_data s) -> reads (make_device_identity s n).
Proof.
  intros H. unfold make_device_identity, assert_.
  replace (_ <? _) with true by (symmetry; apply Z.ltb_lt; lia). cbn [bind].
  destruct (vec_total s n) as (a & A); [lia|].
  destruct (vec_total s (n + 1)) as (b & B); [lia|].
  destruct (vec_total s (n + 2)) as (c & C); [lia|].
  destruct (make14_total s (n + 3)) as (d & D & _); [lia|].
  destruct (make14_total s (n + 5)) as (e & E & _); [lia|].
  destruct (make28_total s (n + 7)) as (f & F & _); [lia|].
  rewrite A; cbn [bind]; rewrite B; cbn [bind]; rewrite C; cbn [bind]; rewrite D; cbn [bind];
  rewrite E; cbn [bind]; rewrite F; cbn [bind]. eexists. reflexivity.
Qed.

(* steps through a computation that reads inside of the message; [lia] must know the size *)
Ltac rstep :=
  match goal with
  | |- context [bind (vec_at (sx_data ?s) ?n) _] =>
      let v := fresh "v" in let E := fresh "E" in
      destruct (vec_total s n) as (v & E); [lia|rewrite E; cbn [bind]]
  | |- context [bind (make_uint14 ?s ?n) _] =>
      let v := fresh "v" in let E := fresh "E" in let B := fresh "B" in
      destruct (make14_total s n) as (v & E & B); [lia|rewrite E; cbn [bind]]
  | |- context [bind (make_uint28 ?s ?n) _] =>
      let v := fresh "v" in let E := fresh "E" in let B := fresh "B" in
      destruct (make28_total s n) as (v & E & B); [lia|rewrite E; cbn [bind]]
  end.

Lemma reads_vec s n : Z.of_nat n < size (sx_data s) -> reads (vec_at (sx_data s) n).
Proof. apply vec_total. Qed.
Lemma reads_14 s n : Z.of_nat n + 1 < size (sx_data s) -> reads (make_uint14 s n).
Proof. intros H. destruct (make14_total s n H) as (v & E & _). now exists v. Qed.
Lemma reads_28 s n : Z.of_nat n + 3 < size (sx_data s) -> reads (make_uint28 s n).
Proof. intros H. destruct (make28_total s n H) as (v & E & _). now exists v. Qed.
Lemma reads_ok {A} (a : A) : reads (Ok a).
Proof. now exists a. Qed.
Lemma reads_bytes s off len : Z.of_nat off + Z.of_nat len <= size (sx_data s) -> reads (bytes_at s off len).
Proof. intros H. rewrite bytes_total by trivial. apply reads_ok. Qed.

(* ---- the code of validation, as facts ---------------------------------------------------- *)

Lemma and_ok a b : and_ a b = Ok true <-> a = true /\ b = Ok true.
Proof. destruct a; cbn; split; try intros [? ?]; try split; try congruence; auto. Qed.

Lemma and_res_ok a b : and_res a b = Ok true <-> a = Ok true /\ b = Ok true.
Proof.
  destruct a as [[]|]; cbn; split; try intros [? ?]; try split; try congruence; auto.
Qed.
Lemma at_is_ok s i v : at_is s i v = Ok true <-> vec_at (sx_data s) i = Ok v.
Proof.
  unfold at_is. destruct (vec_at (sx_data s) i) as [x|]; cbn [bind]; split; try congruence.
  - intros H. f_equal. destruct (Z.eqb_spec x v); congruence.
  - intros H. injection H as ->. now rewrite Z.eqb_refl.
Qed.
Lemma at_is_total s i v : Z.of_nat i < size (sx_data s) -> exists b, at_is s i v = Ok b.
Proof. intros H. unfold at_is. rstep. eauto. Qed.
Lemma and_res_total a b : (exists x, a = Ok x) -> (exists x, b = Ok x) -> exists x, and_res a b = Ok x.
Proof. intros [x ->] [y ->]. unfold and_res. cbn [bind]. destruct x; cbn; eauto. Qed.

Lemma tail_total s n m : 2 < size (sx_data s) -> exists b, and_res (at_is s 1 n) (at_is s 2 m) = Ok b.
Proof. intros H. apply and_res_total; apply at_is_total; lia. Qed.

Ltac cases_le :=
  match goal with
  | |- exists _, and_ (?a <=? ?b) _ = _ => destruct (Z.leb_spec a b); cbn [and_]; [|eauto]
  | |- exists _, and_ ?b _ = _ => destruct b eqn:?; cbn [and_]; [|eauto]
  end.

Lemma plain_total n st s : 3 <= n -> exists b, plain_validate n st s = Ok b.
Proof. intros N. unfold plain_validate. repeat cases_le. apply tail_total. lia. Qed.
Lemma counted_total n pos st s : 3 <= n -> Z.of_nat pos + 1 < n -> exists b, counted_validate n pos st s = Ok b.
Proof.
  intros N P. unfold counted_validate. do 2 cases_le. rstep. cases_le. apply tail_total. lia.
Qed.
Lemma typed_total n st s : exists b, typed_validate n st s = Ok b.
Proof.
  unfold typed_validate. rewrite type_of_eq, subtype_of_eq. cbn [bind]. repeat cases_le. eauto.
Qed.
Lemma range_total n lo hi s : 3 <= n -> exists b, range_validate n lo hi s = Ok b.
Proof.
  intros N. unfold range_validate. repeat cases_le. apply and_res_total; [apply at_is_total; lia|].
  rstep. eauto.
Qed.
Lemma specific_total s : exists b, profile_specific_data_validate s = Ok b.
Proof. unfold profile_specific_data_validate. do 2 cases_le. rstep. cases_le. apply tail_total. lia. Qed.
Lemma pe_caps_total s : exists b, pe_capabilities_validate s = Ok b.
Proof.
  unfold pe_capabilities_validate, and_res. destruct (range_total 13 0x30 0x31 s) as (b & E); [lia|].
  rewrite E. cbn [bind]. destruct b; cbn [and_]; [|eauto].
  assert (13 <= size (sx_data s)).
  { revert E. unfold range_validate, and_. destruct (_ =? _); [|discriminate].
    destruct (Z.leb_spec 13 (size (sx_data s))); [lia|discriminate]. }
  rstep. eauto.
Qed.
Lemma inquiry_reply_total s : exists b, profile_inquiry_reply_validate s = Ok b.
Proof.
  unfold profile_inquiry_reply_validate.
  destruct (plain_total 16 0x21 s) as (c & E); [lia|]. unfold plain_validate in E. rewrite E. cbn [bind].
  destruct c; [|eauto].
  assert (16 <= size (sx_data s)).
  { revert E. unfold and_ at 1. destruct (_ =? _); [|discriminate]. unfold and_.
    destruct (Z.leb_spec 16 (size (sx_data s))); [lia|discriminate]. }
  rstep. destruct (Z.leb_spec (16 + v * 5) (size (sx_data s))); [|eauto]. rstep. eauto.
Qed.
Lemma property_total s : exists b, property_data_validate s = Ok b.
Proof.
  unfold property_data_validate. destruct (negb _); [eauto|].
  destruct (Z.ltb_spec (size (sx_data s)) 21); [eauto|]. rstep.
  destruct (negb _); [eauto|]. rstep. destruct (v0 <? 0x34); [eauto|]. destruct (_ || _); [|eauto].
  rstep. destruct (Z.ltb_spec (size (sx_data s)) (15 + v1 + 6)); [eauto|]. do 3 rstep.
  destruct (_ && _); [eauto|]. destruct (_ && _); [eauto|]. destruct (_ && _); eauto.
Qed.
Lemma property_among_total l s : exists b, and_res (property_data_validate s) (subtype_among l s) = Ok b.
Proof.
  destruct (property_total s) as (b & E). unfold and_res. rewrite E. cbn [bind].
  destruct b; cbn [and_]; [|eauto]. unfold subtype_among.
  assert (21 <= size (sx_data s)).
  { revert E. unfold property_data_validate. destruct (negb _); [discriminate|].
    destruct (Z.ltb_spec (size (sx_data s)) 21); [discriminate|lia]. }
  rstep. eauto.
Qed.
Lemma nak_total s : exists b, nak_validate s = Ok b.
Proof.
  unfold nak_validate, and_res. destruct (counted_total 22 20 0x7F s) as (b & E); [lia..|].
  rewrite E. cbn [bind]. destruct b; cbn [and_]; [|eauto].
  assert (22 <= size (sx_data s)).
  { revert E. unfold counted_validate, and_. destruct (_ =? _); [|discriminate].
    destruct (Z.leb_spec 22 (size (sx_data s))); [lia|discriminate]. }
  rstep. eauto.
Qed.

Lemma validate_total k s : reads_version_first k = false -> exists b, validate_of k s = Ok b.
Proof.
  destruct k; intros H; try discriminate H; cbn [validate_of].
  all: try (apply plain_total; lia). all: try (apply counted_total; lia).
  all: try apply typed_total. all: try (apply range_total; lia).
  all: try apply nak_total. all: try apply inquiry_reply_total. all: try apply specific_total.
  all: try apply pe_caps_total. all: try apply property_total. all: apply property_among_total.
Qed.

Lemma vec_at_None {A} (l : list A) i : (length l <= i)%nat -> vec_at l i = Fault OutOfBounds.
Proof. intros H. unfold vec_at. apply nth_error_None in H. now rewrite H. Qed.

Lemma discovery_fault k s : reads_version_first k = true ->
  (exists f, validate_of k s = Fault f) <-> sx_id s = 0x7E0000 /\ size (sx_data s) < 4.
Proof.
  intros K.
  assert (G : forall d st, 0 <= d ->
    let r := and_ (sx_id s =? universal_non_realtime)
      (v <- vec_at (sx_data s) 3 ;;
       and_ (28 + (if 1 <? v then d else 0) <=? size (sx_data s)) (and_res (at_is s 1 0x0D) (at_is s 2 st))) in
    (exists f, r = Fault f) <-> sx_id s = 0x7E0000 /\ size (sx_data s) < 4).
  { intros d st D. cbv zeta. unfold universal_non_realtime. destruct (Z.eqb_spec (sx_id s) 0x7E0000) as [I|I]; cbn [and_].
    2: { split; [intros [f X]; discriminate X|intros [X _]; contradiction]. }
    destruct (Z.le_gt_cases 4 (size (sx_data s))) as [L|L].
    - split; [|lia]. intros [f X]. exfalso. revert X. rstep.
      destruct (Z.leb_spec (28 + (if 1 <? v then d else 0)) (size (sx_data s))); cbn [and_]; [|discriminate].
      destruct (tail_total s 0x0D st) as (b & E'); [destruct (1 <? v); lia|]. rewrite E'. discriminate.
    - split; [auto|]. intros _. rewrite vec_at_None by (unfold size in L; lia). cbn [bind]. eauto. }
  destruct k; try discriminate K; cbn [validate_of]; [apply (G 1)|apply (G 2)]; lia.
Qed.

(* ---- accepted messages are safe to read --------------------------------------------------- *)

Lemma plain_size n st s : plain_validate n st s = Ok true ->
  sx_id s = 0x7E0000 /\ n <= size (sx_data s) /\ vec_at (sx_data s) 1 = Ok 0x0D /\ vec_at (sx_data s) 2 = Ok st.
Proof.
  unfold plain_validate. rewrite !and_ok, and_res_ok, !at_is_ok. intros (A & B & C & D).
  apply Z.eqb_eq in A. apply Z.leb_le in B. auto.
Qed.
Lemma counted_size n pos st s : counted_validate n pos st s = Ok true ->
  exists len, make_uint14 s pos = Ok len /\ n + len <= size (sx_data s) /\ n <= size (sx_data s) /\
    sx_id s = 0x7E0000 /\ vec_at (sx_data s) 1 = Ok 0x0D /\ vec_at (sx_data s) 2 = Ok st.
Proof.
  unfold counted_validate. rewrite !and_ok. intros (A & B & C).
  destruct (make_uint14 s pos) as [len|]; cbn [bind] in C; [|discriminate].
  rewrite and_ok, and_res_ok, !at_is_ok in C. destruct C as (C & D & E).
  apply Z.eqb_eq in A. apply Z.leb_le in B, C. exists len. auto 10.
Qed.
Lemma typed_size n st s : typed_validate n st s = Ok true ->
  n <= size (sx_data s) /\ universal_sysex_type_of s = Ok 0x7E0D /\ universal_sysex_subtype_of s = Ok st.
Proof.
  unfold typed_validate. destruct (universal_sysex_type_of s) as [t|]; cbn [bind]; [|discriminate].
  rewrite and_ok. intros [A B]. destruct (universal_sysex_subtype_of s) as [u|]; cbn [bind] in B; [|discriminate].
  rewrite and_ok in B. destruct B as [B C]. apply Z.eqb_eq in A, B. injection C as C. apply Z.leb_le in C.
  subst. auto.
Qed.
Lemma range_size n lo hi s : range_validate n lo hi s = Ok true ->
  sx_id s = 0x7E0000 /\ n <= size (sx_data s) /\ vec_at (sx_data s) 1 = Ok 0x0D /\
  exists st, vec_at (sx_data s) 2 = Ok st /\ lo <= st <= hi.
Proof.
  unfold range_validate. rewrite !and_ok, and_res_ok, at_is_ok. intros (A & B & C & D).
  destruct (vec_at (sx_data s) 2) as [st|]; cbn [bind] in D; [|discriminate].
  injection D as D. apply andb_true_iff in D. destruct D as [D E].
  apply Z.eqb_eq in A. apply Z.leb_le in B, D, E. eauto 10.
Qed.
Lemma discovery_size d st s :
  and_ (sx_id s =? universal_non_realtime)
      (v <- vec_at (sx_data s) 3 ;;
       and_ (28 + (if 1 <? v then d else 0) <=? size (sx_data s)) (and_res (at_is s 1 0x0D) (at_is s 2 st)))
  = Ok true ->
  sx_id s = 0x7E0000 /\ vec_at (sx_data s) 1 = Ok 0x0D /\ vec_at (sx_data s) 2 = Ok st /\
  exists v, vec_at (sx_data s) 3 = Ok v /\ 28 + (if 1 <? v then d else 0) <= size (sx_data s).
Proof.
  rewrite and_ok. intros [A B]. destruct (vec_at (sx_data s) 3) as [v|]; cbn [bind] in B; [|discriminate].
  rewrite and_ok, and_res_ok, !at_is_ok in B. destruct B as (B & C & D).
  apply Z.eqb_eq in A. apply Z.leb_le in B. eauto 10.
Qed.
Lemma specific_size s : profile_specific_data_validate s = Ok true ->
  exists len, make_uint28 s 17 = Ok len /\ 0 <= len /\ 21 + len <= size (sx_data s) /\
    sx_id s = 0x7E0000 /\ vec_at (sx_data s) 1 = Ok 0x0D /\ vec_at (sx_data s) 2 = Ok 0x2F.
Proof.
  unfold profile_specific_data_validate. rewrite !and_ok. intros (A & B & C). apply Z.leb_le in B.
  destruct (make28_total s 17) as (len & E & P); [lia|]. rewrite E in C. cbn [bind] in C.
  rewrite and_ok, and_res_ok, !at_is_ok in C. destruct C as (C & D & F).
  apply Z.eqb_eq in A. apply Z.leb_le in C. exists len. repeat split; trivial; lia.
Qed.
Lemma inquiry_reply_size s : profile_inquiry_reply_validate s = Ok true ->
  exists n m, make_uint14 s 12 = Ok n /\ 0 <= n /\ make_uint14 s (Z.to_nat (14 + n * 5)) = Ok m /\ 0 <= m /\
    16 + n * 5 + m * 5 <= size (sx_data s) /\
    sx_id s = 0x7E0000 /\ vec_at (sx_data s) 1 = Ok 0x0D /\ vec_at (sx_data s) 2 = Ok 0x21.
Proof.
  unfold profile_inquiry_reply_validate. change (and_ (sx_id s =? universal_non_realtime) _) with (plain_validate 16 0x21 s).
  destruct (plain_validate 16 0x21 s) as [[]|] eqn:E; cbn [bind]; try discriminate.
  apply plain_size in E. destruct E as (A & B & C & D).
  rstep. destruct (Z.leb_spec (16 + v * 5) (size (sx_data s))); [|discriminate].
  replace (16 + v * 5 - 2) with (14 + v * 5) by lia.
  destruct (make14_total s (Z.to_nat (14 + v * 5))) as (m & M & P); [lia|]. rewrite M. cbn [bind].
  intros H'. injection H' as H'. apply Z.leb_le in H'. exists v, m. repeat split; trivial; lia.
Qed.
Lemma property_size s : property_data_validate s = Ok true ->
  sx_id s = 0x7E0000 /\ vec_at (sx_data s) 1 = Ok 0x0D /\
  exists st h n t c, vec_at (sx_data s) 2 = Ok st /\ (0x34 <= st <= 0x39 \/ st = 0x3F) /\
    make_uint14 s 13 = Ok h /\ 0 <= h /\ make_uint14 s (15 + Z.to_nat h) = Ok n /\ 0 <= n /\
    make_uint14 s (17 + Z.to_nat h) = Ok t /\ 0 <= t /\ make_uint14 s (19 + Z.to_nat h) = Ok c /\ 0 <= c /\
    21 + h + c <= size (sx_data s) /\
    (n = 0 \/ t <= n) /\ (h = 0 \/ t <= 1) /\ (c = 0 \/ 1 <= t).
Proof.
  unfold property_data_validate, universal_non_realtime. destruct (Z.eqb_spec (sx_id s) 0x7E0000) as [I|]; cbn [negb]; [|discriminate].
  destruct (Z.ltb_spec (size (sx_data s)) 21) as [|S1]; [discriminate|].
  destruct (vec_total s 1) as (b1 & E1); [lia|]. rewrite E1. cbn [bind].
  destruct (Z.eqb_spec b1 0x0D); cbn [negb]; [|discriminate].
  destruct (vec_total s 2) as (st & E2); [lia|]. rewrite E2. cbn [bind].
  destruct (Z.ltb_spec st 0x34); [discriminate|]. destruct (_ || _) eqn:R; [|discriminate].
  apply orb_true_iff in R. rewrite Z.leb_le, Z.eqb_eq in R.
  destruct (make14_total s 13) as (h & E3 & H3); [lia|]. rewrite E3. cbn [bind].
  destruct (Z.ltb_spec (size (sx_data s)) (15 + h + 6)) as [|S2]; [discriminate|].
  destruct (make14_total s (15 + Z.to_nat h)) as (n & E4 & H4); [lia|].
  destruct (make14_total s (17 + Z.to_nat h)) as (t & E5 & H5); [lia|].
  destruct (make14_total s (19 + Z.to_nat h)) as (c & E6 & H6); [lia|].
  rewrite E4. cbn [bind]. rewrite E5. cbn [bind]. rewrite E6. cbn [bind].
  destruct (Z.eqb_spec n 0), (Z.ltb_spec n t); cbn [negb andb]; try discriminate;
  destruct (Z.eqb_spec h 0), (Z.ltb_spec 1 t); cbn [negb andb]; try discriminate;
  destruct (Z.eqb_spec c 0), (Z.ltb_spec t 1); cbn [negb andb]; try discriminate;
  intros F; injection F as F; apply Z.leb_le in F; (split; [trivial|]); (split; [congruence|]);
  exists st, h, n, t, c; repeat split; trivial; lia.
Qed.

Lemma common_safe s : 12 <= size (sx_data s) -> common_accessors s.
Proof.
  intros H. unfold common_accessors, view_device_id, view_type, view_subtype, message_version, source_muid, destination_muid.
  repeat apply conj; try (apply reads_vec; lia); try (apply reads_28; lia).
  - rstep. apply reads_ok.
  - replace (2 <? size (sx_data s)) with true by (symmetry; apply Z.ltb_lt; lia). apply reads_vec. lia.
Qed.

Lemma read_profiles_total s n off : Z.of_nat off + 5 * Z.of_nat n <= size (sx_data s) ->
  reads (read_profiles s n off).
Proof.
  revert off. induction n as [|n IH]; intros off H; cbn [read_profiles]; [apply reads_ok|].
  do 5 rstep. destruct (IH (off + 5)%nat) as [r R]; [lia|]. rewrite R. cbn [bind]. apply reads_ok.
Qed.
Lemma make_profiles_total dbg s pos n : 0 <= pos -> make_uint14 s (Z.to_nat pos) = Ok n -> 0 <= n ->
  pos + 2 + n * 5 <= size (sx_data s) -> reads (make_profiles dbg s pos).
Proof.
  intros P E N H. unfold make_profiles. rewrite check_true by (apply Z.ltb_lt; lia). cbn [bind].
  rewrite E. cbn [bind]. rewrite check_true by (apply Z.ltb_lt; lia). cbn [bind].
  apply read_profiles_total. lia.
Qed.

(* with assertions nothing is read outside of a message, validated or not *)
Lemma make_uint14_checked s pos : make_uint14 s pos = Fault AssertFail \/ exists n, make_uint14 s pos = Ok n /\ 0 <= n.
Proof.
  unfold make_uint14, assert_. destruct (Z.ltb_spec (Z.of_nat pos + 1) (size (sx_data s))) as [H|H]; [|now left].
  right. cbn [bind]. destruct (vec_at_some (sx_data s) pos) as (a & -> & _); [unfold size in *; lia|]. cbn [bind].
  destruct (vec_at_some (sx_data s) (pos + 1)) as (b & -> & _); [unfold size in *; lia|]. cbn [bind]. eexists. split; [reflexivity|].
  unfold u16. apply Z.mod_pos_bound. lia.
Qed.
Lemma make_profiles_checked s pos : 0 <= pos ->
  make_profiles true s pos = Fault AssertFail \/ reads (make_profiles true s pos).
Proof.
  intros P. unfold make_profiles, check, assert_. destruct (pos + 1 <? size (sx_data s)); [|now left]. cbn [bind].
  destruct (make_uint14_checked s (Z.to_nat pos)) as [->|(n & -> & N)]; [now left|]. cbn [bind].
  destruct (Z.ltb_spec (pos + 1 + n * 5) (size (sx_data s))); [|now left]. cbn [bind]. right.
  apply read_profiles_total. lia.
Qed.
Lemma profiles_checked s :
  (enabled_profiles true s = Fault AssertFail \/ reads (enabled_profiles true s)) /\
  (disabled_profiles true s = Fault AssertFail \/ reads (disabled_profiles true s)).
Proof.
  split; [apply make_profiles_checked; lia|]. unfold disabled_profiles, offset_of_disabled_profiles.
  destruct (make_uint14_checked s 12) as [->|(n & -> & N)]; [now left|]. cbn [bind]. apply make_profiles_checked. lia.
Qed.

Lemma accepted_size k s : validate_of k s = Ok true -> 12 <= size (sx_data s).
Proof.
  destruct k; cbn [validate_of]; intros H.
  all: try (apply plain_size in H; lia).
  all: try (apply counted_size in H; destruct H as (? & ? & ? & ? & _); lia).
  all: try (apply typed_size in H; lia).
  all: try (apply range_size in H; lia).
  - apply discovery_size in H. destruct H as (_ & _ & _ & v & _ & H). destruct (1 <? v); lia.
  - apply discovery_size in H. destruct H as (_ & _ & _ & v & _ & H). destruct (1 <? v); lia.
  - unfold nak_validate in H. apply and_res_ok in H. destruct H as [H _].
    apply counted_size in H; destruct H as (? & ? & ? & ? & _); lia.
  - apply inquiry_reply_size in H. destruct H as (n & m & _ & ? & _ & ? & ? & _). lia.
  - apply specific_size in H. destruct H as (? & _ & ? & ? & _). lia.
  - unfold pe_capabilities_validate in H. apply and_res_ok in H. destruct H as [H _]. apply range_size in H. lia.
  - apply property_size in H. destruct H as (_ & _ & st & h & n & t & c & H). lia.
  - apply and_res_ok in H. destruct H as [H _]. apply property_size in H. destruct H as (_ & _ & st & h & n & t & c & H). lia.
  - apply and_res_ok in H. destruct H as [H _]. apply property_size in H. destruct H as (_ & _ & st & h & n & t & c & H). lia.
  - apply and_res_ok in H. destruct H as [H _]. apply property_size in H. destruct H as (_ & _ & st & h & n & t & c & H). lia.
  - apply and_res_ok in H. destruct H as [H _]. apply property_size in H. destruct H as (_ & _ & st & h & n & t & c & H). lia.
Qed.

Lemma property_safe s : property_data_validate s = Ok true -> property_accessors s.
Proof.
  intros H. apply property_size in H.
  destruct H as (_ & _ & st & h & n & t & c & _ & _ & E1 & H1 & E2 & H2 & E3 & H3 & E4 & H4 & L & _).
  unfold property_accessors, request_id, header_data, number_of_chunks, number_of_this_chunk, chunk_data, chunk_size, header_size.
  rewrite E1. cbn [bind]. rewrite E2, E3, E4. cbn [bind].
  repeat apply conj; try apply reads_ok; try (apply reads_vec; lia); apply reads_bytes; lia.
Qed.

Lemma nack_safe s st : counted_validate 22 20 st s = Ok true -> accessors true KAck s.
Proof.
  intros H. apply counted_size in H. destruct H as (len & E & L & M & _).
  pose proof (make14_total s 20) as P. destruct P as (v & E' & B); [lia|]. rewrite E in E'. injection E' as <-.
  cbn [accessors]. unfold nack_transaction, nack_status_code, nack_status_data, nack_details, nack_message, nack_message_length.
  rewrite E. cbn [bind]. repeat apply conj; try apply reads_ok; try (apply reads_vec; lia); apply reads_bytes; lia.
Qed.

Lemma accepted_safe dbg k s : validate_of k s = Ok true -> common_accessors s /\ accessors dbg k s.
Proof.
  intros H. split; [apply common_safe; eapply accepted_size; eauto|].
  destruct k; cbn [validate_of] in H; cbn [accessors].
  - apply discovery_size in H. destruct H as (_ & _ & _ & v & E & H).
    unfold discovery_identity, discovery_categories, discovery_maximum_message_size, discovery_output_path_id, message_version.
    rewrite E. cbn [bind]. destruct (Z.ltb_spec 1 v), (Z.leb_spec 2 v); try lia;
    repeat apply conj; try apply reads_ok; try (apply identity_total; lia); try (apply reads_vec; lia); apply reads_28; lia.
  - apply discovery_size in H. destruct H as (_ & _ & _ & v & E & H).
    unfold discovery_identity, discovery_categories, discovery_maximum_message_size, discovery_output_path_id,
      discovery_function_block, message_version.
    rewrite E. cbn [bind]. destruct (Z.ltb_spec 1 v), (Z.leb_spec 2 v); try lia;
    repeat apply conj; try apply reads_ok; try (apply identity_total; lia); try (apply reads_vec; lia); apply reads_28; lia.
  - apply plain_size in H. apply reads_vec. lia.
  - apply counted_size in H. destruct H as (len & E & L & M & _).
    destruct (make14_total s 13) as (v & E' & B); [lia|]. rewrite E in E'. injection E' as <-.
    unfold endpoint_reply_status, information_data, information_data_length. rewrite E. cbn [bind].
    repeat apply conj; try apply reads_ok; try (apply reads_vec; lia); apply reads_bytes; lia.
  - eapply nack_safe; eauto.
  - apply and_res_ok in H. destruct H as [H _]. eapply nack_safe; eauto.
  - apply typed_size in H. apply reads_28. lia.
  - trivial.
  - apply inquiry_reply_size in H. destruct H as (n & m & E1 & H1 & E2 & H2 & L & _).
    unfold has_enabled_profiles, has_disabled_profiles, num_enabled_profiles, num_disabled_profiles, enabled_profiles,
      disabled_profiles, offset_of_disabled_profiles. rewrite E1. cbn [bind]. rewrite E2. cbn [bind].
    repeat apply conj; try apply reads_ok.
    + do 2 rstep. apply reads_ok.
    + do 2 rstep. apply reads_ok.
    + eapply make_profiles_total; eauto; lia.
    + eapply make_profiles_total; eauto; lia.
  - apply range_size in H. unfold view_profile. do 5 rstep. apply reads_ok.
  - apply range_size in H. unfold view_destination, view_profile, view_num_channels, view_device_id. repeat apply conj.
    + do 5 rstep. apply reads_ok.
    + apply reads_14. lia.
    + do 2 rstep. apply reads_ok.
  - apply plain_size in H. unfold view_profile. split; [do 5 rstep; apply reads_ok|apply reads_vec; lia].
  - apply counted_size in H. destruct H as (len & E & L & M & _).
    destruct (make14_total s 18) as (v & E' & B); [lia|]. rewrite E in E'. injection E' as <-.
    unfold view_profile, details_reply_target, target_data, target_data_length. rewrite E. cbn [bind].
    repeat apply conj; try apply reads_ok; try (apply reads_vec; lia); try (apply reads_bytes; lia).
    do 5 rstep. apply reads_ok.
  - apply specific_size in H. destruct H as (len & E & P & L & _). unfold view_profile, specific_data, specific_data_size.
    rewrite E. cbn [bind]. repeat apply conj; [do 5 rstep; apply reads_ok|apply reads_ok|apply reads_bytes; lia].
  - unfold pe_capabilities_validate in H. apply and_res_ok in H. destruct H as [H G]. apply range_size in H.
    destruct H as (_ & S & _). unfold maximum_number_of_requests, pe_version_major, pe_version_minor, message_version.
    destruct (vec_total s 3) as (v & E); [lia|]. rewrite E in G |- *. cbn [bind] in G |- *. injection G as G.
    apply orb_true_iff in G. rewrite Z.ltb_lt, Z.leb_le in G.
    destruct (Z.leb_spec 2 v); repeat apply conj; try apply reads_ok; apply reads_vec; lia.
  - now apply property_safe.
  - apply and_res_ok in H. now apply property_safe.
  - apply and_res_ok in H. now apply property_safe.
  - apply and_res_ok in H. now apply property_safe.
  - apply and_res_ok in H. now apply property_safe.
  - apply plain_size in H. apply reads_vec. lia.
  - apply plain_size in H. repeat apply conj; apply reads_vec; lia.
  - apply plain_size in H. repeat apply conj; apply reads_vec; lia.
Qed.
