(* Lemmas about reading MIDI-CI messages that were made by the library. *)
From Coq Require Import ZArith List Bool Lia.
From Verif Require Import Base Bits Packet Messages Sysex UniversalSysex SysexSpec SysexProofs CapInq CapSpec CapProofs CapWire CapCalls CapMake.
Import ListNotations.
Local Open Scope Z_scope.
Local Open Scope res_scope.

(* ---- arguments ------------------------------------------------------------------------------- *)

Lemma u7_u8 l : all7 l -> Forall is_u8 l.
Proof. apply Forall_impl. unfold is_u7, is_u8. lia. Qed.
Lemma u14_u16 l : Forall is_u14 l -> Forall is_u16 l.
Proof. apply Forall_impl. unfold is_u14, is_u16. lia. Qed.
Lemma u28_u32 l : Forall is_u28 l -> Forall is_u32 l.
Proof. apply Forall_impl. unfold is_u28, is_u32. lia. Qed.

Lemma fits_typed i : identity_fits i ->
  is_u32 (di_manufacturer i) /\ is_u16 (di_family i) /\ is_u16 (di_model i) /\ is_u32 (di_revision i).
Proof.
  intros (a & b & c & A & B & C & E & F & G & H). rewrite E.
  unfold is_u7, is_u14, is_u28, is_u16, is_u32 in *. lia.
Qed.

Lemma in_range_typed c : in_range c -> typed c.
Proof.
  intros (A & B & C & D & E & F & G & _). unfold typed. repeat apply conj.
  - now apply u7_u8.
  - now apply u14_u16.
  - now apply u28_u32.
  - destruct (identity_of c); trivial. now apply fits_typed.
  - destruct c; cbn [profile_counts]; trivial. cbn [sizes14] in E. rewrite !Forall_cons_iff in E. lia.
Qed.

Lemma size_mod n m k : 0 < m -> 0 <= k -> 0 <= n -> n < k -> n mod m < k.
Proof. intros. pose proof (Z.mod_le n m). lia. Qed.

Lemma sizes_mod m k l : 0 < m -> 0 <= k -> Forall (fun n => 0 <= n) l -> Forall (fun n => n < k) l ->
  Forall (fun n => n mod m < k) l.
Proof.
  intros M K A B. induction l; constructor; [|apply IHl; eauto using Forall_inv_tail].
  apply size_mod; trivial; [exact (Forall_inv A)|exact (Forall_inv B)].
Qed.
Lemma sizes_pos c : Forall (fun n => 0 <= n) (sizes14 c ++ sizes28 c).
Proof. destruct c; cbn [sizes14 sizes28 app]; rewrite ?Forall_cons_iff; repeat apply conj; try apply size_pos; constructor. Qed.

Lemma in_range_checked c : in_range c -> checked c.
Proof.
  intros (A & B & C & D & E & F & G & _). unfold checked. unfold all7 in *. rewrite Forall_app in *.
  pose proof (sizes_pos c) as P. rewrite Forall_app in P.
  repeat apply conj; intros; try tauto.
  - apply sizes_mod; tauto || lia.
  - apply sizes_mod; tauto || lia.
Qed.

(* ---- the bytes are 7-bit ----------------------------------------------------------------------- *)

Lemma all7_cons x l : all7 (x :: l) <-> is_u7 x /\ all7 l.
Proof. apply Forall_cons_iff. Qed.
Lemma all7_app_iff a b : all7 (a ++ b) <-> all7 a /\ all7 b.
Proof. apply Forall_app. Qed.
Lemma all7_nil : all7 [] <-> True.
Proof. split; constructor. Qed.
Lemma all7_le7 n v : all7 (le7 n v) <-> True.
Proof. split; [constructor|intros _; apply le7_all7]. Qed.
Lemma mod_u7 v : is_u7 (v mod 128).
Proof. unfold is_u7. apply Z.mod_pos_bound. lia. Qed.
Lemma identity_wire_all7 i : all7 (identity_wire i) <-> True.
Proof. split; [constructor|]. intros _. apply identity_bytes_all7; apply mod_u7. Qed.
Lemma profiles_wire_all7 l : all7 (profiles_wire l) <-> True.
Proof.
  split; [constructor|]. intros _. unfold profiles_wire. apply all7_app; [apply le7_all7|].
  induction l as [|p l IH]; [constructor|]. cbn [map concat]. apply all7_app; trivial.
  unfold profile_bytes. cbn [map]. rewrite !all7_cons, all7_nil. repeat apply conj; trivial; apply mod_u7.
Qed.
Lemma num_u7 v : 0 <= v -> v < 128 -> is_u7 v <-> True.
Proof. unfold is_u7. tauto. Qed.

Lemma wire_all7 dev st ver src dst p : all7 (sx_data (ci_wire dev st ver src dst p)) <->
  is_u7 dev /\ is_u7 st /\ is_u7 ver /\ all7 p.
Proof.
  unfold ci_wire. cbn [sx_data]. rewrite !all7_app_iff, !all7_cons, all7_nil, !all7_le7.
  rewrite (num_u7 13) by lia. tauto.
Qed.

Ltac n7 := repeat match goal with
  | |- context [is_u7 (Zpos ?p)] => rewrite (num_u7 (Zpos p)) by lia
  | |- context [is_u7 0] => rewrite (num_u7 0) by lia
  end.
Lemma seven_bit c : all7 (sx_data (wire_of c)) <-> all7 (raw_bytes c).
Proof.
  unfold wire_of. destruct c; cbn [header_of payload_of raw_bytes]; rewrite wire_all7; unfold profile_bytes, whole_device;
    n7; cbn [app]; repeat (rewrite ?all7_app_iff, ?all7_cons, ?all7_nil, ?all7_le7, ?identity_wire_all7, ?profiles_wire_all7);
    n7; tauto.
Qed.
Lemma payload7 c : in_range c -> all7 (payload_of c).
Proof.
  intros (A & _). unfold all7 in A. apply Forall_app in A. destruct A as [A _]. apply seven_bit in A.
  unfold wire_of in A. destruct (header_of c) as [[[[? ?] ?] ?] ?]. apply wire_all7 in A. tauto.
Qed.

(* ---- header ------------------------------------------------------------------------------------- *)

Lemma header_ok c : in_range c -> header_fields c (wire_of c).
Proof.
  intros (_ & _ & C & _). rewrite Forall_app in C. destruct C as [_ C]. unfold header_fields, wire_of.
  destruct c; cbn [header_of muids] in *; rewrite !Forall_cons_iff in C; apply wire_common; try tauto;
    unfold is_u28, broadcast; lia.
Qed.

(* ---- which views accept the message --------------------------------------------------------------- *)

Lemma val7_2 v : is_u14 v -> val7 (le7 2 v) = v.
Proof. intros H. apply val7_le7. exact H. Qed.
Lemma val7_4 v : is_u28 v -> val7 (le7 4 v) = v.
Proof. intros H. apply val7_le7. exact H. Qed.

Lemma counted14 fixed d rest : size d < 16384 -> exists l0 l1 block r,
  counted fixed [l0; l1] 1 (fixed ++ le7 2 (size d) ++ d ++ rest) block r.
Proof.
  intros H. eexists _, _, d, rest. split; [rewrite le7_2; reflexivity|]. rewrite <- le7_2, val7_2; [lia|].
  unfold is_u14. pose proof (size_pos d). lia.
Qed.
Lemma size5 l : size (concat (map (fun p => map (fun b => b mod 128) (profile_bytes p)) l)) = 5 * size l.
Proof. induction l as [|p l IH]; [reflexivity|]. cbn [map concat]. rewrite size_app', IH, size_cons. unfold profile_bytes. cbn [map]. autorewrite with sizes. lia. Qed.

Ltac only_kind := let k := fresh "k" in let H := fresh "H" in intros k H; destruct k; cbn [subtypes In] in H; try lia; cbn [In]; tauto.

Lemma kinds_ok c : in_range c -> header_in_first_chunk c -> accepted_as (wire_of c) (kinds_of c).
Proof.
  intros R F. pose proof (payload7 c R) as P. unfold wire_of.
  destruct (header_of c) as [[[[dev st] ver] src] dst] eqn:HD.
  apply accepted_wire; trivial. intros k.
  destruct R as (_ & R14 & _ & _ & R & R28 & RC & RS).
  assert (D : In k (kinds_of c) -> In st (subtypes k) /\ body_ok k ver (payload_of c)).
  { destruct c; cbn [header_of] in HD; injection HD as <- <- <- <- <-; cbn [kinds_of In payload_of];
      cbn [sizes14 sizes28 numbers14] in R, R28, R14; rewrite ?Forall_cons_iff in R; rewrite ?Forall_cons_iff in R28; rewrite ?Forall_cons_iff in R14.
    all: try (intros []; fail).
    all: try (intros [<-|[]]; (split; [cbn [subtypes In]; lia|]); cbn [body_ok]; unfold at_least;
              try exact I; try (unfold identity_wire; rewrite ?size_app'; unfold size; rewrite ?identity_bytes_length, ?le7_length; cbn; lia)).
    all: try (intros [<-|[<-|[]]]; (split; [cbn [subtypes In]; lia|]); cbn [body_ok]; unfold at_least;
              unfold profile_bytes; rewrite ?size_app'; unfold size; rewrite ?le7_length; cbn; lia).
    - destruct (Z.eqb_spec subtype 0x20); [|intros []]. intros [<-|[]]. subst. split; [now left|exact I].
    - destruct (counted14 (le7 1 status) data []) as (a & b & block & r & E); [lia|]. rewrite app_nil_r in E. eexists _, a, b, block, r. exact E.
    - destruct (counted14 [transaction; code; status_data; d0; d1; d2; d3; d4] msg []) as (a & b & block & r & E); [lia|].
      rewrite app_nil_r in E. eexists _, a, b, block, r. split; [|exact E]. reflexivity.
    - destruct (counted14 [transaction; code; status_data; d0; d1; d2; d3; d4] msg []) as (a & b & block & r & E); [lia|].
      rewrite app_nil_r in E. split; [lia|]. eexists _, a, b, block, r. split; [|exact E]. reflexivity.
    - unfold profiles_wire. rewrite !le7_2.
      set (f := fun p : profile_id => map (fun b => b mod 128) (profile_bytes p)).
      eexists _, _, _, _, (concat (map f enabled)), (concat (map f disabled)), _, []. unfold counted. cbn [app].
      rewrite (app_nil_r (concat (map f disabled))). split; split.
      + reflexivity.
      + unfold f. rewrite size5, <- le7_2, val7_2; [lia|]. unfold is_u14. pose proof (size_pos enabled). lia.
      + reflexivity.
      + unfold f. rewrite size5, <- le7_2, val7_2; [lia|]. unfold is_u14. pose proof (size_pos disabled). lia.
    - destruct (counted14 (profile_bytes p ++ le7 1 target) data []) as (a & b & block & r & E); [lia|].
      rewrite app_nil_r in E. eexists _, a, b, block, r. split; [|rewrite <- app_assoc in E at 1; exact E]. reflexivity.
    - exists (profile_bytes p). eexists _, _, _, _, data, []. split; [reflexivity|]. rewrite le7_4. split; [now rewrite app_nil_r|].
      rewrite <- le7_4, val7_4; [lia|]. unfold is_u28. pose proof (size_pos data). lia.
    - assert (B : body_ok KPropertyData 2 (payload_of (CPropertyData subtype src0 dst0 header num_chunks this_chunk chunk request dev0))).
      { cbn [payload_of body_ok]. cbn [chunk_numbering header_in_first_chunk] in RC, F.
        set (h := match header with Some l => l | None => [] end) in *. set (k' := match chunk with Some l => l | None => [] end) in *.
        assert (Hh : is_u14 (size h)) by (unfold is_u14; pose proof (size_pos h); lia).
        assert (Hk : is_u14 (size k')) by (unfold is_u14; pose proof (size_pos k'); lia).
        eexists (request mod 128), _, _, h, _, _, _, _, _, _, k', _, []. rewrite !le7_2.
        repeat apply conj.
        - cbn [app le7]. reflexivity.
        - rewrite <- le7_2, val7_2 by trivial. lia.
        - cbn [app]. rewrite app_nil_r. reflexivity.
        - rewrite <- le7_2, val7_2 by trivial. lia.
        - rewrite <- !le7_2, !val7_2 by tauto. tauto.
        - rewrite <- !le7_2, !val7_2 by tauto. destruct header as [[|x l]|]; [left; reflexivity|right; exact F|left; reflexivity].
        - rewrite <- !le7_2, !val7_2 by tauto. destruct chunk as [l|]; [right|left; reflexivity].
          destruct RC as [[RC|RC] _]; [|discriminate]. unfold is_u14 in R14. lia. }
      cbn [proper_subtype] in RS. cbn [payload_of body_ok] in B.
      intros [<-|[<-|[]]].
      + split; [cbn [subtypes In] in *; lia|exact B].
      + cbn [In] in RS.
        decompose [or] RS; try contradiction; subst; (split; [cbn [subtypes]; cbn; tauto|exact B]). }
  split; [exact D|]. clear D. intros [H B].
  destruct c; cbn [header_of] in HD; injection HD as <- <- <- <- <-; cbn [kinds_of];
    try (destruct k; cbn [subtypes In] in H; try (exfalso; lia); cbn [In]; tauto).
  - cbn [payload_of] in B.
    assert (E : k = KProfileInquiry).
    { destruct k; cbn [body_ok] in B; unfold at_least, counted in B; trivial; exfalso;
      try (destruct (1 <? 2); rewrite size_nil in B; lia); try (rewrite size_nil in B; lia);
      try (destruct B as [? B]); decompose [ex and] B;
      match goal with E : [] = ?l |- _ => apply (f_equal (@length Z)) in E; rewrite ?app_length in E; cbn in E; lia end. }
    subst k. cbn [subtypes In] in H. destruct H as [<-|[]]. now left.
  - destruct k; cbn [subtypes In] in H; try (exfalso; lia). cbn [body_ok] in B. exfalso. lia.
  - cbn [proper_subtype In] in RS. clear B F RC R R28 R14 P.
    decompose [or] RS; try contradiction; subst; destruct k; cbn [subtypes In] in H; try (exfalso; lia); cbn; tauto.
Qed.

(* ---- what the accessors return --------------------------------------------------------------------- *)

Lemma le7_1 v : is_u7 v -> le7 1 v = [v].
Proof. intros H. cbn [le7]. f_equal. apply Z.mod_small. exact H. Qed.

Lemma read_profiles_ok dev st ver src dst l : forall pre post n, n = (12 + length pre)%nat ->
  read_profiles (ci_wire dev st ver src dst (pre ++ concat (map profile_bytes l) ++ post)) (length l) n = Ok l.
Proof.
  induction l as [|[a b c d e] l IH]; intros pre post n ->; [reflexivity|].
  cbn [map concat length read_profiles]. rewrite <- (app_assoc (profile_bytes _)).
  change (profile_bytes (mkProf a b c d e) ++ concat (map profile_bytes l) ++ post)
    with (a :: b :: c :: d :: e :: concat (map profile_bytes l) ++ post).
  pose (R := concat (map profile_bytes l) ++ post).
  rewrite (wire_at _ _ _ _ _ pre a) by lia. cbn [bind].
  assert (A : vec_at (sx_data (ci_wire dev st ver src dst (pre ++ a :: b :: c :: d :: e :: R))) (12 + length pre + 1) = Ok b).
  { replace (pre ++ a :: b :: c :: d :: e :: R) with ((pre ++ [a]) ++ b :: c :: d :: e :: R) by (now rewrite <- app_assoc).
    apply wire_at. rewrite app_length. cbn. lia. }
  fold R. rewrite A. cbn [bind]. clear A.
  assert (A : vec_at (sx_data (ci_wire dev st ver src dst (pre ++ a :: b :: c :: d :: e :: R))) (12 + length pre + 2) = Ok c).
  { replace (pre ++ a :: b :: c :: d :: e :: R) with ((pre ++ [a; b]) ++ c :: d :: e :: R) by (now rewrite <- app_assoc).
    apply wire_at. rewrite app_length. cbn. lia. }
  rewrite A. cbn [bind]. clear A.
  assert (A : vec_at (sx_data (ci_wire dev st ver src dst (pre ++ a :: b :: c :: d :: e :: R))) (12 + length pre + 3) = Ok d).
  { replace (pre ++ a :: b :: c :: d :: e :: R) with ((pre ++ [a; b; c]) ++ d :: e :: R) by (now rewrite <- app_assoc).
    apply wire_at. rewrite app_length. cbn. lia. }
  rewrite A. cbn [bind]. clear A.
  assert (A : vec_at (sx_data (ci_wire dev st ver src dst (pre ++ a :: b :: c :: d :: e :: R))) (12 + length pre + 4) = Ok e).
  { replace (pre ++ a :: b :: c :: d :: e :: R) with ((pre ++ [a; b; c; d]) ++ e :: R) by (now rewrite <- app_assoc).
    apply wire_at. rewrite app_length. cbn. lia. }
  rewrite A. cbn [bind]. clear A.
  replace (pre ++ a :: b :: c :: d :: e :: R) with ((pre ++ [a; b; c; d; e]) ++ R) by (now rewrite <- app_assoc).
  unfold R. rewrite IH; [reflexivity|]. rewrite app_length. cbn. lia.
Qed.

Lemma profiles7 l : all7 (concat (map profile_bytes l)) ->
  concat (map (fun p => map (fun b => b mod 128) (profile_bytes p)) l) = concat (map profile_bytes l).
Proof.
  induction l as [|p l IH]; [reflexivity|]. cbn [map concat]. intros H. apply all7_app_iff in H. destruct H as [A B].
  rewrite IH by trivial. f_equal. unfold profile_bytes in *. cbn [map]. rewrite !all7_cons in A. unfold is_u7 in A.
  rewrite !Z.mod_small by lia. reflexivity.
Qed.

Lemma make_profiles_ok dbg dev st ver src dst pre l post pos : pos = 12 + size pre -> size l < 16384 ->
  make_profiles dbg (ci_wire dev st ver src dst (pre ++ le7 2 (size l) ++ concat (map profile_bytes l) ++ post)) pos = Ok l.
Proof.
  intros -> L. pose proof (size_pos l) as P. pose proof (size_pos pre) as P'. pose proof (size_pos post) as P''.
  assert (Z5 : size (concat (map profile_bytes l)) = 5 * size l).
  { clear. induction l as [|p l IH]; [reflexivity|]. cbn [map concat]. rewrite size_app', IH, size_cons. unfold profile_bytes. autorewrite with sizes. lia. }
  assert (S : size (sx_data (ci_wire dev st ver src dst (pre ++ le7 2 (size l) ++ concat (map profile_bytes l) ++ post)))
              = 12 + size pre + 2 + 5 * size l + size post).
  { rewrite wire_size, !size_app', Z5. unfold size at 2. rewrite le7_length. lia. }
  unfold make_profiles. rewrite S. rewrite check_true by (apply Z.ltb_lt; lia). cbn [bind].
  rewrite wire14_le; [|unfold size; lia|unfold is_u14; lia]. cbn [bind].
  rewrite check_true by (apply Z.ltb_lt; lia). cbn [bind].
  replace (Z.to_nat (size l)) with (length l) by (unfold size; lia).
  rewrite app_assoc. apply read_profiles_ok. rewrite app_length, le7_length. unfold size. lia.
Qed.
Lemma has_profiles v : is_u14 v ->
  negb (Z.land (Z.lor (v mod 128) (v / 128 mod 128)) 0x7F =? 0) = negb (v =? 0).
Proof.
  intros H. unfold is_u14 in H. f_equal. rewrite Z.land_lor_distr_l, !land_127, !Z.mod_mod by lia.
  destruct (Z.eqb_spec v 0) as [->|N]; [reflexivity|]. apply Z.eqb_neq. intros E. apply Z.lor_eq_0_iff in E. dlia.
Qed.

Lemma identity_wire_ok i : identity_fits i -> exists m0 m1 m2, identity_in_range i m0 m1 m2 /\
  identity_wire i = identity_bytes m0 m1 m2 (di_family i) (di_model i) (di_revision i).
Proof.
  intros (a & b & c & R). exists a, b, c. split; trivial. destruct R as (A & B & C & E & _).
  unfold identity_wire. rewrite E. unfold is_u7 in *. f_equal; dlia.
Qed.
Lemma discovery_ok dev st ver src dst i c m rest : identity_fits i -> is_u7 c -> is_u28 m ->
  let s := ci_wire dev st ver src dst (identity_wire i ++ le7 1 c ++ le7 4 m ++ rest) in
  discovery_identity s = Ok i /\ discovery_categories s = Ok c /\ discovery_maximum_message_size s = Ok m.
Proof.
  intros F C M s. destruct (identity_wire_ok i F) as (m0 & m1 & m2 & R & E). unfold s. rewrite E, (le7_1 c C).
  unfold discovery_identity, discovery_categories, discovery_maximum_message_size. repeat apply conj.
  - now apply wire_identity.
  - reflexivity.
  - apply (wire28_le dev st ver src dst (identity_bytes m0 m1 m2 (di_family i) (di_model i) (di_revision i) ++ [c])); trivial.
Qed.

Lemma fields_ok dbg c : in_range c -> fields_of dbg c (wire_of c).
Proof.
  intros (R & R14 & R28 & RI & S14 & S28 & _).
  unfold wire_of, all7 in *.
  destruct c; cbn [header_of payload_of fields_of];
    cbn [raw_bytes numbers7 numbers14 numbers28 muids identity_of sizes14 sizes28 app] in *;
    do 2 rewrite ?Forall_cons_iff, ?Forall_app in R; rewrite ?Forall_cons_iff in R14; rewrite ?Forall_cons_iff in R28;
    rewrite ?Forall_cons_iff in S14; rewrite ?Forall_cons_iff in S28; trivial.
  - destruct (discovery_ok whole_device 0x70 1 src broadcast i categories max_size []) as (A & B & C); [tauto..|].
    repeat apply conj; trivial.
  - destruct (discovery_ok whole_device 0x70 2 src broadcast i categories max_size (le7 1 path)) as (A & B & C); [tauto..|].
    repeat apply conj; trivial. rewrite (le7_1 path) by tauto. reflexivity.
  - destruct (discovery_ok whole_device 0x71 1 src dst i categories max_size []) as (A & B & C); [tauto..|].
    repeat apply conj; trivial.
  - destruct (discovery_ok whole_device 0x71 2 src dst i categories max_size (le7 1 path ++ le7 1 function_block)) as (A & B & C); [tauto..|].
    repeat apply conj; trivial; rewrite (le7_1 path), (le7_1 function_block) by tauto; reflexivity.
  - rewrite le7_1 by tauto. reflexivity.
  - rewrite le7_1 by tauto. assert (N : is_u14 (size data)) by (unfold is_u14; pose proof (size_pos data); lia).
    unfold information_data, information_data_length.
    rewrite (wire14_le whole_device 0x73 2 src dst [status] (size data) data 13) by trivial. cbn [bind].
    repeat apply conj; trivial.
    rewrite <- (app_nil_r data) at 2.
    apply (wire_bytes whole_device 0x73 2 src dst ([status] ++ le7 2 (size data)) data []); [reflexivity|unfold size; lia].
  - assert (N : is_u14 (size msg)) by (unfold is_u14; pose proof (size_pos msg); lia).
    unfold nack_message, nack_message_length.
    match goal with |- context [make_uint14 ?s 20] =>
      assert (E : make_uint14 s 20 = Ok (size msg)) by (apply (wire14_le dev 0x7D 2 src dst [transaction; code; status_data; d0; d1; d2; d3; d4]); trivial; tauto); rewrite E end. cbn [bind].
    repeat apply conj; trivial.
    + apply (wire_bytes dev 0x7D 2 src dst [transaction; code; status_data] [d0; d1; d2; d3; d4]); reflexivity.
    + rewrite <- (app_nil_r msg) at 2.
      apply (wire_bytes dev 0x7D 2 src dst ([transaction; code; status_data; d0; d1; d2; d3; d4] ++ le7 2 (size msg)) msg []); [reflexivity|unfold size; lia].
  - assert (N : is_u14 (size msg)) by (unfold is_u14; pose proof (size_pos msg); lia).
    unfold nack_message, nack_message_length.
    match goal with |- context [make_uint14 ?s 20] =>
      assert (E : make_uint14 s 20 = Ok (size msg)) by (apply (wire14_le dev 0x7F 2 src dst [transaction; code; status_data; d0; d1; d2; d3; d4]); trivial; tauto); rewrite E end. cbn [bind].
    repeat apply conj; trivial.
    + apply (wire_bytes dev 0x7F 2 src dst [transaction; code; status_data] [d0; d1; d2; d3; d4]); reflexivity.
    + rewrite <- (app_nil_r msg) at 2.
      apply (wire_bytes dev 0x7F 2 src dst ([transaction; code; status_data; d0; d1; d2; d3; d4] ++ le7 2 (size msg)) msg []); [reflexivity|unfold size; lia].
  - rewrite <- (app_nil_r (le7 4 target)). apply (wire28_le whole_device 0x7E 2 src broadcast []); [reflexivity|tauto].
  - rewrite map_app, concat_app in R. destruct R as (_ & R). apply Forall_app in R. destruct R as [RE RD].
    assert (NE : is_u14 (size enabled)) by (unfold is_u14; pose proof (size_pos enabled); lia).
    assert (ND : is_u14 (size disabled)) by (unfold is_u14; pose proof (size_pos disabled); lia).
    unfold profiles_wire. rewrite !profiles7 by trivial.
    set (E := concat (map profile_bytes enabled)). set (D := concat (map profile_bytes disabled)).
    assert (SE : size E = 5 * size enabled).
    { unfold E. rewrite <- (profiles7 enabled) by trivial. apply size5. }
    rewrite <- !app_assoc.
    assert (A : num_enabled_profiles (ci_wire dev 33 2 src dst (le7 2 (size enabled) ++ E ++ le7 2 (size disabled) ++ D)) = Ok (size enabled)).
    { apply (wire14_le dev 33 2 src dst []); trivial. }
    assert (B : make_uint14 (ci_wire dev 33 2 src dst (le7 2 (size enabled) ++ E ++ le7 2 (size disabled) ++ D))
                (Z.to_nat (14 + size enabled * 5)) = Ok (size disabled)).
    { rewrite app_assoc. apply wire14_le; trivial. rewrite app_length, le7_length. unfold size in SE |- *. lia. }
    unfold num_enabled_profiles in A.
    unfold num_enabled_profiles, num_disabled_profiles, disabled_profiles, enabled_profiles, has_disabled_profiles, has_enabled_profiles,
      offset_of_disabled_profiles. rewrite A. cbn [bind]. rewrite B. cbn [bind].
    repeat apply conj; trivial.
    + rewrite <- (has_profiles (size enabled)) by trivial. rewrite le7_2. reflexivity.
    + replace (Z.to_nat (14 + size enabled * 5)) with (12 + length (le7 2 (size enabled) ++ E))%nat
        by (rewrite app_length, le7_length; unfold size in SE |- *; lia).
      rewrite app_assoc. rewrite (le7_2 (size disabled)). cbn [app].
      rewrite (wire_at _ _ _ _ _ (le7 2 (size enabled) ++ E)) by reflexivity. cbn [bind].
      change (size disabled mod 128 :: size disabled / 128 mod 128 :: D) with ([size disabled mod 128] ++ size disabled / 128 mod 128 :: D).
      rewrite app_assoc. rewrite wire_at by (rewrite (app_length _ [_]); cbn [length]; lia). cbn [bind].
      now rewrite has_profiles.
    + apply (make_profiles_ok dbg dev 33 2 src dst []); [reflexivity|lia].
    + rewrite app_assoc. rewrite <- (app_nil_r D). apply make_profiles_ok; [|lia].
      rewrite size_app', SE. unfold size at 2. rewrite le7_length. lia.
  - destruct p as [a b c d e], dest as [sc ch]; cbn [pd_scope pd_channels] in *. unfold view_destination, view_num_channels.
    match goal with |- context [make_uint14 ?s 17] => assert (E : make_uint14 s 17 = Ok ch) end.
    { apply (wire14_le sc 0x22 2 src dst [a; b; c; d; e] ch []); [reflexivity|tauto]. }
    rewrite E.
    repeat apply conj; reflexivity.
  - destruct p as [a b c d e], dest as [sc ch]; cbn [pd_scope pd_channels] in *. repeat apply conj; reflexivity.
  - destruct p as [a b c d e], dest as [sc ch]; cbn [pd_scope pd_channels] in *. unfold view_destination, view_num_channels.
    match goal with |- context [make_uint14 ?s 17] => assert (E : make_uint14 s 17 = Ok ch) end.
    { apply (wire14_le sc 0x24 2 src dst [a; b; c; d; e] ch []); [reflexivity|tauto]. }
    rewrite E.
    repeat apply conj; reflexivity.
  - destruct p as [a b c d e], dest as [sc ch]; cbn [pd_scope pd_channels] in *. unfold view_destination, view_num_channels.
    match goal with |- context [make_uint14 ?s 17] => assert (E : make_uint14 s 17 = Ok ch) end.
    { apply (wire14_le sc 0x25 2 src dst [a; b; c; d; e] ch []); [reflexivity|tauto]. }
    rewrite E.
    repeat apply conj; reflexivity.
  - destruct p as [a b c d e]. reflexivity.
  - destruct p as [a b c d e]. reflexivity.
  - destruct p as [a b c d e]. rewrite le7_1 by tauto. repeat apply conj; reflexivity.
  - destruct p as [a b c d e]. rewrite le7_1 by tauto. assert (N : is_u14 (size data)) by (unfold is_u14; pose proof (size_pos data); lia).
    unfold target_data, target_data_length.
    match goal with |- context [make_uint14 ?s 18] =>
      assert (E : make_uint14 s 18 = Ok (size data)) by (apply (wire14_le dev 0x29 2 src dst [a; b; c; d; e; target]); trivial; tauto); rewrite E end. cbn [bind].
    repeat apply conj; trivial.
    rewrite <- (app_nil_r data) at 2.
    apply (wire_bytes dev 0x29 2 src dst ([a; b; c; d; e; target] ++ le7 2 (size data)) data []); [reflexivity|unfold size; lia].
  - destruct p as [a b c d e]. assert (N : is_u28 (size data)) by (unfold is_u28; pose proof (size_pos data); lia).
    unfold specific_data, specific_data_size.
    match goal with |- context [make_uint28 ?s 17] =>
      assert (E : make_uint28 s 17 = Ok (size data)) by (apply (wire28_le dev 0x2F 2 src dst [a; b; c; d; e]); trivial; tauto); rewrite E end. cbn [bind].
    repeat apply conj; trivial.
    rewrite <- (app_nil_r data) at 2.
    apply (wire_bytes dev 0x2F 2 src dst ([a; b; c; d; e] ++ le7 4 (size data)) data []); [reflexivity|unfold size; lia].
  - repeat apply conj; reflexivity.
  - repeat apply conj; reflexivity.
  - set (h := match header with Some l => l | None => [] end) in *. set (k := match chunk with Some l => l | None => [] end) in *.
    rewrite le7_1 by tauto.
    assert (Hh : is_u14 (size h)) by (unfold is_u14; pose proof (size_pos h); lia).
    assert (Hk : is_u14 (size k)) by (unfold is_u14; pose proof (size_pos k); lia).
    set (s := ci_wire _ _ _ _ _ _).
    assert (E0 : header_size s = Ok (size h)) by (apply (wire14_le dev subtype 2 src dst [request]); trivial).
    assert (Lh : Z.to_nat (size h) = length h) by (unfold size; lia).
    assert (E1 : chunk_size s = Ok (size k)).
    { unfold chunk_size. rewrite E0. cbn [bind]. rewrite Lh. unfold s.
      replace ([request] ++ le7 2 (size h) ++ h ++ le7 2 num_chunks ++ le7 2 this_chunk ++ le7 2 (size k) ++ k) with
        (([request] ++ le7 2 (size h) ++ h ++ le7 2 num_chunks ++ le7 2 this_chunk) ++ le7 2 (size k) ++ k) by (rewrite <- !app_assoc; reflexivity).
      apply wire14_le; trivial. rewrite !app_length, !le7_length. cbn [length]. lia. }
    unfold header_data, number_of_chunks, number_of_this_chunk, chunk_data. rewrite E0, E1. cbn [bind]. rewrite Lh.
    repeat apply conj; trivial.
    + unfold s. apply (wire_bytes dev subtype 2 src dst ([request] ++ le7 2 (size h))); reflexivity.
    + unfold s.
      replace ([request] ++ le7 2 (size h) ++ h ++ le7 2 num_chunks ++ le7 2 this_chunk ++ le7 2 (size k) ++ k) with
        (([request] ++ le7 2 (size h) ++ h) ++ le7 2 num_chunks ++ le7 2 this_chunk ++ le7 2 (size k) ++ k) by (rewrite <- !app_assoc; reflexivity).
      apply wire14_le; try tauto; rewrite !app_length, !le7_length; cbn [length]; lia.
    + unfold s.
      replace ([request] ++ le7 2 (size h) ++ h ++ le7 2 num_chunks ++ le7 2 this_chunk ++ le7 2 (size k) ++ k) with
        (([request] ++ le7 2 (size h) ++ h ++ le7 2 num_chunks) ++ le7 2 this_chunk ++ le7 2 (size k) ++ k) by (rewrite <- !app_assoc; reflexivity).
      apply wire14_le; try tauto; rewrite !app_length, !le7_length; cbn [length]; lia.
    + unfold s.
      replace ([request] ++ le7 2 (size h) ++ h ++ le7 2 num_chunks ++ le7 2 this_chunk ++ le7 2 (size k) ++ k) with
        (([request] ++ le7 2 (size h) ++ h ++ le7 2 num_chunks ++ le7 2 this_chunk ++ le7 2 (size k)) ++ k ++ [])
        by (rewrite app_nil_r, <- !app_assoc; reflexivity).
      apply wire_bytes; [|unfold size; lia]. rewrite !app_length, !le7_length. cbn [length]. lia.
  - repeat apply conj; reflexivity.
  - repeat apply conj; reflexivity.
Qed.

Lemma round_trip_ok dbg c : in_range c -> header_in_first_chunk c -> round_trip dbg c.
Proof.
  intros R F. exists (wire_of c). repeat apply conj.
  - apply build_eq; [now apply in_range_typed|intros _; now apply in_range_checked].
  - reflexivity.
  - now apply header_ok.
  - now apply kinds_ok.
  - now apply fields_ok.
Qed.

(* ---- other functions ----------------------------------------------------------------------------------- *)

Lemma nak_reply_eq dbg dev st ver src dst body code sdata d0 d1 d2 d3 d4 msg : is_u28 src -> is_u28 dst ->
  make_nak_reply dbg (ci_wire dev st ver src dst body) code sdata [d0; d1; d2; d3; d4] msg =
  build dbg (CNak dst src dev st code sdata d0 d1 d2 d3 d4 msg).
Proof.
  intros A B. destruct (wire_common dev st ver src dst body A B) as (_ & _ & _ & D & _ & T & _ & _ & S & E).
  unfold make_nak_reply. rewrite T, E, S, D. reflexivity.
Qed.
Lemma nak_reply_v1_eq dbg dev st ver src dst body : is_u28 src -> is_u28 dst ->
  make_nak_reply_v1 dbg (ci_wire dev st ver src dst body) = build dbg (CNakV1 dst src dev).
Proof.
  intros A B. destruct (wire_common dev st ver src dst body A B) as (_ & _ & _ & D & _ & T & _ & _ & S & E).
  unfold make_nak_reply_v1. rewrite E, S, D. reflexivity.
Qed.

Lemma set_source_ok dbg dev st ver src dst body m : 0 <= m -> (dbg = true -> m < 268435456) ->
  set_source_muid dbg (ci_wire dev st ver src dst body) m = Ok (ci_wire dev st ver m dst body).
Proof.
  intros M D. unfold set_source_muid.
  assert (C : check dbg (m <=? 268435455) = Ok tt) by (destruct dbg; [apply check_true, Z.leb_le; specialize (D eq_refl); lia|reflexivity]).
  rewrite C. cbn [bind]. rewrite (digit0 m), !digit by lia.
  unfold ci_wire. rewrite !le7_4. reflexivity.
Qed.
Lemma set_destination_ok dbg dev st ver src dst body m : 0 <= m -> (dbg = true -> m < 268435456) ->
  set_destination_muid dbg (ci_wire dev st ver src dst body) m = Ok (ci_wire dev st ver src m body).
Proof.
  intros M D. unfold set_destination_muid.
  assert (C : check dbg (m <=? 268435455) = Ok tt) by (destruct dbg; [apply check_true, Z.leb_le; specialize (D eq_refl); lia|reflexivity]).
  rewrite C. cbn [bind]. rewrite (digit0 m), !digit by lia.
  unfold ci_wire. rewrite !le7_4. reflexivity.
Qed.

Lemma vector_eq dbg src dst p data dev : size data < 65536 ->
  make_profile_specific_data_vector dbg src dst p data dev = build dbg (CSpecificData src dst p data dev).
Proof.
  intros H. unfold make_profile_specific_data_vector. cbn [build]. f_equal.
  unfold u16. rewrite Z.mod_small by (pose proof (size_pos data); lia). unfold size. rewrite Nat2Z.id. apply firstn_all.
Qed.
Lemma vector_wraps dbg src dst p data dev : size data = 65536 ->
  make_profile_specific_data_vector dbg src dst p data dev = build dbg (CSpecificData src dst p [] dev).
Proof. intros H. unfold make_profile_specific_data_vector. rewrite H. reflexivity. Qed.
Lemma profiles_wrap dbg src dst e d dev : size e = 65536 ->
  build dbg (CProfileInquiryReply src dst e d dev) = build dbg (CProfileInquiryReply src dst [] d dev).
Proof. intros H. cbn [build]. unfold make_profile_inquiry_reply, make_profile_inquiry_reply_n. rewrite H. reflexivity. Qed.

Lemma endpoint_wraps src dst st data : is_u28 src -> is_u28 dst -> is_u7 st -> all7 data -> size data = 65536 ->
  exists s, build true (CEndpointReply src dst st data) = Ok s /\
    endpoint_reply_validate s = Ok true /\ information_data_length s = Ok 0 /\ information_data s = Ok [].
Proof.
  intros A B C D E. eexists. split.
  - apply build_eq.
    + unfold typed. cbn [raw_bytes numbers7 numbers14 numbers28 muids identity_of profile_counts app].
      unfold is_u28 in A, B. rewrite !Forall_cons_iff. unfold is_u32.
      refine (conj _ (conj _ (conj _ (conj I I)))); [|constructor|repeat apply conj; try lia; constructor].
      apply u7_u8, all7_app; trivial. apply all7_cons. split; trivial. constructor.
    + intros _. unfold checked. cbn [is_plain raw_bytes numbers7 numbers14 numbers28 muids identity_of sizes14 sizes28 chunk_numbering].
      rewrite !Forall_cons_iff. unfold all7. rewrite Forall_cons_iff, E.
      refine (conj _ (conj (conj C _) (conj _ (conj _ (conj I (conj _ (conj _ I))))))); try constructor; try discriminate; try reflexivity; constructor.
  - unfold wire_of. cbn [header_of payload_of]. rewrite E, le7_1 by trivial.
    assert (L : information_data_length (ci_wire whole_device 115 2 src dst ([st] ++ le7 2 65536 ++ data)) = Ok 0).
    { apply (wire14 whole_device 115 2 src dst [st] 0 0 data 13); [reflexivity|unfold is_u7; lia..]. }
    repeat apply conj.
    + change endpoint_reply_validate with (validate_of KEndpointReply). apply validate_wire.
      * apply all7_app; [constructor; trivial; constructor|]. apply all7_app; [apply le7_all7|trivial].
      * split; [now left|]. cbn [body_ok]. exists st, 0, 0, [], data. split; reflexivity.
    + exact L.
    + unfold information_data. rewrite L. cbn [bind Z.to_nat].
      apply (wire_bytes whole_device 115 2 src dst ([st] ++ le7 2 65536) [] data); reflexivity.
Qed.

(* a header in a chunk after the first one *)
Lemma late_header dbg st src dst h n t c r dev :
  in_range (CPropertyData st src dst (Some h) n t c r dev) -> h <> [] -> 1 < t ->
  exists s, build dbg (CPropertyData st src dst (Some h) n t c r dev) = Ok s /\ accepted_as s [].
Proof.
  intros R H T. exists (wire_of (CPropertyData st src dst (Some h) n t c r dev)). split.
  { apply build_eq; [now apply in_range_typed|intros _; now apply in_range_checked]. }
  unfold wire_of. cbn [header_of]. pose proof (payload7 _ R) as P. cbn [payload_of] in *. apply accepted_wire; trivial.
  intros k. split; [intros []|]. intros [I B].
  destruct R as (_ & R14 & _ & _ & S14 & _ & _ & RS). cbn [numbers14 sizes14 proper_subtype] in *.
  rewrite !Forall_cons_iff in R14, S14.
  set (b := match c with Some l => l | None => [] end) in *.
  assert (Hh : is_u14 (size h)) by (unfold is_u14; pose proof (size_pos h); lia).
  assert (X : exists request h0 h1 header n0 n1 t0 t1 rest,
      le7 1 r ++ le7 2 (size h) ++ h ++ le7 2 n ++ le7 2 t ++ le7 2 (size b) ++ b =
        [request; h0; h1] ++ header ++ [n0; n1; t0; t1] ++ rest /\ size header = val7 [h0; h1] /\
        (val7 [h0; h1] = 0 \/ val7 [t0; t1] <= 1)).
  { destruct k; cbn [subtypes] in I; try (exfalso; cbn [In] in I, RS; lia); cbn [body_ok] in B;
    destruct B as (rq & h0 & h1 & hd & n0 & n1 & t0 & t1 & c0 & c1 & ck & r1 & r2 & (E1 & S1) & (E2 & S2) & _ & Q & _);
    exists rq, h0, h1, hd, n0, n1, t0, t1, ([c0; c1] ++ ck ++ r2); rewrite E1, E2; repeat apply conj; trivial; lia. }
  destruct X as (rq & h0 & h1 & hd & n0 & n1 & t0 & t1 & rest & E & S & Q).
  rewrite (le7_2 (size h)) in E.
  change (le7 1 r ++ [size h mod 128; size h / 128 mod 128] ++ h ++ le7 2 n ++ le7 2 t ++ le7 2 (size b) ++ b)
    with ([r mod 128; size h mod 128; size h / 128 mod 128] ++ h ++ le7 2 n ++ le7 2 t ++ le7 2 (size b) ++ b) in E.
  apply app_inj_1 in E; [|reflexivity]. destruct E as [E E'].
  assert (V : val7 [h0; h1] = size h).
  { rewrite <- (val7_2 (size h)) by trivial. rewrite le7_2. f_equal. congruence. }
  rewrite V in *. apply app_inj_1 in E'; [|unfold size in S; lia]. destruct E' as [_ E'].
  rewrite (le7_2 n), (le7_2 t) in E'.
  change ([n mod 128; n / 128 mod 128] ++ [t mod 128; t / 128 mod 128] ++ le7 2 (size b) ++ b)
    with ([n mod 128; n / 128 mod 128; t mod 128; t / 128 mod 128] ++ le7 2 (size b) ++ b) in E'.
  apply app_inj_1 in E'; [|reflexivity]. destruct E' as [E' _].
  assert (W : val7 [t0; t1] = t).
  { rewrite <- (val7_2 t) by tauto. rewrite le7_2. f_equal. congruence. }
  rewrite W in Q. destruct Q as [Q|Q]; [|lia]. destruct h; [contradiction|]. rewrite size_cons in Q. pose proof (size_pos h). lia.
Qed.

(* messages made from arguments in range *)
Lemma ci_built dbg m : in_range m -> build dbg m = Ok (wire_of m).
Proof. intros R. apply build_eq; [now apply in_range_typed|intros _; now apply in_range_checked]. Qed.

Lemma ci_wire_shape m : in_range m ->
  exists d, wire_of m = mkSx 0x7E0000 d /\ Forall is_u7 d /\ size d = 12 + size (payload_of m).
Proof.
  intros R. exists (sx_data (wire_of m)).
  assert (S : all7 (sx_data (wire_of m))).
  { apply seven_bit. destruct R as (R & _). unfold all7 in R. apply Forall_app in R. apply R. }
  split; [|split; [exact S|]].
  - unfold wire_of. destruct (header_of m) as [[[[? ?] ?] ?] ?]. reflexivity.
  - unfold wire_of. destruct (header_of m) as [[[[? ?] ?] ?] ?]. unfold ci_wire. cbn [sx_data].
    unfold size. rewrite !app_length, !le7_length. cbn [length]. lia.
Qed.
