(* The listed manufacturer ids *)
From Coq Require Import ZArith List Bool String Lia ZifyBool.
From Verif Require Import Base Bits Packet PacketSpec Messages Sysex ByteStream Collector UniversalSysex Manufacturer
  StreamSpec CollectSpec CollectCalls SysexSpec PropsStream PropsCollect PropsSysex PropsQuery.
Import ListNotations.
Local Open Scope Z_scope.
Local Open Scope res_scope.

Definition listed (id : Z) : Prop := In id (map snd manufacturers).

Lemma listed_valid id : listed id -> valid_id id /\ id <> 0.
Proof.
  intros L.
  assert (H : forallb (fun i => ((65536 <=? i) && (i <? 8388608) && (i mod 65536 =? 0)) ||
    ((0 <? i) && (i <? 32768) && (i mod 256 <? 128))) (map snd manufacturers) = true) by (vm_compute; reflexivity).
  rewrite forallb_forall in H. specialize (H id L). apply orb_true_iff in H as [H|H]; (split; [|lia]).
  - left. exists (id / 65536). dlia.
  - right. exists (id / 256), (id mod 256). unfold is_u7. dlia.
Qed.

Lemma valid_bytes id : valid_id id -> exists a b c, is_u7 a /\ is_u7 b /\ is_u7 c /\ id = a * 65536 + b * 256 + c.
Proof.
  unfold valid_id, is_u7. intros [(m & M & ->)|(x & y & X & Y & ->)].
  - exists m, 0, 0. lia.
  - exists 0, x, y. lia.
Qed.

Lemma use7 a c id d g : listed id -> Forall is_u7 d -> 0 <= g < 16 ->
  std_alloc a -> reached7 a 0 c -> c7_has_cb c = true ->
  sysex7_is_valid (mkSx id d) = true /\
  exists ps c', send_sysex7 (mkSx id d) g = Ok ps /\ c7_calls a c (map KFeed ps) = Ok (c', [mkSx id d]).
Proof.
  intros L D G A R CB. destruct (listed_valid id L) as (V & N). split.
  - destruct (valid_bytes id V) as (x & y & z & X & Y & Z & E). unfold is_u7 in *.
    apply (C73_seven_bits (mkSx id d)); cbn [sx_id sx_data].
    + unfold is_u32. lia.
    + eapply Forall_impl; [|exact D]. unfold is_u7, is_u8. lia.
    + split; [exact D|]. exists x, y, z. unfold is_u7. lia.
  - destruct (C23_sysex7_round_trip a c id d g A R CB V N D G) as (ps & q & c1 & c2 & E & E1 & E2).
    exists (ps ++ [q]), c2. split; [exact E|]. rewrite map_app, (c7_calls_app a _ c _ c1 [] E1).
    cbn [map c7_calls c7_call bind app]. rewrite E2. reflexivity.
Qed.

Lemma use8 a c id d i g : listed id -> Forall is_u8 d -> is_u8 i -> 0 <= g < 16 ->
  std_alloc a -> reached8 a 0 c -> c8_has_cb c = true -> ~ miscounted8 id (size d) ->
  exists ps c', send_sysex8 (mkSx id d) i g = Ok ps /\ c8_calls a c (map KFeed ps) = Ok (c', [(mkSx id d, i)]).
Proof.
  intros L D I G A R CB M. destruct (listed_valid id L) as (V & N).
  destruct (C25_sysex8_round_trip a c id d i g A R CB V D I G M) as (ps & q & c1 & c2 & E & E1 & E2).
  exists (ps ++ [q]), c2. split; [exact E|]. rewrite map_app, (c8_calls_app a _ c _ c1 [] E1).
  cbn [map c8_calls c8_call bind app]. rewrite E2. reflexivity.
Qed.

Lemma use_bytes id d g g' st : listed id -> Forall is_u7 d -> 0 <= g' < 16 -> reached g true st ->
  exists ps bs st', send_sysex7 (mkSx id d) g' = Ok ps /\ stream_of_packets ps = Ok bs /\
    feed_all st bs = Ok (st', [ESysex (mkSx id d)]).
Proof. intros L D G R. destruct (listed_valid id L) as (V & N). now apply (C32_sysex7_through_midi1_bytes g st id d). Qed.

Lemma use_identity dbg id f m r : listed id -> is_u14 f -> is_u14 m -> is_u28 r ->
  exists s, make_identity_reply dbg (mkDevId id f m r) = Ok s /\
    is_identity_reply s = Ok true /\ reply_identity s = Ok (mkDevId id f m r).
Proof.
  intros L F M R. destruct (listed_valid id L) as (V & N).
  destruct (C48_reply_of_identity dbg (mkDevId id f m r)) as (s & E & _ & I & _ & D); trivial.
  exists s. auto.
Qed.

Lemma universal_listed name id d : In (name, id) manufacturers ->
  is_universal_sysex_message (mkSx id d) = true <->
  (name = "universal_non_realtime" \/ name = "universal_realtime")%string /\ (2 <= List.length d)%nat.
Proof.
  intros L.
  assert (H : forallb (fun x => Bool.eqb ((snd x =? 0x7E0000) || (snd x =? 0x7F0000))
     ((fst x =? "universal_non_realtime")%string || (fst x =? "universal_realtime")%string)) manufacturers = true) by (vm_compute; reflexivity).
  rewrite forallb_forall in H. specialize (H _ L). cbn [fst snd] in H. apply eqb_prop in H.
  unfold is_universal_sysex_message, universal_realtime, universal_non_realtime, size. cbn [sx_id sx_data].
  rewrite orb_comm, H, andb_true_iff, orb_true_iff, !String.eqb_eq, Z.leb_le.
  split; intros [X Y]; (split; [exact X|lia]).
Qed.

Lemma names_differ n1 n2 id1 id2 : In (n1, id1) manufacturers -> In (n2, id2) manufacturers -> n1 <> n2 ->
  id1 = id2 <-> (n1 = "focusrite"%string /\ n2 = "novation"%string \/ n1 = "novation"%string /\ n2 = "focusrite"%string).
Proof.
  intros L1 L2 N.
  assert (H : forallb (fun x => forallb (fun y => (fst x =? fst y)%string ||
      Bool.eqb (snd x =? snd y) ((fst x =? "focusrite")%string && (fst y =? "novation")%string ||
                                 (fst x =? "novation")%string && (fst y =? "focusrite")%string)) manufacturers)
    manufacturers = true) by (vm_compute; reflexivity).
  rewrite forallb_forall in H. specialize (H _ L1). rewrite forallb_forall in H. specialize (H _ L2). cbn [fst snd] in H.
  apply orb_true_iff in H as [H|H]; [apply String.eqb_eq in H; contradiction|]. apply Bool.eqb_prop in H.
  rewrite <- Z.eqb_eq, H, orb_true_iff, !andb_true_iff, !String.eqb_eq. reflexivity.
Qed.
