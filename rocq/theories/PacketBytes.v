(* Packets as byte sequences: lemmas used by all message layouts *)
From Coq Require Import ZArith List Bool Lia ZifyBool ZifyNat.
From Verif Require Import Base Bits Packet PacketSpec PacketProofs.
Import ListNotations.
Local Open Scope Z_scope.

Lemma word_bytes_be32 a b c d : is_u8 a -> is_u8 b -> is_u8 c -> is_u8 d ->
  word_bytes (be32 a b c d) = [a; b; c; d] /\ is_u32 (be32 a b c d).
Proof.
  unfold is_u8, is_u32, word_bytes, be32. intros. split; [|lia].
  repeat (f_equal; try dlia).
Qed.

Lemma nth_u8 l i : Forall is_u8 l -> is_u8 (nth i l 0).
Proof.
  intros H. destruct (Nat.lt_ge_cases i (length l)).
  - rewrite Forall_forall in H. apply H, nth_In. assumption.
  - rewrite nth_overflow by assumption. unfold is_u8; lia.
Qed.

Definition pad16 (l : list Z) : list Z := map (fun i => nth i l 0) (seq 0 16).

Lemma pob_spec l : Forall is_u8 l ->
  bytes (packet_of_bytes l) = pad16 l /\ wf_packet (packet_of_bytes l).
Proof.
  intros H. unfold packet_of_bytes, bytes, wf_packet; cbn [w0 w1 w2 w3].
  pose proof (fun i => nth_u8 l i H) as N.
  edestruct (word_bytes_be32 _ _ _ _ (N 0%nat) (N 1%nat) (N 2%nat) (N 3%nat)) as [-> ?].
  edestruct (word_bytes_be32 _ _ _ _ (N 4%nat) (N 5%nat) (N 6%nat) (N 7%nat)) as [-> ?].
  edestruct (word_bytes_be32 _ _ _ _ (N 8%nat) (N 9%nat) (N 10%nat) (N 11%nat)) as [-> ?].
  edestruct (word_bytes_be32 _ _ _ _ (N 12%nat) (N 13%nat) (N 14%nat) (N 15%nat)) as [-> ?].
  split; [reflexivity|tauto].
Qed.

Lemma pob_wf l : Forall is_u8 l -> wf_packet (packet_of_bytes l).
Proof. intros; now apply pob_spec. Qed.
Lemma pob_bytes l : Forall is_u8 l -> bytes (packet_of_bytes l) = pad16 l.
Proof. intros; now apply pob_spec. Qed.

Lemma nth_pad16 l i : (i < 16)%nat -> nth i (pad16 l) 0 = nth i l 0.
Proof.
  intros H. unfold pad16.
  rewrite (nth_indep _ 0 (nth 0 l 0)) by now rewrite map_length, seq_length.
  rewrite (map_nth (fun i => nth i l 0)), seq_nth by assumption. reflexivity.
Qed.

Lemma pob_get l i : Forall is_u8 l -> (i < 16)%nat ->
  get_byte (packet_of_bytes l) i = Ok (nth i l 0).
Proof. intros. now rewrite get_byte_spec, pob_bytes, nth_pad16. Qed.

Lemma Forall_upd {A} (P : A -> Prop) l i v : Forall P l -> P v -> Forall P (upd l i v).
Proof.
  intros H Hv. revert i; induction H; intros [|i]; simpl; constructor; auto.
Qed.

Lemma nth_ext0 (l m : list Z) : length l = length m ->
  (forall i, (i < length l)%nat -> nth i l 0 = nth i m 0) -> l = m.
Proof. intros. now apply nth_ext with (d := 0) (d' := 0). Qed.

Lemma pad16_length l : length (pad16 l) = 16%nat.
Proof. reflexivity. Qed.

Lemma pob_upd l i v : Forall is_u8 l -> is_u8 v -> (i < length l)%nat -> (i < 16)%nat ->
  set_byte_nd (packet_of_bytes l) i v = packet_of_bytes (upd l i v).
Proof.
  intros H Hv Hi Hi16.
  destruct (set_byte_nd_spec (packet_of_bytes l) i v (pob_wf l H) Hv Hi16) as [E W].
  apply bytes_inj; [assumption|apply pob_wf, Forall_upd; assumption|].
  rewrite E, !pob_bytes by auto using Forall_upd.
  apply nth_ext0; [now rewrite upd_length, !pad16_length|].
  rewrite upd_length, pad16_length. intros j Hj.
  rewrite nth_upd by (rewrite pad16_length; lia).
  rewrite !nth_pad16 by lia. rewrite nth_upd by assumption. reflexivity.
Qed.

Lemma pob_append l v : Forall is_u8 l -> is_u8 v -> (length l < 16)%nat ->
  set_byte_nd (packet_of_bytes l) (length l) v = packet_of_bytes (l ++ [v]).
Proof.
  intros H Hv Hl.
  destruct (set_byte_nd_spec (packet_of_bytes l) (length l) v (pob_wf l H) Hv Hl) as [E W].
  assert (F : Forall is_u8 (l ++ [v])) by (apply Forall_app; split; auto).
  apply bytes_inj; [assumption|now apply pob_wf|].
  rewrite E, !pob_bytes by assumption.
  apply nth_ext0; [now rewrite upd_length, !pad16_length|].
  rewrite upd_length, pad16_length. intros j Hj.
  rewrite nth_upd by (rewrite pad16_length; lia).
  rewrite !nth_pad16 by lia.
  destruct (Nat.eqb_spec j (length l)) as [->|Hn].
  - now rewrite app_nth2, Nat.sub_diag by lia.
  - destruct (Nat.lt_ge_cases j (length l)).
    + now rewrite app_nth1 by lia.
    + rewrite nth_overflow by lia. symmetry. apply nth_overflow. rewrite app_length; simpl; lia.
Qed.

(* header fields of a packet given by bytes *)
Lemma pob_status l : Forall is_u8 l -> status (packet_of_bytes l) = nth 1 l 0.
Proof.
  intros H. rewrite status_spec. unfold packet_of_bytes, be32; cbn [w0].
  pose proof (nth_u8 l 0 H); pose proof (nth_u8 l 1 H); pose proof (nth_u8 l 2 H);
  pose proof (nth_u8 l 3 H). unfold is_u8 in *. dlia.
Qed.
Lemma pob_type l : Forall is_u8 l -> type (packet_of_bytes l) = nth 0 l 0 / 16.
Proof.
  intros H. rewrite type_spec by now apply pob_wf. unfold packet_of_bytes, be32; cbn [w0].
  pose proof (nth_u8 l 0 H); pose proof (nth_u8 l 1 H); pose proof (nth_u8 l 2 H);
  pose proof (nth_u8 l 3 H). unfold is_u8 in *. dlia.
Qed.
Lemma pob_group l : Forall is_u8 l -> group (packet_of_bytes l) = nth 0 l 0 mod 16.
Proof.
  intros H. rewrite group_spec. unfold packet_of_bytes, be32; cbn [w0].
  pose proof (nth_u8 l 0 H); pose proof (nth_u8 l 1 H); pose proof (nth_u8 l 2 H);
  pose proof (nth_u8 l 3 H). unfold is_u8 in *. dlia.
Qed.
Lemma pob_byte3 l : Forall is_u8 l -> byte3 (packet_of_bytes l) = nth 2 l 0.
Proof.
  intros H. rewrite byte3_spec. unfold packet_of_bytes, be32; cbn [w0].
  pose proof (nth_u8 l 0 H); pose proof (nth_u8 l 1 H); pose proof (nth_u8 l 2 H);
  pose proof (nth_u8 l 3 H). unfold is_u8 in *. dlia.
Qed.
Lemma pob_byte4 l : Forall is_u8 l -> byte4 (packet_of_bytes l) = nth 3 l 0.
Proof.
  intros H. rewrite byte4_spec. unfold packet_of_bytes, be32; cbn [w0].
  pose proof (nth_u8 l 0 H); pose proof (nth_u8 l 1 H); pose proof (nth_u8 l 2 H);
  pose proof (nth_u8 l 3 H). unfold is_u8 in *. dlia.
Qed.

(* trailing zero bytes do not matter *)
Lemma pob_eq l m : (forall i, (i < 16)%nat -> nth i l 0 = nth i m 0) ->
  packet_of_bytes l = packet_of_bytes m.
Proof. intros H. unfold packet_of_bytes. now rewrite !H by lia. Qed.

Lemma pob_app_zeros l n : packet_of_bytes (l ++ repeat 0 n) = packet_of_bytes l.
Proof.
  apply pob_eq. intros i _. destruct (Nat.lt_ge_cases i (length l)).
  - now rewrite app_nth1.
  - rewrite app_nth2, (nth_overflow l) by lia. apply nth_repeat.
Qed.

(* a packet is given by its bytes *)
Lemma pob_of_bytes p : wf_packet p -> packet_of_bytes (bytes p) = p.
Proof.
  intros H. apply bytes_inj; [apply pob_wf, bytes_range|assumption|].
  rewrite pob_bytes by apply bytes_range. reflexivity.
Qed.
