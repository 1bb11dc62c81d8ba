(* Property C91: texts of any length in flex data messages *)
From Coq Require Import ZArith List Bool Lia.
From Verif Require Import Base Packet PacketSpec Sysex Endpoint Flex FlexSpec Lyrics LyricsSpec LyricsProofs.
Import ListNotations.
Local Open Scope Z_scope.
Local Open Scope res_scope.

(* Any texts sent one after the other about the same key are received in this order and unchanged, whatever the receiver has
   received before and whatever packets arrive between theirs: texts about other keys and any other message.  There are no
   more packets than the lengths require, and nothing remains unfinished. *)
Theorem C91_received : forall dbg k ts, key_ok k -> Forall (Forall is_char8) ts ->
  exists pss, Forall2 (fun t ps => send_flex_text dbg k t = Ok ps /\ length ps = Nat.max 1 ((length t + 11) / 12)) ts pss /\
    Forall wf_packet (concat pss) /\ Forall (fun p => spells k p = true) (concat pss) /\
    forall u qs, Forall wf_packet qs -> filter (spells k) qs = concat pss ->
    exists u' out, spell_all dbg u qs = Ok (u', out) /\ filter (about_key k) out = map (fun t => (k, t)) ts /\
      (ts <> [] -> find (fun x => flex_key_eqb k (fst x)) u' = None).
Proof. exact lyrics_received. Qed.
Print Assumptions C91_received.

(* What is received about a key depends on the packets with this key only, also for packets the library has not made.  The
   receiver never meets undefined behaviour. *)
Theorem C91_apart : forall dbg k u u' qs qs', key_ok k -> Forall wf_packet qs -> Forall wf_packet qs' ->
  find (fun x => flex_key_eqb k (fst x)) u = find (fun x => flex_key_eqb k (fst x)) u' ->
  filter (spells k) qs = filter (spells k) qs' ->
  exists v o v' o', spell_all dbg u qs = Ok (v, o) /\ spell_all dbg u' qs' = Ok (v', o') /\
    filter (about_key k) o = filter (about_key k) o'.
Proof. exact lyrics_apart. Qed.
Print Assumptions C91_apart.

(* a text that contains a zero is not received as it was sent: the view ends the text of each packet there *)
Theorem C91_zero_refuted : exists k t ps u out, key_ok k /\ Forall is_u8 t /\ send_flex_text true k t = Ok ps /\
  spell_all true [] ps = Ok (u, out) /\ out <> [(k, t)].
Proof.
  exists (mkFlexKey 0 1 0 2 1), [65; 0; 66]. eexists _, _, _. split; [unfold key_ok, is_u8; cbn; lia|].
  split; [repeat constructor; unfold is_u8; lia|]. split; [vm_compute; reflexivity|]. split; [vm_compute; reflexivity|]. discriminate.
Qed.
Print Assumptions C91_zero_refuted.

(* ---- a concrete case: lyrics to a channel and a title to the group, interleaved, with a tempo between them -------- *)

Definition c91_lyrics : flex_key := mkFlexKey 3 0 9 2 1.
Definition c91_title : flex_key := mkFlexKey 3 1 0 1 3.
Definition c91_verse : list Z := [195; 156; 98; 101; 114; 32; 97; 108; 108; 101; 110; 32; 71; 105; 112; 102; 101; 108; 110; 32; 105; 115; 116; 32; 82; 117; 104].
Definition c91_name : list Z := [87; 97; 110; 100; 114; 101; 114; 115; 32; 78; 97; 99; 104; 116; 108; 105; 101; 100].
Example C91_ex : key_ok c91_lyrics /\ key_ok c91_title /\ Forall (Forall is_char8) [c91_verse; [33]] /\
  match send_flex_text true c91_lyrics c91_verse, send_flex_text true c91_lyrics [33], send_flex_text true c91_title c91_name,
    make_set_tempo_message true 3 50000000 with
  | Ok [a1; a2; a3], Ok [a4], Ok [b1; b2], Ok t =>
      let qs := [a1; b1; t; a2; a3; mkP 0x23903C7F 0 0 0; a4; b2] in
      filter (spells c91_lyrics) qs = [a1; a2; a3; a4] /\
      match spell_all true [(c91_title, [1; 2; 3])] qs with
      | Ok (u, out) => u = [] /\ out = [(c91_lyrics, c91_verse); (c91_lyrics, [33]); (c91_title, c91_name)]
      | Fault _ => False
      end
  | _, _, _, _ => False
  end.
Proof.
  split; [unfold key_ok, is_u8; cbn; lia|]. split; [unfold key_ok, is_u8; cbn; lia|].
  split; [repeat constructor; unfold is_char8; lia|]. vm_compute. repeat split.
Qed.
