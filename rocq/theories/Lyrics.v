(* Texts of any length in flex data messages: a sender that divides a text and a receiver that puts texts together.  Both
   are users' programs composed of the modelled functions of flex_data_message.h; they have no counterpart in /repo.  The
   sender obeys the assertions of make_flex_data_text_message (inc/midi/flex_data_message.h:222-223). *)
From Coq Require Import ZArith List Bool.
From Verif Require Import Base Packet Sysex Endpoint Flex.
Import ListNotations.
Local Open Scope Z_scope.
Local Open Scope res_scope.

(* what a text is about; bank 1 is metadata such as the title, bank 2 performance text such as lyrics *)
Record flex_key := mkFlexKey { fk_group : Z; fk_address : Z; fk_channel : Z; fk_bank : Z; fk_status : Z }.
Definition flex_key_eqb (a b : flex_key) : bool :=
  (fk_group a =? fk_group b) && (fk_address a =? fk_address b) && (fk_channel a =? fk_channel b) &&
  (fk_bank a =? fk_bank b) && (fk_status a =? fk_status b).

(* ---- the sender ------------------------------------------------------------------------ *)

Definition text_message (dbg : bool) (k : flex_key) (format : Z) (t : list Z) : res packet :=
  make_flex_data_text_message dbg (fk_group k) format (fk_address k) (fk_channel k) (fk_bank k) (fk_status k) t.
(* the packets after the first; [n] is at least the number of characters *)
Fixpoint send_rest (dbg : bool) (k : flex_key) (n : nat) (t : list Z) : res (list packet) :=
  match n with
  | O => Ok []
  | S m =>
      if size t <=? 12 then p <- text_message dbg k pf_end t ;; Ok [p]
      else
        p <- text_message dbg k pf_cont (firstn 12 t) ;;
        r <- send_rest dbg k m (skipn 12 t) ;;
        Ok (p :: r)
  end.
Definition send_flex_text (dbg : bool) (k : flex_key) (t : list Z) : res (list packet) :=
  if size t <=? 12 then p <- text_message dbg k pf_complete t ;; Ok [p]
  else
    p <- text_message dbg k pf_start (firstn 12 t) ;;
    r <- send_rest dbg k (length t) (skipn 12 t) ;;
    Ok (p :: r).

(* ---- the receiver ---------------------------------------------------------------------- *)

(* texts not yet complete *)
Definition open_texts : Type := list (flex_key * list Z).

Definition spell (u : open_texts) (k : flex_key) (format : Z) (t : list Z) : open_texts * list (flex_key * list Z) :=
  let others := filter (fun x => negb (flex_key_eqb k (fst x))) u in
  if format =? pf_complete then (others, [(k, t)])
  else if format =? pf_start then ((k, t) :: others, [])
  else match find (fun x => flex_key_eqb k (fst x)) u with
       | None => (others, [])
       | Some x => if format =? pf_cont then ((k, snd x ++ t) :: others, []) else (others, [(k, snd x ++ t)])
       end.
(* messages of bank 0 are no texts *)
Definition spell_packet (dbg : bool) (u : open_texts) (p : packet) : res (open_texts * list (flex_key * list Z)) :=
  v <- as_flex_data_message_view dbg p ;;
  match v with
  | Some v =>
      if flex_status_bank v =? 0 then Ok (u, [])
      else
        t <- flex_payload_as_string v ;;
        Ok (spell u (mkFlexKey (group v) (flex_address v) (flex_channel v) (flex_status_bank v) (flex_status v)) (flex_format v) t)
  | None => Ok (u, [])
  end.
Fixpoint spell_all (dbg : bool) (u : open_texts) (ps : list packet) : res (open_texts * list (flex_key * list Z)) :=
  match ps with
  | [] => Ok (u, [])
  | p :: r =>
      a <- spell_packet dbg u p ;;
      b <- spell_all dbg (fst a) r ;;
      Ok (fst b, snd a ++ snd b)
  end.
