(* A sound engine that knows the pitch of every sounding note: a user's program composed of the modelled functions of
   channel_voice_message.h, midi2_channel_voice_message.h and types.h (docs/types.md shows the arithmetic:
   pitch + bend * sensitivity).  It has no counterpart in /repo. *)
From Coq Require Import ZArith List Bool.
From Verif Require Import Base Packet Types ChannelVoice.
Import ListNotations.
Local Open Scope Z_scope.
Local Open Scope res_scope.

(* a sounding note: its pitch_7_25 without bends, and its own pitch_bend *)
Record voice := mkVoice { vo_group : Z; vo_channel : Z; vo_note : Z; vo_base : Z; vo_bend : Z }.

(* per group and channel the pitch_bend, the pitch_bend_sensitivity and the one of single notes *)
Record engine := mkEngine { en_bend : Z -> Z -> Z; en_range : Z -> Z -> Z; en_note_range : Z -> Z -> Z; en_voices : list voice }.

(* all of them default constructed (types.h:100 pitch_bend, types.h:192-196 and 379-382 pitch_bend_sensitivity) *)
Definition new_engine : res engine :=
  s <- pitch_bend_sensitivity_default ;;
  Ok (mkEngine (fun _ _ => pitch_bend_reset) (fun _ _ => s) (fun _ _ => s) []).

Definition put_for (f : Z -> Z -> Z) (g ch v : Z) : Z -> Z -> Z :=
  fun g' ch' => if (g' =? g) && (ch' =? ch) then v else f g' ch'.
Definition is_voice (g ch n : Z) (v : voice) : bool :=
  (vo_group v =? g) && (vo_channel v =? ch) && (vo_note v =? n).
Definition stop_voice (g ch n : Z) (l : list voice) : list voice := filter (fun v => negb (is_voice g ch n v)) l.
Definition change_voice (g ch n : Z) (f : voice -> voice) (l : list voice) : list voice :=
  map (fun v => if is_voice g ch n v then f v else v) l.

Definition bent (b : Z) (v : voice) : voice := mkVoice (vo_group v) (vo_channel v) (vo_note v) (vo_base v) b.
Definition retuned (p : Z) (v : voice) : voice := mkVoice (vo_group v) (vo_channel v) (vo_note v) p (vo_bend v).

(* one packet, of whatever protocol *)
Definition engine_step (e : engine) (p : packet) : res engine :=
  if negb (is_channel_voice_message p) then Ok e
  else
    ch <- channel p ;;
    let g := group p in
    let n := get_note_nr p in
    if is_note_on_message p then
      Ok (mkEngine (en_bend e) (en_range e) (en_note_range e)
            (mkVoice g ch n (pitch_7_25_of_7_9 (get_note_pitch p)) pitch_bend_reset :: stop_voice g ch n (en_voices e)))
    else if is_note_off_message p then
      Ok (mkEngine (en_bend e) (en_range e) (en_note_range e) (stop_voice g ch n (en_voices e)))
    else if is_channel_pitch_bend_message p then
      b <- get_channel_pitch_bend_value p ;;
      Ok (mkEngine (put_for (en_bend e) g ch b) (en_range e) (en_note_range e) (en_voices e))
    else if is_pitch_bend_sensitivity_message p then
      Ok (mkEngine (en_bend e) (put_for (en_range e) g ch (get_pitch_bend_sensitivity_value p)) (en_note_range e) (en_voices e))
    else if is_per_note_pitch_bend_sensitivity_message p then
      Ok (mkEngine (en_bend e) (en_range e) (put_for (en_note_range e) g ch (get_per_note_pitch_bend_sensitivity_value p))
            (en_voices e))
    else if is_per_note_pitch_bend_message p then
      Ok (mkEngine (en_bend e) (en_range e) (en_note_range e)
            (change_voice g ch n (bent (get_per_note_pitch_bend_value p)) (en_voices e)))
    else if is_registered_per_note_controller_pitch_message p then
      (* types.h:361-364 pitch_7_25 of a controller_value is the same number *)
      Ok (mkEngine (en_bend e) (en_range e) (en_note_range e)
            (change_voice g ch n (retuned (get_controller_value p)) (en_voices e)))
    else Ok e.

Fixpoint engine_run (e : engine) (ps : list packet) : res engine :=
  match ps with
  | [] => Ok e
  | p :: t => e' <- engine_step e p ;; engine_run e' t
  end.
Definition play (ps : list packet) : res engine := e <- new_engine ;; engine_run e ps.

(* the pitch of a voice: p + bend * sensitivity, and += the product for its own bend *)
Definition voice_pitch (e : engine) (v : voice) : res Z :=
  let g := vo_group v in
  let ch := vo_channel v in
  i <- bend_times_sensitivity (en_bend e g ch) (en_range e g ch) ;;
  p <- pitch_add (vo_base v) i ;;
  j <- sensitivity_times_bend (en_note_range e g ch) (vo_bend v) ;;
  pitch_add_assign p j.

Definition heard (e : engine) (g ch n : Z) : res (option Z) :=
  match find (is_voice g ch n) (en_voices e) with
  | Some v => p <- voice_pitch e v ;; Ok (Some p)
  | None => Ok None
  end.
