(* A complete translator between MIDI 1 and MIDI 2 channel voice messages: as_midi2_channel_voice_message and
   as_midi1_channel_voice_message (inc/midi/channel_voice_message.h:249-353, "not a complete MIDI 1 -> 2 translator") leave out bank
   select and the controllers of registered and assignable parameters.  The translators here are users' programs that add them
   with the other constructors and views; they have no counterpart in /repo. *)
From Coq Require Import ZArith List Bool.
From Verif Require Import Base Packet Messages Types ChannelVoice.
Import ListNotations.
Local Open Scope Z_scope.
Local Open Scope res_scope.

(* ---- from MIDI 1 to MIDI 2 ------------------------------------------------------------------ *)

(* of a channel: the latest value of each controller, whether a registered or an assignable parameter was selected latest, the
   14 bit value of each parameter, and the latest data entry *)
Record chan := mkChan { cn_cc : Z -> option Z; cn_kind : option bool; cn_value : bool -> Z -> Z -> Z; cn_entry : Z }.
Definition new_chan : chan := mkChan (fun _ => None) None (fun _ _ _ => 0) 0.

Definition note_cc (c : chan) (nr v : Z) : chan :=
  mkChan (fun n => if n =? nr then Some v else cn_cc c n)
         (if (nr =? 101) || (nr =? 100) then Some true else if (nr =? 99) || (nr =? 98) then Some false else cn_kind c)
         (cn_value c) (cn_entry c).
(* the parameter to which data entry applies: none after 127/127 *)
Definition selected_parameter (c : chan) : option (bool * Z * Z) :=
  match cn_kind c with
  | None => None
  | Some k =>
      match cn_cc c (if k then 101 else 99), cn_cc c (if k then 100 else 98) with
      | Some b, Some i => if (b =? 127) && (i =? 127) then None else Some (k, b, i)
      | _, _ => None
      end
  end.
Definition selected_bank (c : chan) : option Z :=
  match cn_cc c 0, cn_cc c 32 with
  | None, None => None
  | m, l => Some (Z.lor (Z.shiftl (match m with Some v => v | None => 0 end) 7) (match l with Some v => v | None => 0 end))
  end.

Definition put_chan (st : Z -> Z -> chan) (g ch : Z) (c : chan) (g' ch' : Z) : chan :=
  if (g' =? g) && (ch' =? ch) then c else st g' ch'.

(* [coarse] tells the upper seven bits that stay when the lower ones are set *)
Definition data_entry (coarse : chan -> bool -> Z -> Z -> Z) (c : chan) (g ch nr d : Z) : res (chan * list packet) :=
  match selected_parameter c with
  | None => Ok (c, [])
  | Some (k, b, i) =>
      let v := if nr =? 6 then Z.shiftl d 7 else Z.lor (Z.shiftl (coarse c k b i) 7) d in
      x <- controller_of_uint14 v ;;
      Ok (mkChan (cn_cc c) (cn_kind c)
                 (fun k' b' i' => if eqb k' k && (b' =? b) && (i' =? i) then v else cn_value c k' b' i')
                 (if nr =? 6 then d else cn_entry c),
          [if k then make_registered_controller g ch b i x else make_assignable_controller g ch b i x])
  end.

Definition up_step_with (coarse : chan -> bool -> Z -> Z -> Z) (st : Z -> Z -> chan) (p : packet) : res ((Z -> Z -> chan) * list packet) :=
  match as_midi1_view p with
  | None => Ok (st, [p])
  | Some m =>
      let g := group m in
      let ch := m1_channel m in
      let c := st g ch in
      let d1 := m1_data_byte_1 m in
      let d2 := m1_data_byte_2 m in
      if m1_status m =? st_control_change then
        if (d1 =? 6) || (d1 =? 38) then
          r <- data_entry coarse c g ch d1 d2 ;;
          Ok (put_chan st g ch (fst r), snd r)
        else if existsb (Z.eqb d1) [0; 32; 98; 99; 100; 101] then Ok (put_chan st g ch (note_cc c d1 d2), [])
        else
          q <- as_midi2 m ;;
          Ok (st, match q with Some q => [q] | None => [] end)
      else if m1_status m =? st_program_change then
        Ok (st, [match selected_bank c with
                 | Some b => make_midi2_program_change_bank g ch d1 b
                 | None => make_midi2_program_change g ch d1
                 end])
      else
        q <- as_midi2 m ;;
        Ok (st, match q with Some q => [q] | None => [] end)
  end.
Definition up_step := up_step_with (fun c k b i => Z.shiftr (cn_value c k b i) 7).
(* a translator that knows only the latest data entry, not the values of the parameters *)
Definition hasty_step := up_step_with (fun c _ _ _ => cn_entry c).

Fixpoint up_run_with (step : (Z -> Z -> chan) -> packet -> res ((Z -> Z -> chan) * list packet)) (st : Z -> Z -> chan) (ps : list packet) :
    res ((Z -> Z -> chan) * list packet) :=
  match ps with
  | [] => Ok (st, [])
  | p :: t => r <- step st p ;; r' <- up_run_with step (fst r) t ;; Ok (fst r', snd r ++ snd r')
  end.
Definition up_run := up_run_with up_step.
Definition hasty_run := up_run_with hasty_step.
Definition new_up : Z -> Z -> chan := fun _ _ => new_chan.

(* ---- from MIDI 2 to MIDI 1 ------------------------------------------------------------------ *)

Definition down_cc (g ch nr v : Z) : packet := make_midi1_control_change g ch nr (controller_of_uint7 v).
Definition down_step (p : packet) : list packet :=
  match as_midi2_view p with
  | None => [p]
  | Some m =>
      let g := group m in
      let ch := m2_channel m in
      let v := controller_as_uint14 (m2_data m) in
      if m2_status m =? st_registered_controller then
        [down_cc g ch 101 (m2_byte3 m); down_cc g ch 100 (m2_byte4 m); down_cc g ch 6 (Z.shiftr v 7); down_cc g ch 38 (Z.land v 0x7F)]
      else if m2_status m =? st_assignable_controller then
        [down_cc g ch 99 (m2_byte3 m); down_cc g ch 98 (m2_byte4 m); down_cc g ch 6 (Z.shiftr v 7); down_cc g ch 38 (Z.land v 0x7F)]
      else if (m2_status m =? st_program_change) && negb (Z.land (m2_byte4 m) 1 =? 0) then
        [down_cc g ch 0 (Z.land (Z.shiftr (m2_data m) 8) 0x7F); down_cc g ch 32 (Z.land (m2_data m) 0x7F);
         make_midi1_program_change g ch (get_program_value m)]
      else match as_midi1 m with Some q => [q] | None => [] end
  end.
Definition down_run (ps : list packet) : list packet := flat_map down_step ps.
