(* What callbacks may do to the parser that invoked them.

   A parser is described as in StreamSpec.v: the group, whether callbacks are enabled and the
   bytes since the last status byte with their configuration.  Calls made by a callback act as
   if they were made when the byte has been processed, with one exception that is part of
   the specification: inside of a SysEx delivered in packets. *)
From Coq Require Import ZArith List Bool.
From Verif Require Import Base Packet PacketSpec Sysex ByteStream StreamSpec Reentrant.
Import ListNotations.
Local Open Scope Z_scope.

Definition configuration : Type := Z * bool * calls_context.

(* a data byte of a SysEx that is delivered in packets *)
Definition in_sysex_packets (cb : bool) (c : calls_context) (b : Z) : bool :=
  negb cb && (b <? 0x80) && match c with Some (x0, _) => f_byte x0 =? 0xF0 | None => false end.

(* the call, then the calls of the callback if the byte leads to an event *)
Fixpoint nested_spec (cb : bool) (s : configuration) (k : nested_call) {struct k} : configuration * list event :=
  match k with
  | NFeed b during =>
      let '(g, on, c) := s in
      let x := mkFed b g on in
      let later := (g, on, calls_ctx_step c x) in
      match calls_emission cb c x with
      | [] => (later, [])
      | e =>
          let r := (fix go (s : configuration) (ks : list nested_call) {struct ks} :=
                      match ks with
                      | [] => (s, [])
                      | k :: ks' =>
                          let r := nested_spec cb s k in
                          let r' := go (fst r) ks' in (fst r', snd r ++ snd r')
                      end) later during in
          let '(g', on', c') := fst r in
          (* the next packet of the SysEx is begun after the callback: with the new group,
             and even after reset() *)
          (g', on', if in_sysex_packets cb c b then calls_ctx_step c (mkFed b g' on) else c', e ++ snd r)
      end
  | NEnable on' => let '(g, on, c) := s in ((g, on', c), [])
  | NSetGroup g' => let '(g, on, c) := s in ((g', on, c), [])
  | NReset => let '(g, on, c) := s in ((g, on, None), [])
  end.
Definition nested_specs (cb : bool) :=
  fix go (s : configuration) (ks : list nested_call) {struct ks} : configuration * list event :=
  match ks with
  | [] => (s, [])
  | k :: ks' => let r := nested_spec cb s k in
                let r' := go (fst r) ks' in (fst r', snd r ++ snd r')
  end.

(* calls without feed() *)
Definition is_control (k : nested_call) : Prop := match k with NFeed _ _ => False | _ => True end.
Definition only_enable (k : nested_call) : Prop := match k with NEnable _ => True | _ => False end.

(* data bytes of a system common message are missing *)
Definition common_unfinished (c : calls_context) : Prop :=
  match c with
  | Some (x0, ds) => exists n, sc_len (f_byte x0) = Some n /\ (length ds < n)%nat
  | None => False
  end.
Definition in_sysex (c : calls_context) : Prop :=
  match c with Some (x0, _) => f_byte x0 = 0xF0 | None => False end.

(* Which calls a callback may make.  Callbacks for real-time and channel voice messages and
   the SysEx callback may feed the parser, if the first leave no system common message and the
   latter no SysEx unfinished.  All callbacks may call enable_callbacks, set_group, reset. *)
Fixpoint permitted (cb : bool) (s : configuration) (k : nested_call) {struct k} : Prop :=
  match k with
  | NFeed b during =>
      let '(g, on, c) := s in
      let x := mkFed b g on in
      let later := (g, on, calls_ctx_step c x) in
      let all := (fix go (s : configuration) (ks : list nested_call) {struct ks} : Prop :=
                    match ks with
                    | [] => True
                    | k :: ks' => permitted cb s k /\ go (fst (nested_spec cb s k)) ks'
                    end) later during in
      is_u8 b /\
      (calls_emission cb c x <> [] ->
       all /\
       (Forall is_control during \/
        let after := snd (fst (nested_specs cb later during)) in
        if is_rt b then True
        else if b <? 0x80 then
          match c with Some (x0, _) => f_byte x0 < 0xF0 /\ ~ common_unfinished after | None => False end
        else if b =? 0xF7 then cb = true /\ ~ in_sysex after
        else False))
  | NSetGroup g => 0 <= g < 16
  | NEnable _ | NReset => True
  end.
Definition all_permitted (cb : bool) :=
  fix go (s : configuration) (ks : list nested_call) {struct ks} : Prop :=
  match ks with
  | [] => True
  | k :: ks' => permitted cb s k /\ go (fst (nested_spec cb s k)) ks'
  end.

(* ---- the same client making its calls after feed() has returned --------------------------- *)

(* feed the byte; if it lead to an event, make the calls then *)
Fixpoint afterwards_step (st : parser) (k : nested_call) {struct k} : result :=
  match k with
  | NFeed b during =>
      bind (feed st b) (fun r =>
        match snd r with
        | [] => Ok r
        | out =>
            bind ((fix go (st : parser) (ks : list nested_call) {struct ks} : result :=
                     match ks with
                     | [] => Ok (st, [])
                     | k :: ks' =>
                         bind (afterwards_step st k) (fun r =>
                           bind (go (fst r) ks') (fun r' => Ok (fst r', snd r ++ snd r')))
                     end) (fst r) during)
                 (fun r' => Ok (fst r', out ++ snd r'))
        end)
  | NEnable on => Ok (enable_callbacks st on, [])
  | NSetGroup g => Ok (parser_set_group st g, [])
  | NReset => Ok (parser_reset st, [])
  end.
Fixpoint afterwards (st : parser) (ks : list nested_call) {struct ks} : result :=
  match ks with
  | [] => Ok (st, [])
  | k :: ks' =>
      bind (afterwards_step st k) (fun r =>
        bind (afterwards (fst r) ks') (fun r' => Ok (fst r', snd r ++ snd r')))
  end.

(* callbacks do not change the group and do not reset while a SysEx arrives in packets *)
Fixpoint sysex_undisturbed (cb : bool) (s : configuration) (k : nested_call) {struct k} : Prop :=
  match k with
  | NFeed b during =>
      let '(g, on, c) := s in
      let x := mkFed b g on in
      let later := (g, on, calls_ctx_step c x) in
      calls_emission cb c x <> [] ->
      (in_sysex_packets cb c b = true -> Forall only_enable during) /\
      (fix go (s : configuration) (ks : list nested_call) {struct ks} : Prop :=
         match ks with
         | [] => True
         | k :: ks' => sysex_undisturbed cb s k /\ go (fst (nested_spec cb s k)) ks'
         end) later during
  | _ => True
  end.
Definition all_undisturbed (cb : bool) :=
  fix go (s : configuration) (ks : list nested_call) {struct ks} : Prop :=
  match ks with
  | [] => True
  | k :: ks' => sysex_undisturbed cb s k /\ go (fst (nested_spec cb s k)) ks'
  end.

(* Callbacks that configure the parser but do not feed it.  Without a SysEx callback they
   only enable and disable callbacks. *)
Definition valid_control (k : nested_call) : Prop :=
  match k with NFeed _ _ => False | NSetGroup g => 0 <= g < 16 | NEnable _ | NReset => True end.
Definition controls_only (cb : bool) (k : nested_call) : Prop :=
  match k with
  | NFeed b during => is_u8 b /\ Forall valid_control during /\ (cb = false -> Forall only_enable during)
  | k => valid_control k
  end.
