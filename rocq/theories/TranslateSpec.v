(* What the messages of a channel say of parameters, banks and programs.  Histories have the latest message first. *)
From Coq Require Import ZArith List Bool.
From Verif Require Import Base Packet PacketSpec VoiceSpec.
Import ListNotations.
Local Open Scope Z_scope.

(* a channel voice message, or a packet of another kind *)
Inductive item (A : Type) := Message (g ch : Z) (m : A) | Other (p : packet).
Arguments Message {A}.
Arguments Other {A}.
Definition item_packet {A} (layout : Z -> Z -> A -> packet) (x : item A) : packet :=
  match x with Message g ch m => layout g ch m | Other p => p end.
Definition item_ok {A} (ok : A -> Prop) (x : item A) : Prop :=
  match x with Message g ch m => address g ch /\ ok m | Other p => wf_packet p /\ ~ In (w0 p / 268435456) [2; 4] end.
(* the messages of a channel *)
Definition said {A} (g ch : Z) (h : list (item A)) : list A :=
  flat_map (fun x => match x with Message g' ch' m => if (g' =? g) && (ch' =? ch) then [m] else [] | Other _ => [] end) h.

(* ---- in MIDI 1 --------------------------------------------------------------------------------- *)

Fixpoint controller (c : Z) (h : list m1msg) : option Z :=
  match h with
  | [] => None
  | ControlChange1 n v :: t => if n =? c then Some v else controller c t
  | _ :: t => controller c t
  end.
(* whether a registered or an assignable parameter was selected latest *)
Fixpoint kind_selected (h : list m1msg) : option bool :=
  match h with
  | [] => None
  | ControlChange1 n _ :: t => if (n =? 101) || (n =? 100) then Some true else if (n =? 99) || (n =? 98) then Some false else kind_selected t
  | _ :: t => kind_selected t
  end.
(* data entry applies to this parameter: both bytes are known, and 127/127 is no parameter *)
Definition applies (k : bool) (b i : Z) (h : list m1msg) : bool :=
  match kind_selected h with Some k' => eqb k k' | None => false end &&
  match controller (if k then 101 else 99) h, controller (if k then 100 else 98) h with Some b', Some i' => (b =? b') && (i =? i') | _, _ => false end &&
  negb ((b =? 127) && (i =? 127)).
(* the value of a parameter in 14 bits: the upper seven bits clear the lower ones *)
Fixpoint parameter1 (k : bool) (b i : Z) (h : list m1msg) : option Z :=
  match h with
  | [] => None
  | ControlChange1 n v :: t =>
      if (n =? 6) && applies k b i t then Some (128 * v)
      else if (n =? 38) && applies k b i t
           then Some (128 * (match parameter1 k b i t with Some w => w / 128 | None => 0 end) + v)
      else parameter1 k b i t
  | _ :: t => parameter1 k b i t
  end.
Definition bank1 (h : list m1msg) : option Z :=
  match controller 0 h, controller 32 h with
  | Some m, Some l => Some (128 * m + l)
  | Some m, None => Some (128 * m)
  | None, Some l => Some l
  | None, None => None
  end.
(* the program that plays and its bank *)
Fixpoint program1 (h : list m1msg) : option (option Z * Z) :=
  match h with
  | [] => None
  | ProgramChange1 p :: t => Some (bank1 t, p)
  | _ :: t => program1 t
  end.
(* all other messages: no program change and none of the controllers used for the above *)
Definition plain1 (x : item m1msg) : bool :=
  match x with
  | Message _ _ (ProgramChange1 _) => false
  | Message _ _ (ControlChange1 c _) => negb (existsb (Z.eqb c) reserved_controllers)
  | _ => true
  end.

(* ---- in MIDI 2 --------------------------------------------------------------------------------- *)

Fixpoint parameter2 (k : bool) (b i : Z) (h : list m2msg) : option Z :=
  match h with
  | [] => None
  | RegisteredCtrl b' i' v :: t => if k && (b' =? b) && (i' =? i) then Some v else parameter2 k b i t
  | AssignableCtrl b' i' v :: t => if negb k && (b' =? b) && (i' =? i) then Some v else parameter2 k b i t
  | _ :: t => parameter2 k b i t
  end.
(* a program change without a bank keeps the bank *)
Fixpoint bank2 (h : list m2msg) : option Z :=
  match h with
  | [] => None
  | ProgramChange2 _ (Some b) :: _ => Some b
  | _ :: t => bank2 t
  end.
Fixpoint program2 (h : list m2msg) : option (option Z * Z) :=
  match h with
  | [] => None
  | ProgramChange2 p (Some b) :: _ => Some (Some b, p)
  | ProgramChange2 p None :: t => Some (bank2 t, p)
  | _ :: t => program2 t
  end.
Definition plain2 (x : item m2msg) : bool :=
  match x with
  | Message _ _ (RegisteredCtrl _ _ _) | Message _ _ (AssignableCtrl _ _ _) | Message _ _ (ProgramChange2 _ _) => false
  | _ => true
  end.

(* ---- translated one by one ----------------------------------------------------------------------- *)

Definition each {A B} (f : A -> option B) (l : list (item A)) : list (item B) :=
  flat_map (fun x => match x with Message g ch m => match f m with Some m' => [Message g ch m'] | None => [] end | Other p => [Other p] end) l.
(* attribute types of seven bits: the views lose bit 7 of others *)
Definition item2_ok : item m2msg -> Prop :=
  item_ok (fun m => m2_ok m /\ match m with NoteOff2 _ _ a _ | NoteOn2 _ _ a _ => is_u7 a | _ => True end).

(* ---- what is heard of MIDI 1 messages ------------------------------------------------------------ *)

(* the latest note on or off of the key is a note on *)
Fixpoint key_down (n : Z) (h : list m1msg) : bool :=
  match h with
  | [] => false
  | NoteOn1 n' v :: t => if n' =? n then negb (v =? 0) else key_down n t
  | NoteOff1 n' _ :: t => if n' =? n then false else key_down n t
  | _ :: t => key_down n t
  end.
Fixpoint bend1 (h : list m1msg) : Z :=
  match h with [] => 8192 | PitchBend1 v :: _ => v | _ :: t => bend1 t end.
(* in 1/128 semitones: registered parameter 0 *)
Definition range1 (h : list m1msg) : Z := match parameter1 true 0 0 h with Some w => w | None => 256 end.
