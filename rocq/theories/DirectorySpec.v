(* What is claimed of browsers that keep what they have found out *)
From Coq Require Import ZArith List Bool.
From Verif Require Import Base Packet PacketSpec Sysex SysexSpec Endpoint EndpointSpec Browse BrowseSpec Directory.
Import ListNotations.
Local Open Scope Z_scope.

(* what there is to be known about a topic *)
Definition says (d : endpoint_desc) (k : topic) : option finding :=
  match k with
  | OfInfo => Some (FReport (RInfo (ed_major d) (ed_minor d) (256 * ed_major d + ed_minor d) (size (ed_blocks d)) (ed_static d)
                               (ed_protocols d) (ed_extensions d)))
  | OfIdentity => Some (FReport (RIdentity (ed_identity d)))
  | OfConfiguration => Some (FReport (RConfiguration (ed_protocol d) (ed_timestamps d)))
  | OfText TName => Some (FText TName (ed_name d))
  | OfText TProduct => Some (FText TProduct (ed_product d))
  | OfBlock b =>
      match find (fun x => bd_index x =? b) (ed_blocks d) with
      | Some x => let o := bd_options x in
          Some (FReport (RBlockInfo (fo_active o) b (fo_direction o) (fo_midi1 o)
                           (if fo_ui_hint o =? 0 then fo_direction o else fo_ui_hint o)
                           (bd_first_group x) (bd_groups x) (fo_ci_version o) (fo_sysex8 o)))
      | None => None
      end
  | OfText (TBlock b) =>
      match find (fun x => bd_index x =? b) (ed_blocks d) with
      | Some x => Some (FText (TBlock b) (bd_name x))
      | None => None
      end
  end.

(* the topics a packet asks for, by its bytes *)
Definition asks (q : packet) (k : topic) : bool :=
  let byte i := nth i (bytes q) 0 in
  (byte 0%nat / 16 =? 15) &&
  match k with
  | OfInfo => (byte 1%nat =? 0) && bit 0 (byte 7%nat)
  | OfIdentity => (byte 1%nat =? 0) && bit 1 (byte 7%nat)
  | OfText TName => (byte 1%nat =? 0) && bit 2 (byte 7%nat)
  | OfText TProduct => (byte 1%nat =? 0) && bit 3 (byte 7%nat)
  | OfConfiguration => (byte 1%nat =? 0) && bit 4 (byte 7%nat)
  | OfBlock b => (byte 1%nat =? 16) && ((byte 2%nat =? 255) || (byte 2%nat =? b)) && bit 0 (byte 3%nat)
  | OfText (TBlock b) => (byte 1%nat =? 16) && ((byte 2%nat =? 255) || (byte 2%nat =? b)) && bit 1 (byte 3%nat)
  end.

Definition change_ok (c : change) : Prop :=
  match c with
  | ChInfo st pr ex ma mi => stream_in_range (SInfo 0 st pr ex ma mi)
  | ChIdentity i => stream_in_range (SIdentity i)
  | ChName t => Forall is_char7 t
  | ChProduct t => Forall is_char7 t /\ size t <= 16
  | ChConfiguration p e => stream_in_range (SConfigured p e)
  | ChBlock b o g n => stream_in_range (SBlockOptions b o g n)
  | ChBlockName b t => Forall is_char7 t
  end.
Definition act_ok (a : act) : Prop :=
  match a with
  | AChange c => change_ok c
  | AAsk i q => wf_packet q
  | AOther i n p => wf_packet p /\ stream_type p = false
  | _ => True
  end.
(* no two function blocks have the same number *)
Definition described (d : endpoint_desc) : Prop := endpoint_ok d /\ NoDup (map bd_index (ed_blocks d)).
