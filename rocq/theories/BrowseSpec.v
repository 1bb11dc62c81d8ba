(* What is claimed of endpoint discovery *)
From Coq Require Import ZArith List Bool.
From Verif Require Import Base Packet PacketSpec Sysex SysexSpec Endpoint EndpointSpec Browse.
Import ListNotations.
Local Open Scope Z_scope.

(* descriptions an endpoint can have; texts are of 7-bit characters, product ids of at most 16 *)
Definition block_ok (k : block_desc) : Prop :=
  stream_in_range (SBlockOptions (bd_index k) (bd_options k) (bd_first_group k) (bd_groups k)) /\
  Forall is_char7 (bd_name k).
Definition endpoint_ok (d : endpoint_desc) : Prop :=
  stream_in_range (SInfo (size (ed_blocks d)) (ed_static d) (ed_protocols d) (ed_extensions d) (ed_major d) (ed_minor d)) /\
  stream_in_range (SIdentity (ed_identity d)) /\
  stream_in_range (SConfigured (ed_protocol d) (ed_timestamps d)) /\
  Forall is_char7 (ed_name d) /\ Forall is_char7 (ed_product d) /\ size (ed_product d) <= 16 /\
  Forall block_ok (ed_blocks d).

(* what the browser is to find out when it asks with the bits of [f] *)
Definition asked (f i : Z) (l : list finding) : list finding := if bit i f then l else [].
Definition endpoint_findings (d : endpoint_desc) (f : Z) : list finding :=
  asked f 0 [FReport (RInfo (ed_major d) (ed_minor d) (256 * ed_major d + ed_minor d) (size (ed_blocks d)) (ed_static d)
                        (ed_protocols d) (ed_extensions d))] ++
  asked f 1 [FReport (RIdentity (ed_identity d))] ++
  asked f 2 [FText TName (ed_name d)] ++
  asked f 3 [FText TProduct (ed_product d)] ++
  asked f 4 [FReport (RConfiguration (ed_protocol d) (ed_timestamps d))].
(* ... and for function blocks; 255 asks for all of them *)
Definition block_findings (f : Z) (k : block_desc) : list finding :=
  let o := bd_options k in
  asked f 0 [FReport (RBlockInfo (fo_active o) (bd_index k) (fo_direction o) (fo_midi1 o)
                        (if fo_ui_hint o =? 0 then fo_direction o else fo_ui_hint o)
                        (bd_first_group k) (bd_groups k) (fo_ci_version o) (fo_sysex8 o))] ++
  asked f 1 [FText (TBlock (bd_index k)) (bd_name k)].
Definition blocks_findings (d : endpoint_desc) (b f : Z) : list finding :=
  concat (map (block_findings f) (filter (fun k => (b =? 255) || (b =? bd_index k)) (ed_blocks d))).

(* packets of type stream, and among them those that carry a part of a text *)
Definition stream_type (p : packet) : bool := nth 0 (bytes p) 0 / 16 =? 15.
Definition carries (s : text_sender) (p : packet) : bool :=
  stream_type p &&
  match s with
  | TName => nth 1 (bytes p) 0 =? 3
  | TProduct => nth 1 (bytes p) 0 =? 4
  | TBlock b => (nth 1 (bytes p) 0 =? 18) && (nth 2 (bytes p) 0 mod 128 =? b)
  end.
Definition about_text (s : text_sender) (x : finding) : bool :=
  match x with FText s' _ => text_key_eqb s s' | FReport _ => false end.
