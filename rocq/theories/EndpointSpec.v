(* Specification vocabulary for UMP stream messages: the calls that make them, the bytes they
   stand for, and what reading a packet through a view gives. *)
From Coq Require Import ZArith List Bool.
From Verif Require Import Base Packet PacketSpec Sysex SysexSpec Endpoint.
Import ListNotations.
Local Open Scope Z_scope.
Local Open Scope res_scope.

(* ---- making messages ------------------------------------------------------------------------ *)

Inductive stream_call : Type :=
| SDiscovery (filter major minor : Z)
| SInfo (num : Z) (static : bool) (protocols extensions major minor : Z)
| SIdentity (i : device_identity)
| SName (format : Z) (text : list Z)
| SProduct (format : Z) (text : list Z)
| SConfigure (protocol extensions : Z)
| SConfigured (protocol extensions : Z)
| SBlockDiscovery (block filter : Z)
| SBlockInfo (block direction first num : Z)
| SBlockOptions (block : Z) (o : fb_options) (first num : Z)
| SBlockName (format block : Z) (text : list Z).

Definition stream_make (dbg : bool) (c : stream_call) : res packet :=
  match c with
  | SDiscovery f ma mi => make_endpoint_discovery_message f ma mi
  | SInfo n s pr e ma mi => make_endpoint_info_message n s pr e ma mi
  | SIdentity i => Ok (make_device_identity_message i)
  | SName f t => make_endpoint_name_message dbg f t
  | SProduct f t => make_product_instance_id_message dbg f t
  | SConfigure p e => make_stream_configuration_request dbg p e
  | SConfigured p e => make_stream_configuration_notification dbg p e
  | SBlockDiscovery b f => make_function_block_discovery_message dbg b f
  | SBlockInfo b d g n => make_function_block_info_message dbg b d g n
  | SBlockOptions b o g n => make_function_block_info_message_options dbg b o g n
  | SBlockName f b t => make_function_block_name_message dbg f b t
  end.

(* what the C++ types of the arguments admit *)
Definition stream_typed (c : stream_call) : Prop :=
  match c with
  | SDiscovery f ma mi => is_u8 f /\ is_u8 ma /\ is_u8 mi
  | SInfo n s pr e ma mi => is_u8 n /\ is_u8 pr /\ is_u8 e /\ is_u8 ma /\ is_u8 mi
  | SIdentity i => is_u32 (di_manufacturer i) /\ is_u16 (di_family i) /\ is_u16 (di_model i) /\ is_u32 (di_revision i)
  | SName f t => 0 <= f < 4 /\ Forall is_u8 t
  | SProduct f t => 0 <= f < 4 /\ Forall is_u8 t
  | SConfigure p e => is_u8 p /\ is_u8 e
  | SConfigured p e => is_u8 p /\ is_u8 e
  | SBlockDiscovery b f => is_u8 b /\ is_u8 f
  | SBlockInfo b d g n => is_u8 b /\ is_u8 d /\ is_u8 g /\ is_u8 n
  | SBlockOptions b o g n =>
      is_u8 b /\ is_u8 (fo_direction o) /\ is_u8 (fo_midi1 o) /\ is_u8 (fo_ui_hint o) /\
      is_u8 (fo_ci_version o) /\ is_u8 (fo_sysex8 o) /\ is_u8 g /\ is_u8 n
  | SBlockName f b t => 0 <= f < 4 /\ is_u8 b /\ Forall is_u8 t
  end.

(* what builds with assertions insist on *)
Definition stream_checked (c : stream_call) : Prop :=
  match c with
  | SName f t => size t <= 14
  | SProduct f t => size t <= 14 /\ f <> 2
  | SConfigure p e => p = 1 \/ p = 2
  | SConfigured p e => p = 1 \/ p = 2
  | SBlockDiscovery b f => b = 255 \/ b < 32
  | SBlockInfo b d g n => b < 32 /\ 1 <= d <= 3
  | SBlockOptions b o g n =>
      b < 32 /\ 1 <= fo_direction o <= 3 /\ fo_midi1 o <= 2 /\
      (* the user interface hint names a direction the block has, or none *)
      (fo_ui_hint o = 0 \/ (fo_ui_hint o <= 3 /\
        (fo_direction o = 3 \/ fo_ui_hint o = 3 \/ fo_ui_hint o = fo_direction o)))
  | SBlockName f b t => size t <= 13
  | _ => True
  end.

(* byte i of a 32 bit word, most significant first *)
Definition word_byte (i : Z) (w : Z) : Z := w / 256 ^ (3 - i) mod 256.

(* the message: format and status, then the bytes given here, then zeros *)
Definition stream_packet (format st : Z) (rest : list Z) : packet :=
  packet_of_bytes ((15 * 16 + format * 4) :: st :: rest).

Definition ui_field (o : fb_options) : Z :=
  if fo_ui_hint o =? 0 then fo_direction o mod 4 else fo_ui_hint o mod 4.

Definition stream_wire (c : stream_call) : packet :=
  match c with
  | SDiscovery f ma mi => stream_packet 0 0 [ma; mi; 0; 0; 0; f]
  | SInfo n s pr e ma mi => stream_packet 0 1 [ma; mi; (if s then 128 + n mod 128 else n); 0; pr; e]
  | SIdentity i =>
      stream_packet 0 2 ([0; 0] ++
        [word_byte 0 (di_manufacturer i); word_byte 1 (di_manufacturer i);
         word_byte 2 (di_manufacturer i); word_byte 3 (di_manufacturer i)] ++
        le7 2 (di_family i) ++ le7 2 (di_model i) ++ le7 4 (di_revision i))
  | SName f t => stream_packet f 3 (firstn 14 t)
  | SProduct f t => stream_packet f 4 (firstn 14 (map (fun c => c mod 128) t))
  | SConfigure p e => stream_packet 0 5 [p; e]
  | SConfigured p e => stream_packet 0 6 [p; e]
  | SBlockDiscovery b f => stream_packet 0 16 [b; f]
  | SBlockInfo b d g n =>
      stream_packet 0 17 [128 + b mod 32; 16 * (d mod 4) + d mod 4; g mod 16; n mod 16]
  | SBlockOptions b o g n =>
      stream_packet 0 17
        [(if fo_active o then 128 else 0) + b mod 32;
         16 * ui_field o + 4 * (fo_midi1 o mod 4) + fo_direction o mod 4;
         g mod 16; n mod 16; fo_ci_version o; fo_sysex8 o]
  | SBlockName f b t => stream_packet f 18 (b :: firstn 13 t)
  end.

(* ---- reading messages ----------------------------------------------------------------------- *)

Inductive stream_kind : Type :=
| KDiscovery | KInfo | KIdentity | KName | KProduct | KConfiguration | KBlockDiscovery | KBlockInfo | KBlockName.

Definition stream_view (dbg : bool) (k : stream_kind) (p : packet) : res packet :=
  match k with
  | KDiscovery => endpoint_discovery_view dbg p
  | KInfo => endpoint_info_view dbg p
  | KIdentity => device_identity_view dbg p
  | KName => endpoint_name_view dbg p
  | KProduct => product_instance_id_view dbg p
  | KConfiguration => stream_configuration_view dbg p
  | KBlockDiscovery => function_block_discovery_view dbg p
  | KBlockInfo => function_block_info_view dbg p
  | KBlockName => function_block_name_view dbg p
  end.

Definition as_stream_view (dbg : bool) (k : stream_kind) (p : packet) : res (option packet) :=
  match k with
  | KDiscovery => as_endpoint_discovery_view dbg p
  | KInfo => as_endpoint_info_view dbg p
  | KIdentity => as_device_identity_view dbg p
  | KName => as_endpoint_name_view dbg p
  | KProduct => as_product_instance_id_view dbg p
  | KConfiguration => as_stream_configuration_view dbg p
  | KBlockDiscovery => as_function_block_discovery_view dbg p
  | KBlockInfo => as_function_block_info_view dbg p
  | KBlockName => as_function_block_name_view dbg p
  end.

(* the second byte of a message of that kind *)
Definition kind_status (k : stream_kind) (st : Z) : Prop :=
  match k with
  | KDiscovery => st = 0
  | KInfo => st = 1
  | KIdentity => st = 2
  | KName => st = 3
  | KProduct => st = 4
  | KConfiguration => st = 5 \/ st = 6
  | KBlockDiscovery => st = 16
  | KBlockInfo => st = 17
  | KBlockName => st = 18
  end.
Definition of_kind (k : stream_kind) (p : packet) : Prop :=
  nth 0 (bytes p) 0 / 16 = 15 /\ kind_status k (nth 1 (bytes p) 0).

(* everything a view says about the packet *)
Inductive stream_report : Type :=
| RDiscovery (major minor version filter : Z) (info identity name product configuration : bool)
| RInfo (major minor version num : Z) (static : bool) (protocols extensions : Z)
| RIdentity (i : device_identity)
| RName (format : Z) (text : list Z)
| RProduct (format : Z) (text : list Z)
| RConfiguration (protocol extensions : Z)
| RBlockDiscovery (block filter : Z) (info name : bool)
| RBlockInfo (active : bool) (block direction midi1 ui_hint first num ci_version sysex8 : Z)
| RBlockName (format block : Z) (text : list Z).

Definition stream_read (k : stream_kind) (p : packet) : res stream_report :=
  match k with
  | KDiscovery =>
      Ok (RDiscovery (discovery_ump_version_major p) (discovery_ump_version_minor p) (discovery_ump_version p)
            (discovery_filter p) (requests_info p) (requests_device_identity p) (requests_name p)
            (requests_product_instance_id p) (requests_stream_configuration p))
  | KInfo =>
      n <- num_function_blocks p ;; s <- static_function_blocks p ;;
      pr <- info_protocols p ;; e <- info_extensions p ;;
      Ok (RInfo (info_ump_version_major p) (info_ump_version_minor p) (info_ump_version p) n s pr e)
  | KIdentity => Ok (RIdentity (stream_identity p))
  | KName => t <- endpoint_name_payload p ;; Ok (RName (endpoint_name_format p) t)
  | KProduct => t <- product_instance_id_payload p ;; Ok (RProduct (product_instance_id_format p) t)
  | KConfiguration => Ok (RConfiguration (configuration_protocol p) (configuration_extensions p))
  | KBlockDiscovery =>
      Ok (RBlockDiscovery (fb_discovery_block p) (fb_discovery_filter p) (fb_requests_info p) (fb_requests_name p))
  | KBlockInfo =>
      b <- fb_block p ;; g <- fb_first_group p ;; n <- fb_num_groups p ;; v <- fb_ci_version p ;; s <- fb_max_sysex8 p ;;
      Ok (RBlockInfo (fb_active p) b (fb_direction p) (fb_midi1 p) (fb_ui_hint p) g n v s)
  | KBlockName => t <- fb_name_payload p ;; Ok (RBlockName (fb_name_format p) (fb_name_block p) t)
  end.

(* the characters before the first zero *)
Fixpoint until_zero (l : list Z) : list Z :=
  match l with
  | [] => []
  | c :: t => if c =? 0 then [] else c :: until_zero t
  end.
Definition text7 (l : list Z) : list Z := until_zero (map (fun c => c mod 128) l).

(* bit i of a number *)
Definition bit (i : Z) (v : Z) : bool := Z.odd (v / 2 ^ i).

(* what the bytes of the packet mean, by the message format *)
Definition stream_meaning (k : stream_kind) (l : list Z) : stream_report :=
  let b i := nth i l 0 in
  match k with
  | KDiscovery =>
      let f := b 7%nat mod 32 in
      RDiscovery (b 2%nat) (b 3%nat) (256 * b 2%nat + b 3%nat) f (bit 0 f) (bit 1 f) (bit 2 f) (bit 3 f) (bit 4 f)
  | KInfo =>
      RInfo (b 2%nat) (b 3%nat) (256 * b 2%nat + b 3%nat) (b 4%nat mod 128) (bit 7 (b 4%nat))
        (b 6%nat mod 4) (b 7%nat mod 4)
  | KIdentity =>
      let d i := b i mod 128 in
      RIdentity (mkDevId (65536 * d 5%nat + 256 * d 6%nat + d 7%nat)
        (val7 [d 8; d 9])%nat (val7 [d 10; d 11])%nat (val7 [d 12; d 13; d 14; d 15])%nat)
  | KName => RName (b 0%nat / 4 mod 4) (text7 (skipn 2 l))
  | KProduct => RProduct (b 0%nat / 4 mod 4) (text7 (skipn 2 l))
  | KConfiguration => RConfiguration (b 2%nat mod 4) (b 3%nat mod 4)
  | KBlockDiscovery =>
      let f := b 3%nat mod 16 in RBlockDiscovery (b 2%nat) f (bit 0 f) (bit 1 f)
  | KBlockInfo =>
      RBlockInfo (bit 7 (b 2%nat)) (b 2%nat mod 128) (b 3%nat mod 4) (b 3%nat / 4 mod 4) (b 3%nat / 16 mod 4)
        (b 4%nat) (b 5%nat) (b 6%nat) (b 7%nat)
  | KBlockName => RBlockName (b 0%nat / 4 mod 4) (b 2%nat mod 128) (text7 (skipn 3 l))
  end.

(* ---- arguments that come back ---------------------------------------------------------------- *)

(* characters a stream message can carry *)
Definition is_char7 (c : Z) : Prop := 1 <= c <= 127.

Definition stream_in_range (c : stream_call) : Prop :=
  match c with
  | SDiscovery f ma mi => 0 <= f < 32 /\ is_u8 ma /\ is_u8 mi
  | SInfo n s pr e ma mi => 0 <= n < 128 /\ 0 <= pr < 4 /\ 0 <= e < 4 /\ is_u8 ma /\ is_u8 mi
  | SIdentity i =>
      (exists m0 m1 m2, is_u7 m0 /\ is_u7 m1 /\ is_u7 m2 /\ di_manufacturer i = 65536 * m0 + 256 * m1 + m2) /\
      is_u14 (di_family i) /\ is_u14 (di_model i) /\ is_u28 (di_revision i)
  | SName f t => 0 <= f < 4 /\ Forall is_char7 t /\ size t <= 14
  | SProduct f t => 0 <= f < 4 /\ f <> 2 /\ Forall is_char7 t /\ size t <= 14
  | SConfigure p e => 1 <= p <= 2 /\ 0 <= e < 4
  | SConfigured p e => 1 <= p <= 2 /\ 0 <= e < 4
  | SBlockDiscovery b f => (0 <= b < 32 \/ b = 255) /\ 0 <= f < 16
  | SBlockInfo b d g n => 0 <= b < 32 /\ 1 <= d <= 3 /\ 0 <= g < 16 /\ 0 <= n < 16
  | SBlockOptions b o g n =>
      0 <= b < 32 /\ 1 <= fo_direction o <= 3 /\ 0 <= fo_midi1 o <= 2 /\
      0 <= fo_ui_hint o <= 3 /\ (fo_ui_hint o = 0 \/ fo_direction o = 3 \/ fo_ui_hint o = 3 \/ fo_ui_hint o = fo_direction o) /\
      is_u8 (fo_ci_version o) /\ is_u8 (fo_sysex8 o) /\ 0 <= g < 16 /\ 0 <= n < 16
  | SBlockName f b t => 0 <= f < 4 /\ is_u7 b /\ Forall is_char7 t /\ size t <= 13
  end.

Definition call_kind (c : stream_call) : stream_kind :=
  match c with
  | SDiscovery _ _ _ => KDiscovery
  | SInfo _ _ _ _ _ _ => KInfo
  | SIdentity _ => KIdentity
  | SName _ _ => KName
  | SProduct _ _ => KProduct
  | SConfigure _ _ | SConfigured _ _ => KConfiguration
  | SBlockDiscovery _ _ => KBlockDiscovery
  | SBlockInfo _ _ _ _ | SBlockOptions _ _ _ _ => KBlockInfo
  | SBlockName _ _ _ => KBlockName
  end.

Definition call_report (c : stream_call) : stream_report :=
  match c with
  | SDiscovery f ma mi => RDiscovery ma mi (256 * ma + mi) f (bit 0 f) (bit 1 f) (bit 2 f) (bit 3 f) (bit 4 f)
  | SInfo n s pr e ma mi => RInfo ma mi (256 * ma + mi) n s pr e
  | SIdentity i => RIdentity i
  | SName f t => RName f t
  | SProduct f t => RProduct f t
  | SConfigure p e => RConfiguration p e
  | SConfigured p e => RConfiguration p e
  | SBlockDiscovery b f => RBlockDiscovery b f (bit 0 f) (bit 1 f)
  | SBlockInfo b d g n => RBlockInfo true b d 0 d g n 0 0
  | SBlockOptions b o g n =>
      RBlockInfo (fo_active o) b (fo_direction o) (fo_midi1 o)
        (if fo_ui_hint o =? 0 then fo_direction o else fo_ui_hint o) g n (fo_ci_version o) (fo_sysex8 o)
  | SBlockName f b t => RBlockName f b t
  end.

(* ---- texts in several packets ----------------------------------------------------------------- *)

(* formats of a message of several packets: complete, or start continue* end *)
Inductive text_formats : list Z -> Prop :=
| formats_one : text_formats [0]
| formats_many n : text_formats (1 :: repeat 2 n ++ [3]).

(* [text] cut into pieces of [k], only the last of which may be shorter; it is not empty unless
   the whole text is *)
Fixpoint pieces (k : nat) (l : list (list Z)) : Prop :=
  match l with
  | [] => False
  | [c] => (length c <= k)%nat
  | c :: rest => length c = k /\ pieces k rest /\ rest <> [[]]
  end.

(* the three senders *)
Inductive text_sender : Type := TName | TProduct | TBlock (block : Z).
Definition sender_typed (s : text_sender) : Prop := match s with TBlock b => is_u8 b | _ => True end.
Definition send_text (dbg : bool) (s : text_sender) (t : list Z) : res (list packet) :=
  match s with
  | TName => send_endpoint_name dbg t
  | TProduct => send_product_instance_id dbg t
  | TBlock b => send_function_block_name dbg b t
  end.
(* characters per packet *)
Definition room (s : text_sender) : nat := match s with TBlock _ => 13 | _ => 14 end.
Definition text_call (s : text_sender) (f : Z) (t : list Z) : stream_call :=
  match s with TName => SName f t | TProduct => SProduct f t | TBlock b => SBlockName f b t end.
Definition text_kind (s : text_sender) : stream_kind :=
  match s with TName => KName | TProduct => KProduct | TBlock _ => KBlockName end.

(* bytes whose low seven bits are not all zero *)
Definition visible (c : Z) : Prop := is_u8 c /\ c mod 128 <> 0.

Definition stream_text (k : stream_kind) (p : packet) : res (list Z) :=
  match k with
  | KName => endpoint_name_payload p
  | KProduct => product_instance_id_payload p
  | _ => fb_name_payload p
  end.
Definition text_format (k : stream_kind) (p : packet) : Z :=
  match k with
  | KName => endpoint_name_format p
  | KProduct => product_instance_id_format p
  | _ => fb_name_format p
  end.
