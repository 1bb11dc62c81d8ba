(* Specification of the headers of property exchange messages: a parser of a subset of JSON
   (RFC 8259) and the fields each constructor should put into the header.

   The parser accepts objects without white space whose members are texts without escape
   sequences or integers.  It is strict: what it accepts is JSON.  Bytes from 128 on are taken
   as they are (they encode other characters). *)
From Coq Require Import ZArith List Bool Ascii String.
From Verif Require Import Base Sysex CapInq PropEx CapSpec CapCalls.
Import ListNotations.
Local Open Scope Z_scope.

Inductive jval := JText (t : list Z) | JInt (n : Z).

(* the text up to the closing quote, and what follows it *)
Fixpoint parse_text (t : list Z) : option (list Z * list Z) :=
  match t with
  | [] => None
  | c :: r =>
      if c =? 34 then Some ([], r)
      else if (c <? 32) || (c =? 92) then None
      else match parse_text r with Some (s, r') => Some (c :: s, r') | None => None end
  end.

Definition is_digit (c : Z) : bool := (48 <=? c) && (c <=? 57).
(* all leading digits, and what follows them *)
Fixpoint span_digits (t : list Z) : list Z * list Z :=
  match t with
  | c :: r => if is_digit c then let '(d, r') := span_digits r in (c :: d, r') else ([], t)
  | [] => ([], [])
  end.
Definition decimal (d : list Z) : Z := fold_left (fun a c => 10 * a + (c - 48)) d 0.
(* at least one digit, and no leading zeros *)
Definition proper_digits (d : list Z) : bool :=
  match d with [] => false | [_] => true | c :: _ => negb (c =? 48) end.
Definition parse_integer (t : list Z) : option (Z * list Z) :=
  match t with
  | 45 :: r => let '(d, r') := span_digits r in if proper_digits d then Some (- decimal d, r') else None
  | _ => let '(d, r') := span_digits t in if proper_digits d then Some (decimal d, r') else None
  end.

Definition parse_value (t : list Z) : option (jval * list Z) :=
  match t with
  | 34 :: r => match parse_text r with Some (s, r') => Some (JText s, r') | None => None end
  | _ => match parse_integer t with Some (n, r') => Some (JInt n, r') | None => None end
  end.
Definition parse_member (t : list Z) : option ((list Z * jval) * list Z) :=
  match t with
  | 34 :: r =>
      match parse_text r with
      | Some (k, 58 :: r') => match parse_value r' with Some (v, r'') => Some ((k, v), r'') | None => None end
      | _ => None
      end
  | _ => None
  end.
(* members separated by commas up to the closing brace, which must end the text; the number is
   a bound of the number of members *)
Fixpoint parse_members (n : nat) (t : list Z) : option (list (list Z * jval)) :=
  match n with
  | O => None
  | S m =>
      match parse_member t with
      | Some (kv, [125]) => Some [kv]
      | Some (kv, 44 :: r) => match parse_members m r with Some l => Some (kv :: l) | None => None end
      | _ => None
      end
  end.
Definition parse_object (t : list Z) : option (list (list Z * jval)) :=
  match t with
  | [123; 125] => Some []
  | 123 :: r => parse_members (List.length r) r
  | _ => None
  end.

(* texts that JSON represents by themselves *)
Definition plain (t : list Z) : Prop := Forall (fun c => 32 <= c < 256 /\ c <> 34 /\ c <> 92) t.

(* what the value of an option stands for: an integer if it is one in JSON, otherwise a text *)
Definition value_of (t : list Z) : jval :=
  match parse_integer t with Some (n, []) => JInt n | _ => JText t end.
(* made of digits after an optional sign, but not an integer in JSON: 007, -, -01 *)
Definition improper_number (t : list Z) : Prop :=
  t <> [] /\ Forall (fun c => is_digit c = true) (match t with 45 :: r => r | _ => t end) /\ parse_integer t = None.
Definition proper_option (o : list Z * list Z) : Prop :=
  plain (fst o) /\ plain (snd o) /\ snd o <> [] /\ ~ improper_number (snd o).
Definition option_field (o : list Z * list Z) : list Z * jval := (fst o, value_of (snd o)).

(* ---- the constructors ---------------------------------------------------------------- *)

(* arguments common to all: source, destination, request, device id *)
Record pe_common := mkCommon { pc_src : Z; pc_dst : Z; pc_request : Z; pc_device : Z }.
(* number of chunks, number of this chunk, contents *)
Record pe_chunk := mkChunk { pk_number : Z; pk_this : Z; pk_data : option (list Z) }.

Inductive pe_call :=
| PGetInquiry (resource : list Z)
| PGetInquiryOptions (resource : list Z) (options : list (list Z * list Z))
| PGetReply (header : option (list Z)) (k : pe_chunk)
| PGetReplyStatus (status : Z) (k : pe_chunk)
| PGetReplyMessage (status : Z) (message : list Z) (k : pe_chunk)
| PSetInquiry (resource : list Z) (k : pe_chunk)
| PSetInquiryOptions (resource : list Z) (options : list (list Z * list Z)) (k : pe_chunk)
| PSetInquiryBody (k : pe_chunk)
| PSetReply (status : Z)
| PSetReplyMessage (status : Z) (message : list Z)
| PSubscribe (resource command subscribeId : list Z)
| PSubscribeChunk (resource command subscribeId : list Z) (k : pe_chunk)
| PSubscribeBody (k : pe_chunk)
| PSubscribeReply (status : Z)
| PSubscribeReplyMessage (status : Z) (message : list Z)
| PNotify (status : Z)
| PNotifyMessage (status : Z) (message : list Z).

Definition pe_build (dbg : bool) (a : pe_common) (p : pe_call) : res sysex :=
  let '(mkCommon s d r dev) := a in
  match p with
  | PGetInquiry x => make_get_property_data_inquiry dbg s d x r dev
  | PGetInquiryOptions x o => make_get_property_data_inquiry_options dbg s d x o r dev
  | PGetReply h (mkChunk n t c) => make_get_property_data_reply dbg s d h n t c r dev
  | PGetReplyStatus x (mkChunk n t c) => make_get_property_data_reply_status dbg s d x n t c r dev
  | PGetReplyMessage x m (mkChunk n t c) => make_get_property_data_reply_message dbg s d x m n t c r dev
  | PSetInquiry x (mkChunk n t c) => make_set_property_data_inquiry dbg s d x n t c r dev
  | PSetInquiryOptions x o (mkChunk n t c) => make_set_property_data_inquiry_options dbg s d x o n t c r dev
  | PSetInquiryBody (mkChunk n t c) => make_set_property_data_inquiry_body dbg s d n t c r dev
  | PSetReply x => make_set_property_data_reply dbg s d x r dev
  | PSetReplyMessage x m => make_set_property_data_reply_message dbg s d x m r dev
  | PSubscribe x c i => make_subscription_inquiry dbg s d x c i r dev
  | PSubscribeChunk x c i (mkChunk n t k) => make_subscription_inquiry_chunk dbg s d x c i n t k r dev
  | PSubscribeBody (mkChunk n t c) => make_subscription_inquiry_body dbg s d n t c r dev
  | PSubscribeReply x => make_subscription_reply dbg s d x r dev
  | PSubscribeReplyMessage x m => make_subscription_reply_message dbg s d x m r dev
  | PNotify x => make_notify_message dbg s d x r dev
  | PNotifyMessage x m => make_notify_message_text dbg s d x m r dev
  end.

(* sub-id 2 of the message *)
Definition pe_subtype (p : pe_call) : Z :=
  match p with
  | PGetInquiry _ | PGetInquiryOptions _ _ => 0x34
  | PGetReply _ _ | PGetReplyStatus _ _ | PGetReplyMessage _ _ _ => 0x35
  | PSetInquiry _ _ | PSetInquiryOptions _ _ _ | PSetInquiryBody _ => 0x36
  | PSetReply _ | PSetReplyMessage _ _ => 0x37
  | PSubscribe _ _ _ | PSubscribeChunk _ _ _ _ | PSubscribeBody _ => 0x38
  | PSubscribeReply _ | PSubscribeReplyMessage _ _ => 0x39
  | PNotify _ | PNotifyMessage _ _ => 0x3F
  end.

(* the chunk of the message; constructors without chunk arguments make a message of one chunk,
   subscription inquiries one of zero chunks *)
Definition pe_chunk_of (p : pe_call) : pe_chunk :=
  match p with
  | PGetReply _ k | PGetReplyStatus _ k | PGetReplyMessage _ _ k
  | PSetInquiry _ k | PSetInquiryOptions _ _ k | PSetInquiryBody k
  | PSubscribeChunk _ _ _ k | PSubscribeBody k => k
  | PSubscribe _ _ _ => mkChunk 0 0 None
  | _ => mkChunk 1 1 None
  end.

(* the header: given by the caller, or these fields *)
Inductive pe_header := HGiven (h : option (list Z)) | HFields (l : list (list Z * jval)).

Definition resource_field (x : list Z) := (str "resource", JText x).
Definition status_field (x : Z) := (str "status", JInt x).
Definition message_field (m : list Z) := (str "message", value_of m).

Definition pe_header_of (p : pe_call) : pe_header :=
  match p with
  | PGetInquiry x | PSetInquiry x _ => HFields [resource_field x]
  | PGetInquiryOptions x o | PSetInquiryOptions x o _ => HFields (resource_field x :: map option_field o)
  | PGetReply h _ => HGiven h
  | PSetInquiryBody _ | PSubscribeBody _ => HGiven None
  | PGetReplyStatus x _ | PSetReply x | PSubscribeReply x | PNotify x => HFields [status_field x]
  | PGetReplyMessage x m _ | PSetReplyMessage x m | PSubscribeReplyMessage x m | PNotifyMessage x m =>
      HFields [status_field x; message_field m]
  | PSubscribe x c i | PSubscribeChunk x c i _ =>
      HFields [resource_field x; (str "command", value_of c); (str "subscribeId", value_of i)]
  end.

(* the texts of the arguments are plain and proper, status is an int *)
Definition proper_text (t : list Z) : Prop := plain t /\ t <> [] /\ ~ improper_number t.
Definition pe_proper (p : pe_call) : Prop :=
  match p with
  | PGetInquiry x | PSetInquiry x _ => plain x
  | PGetInquiryOptions x o | PSetInquiryOptions x o _ => plain x /\ Forall proper_option o
  | PGetReply _ _ | PSetInquiryBody _ | PSubscribeBody _ => True
  | PGetReplyStatus x _ | PSetReply x | PSubscribeReply x | PNotify x => is_s32 x
  | PGetReplyMessage x m _ | PSetReplyMessage x m | PSubscribeReplyMessage x m | PNotifyMessage x m =>
      is_s32 x /\ proper_text m
  | PSubscribe x c i | PSubscribeChunk x c i _ => plain x /\ proper_text c /\ proper_text i
  end.

(* the header text [h] is what the call asks for *)
Definition header_is (p : pe_call) (h : option (list Z)) : Prop :=
  match pe_header_of p with
  | HGiven g => h = g
  | HFields l => exists t, h = Some t /\ parse_object t = Some l
  end.

(* texts that appear in the header *)
Definition pe_texts (p : pe_call) : list Z :=
  match p with
  | PGetInquiry x | PSetInquiry x _ => x
  | PGetInquiryOptions x o | PSetInquiryOptions x o _ => x ++ List.concat (map (fun kv => fst kv ++ snd kv) o)
  | PGetReply h _ => match h with Some t => t | None => [] end
  | PSetInquiryBody _ | PSubscribeBody _ | PGetReplyStatus _ _ | PSetReply _ | PSubscribeReply _ | PNotify _ => []
  | PGetReplyMessage _ m _ | PSetReplyMessage _ m | PSubscribeReplyMessage _ m | PNotifyMessage _ m => m
  | PSubscribe x c i | PSubscribeChunk x c i _ => x ++ c ++ i
  end.

(* documented ranges, and a chunk only with a chunk number *)
Definition pe_in_range (a : pe_common) (k : pe_chunk) : Prop :=
  is_u28 (pc_src a) /\ is_u28 (pc_dst a) /\ is_u7 (pc_request a) /\ is_u7 (pc_device a) /\
  is_u14 (pk_number k) /\ is_u14 (pk_this k) /\
  (pk_number k = 0 \/ pk_this k <= pk_number k) /\ (pk_this k <> 0 \/ pk_data k = None) /\
  match pk_data k with Some d => SysexSpec.all7 d /\ size d < 16384 | None => True end.

Definition text_of (h : option (list Z)) : list Z := match h with Some t => t | None => [] end.

(* the call with this header, as specified in CapCalls.v *)
Definition pe_message (a : pe_common) (p : pe_call) (h : option (list Z)) : ci_call :=
  CPropertyData (pe_subtype p) (pc_src a) (pc_dst a) h
    (pk_number (pe_chunk_of p)) (pk_this (pe_chunk_of p)) (pk_data (pe_chunk_of p)) (pc_request a) (pc_device a).
