(* Property exchange between two clients of the library: a sender that divides the body of a property into chunks, and a
   receiver that puts them together again.  Both are users' programs composed of the modelled functions of /repo; they
   have no counterpart in /repo, where the constructors and views of single messages are
   inc/midi/capability_inquiry.h:1741-1867, 1944-2380 and src/capability_inquiry.cpp:213-285. *)
From Coq Require Import ZArith List Bool.
From Verif Require Import Base Sysex UniversalSysex CapInq CapSpec JsonSpec.
Import ListNotations.
Local Open Scope Z_scope.
Local Open Scope res_scope.

(* ---- the sender ------------------------------------------------------------------------ *)

(* how the first chunk is constructed; the other chunks have no header *)
Inductive opening :=
| OReply (header : list Z)
| OReplyStatus (status : Z)
| OReplyMessage (status : Z) (message : list Z)
| OSet (resource : list Z)
| OSetOptions (resource : list Z) (options : list (list Z * list Z))
| OSubscribe (resource command subscribeId : list Z).

Definition first_call (o : opening) (k : pe_chunk) : pe_call :=
  match o with
  | OReply h => PGetReply (Some h) k
  | OReplyStatus x => PGetReplyStatus x k
  | OReplyMessage x m => PGetReplyMessage x m k
  | OSet r => PSetInquiry r k
  | OSetOptions r l => PSetInquiryOptions r l k
  | OSubscribe r c i => PSubscribeChunk r c i k
  end.
Definition later_call (o : opening) (k : pe_chunk) : pe_call :=
  match o with
  | OReply _ | OReplyStatus _ | OReplyMessage _ _ => PGetReply None k
  | OSet _ | OSetOptions _ _ => PSetInquiryBody k
  | OSubscribe _ _ _ => PSubscribeBody k
  end.

(* one property: the arguments common to all its messages, the opening, the pieces of its body *)
Record transfer := mkTransfer {
  tr_common : pe_common;
  tr_opening : opening;
  tr_first : list Z;
  tr_rest : list (list Z)
}.
Definition tr_count (x : transfer) : Z := 1 + size (tr_rest x).

(* the chunks with numbers from i *)
Fixpoint later_messages (dbg : bool) (x : transfer) (i : Z) (ps : list (list Z)) : res (list sysex) :=
  match ps with
  | [] => Ok []
  | p :: r =>
      m <- pe_build dbg (tr_common x) (later_call (tr_opening x) (mkChunk (tr_count x) i (Some p))) ;;
      ms <- later_messages dbg x (i + 1) r ;;
      Ok (m :: ms)
  end.
Definition transfer_messages (dbg : bool) (x : transfer) : res (list sysex) :=
  m <- pe_build dbg (tr_common x) (first_call (tr_opening x) (mkChunk (tr_count x) 1 (Some (tr_first x)))) ;;
  ms <- later_messages dbg x 2 (tr_rest x) ;;
  Ok (m :: ms).

(* ---- the receiver ---------------------------------------------------------------------- *)

(* what property_data_message_view tells of a message, CI.h:1824-1867 *)
Record chunk_msg := mkCM {
  cm_subtype : Z; cm_source : Z; cm_destination : Z; cm_request : Z;
  cm_header : list Z; cm_count : Z; cm_index : Z; cm_data : list Z
}.
Definition read_chunk (dbg : bool) (s : sysex) : res (option chunk_msg) :=
  v <- as_view dbg property_data_validate s ;;
  match v with
  | None => Ok None
  | Some v =>
      t <- view_subtype v ;; a <- source_muid v ;; b <- destination_muid v ;; r <- request_id v ;;
      h <- header_data v ;; n <- number_of_chunks v ;; i <- number_of_this_chunk v ;; d <- chunk_data v ;;
      Ok (Some (mkCM t a b r h n i d))
  end.

(* a transfer is known by the kind of the message, the sender and the request id *)
Definition tkey : Type := (Z * Z * Z)%type.
Definition tkey_eqb (a b : tkey) : bool :=
  let '(a1, a2, a3) := a in let '(b1, b2, b3) := b in (a1 =? b1) && (a2 =? b2) && (a3 =? b3).
Definition cm_key (m : chunk_msg) : tkey := (cm_subtype m, cm_source m, cm_request m).

(* an incomplete transfer: header, the number of the last chunk, the body so far *)
Record pending := mkPend { pd_key : tkey; pd_header : list Z; pd_last : Z; pd_body : list Z }.
(* a complete one *)
Record received := mkRecv { rv_key : tkey; rv_header : list Z; rv_body : list Z }.

Definition in_sequence (old : option pending) (m : chunk_msg) : option (list Z * list Z) :=
  if cm_index m =? 1 then Some (cm_header m, cm_data m)
  else match old with
       | Some o => if pd_last o + 1 =? cm_index m then Some (pd_header o, pd_body o ++ cm_data m) else None
       | None => None
       end.
(* chunk 1 starts a transfer anew, a chunk out of sequence ends it *)
Definition receive_chunk (ps : list pending) (m : chunk_msg) : list pending * list received :=
  let k := cm_key m in
  let others := filter (fun o => negb (tkey_eqb k (pd_key o))) ps in
  match in_sequence (find (fun o => tkey_eqb k (pd_key o)) ps) m with
  | None => (others, [])
  | Some (h, b) =>
      if cm_index m =? cm_count m then (others, [mkRecv k h b])
      else (mkPend k h (cm_index m) b :: others, [])
  end.
Definition receive_sysex (dbg : bool) (me : Z) (ps : list pending) (s : sysex) : res (list pending * list received) :=
  r <- read_chunk dbg s ;;
  match r with
  | Some m => if cm_destination m =? me then Ok (receive_chunk ps m) else Ok (ps, [])
  | None => Ok (ps, [])
  end.
Fixpoint receive_all (dbg : bool) (me : Z) (ps : list pending) (ss : list sysex) : res (list pending * list received) :=
  match ss with
  | [] => Ok (ps, [])
  | s :: r =>
      a <- receive_sysex dbg me ps s ;;
      b <- receive_all dbg me (fst a) r ;;
      Ok (fst b, snd a ++ snd b)
  end.
