(* Reference semantics of collecting SysEx packets.

   A packet is read from its 16 wire bytes as (format, stream, payload).  What a
   collector delivers is a function of the payload bytes collected since the message
   was opened. *)
From Coq Require Import ZArith List Bool.
From Verif Require Import Base Packet PacketSpec Sysex Collector StreamSpec.
Import ListNotations.
Local Open Scope Z_scope.
Local Open Scope res_scope.

(* ---- reading packets ------------------------------------------------------------- *)

(* format 0 complete, 1 start, 2 continue, 3 end *)
Record content : Type := mkCt { ct_format : Z; ct_stream : Z; ct_payload : list Z }.

Definition content7 (p : packet) : option content :=
  let b := bytes p in let s := nth 1 b 0 in
  if (nth 0 b 0 / 16 =? 3) && (s / 16 <? 4) && (s mod 16 <=? 6)
  then Some (mkCt (s / 16) 0 (firstn (Z.to_nat (s mod 16)) (skipn 2 b)))
  else None.

(* the size field of a SysEx8 packet includes the stream id *)
Definition content8 (p : packet) : option content :=
  let b := bytes p in let s := nth 1 b 0 in
  if (nth 0 b 0 / 16 =? 5) && (s / 16 <? 4) && (1 <=? s mod 16) && (s mod 16 <=? 14)
  then Some (mkCt (s / 16) (nth 2 b 0) (firstn (Z.to_nat (s mod 16 - 1)) (skipn 3 b)))
  else None.

(* ---- manufacturer id and data of collected bytes ----------------------------------- *)

Definition decode7 (l : list Z) : sysex :=
  match l with
  | [] => mkSx 0 []
  | m :: r =>
      if m =? 0 then
        match r with
        | [] => mkSx 0 []
        | [a] => mkSx (a * 256) []
        | a :: b :: r' => mkSx (a * 256 + b) r'
        end
      else mkSx (m * 65536) r
  end.

Definition decode8 (l : list Z) : sysex :=
  match l with
  | [] => mkSx 0 []
  | m :: r =>
      if 128 <=? m then
        match r with
        | [] => mkSx ((m - 128) * 256) []
        | b :: r' => mkSx ((m - 128) * 256 + b mod 128) r'
        end
      else match r with
           | [] => mkSx 0 []
           | b :: r' => mkSx (if m =? 0 then b mod 128 * 65536 else 0) r'
           end
  end.

Definition id_bytes8 (id : Z) : list Z :=
  if id mod 65536 =? 0 then [0; id / 65536] else [128 + id / 256; id mod 256].

(* ---- collecting ---------------------------------------------------------------------- *)

(* bytes collected, whether a message is open, its stream *)
Record astate : Type := mkA { a_bytes : list Z; a_open : bool; a_stream : Z }.

Definition data_size (dec : list Z -> sysex) (l : list Z) : Z := size (sx_data (dec l)).

(* one packet, with size limit [max] (0: none) *)
Definition a_step (dec : list Z -> sysex) (max : Z) (st : astate) (x : content)
  : astate * list (sysex * Z) :=
  let opening := ct_format x <? 2 in
  if negb opening && negb (a_open st) then (mkA [] false 0, [])
  else if negb opening && negb (ct_stream x =? a_stream st) then (st, [])
  else
    (* a refused packet leaves its predecessors behind *)
    let base := if opening && a_open st then [] else a_bytes st in
    let all := base ++ ct_payload x in
    if (0 <? max) && (max <? data_size dec base + size (ct_payload x))
    then (mkA base false (ct_stream x), [])
    else if (ct_format x =? 0) || (ct_format x =? 3)
    then (mkA [] false 0, [(dec all, ct_stream x)])
    else (mkA all true (ct_stream x), []).

Fixpoint a_run (dec : list Z -> sysex) (max : Z) (st : astate) (xs : list content)
  : astate * list (sysex * Z) :=
  match xs with
  | [] => (st, [])
  | x :: xs' =>
      let r := a_step dec max st x in
      let r' := a_run dec max (fst r) xs' in
      (fst r', snd r ++ snd r')
  end.

Definition a_idle : astate := mkA [] false 0.

(* calls of a collector whose limit is set before use; [rd] reads a packet *)
Fixpoint a_calls (rd : packet -> option content) (dec : list Z -> sysex) (max : Z) (cb : bool)
  (st : astate) (ks : list collector_call) : astate * list (sysex * Z) :=
  match ks with
  | [] => (st, [])
  | KFeed p :: ks' =>
      match rd p with
      | None => a_calls rd dec max cb st ks'
      | Some x =>
          let r := a_step dec max st x in
          let r' := a_calls rd dec max cb (fst r) ks' in
          (fst r', (if cb then snd r else []) ++ snd r')
      end
  | KReset :: ks' => a_calls rd dec max cb a_idle ks'
  | KSetMax _ :: ks' => a_calls rd dec max cb st ks'
  | KSetCallback cb' :: ks' => a_calls rd dec max cb' st ks'
  end.

(* calls that do not change the limit *)
Definition keeps_limit (k : collector_call) : Prop :=
  match k with
  | KFeed p => wf_packet p
  | KSetMax _ => False
  | KReset | KSetCallback _ => True
  end.

(* ---- what is delivered, in terms of the packets received ----------------------------- *)

(* [h] are the packets received before [x]; [v] is delivered at [x] *)
Definition delivered7 (h : list content) (x : content) (v : sysex) : Prop :=
  (ct_format x = 0 /\ v = decode7 (ct_payload x)) \/
  (ct_format x = 3 /\ exists h0 s cs, h = h0 ++ s :: cs /\ ct_format s = 1 /\
     Forall (fun c => ct_format c = 2) cs /\
     v = decode7 (ct_payload s ++ concat (map ct_payload cs) ++ ct_payload x)).

(* SysEx8: packets of other streams between start and end do not matter, unless they
   start a new message *)
Definition same_stream (i : Z) (c : content) : bool := ct_stream c =? i.
Definition delivered8 (h : list content) (x : content) (v : sysex) : Prop :=
  (ct_format x = 0 /\ v = decode8 (ct_payload x)) \/
  (ct_format x = 3 /\ exists h0 s cs, h = h0 ++ s :: cs /\ ct_format s = 1 /\
     ct_stream s = ct_stream x /\ Forall (fun c => 2 <= ct_format c) cs /\
     let mine := filter (same_stream (ct_stream x)) cs in
     Forall (fun c => ct_format c = 2) mine /\
     v = decode8 (ct_payload s ++ concat (map ct_payload mine) ++ ct_payload x)).

(* ---- complete messages ----------------------------------------------------------------- *)

Fixpoint message_tail (i : Z) (chunks : list (list Z)) : list content :=
  match chunks with
  | [] => []
  | [c] => [mkCt 3 i c]
  | c :: r => mkCt 2 i c :: message_tail i r
  end.
Definition message_of (i : Z) (chunks : list (list Z)) : list content :=
  match chunks with
  | [] => []
  | [c] => [mkCt 0 i c]
  | c :: r => mkCt 1 i c :: message_tail i r
  end.

(* every chunk fits when it arrives *)
Fixpoint fits (dec : list Z -> sysex) (max : Z) (acc : list Z) (chunks : list (list Z)) : Prop :=
  match chunks with
  | [] => True
  | c :: r => data_size dec acc + size c <= max /\ fits dec max (acc ++ c) r
  end.

(* ---- packet layout of SysEx8 ------------------------------------------------------------ *)

(* up to 13 payload bytes; the size field also counts the stream id *)
Definition sx8_packet (g fmt stream : Z) (ds : list Z) : packet :=
  packet_of_bytes ((5 * 16 + g) :: (fmt * 16 + Z.of_nat (length ds) + 1) :: stream :: ds).
Fixpoint sx8_tail (g stream : Z) (chunks : list (list Z)) : list packet :=
  match chunks with
  | [] => []
  | [c] => [sx8_packet g 3 stream c]
  | c :: rest => sx8_packet g 2 stream c :: sx8_tail g stream rest
  end.
Definition sx8_sequence (g stream : Z) (chunks : list (list Z)) : list packet :=
  match chunks with
  | [] => []
  | [c] => [sx8_packet g 0 stream c]
  | c :: rest => sx8_packet g 1 stream c :: sx8_tail g stream rest
  end.

(* [k] bytes in every chunk but the last, which is not empty *)
Fixpoint full_chunks (k : nat) (chunks : list (list Z)) : Prop :=
  match chunks with
  | [] => False
  | [c] => (1 <= length c <= k)%nat
  | c :: rest => length c = k /\ full_chunks k rest
  end.

(* the data sizes for which send_sysex8 miscounts *)
Definition miscounted8 (id n : Z) : Prop :=
  (id = 0 /\ (n = 12 \/ n = 13)) \/
  (65536 <= id /\ n = 12) \/
  (0 < id < 65536 /\ n = 11).

(* ---- packets and collector states --------------------------------------------------------- *)

(* the SysEx packets among [ps] *)
Fixpoint contents (rd : packet -> option content) (ps : list packet) : list content :=
  match ps with
  | [] => []
  | p :: ps' => match rd p with Some x => x :: contents rd ps' | None => contents rd ps' end
  end.

(* no bytes of a refused message are left behind *)
Definition a_clean (st : astate) : Prop := a_open st = true \/ a_bytes st = [].

(* collectors with a limit (0: none) set before use, after any calls not changing it *)
Definition reached7 (a : allocator) (max : Z) (c : collector7) : Prop :=
  exists cb ks o, Forall keeps_limit ks /\
    c7_calls a (c7_set_max a (new_collector7 cb) max) ks = Ok (c, o).
Definition reached8 (a : allocator) (max : Z) (c : collector8) : Prop :=
  exists cb ks o, Forall keeps_limit ks /\
    c8_calls a (c8_set_max a (new_collector8 cb) max) ks = Ok (c, o).

(* a packet of stream [i], or not SysEx8 *)
Definition own_packet (i : Z) (p : packet) : bool :=
  match content8 p with Some x => ct_stream x =? i | None => true end.
