(* Growing: the functions of inc/midi/sysex.h, src/sysex.cpp and src/universal_sysex.cpp that append to the data vector of a
   SysEx, once more, with the calls of the vector's allocator.

   [ok n] tells whether the allocator provides memory when it is asked for the time n.  insert() at the end and push_back() have
   no effect if the allocator throws ([vector.modifiers]); none of the functions has a handler.  When it has to, the vector
   grows to size + max(size, number of new bytes) or more, as in libstdc++; reserve() is the parameter of Collector.v.

   The functions return the object left behind and whether they returned rather than throw. *)
From Coq Require Import ZArith List Bool.
From Verif Require Import Base Packet Sysex UniversalSysex Collector.
Import ListNotations.
Local Open Scope Z_scope.
Local Open Scope res_scope.

(* a SysEx, data.capacity(), and how often the allocator was asked so far *)
Record growing : Type := mkG { gr_sysex : sysex; gr_capacity : Z; gr_asked : nat }.
Definition gresult : Type := res (growing * bool).

(* statements in sequence; an exception skips the rest *)
Definition then_m (r : gresult) (k : growing -> gresult) : gresult :=
  x <- r ;; let '(st, returned) := x in if returned then k st else Ok (st, false).

(* data.insert(data.end(), first, last), also data.push_back() for one byte *)
Definition insert_m (a : allocator) (ok : nat -> bool) (st : growing) (ds : list Z) : gresult :=
  let s := gr_sysex st in
  let len := size (sx_data s) in
  if len + size ds <=? gr_capacity st then Ok (mkG (push s ds) (gr_capacity st) (gr_asked st), true)
  else if ok (gr_asked st) then
    Ok (mkG (push s ds) (al_reserve a (gr_capacity st) (len + Z.max len (size ds))) (S (gr_asked st)), true)
  else Ok (mkG s (gr_capacity st) (S (gr_asked st)), false).
(* data.reserve() *)
Definition reserve_m (a : allocator) (ok : nat -> bool) (st : growing) (n : Z) : gresult :=
  if n <=? gr_capacity st then Ok (st, true)
  else if ok (gr_asked st) then Ok (mkG (gr_sysex st) (al_reserve a (gr_capacity st) n) (S (gr_asked st)), true)
  else Ok (mkG (gr_sysex st) (gr_capacity st) (S (gr_asked st)), false).

(* sysex.h:101-105; an empty vector has no memory *)
Definition new_growing (id : Z) : growing := mkG (mkSx id []) 0 0.
(* sysex.h:111-116 *)
Definition new_with_capacity (a : allocator) (ok : nat -> bool) (id n : Z) : gresult := reserve_m a ok (new_growing id) n.

(* sysex.cpp:72-79 *)
Definition clear_m (a : allocator) (st : growing) : growing :=
  mkG sysex_empty_value (clear_capacity a (gr_capacity st)) (gr_asked st).

(* sysex.h:244-250 *)
Definition add_uint7_m (dbg : bool) (a : allocator) (ok : nat -> bool) (st : growing) (v : Z) : gresult :=
  check dbg (v <=? 127) ;;; insert_m a ok st [u8 (Z.land v 0x7F)].
(* sysex.h:252-258 *)
Definition add_data_m (dbg : bool) (a : allocator) (ok : nat -> bool) (st : growing) (d : list Z) : gresult :=
  check dbg (negb (size d =? 0)) ;;; insert_m a ok st d.
(* sysex.h:260-266 *)
Definition add_uint14_m (dbg : bool) (a : allocator) (ok : nat -> bool) (st : growing) (v : Z) : gresult :=
  check dbg (v <=? 16383) ;;; insert_m a ok st [u8 (Z.land v 0x7F); u8 (Z.land (Z.shiftr v 7) 0x7F)].
(* sysex.h:274-283 *)
Definition add_uint28_m (dbg : bool) (a : allocator) (ok : nat -> bool) (st : growing) (v : Z) : gresult :=
  check dbg (v <=? 268435455) ;;;
  insert_m a ok st [u8 (Z.land v 0x7F); u8 (Z.land (Z.shiftr v 7) 0x7F);
                    u8 (Z.land (Z.shiftr v 14) 0x7F); u8 (Z.land (Z.shiftr v 21) 0x7F)].
(* sysex.h:291-299 *)
Definition add_uint32_m (a : allocator) (ok : nat -> bool) (st : growing) (v : Z) : gresult :=
  insert_m a ok st [u8 (Z.land v 0x7F); u8 (Z.land (Z.shiftr v 7) 0x7F);
                    u8 (Z.land (Z.shiftr v 14) 0x7F); u8 (Z.land (Z.shiftr v 21) 0x7F);
                    u8 (Z.land (Z.shiftr v 28) 0x0F)].
(* sysex.cpp:83-97 *)
Definition add_device_identity_m (dbg : bool) (a : allocator) (ok : nat -> bool) (st : growing) (d : device_identity) : gresult :=
  check dbg (Z.land (di_manufacturer d) 0xFF808080 =? 0) ;;;
  check dbg (Z.land (di_family d) 0xC000 =? 0) ;;;
  check dbg (Z.land (di_model d) 0xC000 =? 0) ;;;
  check dbg (Z.land (di_revision d) 0xF0000000 =? 0) ;;;
  then_m (insert_m a ok st [u8 (Z.land (Z.shiftr (di_manufacturer d) 16) 0x7F)]) (fun st =>
  then_m (insert_m a ok st [u8 (Z.land (Z.shiftr (di_manufacturer d) 8) 0x7F)]) (fun st =>
  then_m (insert_m a ok st [u8 (Z.land (di_manufacturer d) 0x7F)]) (fun st =>
  then_m (add_uint14_m dbg a ok st (di_family d)) (fun st =>
  then_m (add_uint14_m dbg a ok st (di_model d)) (fun st =>
  add_uint28_m dbg a ok st (di_revision d)))))).

(* universal_sysex.cpp:31-56 *)
Definition identity_reply_m (dbg : bool) (a : allocator) (ok : nat -> bool) (sysex_id family family_member revision device_id : Z)
  : gresult :=
  let three := sysex_id <? 0x10000 in
  then_m (reserve_m a ok (new_growing universal_non_realtime) (if three then 14 else 12)) (fun st =>
  then_m (insert_m a ok st [device_id]) (fun st =>
  then_m (insert_m a ok st [0x06]) (fun st =>
  then_m (insert_m a ok st [0x02]) (fun st =>
  then_m (if three then
            then_m (insert_m a ok st [0x00]) (fun st =>
            then_m (insert_m a ok st [u8 (Z.land (Z.shiftr sysex_id 8) 0x7F)]) (fun st =>
            insert_m a ok st [u8 (Z.land sysex_id 0x7F)]))
          else insert_m a ok st [u8 (Z.land (Z.shiftr sysex_id 16) 0x7F)]) (fun st =>
  then_m (add_uint14_m dbg a ok st family) (fun st =>
  then_m (add_uint14_m dbg a ok st family_member) (fun st =>
  add_uint28_m dbg a ok st revision))))))).

(* result.push_back() for each of the packets ps; the capacity of a vector of packets, which has the default allocator *)
Fixpoint push_packets (a : allocator) (ok : nat -> bool) (cap : Z) (asked : nat) (result ps : list packet) : list packet * nat * bool :=
  match ps with
  | [] => (result, asked, true)
  | p :: t =>
      if size result <? cap then push_packets a ok cap asked (result ++ [p]) t
      else if ok asked then
        push_packets a ok (al_reserve a cap (size result + Z.max (size result) 1)) (S asked) (result ++ [p]) t
      else (result, S asked, false)
  end.
(* reserve(n) of an empty vector, then the packets; None: an exception, nothing is returned.  Also how often memory was asked for.
   (Packets that would have been passed to the sender after an exception are not made; making them has no effects.) *)
Definition collect_packets (a : allocator) (ok : nat -> bool) (n : Z) (ps : list packet) : option (list packet) * nat :=
  if ok 0%nat then
    let '(l, asked, returned) := push_packets a ok (al_reserve a 0 n) 1 [] ps in
    (if returned then Some l else None, asked)
  else (None, 1%nat).
(* sysex.h:350-358 *)
Definition as_sysex7_packets_m (a : allocator) (ok : nat -> bool) (s : sysex) (g : Z) : res (option (list packet) * nat) :=
  ps <- send_sysex7 s g ;; Ok (collect_packets a ok (total_data_size s / 6 + 1) ps).
(* sysex.h:405-413 *)
Definition as_sysex8_packets_m (a : allocator) (ok : nat -> bool) (s : sysex) (stream g : Z) : res (option (list packet) * nat) :=
  ps <- send_sysex8 s stream g ;; Ok (collect_packets a ok ((total_data_size s + 1) / 14 + 1) ps).

(* ---- users: functions that append several values; no counterpart in /repo ------------------ *)

Inductive piece : Type := Uint7 (v : Z) | Data (ds : list Z) | Uint14 (v : Z) | Uint28 (v : Z) | Uint32 (v : Z) | Identity (d : device_identity).

Definition add_piece (dbg : bool) (a : allocator) (ok : nat -> bool) (st : growing) (p : piece) : gresult :=
  match p with
  | Uint7 v => add_uint7_m dbg a ok st v
  | Data ds => add_data_m dbg a ok st ds
  | Uint14 v => add_uint14_m dbg a ok st v
  | Uint28 v => add_uint28_m dbg a ok st v
  | Uint32 v => add_uint32_m a ok st v
  | Identity d => add_device_identity_m dbg a ok st d
  end.
(* one after the other, exceptions are passed on *)
Fixpoint build (dbg : bool) (a : allocator) (ok : nat -> bool) (st : growing) (ps : list piece) : gresult :=
  match ps with
  | [] => Ok (st, true)
  | p :: t => then_m (add_piece dbg a ok st p) (fun st => build dbg a ok st t)
  end.
(* one after the other, what has thrown is tried again, up to n times altogether *)
Fixpoint insist (dbg : bool) (a : allocator) (ok : nat -> bool) (n : nat) : growing -> list piece -> gresult :=
  fix go (st : growing) (ps : list piece) : gresult :=
    match ps with
    | [] => Ok (st, true)
    | p :: t =>
        x <- add_piece dbg a ok st p ;;
        let '(st, returned) := x in
        if returned then go st t
        else match n with O => Ok (st, false) | S n => insist dbg a ok n st (p :: t) end
    end.
(* one message after the other in the same object *)
Fixpoint reuse (dbg : bool) (a : allocator) (ok : nat -> bool) (st : growing) (l : list (list piece)) : gresult :=
  match l with
  | [] => Ok (st, true)
  | ps :: t => then_m (build dbg a ok (clear_m a st) ps) (fun st => reuse dbg a ok st t)
  end.
