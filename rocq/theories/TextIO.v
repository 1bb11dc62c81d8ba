(* Model of the stream operators, src/universal_packet.cpp, and of the parts of the standard
   streams they use.

   Characters are their ASCII codes.  The stream parts follow the C++ standard ([ostream.formatted],
   [facet.num.put.virtuals], [istream.formatted.arithmetic], [facet.num.get.virtuals]) and, where
   that leaves room, libstdc++'s num_get::_M_extract_int; the locale is the classic one (no digit
   grouping).  Output does not fail (as with a string stream); badbit and exceptions are not
   modelled. *)
From Coq Require Import ZArith List Bool.
From Verif Require Import Base Packet.
Import ListNotations.
Local Open Scope Z_scope.

(* ---- output ----------------------------------------------------------------------------------- *)

Inductive adjust : Type := AdjNone | AdjLeft | AdjRight | AdjInternal.
(* basefield; no flag at all means decimal for output and by prefix for input *)
Inductive basefield : Type := BaseNone | BaseOct | BaseDec | BaseHex.
(* std::ios_base::fmtflags, the flags that matter here *)
Record fmtflags := mkFlags {
  ff_base : basefield; ff_showbase : bool; ff_uppercase : bool; ff_adjust : adjust; ff_skipws : bool }.
Record ostream := mkOut { o_text : list Z; o_flags : fmtflags; o_width : Z; o_fill : Z }.

(* the manipulators *)
Definition set_hex (f : fmtflags) : fmtflags :=
  mkFlags BaseHex (ff_showbase f) (ff_uppercase f) (ff_adjust f) (ff_skipws f).
Definition o_hex (o : ostream) : ostream := mkOut (o_text o) (set_hex (o_flags o)) (o_width o) (o_fill o).
Definition o_setfill (c : Z) (o : ostream) : ostream := mkOut (o_text o) (o_flags o) (o_width o) c.
Definition o_setw (n : Z) (o : ostream) : ostream := mkOut (o_text o) (o_flags o) n (o_fill o).

(* digits without leading zeros; n bounds their number *)
Definition digit_char (upper : bool) (d : Z) : Z :=
  if d <? 10 then 48 + d else if upper then 55 + d else 87 + d.
Fixpoint digits_of (base : Z) (upper : bool) (n : nat) (v : Z) (acc : list Z) : list Z :=
  match n with
  | O => acc
  | S m =>
      let acc := digit_char upper (v mod base) :: acc in
      if v / base =? 0 then acc else digits_of base upper m (v / base) acc
  end.
Definition base_value (b : basefield) : Z :=
  match b with BaseOct => 8 | BaseHex => 16 | BaseDec | BaseNone => 10 end.
Definition base_prefix (f : fmtflags) (v : Z) : list Z :=
  if ff_showbase f && negb (v =? 0) then
    match ff_base f with
    | BaseHex => [48; if ff_uppercase f then 88 else 120]
    | BaseOct => [48]
    | BaseDec | BaseNone => []
    end
  else [].

(* out << uint32_t; at most 11 digits (octal) *)
Definition put_u32 (v : Z) (o : ostream) : ostream :=
  let f := o_flags o in
  let prefix := base_prefix f v in
  let digits := digits_of (base_value (ff_base f)) (ff_uppercase f) 11 v [] in
  let pad := repeat (o_fill o) (Z.to_nat (o_width o - Z.of_nat (length prefix + length digits))) in
  let s :=
    match ff_adjust f with
    | AdjLeft => prefix ++ digits ++ pad
    | AdjInternal => prefix ++ pad ++ digits
    | AdjRight | AdjNone => pad ++ prefix ++ digits
    end in
  mkOut (o_text o ++ s) f 0 (o_fill o).

(* out << char *)
Definition put_char (c : Z) (o : ostream) : ostream :=
  let pad := repeat (o_fill o) (Z.to_nat (o_width o - 1)) in
  let s := match ff_adjust (o_flags o) with AdjLeft => c :: pad | _ => pad ++ [c] end in
  mkOut (o_text o ++ s) (o_flags o) 0 (o_fill o).

(* universal_packet.cpp:60-65, the loop; n words remain from index w.  The index is below size(),
   hence below 4. *)
Fixpoint put_words (p : packet) (n w : nat) (o : ostream) : res ostream :=
  match n with
  | O => Ok o
  | S m =>
      bind (word p w) (fun v =>
      let o := if (w =? 0)%nat then o else put_char 32 o in
      put_words p m (S w) (put_u32 v (o_setw 8 (o_setfill 48 (o_hex o)))))
  end.
(* universal_packet.cpp:56-67 with iobase_restore_flags (39-50): the flags are restored when the
   function is left *)
Definition put_packet (p : packet) (o : ostream) : res ostream :=
  bind (put_words p (psize p) 0 o) (fun q =>
  Ok (mkOut (o_text q) (o_flags o) (o_width q) (o_fill q))).

(* ---- input ------------------------------------------------------------------------------------ *)

Record istream := mkIn { i_rest : list Z; i_flags : fmtflags; i_eof : bool; i_fail : bool }.
Definition i_good (i : istream) : bool := negb (i_eof i) && negb (i_fail i).

(* isspace in the classic locale *)
Definition is_space (c : Z) : bool := (c =? 32) || ((9 <=? c) && (c <=? 13)).
Fixpoint skip_spaces (l : list Z) : list Z :=
  match l with
  | [] => []
  | c :: t => if is_space c then skip_spaces t else l
  end.

(* istream::sentry: whether extraction may go on *)
Definition sentry (i : istream) : istream * bool :=
  if negb (i_good i) then (mkIn (i_rest i) (i_flags i) (i_eof i) true, false)
  else if ff_skipws (i_flags i) then
    match skip_spaces (i_rest i) with
    | [] => (mkIn [] (i_flags i) true true, false)
    | r => (mkIn r (i_flags i) false false, true)
    end
  else (i, true).

Definition hex_value (c : Z) : option Z :=
  if (48 <=? c) && (c <=? 57) then Some (c - 48)
  else if (97 <=? c) && (c <=? 102) then Some (c - 87)
  else if (65 <=? c) && (c <=? 70) then Some (c - 55)
  else None.

(* the digit loop of _M_extract_int: value, overflow, whether there was a digit, rest.  The value
   stays as it is once it has overflown. *)
Fixpoint scan_digits (base : Z) (l : list Z) (v : Z) (over seen : bool) : Z * bool * bool * list Z :=
  match l with
  | [] => (v, over, seen, [])
  | c :: t =>
      match hex_value c with
      | None => (v, over, seen, l)
      | Some d =>
          if base <=? d then (v, over, seen, l)
          else if 0xFFFFFFFF / base <? v then scan_digits base t v true seen
          else scan_digits base t (u32 (v * base + d)) (over || (0xFFFFFFFF - d <? v * base)) true
      end
  end.

(* the part of _M_extract_int that looks for leading zeros and the prefix of hexadecimal numbers: base,
   whether a zero that counts as a digit was found, rest *)
Fixpoint skip_zeros (l : list Z) : list Z :=
  match l with
  | c :: t => if c =? 48 then skip_zeros t else l
  | [] => []
  end.
Definition is_x (c : Z) : bool := (c =? 120) || (c =? 88).
Definition scan_prefix (b : basefield) (l : list Z) : Z * bool * list Z :=
  match l with
  | c :: t =>
      if c =? 48 then
        match b with
        | BaseDec => (10, true, skip_zeros t)
        | BaseOct => (8, true, t)
        | BaseHex =>
            match t with
            | x :: t' => if is_x x then (16, false, t') else (16, true, t)
            | [] => (16, true, t)
            end
        | BaseNone =>
            match t with
            | x :: t' => if is_x x then (16, false, t') else (8, true, t)
            | [] => (8, true, t)
            end
        end
      else (base_value b, false, l)
  | [] => (base_value b, false, l)
  end.

(* num_get::_M_extract_int for unsigned int: value, failure, rest *)
Definition extract_u32 (b : basefield) (l : list Z) : Z * bool * list Z :=
  let '(negative, l) :=
    match l with
    | c :: t => if (c =? 45) || (c =? 43) then (c =? 45, t) else (false, l)
    | [] => (false, l)
    end in
  let '(base, found_zero, l) := scan_prefix b l in
  let '(v, over, seen, r) := scan_digits base l 0 false false in
  if negb seen && negb found_zero then (0, true, r)
  else if over then (0xFFFFFFFF, true, r)
  else (if negative then u32 (- v) else v, false, r).

(* in >> std::hex *)
Definition i_hex (i : istream) : istream := mkIn (i_rest i) (set_hex (i_flags i)) (i_eof i) (i_fail i).
(* in >> uint32_t; no value if nothing is stored *)
Definition get_u32 (i : istream) : istream * option Z :=
  let '(i, ok) := sentry i in
  if ok then
    let '(v, fail, r) := extract_u32 (ff_base (i_flags i)) (i_rest i) in
    (mkIn r (i_flags i) match r with [] => true | _ => false end fail, Some v)
  else (i, None).

(* store into data[w] *)
Definition store (p : packet) (w : nat) (v : option Z) : packet :=
  match v with Some v => set_word p w v | None => p end.

(* universal_packet.cpp:78-83, the loop *)
Fixpoint get_words (n w : nat) (i : istream) (p : packet) : istream * packet :=
  match n with
  | O => (i, p)
  | S m =>
      let '(i, v) := get_u32 (i_hex i) in
      let p := store p w v in
      if i_good i then get_words m (S w) i p else (i, p)
  end.
(* universal_packet.cpp:71-87 *)
Definition get_packet (i0 : istream) (p : packet) : istream * packet :=
  let '(i, v) := get_u32 (i_hex i0) in
  let p := store p 0 v in
  let '(i, p) := if i_good i then get_words (psize p - 1) 1 i p else (i, p) in
  (mkIn (i_rest i) (i_flags i0) (i_eof i) (i_fail i), p).
