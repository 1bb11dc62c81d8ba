(* Specification vocabulary for packets as text. *)
From Coq Require Import ZArith List Bool.
From Verif Require Import Base Packet PacketSpec TextIO.
Import ListNotations.
Local Open Scope Z_scope.

(* eight hexadecimal digits *)
Definition hex_alphabet (upper : bool) : list Z :=
  [48; 49; 50; 51; 52; 53; 54; 55; 56; 57] ++
  (if upper then [65; 66; 67; 68; 69; 70] else [97; 98; 99; 100; 101; 102]).
Definition hex8 (upper : bool) (v : Z) : list Z :=
  map (fun k => nth (Z.to_nat (v / 16 ^ k mod 16)) (hex_alphabet upper) 0) [7; 6; 5; 4; 3; 2; 1; 0].

Fixpoint join (sep : list Z) (l : list (list Z)) : list Z :=
  match l with
  | [] => []
  | [x] => x
  | x :: t => x ++ sep ++ join sep t
  end.
(* a packet as text: its words, separated by single spaces *)
Definition packet_text (upper : bool) (p : packet) : list Z := join [32] (map (hex8 upper) (wire p)).

(* stream flags that do not spoil the text: internal adjustment, or adjustment to the right
   without showbase (the default is no adjustment and no showbase) *)
Definition safe_flags (f : fmtflags) : Prop :=
  ff_adjust f = AdjInternal \/ (ff_adjust f <> AdjLeft /\ ff_showbase f = false).
Definition default_flags : fmtflags := mkFlags BaseDec false false AdjNone true.

Definition whitespace (c : Z) : Prop := c = 32 \/ 9 <= c <= 13.
(* characters that do not start a hexadecimal number or its sign *)
Definition starts_no_number (c : Z) : Prop :=
  ~ (48 <= c <= 57) /\ ~ (65 <= c <= 70) /\ ~ (97 <= c <= 102) /\ ~ whitespace c /\ c <> 43 /\ c <> 45.
(* texts that do not continue a number *)
Definition no_digit (l : list Z) : Prop :=
  match l with
  | [] => True
  | c :: _ => ~ (48 <= c <= 57) /\ ~ (65 <= c <= 70) /\ ~ (97 <= c <= 102)
  end.

(* writing packets, each followed by some characters *)
Fixpoint put_all (l : list (packet * list Z)) (o : ostream) : res ostream :=
  match l with
  | [] => Ok o
  | (p, s) :: t => bind (put_packet p o) (fun o => put_all t (fold_left (fun o c => put_char c o) s o))
  end.
(* these characters are spaces; there are some, except after the last packet where the text that
   follows must only not continue the number *)
Fixpoint separated (l : list (packet * list Z)) (rest : list Z) : Prop :=
  match l with
  | [] => True
  | [(p, s)] => Forall whitespace s /\ (s = [] -> no_digit rest)
  | (p, s) :: t => Forall whitespace s /\ s <> [] /\ separated t rest
  end.
(* reading n packets one after the other into a variable that holds q *)
Fixpoint get_all (n : nat) (i : istream) (q : packet) : list packet * istream :=
  match n with
  | O => ([], i)
  | S m => let '(i, q) := get_packet i q in let '(qs, i) := get_all m i q in (q :: qs, i)
  end.
