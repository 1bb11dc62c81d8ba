(* What is claimed of properties read and written by several devices: they are atomic.  An atomic memory has a value for each
   resource.  A request takes effect at one instant between being made and being answered, and is answered accordingly. *)
From Coq Require Import ZArith String List Bool.
From Verif Require Import Base Sysex SysexSpec CapInq CapSpec JsonSpec Transfer TransferSpec SubscribeSpec Atomic.
Import ListNotations.
Local Open Scope Z_scope.
Local Open Scope list_scope.

Inductive phase :=
| Idle                      (* no request with this id *)
| Asked (r : request)       (* made, without effect yet *)
| Effected (a : answer).    (* it has had its effect, the answer is a *)

(* s' is s but for the value v at x *)
Definition stored (s s' : list Z -> list Z) (x v : list Z) : Prop := s' x = v /\ forall k, k <> x -> s' k = s k.
Definition changed (f f' : Z -> Z -> phase) (m q : Z) (x : phase) : Prop :=
  f' m q = x /\ forall k l, k <> m \/ l <> q -> f' k l = f k l.

(* what can be seen of an atomic memory with the values s *)
Inductive atomic : (list Z -> list Z) -> (Z -> Z -> phase) -> list seen -> Prop :=
| atomic_end s f : atomic s f []
| atomic_asks s f f' m q r l : f m q = Idle -> changed f f' m q (Asked r) -> atomic s f' l -> atomic s f (Asks m q r :: l)
| atomic_reads s f f' m q x l : f m q = Asked (RGet x) -> changed f f' m q (Effected (AValue (s x))) -> atomic s f' l -> atomic s f l
| atomic_writes s s' f f' m q x v l : f m q = Asked (RSet x v) -> stored s s' x v -> changed f f' m q (Effected ADone) ->
    atomic s' f' l -> atomic s f l
| atomic_gets s f f' m q a l : f m q = Effected a -> changed f f' m q Idle -> atomic s f' l -> atomic s f (Gets m q a :: l).

(* whether a request of m with this id is without answer *)
Fixpoint unanswered (m q : Z) (was : bool) (l : list seen) : bool :=
  match l with
  | [] => was
  | Asks k i _ :: r => unanswered m q (if (k =? m) && (i =? q) then true else was) r
  | Gets k i _ :: r => unanswered m q (if (k =? m) && (i =? q) then false else was) r
  end.

(* names, values up to n bytes, and a way to divide them into pieces *)
Definition resource_ok (x : list Z) : Prop := plain x /\ all7 x /\ size x <= 16000.
Definition content_ok (n : Z) (v : list Z) : Prop := all7 v /\ size v <= n.
Definition cutting_ok (n : Z) (cutting : list Z -> list Z * list (list Z)) : Prop :=
  forall v, content_ok n v -> bytes_of (cutting v) = v /\ value_ok (cutting v).
Definition request_ok (n : Z) (r : request) : Prop :=
  match r with RGet x => resource_ok x | RSet x v => resource_ok x /\ content_ok n v end.

Definition action_ok (P n : Z) (h : action) : Prop :=
  match h with
  | DoAsk m q r => is_u28 m /\ is_u7 q /\ request_ok n r
  | DoUp m q | DoDown m q | DoLoseUp m q | DoLoseDown m q => is_u28 m /\ is_u7 q
  (* nobody gives up: the request id is not free again *)
  | DoGiveUp _ _ => False
  (* other messages are no inquiries to the device, or no answers of the device *)
  | DoOther s => wf_sysex s /\ forall m q, belongs P (0x34, m, q) s = false /\ belongs P (0x36, m, q) s = false
  | DoOtherTo m s => is_u28 m /\ wf_sysex s /\ forall q, belongs m (0x35, P, q) s = false /\ belongs m (0x37, P, q) s = false
  end.

(* nothing is lost *)
Definition lossless (h : action) : Prop := match h with DoLoseUp _ _ | DoLoseDown _ _ => False | _ => True end.

(* no request to change the resource x, no answer for this request *)
Definition no_write (x : list Z) (l : list seen) : Prop := forall m q v, ~ In (Asks m q (RSet x v)) l.
Definition no_answer (m q : Z) (l : list seen) : Prop := forall a, ~ In (Gets m q a) l.
