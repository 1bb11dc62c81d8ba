(* What is claimed of subscriptions *)
From Coq Require Import ZArith String List Bool.
From Verif Require Import Base Sysex SysexSpec CapInq PropEx CapSpec JsonSpec Transfer TransferSpec Subscribe.
Import ListNotations.
Local Open Scope Z_scope.
Local Open Scope list_scope.

(* names of resources and subscriptions: texts, not numbers *)
Definition name_ok (t : list Z) : Prop := proper_text t /\ value_of t = JText t /\ all7 t /\ size t <= 8000.
Definition value_ok (v : list Z * list (list Z)) : Prop := Forall piece_ok (fst v :: snd v) /\ size (snd v) < 16383.
Definition bytes_of (v : list Z * list (list Z)) : list Z := fst v ++ List.concat (snd v).

Definition happening_ok (ids : Z -> list Z) (P : Z) (r : list Z) (h : happening) : Prop :=
  match h with
  | HSet v => value_ok v
  | HStart m | HEnd m | HUp m | HDown m => is_u28 m
  (* other messages are not about subscriptions with the publisher *)
  | HOther s => wf_sysex s /\ forall m q, belongs P (0x38, m, q) s = false
  | HOtherTo m s => is_u28 m /\ wf_sysex s /\ forall q, belongs m (0x38, P, q) s = false
  | HElse m x c i => is_u28 m /\ name_ok x /\ x <> r /\ name_ok i /\ (c = str "start" \/ c = str "end")
  (* what else the publisher sends is not an update of this subscription *)
  | HAlso m x c i v => is_u28 m /\ name_ok x /\ name_ok i /\ value_ok v /\
      In c [str "start"; str "end"; str "full"; str "partial"; str "notify"] /\ (x <> r \/ c <> str "full" \/ i <> ids m)
  end.

(* subscribers with their ids, the publisher, the resource, its first value *)
Definition subscription_ok (ids : Z -> list Z) (P : Z) (r : list Z) (v0 : list Z * list (list Z)) : Prop :=
  (forall m, is_u28 m -> name_ok (ids m)) /\ is_u28 P /\ name_ok r /\ value_ok v0.

(* the values that the property has had, the present one *)
Fixpoint history (hs : list happening) : list (list Z) :=
  match hs with
  | [] => []
  | HSet v :: r => bytes_of v :: history r
  | _ :: r => history r
  end.
Definition present (v0 : list Z * list (list Z)) (hs : list happening) : list Z := last (history hs) (bytes_of v0).
(* whether m wants to be subscribed *)
Fixpoint wants (m : Z) (was : bool) (hs : list happening) : bool :=
  match hs with
  | [] => was
  | HStart k :: r => wants m ((k =? m) || was) r
  | HEnd k :: r => wants m (negb (k =? m) && was) r
  | _ :: r => wants m was r
  end.

(* the values of l appear in h in this order; each may be repeated or left out *)
Inductive follows {A} : list A -> list A -> Prop :=
| follows_none h : follows [] h
| follows_here v l h : follows l (v :: h) -> follows (v :: l) (v :: h)
| follows_later v l h : follows l h -> follows l (v :: h).
