(* Copies: every object behaves like a single object that was never copied and received all calls
   its ancestors received before they were copied *)
From Coq Require Import ZArith List Bool.
From Verif Require Import Base Packet PacketSpec Sysex Collector ByteStream StreamSpec CollectSpec Copies.
Import ListNotations.
Local Open Scope Z_scope.
Local Open Scope res_scope.

(* The history of an object: the number of the object it descends from, and the calls made since, [None]
   if its value was moved elsewhere *)
Definition history (K : Type) : Type := (nat * option (list K))%type.
Definition usable {K} (x : history K) : Prop := snd x <> None.
Definition moved_from {K} (x : history K) : history K := (fst x, None).

Section Reference.
  Context {S K O : Type} (calls : S -> list K -> res (S * list O)) (init : nat -> S).
  (* what a moved-from object has to be sent before it can be used again, if it can, and the history it
     then has *)
  Context (revive : K -> option (list K)).

  (* what the last of the calls [ks ++ [k]] delivers on a new object *)
  Definition last_delivers (n : nat) (ks : list K) (k : K) : res (list O) :=
    r <- calls (init n) ks ;; r' <- calls (fst r) [k] ;; Ok (snd r').

  Definition at_object (h : nat -> history K) (i : nat) (x : history K) : nat -> history K :=
    fun j => if Nat.eqb j i then x else h j.

  Fixpoint expected (h : nat -> history K) (prog : list (object_op K)) : res (list (nat * O)) :=
    match prog with
    | [] => Ok []
    | On i k :: prog' =>
        match h i with
        | (n, Some ks) =>
            o <- last_delivers n ks k ;;
            o' <- expected (at_object h i (n, Some (ks ++ [k]))) prog' ;;
            Ok (map (pair i) o ++ o')
        | (n, None) =>
            match revive k with
            | Some ks => expected (at_object h i (n, Some ks)) prog'
            | None => Ok []
            end
        end
    | CopyTo i j :: prog' | AssignTo i j :: prog' => expected (at_object h j (h i)) prog'
    | MoveTo i j :: prog' => expected (at_object (at_object h j (h i)) i (moved_from (h i))) prog'
    end.

  (* calls are allowed by [ok]; moved-from objects are revived or assigned to before they are used; what
     descends from m is overwritten only by what descends from an n with [fits n m] *)
  Fixpoint proper (fits : nat -> nat -> Prop) (ok : K -> Prop) (h : nat -> history K) (prog : list (object_op K)) : Prop :=
    match prog with
    | [] => True
    | On i k :: prog' =>
        ok k /\
        match h i with
        | (n, Some ks) => proper fits ok (at_object h i (n, Some (ks ++ [k]))) prog'
        | (n, None) => exists ks, revive k = Some ks /\ proper fits ok (at_object h i (n, Some ks)) prog'
        end
    | CopyTo i j :: prog' => i <> j /\ usable (h i) /\ proper fits ok (at_object h j (h i)) prog'
    | AssignTo i j :: prog' =>
        usable (h i) /\ (usable (h j) -> fits (fst (h i)) (fst (h j))) /\ proper fits ok (at_object h j (h i)) prog'
    | MoveTo i j :: prog' =>
        i <> j /\ usable (h i) /\ proper fits ok (at_object (at_object h j (h i)) i (moved_from (h i))) prog'
    end.
End Reference.

(* all objects as constructed *)
Definition as_made {K} : nat -> history K := fun i => (i, Some []).

(* a moved-from collector is like a new one without callback once it is reset *)
Definition revive_collector (k : collector_call) : option (list collector_call) :=
  match k with KReset => Some [KSetCallback false] | _ => None end.
Definition revive_parser (k : parser_call) : option (list parser_call) := None.

(* The objects as constructed: collectors with and without callback, each with a limit (0: none);
   parsers of any group *)
Definition made7 (a : allocator) (max : nat -> Z) (cb : nat -> bool) (i : nat) : collector7 :=
  c7_set_max a (new_collector7 (cb i)) (max i).
Definition made8 (a : allocator) (max : nat -> Z) (cb : nat -> bool) (i : nat) : collector8 :=
  c8_set_max a (new_collector8 (cb i)) (max i).
Definition made_parser (g : nat -> Z) (cb on : nat -> bool) (i : nat) : parser := new_parser (g i) (cb i) (on i).
(* assignments for which the limit is kept, see C94_assigned_limit_refuted: to a collector without limit only
   from one without, otherwise to one with the same or a smaller limit *)
Definition limit_fits (max : nat -> Z) (n m : nat) : Prop := max n = 0 \/ 0 < max m <= max n.
Definition any_parser (n m : nat) : Prop := True.
