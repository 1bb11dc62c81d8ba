(* Helpers of the files that run the unit tests of /repo/tests on the model. *)
From Coq Require Import ZArith List Bool.
From Verif Require Import Base Packet Messages Sysex UniversalSysex CapInq.
Import ListNotations.
Local Open Scope Z_scope.
Local Open Scope res_scope.

(* every expectation holds and none faults *)
Definition all_true (l : list (res bool)) : Prop := Forall (fun r => r = Ok true) l.

Definition opt_some {A} (o : option A) : bool := match o with Some _ => true | None => false end.
Definition opt_get {A} (o : option A) : res A := match o with Some a => Ok a | None => Fault AssertFail end.
Definition is_nil {A} (l : list A) : bool := match l with [] => true | _ => false end.
Definition dsize (s : sysex) : Z := size (sx_data s).
Definition set_data (s : sysex) (i : nat) (v : Z) : res sysex := d <- vec_set (sx_data s) i v ;; Ok (mkSx (sx_id s) d).
Definition skipz {A} (n : Z) (l : list A) : list A := skipn (Z.to_nat n) l.
(* memcmp(a, b, n) == 0 *)
Definition prefix_eqb (n : Z) (a b : list Z) : bool :=
  (n <=? size a) && (n <=? size b) && list_eqb (firstn (Z.to_nat n) a) (firstn (Z.to_nat n) b).
Definition ident_eqb (a b : device_identity) : bool :=
  (di_manufacturer a =? di_manufacturer b) && (di_family a =? di_family b) &&
  (di_model a =? di_model b) && (di_revision a =? di_revision b).
Definition dest_eqb (a b : profile_destination) : bool := profile_destination_eq a b.
Definition profs_at (bs : list Z) (l : list profile_id) : bool :=
  prefix_eqb (5 * size l) bs (concat (map profile_bytes l)).
Definition after_profs (bs : list Z) (l : list profile_id) : list Z := skipz (5 * size l) bs.
Definition profs_eqb (a b : list profile_id) : bool :=
  list_eqb (concat (map profile_bytes a)) (concat (map profile_bytes b)).
