(* Common vocabulary of the model: C++ integer conversions, fault outcomes.

   Machine integers are modelled by Z.  A C++ conversion to an unsigned type of
   n bits is [wrap n] (defined behaviour in C++17: modulo 2^n). *)
From Coq Require Import ZArith List Bool.
Import ListNotations.
Local Open Scope Z_scope.

(* ---- conversions to fixed width integers --------------------------------- *)

(* static_cast<uintN_t>(x) *)
Definition u8  (x : Z) : Z := x mod 256.
Definition u16 (x : Z) : Z := x mod 65536.
Definition u32 (x : Z) : Z := x mod 4294967296.

(* static_cast<int32_t>(x) of a 32 bit unsigned value: two's complement, as on
   every supported compiler (implementation-defined before C++20). *)
Definition s32 (x : Z) : Z :=
  let y := x mod 4294967296 in
  if y <? 2147483648 then y else y - 4294967296.

Definition is_u7  (x : Z) : Prop := 0 <= x < 128.
Definition is_u8  (x : Z) : Prop := 0 <= x < 256.
Definition is_u14 (x : Z) : Prop := 0 <= x < 16384.
Definition is_u16 (x : Z) : Prop := 0 <= x < 65536.
Definition is_u28 (x : Z) : Prop := 0 <= x < 268435456.
Definition is_u32 (x : Z) : Prop := 0 <= x < 4294967296.
Definition is_s32 (x : Z) : Prop := -2147483648 <= x < 2147483648.

(* ---- faults --------------------------------------------------------------- *)

(* What a C++ execution can run into instead of returning a value. *)
Inductive fault : Set :=
| AssertFail      (* an assert() of the library is violated (debug build aborts) *)
| OutOfBounds     (* access outside of an array, vector or string *)
| ShiftOverflow   (* left shift of a signed value out of range, shift count out of range *)
| SignedOverflow  (* signed integer overflow *)
| FloatCast.      (* conversion of a NaN or of a value out of range to an integer type *)

Inductive res (A : Type) : Type :=
| Ok (a : A)
| Fault (f : fault).
Arguments Ok {A} a.
Arguments Fault {A} f.

Definition bind {A B} (x : res A) (k : A -> res B) : res B :=
  match x with
  | Ok a => k a
  | Fault f => Fault f
  end.

Declare Scope res_scope.
Delimit Scope res_scope with res.
Notation "x <- a ;; b" := (bind a (fun x => b))
  (at level 61, a at next level, right associativity) : res_scope.
Notation "a ;;; b" := (bind a (fun _ => b))
  (at level 61, right associativity) : res_scope.

(* assert(c) *)
Definition assert_ (c : bool) : res unit := if c then Ok tt else Fault AssertFail.

(* v[i] on a std::vector / array with contents l *)
Definition vec_at {A} (l : list A) (i : nat) : res A :=
  match nth_error l i with
  | Some a => Ok a
  | None => Fault OutOfBounds
  end.

(* std::vector::size() *)
Definition size {A} (l : list A) : Z := Z.of_nat (length l).
