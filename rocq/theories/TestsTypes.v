(* The unit tests of tests/type_tests.cpp, run on the model.  These are checks of the model against the results its
   authors expect of the code, not proofs.  The loops symmetric_float_conversions and symmetric_double_conversions and
   all of tests/value_translation_tests.cpp are instances of theorems in PropsFloat.v and PropsTypes.v; a default value
   is the member initialiser of the class. *)
From Coq Require Import ZArith List Bool.
From Flocq Require Import Core IEEE754.BinarySingleNaN.
From Verif Require Import Base Bits Types Floats.
Import ListNotations.
Local Open Scope Z_scope.
Local Open Scope res_scope.

(* a literal, given as mantissa and exponent *)
Definition lit32 (m e : Z) : f32 := binary_normalize 24 128 prec_24 emax_128 mode_NE m e false.
Definition lit64 (m e : Z) : f64 := binary_normalize 53 1024 prec_53 emax_1024 mode_NE m e false.
Definition f_minus : f32 -> f32 -> f32 := Bminus mode_NE.
Definition cmp {A B} (f : A -> B -> bool) (x : res A) (y : res B) : bool :=
  match x, y with Ok a, Ok b => f a b | _, _ => false end.
Definition eqz := cmp Z.eqb.
Definition nez := cmp (fun a b => negb (a =? b)).
Definition ltz := cmp Z.ltb.
Definition gtz := cmp Z.gtb.
(* EXPECT_FLOAT_EQ, EXPECT_DOUBLE_EQ: at most 4 floating point numbers apart *)
Definition place {prec emax} (x : binary_float prec emax) : Z :=
  match x with
  | B754_finite s m e _ => cond_Zopp s ((e - (3 - emax - prec)) * 2 ^ (prec - 1) + Zpos m)
  | _ => 0
  end.
Definition ulps32 := cmp (fun a b : f32 => is_finite a && is_finite b && (Z.abs (place a - place b) <=? 4)).
Definition ulps64 := cmp (fun a b : f64 => is_finite a && is_finite b && (Z.abs (place a - place b) <=? 4)).
Definition same32 := cmp (fun a b : f32 => Beqb a b).
Definition same64 := cmp (fun a b : f64 => Beqb a b).
(* EXPECT_NEAR with a margin of 10^-n *)
Definition near64 x y n := cmp (fun a b : f64 =>
  Bleb (Babs (d_minus a b)) (d_div (f64_of_int 1) (f64_of_int (10 ^ n)))) x y.

(* line 30 *)
Example test_velocity_default_constructor : forallb (fun b => b) [
    eqz (Ok 32768) (Ok 32768)] = true.
Proof. vm_compute. reflexivity. Qed.

(* line 39 *)
Example test_velocity_construct_from_uint16 : forallb (fun b => b) [
    eqz (Ok 0) (Ok 0);
    eqz (Ok 4660) (Ok 4660);
    eqz (Ok 18467) (Ok 18467);
    eqz (Ok 32768) (Ok 32768);
    eqz (Ok 51902) (Ok 51902);
    eqz (Ok 65535) (Ok 65535)] = true.
Proof. vm_compute. reflexivity. Qed.

(* line 82 *)
Example test_velocity_construct_from_uint7 : forallb (fun b => b) [
    eqz (Ok 0) (Ok (velocity_of_uint7 0));
    eqz (Ok 9216) (Ok (velocity_of_uint7 18));
    eqz (Ok 26624) (Ok (velocity_of_uint7 52));
    eqz (Ok 32768) (Ok (velocity_of_uint7 64));
    eqz (Ok 42650) (Ok (velocity_of_uint7 83));
    eqz (Ok 65535) (Ok (velocity_of_uint7 127))] = true.
Proof. vm_compute. reflexivity. Qed.

(* line 125 *)
Example test_velocity_construct_from_float : forallb (fun b => b) [
    eqz (Ok 0) (velocity_of_float (lit32 (0) (0)));
    eqz (Ok 0) (velocity_of_float (lit32 (10995116) (-40)));
    ltz (Ok 0) (velocity_of_float (lit32 (10995116) (-39)));
    eqz (Ok 8192) (velocity_of_float (lit32 (8388608) (-26)));
    ltz (Ok 12288) (velocity_of_float (lit32 (13421773) (-26)));
    gtz (Ok 14336) (velocity_of_float (lit32 (13421773) (-26)));
    eqz (Ok 16384) (velocity_of_float (lit32 (8388608) (-25)));
    eqz (Ok 32768) (velocity_of_float (lit32 (8388608) (-24)));
    eqz (Ok 49151) (velocity_of_float (lit32 (12582912) (-24)));
    gtz (Ok 65535) (velocity_of_float (lit32 (16775538) (-24)));
    eqz (Ok 65535) (velocity_of_float (lit32 (8388608) (-23)));
    eqz (Ok 0) (velocity_of_float (lit32 (-10737418) (-30)));
    eqz (Ok 0) (velocity_of_float (lit32 (-13421773) (-24)));
    eqz (Ok 0) (velocity_of_float (lit32 (-12976128) (-17)));
    eqz (Ok 65535) (velocity_of_float (lit32 (8472494) (-23)));
    eqz (Ok 65535) (velocity_of_float (lit32 (11010048) (-18)))] = true.
Proof. vm_compute. reflexivity. Qed.

(* line 223 *)
Example test_velocity_construct_from_double : forallb (fun b => b) [
    eqz (Ok 0) (velocity_of_double (lit64 (0) (0)));
    eqz (Ok 0) (velocity_of_double (lit64 (5902958103587057) (-69)));
    ltz (Ok 0) (velocity_of_double (lit64 (5902958103587057) (-68)));
    eqz (Ok 8192) (velocity_of_double (lit64 (4503599627370496) (-55)));
    ltz (Ok 12288) (velocity_of_double (lit64 (7205759403792794) (-55)));
    gtz (Ok 14336) (velocity_of_double (lit64 (7205759403792794) (-55)));
    eqz (Ok 16384) (velocity_of_double (lit64 (4503599627370496) (-54)));
    eqz (Ok 32768) (velocity_of_double (lit64 (4503599627370496) (-53)));
    eqz (Ok 49151) (velocity_of_double (lit64 (6755399441055744) (-53)));
    gtz (Ok 65535) (velocity_of_double (lit64 (9006298534815518) (-53)));
    eqz (Ok 65535) (velocity_of_double (lit64 (4503599627370496) (-52)));
    eqz (Ok 0) (velocity_of_double (lit64 (-5764607523034235) (-59)));
    eqz (Ok 0) (velocity_of_double (lit64 (-7205759403792794) (-53)));
    eqz (Ok 0) (velocity_of_double (lit64 (-6966505673588736) (-46)));
    eqz (Ok 65535) (velocity_of_double (lit64 (4548635623644201) (-52)));
    eqz (Ok 65535) (velocity_of_double (lit64 (5910974510923776) (-47)))] = true.
Proof. vm_compute. reflexivity. Qed.

(* line 321 *)
Example test_velocity_equality : forallb (fun b => b) [
    eqz (Ok 32768) (Ok 32768);
    eqz (Ok (velocity_of_uint7 0)) (Ok 0);
    eqz (Ok (velocity_of_uint7 64)) (Ok 32768);
    eqz (Ok (velocity_of_uint7 96)) (Ok 49412);
    eqz (Ok (velocity_of_uint7 127)) (Ok 65535);
    nez (Ok (velocity_of_uint7 0)) (Ok (velocity_of_uint7 64));
    nez (Ok (velocity_of_uint7 64)) (Ok 65535);
    nez (Ok 65535) (Ok 32768)] = true.
Proof. vm_compute. reflexivity. Qed.

(* line 338 *)
Example test_velocity_as_float : forallb (fun b => b) [
    ulps32 (Ok (lit32 (0) (0))) (Ok (velocity_as_float (velocity_of_uint7 0)));
    ulps32 (Ok (lit32 (8388608) (-25))) (Ok (velocity_as_float (velocity_of_uint7 32)));
    ulps32 (Ok (lit32 (8388608) (-24))) (Ok (velocity_as_float 32768));
    ulps32 (Ok (lit32 (8388608) (-23))) (Ok (velocity_as_float 65535))] = true.
Proof. vm_compute. reflexivity. Qed.

(* line 350 *)
Example test_velocity_as_double : forallb (fun b => b) [
    ulps64 (Ok (lit64 (0) (0))) (Ok (velocity_as_double (velocity_of_uint7 0)));
    ulps64 (Ok (lit64 (4503599627370496) (-54))) (Ok (velocity_as_double (velocity_of_uint7 32)));
    ulps64 (Ok (lit64 (4503599627370496) (-53))) (Ok (velocity_as_double 32768));
    ulps64 (Ok (lit64 (4503599627370496) (-52))) (Ok (velocity_as_double 65535))] = true.
Proof. vm_compute. reflexivity. Qed.

(* line 362 *)
Example test_velocity_as_uint7 : forallb (fun b => b) [
    eqz (Ok 0) (Ok (velocity_as_uint7 0));
    eqz (Ok 16) (Ok (velocity_as_uint7 8192));
    eqz (Ok 32) (Ok (velocity_as_uint7 16384));
    eqz (Ok 64) (Ok (velocity_as_uint7 32768));
    eqz (Ok 96) (Ok (velocity_as_uint7 49152));
    eqz (Ok 127) (Ok (velocity_as_uint7 65535))] = true.
Proof. vm_compute. reflexivity. Qed.

(* line 402 *)
Example test_pitch_bend_default_constructor : forallb (fun b => b) [
    eqz (Ok 2147483648) (Ok 2147483648)] = true.
Proof. vm_compute. reflexivity. Qed.

(* line 413 *)
Example test_pitch_bend_construct_from_uint32 : forallb (fun b => b) [
    eqz (Ok 0) (Ok 0);
    eqz (Ok 305419896) (Ok 305419896);
    eqz (Ok 2147483648) (Ok 2147483648);
    eqz (Ok 3452816845) (Ok 3452816845);
    eqz (Ok 4294967295) (Ok 4294967295)] = true.
Proof. vm_compute. reflexivity. Qed.

(* line 450 *)
Example test_pitch_bend_construct_from_uint14 : forallb (fun b => b) [
    eqz (Ok 0) (pitch_bend_of_uint14 0);
    eqz (Ok 1221591040) (pitch_bend_of_uint14 4660);
    eqz (Ok 2147483648) (pitch_bend_of_uint14 8192);
    eqz (Ok 2834122602) (pitch_bend_of_uint14 10811);
    eqz (Ok 4294967295) (pitch_bend_of_uint14 16383)] = true.
Proof. vm_compute. reflexivity. Qed.

(* line 487 *)
Example test_pitch_bend_construct_from_float : forallb (fun b => b) [
    eqz (Ok 0) (pitch_bend_of_float (lit32 (-8388608) (-23)));
    eqz (Ok 1073741824) (pitch_bend_of_float (lit32 (-8388608) (-24)));
    eqz (Ok 2147483648) (pitch_bend_of_float (lit32 (0) (0)));
    eqz (Ok 3221225471) (pitch_bend_of_float (lit32 (8388608) (-24)));
    eqz (Ok 4294967295) (pitch_bend_of_float (lit32 (8388608) (-23)));
    eqz (Ok 0) (pitch_bend_of_float (lit32 (-8556380) (-23)));
    eqz (Ok 0) (pitch_bend_of_float (lit32 (-13421773) (-23)));
    eqz (Ok 0) (pitch_bend_of_float (lit32 (-9568256) (-17)));
    eqz (Ok 4294967295) (pitch_bend_of_float (lit32 (8724152) (-23)));
    eqz (Ok 4294967295) (pitch_bend_of_float (lit32 (12976128) (-17)))] = true.
Proof. vm_compute. reflexivity. Qed.

(* line 554 *)
Example test_pitch_bend_construct_from_double : forallb (fun b => b) [
    eqz (Ok 0) (pitch_bend_of_double (lit64 (-4503599627370496) (-52)));
    eqz (Ok 1073741824) (pitch_bend_of_double (lit64 (-4503599627370496) (-53)));
    eqz (Ok 2147483648) (pitch_bend_of_double (lit64 (0) (0)));
    eqz (Ok 3221225471) (pitch_bend_of_double (lit64 (4503599627370496) (-53)));
    eqz (Ok 4294967295) (pitch_bend_of_double (lit64 (4503599627370496) (-52)));
    eqz (Ok 0) (pitch_bend_of_double (lit64 (-4593671619917906) (-52)));
    eqz (Ok 4294967295) (pitch_bend_of_double (lit64 (4683743612465316) (-52)));
    eqz (Ok 4294967295) (pitch_bend_of_double (lit64 (6966505673588736) (-46)))] = true.
Proof. vm_compute. reflexivity. Qed.

(* line 609 *)
Example test_pitch_bend_equality : forallb (fun b => b) [
    eqz (Ok 2147483648) (Ok 2147483648);
    eqz (pitch_bend_of_uint14 0) (Ok 0);
    eqz (pitch_bend_of_uint14 8192) (Ok 2147483648);
    eqz (pitch_bend_of_uint14 12288) (Ok 3221356560);
    eqz (pitch_bend_of_uint14 16383) (Ok 4294967295);
    nez (pitch_bend_of_uint14 0) (pitch_bend_of_uint14 8192);
    nez (pitch_bend_of_uint14 8192) (Ok 65535);
    nez (Ok 65535) (Ok 32768)] = true.
Proof. vm_compute. reflexivity. Qed.

(* line 626 *)
Example test_pitch_bend_as_float : forallb (fun b => b) [
    ulps32 (Ok (lit32 (-8388608) (-23))) (Ok (pitch_bend_as_float 0));
    ulps32 (Ok (lit32 (-8388608) (-24))) (Ok (pitch_bend_as_float 1073741824));
    ulps32 (Ok (lit32 (0) (0))) (Ok (pitch_bend_as_float 2147483648));
    ulps32 (Ok (lit32 (8388608) (-24))) (Ok (pitch_bend_as_float 3221225471));
    ulps32 (Ok (lit32 (8388608) (-23))) (Ok (pitch_bend_as_float 4294967295))] = true.
Proof. vm_compute. reflexivity. Qed.

(* line 639 *)
Example test_pitch_bend_as_double : forallb (fun b => b) [
    ulps64 (Ok (lit64 (-4503599627370496) (-52))) (Ok (pitch_bend_as_double 0));
    ulps64 (Ok (lit64 (-4503599627370496) (-53))) (Ok (pitch_bend_as_double 1073741824));
    ulps64 (Ok (lit64 (0) (0))) (Ok (pitch_bend_as_double 2147483648));
    near64 (Ok (lit64 (4503599627370496) (-53))) (Ok (pitch_bend_as_double 3221225471)) 8;
    ulps64 (Ok (lit64 (4503599627370496) (-52))) (Ok (pitch_bend_as_double 4294967295))] = true.
Proof. vm_compute. reflexivity. Qed.

(* line 652 *)
Example test_pitch_bend_as_uint14 : forallb (fun b => b) [
    eqz (Ok 0) (Ok (pitch_bend_as_uint14 0));
    eqz (Ok 1165) (Ok (pitch_bend_as_uint14 305419896));
    eqz (Ok 8192) (Ok (pitch_bend_as_uint14 2147483648));
    eqz (Ok 13171) (Ok (pitch_bend_as_uint14 3452816845));
    eqz (Ok 16383) (Ok (pitch_bend_as_uint14 4294967295))] = true.
Proof. vm_compute. reflexivity. Qed.

(* line 665 *)
Example test_pitch_bend_reset : forallb (fun b => b) [
    eqz (Ok 2147483648) (Ok pitch_bend_reset)] = true.
Proof. vm_compute. reflexivity. Qed.

(* line 699 *)
Example test_pitch_increment_default_constructor : forallb (fun b => b) [
    eqz (Ok 0) (Ok 0)] = true.
Proof. vm_compute. reflexivity. Qed.

(* line 707 *)
Example test_pitch_increment_construct_from_int32 : forallb (fun b => b) [
    eqz (Ok 99) (Ok 99);
    eqz (Ok 305419896) (Ok 305419896);
    eqz (Ok 1216907400) (Ok 1216907400);
    eqz (Ok 2147483647) (Ok 2147483647);
    eqz (Ok (-778899)) (Ok (-778899))] = true.
Proof. vm_compute. reflexivity. Qed.

(* line 744 *)
Example test_pitch_increment_construct_from_float : forallb (fun b => b) [
    eqz (Ok 0) (pitch_increment_of_float (lit32 (0) (0)));
    eqz (Ok 33554432) (pitch_increment_of_float (lit32 (8388608) (-23)));
    eqz (Ok (-33554432)) (pitch_increment_of_float (lit32 (-8388608) (-23)));
    eqz (Ok 16777216) (pitch_increment_of_float (lit32 (8388608) (-24)));
    eqz (Ok (-134217728)) (pitch_increment_of_float (lit32 (-8388608) (-21)));
    eqz (Ok 578813952) (pitch_increment_of_float (lit32 (9043968) (-19)));
    eqz (Ok (-1602224128)) (pitch_increment_of_float (lit32 (-12517376) (-18)));
    eqz (Ok 2147483647) (pitch_increment_of_float (lit32 (16777216) (-18)));
    eqz (Ok 2147483647) (pitch_increment_of_float (lit32 (8781824) (-17)));
    eqz (Ok (-2147483648)) (pitch_increment_of_float (lit32 (-13006275) (-17)))] = true.
Proof. vm_compute. reflexivity. Qed.

(* line 813 *)
Example test_pitch_increment_construct_from_double : forallb (fun b => b) [
    eqz (Ok 0) (pitch_increment_of_double (lit64 (0) (0)));
    eqz (Ok 33554432) (pitch_increment_of_double (lit64 (4503599627370496) (-52)));
    eqz (Ok (-33554432)) (pitch_increment_of_double (lit64 (-4503599627370496) (-52)));
    eqz (Ok 16777216) (pitch_increment_of_double (lit64 (4503599627370496) (-53)));
    eqz (Ok (-134217728)) (pitch_increment_of_double (lit64 (-4503599627370496) (-50)));
    eqz (Ok 578813952) (pitch_increment_of_double (lit64 (4855443348258816) (-48)));
    eqz (Ok (-1602224128)) (pitch_increment_of_double (lit64 (-6720215068966912) (-47)));
    eqz (Ok 2147483647) (pitch_increment_of_double (lit64 (9007199253333617) (-47)));
    eqz (Ok 2147483647) (pitch_increment_of_double (lit64 (4714705859903488) (-46)));
    eqz (Ok (-2147483648)) (pitch_increment_of_double (lit64 (-6982690484749599) (-46)))] = true.
Proof. vm_compute. reflexivity. Qed.

(* line 882 *)
Example test_pitch_increment_operator_plus_assign : forallb (fun b => b) [
    eqz (Ok 25165824) (increment_add_assign 16777216 8388608);
    eqz (Ok 33554432) (increment_add_assign 8388608 25165824);
    eqz (Ok 25165824) (increment_add_assign 33554432 (-8388608));
    eqz (Ok (-25165824)) (increment_add_assign 8388608 (-33554432));
    eqz (Ok 369098752) (x0 <- (pitch_increment_of_float (lit32 (9175040) (-20))) ;; x1 <- (pitch_increment_of_float (lit32 (9437184) (-22))) ;; increment_add_assign x0 x1);
    eqz (Ok 218103808) (x0 <- (pitch_increment_of_float (lit32 (9175040) (-20))) ;; x1 <- (pitch_increment_of_float (lit32 (-9437184) (-22))) ;; increment_add_assign x0 x1);
    eqz (Ok (-419430400)) (x0 <- (pitch_increment_of_float (lit32 (13107200) (-20))) ;; x1 <- (pitch_increment_of_float (lit32 (-13107200) (-19))) ;; increment_add_assign x0 x1);
    eqz (Ok (-2147483648)) (increment_add_assign (-2147483647) (-2));
    eqz (Ok 2147483647) (increment_add_assign 2147471302 12346)] = true.
Proof. vm_compute. reflexivity. Qed.

(* line 968 *)
Example test_pitch_increment_operator_plus : forallb (fun b => b) [
    eqz (Ok 0) (increment_add (-16777216) 16777216);
    eqz (Ok 33554432) (increment_add 8388608 25165824);
    eqz (Ok 25165824) (x0 <- (increment_add 8388608 8388608) ;; x1 <- (Ok 8388608) ;; increment_add x0 x1);
    eqz (Ok (-25165824)) (increment_add 8388608 (-33554432));
    eqz (pitch_increment_of_float (lit32 (15728640) (-20))) (x0 <- (pitch_increment_of_float (lit32 (13107200) (-20))) ;; x1 <- (pitch_increment_of_float (lit32 (10485760) (-22))) ;; increment_add x0 x1);
    eqz (pitch_increment_of_float (lit32 (-9961472) (-20))) (x0 <- (pitch_increment_of_float (lit32 (8388608) (-20))) ;; x1 <- (pitch_increment_of_float (lit32 (-9175040) (-19))) ;; increment_add x0 x1);
    eqz (Ok 100663296) (x0 <- (Ok 33554432) ;; x1 <- (pitch_increment_of_float (lit32 (8388608) (-22))) ;; increment_add x0 x1);
    eqz (Ok (-2147483648)) (increment_add (-2147427165) (-56499));
    eqz (Ok 2147483647) (increment_add 2147360191 1234567)] = true.
Proof. vm_compute. reflexivity. Qed.

(* line 998 *)
Example test_pitch_increment_equality : forallb (fun b => b) [
    eqz (Ok 0) (Ok 0);
    eqz (Ok 1943301028) (Ok 1943301028);
    eqz (Ok 206107980) (Ok 206107980);
    eqz (Ok (-562234)) (Ok (-562234));
    nez (Ok 1943301028) (Ok 206107980);
    nez (Ok 206107980) (Ok (-562234));
    nez (Ok 0) (Ok 536879104);
    nez (Ok 1943301028) (Ok 206107980);
    nez (Ok (-562234)) (Ok 562234)] = true.
Proof. vm_compute. reflexivity. Qed.

(* line 1020 *)
Example test_pitch_7_9_default_constructor : forallb (fun b => b) [
    eqz (Ok 0) (Ok 0)] = true.
Proof. vm_compute. reflexivity. Qed.

(* line 1028 *)
Example test_pitch_7_9_construct_from_uint16 : forallb (fun b => b) [
    eqz (Ok 0) (Ok 0);
    eqz (Ok 4660) (Ok 4660);
    eqz (Ok 22136) (Ok 22136);
    eqz (Ok 32768) (Ok 32768);
    eqz (Ok 39612) (Ok 39612);
    eqz (Ok 65535) (Ok 65535)] = true.
Proof. vm_compute. reflexivity. Qed.

(* line 1071 *)
Example test_pitch_7_9_construct_from_note_nr : forallb (fun b => b) [
    eqz (Ok 0) (Ok (pitch_7_9_of_note 0));
    eqz (Ok 32768) (Ok (pitch_7_9_of_note 64));
    eqz (Ok 8704) (Ok (pitch_7_9_of_note 17));
    eqz (Ok 50688) (Ok (pitch_7_9_of_note 99));
    eqz (Ok 65024) (Ok (pitch_7_9_of_note 127))] = true.
Proof. vm_compute. reflexivity. Qed.

(* line 1108 *)
Example test_pitch_7_9_construct_from_float : forallb (fun b => b) [
    eqz (Ok 0) (pitch_7_9_of_float (lit32 (0) (0)));
    eqz (Ok 33024) (pitch_7_9_of_float (lit32 (8454144) (-17)));
    eqz (Ok 8832) (pitch_7_9_of_float (lit32 (9043968) (-19)));
    eqz (Ok 51072) (pitch_7_9_of_float (lit32 (13074432) (-17)));
    eqz (Ok 65535) (pitch_7_9_of_float (lit32 (16777203) (-17)));
    eqz (Ok 0) (pitch_7_9_of_float (lit32 (-8388608) (-24)));
    eqz (Ok 0) (pitch_7_9_of_float (lit32 (-13006275) (-17)));
    eqz (Ok 65535) (pitch_7_9_of_float (lit32 (8388608) (-16)));
    eqz (Ok 65535) (pitch_7_9_of_float (lit32 (16384000) (-14)))] = true.
Proof. vm_compute. reflexivity. Qed.

(* line 1169 *)
Example test_pitch_7_9_construct_from_double : forallb (fun b => b) [
    eqz (Ok 0) (pitch_7_9_of_float (lit32 (0) (0)));
    eqz (Ok 33024) (pitch_7_9_of_double (lit64 (4538783999459328) (-46)));
    eqz (Ok 8832) (pitch_7_9_of_double (lit64 (4855443348258816) (-48)));
    eqz (Ok 51072) (pitch_7_9_of_double (lit64 (7019282231721984) (-46)));
    eqz (Ok 65535) (pitch_7_9_of_double (lit64 (9007192217866574) (-46)));
    eqz (Ok 0) (pitch_7_9_of_double (lit64 (-4503599627370496) (-53)));
    eqz (Ok 0) (pitch_7_9_of_double (lit64 (-6982690484749599) (-46)));
    eqz (Ok 65535) (pitch_7_9_of_double (lit64 (4503599627370496) (-45)));
    eqz (Ok 65535) (pitch_7_9_of_double (lit64 (8796093022208000) (-43)))] = true.
Proof. vm_compute. reflexivity. Qed.

(* line 1230 *)
Example test_pitch_7_9_equality : forallb (fun b => b) [
    eqz (Ok 0) (Ok (pitch_7_9_of_note 0));
    eqz (Ok 32768) (Ok (pitch_7_9_of_note 64));
    eqz (Ok 12288) (pitch_7_9_of_float (lit32 (12582912) (-19)));
    eqz (Ok 65024) (Ok (pitch_7_9_of_note 127));
    nez (Ok 0) (Ok 8192);
    nez (Ok 8192) (Ok 65535);
    nez (Ok 65535) (Ok 32768)] = true.
Proof. vm_compute. reflexivity. Qed.

(* line 1246 *)
Example test_pitch_7_9_as_float : forallb (fun b => b) [
    ulps32 (Ok (lit32 (0) (0))) (Ok (pitch_7_9_as_float 0));
    ulps32 (Ok (lit32 (8388608) (-18))) (Ok (pitch_7_9_as_float 16384));
    ulps32 (Ok (lit32 (8421376) (-17))) (Ok (pitch_7_9_as_float 32896));
    ulps32 (Ok (lit32 (12599296) (-17))) (Ok (pitch_7_9_as_float 49216));
    ulps32 (Ok (lit32 (16711680) (-17))) (Ok (pitch_7_9_as_float 65280))] = true.
Proof. vm_compute. reflexivity. Qed.

(* line 1259 *)
Example test_pitch_7_9_as_double : forallb (fun b => b) [
    ulps64 (Ok (lit64 (0) (0))) (Ok (pitch_7_9_as_double 0));
    ulps64 (Ok (lit64 (4503599627370496) (-47))) (Ok (pitch_7_9_as_double 16384));
    ulps64 (Ok (lit64 (4521191813414912) (-46))) (Ok (pitch_7_9_as_double 32896));
    ulps64 (Ok (lit64 (6764195534077952) (-46))) (Ok (pitch_7_9_as_double 49216));
    ulps64 (Ok (lit64 (8972014882652160) (-46))) (Ok (pitch_7_9_as_double 65280))] = true.
Proof. vm_compute. reflexivity. Qed.

(* line 1272 *)
Example test_pitch_7_9_note_nr : forallb (fun b => b) [
    eqz (Ok 0) (Ok (pitch_7_9_note_nr 0));
    eqz (Ok 9) (Ok (pitch_7_9_note_nr 4660));
    eqz (Ok 64) (Ok (pitch_7_9_note_nr 32768));
    eqz (Ok 99) (Ok (pitch_7_9_note_nr (pitch_7_9_of_note 99)));
    eqz (Ok 117) (x0 <- (pitch_7_9_of_float (lit32 (15408824) (-17))) ;; Ok (pitch_7_9_note_nr x0));
    eqz (Ok 127) (Ok (pitch_7_9_note_nr 65535))] = true.
Proof. vm_compute. reflexivity. Qed.

(* line 1312 *)
Example test_pitch_7_25_default_constructor : forallb (fun b => b) [
    eqz (Ok 0) (Ok 0)] = true.
Proof. vm_compute. reflexivity. Qed.

(* line 1320 *)
Example test_pitch_7_25_construct_from_uint32 : forallb (fun b => b) [
    eqz (Ok 0) (Ok 0);
    eqz (Ok 305419896) (Ok 305419896);
    eqz (Ok 2147483648) (Ok 2147483648);
    eqz (Ok 3452816845) (Ok 3452816845);
    eqz (Ok 4294967295) (Ok 4294967295)] = true.
Proof. vm_compute. reflexivity. Qed.

(* line 1357 *)
Example test_pitch_7_25_construct_from_note_nr : forallb (fun b => b) [
    eqz (Ok 0) (pitch_7_25_of_note 0);
    eqz (Ok 2147483648) (pitch_7_25_of_note 64);
    eqz (Ok 570425344) (pitch_7_25_of_note 17);
    eqz (Ok 3321888768) (pitch_7_25_of_note 99);
    eqz (Ok 4261412864) (pitch_7_25_of_note 127)] = true.
Proof. vm_compute. reflexivity. Qed.

(* line 1394 *)
Example test_pitch_7_25_construct_from_pitch7_9 : forallb (fun b => b) [
    eqz (Ok 305397760) (Ok (pitch_7_25_of_7_9 4660));
    eqz (Ok 2147483648) (Ok (pitch_7_25_of_7_9 (pitch_7_9_of_note 64)));
    eqz (Ok 2882338816) (Ok (pitch_7_25_of_7_9 43981));
    ulps32 (Ok (lit32 (9142272) (-17))) (x0 <- (x0 <- (pitch_7_9_of_float (lit32 (9142272) (-17))) ;; Ok (pitch_7_25_of_7_9 x0)) ;; Ok (pitch_7_25_as_float x0))] = true.
Proof. vm_compute. reflexivity. Qed.

(* line 1425 *)
Example test_pitch_7_25_construct_from_controller_value : forallb (fun b => b) [
    eqz (Ok 305419896) (Ok 305419896)] = true.
Proof. vm_compute. reflexivity. Qed.

(* line 1438 *)
Example test_pitch_7_25_construct_from_float : forallb (fun b => b) [
    eqz (Ok 0) (pitch_7_25_of_float (lit32 (0) (0)));
    eqz (Ok 2164260864) (pitch_7_25_of_float (lit32 (8454144) (-17)));
    eqz (Ok 578813952) (pitch_7_25_of_float (lit32 (9043968) (-19)));
    eqz (Ok 3347054592) (pitch_7_25_of_float (lit32 (13074432) (-17)));
    eqz (Ok 4294967295) (x0 <- (pitch_7_25_of_float (lit32 (16777203) (-17))) ;; x1 <- (Ok 4095) ;; Ok (Z.lor x0 x1));
    eqz (Ok 0) (pitch_7_25_of_float (lit32 (-8388608) (-24)));
    eqz (Ok 0) (pitch_7_25_of_float (lit32 (-13006275) (-17)));
    eqz (Ok 4294967295) (pitch_7_25_of_float (lit32 (8388608) (-16)));
    eqz (Ok 4294967295) (pitch_7_25_of_float (lit32 (16384000) (-14)))] = true.
Proof. vm_compute. reflexivity. Qed.

(* line 1499 *)
Example test_pitch_7_25_construct_from_double : forallb (fun b => b) [
    eqz (Ok 0) (pitch_7_25_of_double (lit64 (0) (0)));
    eqz (Ok 2164260864) (pitch_7_25_of_double (lit64 (4538783999459328) (-46)));
    eqz (Ok 578813952) (pitch_7_25_of_double (lit64 (4855443348258816) (-48)));
    eqz (Ok 3347054592) (pitch_7_25_of_double (lit64 (7019282231721984) (-46)));
    eqz (Ok 4294967295) (pitch_7_25_of_double (lit64 (9007199254037305) (-46)));
    eqz (Ok 0) (pitch_7_25_of_double (lit64 (-4503599627370496) (-53)));
    eqz (Ok 0) (pitch_7_25_of_double (lit64 (-6982690484749599) (-46)));
    eqz (Ok 4294967295) (pitch_7_25_of_double (lit64 (4503599627370496) (-45)));
    eqz (Ok 4294967295) (pitch_7_25_of_double (lit64 (8796093022208000) (-43)))] = true.
Proof. vm_compute. reflexivity. Qed.

(* line 1560 *)
Example test_pitch_7_25_equality : forallb (fun b => b) [
    eqz (Ok 0) (pitch_7_25_of_note 0);
    eqz (Ok 2147483648) (pitch_7_25_of_note 64);
    eqz (Ok 805306368) (pitch_7_25_of_float (lit32 (12582912) (-19)));
    eqz (Ok 4261412864) (pitch_7_25_of_note 127);
    nez (Ok 0) (Ok 8192);
    nez (Ok 8192) (Ok 65535);
    nez (Ok 65535) (Ok 32768)] = true.
Proof. vm_compute. reflexivity. Qed.

(* line 1576 *)
Example test_pitch_7_25_as_float : forallb (fun b => b) [
    same32 (Ok (lit32 (0) (0))) (Ok (pitch_7_25_as_float 0));
    same32 (Ok (lit32 (8388608) (-18))) (Ok (pitch_7_25_as_float 1073741824));
    same32 (Ok (lit32 (8421376) (-17))) (Ok (pitch_7_25_as_float 2155872256));
    same32 (Ok (lit32 (12599296) (-17))) (Ok (pitch_7_25_as_float 3225419776));
    same32 (Ok (lit32 (16711680) (-17))) (Ok (pitch_7_25_as_float 4278190080))] = true.
Proof. vm_compute. reflexivity. Qed.

(* line 1589 *)
Example test_pitch_7_25_as_double : forallb (fun b => b) [
    same64 (Ok (lit64 (0) (0))) (Ok (pitch_7_25_as_double 0));
    same64 (Ok (lit64 (4503599627370496) (-47))) (Ok (pitch_7_25_as_double 1073741824));
    same64 (Ok (lit64 (4521191813414912) (-46))) (Ok (pitch_7_25_as_double 2155872256));
    same64 (Ok (lit64 (6764195534077952) (-46))) (Ok (pitch_7_25_as_double 3225419776));
    same64 (Ok (lit64 (8972014882652160) (-46))) (Ok (pitch_7_25_as_double 4278190080))] = true.
Proof. vm_compute. reflexivity. Qed.

(* line 1602 *)
Example test_pitch_7_25_note_nr : forallb (fun b => b) [
    eqz (Ok 0) (Ok (pitch_7_25_note_nr 0));
    eqz (Ok 9) (Ok (pitch_7_25_note_nr 305419896));
    eqz (Ok 64) (Ok (pitch_7_25_note_nr 2147483648));
    eqz (Ok 99) (x0 <- (pitch_7_25_of_note 99) ;; Ok (pitch_7_25_note_nr x0));
    eqz (Ok 117) (x0 <- (pitch_7_25_of_float (lit32 (15408824) (-17))) ;; Ok (pitch_7_25_note_nr x0));
    eqz (Ok 127) (Ok (pitch_7_25_note_nr 4294967295))] = true.
Proof. vm_compute. reflexivity. Qed.

(* line 1639 *)
Example test_pitch_7_25_assign_pitch_7_9 : forallb (fun b => b) [
    eqz (Ok 0) (Ok (pitch_7_25_of_7_9 0));
    eqz (Ok 2697789440) (Ok (pitch_7_25_of_7_9 41165));
    eqz (Ok 3338665984) (x0 <- (pitch_7_9_of_float (lit32 (13041664) (-17))) ;; Ok (pitch_7_25_of_7_9 x0));
    eqz (Ok 828964864) (Ok (pitch_7_25_of_7_9 12649));
    eqz (Ok 4294901760) (Ok (pitch_7_25_of_7_9 65535))] = true.
Proof. vm_compute. reflexivity. Qed.

(* line 1677 *)
Example test_pitch_7_25_operator_plus_pitch_increment : forallb (fun b => b) [
    ulps32 (Ok (lit32 (10223616) (-19))) (x0 <- (x0 <- (pitch_7_25_of_float (lit32 (9961472) (-19))) ;; x1 <- (Ok 16777216) ;; pitch_add x0 x1) ;; Ok (pitch_7_25_as_float x0));
    ulps32 (Ok (lit32 (8486912) (-17))) (x0 <- (x0 <- (pitch_7_25_of_note 64) ;; x1 <- (Ok 25165824) ;; pitch_add x0 x1) ;; Ok (pitch_7_25_as_float x0));
    ulps32 (Ok (lit32 (12845056) (-17))) (x0 <- (x0 <- (pitch_7_25_of_note 99) ;; x1 <- (pitch_increment_of_float (lit32 (-8388608) (-23))) ;; pitch_add x0 x1) ;; Ok (pitch_7_25_as_float x0));
    ulps32 (Ok (lit32 (15466496) (-17))) (x0 <- (x0 <- (pitch_7_25_of_float (lit32 (15368192) (-17))) ;; x1 <- (Ok 25165824) ;; pitch_add x0 x1) ;; Ok (pitch_7_25_as_float x0));
    ulps32 (Ok (lit32 (9699328) (-19))) (x0 <- (x0 <- (pitch_7_25_of_float (lit32 (9961472) (-19))) ;; x1 <- (pitch_increment_of_float (lit32 (-8388608) (-24))) ;; pitch_add x0 x1) ;; Ok (pitch_7_25_as_float x0));
    ulps32 (Ok (lit32 (16580608) (-18))) (x0 <- (x0 <- (pitch_7_25_of_note 64) ;; x1 <- (pitch_increment_of_float (lit32 (-12582912) (-24))) ;; pitch_add x0 x1) ;; Ok (pitch_7_25_as_float x0));
    ulps32 (Ok (lit32 (12963021) (-17))) (x0 <- (x0 <- (pitch_7_25_of_note 99) ;; x1 <- (pitch_increment_of_float (lit32 (-13421773) (-27))) ;; pitch_add x0 x1) ;; Ok (pitch_7_25_as_float x0));
    ulps32 (Ok (lit32 (15351153) (-17))) (x0 <- (x0 <- (pitch_7_25_of_float (lit32 (15408824) (-17))) ;; x1 <- (pitch_increment_of_float (lit32 (-14763950) (-25))) ;; pitch_add x0 x1) ;; Ok (pitch_7_25_as_float x0));
    same32 (Ok (lit32 (0) (0))) (x0 <- (x0 <- (pitch_7_25_of_float (lit32 (13421773) (-27))) ;; x1 <- (pitch_increment_of_float (lit32 (-12582912) (-23))) ;; pitch_add x0 x1) ;; Ok (pitch_7_25_as_float x0));
    ulps32 (Ok (lit32 (8388608) (-16))) (x0 <- (x0 <- (pitch_7_25_of_double (lit64 (9000162380323226) (-46))) ;; x1 <- (pitch_increment_of_double (lit64 (7205759403792794) (-55))) ;; pitch_add x0 x1) ;; Ok (pitch_7_25_as_float x0))] = true.
Proof. vm_compute. reflexivity. Qed.

(* line 1708 *)
Example test_pitch_7_25_operator_plus_float : forallb (fun b => b) [
    ulps32 (Ok (lit32 (10223616) (-19))) (x0 <- (x0 <- (pitch_7_25_of_float (lit32 (9961472) (-19))) ;; x1 <- (Ok (lit32 (8388608) (-24))) ;; pitch_add_float x0 x1) ;; Ok (pitch_7_25_as_float x0));
    ulps32 (Ok (lit32 (8486912) (-17))) (x0 <- (x0 <- (pitch_7_25_of_note 64) ;; x1 <- (Ok (lit32 (12582912) (-24))) ;; pitch_add_float x0 x1) ;; Ok (pitch_7_25_as_float x0));
    ulps32 (Ok (lit32 (12989235) (-17))) (x0 <- (x0 <- (pitch_7_25_of_note 99) ;; x1 <- (Ok (lit32 (13421773) (-27))) ;; pitch_add_float x0 x1) ;; Ok (pitch_7_25_as_float x0));
    ulps32 (Ok (lit32 (15466496) (-17))) (x0 <- (x0 <- (pitch_7_25_of_float (lit32 (15408824) (-17))) ;; x1 <- (Ok (lit32 (14763950) (-25))) ;; pitch_add_float x0 x1) ;; Ok (pitch_7_25_as_float x0));
    eqz (Ok 4294967295) (x0 <- (pitch_7_25_of_float (lit32 (16747069) (-17))) ;; x1 <- (Ok (lit32 (10317988) (-23))) ;; pitch_add_float x0 x1);
    ulps32 (Ok (lit32 (9699328) (-19))) (x0 <- (x0 <- (pitch_7_25_of_float (lit32 (9961472) (-19))) ;; x1 <- (Ok (lit32 (-8388608) (-24))) ;; pitch_add_float x0 x1) ;; Ok (pitch_7_25_as_float x0));
    ulps32 (Ok (lit32 (16580608) (-18))) (x0 <- (x0 <- (pitch_7_25_of_note 64) ;; x1 <- (Ok (lit32 (-12582912) (-24))) ;; pitch_add_float x0 x1) ;; Ok (pitch_7_25_as_float x0));
    ulps32 (Ok (lit32 (12963021) (-17))) (x0 <- (x0 <- (pitch_7_25_of_note 99) ;; x1 <- (Ok (lit32 (-13421773) (-27))) ;; pitch_add_float x0 x1) ;; Ok (pitch_7_25_as_float x0));
    ulps32 (Ok (lit32 (15351153) (-17))) (x0 <- (x0 <- (pitch_7_25_of_float (lit32 (15408824) (-17))) ;; x1 <- (Ok (lit32 (-14763950) (-25))) ;; pitch_add_float x0 x1) ;; Ok (pitch_7_25_as_float x0));
    eqz (Ok 0) (x0 <- (pitch_7_25_of_float (lit32 (8388608) (-23))) ;; x1 <- (Ok (lit32 (-10317988) (-23))) ;; pitch_add_float x0 x1);
    eqz (Ok 4294967295) (x0 <- (pitch_7_25_of_float (lit32 (16711680) (-17))) ;; x1 <- (Ok (lit32 (10066330) (-24))) ;; pitch_add_float x0 x1)] = true.
Proof. vm_compute. reflexivity. Qed.

(* line 1734 *)
Example test_pitch_7_25_operator_plus_double : forallb (fun b => b) [
    near64 (Ok (lit64 (5488762045857792) (-48))) (x0 <- (x0 <- (pitch_7_25_of_double (lit64 (5348024557502464) (-48))) ;; x1 <- (Ok (lit64 (4503599627370496) (-53))) ;; pitch_add_double x0 x1) ;; Ok (pitch_7_25_as_double x0)) 8;
    near64 (Ok (lit64 (4556376185503744) (-46))) (x0 <- (x0 <- (pitch_7_25_of_note 64) ;; x1 <- (Ok (lit64 (6755399441055744) (-53))) ;; pitch_add_double x0 x1) ;; Ok (pitch_7_25_as_double x0)) 8;
    near64 (Ok (lit64 (6973542548006502) (-46))) (x0 <- (x0 <- (pitch_7_25_of_note 99) ;; x1 <- (Ok (lit64 (7205759403792794) (-56))) ;; pitch_add_double x0 x1) ;; Ok (pitch_7_25_as_double x0)) 8;
    near64 (Ok (lit64 (8303511812964352) (-46))) (x0 <- (x0 <- (pitch_7_25_of_double (lit64 (8272549565526180) (-46))) ;; x1 <- (Ok (lit64 (7926335344172073) (-54))) ;; pitch_add_double x0 x1) ;; Ok (pitch_7_25_as_double x0)) 8;
    eqz (Ok 4294967295) (x0 <- (pitch_7_25_of_double (lit64 (8991014443580129) (-46))) ;; x1 <- (Ok (lit64 (5539427541665710) (-52))) ;; pitch_add_double x0 x1);
    near64 (Ok (lit64 (5207287069147136) (-48))) (x0 <- (x0 <- (pitch_7_25_of_double (lit64 (5348024557502464) (-48))) ;; x1 <- (Ok (lit64 (-4503599627370496) (-53))) ;; pitch_add_double x0 x1) ;; Ok (pitch_7_25_as_double x0)) 8;
    near64 (Ok (lit64 (8901646138474496) (-47))) (x0 <- (x0 <- (pitch_7_25_of_note 64) ;; x1 <- (Ok (lit64 (-6755399441055744) (-53))) ;; pitch_add_double x0 x1) ;; Ok (pitch_7_25_as_double x0)) 8;
    near64 (Ok (lit64 (6959468799170970) (-46))) (x0 <- (x0 <- (pitch_7_25_of_note 99) ;; x1 <- (Ok (lit64 (-7205759403792794) (-56))) ;; pitch_add_double x0 x1) ;; Ok (pitch_7_25_as_double x0)) 8;
    near64 (Ok (lit64 (8241587318088008) (-46))) (x0 <- (x0 <- (pitch_7_25_of_double (lit64 (8272549565526180) (-46))) ;; x1 <- (Ok (lit64 (-7926335344172073) (-54))) ;; pitch_add_double x0 x1) ;; Ok (pitch_7_25_as_double x0)) 8;
    eqz (Ok 0) (x0 <- (pitch_7_25_of_double (lit64 (4503599627370496) (-52))) ;; x1 <- (Ok (lit64 (-5539427541665710) (-52))) ;; pitch_add_double x0 x1);
    eqz (Ok 4294967295) (x0 <- (pitch_7_25_of_double (lit64 (8444249301319680) (-46))) ;; x1 <- (Ok (lit64 (5910974510923776) (-49))) ;; pitch_add_double x0 x1)] = true.
Proof. vm_compute. reflexivity. Qed.

(* line 1762 *)
Example test_pitch_7_25_operator_plus_assign_pitch_increment : forallb (fun b => b) [
    eqz (pitch_7_25_of_float (lit32 (15859712) (-18))) (x0 <- (pitch_7_25_of_note 60) ;; x1 <- (Ok 16777216) ;; pitch_add_assign x0 x1);
    eqz (pitch_7_25_of_note 78) (x0 <- (pitch_7_25_of_float (lit32 (10125312) (-17))) ;; x1 <- (Ok 25165824) ;; pitch_add_assign x0 x1);
    eqz (pitch_7_25_of_note 49) (x0 <- (pitch_7_25_of_note 50) ;; x1 <- (pitch_increment_of_float (lit32 (-8388608) (-23))) ;; pitch_add_assign x0 x1);
    eqz (pitch_7_25_of_float (lit32 (12713984) (-18))) (x0 <- (x0 <- (pitch_7_25_of_note 50) ;; x1 <- (pitch_increment_of_float (lit32 (-8388608) (-23))) ;; pitch_add_assign x0 x1) ;; x1 <- (pitch_increment_of_float (lit32 (-8388608) (-24))) ;; pitch_add_assign x0 x1);
    eqz (Ok 0) (x0 <- (pitch_7_25_of_note 4) ;; x1 <- (pitch_increment_of_float (lit32 (-8598323) (-21))) ;; pitch_add_assign x0 x1);
    eqz (Ok 4294967295) (x0 <- (pitch_7_25_of_double (lit64 (8444249301319680) (-46))) ;; x1 <- (Ok (lit64 (5910974510923776) (-49))) ;; pitch_add_double x0 x1);
    eqz (Ok 4294967295) (x0 <- (pitch_7_25_of_note 68) ;; x1 <- (pitch_increment_of_double (lit64 (8458323050155213) (-47))) ;; pitch_add_assign x0 x1)] = true.
Proof. vm_compute. reflexivity. Qed.

(* line 1821 *)
Example test_pitch_bend_sensitivity_default_constructor : forallb (fun b => b) [
    eqz (Ok 67108864) pitch_bend_sensitivity_default] = true.
Proof. vm_compute. reflexivity. Qed.

(* line 1829 *)
Example test_pitch_bend_sensitivity_operator_times : forallb (fun b => b) [
    eqz (x0 <- (Ok 2147483648) ;; x1 <- (pitch_7_25_of_note 1) ;; bend_times_sensitivity x0 x1) (Ok 0);
    eqz (x0 <- (pitch_bend_of_float (lit32 (8388608) (-24))) ;; x1 <- (pitch_7_25_of_note 1) ;; bend_times_sensitivity x0 x1) (x0 <- (pitch_7_25_of_note 1) ;; x1 <- (pitch_bend_of_float (lit32 (8388608) (-24))) ;; sensitivity_times_bend x0 x1);
    ulps32 (x0 <- (x0 <- (pitch_7_25_of_note 10) ;; Ok (pitch_7_25_as_float x0)) ;; x1 <- (Ok (lit32 (8388608) (-24))) ;; Ok (f_plus x0 x1)) (x0 <- (x0 <- (pitch_7_25_of_note 10) ;; x1 <- (x0 <- (pitch_bend_of_float (lit32 (8388608) (-24))) ;; x1 <- (pitch_7_25_of_note 1) ;; bend_times_sensitivity x0 x1) ;; pitch_add x0 x1) ;; Ok (pitch_7_25_as_float x0));
    eqz (x0 <- (pitch_bend_of_float (lit32 (-8388608) (-24))) ;; x1 <- (pitch_7_25_of_note 2) ;; bend_times_sensitivity x0 x1) (x0 <- (pitch_7_25_of_note 2) ;; x1 <- (pitch_bend_of_float (lit32 (-8388608) (-24))) ;; sensitivity_times_bend x0 x1);
    ulps32 (x0 <- (x0 <- (pitch_7_25_of_note 10) ;; Ok (pitch_7_25_as_float x0)) ;; x1 <- (Ok (lit32 (8388608) (-23))) ;; Ok (f_minus x0 x1)) (x0 <- (x0 <- (pitch_7_25_of_note 10) ;; x1 <- (x0 <- (pitch_bend_of_float (lit32 (-8388608) (-24))) ;; x1 <- (pitch_7_25_of_note 2) ;; bend_times_sensitivity x0 x1) ;; pitch_add x0 x1) ;; Ok (pitch_7_25_as_float x0));
    eqz (x0 <- (pitch_bend_of_float (lit32 (8388608) (-23))) ;; x1 <- (pitch_7_25_of_float (lit32 (10485760) (-22))) ;; bend_times_sensitivity x0 x1) (x0 <- (pitch_7_25_of_float (lit32 (10485760) (-22))) ;; x1 <- (pitch_bend_of_float (lit32 (8388608) (-23))) ;; sensitivity_times_bend x0 x1);
    ulps32 (x0 <- (x0 <- (pitch_7_25_of_note 10) ;; Ok (pitch_7_25_as_float x0)) ;; x1 <- (Ok (lit32 (10485760) (-22))) ;; Ok (f_plus x0 x1)) (x0 <- (x0 <- (pitch_7_25_of_note 10) ;; x1 <- (x0 <- (pitch_bend_of_float (lit32 (8388608) (-23))) ;; x1 <- (pitch_7_25_of_float (lit32 (10485760) (-22))) ;; bend_times_sensitivity x0 x1) ;; pitch_add x0 x1) ;; Ok (pitch_7_25_as_float x0));
    eqz (x0 <- (pitch_bend_of_float (lit32 (-8388608) (-23))) ;; x1 <- (pitch_7_25_of_float (lit32 (8388608) (-21))) ;; bend_times_sensitivity x0 x1) (x0 <- (pitch_7_25_of_float (lit32 (8388608) (-21))) ;; x1 <- (pitch_bend_of_float (lit32 (-8388608) (-23))) ;; sensitivity_times_bend x0 x1);
    ulps32 (x0 <- (x0 <- (pitch_7_25_of_note 10) ;; Ok (pitch_7_25_as_float x0)) ;; x1 <- (Ok (lit32 (8388608) (-21))) ;; Ok (f_minus x0 x1)) (x0 <- (x0 <- (pitch_7_25_of_note 10) ;; x1 <- (x0 <- (pitch_bend_of_float (lit32 (-8388608) (-23))) ;; x1 <- (pitch_7_25_of_float (lit32 (8388608) (-21))) ;; bend_times_sensitivity x0 x1) ;; pitch_add x0 x1) ;; Ok (pitch_7_25_as_float x0));
    eqz (Ok (-2147483648)) (x0 <- (pitch_bend_of_float (lit32 (-8388608) (-23))) ;; x1 <- (pitch_7_25_of_float (lit32 (12582912) (-17))) ;; bend_times_sensitivity x0 x1);
    eqz (Ok 2147483647) (x0 <- (pitch_bend_of_float (lit32 (8388608) (-23))) ;; x1 <- (pitch_7_25_of_float (lit32 (12582912) (-17))) ;; bend_times_sensitivity x0 x1)] = true.
Proof. vm_compute. reflexivity. Qed.

(* line 1890 *)
Example test_controller_increment_default_constructor : forallb (fun b => b) [
    eqz (Ok 0) (Ok 0)] = true.
Proof. vm_compute. reflexivity. Qed.

(* line 1898 *)
Example test_controller_increment_construct_from_int32 : forallb (fun b => b) [
    eqz (Ok 99) (Ok 99);
    eqz (Ok 305419896) (Ok 305419896);
    eqz (Ok 1216907400) (Ok 1216907400);
    eqz (Ok 2147483647) (Ok 2147483647);
    eqz (Ok (-778899)) (Ok (-778899))] = true.
Proof. vm_compute. reflexivity. Qed.

(* line 1935 *)
Example test_controller_increment_equality : forallb (fun b => b) [
    eqz (Ok 0) (Ok 0);
    eqz (Ok 1943301028) (Ok 1943301028);
    eqz (Ok 206107980) (Ok 206107980);
    eqz (Ok (-562234)) (Ok (-562234));
    nez (Ok 1943301028) (Ok 206107980);
    nez (Ok 206107980) (Ok (-562234));
    nez (Ok 0) (Ok 536879104);
    nez (Ok 1943301028) (Ok 206107980);
    nez (Ok (-562234)) (Ok 562234)] = true.
Proof. vm_compute. reflexivity. Qed.

(* line 1957 *)
Example test_controller_value_default_constructor : forallb (fun b => b) [
    eqz (Ok 0) (Ok 0)] = true.
Proof. vm_compute. reflexivity. Qed.

(* line 1965 *)
Example test_controller_value_construct_from_uint32 : forallb (fun b => b) [
    eqz (Ok 0) (Ok 0);
    eqz (Ok 305419896) (Ok 305419896);
    eqz (Ok 2147483648) (Ok 2147483648);
    eqz (Ok 3452816845) (Ok 3452816845);
    eqz (Ok 4294967295) (Ok 4294967295)] = true.
Proof. vm_compute. reflexivity. Qed.

(* line 2002 *)
Example test_controller_value_construct_from_uint14 : forallb (fun b => b) [
    eqz (Ok 0) (controller_of_uint14 0);
    eqz (Ok 1917845504) (controller_of_uint14 7316);
    eqz (Ok 2147483648) (controller_of_uint14 8192);
    eqz (Ok 2991952556) (controller_of_uint14 11413);
    eqz (Ok 4294967295) (controller_of_uint14 16383)] = true.
Proof. vm_compute. reflexivity. Qed.

(* line 2039 *)
Example test_controller_value_construct_from_uint7 : forallb (fun b => b) [
    eqz (Ok 0) (Ok (controller_of_uint7 0));
    eqz (Ok 2013265920) (Ok (controller_of_uint7 60));
    eqz (Ok 2147483648) (Ok (controller_of_uint7 64));
    eqz (Ok 2999659698) (Ok (controller_of_uint7 89));
    eqz (Ok 4294967295) (Ok (controller_of_uint7 127))] = true.
Proof. vm_compute. reflexivity. Qed.

(* line 2076 *)
Example test_controller_value_construct_from_pitch_7_25 : forallb (fun b => b) [
    eqz (pitch_7_25_of_double (lit64 (5251619377979064) (-46))) (pitch_7_25_of_double (lit64 (5251619377979064) (-46)))] = true.
Proof. vm_compute. reflexivity. Qed.

(* line 2090 *)
Example test_controller_value_construct_from_float : forallb (fun b => b) [
    eqz (Ok 0) (controller_of_float (lit32 (0) (0)));
    eqz (Ok 1073741824) (controller_of_float (lit32 (8388608) (-25)));
    eqz (Ok 2147483648) (controller_of_float (lit32 (8388608) (-24)));
    eqz (Ok 3221225471) (controller_of_float (lit32 (12582912) (-24)));
    eqz (Ok 4294967295) (controller_of_float (lit32 (8388608) (-23)));
    eqz (Ok 0) (controller_of_float (lit32 (-10737418) (-30)));
    eqz (Ok 0) (controller_of_float (lit32 (-8388608) (-24)));
    eqz (Ok 0) (controller_of_float (lit32 (-14155776) (-17)));
    eqz (Ok 4294967295) (controller_of_float (lit32 (11744051) (-23)));
    eqz (Ok 4294967295) (controller_of_float (lit32 (12976128) (-17)))] = true.
Proof. vm_compute. reflexivity. Qed.

(* line 2157 *)
Example test_controller_value_construct_from_double : forallb (fun b => b) [
    eqz (Ok 0) (controller_of_double (lit64 (0) (0)));
    eqz (Ok 1073741824) (controller_of_double (lit64 (4503599627370496) (-54)));
    eqz (Ok 2147483648) (controller_of_double (lit64 (4503599627370496) (-53)));
    eqz (Ok 3221225471) (controller_of_double (lit64 (6755399441055744) (-53)));
    eqz (Ok 4294967295) (controller_of_double (lit64 (4503599627370496) (-52)));
    eqz (Ok 0) (controller_of_double (lit64 (-5764607523034235) (-59)));
    eqz (Ok 0) (controller_of_double (lit64 (-4503599627370496) (-53)));
    eqz (Ok 0) (controller_of_double (lit64 (-7599824371187712) (-46)));
    eqz (Ok 4294967295) (controller_of_double (lit64 (6305039478318694) (-52)));
    eqz (Ok 4294967295) (controller_of_double (lit64 (6966505673588736) (-46)))] = true.
Proof. vm_compute. reflexivity. Qed.

(* line 2224 *)
Example test_controller_value_equality : forallb (fun b => b) [
    eqz (Ok (controller_of_uint7 0)) (Ok 0);
    eqz (Ok (controller_of_uint7 64)) (Ok 2147483648);
    eqz (Ok (controller_of_uint7 77)) (Ok 2590615194);
    eqz (Ok (controller_of_uint7 127)) (Ok 4294967295);
    nez (Ok (controller_of_uint7 0)) (Ok 536879104);
    nez (Ok (controller_of_uint7 64)) (Ok 4294967295);
    nez (Ok 4294967295) (Ok 2147483648)] = true.
Proof. vm_compute. reflexivity. Qed.

(* line 2241 *)
Example test_controller_value_as_float : forallb (fun b => b) [
    ulps32 (Ok (lit32 (0) (0))) (Ok (controller_as_float 0));
    ulps32 (Ok (lit32 (8388608) (-25))) (Ok (controller_as_float 1073741824));
    ulps32 (Ok (lit32 (8388608) (-24))) (Ok (controller_as_float 2147483648));
    ulps32 (Ok (lit32 (12582912) (-24))) (Ok (controller_as_float 3221225471));
    ulps32 (Ok (lit32 (8388608) (-23))) (Ok (controller_as_float 4294967295))] = true.
Proof. vm_compute. reflexivity. Qed.

(* line 2254 *)
Example test_controller_value_as_double : forallb (fun b => b) [
    ulps64 (Ok (lit64 (0) (0))) (Ok (controller_as_double 0));
    ulps64 (Ok (lit64 (4503599627370496) (-54))) (Ok (controller_as_double 1073741824));
    ulps64 (Ok (lit64 (4503599627370496) (-53))) (Ok (controller_as_double 2147483648));
    near64 (Ok (lit64 (6755399441055744) (-53))) (Ok (controller_as_double 3221225471)) 10;
    ulps64 (Ok (lit64 (4503599627370496) (-52))) (Ok (controller_as_double 4294967295))] = true.
Proof. vm_compute. reflexivity. Qed.

(* line 2267 *)
Example test_controller_value_as_uint14 : forallb (fun b => b) [
    eqz (Ok 0) (Ok (controller_as_uint14 0));
    eqz (Ok 4) (Ok (controller_as_uint14 1193046));
    eqz (Ok 1372) (Ok (controller_as_uint14 359891842));
    eqz (Ok 2048) (Ok (controller_as_uint14 536870912));
    eqz (Ok 3558) (Ok (controller_as_uint14 932904771));
    eqz (Ok 4096) (Ok (controller_as_uint14 1073741824));
    eqz (Ok 8192) (Ok (controller_as_uint14 2147483648));
    eqz (Ok 10995) (Ok (controller_as_uint14 2882400018));
    eqz (Ok 12288) (Ok (controller_as_uint14 3221225472));
    eqz (Ok 16383) (Ok (controller_as_uint14 4294967295))] = true.
Proof. vm_compute. reflexivity. Qed.

(* line 2285 *)
Example test_controller_value_as_uint7 : forallb (fun b => b) [
    eqz (Ok 0) (Ok (controller_as_uint7 0));
    eqz (Ok 0) (Ok (controller_as_uint7 1193046));
    eqz (Ok 10) (Ok (controller_as_uint7 359891842));
    eqz (Ok 16) (Ok (controller_as_uint7 536870912));
    eqz (Ok 27) (Ok (controller_as_uint7 932904771));
    eqz (Ok 32) (Ok (controller_as_uint7 1073741824));
    eqz (Ok 64) (Ok (controller_as_uint7 2147483648));
    eqz (Ok 85) (Ok (controller_as_uint7 2882400018));
    eqz (Ok 96) (Ok (controller_as_uint7 3221225472));
    eqz (Ok 127) (Ok (controller_as_uint7 4294967295))] = true.
Proof. vm_compute. reflexivity. Qed.

(* line 2303 *)
Example test_controller_value_plus_controller_increment : forallb (fun b => b) [
    eqz (Ok 0) (controller_add 0 0);
    eqz (Ok 44) (controller_add 0 44);
    eqz (Ok 0) (controller_add 0 (-5));
    eqz (Ok 932904771) (controller_add 932904771 0);
    eqz (Ok 932904815) (controller_add 932904771 44);
    eqz (Ok 932904766) (controller_add 932904771 (-5));
    eqz (Ok 0) (controller_add 932904771 (-932904815));
    eqz (Ok 2882400018) (controller_add 2882400018 0);
    eqz (Ok 2882400062) (controller_add 2882400018 44);
    eqz (Ok 2882400013) (controller_add 2882400018 (-5));
    eqz (Ok 4294967295) (controller_add 2882400018 2147483647);
    eqz (Ok 4014188144) (controller_add 4014188144 0);
    eqz (Ok 4014188188) (controller_add 4014188144 44);
    eqz (Ok 4014188139) (controller_add 4014188144 (-5));
    eqz (Ok 4294967295) (controller_add 4014188144 536870912);
    eqz (Ok 4294967295) (controller_add 4294967295 0);
    eqz (Ok 4294967295) (controller_add 4294967295 44);
    eqz (Ok 4294967290) (controller_add 4294967295 (-5))] = true.
Proof. vm_compute. reflexivity. Qed.

(* line 2355 *)
Example test_controller_value_operator_plus_assign : forallb (fun b => b) [
    eqz (Ok 0) (controller_add_assign 0 0);
    eqz (Ok 44) (x0 <- (controller_add_assign 0 0) ;; x1 <- (Ok 44) ;; controller_add_assign x0 x1);
    eqz (Ok 39) (x0 <- (x0 <- (controller_add_assign 0 0) ;; x1 <- (Ok 44) ;; controller_add_assign x0 x1) ;; x1 <- (Ok (-5)) ;; controller_add_assign x0 x1);
    eqz (Ok 0) (x0 <- (x0 <- (x0 <- (controller_add_assign 0 0) ;; x1 <- (Ok 44) ;; controller_add_assign x0 x1) ;; x1 <- (Ok (-5)) ;; controller_add_assign x0 x1) ;; x1 <- (Ok (-40)) ;; controller_add_assign x0 x1);
    eqz (Ok 932904771) (controller_add_assign 932904771 0);
    eqz (Ok 932904815) (x0 <- (controller_add_assign 932904771 0) ;; x1 <- (Ok 44) ;; controller_add_assign x0 x1);
    eqz (Ok 0) (x0 <- (x0 <- (controller_add_assign 932904771 0) ;; x1 <- (Ok 44) ;; controller_add_assign x0 x1) ;; x1 <- (Ok (-932904815)) ;; controller_add_assign x0 x1);
    eqz (Ok 4294967295) (controller_add_assign 4294967295 44);
    eqz (Ok 4294967290) (x0 <- (controller_add_assign 4294967295 44) ;; x1 <- (Ok (-5)) ;; controller_add_assign x0 x1)] = true.
Proof. vm_compute. reflexivity. Qed.

(* line 689: the only multiple of 0x1234 that C11_pitch_bend leaves open *)
Example test_pitch_bend_symmetric :
  filter (fun v => v mod 0x1234 =? 0) (zrange 4095 0x80000001) = [0x80000AE8] /\
  pitch_bend_of_double (pitch_bend_as_double 0x80000AE8) = Ok 0x80000AE8.
Proof. vm_compute. split; reflexivity. Qed.
