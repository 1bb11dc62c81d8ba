(* The unit tests of tests/sysex7_collector_tests.cpp and tests/sysex8_collector_tests.cpp, run on the model.  These are
   checks of the model against the results its authors expect of the code, not proofs. *)
From Coq Require Import ZArith List Bool.
From Verif Require Import Base Packet Messages Sysex Collector.
Import ListNotations.
Local Open Scope Z_scope.
Local Open Scope res_scope.

(* reserve() as libstdc++ does it *)
Definition exact : allocator := mkAlloc (fun c n => Z.max c n) (fun _ => 0).
Definition P2 w0 w1 := mkP w0 w1 0 0.
(* the messages delivered by a new collector with callback and size limit *)
Definition out7 (max : Z) (ps : list packet) : res (list sysex) :=
  r <- c7_calls exact (new_collector7 true) ((if max =? 0 then [] else [KSetMax max]) ++ map KFeed ps) ;; Ok (snd r).
Definition out8 (max : Z) (ps : list packet) : res (list (sysex * Z)) :=
  r <- c8_calls exact (new_collector8 true) ((if max =? 0 then [] else [KSetMax max]) ++ map KFeed ps) ;; Ok (snd r).
(* stream_id() and the number of messages after each packet *)
Fixpoint ids8 (c : collector8) (n : Z) (ps : list packet) : res (list (Z * Z)) :=
  match ps with
  | [] => Ok []
  | p :: ps' =>
      r <- c8_feed exact c p ;; let '(c, o) := r in
      l <- ids8 c (n + size o) ps' ;; Ok ((c8_stream c, n + size o) :: l)
  end.
Definition bytes_of (s : sysex) : Z := size (sx_data s).

(* tests/sysex7_test_data.cpp *)
Definition sysex7_test_cases : list (list packet * sysex) := [
  (* empty sysex *)
  ([mkP 0x30010000 0x00000000 0 0],
   (mkSx 0 []));
  (* one byte manufacturer only *)
  ([mkP 0x31010400 0x00000000 0 0],
   (mkSx 0x040000 []));
  (* three byte manufacturer only *)
  ([mkP 0x35030021 0x09000000 0 0],
   (mkSx 0x002109 []));
  (* three byte manufacturer, complete message *)
  ([mkP 0x31050002 0x0D152600 0 0],
   (mkSx 0x00020D [0x15; 0x26]));
  (* one byte manufacturer, complete message *)
  ([mkP 0x3F060905 0x04030201 0 0],
   (mkSx 0x090000 [5; 4; 3; 2; 1]));
  (* two messages *)
  ([mkP 0x3A164E09 0x08070605 0 0; mkP 0x3A340403 0x02010000 0 0],
   (mkSx 0x4E0000 [9; 8; 7; 6; 5; 4; 3; 2; 1]));
  (* three messages *)
  ([mkP 0x36160021 0x1D112233 0 0; mkP 0x36264455 0x66771829 0 0; mkP 0x36353A4B 0x5C6D7C00 0 0],
   (mkSx 0x00211D [0x11; 0x22; 0x33; 0x44; 0x55; 0x66; 0x77; 0x18; 0x29; 0x3A; 0x4B; 0x5C; 0x6D; 0x7C]));
  (* four messages *)
  ([mkP 0x31160020 0x6B112233 0 0; mkP 0x31264455 0x66771829 0 0; mkP 0x31263A4B 0x5C6D7C0F 0 0; mkP 0x31311000 0x00000000 0 0],
   (mkSx 0x00206B [0x11; 0x22; 0x33; 0x44; 0x55; 0x66; 0x77; 0x18; 0x29; 0x3A; 0x4B; 0x5C; 0x6D; 0x7C; 0x0F; 0x10]))].

(* tests/sysex8_test_data.cpp *)
Definition sysex8_test_cases : list (list packet * (sysex * Z)) := [
  (* empty sysex *)
  ([mkP 0x50034400 0x00000000 0 0],
   (mkSx 0 [], 0x44));
  (* one byte manufacturer only *)
  ([mkP 0x51033400 0x04000000 0 0],
   (mkSx 0x040000 [], 0x34));
  (* three byte manufacturer only *)
  ([mkP 0x550300A1 0x09000000 0 0],
   (mkSx 0x002109 [], 0x00));
  (* three byte manufacturer, complete packet *)
  ([mkP 0x5106AA82 0x0D85A600 0 0],
   (mkSx 0x00020D [0x85; 0xA6; 0x00], 0xAA));
  (* one byte manufacturer, complete packet *)
  ([mkP 0x5F089300 0x09F5E4D3 0xC2B10000 0],
   (mkSx 0x090000 [0xF5; 0xE4; 0xD3; 0xC2; 0xB1], 0x93));
  (* two packets *)
  ([mkP 0x5A1E3900 0x4E090807 0x06050403 0x020100FF; mkP 0x5A3639EE 0xDDCCBBAA 0 0],
   (mkSx 0x4E0000 [9; 8; 7; 6; 5; 4; 3; 2; 1; 0; 0xFF; 0xEE; 0xDD; 0xCC; 0xBB; 0xAA], 0x39));
  (* three packets *)
  ([mkP 0x561EC3A1 0x1D112233 0x44556677 0x18293A4B; mkP 0x562EC35C 0x6D7C8B9A 0xA9B8C7D6 0xE5F40312; mkP 0x5632C331 0 0 0],
   (mkSx 0x00211D [0x11; 0x22; 0x33; 0x44; 0x55; 0x66; 0x77; 0x18; 0x29; 0x3A; 0x4B; 0x5C; 0x6D; 0x7C; 0x8B; 0x9A; 0xA9; 0xB8; 0xC7; 0xD6; 0xE5; 0xF4; 0x03; 0x12; 0x31], 0xC3));
  (* lots of data *)
  ([mkP 0x511E83A1 0x09112233 0x44556677 0x8899AABB; mkP 0x512E83CC 0xDDEEFF18 0x293A4B5C 0x6D7E8F90; mkP 0x512E83A1 0xB2C3D4E5 0xF6E7D8F0 0xE1D2C3B4; mkP 0x512E83A5 0x96877869 0x5A4B3C2D 0x1E0F420F; mkP 0x51328310 0x00000000 0 0],
   (mkSx 0x002109 [0x11; 0x22; 0x33; 0x44; 0x55; 0x66; 0x77; 0x88; 0x99; 0xAA; 0xBB; 0xCC; 0xDD; 0xEE; 0xFF; 0x18; 0x29; 0x3A; 0x4B; 0x5C; 0x6D; 0x7E; 0x8F; 0x90; 0xA1; 0xB2; 0xC3; 0xD4; 0xE5; 0xF6; 0xE7; 0xD8; 0xF0; 0xE1; 0xD2; 0xC3; 0xB4; 0xA5; 0x96; 0x87; 0x78; 0x69; 0x5A; 0x4B; 0x3C; 0x2D; 0x1E; 0x0F; 0x42; 0x0F; 0x10], 0x83))].

(* ---- tests/sysex7_collector_tests.cpp ------------------------------------------------ *)

(* line 46 *)
Example sysex7_set_callback :
  (p <- make_sysex7_complete_packet 0 ;;
   r <- c7_calls exact (new_collector7 false) [KSetCallback true; KFeed p] ;; Ok (snd r)) = Ok [mkSx 0 []].
Proof. vm_compute. reflexivity. Qed.

(* line 62 *)
Example sysex7_regular_collect :
  map (fun t => out7 0 (fst t)) sysex7_test_cases = map (fun t => Ok [snd t]) sysex7_test_cases /\
  out7 0 (concat (map fst sysex7_test_cases)) = Ok (map snd sysex7_test_cases).
Proof. vm_compute. split; reflexivity. Qed.

(* line 110 *)
Example sysex7_end_ignored :
  (p <- make_sysex7_end_packet 0 ;; p <- sysex7_add_payload_byte p 11 ;; out7 0 [p]) = Ok [] /\
  (p1 <- make_sysex7_continue_packet 0 ;; p1 <- sysex7_add_payload_byte p1 10 ;;
   p2 <- make_sysex7_end_packet 0 ;; out7 0 [p1; p2]) = Ok [].
Proof. vm_compute. split; reflexivity. Qed.
Example sysex7_exceptional_collect :
  out7 0 [P2 0x31441234 0; P2 0x31060F1E 0x2D3C4B5A] = Ok [mkSx 0x0F0000 [0x1E; 0x2D; 0x3C; 0x4B; 0x5A]] /\
  out7 0 [P2 0x35160F1E 0x2D3C4B5A; P2 0x35226978 0x00000000; P2 0x35017D00 0] = Ok [mkSx 0x7D0000 []] /\
  out7 0 [P2 0x3E167E12 0x34567809; P2 0x3E261A2B 0x3C4D5E6F; P2 0x3E300000 0] =
    Ok [mkSx 0x7E0000 [0x12; 0x34; 0x56; 0x78; 0x09; 0x1A; 0x2B; 0x3C; 0x4D; 0x5E; 0x6F]].
Proof. vm_compute. repeat split; reflexivity. Qed.

(* line 214 *)
Example sysex7_limited_data_size_collect :
  (r <- out7 256 [P2 0x30167E12 0x34567809; P2 0x30261A2B 0x3C4D5E6F; P2 0x30340000 0] ;; Ok (map bytes_of r)) = Ok [15] /\
  out7 12 [P2 0x30167E12 0x34567809; P2 0x30261A2B 0x3C4D5E6F; P2 0x30320000 0] = Ok [] /\
  (r <- out7 12 [P2 0x30167E12 0x34567809; P2 0x30261A2B 0x3C4D5E6F; P2 0x30310000 0] ;; Ok (map bytes_of r)) = Ok [12].
Proof. vm_compute. repeat split; reflexivity. Qed.

(* ---- tests/sysex8_collector_tests.cpp ------------------------------------------------ *)

(* line 74 *)
Example sysex8_set_callback :
  (r <- c8_calls exact (new_collector8 false) [KSetCallback true; KFeed (make_sysex8_complete_packet 0 0)] ;; Ok (snd r)) =
    Ok [(mkSx 0 [], 0)].
Proof. vm_compute. reflexivity. Qed.

(* lines 90, 110, 130 *)
Example sysex8_manufacturer_id :
  forallb (fun t => match out8 0 (snd t) with Ok [(s, _)] => sx_id s =? fst t | _ => false end) (
  [(0x7E0000, [mkP 0x55030F00 0x7E000000 0 0]);
   (0x7E0000, [mkP 0x55120F00 0 0 0; mkP 0x55320F7E 0 0 0]);
   (0x7F0000, [mkP 0x55030F00 0x7F000000 0 0]);
   (0x290000, [mkP 0x55030F00 0x29000000 0 0])] ++
  [(0x00003B, [mkP 0x55030F80 0x3B000000 0 0]);
   (0x000066, [mkP 0x55120F80 0 0 0; mkP 0x55320F66 0 0 0]);
   (0x00010A, [mkP 0x55030F81 0x0A000000 0 0]);
   (0x00020D, [mkP 0x55030F82 0x0D000000 0 0]);
   (0x002109, [mkP 0x55030FA1 0x09000000 0 0])] ++
  [(0x000000, [mkP 0x50014482 0x23000000 0 0]);
   (0x000000, [mkP 0x55030F39 0x5B000000 0 0]);
   (0x000000, [mkP 0x55030F80 0 0 0]);
   (0x000000, [mkP 0x55030F00 0 0 0]);
   (0x7B0000, [mkP 0x55030F00 0xFB000000 0 0]);
   (0x00147B, [mkP 0x55030F94 0xFB000000 0 0])]) = true.
Proof. vm_compute. reflexivity. Qed.

(* lines 149, 187, 218 *)
Example sysex8_stream_id :
  c8_stream (new_collector8 true) = 0 /\
  ids8 (new_collector8 true) 0 [P2 0x55030F80 0x3B000000] = Ok [(0, 1)] /\
  ids8 (new_collector8 true) 0 [P2 0x5512AC80 0] = Ok [(0xAC, 0)] /\
  ids8 (new_collector8 true) 0 [P2 0x55230FA1 0x09000000; P2 0x55339FA1 0x09000000] = Ok [(0, 0); (0, 0)] /\
  ids8 (new_collector8 true) 0 [P2 0x55130F80 0x3B000000; P2 0x55310F44 0; P2 0x59149A81 0x3B440000] =
    Ok [(0x0F, 0); (0, 1); (0x9A, 1)] /\
  ids8 (new_collector8 true) 0 [P2 0x5512AC80 0; P2 0x59123F80 0] = Ok [(0xAC, 0); (0x3F, 0)] /\
  ids8 (new_collector8 true) 0 [P2 0x5515AC92 0x34AABB00; P2 0x55243F12 0x23560000; P2 0x5532ACCC 0] =
    Ok [(0xAC, 0); (0xAC, 0); (0, 1)] /\
  out8 0 [P2 0x5515AC92 0x34AABB00; P2 0x55243F12 0x23560000; P2 0x5532ACCC 0] =
    Ok [(mkSx 0x001234 [0xAA; 0xBB; 0xCC], 0xAC)].
Proof. vm_compute. repeat split; reflexivity. Qed.

(* line 246 *)
Example sysex8_regular_collect :
  map (fun t => out8 0 (fst t)) sysex8_test_cases = map (fun t => Ok [snd t]) sysex8_test_cases /\
  out8 0 (concat (map fst sysex8_test_cases)) = Ok (map snd sysex8_test_cases).
Proof. vm_compute. split; reflexivity. Qed.

(* line 296 *)
Example sysex8_end_ignored :
  (p <- sysex8_add_payload_byte (make_sysex8_end_packet 0 0) 11 ;; out8 0 [p]) = Ok [] /\
  (p1 <- sysex8_add_payload_byte (make_sysex8_continue_packet 0 0) 10 ;; out8 0 [p1; make_sysex8_end_packet 0 0]) = Ok [].
Proof. vm_compute. split; reflexivity. Qed.
Example sysex8_exceptional_collect :
  out8 0 [P2 0x51441234 0; mkP 0x5107018F 0x1E2D3C4B 0x5A000000 0] = Ok [(mkSx 0x000F1E [0x2D; 0x3C; 0x4B; 0x5A], 1)] /\
  out8 0 [P2 0x55160F1E 0x2D3C4B5A; P2 0x55220F78 0x00000000; P2 0x55033100 0x7D000000] = Ok [(mkSx 0x7D0000 [], 0x31)] /\
  out8 0 [mkP 0x5E197C00 0x7E123456 0x789ABC00 0; P2 0x5E267CDE 0xFEDCBA98; P2 0x5E317C00 0] =
    Ok [(mkSx 0x7E0000 [0x12; 0x34; 0x56; 0x78; 0x9A; 0xBC; 0xDE; 0xFE; 0xDC; 0xBA; 0x98], 0x7C)].
Proof. vm_compute. repeat split; reflexivity. Qed.

(* line 404 *)
Example sysex8_limited_data_size_collect :
  (r <- out8 256 [P2 0x50182382 0x54567809; P2 0x5026232B 0x5C4D5E6F; P2 0x50342300 0] ;;
   Ok (map (fun t => bytes_of (fst t)) r)) = Ok [13] /\
  out8 11 [mkP 0x50192382 0x54567809 0x54567809 0; P2 0x5026232B 0x5C4D5E6F; P2 0x50322300 0] = Ok [] /\
  (r <- out8 12 [mkP 0x50182382 0x54567809 0x54567809 0; P2 0x5027232B 0x5C4D5E6F; P2 0x50312300 0] ;;
   Ok (map (fun t => bytes_of (fst t)) r)) = Ok [11].
Proof. vm_compute. repeat split; reflexivity. Qed.

(* tests/sysex_tests.cpp, line 591 and line 607: the packets sent for each of the messages *)
Example test_send_sysex7 : Forall (fun e : list packet * sysex => exists p ps,
  fst e = p :: ps /\ send_sysex7 (snd e) (group p) = Ok (fst e) /\ as_sysex7_packets (snd e) (group p) = Ok (fst e))
  sysex7_test_cases.
Proof. repeat constructor; do 2 eexists; (split; [reflexivity|split; vm_compute; reflexivity]). Qed.

(* tests/sysex_tests.cpp, line 620 and line 637 *)
Example test_send_sysex8 : Forall (fun e : list packet * (sysex * Z) => exists p ps,
  fst e = p :: ps /\ send_sysex8 (fst (snd e)) (byte3 p) (group p) = Ok (fst e) /\
  as_sysex8_packets (fst (snd e)) (byte3 p) (group p) = Ok (fst e))
  sysex8_test_cases.
Proof. repeat constructor; do 2 eexists; (split; [reflexivity|split; vm_compute; reflexivity]). Qed.
