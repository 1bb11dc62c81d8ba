(* The unit tests of /repo/tests that need more than one call per expectation, run on the model: the loop of
   universal_packet_tests.cpp:529-579, the stream operators (583-630), the name senders of stream_message_tests.cpp and
   jitter_reduction_timestamps_tests.cpp.  The clock follower tests the repository skips, because they depend on the
   machine's timing, are run here with made-up times.  These are checks, not proofs.  device_identity_consistency
   (stream_message_tests.cpp:508-560) is an instance of theorems of PropsEndpoint.v and PropsCap.v. *)
From Coq Require Import ZArith List Bool.
From Coq Require String Ascii.
From Verif Require Import Base Bits Packet Messages Sysex Types ChannelVoice Utility Endpoint TextIO TestsBase TestsPacketBase.
From Verif Require Jitter.
Import ListNotations String.StringSyntax.
Local Open Scope Z_scope.
Local Open Scope res_scope.

(* the codes of a string literal *)
Definition codes (s : String.string) : list Z :=
  map (fun c => Z.of_nat (Ascii.nat_of_ascii c)) (String.list_ascii_of_string s).
Definition text (s : String.string) : list Z := codes s.
Arguments text s%string_scope.

(* ==== universal_packet_tests.cpp ==== *)

(* lines 529-579 *)
Definition midi1_protocol_expected (t s : Z) : bool :=
  if t =? 1 then
    (0xF0 <? s) && negb (existsb (Z.eqb s) [0xF4; 0xF5; 0xF7; 0xF9; 0xFD])
  else if t =? 2 then (0x80 <=? s) && (s <? 0xF0)
  else false.
Example test_is_midi1_protocol_message :
  forallb (fun t => forallb (fun s =>
      let p := mkP (Z.lor (Z.shiftl t 28) (Z.shiftl s 16)) 0 0 0 in
      Bool.eqb (is_midi1_protocol_message p) (midi1_protocol_expected t (status p))) (zrange 255 0)) (zrange 16 0) = true.
Proof. vm_compute. reflexivity. Qed.

(* lines 583-630; a new std::stringstream *)
Definition default_flags : fmtflags := mkFlags BaseDec false false AdjNone true.
Definition new_out : ostream := mkOut [] default_flags 0 32.
Definition in_of (l : list Z) : istream := mkIn l default_flags false false.
Definition shown (p : packet) : list Z := match put_packet p new_out with Ok o => o_text o | Fault _ => [] end.
Definition sample : packet := mkP 0x50123456 0x789ABCDE 0xFEDCBA98 0x76543210.
Definition got (l : list Z) : packet * bool :=
  let '(i, p) := get_packet (in_of l) packet0 in (p, i_good i).
Example test_stream_operators :
  got (shown sample ++ [10]) = (sample, true) /\
  shown sample = text "50123456 789abcde fedcba98 76543210" /\
  got (text "invaliddata") = (packet0, false) /\
  got (text "50123456p1") = (mkP 0x50123456 0 0 0, false).
Proof. vm_compute. repeat split. Qed.

(* ==== channel_voice_message_tests.cpp:840 ==== *)

(* the test passes a value of more than 14 bits; the shift of the promoted int then overflows *)
Example test_pitch_bend_of_wide_value : pitch_bend_of_uint14 0xAFED = Fault ShiftOverflow.
Proof. reflexivity. Qed.

(* ==== stream_message_tests.cpp ==== *)

(* run_test: number of packets and the payloads joined; every packet has a view that [ok] accepts *)
Definition run_test (sent : res (list packet)) (view : packet -> res (option packet)) (payload : packet -> res (list Z))
    (ok : packet -> bool) : res (Z * list Z) :=
  ps <- sent ;;
  (fix go (ps : list packet) (n : Z) (acc : list Z) : res (Z * list Z) :=
     match ps with
     | [] => Ok (n, acc)
     | p :: r =>
         v <- view p ;;
         m <- opt_get v ;;
         s <- payload m ;;
         if ok m then go r (n + 1) (acc ++ s) else Fault AssertFail
     end) ps 0 [].
Definition name_test (s : String.string) (n : Z) : Prop :=
  run_test (send_endpoint_name true (text s)) (as_endpoint_name_view true) endpoint_name_payload (fun _ => true)
  = Ok (n, text s).
Arguments name_test s%string_scope n.
Definition id_test (s : String.string) (n : Z) : Prop :=
  run_test (send_product_instance_id true (text s)) (as_product_instance_id_view true) product_instance_id_payload
    (fun _ => true) = Ok (n, text s).
Arguments id_test s%string_scope n.
Definition block_test (b : Z) (s : String.string) (n : Z) : Prop :=
  run_test (send_function_block_name true b (text s)) (as_function_block_name_view true) fb_name_payload
    (fun p => fb_name_block p =? b) = Ok (n, text s).
Arguments block_test b s%string_scope n.

(* lines 694-719 *)
Example test_send_endpoint_name :
  name_test "short name" 1 /\ name_test "A reasonably long name" 2 /\
  name_test "A pretty long name that needs 3 packets" 3 /\
  name_test "An even longer name that needs four packets" 4.
Proof. vm_compute. repeat split. Qed.
(* lines 804-829 *)
Example test_send_product_instance_id :
  id_test "ABCDE" 1 /\ id_test "14AD4C5HE5EA9F" 1 /\ id_test "14AD4C5HE5EA9F0" 2 /\ id_test "14AD4C5HE5EA9F01" 2.
Proof. vm_compute. repeat split. Qed.
(* lines 1484-1513 *)
Example test_send_function_block_name :
  block_test 0 "short name" 1 /\ block_test 4 "short name ?!" 1 /\ block_test 7 "short name ?!?" 2 /\
  block_test 31 "A reasonably long name" 2 /\ block_test 9 "A pretty long name that needs 3 packets" 3 /\
  block_test 14 "An even longer name that needs four packets" 4.
Proof. vm_compute. repeat split. Qed.

(* ==== jitter_reduction_timestamps_tests.cpp ==== *)

(* lines 100-128 *)
Example test_jr_timestamp_t_minus :
  map (fun p => Jitter.ts_diff (fst p) (snd p))
    [(17283, 55); (0xFFFF, 17283); (55, 0xFFFF); (55, 55); (55, 17283); (17283, 0xFFFF); (0xFFFF, 55)]
  = [17228; 48252; 56; 0; 48308; 17284; 65480].
Proof. reflexivity. Qed.

(* lines 161-205 and 209-254; the clock's time is an arbitrary number here *)
Definition jr_default (make : Z -> res packet) (st : Z) : res bool :=
  p <- make 0 ;;
  Ok ((psize p =? 1)%nat && (type p =? 0) && (byte2 p =? st) && (byte3 p =? 0) && (byte4 p =? 0)).
Definition jr_made (make : Z -> res packet) (st ts : Z) : res bool :=
  p <- make ts ;; t <- jr_get_timestamp p ;;
  Ok ((psize p =? 1)%nat && (type p =? 0) && (byte2 p =? st) && (t =? ts)).
Definition jr_set (make : Z -> res packet) (ts b3 b4 : Z) : res bool :=
  p <- make 0 ;; q <- jr_set_timestamp p ts ;; t <- jr_get_timestamp q ;;
  Ok ((t =? ts) && (byte3 q =? b3) && (byte4 q =? b4)).
Example test_jr_messages : all_true [
  jr_default jr_clock_message 0x10; jr_made jr_clock_message 0x10 0x1234;
  jr_set jr_clock_message 77 0 77; jr_set jr_clock_message 0xF3F4 0xF3 0xF4;
  jr_default jr_timestamp_message 0x20; jr_made jr_timestamp_message 0x20 0x1234;
  jr_set jr_timestamp_message 18334 0x47 0x9E; jr_set jr_timestamp_message 0xABCD 0xAB 0xCD].
Proof. vm_compute. repeat constructor. Qed.

(* lines 258-269 *)
Example test_jr_clock_follower :
  Jitter.jitter (Jitter.new_follower 5) = 0 /\
  (s <- Jitter.set_security_offset (Jitter.new_follower 5) 1234000 ;; Ok (Jitter.security_offset s)) = Ok 1234000 /\
  (s <- Jitter.set_security_offset (Jitter.new_follower 5) 3000000 ;; Ok (Jitter.security_offset s)) = Ok 3000000.
Proof. vm_compute. repeat split. Qed.

(* lines 273-319, skipped in the repository; the follower is made at time 5 and the messages arrive at 1000000007 *)
Definition offsets : list Z := [543000; 755000; 1033000; 2000000; 3210000].
Definition stamps : list Z := [0; 100; 1733; 4822; 10999; 33488; 0xFFFF].
Example test_jr_clock_follower_schedule_message :
  let now := 1000000007 in
  forallb (fun o =>
    match Jitter.run (Jitter.new_follower 5) (Jitter.SetOffset o :: map (Jitter.Message now) stamps) with
    | Ok (_, l) => list_eqb (map fst l) (map (fun _ => now + o) stamps)
    | Fault _ => false
    end &&
    match Jitter.run (Jitter.new_follower 5)
            (Jitter.Reset :: Jitter.SetOffset o :: Jitter.Clock now 0 :: map (Jitter.Message now) stamps) with
    | Ok (_, l) => list_eqb (map fst l) (map (fun ts => now + o + ts * 32000) stamps)
    | Fault _ => false
    end) offsets = true.
Proof. vm_compute. reflexivity. Qed.

(* lines 323-339, skipped in the repository; a clock every 100000 ns *)
Example test_jr_clock_follower_process_clock :
  let jit es := match Jitter.run (Jitter.new_follower 5) es with Ok (s, _) => Jitter.jitter s | Fault _ => 0 end in
  jit [Jitter.Clock 1000000 0; Jitter.Clock 1100000 24; Jitter.Clock 1200000 48] <> 0 /\
  jit [Jitter.Clock 1000000 0; Jitter.Clock 1100000 24; Jitter.Clock 1200000 48; Jitter.Clock 1300000 456] <> 0.
Proof. vm_compute. split; discriminate. Qed.
