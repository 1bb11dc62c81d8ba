(* MIDI-CI views of messages that are edited afterwards.  A view holds a reference to the message it was made of
   (inc/midi/universal_sysex.h:98-131, inc/midi/capability_inquiry.h:53-70), so it reads the message as it is when the
   accessor is called.  The desk is a user's program, composed of the modelled functions of /repo.  A pointer that an
   accessor has returned is not kept across an edit. *)
From Coq Require Import ZArith List Bool.
From Verif Require Import Base Sysex UniversalSysex CapInq CapSpec.
Import ListNotations.
Local Open Scope Z_scope.
Local Open Scope res_scope.

(* ---- reading ------------------------------------------------------------------------------------- *)

(* a result of an accessor *)
Inductive field : Type :=
| FNumber (v : Z)
| FFlag (b : bool)
| FBytes (l : list Z)
| FIdentity (d : device_identity)
| FProfile (p : profile_id)
| FProfiles (l : list profile_id)
| FDestination (d : profile_destination).

(* calling an accessor and those in ls, in order *)
Definition call {A} (f : A -> field) (r : res A) (ls : res (list field)) : res (list field) :=
  x <- r ;; l <- ls ;; Ok (f x :: l).

(* the accessors of each view class, CI.h:158-960, in the order of their declaration *)
Definition read_fields (dbg : bool) (k : kind) (s : sysex) : res (list field) :=
  match k with
  | KDiscoveryInquiry =>
      call FIdentity (discovery_identity s) (call FNumber (discovery_categories s)
      (call FNumber (discovery_maximum_message_size s) (call FNumber (discovery_output_path_id s) (Ok []))))
  | KDiscoveryReply =>
      call FIdentity (discovery_identity s) (call FNumber (discovery_categories s)
      (call FNumber (discovery_maximum_message_size s) (call FNumber (discovery_output_path_id s)
      (call FNumber (discovery_function_block s) (Ok [])))))
  | KEndpointInquiry => call FNumber (endpoint_inquiry_status s) (Ok [])
  | KEndpointReply =>
      call FNumber (endpoint_reply_status s) (call FNumber (information_data_length s)
      (call FBytes (information_data s) (Ok [])))
  | KAck | KNak =>
      call FNumber (nack_transaction s) (call FNumber (nack_status_code s) (call FNumber (nack_status_data s)
      (call FBytes (nack_details s) (call FNumber (nack_message_length s) (call FBytes (nack_message s) (Ok []))))))
  | KInvalidateMuid => call FNumber (target_muid s) (Ok [])
  | KProfileInquiry => Ok []
  | KProfileInquiryReply =>
      call FFlag (has_enabled_profiles s) (call FFlag (has_disabled_profiles s)
      (call FNumber (num_enabled_profiles s) (call FNumber (num_disabled_profiles s)
      (call FProfiles (enabled_profiles dbg s) (call FProfiles (disabled_profiles dbg s) (Ok []))))))
  | KProfileId => call FProfile (view_profile s) (Ok [])
  | KProfileDestination =>
      call FProfile (view_profile s) (call FNumber (view_num_channels s) (call FDestination (view_destination s) (Ok [])))
  | KDetailsInquiry => call FProfile (view_profile s) (call FNumber (details_inquiry_target s) (Ok []))
  | KDetailsReply =>
      call FProfile (view_profile s) (call FNumber (details_reply_target s)
      (call FNumber (target_data_length s) (call FBytes (target_data s) (Ok []))))
  | KSpecificData =>
      call FProfile (view_profile s) (call FNumber (specific_data_size s) (call FBytes (specific_data s) (Ok [])))
  | KPECapabilities =>
      call FNumber (maximum_number_of_requests s) (call FNumber (pe_version_major s)
      (call FNumber (pe_version_minor s) (Ok [])))
  | KPropertyData | KGetProperty | KSetProperty | KSubscription | KNotify =>
      call FNumber (request_id s) (call FNumber (header_size s) (call FBytes (header_data s)
      (call FNumber (number_of_chunks s) (call FNumber (number_of_this_chunk s)
      (call FNumber (chunk_size s) (call FBytes (chunk_data s) (Ok [])))))))
  | KProcessCapabilities => call FNumber (supported_features s) (Ok [])
  | KReportInquiry =>
      call FNumber (report_inquiry_data_control s) (call FNumber (report_inquiry_system s)
      (call FNumber (report_inquiry_controller s) (call FNumber (report_inquiry_note s) (Ok []))))
  | KReportReply =>
      call FNumber (report_reply_system s) (call FNumber (report_reply_controller s)
      (call FNumber (report_reply_note s) (Ok [])))
  end.

(* everything a view tells: universal_sysex.h:107-109, CI.h:58-60 and the accessors of its class *)
Record reading : Type := mkReading {
  rd_device : Z; rd_type : Z; rd_subtype : Z; rd_version : Z; rd_source : Z; rd_destination : Z;
  rd_fields : list field }.
Definition read_view (dbg : bool) (k : kind) (s : sysex) : res reading :=
  dev <- view_device_id s ;; t <- view_type s ;; st <- view_subtype s ;; ver <- message_version s ;;
  src <- source_muid s ;; dst <- destination_muid s ;; l <- read_fields dbg k s ;;
  Ok (mkReading dev t st ver src dst l).

(* ---- editing ------------------------------------------------------------------------------------- *)

(* the calls that change a message, sysex.h:188-199, universal_sysex.h:141, CI.h:117-118, and data.insert at the end *)
Inductive edit : Type :=
| SetDevice (i : Z) | SetSource (m : Z) | SetDestination (m : Z)
| Add7 (v : Z) | AddData (d : list Z) | Add14 (v : Z) | Add28 (v : Z) | Add32 (v : Z)
| AddIdentity (d : device_identity) | Insert (d : list Z).

Definition edit_message (dbg : bool) (s : sysex) (e : edit) : res sysex :=
  match e with
  | SetDevice i => set_device_id dbg s i
  | SetSource m => set_source_muid dbg s m
  | SetDestination m => set_destination_muid dbg s m
  | Add7 v => add_uint7 dbg s v
  | AddData d => add_data dbg s d
  | Add14 v => add_uint14 dbg s v
  | Add28 v => add_uint28 dbg s v
  | Add32 v => add_uint32 s v
  | AddIdentity d => add_device_identity dbg s d
  | Insert d => Ok (push s d)
  end.

(* ---- the desk ------------------------------------------------------------------------------------ *)

(* a client: messages, and views with the message each of them refers to *)
Record desk : Type := mkDesk { dk_messages : list sysex; dk_views : list (kind * nat) }.

Inductive desk_op : Type :=
| Receive (s : sysex)            (* a message arrives; it is kept if it is a MIDI-CI message *)
| Edit (i : nat) (e : edit)      (* message i is edited *)
| View (k : kind) (i : nat)      (* as<V>(message i), kept if there is a view *)
| Look (v : nat)                 (* all accessors of view v are called *)
| Assign (i : nat) (s : sysex).  (* message i = s *)

Fixpoint put_at {A} (l : list A) (i : nat) (x : A) : list A :=
  match l, i with
  | [], _ => []
  | _ :: t, O => x :: t
  | h :: t, S j => h :: put_at t j x
  end.

(* reading view v *)
Definition look_at (dbg : bool) (d : desk) (v : nat) : res (option reading) :=
  match nth_error (dk_views d) v with
  | Some (k, i) =>
      match nth_error (dk_messages d) i with
      | Some s => r <- read_view dbg k s ;; Ok (Some r)
      | None => Ok None
      end
  | None => Ok None
  end.

(* the output is what is read *)
Definition desk_step (dbg : bool) (d : desk) (o : desk_op) : res (desk * list (nat * reading)) :=
  match o with
  | Receive s =>
      b <- is_capability_inquiry_message s ;;
      Ok (if b then mkDesk (dk_messages d ++ [s]) (dk_views d) else d, [])
  | Edit i e =>
      match nth_error (dk_messages d) i with
      | Some s => s' <- edit_message dbg s e ;; Ok (mkDesk (put_at (dk_messages d) i s') (dk_views d), [])
      | None => Ok (d, [])
      end
  | View k i =>
      match nth_error (dk_messages d) i with
      | Some s =>
          v <- as_view dbg (validate_of k) s ;;
          Ok (match v with Some _ => mkDesk (dk_messages d) (dk_views d ++ [(k, i)]) | None => d end, [])
      | None => Ok (d, [])
      end
  | Look v => r <- look_at dbg d v ;; Ok (d, match r with Some r => [(v, r)] | None => [] end)
  | Assign i s => Ok (mkDesk (put_at (dk_messages d) i s) (dk_views d), [])
  end.

Fixpoint desk_run (dbg : bool) (d : desk) (l : list desk_op) : res (desk * list (nat * reading)) :=
  match l with
  | [] => Ok (d, [])
  | o :: l' =>
      r <- desk_step dbg d o ;;
      r' <- desk_run dbg (fst r) l' ;;
      Ok (fst r', snd r ++ snd r')
  end.
