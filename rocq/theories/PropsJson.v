(* Theorems about the header texts of property exchange messages. *)
From Coq Require Import ZArith List Bool Lia String.
From Verif Require Import Base Sysex SysexSpec CapInq PropEx CapSpec CapCalls JsonSpec JsonProofs.
Import ListNotations.
Local Open Scope Z_scope.

(* ---- C55 -------------------------------------------------------------------------------- *)

Theorem C55_text : forall k v, plain k -> plain v -> parse_object (make_rjson_text k v) = Some [(k, JText v)].
Proof. exact rjson_text_ok. Qed.
Print Assumptions C55_text.
Theorem C55_int : forall k v, plain k -> is_s32 v -> parse_object (make_rjson_int k v) = Some [(k, JInt v)].
Proof. exact rjson_int_ok. Qed.
Print Assumptions C55_int.
Example C55_ex_int : make_rjson_int (str "status") (-2147483648) = str "{""status"":-2147483648}".
Proof. reflexivity. Qed.

Theorem C55_text_options : forall k v o, plain k -> plain v -> Forall proper_option o ->
  exists t, make_rjson_text_options k v o = Ok t /\ parse_object t = Some ((k, JText v) :: map option_field o).
Proof. exact rjson_text_options_ok. Qed.
Print Assumptions C55_text_options.
Theorem C55_int_options : forall k v o, plain k -> is_s32 v -> Forall proper_option o ->
  exists t, make_rjson_int_options k v o = Ok t /\ parse_object t = Some ((k, JInt v) :: map option_field o).
Proof. exact rjson_int_options_ok. Qed.
Print Assumptions C55_int_options.

Example C55_ex : proper_option (str "limit", str "-12") /\ proper_option (str "a b", str "0x1") /\
  make_rjson_text_options (str "resource") (str "") [(str "limit", str "-12"); (str "a b", str "0x1")] =
    Ok (str "{""resource"":"""",""limit"":-12,""a b"":""0x1""}") /\
  parse_object (str "{""resource"":"""",""limit"":-12,""a b"":""0x1""}") =
    Some [(str "resource", JText []); (str "limit", JInt (-12)); (str "a b", JText (str "0x1"))].
Proof.
  assert (P : forall s, forallb (fun c => (32 <=? c) && (c <? 256) && negb (c =? 34) && negb (c =? 92)) (str s) = true -> plain (str s))
    by exact plain_name.
  refine (conj _ (conj _ (conj _ _))); try reflexivity.
  - repeat apply conj; [now apply P|now apply P|discriminate|]. intros (_ & _ & X). discriminate X.
  - repeat apply conj; [now apply P|now apply P|discriminate|]. intros (_ & X & _).
    apply Forall_inv_tail, Forall_inv in X. discriminate X.
Qed.

(* The condition on numbers is exact: with a value such as 007 or a lone minus the text is not JSON. *)
Theorem C55_improper_numbers : forall k v n o, plain k -> plain v -> is_s32 n ->
  Forall (fun x => plain (fst x) /\ plain (snd x) /\ snd x <> []) o ->
  Exists (fun x => improper_number (snd x)) o ->
  exists t t', make_rjson_text_options k v o = Ok t /\ parse_object t = None /\
    make_rjson_int_options k n o = Ok t' /\ parse_object t' = None.
Proof. exact rjson_options_bad. Qed.
Print Assumptions C55_improper_numbers.
Example C55_ex_improper : improper_number (str "007") /\ improper_number (str "-") /\ ~ improper_number (str "0") /\
  make_rjson_text_options (str "a") (str "b") [(str "c", str "-")] = Ok (str "{""a"":""b"",""c"":-}").
Proof.
  refine (conj _ (conj _ (conj _ _))); try reflexivity.
  - split; [discriminate|]. split; [repeat constructor|reflexivity].
  - split; [discriminate|]. split; [repeat constructor|reflexivity].
  - intros (_ & _ & X). discriminate X.
Qed.
(* An option with an empty value reads the first character of an empty text. *)
Theorem C55_empty_option : forall k v n o1 k' o2, Forall (fun x => snd x <> []) o1 ->
  make_rjson_text_options k v (o1 ++ (k', []) :: o2) = Fault OutOfBounds /\
  make_rjson_int_options k n (o1 ++ (k', []) :: o2) = Fault OutOfBounds.
Proof. exact rjson_options_fault. Qed.
Print Assumptions C55_empty_option.
(* Characters that need escaping spoil the text or change its meaning. *)
Theorem C55_escaping_refuted : exists v w,
  parse_object (make_rjson_text (str "resource") v) = None /\
  parse_object (make_rjson_text (str "resource") w) = Some [(str "resource", JText (str "X")); (str "status", JInt 200); (str "a", JText (str "b"))].
Proof. exists (str "a\"), (str "X"",""status"":200,""a"":""b"). split; reflexivity. Qed.
Print Assumptions C55_escaping_refuted.
(* A message text made of digits is sent as a number. *)
Theorem C55_digits_as_text_refuted : exists dbg a m s h,
  pe_build dbg a (PNotifyMessage 404 m) = Ok s /\ header_data s = Ok h /\
  m = str "1234" /\ parse_object h = Some [(str "status", JInt 404); (str "message", JInt 1234)].
Proof. exists true, (mkCommon 1 2 3 4), (str "1234"). do 2 eexists. repeat split; reflexivity. Qed.
Print Assumptions C55_digits_as_text_refuted.

(* Every property exchange constructor makes a header with exactly the fields it was given, and
   the message is read back. *)
Theorem C55_constructors : forall dbg a p,
  pe_proper p -> all7 (pe_texts p) -> pe_in_range a (pe_chunk_of p) ->
  exists h, header_is p h /\
    (size (text_of h) < 16384 -> (text_of h = [] \/ pk_this (pe_chunk_of p) <= 1) ->
     exists s, pe_build dbg a p = Ok s /\ header_fields (pe_message a p h) s /\
       accepted_as s (kinds_of (pe_message a p h)) /\ fields_of dbg (pe_message a p h) s).
Proof. exact pe_calls_ok. Qed.
Print Assumptions C55_constructors.
Example C55_ex_constructor : exists s,
  pe_proper (PSubscribe (str "State") (str "start") (str "7a")) /\
  all7 (pe_texts (PSubscribe (str "State") (str "start") (str "7a"))) /\
  pe_in_range (mkCommon 1 2 3 4) (pe_chunk_of (PSubscribe (str "State") (str "start") (str "7a"))) /\
  pe_build true (mkCommon 1 2 3 4) (PSubscribe (str "State") (str "start") (str "7a")) = Ok s /\
  header_data s = Ok (str "{""resource"":""State"",""command"":""start"",""subscribeId"":""7a""}").
Proof.
  assert (P : forall s, forallb (fun c => (32 <=? c) && (c <? 256) && negb (c =? 34) && negb (c =? 92)) (str s) = true -> plain (str s))
    by exact plain_name.
  eexists. refine (conj _ (conj _ (conj _ (conj _ _)))); try reflexivity.
  - refine (conj _ (conj (conj _ (conj _ _)) (conj _ (conj _ _)))); try (now apply P); try discriminate.
    + intros (_ & X & _). apply Forall_inv in X. discriminate X.
    + intros (_ & X & _). apply Forall_inv_tail, Forall_inv in X. discriminate X.
  - repeat constructor; unfold is_u7; cbn; lia.
  - unfold pe_in_range. cbn. unfold is_u28, is_u14, is_u7. repeat apply conj; try lia; auto.
Qed.
