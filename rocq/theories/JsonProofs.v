(* Lemmas about the headers of property exchange messages *)
From Coq Require Import ZArith List Bool Ascii String Lia.
From Verif Require Import Base Bits Sysex CapInq PropEx CapSpec CapCalls SysexSpec SysexProofs CapWire CapMake CapRead JsonSpec.
Import ListNotations.
Local Open Scope Z_scope.
Local Open Scope res_scope.

Ltac flat := repeat (progress (rewrite <- ?app_assoc; cbn [app])).

(* ---- texts and numbers ---------------------------------------------------------------- *)

Lemma parse_text_plain s r : plain s -> parse_text (s ++ 34 :: r) = Some (s, r).
Proof.
  induction 1 as [|c s (C1 & C2 & C3) _ IH]; [reflexivity|].
  cbn [app parse_text]. rewrite IH.
  replace (c =? 34) with false by (symmetry; now apply Z.eqb_neq).
  replace (c <? 32) with false by (symmetry; apply Z.ltb_ge; lia).
  replace (c =? 92) with false by (symmetry; now apply Z.eqb_neq). reflexivity.
Qed.

Definition ends (r : list Z) : Prop := match r with c :: _ => is_digit c = false | [] => True end.

Lemma span_app d r : Forall (fun c => is_digit c = true) d -> ends r -> span_digits (d ++ r) = (d, r).
Proof.
  intros D E. induction D as [|c d C _ IH]; cbn [app].
  - destruct r as [|c r]; [reflexivity|]. cbn in *. now rewrite E.
  - cbn [span_digits]. now rewrite C, IH.
Qed.

Lemma span_all t d : span_digits t = (d, []) -> t = d /\ Forall (fun c => is_digit c = true) d.
Proof.
  revert d. induction t as [|c t IH]; intros d H; cbn in H.
  - injection H as <-. split; constructor.
  - destruct (is_digit c) eqn:C; [|discriminate].
    destruct (span_digits t) as [d' r'] eqn:S. injection H as <- ->.
    destruct (IH d' eq_refl) as [-> F]. split; [reflexivity|constructor; trivial].
Qed.

Lemma all_digits_iff s : all_digits s = true <-> Forall (fun c => is_digit c = true) s.
Proof.
  induction s as [|c s IH]; cbn [all_digits]; [split; constructor|].
  rewrite Forall_cons_iff, <- IH. unfold is_digit.
  destruct (c <? 48) eqn:A, (57 <? c) eqn:B, (48 <=? c) eqn:C, (c <=? 57) eqn:D; cbn; try lia; tauto.
Qed.

Lemma parse_integer_minus r : parse_integer (45 :: r) =
  let '(d, r') := span_digits r in if proper_digits d then Some (- decimal d, r') else None.
Proof. reflexivity. Qed.
Lemma parse_integer_plus c r : c <> 45 -> parse_integer (c :: r) =
  let '(d, r') := span_digits (c :: r) in if proper_digits d then Some (decimal d, r') else None.
Proof. intros N. unfold parse_integer. destruct c as [|p|p]; try reflexivity. do 6 (destruct p; try reflexivity). congruence. Qed.
Lemma parse_value_other c r : c <> 34 -> parse_value (c :: r) =
  match parse_integer (c :: r) with Some (n, r') => Some (JInt n, r') | None => None end.
Proof. intros N. unfold parse_value. destruct c as [|p|p]; try reflexivity. do 6 (destruct p; try reflexivity). congruence. Qed.
Lemma strip_other c (r : list Z) : c <> 45 -> match c :: r with 45 :: r => r | _ => c :: r end = c :: r.
Proof. intros N. destruct c as [|p|p]; try reflexivity. do 6 (destruct p; try reflexivity). congruence. Qed.

(* the digits of a value that looks like a number *)
Definition number_shape (v : list Z) : Prop :=
  v <> [] /\ Forall (fun c => is_digit c = true) (match v with 45 :: r => r | _ => v end).

Lemma is_number_shape v : v <> [] -> exists b, is_number v = Ok b /\ (b = true <-> number_shape v).
Proof.
  intros N. destruct v as [|c v]; [congruence|].
  exists (all_digits (if c =? 45 then v else c :: v)). split; [reflexivity|].
  rewrite all_digits_iff. unfold number_shape. destruct (Z.eqb_spec c 45) as [->|C].
  - split; [intros F; split; trivial|intros [_ F]; trivial].
  - rewrite strip_other by trivial. split; [intros F; split; trivial|intros [_ F]; trivial].
Qed.

Lemma integer_app v r : number_shape v -> ends r ->
  parse_integer (v ++ r) = match parse_integer v with Some (n, _) => Some (n, r) | None => None end.
Proof.
  intros [N F] E. destruct v as [|c v]; [congruence|]. destruct (Z.eq_dec c 45) as [->|C].
  - cbn [app]. rewrite !parse_integer_minus, (span_app v r) by trivial.
    assert (X : span_digits v = (v, [])) by (rewrite <- (app_nil_r v) at 1; now apply span_app). rewrite X.
    destruct (proper_digits v); reflexivity.
  - rewrite strip_other in F by trivial. cbn [app]. rewrite !parse_integer_plus by trivial.
    change (c :: v ++ r) with ((c :: v) ++ r). rewrite (span_app (c :: v) r) by trivial.
    assert (X : span_digits (c :: v) = (c :: v, [])) by (rewrite <- (app_nil_r (c :: v)) at 1; now apply span_app). rewrite X.
    destruct (proper_digits (c :: v)); reflexivity.
Qed.
Lemma integer_shape v n : parse_integer v = Some (n, []) -> number_shape v.
Proof.
  destruct v as [|c v]; [discriminate|]. destruct (Z.eq_dec c 45) as [->|C].
  - rewrite parse_integer_minus. destruct (span_digits v) as [d r] eqn:S. destruct (proper_digits d); [|discriminate].
    intros H. injection H as _ ->. apply span_all in S as [-> F]. split; [discriminate|exact F].
  - rewrite parse_integer_plus by trivial. destruct (span_digits (c :: v)) as [d r] eqn:S.
    destruct (proper_digits d); [|discriminate].
    intros H. injection H as _ ->. apply span_all in S as [Y F]. subst d. split; [discriminate|].
    now rewrite strip_other.
Qed.
Lemma integer_rest v : number_shape v -> match parse_integer v with Some (_, r) => r = [] | None => True end.
Proof.
  intros H. pose proof (integer_app v [] H I) as E. rewrite app_nil_r in E.
  destruct (parse_integer v) as [[n r]|]; [|exact I]. injection E as E. exact E.
Qed.
Lemma shape_not_quote c v : number_shape (c :: v) -> c <> 34.
Proof. intros [_ F] ->. apply Forall_inv in F. discriminate F. Qed.

(* ---- options -------------------------------------------------------------------------- *)

Definition value_text (v : list Z) (n : bool) : list Z := if n then v else 34 :: v ++ [34].

Lemma value_ok v n r : plain v -> v <> [] -> ~ improper_number v -> is_number v = Ok n -> ends r ->
  parse_value (value_text v n ++ r) = Some (value_of v, r).
Proof.
  intros P N I H E. destruct (is_number_shape v N) as (b & B & S). rewrite B in H. injection H as ->.
  unfold value_of. destruct n; cbn [value_text].
  - assert (F : number_shape v) by now apply S.
    destruct v as [|c v]; [congruence|]. pose proof (shape_not_quote c v F) as Q. cbn [app].
    rewrite parse_value_other by trivial. change (c :: v ++ r) with ((c :: v) ++ r). rewrite integer_app by trivial.
    pose proof (integer_rest _ F) as R. destruct (parse_integer (c :: v)) as [[m q]|] eqn:X.
    + subst q. reflexivity.
    + exfalso. apply I. split; [discriminate|]. split; [apply F|exact X].
  - cbn [app]. rewrite <- app_assoc. cbn [app parse_value]. rewrite parse_text_plain by trivial.
    destruct (parse_integer v) as [[m [|x q]]|] eqn:X; trivial.
    apply integer_shape in X. apply S in X. discriminate.
Qed.
Lemma value_bad v n r : improper_number v -> is_number v = Ok n -> ends r -> parse_value (value_text v n ++ r) = None.
Proof.
  intros (N & F & X) H E. destruct (is_number_shape v N) as (b & B & S). rewrite B in H. injection H as ->.
  assert (G : number_shape v) by (split; trivial). replace n with true by (symmetry; now apply S). cbn [value_text].
  destruct v as [|c v]; [congruence|]. pose proof (shape_not_quote c v G) as Q. cbn [app].
  rewrite parse_value_other by trivial. change (c :: v ++ r) with ((c :: v) ++ r). rewrite integer_app by trivial.
  now rewrite X.
Qed.

Definition member_text (k v : list Z) (n : bool) : list Z := 34 :: k ++ 34 :: 58 :: value_text v n.

Lemma member_eq k v n r : plain k -> parse_member (member_text k v n ++ r) =
  match parse_value (value_text v n ++ r) with Some (x, r') => Some ((k, x), r') | None => None end.
Proof.
  intros P. unfold member_text. cbn [app parse_member]. rewrite <- app_assoc. cbn [app].
  rewrite parse_text_plain by trivial. reflexivity.
Qed.

Lemma str_comma_quote : str ",""" = [44; 34]. Proof. reflexivity. Qed.
Lemma str_quote_colon : str """:" = [34; 58]. Proof. reflexivity. Qed.
Lemma str_quote_colon_quote : str """:""" = [34; 58; 34]. Proof. reflexivity. Qed.

Fixpoint options_text (o : list (list Z * list Z)) : list Z :=
  match o with
  | [] => []
  | (k, v) :: t => 44 :: member_text k v (match is_number v with Ok b => b | Fault _ => false end) ++ options_text t
  end.

Lemma add_options_eq o : Forall (fun x => snd x <> []) o -> forall r, add_options r o = Ok (r ++ options_text o).
Proof.
  induction 1 as [|[k v] o N _ IH]; intros r; cbn [add_options options_text]; [now rewrite app_nil_r|].
  cbn [snd] in N. destruct (is_number_shape v N) as (b & B & _). rewrite B. cbn [bind]. rewrite IH. f_equal.
  rewrite str_comma_quote, str_quote_colon, str_quote_colon_quote. change quote with [34]. unfold member_text.
  destruct b; cbn [value_text app]; flat; reflexivity.
Qed.
Lemma add_options_fault o1 k o2 : Forall (fun x => snd x <> []) o1 ->
  forall r, add_options r (o1 ++ (k, []) :: o2) = Fault OutOfBounds.
Proof.
  induction 1 as [|[k' v] o N _ IH]; intros r; cbn [app add_options].
  - reflexivity.
  - cbn [snd] in N. destruct (is_number_shape v N) as (b & B & _). rewrite B. cbn [bind]. apply IH.
Qed.

Lemma ends_options o : ends (options_text o ++ [125]).
Proof. destruct o as [|[k v] o]; reflexivity. Qed.

Lemma members_ok o : Forall proper_option o -> forall n (m : list Z) kv,
  (forall r, ends r -> parse_member (m ++ r) = Some (kv, r)) -> (List.length o < n)%nat ->
  parse_members n (m ++ options_text o ++ [125]) = Some (kv :: map option_field o).
Proof.
  induction 1 as [|[k v] o P _ IH]; intros n m kv M L; destruct n as [|n]; try (cbn in L; lia);
    cbn [parse_members]; rewrite M by apply ends_options.
  - reflexivity.
  - destruct P as (Pk & Pv & N & B). cbn [fst snd] in *.
    destruct (is_number_shape v N) as (b & E & S). cbn [options_text]. rewrite E. cbn [app]. rewrite <- app_assoc.
    rewrite (IH n (member_text k v b) (k, value_of v)); [reflexivity| |cbn in L; lia].
    intros r R. rewrite member_eq by trivial. now rewrite value_ok.
Qed.
Lemma members_bad o : Forall (fun x => plain (fst x) /\ plain (snd x) /\ snd x <> []) o ->
  Exists (fun x => improper_number (snd x)) o -> forall n (m : list Z) kv,
  (forall r, ends r -> parse_member (m ++ r) = Some (kv, r)) ->
  parse_members n (m ++ options_text o ++ [125]) = None.
Proof.
  induction o as [|[k v] o IH]; intros F X n m kv M; [inversion X|].
  destruct n as [|n]; [reflexivity|]. cbn [parse_members]. rewrite M by apply ends_options.
  pose proof (Forall_inv F) as (Pk & Pv & N). apply Forall_inv_tail in F. cbn [fst snd] in *.
  destruct (is_number_shape v N) as (b & E & S). cbn [options_text]. rewrite E. cbn [app]. rewrite <- app_assoc.
  assert (D : improper_number v \/ ~ improper_number v).
  { destruct (parse_integer v) as [[m' q]|] eqn:Y; [right; intros (_ & _ & Z); congruence|].
    destruct b.
    - left. destruct (proj1 S eq_refl). split; auto.
    - right. intros (_ & G & _). assert (false = true) by (apply S; split; trivial). discriminate. }
  destruct D as [D|D].
  - destruct n as [|n]; [reflexivity|]. cbn [parse_members].
    rewrite member_eq by trivial. rewrite value_bad by (trivial; apply ends_options). reflexivity.
  - rewrite (IH F) with (kv := (k, value_of v)); [reflexivity| |].
    + apply Exists_cons in X. cbn [snd] in X. tauto.
    + intros r R. rewrite member_eq by trivial. now rewrite value_ok.
Qed.

(* ---- std::to_string ------------------------------------------------------------------- *)

Lemma decimal_app d c : decimal (d ++ [c]) = 10 * decimal d + (c - 48).
Proof. unfold decimal. rewrite fold_left_app. reflexivity. Qed.

Lemma digits_spec n : forall v acc, 0 <= v < 10 ^ Z.of_nat (S n) -> exists d,
  digits (S n) v acc = d ++ acc /\ Forall (fun c => is_digit c = true) d /\ proper_digits d = true /\ decimal d = v.
Proof.
  induction n as [|n IH]; intros v acc V.
  - change (10 ^ Z.of_nat 1) with 10 in V. exists [48 + v]. cbn [digits].
    replace (v <? 10) with true by (symmetry; apply Z.ltb_lt; lia). repeat split.
    + repeat constructor. unfold is_digit. apply andb_true_intro. split; apply Z.leb_le; lia.
    + unfold decimal. cbn [fold_left]. lia.
  - change (digits (S (S n)) v acc) with
      (if v <? 10 then 48 + v :: acc else digits (S n) (v / 10) (48 + v mod 10 :: acc)).
    destruct (Z.ltb_spec v 10) as [L|L].
    + exists [48 + v]. repeat split.
      * repeat constructor. unfold is_digit. apply andb_true_intro. split; apply Z.leb_le; lia.
      * unfold decimal. cbn [fold_left]. lia.
    + assert (P : 10 ^ Z.of_nat (S (S n)) = 10 * 10 ^ Z.of_nat (S n))
        by (rewrite (Nat2Z.inj_succ (S n)), Z.pow_succ_r by lia; reflexivity).
      rewrite P in V.
      destruct (IH (v / 10) (48 + v mod 10 :: acc)) as (d & E & F & Q & D).
      { pose proof (Z.div_mod v 10 ltac:(lia)). pose proof (Z.mod_pos_bound v 10 ltac:(lia)). split; [apply Z.div_pos; lia|].
        apply Z.div_lt_upper_bound; lia. }
      pose proof (Z.div_mod v 10 ltac:(lia)). pose proof (Z.mod_pos_bound v 10 ltac:(lia)).
      exists (d ++ [48 + v mod 10]). rewrite E, <- app_assoc. repeat split.
      * apply Forall_app. split; trivial. repeat constructor. unfold is_digit.
        apply andb_true_intro. split; apply Z.leb_le; lia.
      * destruct d as [|x [|y d]]; [discriminate|cbn|exact Q].
        unfold decimal in D. cbn [fold_left] in D. apply negb_true_iff, Z.eqb_neq. lia.
      * rewrite decimal_app, D. lia.
Qed.

Lemma to_string_value v r : is_s32 v -> ends r -> parse_value (to_string v ++ r) = Some (JInt v, r).
Proof.
  intros R E. unfold is_s32 in R. unfold to_string. destruct (Z.ltb_spec v 0) as [L|L].
  - destruct (digits_spec 9 (- v) []) as (d & D & F & P & V); [change (10 ^ Z.of_nat 10) with 10000000000; lia|].
    rewrite D, app_nil_r. cbn [app]. rewrite parse_value_other by discriminate.
    rewrite parse_integer_minus, span_app, P by trivial. do 2 f_equal. f_equal. lia.
  - destruct (digits_spec 9 v []) as (d & D & F & P & V); [change (10 ^ Z.of_nat 10) with 10000000000; lia|].
    rewrite D, app_nil_r. destruct d as [|c d]; [discriminate|].
    assert (C : c <> 34 /\ c <> 45) by (apply Forall_inv in F; split; intros ->; discriminate F).
    cbn [app]. rewrite parse_value_other by apply C. rewrite parse_integer_plus by apply C.
    change (c :: d ++ r) with ((c :: d) ++ r). rewrite span_app, P by trivial. do 2 f_equal. f_equal. lia.
Qed.
Lemma to_string_all7 v : is_s32 v -> all7 (to_string v).
Proof.
  intros R. unfold is_s32 in R. unfold to_string.
  assert (A : forall d, Forall (fun c => is_digit c = true) d -> all7 d).
  { intros d F. eapply Forall_impl; [|exact F]. intros c C. unfold is_digit in C. unfold is_u7. lia. }
  destruct (Z.ltb_spec v 0) as [L|L].
  - destruct (digits_spec 9 (- v) []) as (d & D & F & _); [change (10 ^ Z.of_nat 10) with 10000000000; lia|].
    rewrite D, app_nil_r. constructor; [unfold is_u7; lia|now apply A].
  - destruct (digits_spec 9 v []) as (d & D & F & _); [change (10 ^ Z.of_nat 10) with 10000000000; lia|].
    rewrite D, app_nil_r. auto.
Qed.

(* ---- make_rjson ----------------------------------------------------------------------- *)

Lemma options_length o : (List.length o <= List.length (options_text o))%nat.
Proof.
  induction o as [|[k v] o IH]; cbn [options_text List.length]; [lia|]. rewrite app_length. lia.
Qed.
Lemma parse_object_brace c r : parse_object (123 :: 34 :: c :: r) = parse_members (List.length (34 :: c :: r)) (34 :: c :: r).
Proof. reflexivity. Qed.

Lemma object_ok m kv o : Forall proper_option o -> hd_error m = Some 34 -> (1 < List.length m)%nat ->
  (forall r, ends r -> parse_member (m ++ r) = Some (kv, r)) ->
  parse_object (123 :: m ++ options_text o ++ [125]) = Some (kv :: map option_field o).
Proof.
  intros P H L M. pose proof (members_ok o P (List.length (m ++ options_text o ++ [125])) m kv M) as X.
  destruct m as [|c [|c' m]]; cbn in L; try lia. injection H as ->.
  cbn [app]. rewrite parse_object_brace. change (34 :: c' :: m ++ options_text o ++ [125]) with
    ((34 :: c' :: m) ++ options_text o ++ [125]). apply X.
  rewrite !app_length. pose proof (options_length o). cbn [List.length]. lia.
Qed.
Lemma object_bad m kv o : Forall (fun x => plain (fst x) /\ plain (snd x) /\ snd x <> []) o ->
  Exists (fun x => improper_number (snd x)) o -> hd_error m = Some 34 -> (1 < List.length m)%nat ->
  (forall r, ends r -> parse_member (m ++ r) = Some (kv, r)) ->
  parse_object (123 :: m ++ options_text o ++ [125]) = None.
Proof.
  intros P X H L M. pose proof (members_bad o P X (List.length (m ++ options_text o ++ [125])) m kv M) as Y.
  destruct m as [|c [|c' m]]; cbn in L; try lia. injection H as ->.
  cbn [app]. rewrite parse_object_brace. exact Y.
Qed.

Definition text_member (k v : list Z) : list Z := 34 :: k ++ 34 :: 58 :: 34 :: v ++ [34].
Definition int_member (k : list Z) (v : Z) : list Z := 34 :: k ++ 34 :: 58 :: to_string v.
Lemma text_member_ok k v r : plain k -> plain v -> parse_member (text_member k v ++ r) = Some ((k, JText v), r).
Proof.
  intros K V. unfold text_member. cbn [app parse_member]. rewrite <- app_assoc. cbn [app]. rewrite <- app_assoc. cbn [app].
  rewrite parse_text_plain by trivial. cbn [parse_value]. now rewrite parse_text_plain.
Qed.
Lemma int_member_ok k v r : plain k -> is_s32 v -> ends r -> parse_member (int_member k v ++ r) = Some ((k, JInt v), r).
Proof.
  intros K V E. unfold int_member. cbn [app parse_member]. rewrite <- app_assoc. cbn [app].
  rewrite parse_text_plain by trivial. now rewrite to_string_value.
Qed.

Lemma text_options_eq k v o : Forall (fun x => snd x <> []) o ->
  make_rjson_text_options k v o = Ok (123 :: text_member k v ++ options_text o ++ [125]).
Proof.
  intros N. unfold make_rjson_text_options. rewrite add_options_eq by trivial. cbn [bind]. f_equal.
  change (str "{""") with [123; 34]. change quote with [34]. change (str "}") with [125].
  rewrite str_quote_colon_quote. unfold text_member. cbn [app]. flat. reflexivity.
Qed.
Lemma int_options_eq k v o : Forall (fun x => snd x <> []) o ->
  make_rjson_int_options k v o = Ok (123 :: int_member k v ++ options_text o ++ [125]).
Proof.
  intros N. unfold make_rjson_int_options. rewrite add_options_eq by trivial. cbn [bind]. f_equal.
  change (str "{""") with [123; 34]. change (str "}") with [125].
  rewrite str_quote_colon. unfold int_member. cbn [app]. flat. reflexivity.
Qed.
Lemma text_eq k v : make_rjson_text k v = 123 :: text_member k v ++ options_text [] ++ [125].
Proof.
  unfold make_rjson_text, text_member. rewrite str_quote_colon_quote. change (str "{""") with [123; 34].
  change (str """}") with [34; 125]. cbn [options_text app]. flat. reflexivity.
Qed.
Lemma int_eq k v : make_rjson_int k v = 123 :: int_member k v ++ options_text [] ++ [125].
Proof.
  unfold make_rjson_int, int_member. rewrite str_quote_colon. change (str "{""") with [123; 34].
  change (str "}") with [125]. cbn [options_text app]. flat. reflexivity.
Qed.

Lemma proper_nonempty o : Forall proper_option o -> Forall (fun x => snd x <> []) o.
Proof. apply Forall_impl. intros x (_ & _ & N & _). exact N. Qed.

Lemma member_length k t : (1 < List.length (34%Z :: k ++ 34%Z :: t))%nat.
Proof. cbn [List.length]. rewrite app_length. cbn [List.length]. lia. Qed.

Lemma rjson_text_ok k v : plain k -> plain v -> parse_object (make_rjson_text k v) = Some [(k, JText v)].
Proof.
  intros K V. rewrite text_eq. rewrite (object_ok _ (k, JText v) []); [reflexivity|constructor|reflexivity|apply member_length|].
  intros. now apply text_member_ok.
Qed.
Lemma rjson_int_ok k v : plain k -> is_s32 v -> parse_object (make_rjson_int k v) = Some [(k, JInt v)].
Proof.
  intros K V. rewrite int_eq. rewrite (object_ok _ (k, JInt v) []); [reflexivity|constructor|reflexivity|apply member_length|].
  intros. now apply int_member_ok.
Qed.
Lemma rjson_text_options_ok k v o : plain k -> plain v -> Forall proper_option o ->
  exists t, make_rjson_text_options k v o = Ok t /\ parse_object t = Some ((k, JText v) :: map option_field o).
Proof.
  intros K V P. rewrite text_options_eq by now apply proper_nonempty. eexists. split; [reflexivity|].
  apply object_ok; [trivial|reflexivity|apply member_length|]. intros. now apply text_member_ok.
Qed.
Lemma rjson_int_options_ok k v o : plain k -> is_s32 v -> Forall proper_option o ->
  exists t, make_rjson_int_options k v o = Ok t /\ parse_object t = Some ((k, JInt v) :: map option_field o).
Proof.
  intros K V P. rewrite int_options_eq by now apply proper_nonempty. eexists. split; [reflexivity|].
  apply object_ok; [trivial|reflexivity|apply member_length|]. intros. now apply int_member_ok.
Qed.
Lemma rjson_options_bad k v n o : plain k -> plain v -> is_s32 n ->
  Forall (fun x => plain (fst x) /\ plain (snd x) /\ snd x <> []) o ->
  Exists (fun x => improper_number (snd x)) o ->
  exists t t', make_rjson_text_options k v o = Ok t /\ parse_object t = None /\
    make_rjson_int_options k n o = Ok t' /\ parse_object t' = None.
Proof.
  intros K V N P X.
  assert (E : Forall (fun x : list Z * list Z => snd x <> []) o) by (eapply Forall_impl; [|exact P]; intros x; cbn; tauto).
  rewrite text_options_eq, int_options_eq by trivial. do 2 eexists. split; [reflexivity|]. split; [|split; [reflexivity|]].
  - eapply object_bad; trivial; [apply member_length|]. intros. now apply text_member_ok.
  - eapply object_bad; trivial; [apply member_length|]. intros. now apply int_member_ok.
Qed.
Lemma rjson_options_fault k v n o1 k' o2 : Forall (fun x => snd x <> []) o1 ->
  make_rjson_text_options k v (o1 ++ (k', []) :: o2) = Fault OutOfBounds /\
  make_rjson_int_options k n (o1 ++ (k', []) :: o2) = Fault OutOfBounds.
Proof.
  intros N. unfold make_rjson_text_options, make_rjson_int_options. rewrite !add_options_fault by trivial. auto.
Qed.

(* ---- the constructors ----------------------------------------------------------------- *)

Lemma plain_name s : forallb (fun c => (32 <=? c) && (c <? 256) && negb (c =? 34) && negb (c =? 92)) (str s) = true ->
  plain (str s).
Proof.
  intros H. rewrite forallb_forall in H. apply Forall_forall. intros c C. specialize (H c C).
  rewrite !andb_true_iff, !negb_true_iff, !Z.eqb_neq in H. lia.
Qed.
Lemma all7_name s : forallb (fun c => (0 <=? c) && (c <? 128)) (str s) = true -> all7 (str s).
Proof.
  intros H. rewrite forallb_forall in H. apply Forall_forall. intros c C. specialize (H c C).
  rewrite !andb_true_iff in H. unfold is_u7. lia.
Qed.

Lemma all7_options o : all7 (List.concat (map (fun kv => fst kv ++ snd kv) o)) -> all7 (options_text o).
Proof.
  unfold all7. induction o as [|[k v] o IH]; cbn [map List.concat options_text]; [constructor|].
  rewrite !Forall_app. cbn [fst snd]. intros [[K V] R].
  constructor; [unfold is_u7; lia|]. apply Forall_app. split; [|auto].
  unfold member_text. constructor; [unfold is_u7; lia|]. apply Forall_app. split; trivial.
  do 2 (constructor; [unfold is_u7; lia|]). destruct (match is_number v with Ok b => b | Fault _ => false end); cbn [value_text]; trivial.
  constructor; [unfold is_u7; lia|]. apply Forall_app. split; trivial. repeat constructor; unfold is_u7; lia.
Qed.
Lemma all7_text_member k v : all7 k -> all7 v -> all7 (text_member k v).
Proof.
  unfold all7, text_member. intros K V. constructor; [unfold is_u7; lia|]. apply Forall_app. split; trivial.
  do 3 (constructor; [unfold is_u7; lia|]). apply Forall_app. split; trivial. repeat constructor; unfold is_u7; lia.
Qed.
Lemma all7_int_member k v : all7 k -> is_s32 v -> all7 (int_member k v).
Proof.
  unfold int_member. intros K V. pose proof (to_string_all7 v V) as T. unfold all7 in *.
  constructor; [unfold is_u7; lia|]. apply Forall_app. split; trivial.
  do 2 (constructor; [unfold is_u7; lia|]). trivial.
Qed.
Lemma all7_object m o : all7 m -> all7 (options_text o) -> all7 (123 :: m ++ options_text o ++ [125]).
Proof.
  unfold all7. intros M O. constructor; [unfold is_u7; lia|]. rewrite !Forall_app. repeat split; trivial.
  repeat constructor; unfold is_u7; lia.
Qed.

Lemma proper_named k v : plain k -> proper_text v -> proper_option (k, v).
Proof. intros K (P & N & I). repeat split; trivial; apply I. Qed.

(* header text of each call *)
Lemma pe_header_ok p : pe_proper p -> all7 (pe_texts p) -> exists h, header_is p h /\ all7 (text_of h) /\
  forall dbg a, pe_build dbg a p = build dbg (pe_message a p h).
Proof.
  intros P T.
  assert (N1 : plain (str "resource")) by now apply plain_name.
  assert (N2 : plain (str "status")) by now apply plain_name.
  assert (N3 : plain (str "message")) by now apply plain_name.
  assert (N4 : plain (str "command")) by now apply plain_name.
  assert (N5 : plain (str "subscribeId")) by now apply plain_name.
  assert (A1 : all7 (str "resource")) by now apply all7_name.
  assert (A2 : all7 (str "status")) by now apply all7_name.
  assert (A3 : all7 (str "message")) by now apply all7_name.
  assert (A4 : all7 (str "command")) by now apply all7_name.
  assert (A5 : all7 (str "subscribeId")) by now apply all7_name.
  assert (R : forall x, plain x -> all7 x -> parse_object (make_rjson_text tag_resource x) = Some [resource_field x] /\
      all7 (make_rjson_text tag_resource x)).
  { intros x X X7. split; [now apply rjson_text_ok|]. rewrite text_eq. apply all7_object; [now apply all7_text_member|constructor]. }
  assert (S : forall x, is_s32 x -> parse_object (make_rjson_int tag_status x) = Some [status_field x] /\
      all7 (make_rjson_int tag_status x)).
  { intros x X. split; [now apply rjson_int_ok|]. rewrite int_eq. apply all7_object; [now apply all7_int_member|constructor]. }
  assert (RO : forall x o, plain x -> Forall proper_option o -> all7 (x ++ List.concat (map (fun kv => fst kv ++ snd kv) o)) ->
      exists t, make_rjson_text_options tag_resource x o = Ok t /\
        parse_object t = Some (resource_field x :: map option_field o) /\ all7 t).
  { intros x o X O X7. destruct (rjson_text_options_ok tag_resource x o N1 X O) as (t & E & F).
    exists t. repeat split; trivial. rewrite text_options_eq in E by now apply proper_nonempty. apply ok_inj in E. subst t.
    unfold all7 in X7. apply Forall_app in X7. apply all7_object; [now apply all7_text_member|now apply all7_options]. }
  assert (SO : forall x m, is_s32 x -> proper_text m -> all7 m ->
      exists t, make_rjson_int_options tag_status x [(tag_message, m)] = Ok t /\
        parse_object t = Some [status_field x; message_field m] /\ all7 t).
  { intros x m X M M7. assert (O : Forall proper_option [(tag_message, m)]) by (constructor; [now apply proper_named|constructor]).
    destruct (rjson_int_options_ok tag_status x _ N2 X O) as (t & E & F).
    exists t. repeat split; trivial. rewrite int_options_eq in E by now apply proper_nonempty. apply ok_inj in E. subst t.
    apply all7_object; [now apply all7_int_member|]. apply all7_options. cbn [map List.concat fst snd]. rewrite app_nil_r.
    now apply all7_app. }
  assert (SU : forall x c i, plain x -> proper_text c -> proper_text i -> all7 (x ++ c ++ i) ->
      exists t, make_rjson_text_options tag_resource x [(tag_command, c); (tag_subscribeId, i)] = Ok t /\
        parse_object t = Some [resource_field x; (str "command", value_of c); (str "subscribeId", value_of i)] /\ all7 t).
  { intros x c i X C I X7. apply RO; trivial.
    - constructor; [now apply proper_named|]. constructor; [now apply proper_named|constructor].
    - unfold all7 in *. rewrite !Forall_app in X7. cbn [map List.concat fst snd]. rewrite !Forall_app. repeat split; try tauto; constructor. }
  destruct p; unfold pe_proper, pe_texts in *; unfold header_is, pe_message; cbn [pe_header_of pe_subtype pe_chunk_of].
  all: try (match goal with k : pe_chunk |- _ => destruct k as [kn kt kd]; cbn [pk_number pk_this pk_data] end).
  all: first
    [ match type of P with plain ?x => destruct (R x P T) as [R1 R2]; eexists; split; [eexists; split; [reflexivity|exact R1]|] end
    | match type of P with is_s32 ?x => destruct (S x P) as [R1 R2]; eexists; split; [eexists; split; [reflexivity|exact R1]|] end
    | match type of P with plain ?x /\ Forall _ ?o => destruct P as [P1 P2]; destruct (RO x o P1 P2 T) as (t & E & R1 & R2);
        exists (Some t); split; [eexists; split; [reflexivity|exact R1]|] end
    | match type of P with is_s32 ?x /\ proper_text ?m => destruct P as [P1 P2]; destruct (SO x m P1 P2 T) as (t & E & R1 & R2);
        exists (Some t); split; [eexists; split; [reflexivity|exact R1]|] end
    | match type of P with plain ?x /\ proper_text ?c /\ proper_text ?i =>
        destruct P as (P1 & P2 & P3); destruct (SU x c i P1 P2 P3 T) as (t & E & R1 & R2);
        exists (Some t); split; [eexists; split; [reflexivity|exact R1]|] end
    | eexists; split; [reflexivity|] ].
  all: split; [first [exact R2|exact T|constructor]|intros dbg [s d r dev]; unfold pe_build].
  all: first [reflexivity | unfold make_get_property_data_inquiry_options, make_get_property_data_reply_message,
    make_set_property_data_inquiry_options, make_set_property_data_reply_message, make_subscription_inquiry,
    make_subscription_inquiry_chunk, make_subscription_reply_message, make_notify_message_text;
    rewrite E; reflexivity].
Qed.

Lemma pe_calls_ok dbg a p : pe_proper p -> all7 (pe_texts p) -> pe_in_range a (pe_chunk_of p) ->
  exists h, header_is p h /\
    (size (text_of h) < 16384 -> (text_of h = [] \/ pk_this (pe_chunk_of p) <= 1) ->
     exists s, pe_build dbg a p = Ok s /\ header_fields (pe_message a p h) s /\
       accepted_as s (kinds_of (pe_message a p h)) /\ fields_of dbg (pe_message a p h) s).
Proof.
  intros P T (S & D & R & V & N & C & CN & CD & K). destruct (pe_header_ok p P T) as (h & H & H7 & B).
  exists h. split; trivial. intros L F. rewrite B.
  destruct (round_trip_ok dbg (pe_message a p h)) as (s & E & _ & H1 & H2 & H3).
  - unfold in_range, pe_message.
    cbn [raw_bytes numbers7 numbers14 numbers28 muids identity_of sizes14 sizes28 chunk_numbering proper_subtype].
    refine (conj _ (conj _ (conj _ (conj I (conj _ (conj _ (conj _ _))))))).
    + unfold all7, text_of in *.
      destruct h as [h|], (pk_data (pe_chunk_of p)) as [cd|]; cbn [app]; rewrite ?Forall_app, ?Forall_cons_iff, ?Forall_app;
        repeat apply conj; try (destruct K); try trivial; try (constructor; trivial); try (unfold is_u7 in *; lia); try (destruct p; cbn [pe_subtype]; unfold is_u7; lia).
    + constructor; trivial. constructor; trivial.
    + cbn [app]. constructor; trivial. constructor; trivial.
    + unfold text_of in L. destruct h as [h|], (pk_data (pe_chunk_of p)) as [cd|]; repeat constructor; try lia; try apply K; trivial.
    + constructor.
    + auto.
    + destruct p; cbn; tauto.
  - unfold header_in_first_chunk, pe_message. destruct h as [[|x h]|]; trivial. destruct F as [F|F]; [discriminate|trivial].
  - exists s. auto.
Qed.
