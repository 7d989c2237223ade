(** Properties C35-C36: ordering and printing failures. *)
From Verif Require Import GoStrFacts Strs_Spec Text_Model Text_Spec Text_Proofs.

(** ** C35: the order is a total order on file, line, column, rule, message *)
Theorem C35_total_order : forall x y z,
  (failure_before x y \/ x = y \/ failure_before y x) /\
  ~ failure_before x x /\
  (failure_before x y -> failure_before y z -> failure_before x z).
Proof.
  exact (fun x y z => conj (failure_trichotomy x y)
    (conj (failure_before_irrefl x) (failure_before_trans x y z))).
Qed.
Print Assumptions C35_total_order.
Theorem C35_sorted : forall l : list failure,
  exists s : list failure, sort_failures (map Some l) = map Some s /\
    Permutation l s /\ StronglySorted failure_le s.
Proof. exact sort_failures_plain. Qed.
Print Assumptions C35_sorted.
(** nil entries come first, nothing else is lost. *)
Theorem C35_sorted_with_nil : forall l : list (option failure),
  Permutation l (sort_failures l) /\ StronglySorted opt_le (sort_failures l).
Proof. exact (fun l => conj (sort_failures_perm l) (sort_failures_sorted l)). Qed.
Print Assumptions C35_sorted_with_nil.
Theorem C35_deterministic : forall l1 l2, Permutation l1 l2 -> sort_failures l1 = sort_failures l2.
Proof. exact sort_failures_unique. Qed.
Print Assumptions C35_deterministic.
Example C35_ex :
  sort_failures [Some (mk_failure "b" 1 1 "X" "m"); Some (mk_failure "a" 10 1 "X" "m");
                 None; Some (mk_failure "a" 2 5 "X" "m"); Some (mk_failure "a" 2 5 "A" "m")]
  = [None; Some (mk_failure "a" 2 5 "A" "m"); Some (mk_failure "a" 2 5 "X" "m");
     Some (mk_failure "a" 10 1 "X" "m"); Some (mk_failure "b" 1 1 "X" "m")].
Proof. reflexivity. Qed.

(** ** C36: the printed line *)
Theorem C36_line : forall f fields, Forall known_field fields ->
  let line := line_text f (match fields with [] => default_failure_fields | _ => fields end) in
  fprintln f fields =
    (if is_empty line then EmptyString else line +++ String newline EmptyString, None).
Proof. exact fprintln_spec. Qed.
Print Assumptions C36_line.
(** The text of a failure in the logs: file, line, column and, if it is of a lint rule, its name,
    before the message. *)
Theorem C36_text : forall f, failure_string f =
  (if is_empty (f_filename f) then "<input>" else f_filename f) +++ ":" +++ itoa (if (f_line f =? 0)%Z then 1 else f_line f) +++ ":" +++
  itoa (if (f_column f =? 0)%Z then 1 else f_column f) +++ ":" +++ (if String.eqb (f_lint_id f) "" then f_message f else f_lint_id f +++ " " +++ f_message f).
Proof. intros f. unfold failure_string, shown_filename. rewrite !shown_int_spec. destruct (f_lint_id f); cbn [is_empty String.eqb]; rewrite ?sapp_assoc; reflexivity. Qed.
Print Assumptions C36_text.
Example C36_text_ex : failure_string (mk_failure "" 0 7 "ENUMS" "bad") = "<input>:1:7:ENUMS bad".
Proof. reflexivity. Qed.
(** With the default fields, cutting the line at its first three colons gives
    back the file name, line, column and message. *)
Theorem C36_recover : forall f,
  lacks ":" (f_filename f) ->
  exists out, fprintln f [] = (out +++ String newline EmptyString, None) /\
  (exists a b c d, out = a +++ ":" +++ b +++ ":" +++ c +++ ":" +++ d /\
     lacks ":" a /\ lacks ":" b /\ lacks ":" c) /\
  forall a b c d,
    out = a +++ ":" +++ b +++ ":" +++ c +++ ":" +++ d -> lacks ":" a -> lacks ":" b -> lacks ":" c ->
    a = (if is_empty (f_filename f) then "<input>" else f_filename f) /\
    b = itoa (if (f_line f =? 0)%Z then 1 else f_line f) /\
    c = itoa (if (f_column f =? 0)%Z then 1 else f_column f) /\
    d = f_message f.
Proof. exact fprintln_default_recover. Qed.
Print Assumptions C36_recover.
Theorem C36_numbers_recoverable : forall a b, itoa a = itoa b -> a = b.
Proof. exact itoa_inj. Qed.
Print Assumptions C36_numbers_recoverable.
(** A field list is accepted exactly when every colon-separated part is, up to
    case, one of the five names; only known fields are ever accepted, so that
    printing with accepted fields never fails. *)
Theorem C36_fields_parsed : forall s fields, s <> EmptyString ->
  (parse_colon_separated_failure_fields s = Ok fields <->
   Forall2 (fun part x => known_field x /\ to_lower part = field_name_of x) (split_char ":" s) fields).
Proof. exact parse_fields_spec. Qed.
Print Assumptions C36_fields_parsed.
Theorem C36_accepted_fields_print : forall s fields f,
  parse_colon_separated_failure_fields s = Ok fields -> snd (fprintln f fields) = None.
Proof. exact accepted_fields_print. Qed.
Print Assumptions C36_accepted_fields_print.
(** Passing an unknown field directly is an error. *)
Theorem C36_unknown_rejected : forall f fields n, In (FOther n) fields -> snd (fprintln f fields) <> None.
Proof. exact unknown_field_error. Qed.
Print Assumptions C36_unknown_rejected.
Example C36_ex :
  fprintln (mk_failure "a/b.proto" 0 7 "SOME_ID" "bad: thing") [] =
    ("a/b.proto:1:7:bad: thing" +++ String newline EmptyString, None)
  /\ parse_colon_separated_failure_fields "ID:Message" = Ok [FID; FMessage]
  /\ is_ok (parse_colon_separated_failure_fields "id:foo") = false
  /\ lacks ":" "a/b.proto".
Proof. repeat split; try reflexivity; discriminate. Qed.
