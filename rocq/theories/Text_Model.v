(** Model of internal/text/text.go. *)
From Verif Require Export GoStr.

(** text.go:32-43, 70-71.  [FOther n] is any FailureField value outside the five
    constants; FailureField is an int. *)
Inductive failure_field : Type :=
| FFilename | FLine | FColumn | FID | FMessage | FOther (n : Z).

(** text.go:47-52 *)
Definition default_failure_fields : list failure_field := [FFilename; FLine; FColumn; FMessage].

(** text.go:61-67, 84-90 *)
Definition parse_failure_field (s : string) : result failure_field :=
  let l := to_lower s in
  if String.eqb l "filename" then Ok FFilename
  else if String.eqb l "line" then Ok FLine
  else if String.eqb l "column" then Ok FColumn
  else if String.eqb l "id" then Ok FID
  else if String.eqb l "message" then Ok FMessage
  else Err ("could not parse " +++ s +++ " to a FailureField").

(** text.go:93-107 *)
Definition parse_colon_separated_failure_fields (s : string) : result (list failure_field) :=
  if is_empty s then Ok default_failure_fields
  else mapM parse_failure_field (split_char ":" s).

(** text.go:110-116 *)
Record failure : Type := mk_failure {
  f_filename : string;
  f_line : Z;
  f_column : Z;
  f_lint_id : string;
  f_message : string
}.

(** text.go:136-139, 145-148, 154-157 *)
Definition shown_filename (f : failure) : string :=
  if is_empty (f_filename f) then "<input>" else f_filename f.
Definition shown_int (z : Z) : string :=
  let s := itoa z in if String.eqb s "0" then "1" else s.

(** text.go:132-189: the loop over the fields.  The result is what was written,
    whether anything was written, and the error if an unknown field was met.
    Writer errors are not modelled (the writer is a buffer). *)
Fixpoint fprintln_loop (f : failure) (fields : list failure_field) : string * bool * option string :=
  match fields with
  | [] => (EmptyString, false, None)
  | field :: rest =>
      let is_last := match rest with [] => true | _ => false end in
      let cont (text : string) (written print_colon : bool) :=
        let colon := if print_colon && negb is_last then ":" else EmptyString in
        let '(out, w, e) := fprintln_loop f rest in
        (text +++ colon +++ out, written || (print_colon && negb is_last) || w, e) in
      match field with
      | FFilename => cont (shown_filename f) true true
      | FLine => cont (shown_int (f_line f)) true true
      | FColumn => cont (shown_int (f_column f)) true true
      | FID => if is_empty (f_lint_id f) then cont EmptyString false false else cont (f_lint_id f) true true
      | FMessage => if is_empty (f_message f) then cont EmptyString false false else cont (f_message f) true true
      | FOther n => (EmptyString, false, Some ("unknown FailureField: " +++ itoa n))
      end
  end.
(** text.go:127-195: output and error. *)
Definition fprintln (f : failure) (fields : list failure_field) : string * option string :=
  let fields := match fields with [] => default_failure_fields | _ => fields end in
  let '(out, written, e) := fprintln_loop f fields in
  match e with
  | Some m => (out, Some m)
  | None => (out +++ (if written then String newline EmptyString else EmptyString), None)
  end.

(** text.go:198-224 *)
Definition failure_string (f : failure) : string :=
  shown_filename f +++ ":" +++ shown_int (f_line f) +++ ":" +++ shown_int (f_column f) +++ ":"
  +++ (if is_empty (f_lint_id f) then EmptyString else f_lint_id f +++ " ") +++ f_message f.

(** text.go:246-284; nil failures are [None]. *)
Definition failure_less (a b : option failure) : bool :=
  match a, b with
  | None, None => false
  | None, Some _ => true
  | Some _, None => false
  | Some x, Some y =>
      if str_ltb (f_filename x) (f_filename y) then true
      else if str_ltb (f_filename y) (f_filename x) then false
      else if (f_line x <? f_line y)%Z then true
      else if (f_line y <? f_line x)%Z then false
      else if (f_column x <? f_column y)%Z then true
      else if (f_column y <? f_column x)%Z then false
      else if str_ltb (f_lint_id x) (f_lint_id y) then true
      else if str_ltb (f_lint_id y) (f_lint_id x) then false
      else str_ltb (f_message x) (f_message y)
  end.
(** text.go:238-240: sort.Stable. *)
Definition sort_failures (l : list (option failure)) : list (option failure) :=
  isort (fun a b => negb (failure_less b a)) l.
