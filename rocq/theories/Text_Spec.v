(** Independent vocabulary for printing and ordering failures. *)
From Verif Require Export Text_Model.
From Coq Require Export Sorted.

(** Lexicographic order on file, line, column, rule, message. *)
Definition failure_before (x y : failure) : Prop :=
  str_ltb (f_filename x) (f_filename y) = true \/
  f_filename x = f_filename y /\
  ((f_line x < f_line y)%Z \/
   f_line x = f_line y /\
   ((f_column x < f_column y)%Z \/
    f_column x = f_column y /\
    (str_ltb (f_lint_id x) (f_lint_id y) = true \/
     f_lint_id x = f_lint_id y /\
     str_ltb (f_message x) (f_message y) = true))).
Definition failure_le (x y : failure) : Prop := failure_before x y \/ x = y.

(** The text a field shows, [None] when it is left out. *)
Definition field_text (f : failure) (field : failure_field) : option string :=
  match field with
  | FFilename => Some (if is_empty (f_filename f) then "<input>" else f_filename f)
  | FLine => Some (itoa (if (f_line f =? 0)%Z then 1 else f_line f))
  | FColumn => Some (itoa (if (f_column f =? 0)%Z then 1 else f_column f))
  | FID => if is_empty (f_lint_id f) then None else Some (f_lint_id f)
  | FMessage => if is_empty (f_message f) then None else Some (f_message f)
  | FOther _ => None
  end.
(** The documented line: each shown field that is not the last one is followed by a colon. *)
Fixpoint line_text (f : failure) (fields : list failure_field) : string :=
  match fields with
  | [] => EmptyString
  | [x] => match field_text f x with Some t => t | None => EmptyString end
  | x :: rest =>
      match field_text f x with Some t => t +++ ":" | None => EmptyString end +++ line_text f rest
  end.
Definition known_field (x : failure_field) : Prop := match x with FOther _ => False | _ => True end.
(** The names of the fields in an error format. *)
Definition field_name_of (x : failure_field) : string :=
  match x with
  | FFilename => "filename" | FLine => "line" | FColumn => "column" | FID => "id"
  | FMessage => "message" | FOther _ => EmptyString
  end.
