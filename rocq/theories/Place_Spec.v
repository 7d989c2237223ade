(** Which place a path names. *)
From Verif Require Import GoStr Exec_Model Main_Model.

(** Going from a directory, given as the names on the way to it from the root, by one step, and by
    several. *)
Definition go (from : list string) (step : string) : list string :=
  if String.eqb step "" || String.eqb step "." then from
  else if String.eqb step ".." then removelast from
  else from ++ [step].
Definition walk (from steps : list string) : list string := fold_left go steps from.
(** The place that a path names for someone in a directory: a path that begins with a slash is
    walked from the root. *)
Definition place (here : list string) (path : string) : list string :=
  walk (match path with String "/" _ => [] | _ => here end) (split_char "/" path).
(** The last part of a path is a name. *)
Definition ends_in_name (path : string) : Prop := ~ In (last (split_char "/" path) "") [""; "."; ".."].

(** Two ways to write the name of the same directory or file, for someone in this directory.  A
    file is named by a name, and looking for files takes too long for both or for none. *)
Definition same_target (w : world) (here : list string) (a b : string) : Prop :=
  place here a = place here b /\ w_stat w a = w_stat w b /\
  (w_stat w a = Ok Regular -> ends_in_name a /\ ends_in_name b) /\
  (forall t p q, place here p = place here q -> (w_too_slow w t p = None <-> w_too_slow w t q = None)).
