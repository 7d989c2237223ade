(** Independent vocabulary for the download cache. *)
From Verif Require Export Cache_Model.

(** Files with their full contents. *)
Definition complete (files : string -> option string) (es : list (string * string)) : Prop :=
  forall p c, In (p, c) es -> files p = Some c.
(** A call is writing files of the cache. *)
Definition writes_files (p : phase) : Prop :=
  match p with Writing _ _ | Filling _ _ _ _ => True | _ => False end.
(** A call that is over. *)
Definition over (p : phase) : Prop := match p with Returned _ | Dead => True | _ => False end.
