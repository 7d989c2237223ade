(** Vocabulary for lists of file descriptor sets; a nil pointer is None. *)
From Verif Require Export Descriptor_Types.

(** The file is in one of the sets. *)
Definition file_in (sets : list (option (list (option file_desc)))) (f : file_desc) : Prop :=
  exists l, In (Some l) sets /\ In (Some f) l.
Definition no_nil (sets : list (option (list (option file_desc)))) : Prop :=
  forall s, In s sets -> exists l, s = Some l /\ forall x, In x l -> exists f, x = Some f.
(** The hash does not collide on the given files. *)
Definition no_collision (hash : string -> string) (sets : list (option (list (option file_desc)))) : Prop :=
  forall f g, file_in sets f -> file_in sets g -> hash (fl_data f) = hash (fl_data g) -> fl_data f = fl_data g.
(** The serialized bytes determine the file. *)
Definition faithful_sets (sets : list (option (list (option file_desc)))) : Prop :=
  forall f g, file_in sets f -> file_in sets g -> fl_data f = fl_data g -> f = g.
