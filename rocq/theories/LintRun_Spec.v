(** Vocabulary for the properties of a whole lint run: which rules run (C12), which
    files they see (C13, C22).  The groups are those of the table in docs/lint.md. *)
From Verif Require Export Lint_Spec Lint_Doc.

(** ** Selection *)
Definition documented (id : string) : Prop := exists gs, In (id, gs) documented_rules.
Definition in_group (g id : string) : Prop := exists gs, In (id, gs) documented_rules /\ In g gs.
Definition documented_groups : list string := ["google"; "uber1"; "uber2"; "empty"].
(** The rules a configuration starts from: those of its group; without a group those of
    uber1, or none with no_default. *)
Definition base_rule (c : lint_config) (id : string) : Prop :=
  (lc_group c <> EmptyString /\ in_group (lc_group c) id)
  \/ (lc_group c = EmptyString /\ lc_no_default c = false /\ in_group "uber1" id).
Definition selected (c : lint_config) (id : string) : Prop :=
  (base_rule c id \/ In id (lc_include_ids c)) /\ ~ In id (lc_exclude_ids c).
(** All names in the configuration exist. *)
Definition known_names (c : lint_config) : Prop :=
  (lc_group c = EmptyString \/ In (lc_group c) documented_groups)
  /\ forall id, In id (lc_include_ids c) \/ In id (lc_exclude_ids c) \/ In id (map fst (lc_ignores c)) -> documented id.

(** ** Ignores *)
Definition absolute_name (cwd file : string) : string :=
  if is_abs file then file else path_abs cwd file.
(** An entry for the rule names the file or a directory that contains it. *)
Definition ignored (cwd : string) (ignores : list (string * list string)) (id file : string) : Prop :=
  exists paths p, In (id, paths) ignores /\ In p paths /\ within p (absolute_name cwd file).
(** The rules that compare the files of a directory. *)
Definition directory_rules : list string := "PACKAGES_SAME_IN_DIR" :: map fst same_in_dir_rules.
(** [fs'] is [fs] without the elements that satisfy [P]. *)
Definition without {A} (P : A -> Prop) (fs fs' : list A) : Prop :=
  exists b, (forall x, In x fs -> (b x = true <-> P x)) /\ fs' = filter (fun x => negb (b x)) fs.
