(** Vocabulary for the lint command (C55, C56, C70). *)
From Verif Require Export LintCmd_Model LintRun_Spec Settings_Spec File_Spec Exec_Spec.

(** The events of a command that prints [text], if there is anything to print. *)
Definition says (text : string) : list event := if String.eqb text "" then [] else [Printed text].
(** The same files with the same configuration, but for the ignores, which are [m]. *)
Record ignoring (m : list (string * list string)) (ps ps' : proto_set) : Prop := {
  ig_dir : ps_dir ps' = ps_dir ps;
  ig_files : ps_files ps' = ps_files ps;
  ig_config : cfg_dir (ps_config ps') = cfg_dir (ps_config ps);
  ig_group : lc_group (cfg_lint (ps_config ps')) = lc_group (cfg_lint (ps_config ps));
  ig_default : lc_no_default (cfg_lint (ps_config ps')) = lc_no_default (cfg_lint (ps_config ps));
  ig_include : lc_include_ids (cfg_lint (ps_config ps')) = lc_include_ids (cfg_lint (ps_config ps));
  ig_exclude : lc_exclude_ids (cfg_lint (ps_config ps')) = lc_exclude_ids (cfg_lint (ps_config ps));
  ig_header : lc_file_header (cfg_lint (ps_config ps')) = lc_file_header (cfg_lint (ps_config ps));
  ig_prefix : lc_java_package_prefix (cfg_lint (ps_config ps')) = lc_java_package_prefix (cfg_lint (ps_config ps));
  ig_suppress : lc_allow_suppression (cfg_lint (ps_config ps')) = lc_allow_suppression (cfg_lint (ps_config ps));
  ig_ignores : lc_ignores (cfg_lint (ps_config ps')) = m
}.
(** One entry for each rule that has a failure, in order, with the files that have one, in
    order, as paths from the directory of the configuration. *)
Definition entries_of (dir : string) (fs : list failure) (is : list ext_ignore) : Prop :=
  Increasing (map ei_id is) /\
  (forall i, In i is -> ei_files i <> [] /\ Increasing (ei_files i)) /\
  forall id rel, (exists i, In i is /\ ei_id i = id /\ In rel (ei_files i)) <->
                 (exists f, In f fs /\ f_lint_id f = id /\ path_rel dir (f_filename f) = Ok rel).
(** A file of the set: an absolute path, and the name shown for it, which ends in the
    name of the file. *)
Definition listed (cwd dir : string) (f : proto_file) : Prop :=
  clean_abs (pf_path f) /\ pf_path f <> dir /\ pf_path f <> "/" /\
  shown cwd (pf_path f) (pf_display f) /\ path_base (pf_display f) = path_base (pf_path f).

(** ** Groups and listings *)
(** A marked difference of two sets of rules. *)
Definition marked (a b : string) (line : string) : Prop :=
  exists id, (line = "< " +++ id /\ in_group a id /\ ~ in_group b id) \/ (line = "> " +++ id /\ in_group b id /\ ~ in_group a id).
(** A table with a line for each rule of [P]: the rule, spaces up to a common column two
    behind the longest, what it is for. *)
Definition table_of (purpose : string -> string) (P : string -> Prop) (text : string) : Prop :=
  exists ids width, Increasing ids /\ (forall id, In id ids <-> P id) /\
    (forall id, In id ids -> String.length id + 2 <= width) /\
    (ids <> [] -> exists id, In id ids /\ width = String.length id + 2) /\
    text = join "" (map (fun id => id +++ srepeat " " (width - String.length id) +++ purpose id +++ String newline "") ids).
(** More than one of the flags is set. *)
Definition two_set (flags : list bool) : Prop :=
  exists i j, i <> j /\ nth i flags false = true /\ nth j flags false = true.
