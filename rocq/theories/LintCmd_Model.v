(** Model of the lint command: internal/exec/runner.go:314-474, 1188-1197, 1281-1308.

    Simplifications.
    - Parsing a file and the singular of a word are arguments, as in Lint_Model; so are the
      purpose of a linter, which Main_Model takes from Lint_Purpose, and yaml.Marshal.
    - The table of printLinters is written at once. *)
From Verif Require Export Lint_Rules Settings_Model Exec_Model.

Section LintCmd.
  Variable ord : map_order.
  Variable cwd work_dir error_format : string.
  Variable json : bool.
  Variable to_json : failure -> string.
  Variable stat : string -> result file_kind.
  Variable get_for_dir : string -> string -> result proto_set.
  Variable D : Type.
  Variable compiler : bool -> bool -> option (bool * bool) -> (string -> result string) -> proto_set -> result (list failure * list D).
  Variable commands : bool -> proto_set -> result (list string).
  (** protoparser: the elements of a file, from its path and data *)
  Variable parse : string -> string -> result (list element).
  Variable singularize : string -> string.
  Variable purpose : lint_config -> string -> string.
  (** yaml.Marshal of an external configuration in which only lint.ignores is set *)
  Variable marshal : list ext_ignore -> result string.

  (** lint.go:437-460 *)
  Definition read_proto (disk : string -> result string) (path : string) : result (list element * string) :=
    do data <- disk path; do es <- parse path data; Ok (es, data).
  (** internal/lint/runner.go:43-53; no failure in the list is nil *)
  Definition run_lint (disk : string -> result string) (ps : proto_set) (absolute : bool) : result (list failure) :=
    do fs <- lint_run ord cwd (read_proto disk) (all_linters ord singularize) (default_linters ord) (group_to_linters ord) ps absolute;
    Ok (concat (map (fun o => match o with Some f => [f] | None => [] end) fs)).

  (** runner.go:440-452 *)
  Definition list_all_lint_groups : cmd unit :=
    each println (sort_strings (ord "GroupToLinters" _ (map fst (group_to_linters ord)))).

  (** runner.go:1281-1291 *)
  Definition get_linter_ids (group : string) : cmd (list (string * unit)) :=
    match gget (to_lower group) (group_to_linters ord) with
    | None => exit255 ("unknown lint group: " +++ to_lower group)
    | Some ls => ret (build (map (fun l => (ln_id l, tt)) ls))
    end.
  (** runner.go:1293-1308 *)
  Definition diff_maps (one two : list (string * unit)) : list string :=
    sort_strings
      (map (fun k => "< " +++ fst k) (filter (fun k => negb (has (fst k) two)) (ord "diffMaps one" _ one)) ++
       map (fun k => "> " +++ fst k) (filter (fun k => negb (has (fst k) one)) (ord "diffMaps two" _ two))).
  (** runner.go:454-473 *)
  Definition diff_lint_groups (groups : string) : cmd unit :=
    match split_char "," groups with
    | [a; b] =>
        run one <- get_linter_ids a;
        run two <- get_linter_ids b;
        each println (diff_maps one two)
    | _ => fail "argument to --diff-lint-groups must be two lint groups separated by '.', for example google,uber2"
    end.

  (** text/tabwriter with the settings of newTabWriter (runner.go:1233-1235: minimal width 0,
      padding 2 with spaces): a column is as wide as its longest cell and the padding *)
  Definition pad (width : nat) (s : string) : string := s +++ srepeat " " (width - String.length s).
  (** runner.go:1188-1197 *)
  Definition print_linters (c : lint_config) (ls : list linter) : cmd unit :=
    let sorted := isort (fun a b => str_leb (ln_id a) (ln_id b)) ls in
    let width := 2 + list_max (map (fun l => String.length (ln_id l)) sorted) in
    match sorted with
    | [] => ret tt
    | _ => print (join "" (map (fun l => pad width (ln_id l) +++ purpose c (ln_id l) +++ String newline "") sorted))
    end.
  (** runner.go:420-426 *)
  Definition list_linters (m : meta) : cmd unit :=
    run ls <- check (get_linters ord (all_linters ord singularize) (default_linters ord) (group_to_linters ord) (cfg_lint (ps_config (m_set m))));
    print_linters (cfg_lint (ps_config (m_set m))) ls.
  (** runner.go:428-430 *)
  Definition list_all_linters (m : meta) : cmd unit :=
    print_linters (cfg_lint (ps_config (m_set m))) (all_linters ord singularize).
  (** runner.go:432-438 *)
  Definition list_lint_group (m : meta) (group : string) : cmd unit :=
    match gget (to_lower group) (group_to_linters ord) with
    | None => exit255 ("unknown lint group: " +++ to_lower group)
    | Some ls => print_linters (cfg_lint (ps_config (m_set m))) ls
    end.

  (** The assignment to Config.Lint.IgnoreIDToFilePaths (runner.go:362). *)
  Definition with_ignores (ignores : list (string * list string)) (ps : proto_set) : proto_set :=
    let c := ps_config ps in
    let l := cfg_lint c in
    mk_proto_set (ps_work_dir ps) (ps_dir ps) (ps_files ps)
      (mk_config (cfg_dir c) (cfg_exclude_prefixes c) (cfg_compile c) (cfg_create c)
         (mk_lint_config (lc_group l) (lc_no_default l) (lc_include_ids l) (lc_exclude_ids l) ignores
            (lc_file_header l) (lc_java_package_prefix l) (lc_allow_suppression l))
         (cfg_break c) (cfg_gen c)).
  (** runner.go:372-384: idToFiles *)
  Fixpoint id_to_files (dir : string) (m : list (string * list (string * unit))) (fs : list failure) :
    result (list (string * list (string * unit))) :=
    match fs with
    | [] => Ok m
    | f :: r =>
        if negb (is_empty (f_lint_id f)) && negb (is_empty (f_filename f)) then
          do rel <- path_rel dir (f_filename f);
          let files := match gget (f_lint_id f) m with Some files => files | None => [] end in
          id_to_files dir (gput (f_lint_id f) (gput rel tt files) m) r
        else id_to_files dir m r
    end.
  (** runner.go:386-411 *)
  Definition ignore_entries (m : list (string * list (string * unit))) : list ext_ignore :=
    map (fun id => mk_ext_ignore id
           (sort_strings (ord ("filesMap " +++ id) _ (map fst (match gget id m with Some files => files | None => [] end)))))
        (sort_strings (ord "idToFiles" _ (map fst m))).
  (** runner.go:361-418 *)
  Definition generate_ignores (m : meta) : cmd unit :=
    let ps := with_ignores [] (m_set m) in
    run fs <- (fun s => check (run_lint (io_disk s) ps true) s);
    match fs with
    | [] => ret tt
    | _ =>
        run ids <- check (id_to_files (cfg_dir (ps_config ps)) [] fs);
        run data <- check (marshal (ignore_entries ids));
        println (trim_space data)
    end.

  (** runner.go:314-345 *)
  Definition lint_cmd (args : list string) (all_linters_flag linters_flag all_groups : bool) (group diff_groups : string)
    (generate : bool) : cmd unit :=
    if more_than_one_set [all_linters_flag; linters_flag; all_groups; negb (is_empty group); negb (is_empty diff_groups); generate] then
      exit255 "can only set one of list-all-linters, list-linters, list-all-lint-groups, list-lint-group, diff-lint-groups, update-ignores"
    else if all_groups then list_all_lint_groups
    else if negb (is_empty diff_groups) then diff_lint_groups diff_groups
    else
      run m <- get_meta work_dir stat get_for_dir args;
      if all_linters_flag then list_all_linters m
      else if linters_flag then list_linters m
      else if negb (is_empty group) then list_lint_group m group
      else
        compile cwd error_format json to_json D compiler commands false false false m ;;
        if generate then generate_ignores m
        else lint cwd error_format json to_json run_lint m.
End LintCmd.
