(** Model of the commands about packages and descriptor sets: internal/exec/runner.go:677-910
    and 1271-1279, and of internal/git/git.go.

    Simplifications.
    - The discovery of files and the compiler are arguments, as in Exec_Model; they see one
      file system, in which a clone is from the start.
    - proto.Marshal, proto.Unmarshal, jsonpb and SHA-256 are arguments.
    - Closing a file that was written without error does not fail. *)
From Verif Require Import GoFmt.
From Verif Require Export Desc_Model Reflect_Model Extract_Model Breaking_Model Exec_Model.

Section PackageCmd.
  Variable ord : map_order.
  Variable cwd work_dir error_format : string.
  Variable json : bool.
  Variable to_json : failure -> string.
  Variable stat : string -> result file_kind.
  Variable get_for_dir : string -> string -> result proto_set.
  Variable compiler : bool -> bool -> option (bool * bool) -> (string -> result string) -> proto_set -> result (list failure * list file_set).
  Variable commands : bool -> proto_set -> result (list string).
  Variable sha256 : string -> string.
  (** proto.Marshal, jsonpbMarshaler.Marshal and proto.Unmarshal of descriptor sets *)
  Variable marshal to_jsonpb : file_set -> result string.
  Variable unmarshal : string -> result file_set.
  (** os.Create, Write and Close fail like ioutil.WriteFile *)
  Variable write_error : string -> string -> option (result string * string).
  (** ioutil.TempFile("", "prototool"): the name of the new file *)
  Variable temp_file : result string.
  (** ioutil.TempDir("", "prototool") *)
  Variable temp_dir : result string.
  (** git with the given arguments: the error is the combined output *)
  Variable git : list string -> result unit.

  (** runner.go:279-285 *)
  Definition compile_full_control (include_imports include_source_info : bool) (m : meta) : cmd (list file_set) :=
    do_compile cwd error_format json to_json file_set compiler false false (Some (include_imports, include_source_info)) m.
  (** runner.go:684-737 *)
  Definition descriptor_set (args : list string) (include_imports include_source_info : bool) (output_path : string) (tmp : bool) : cmd unit :=
    if negb (is_empty output_path) && tmp then exit255 "can only set one of output-path, tmp"
    else
      run m <- get_meta work_dir stat get_for_dir args;
      run sets <- compile_full_control include_imports include_source_info m;
      run merged <- Exec_Model.check (merge_file_descriptor_sets sha256 (map (fun fs => Some (map Some fs)) sets));
      run data <- Exec_Model.check (if json then to_jsonpb merged else marshal merged);
      if is_empty output_path && negb tmp then print data
      else if negb (is_empty output_path) then write_file write_error output_path data
      else
        run name <- Exec_Model.check temp_file;
        write_file write_error name data ;;
        println name.
  (** runner.go:677-682 *)
  Definition break_descriptor_set (args : list string) (output_path : string) : cmd unit :=
    if is_empty output_path then exit255 "must set output-path"
    else descriptor_set args true false output_path false.

  (** runner.go:866-872; the package set holds the proto message it is made from *)
  Definition packages_of_sets (sets : list file_set) : result (package_set * x_package_set) :=
    do ps <- new_package_set_of sets;
    do xs <- new_package_set ps false;
    Ok (ps, xs).
  (** runner.go:833-852 in a runner with the given working directory *)
  Definition get_package_set_and_config (dir : string) (args : list string) : cmd (package_set * x_package_set * config) :=
    run m <- get_meta dir stat get_for_dir args;
    run sets <- compile cwd error_format json to_json file_set compiler commands false true false m;
    run xs <- Exec_Model.check (packages_of_sets sets);
    ret (xs, ps_config (m_set m)).
  (** runner.go:1271-1279 *)
  Definition extract_sort_package_names {A} (m : list (string * A)) : list string :=
    sort_strings (filter (fun k => negb (is_empty k)) (ord "extractSortPackageNames" _ (map fst m))).
  (** runner.go:892-899 *)
  Definition print_package_names {A} (m : list (string * A)) : cmd unit :=
    each println (extract_sort_package_names m).
  (** runner.go:739-748 *)
  Definition inspect_packages (args : list string) : cmd unit :=
    run x <- get_package_set_and_config work_dir args;
    print_package_names (snd (fst x)).
  (** runner.go:874-890 *)
  Definition get_package (args : list string) (name : string) : cmd x_package :=
    if is_empty name then exit255 "must set name"
    else
      run x <- get_package_set_and_config work_dir args;
      match gget name (snd (fst x)) with
      | None => fail ("package not found: " +++ name)
      | Some p => ret p
      end.
  (** runner.go:750-756 *)
  Definition inspect_package_deps (args : list string) (name : string) : cmd unit :=
    run p <- get_package args name; print_package_names (xp_deps p).
  (** runner.go:758-764 *)
  Definition inspect_package_importers (args : list string) (name : string) : cmd unit :=
    run p <- get_package args name; print_package_names (xp_importers p).

  (** git.go:39-68 *)
  Definition temporary_clone (dir branch_or_tag : string) : cmd string :=
    let abs := abs_clean cwd dir in
    run k <- Exec_Model.check (stat (path_join [abs; ".git"]));
    match k with
    | Directory =>
        run clone <- Exec_Model.check temp_dir;
        emit (MadeDir clone) ;;
        let args := ["clone"; "--depth"; "1"] ++ (if is_empty branch_or_tag then [] else ["--branch"; branch_or_tag]) ++ ["file://" +++ abs; clone] in
        emit (Ran ("git" :: args)) ;;
        match git args with
        | Err output => fail ("git " +++ join " " args +++ " had error: " +++ output)
        | Ok _ => ret clone
        end
    | _ => fail (quote abs +++ " does not contain a .git directory")
    end.
  (** A deferred call: it happens whatever [c] returns (runner.go:808-811). *)
  Definition deferred {A} (c : cmd A) (e : event) : cmd A := fun s =>
    let (s, r) := c s in (mk_io (io_disk s) (io_done s ++ [e]), r).
  (** runner.go:903-910 *)
  Definition rel_dir_path (clone rel : string) : string :=
    if negb (is_empty rel) && negb (String.eqb rel ".") then path_join [clone; rel] else clone.
  (** runner.go:854-864 *)
  Definition package_set_for_descriptor_set_path (path : string) : cmd package_set :=
    run data <- read_file path;
    run fs <- Exec_Model.check (unmarshal data);
    run xs <- Exec_Model.check (packages_of_sets [fs]);
    ret (fst xs).
  (** runner.go:820-830 *)
  Definition break_failures (c : config) (from to : package_set) : cmd unit :=
    run fs <- Exec_Model.check (run_break (Reflect_Types.mk_break_config (bc_include_beta (cfg_break c)) (bc_allow_beta_deps (cfg_break c))) from to);
    match fs with
    | [] => ret tt
    | _ => print_failures_for cwd json to_json "message" "" None fs ;; exit255 ""
    end.
  (** runner.go:766-831 *)
  Definition break_check (args : list string) (git_branch descriptor_set_path : string) : cmd unit :=
    if negb (is_empty git_branch) && negb (is_empty descriptor_set_path) then
      exit255 "can only set one of git-branch, descriptor-set-path"
    else
      run x <- get_package_set_and_config work_dir args;
      let to := fst (fst x) in
      let c := snd x in
      if negb (is_empty descriptor_set_path) then
        run from <- package_set_for_descriptor_set_path descriptor_set_path;
        break_failures c from to
      else
        let rel := match args with [a] => a | _ => "." end in
        if is_abs rel then fail ("input argument must be relative directory path: " +++ rel)
        else if negb (has_prefix (abs_clean cwd rel) (abs_clean cwd work_dir)) then
          fail ("input directory must be within working directory: " +++ rel)
        else
          run clone <- temporary_clone work_dir git_branch;
          deferred
            (run y <- get_package_set_and_config clone [rel_dir_path clone rel];
             break_failures c (fst (fst y)) to)
            (Removed clone).
End PackageCmd.
