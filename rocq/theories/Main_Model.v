(** Model of the whole program: internal/exec/runner.go's methods put in the place of the
    calls that the command line asks for.

    Simplifications.
    - What the operating system, protoc, git, the network and the libraries answer is in a
      [world], which does not change while the program runs, except for the contents of
      files: those are in the state.
    - A file has the name by which it is read or written: two names of the same file are
      not related.
    - A panic (a nil pointer in NewDownloader, a signal before protoc starts) is an error.
    - The development mode is never on. *)
From Verif Require Export Cmd_Model Exec_Model LintCmd_Model PackageCmd_Model Create_Model Init_Model Download_Model.
From Verif Require Grpc_Model Format_Model Protoc_Model Lint_Purpose Json_Model.

(** internal/vars/vars.go:26 *)
Definition version_string : string := "1.11.0-dev".

Record world : Type := mk_world {
  (* runtime.GOOS, GOARCH and Version; os.Getenv and Getwd *)
  w_goos : string; w_goarch : string; w_go_version : string;
  w_getenv : string -> string;
  w_getwd : result string;
  w_parse_duration : string -> result Z;
  (* pflag and cobra *)
  w_read_csv : string -> result (list string);
  w_usage : list string -> string; w_help : list string -> string;
  w_suggestions : string -> string; w_help_topic : list string -> string;
  (* the orders in which maps are ranged over *)
  w_order : map_order;
  (* os.Stat and os.Lstat of what is not a file that can be read, os.MkdirAll, an error of
     ioutil.WriteFile, os.RemoveAll, ioutil.TempFile and TempDir, exec.LookPath *)
  w_stat : string -> result file_kind;
  w_node_at : string -> node;
  w_mkdir_all : string -> option string;
  w_write_error : string -> string -> option (result string * string);
  w_remove_all : string -> option string;
  w_temp_file : result string;
  w_temp_dir : result string;
  w_look_path : string -> result string;
  (* whether walking over a directory takes longer than the time given, and the error *)
  w_too_slow : Z -> string -> option string;
  (* encoding/json, yaml and sort *)
  w_decode_json : string -> result external_config;
  w_decode_yaml : string -> result external_config;
  w_encode_ignores : list ext_ignore -> result string;
  w_sort_plugins : list gen_plugin -> list gen_plugin;
  w_sort_options : list opt -> list opt;
  w_sort_imports : list import -> list import;
  (* github.com/emicklei/proto, inflection *)
  w_parse : string -> string -> result (list element);
  w_singularize : string -> string;
  (* internal/diff *)
  w_diff : string -> string -> string -> result string;
  (* the cache: getting and unpacking an archive, the digest of a URL *)
  w_download : string -> result unit;
  w_digest : string -> string;
  w_stat_info : string -> stat_info;
  (* protoc: temporary files, what it does when run with a command on the files as they
     are, the set that the commands leave in a file, in which order the runs of so many
     commands end; how slices grow *)
  w_protoc_temp : nat -> result string;
  w_protoc : (string -> result string) -> list string -> Protoc_Model.outcome;
  w_protoc_set : (string -> result string) -> list (list string) -> string -> result file_set;
  w_ended : nat -> list nat;
  w_grow : nat -> nat -> nat;
  (* descriptor sets *)
  w_sha256 : string -> string;
  w_marshal : file_set -> result string;
  w_set_json : file_set -> result string;
  w_unmarshal : string -> result file_set;
  w_git : list string -> result unit;
  (* grpcurl and grpc *)
  w_create_descriptor : file_set -> result unit;
  w_create_source : file_set -> result unit;
  w_credentials : Grpc_Types.tls_settings -> result unit;
  w_dial : Grpc_Types.connection -> result unit;
  w_invoke_rpc : Grpc_Types.connection -> Grpc_Types.call -> list Grpc_Model.rpc_event * option string
}.

Section Main.
  Variable w : world.
  Variable r : runner.
  (** The working directory of the process is that of the runner. *)
  Definition here : string := r_work_dir r.

  (** os.Stat succeeds *)
  Definition exists_at (disk : string -> result string) (p : string) : bool :=
    match disk p with Ok _ => true | Err _ => match w_stat w p with Ok _ => true | Err _ => false end end.
  (** runner.go:85-112: protoSetProvider *)
  Definition provider (disk : string -> result string) (work dir : string) : result proto_set :=
    do ps <- provider_get_for_dir (w_order w) here (w_node_at w) (exists_at disk) disk (w_decode_json w) (w_decode_yaml w)
               (w_look_path w) (w_sort_plugins w) false (r_config_data r) work dir;
    if (r_walk_timeout r =? 0)%Z then Ok ps
    else match w_too_slow w (r_walk_timeout r) dir with Some m => Err m | None => Ok ps end.

  (** runner.go:918-947 *)
  Definition downloader_for (c : config) : result downloader :=
    match new_downloader (w_stat_info w) (cc_protobuf_version (cfg_compile c)) (r_cache_path r) (r_protoc_url r)
            (r_protoc_bin_path r) (r_protoc_wkt_path r) with
    | Made d => Ok d
    | Refused m => Err m
    | NilPointer => Err "runtime error: invalid memory address or nil pointer dereference"
    end.
  (** downloader.go:112-120, 154-190 *)
  Definition cached (d : downloader) : result string :=
    if negb (is_empty (d_bin_path d)) then Ok (d_bin_path d)
    else
      do base <- base_path (w_goos w) (w_goarch w) (w_getenv w) here (w_digest w) d;
      do _ <- w_download w base; Ok base.

  (** protoc.go:232-249, runner.go:949-1010: a compiler with the options of the runner, and
      the commands that it makes for the files *)
  Definition with_downloader {A} (set : proto_set) (f : downloader -> result A) : result A :=
    do d <- downloader_for (ps_config set); f d.
  Definition is_full (full : option (bool * bool)) : bool := match full with Some _ => true | None => false end.
  Definition full_imports (full : option (bool * bool)) : bool := match full with Some (b, _) => b | None => false end.
  Definition full_source_info (full : option (bool * bool)) : bool := match full with Some (_, b) => b | None => false end.
  Definition the_cmd_metas (gen set : bool) (full : option (bool * bool)) (ps : proto_set) : result (list Protoc_Model.cmd_meta) :=
    snd (Protoc_Model.get_cmd_metas (w_order w) (w_grow w)
           (with_downloader ps (fun _ => Ok tt)) (with_downloader ps (fun d => do _ <- cached d; Ok tt))
           (with_downloader ps (fun d => wkt_include_path d (cached d))) (with_downloader ps (fun d => protoc_path d (cached d)))
           (w_protoc_temp w) gen (set || is_full full) (is_full full) (full_imports full) (full_source_info full) ps
           Protoc_Model.state_0).
  (** runner.go:301-312: ProtocCommands *)
  Definition the_commands (gen : bool) (ps : proto_set) : result (list string) :=
    snd (Protoc_Model.protoc_commands (w_order w) (w_grow w)
           (with_downloader ps (fun _ => Ok tt)) (with_downloader ps (fun d => do _ <- cached d; Ok tt))
           (with_downloader ps (fun d => wkt_include_path d (cached d))) (with_downloader ps (fun d => protoc_path d (cached d)))
           (w_protoc_temp w) gen false false false false ps Protoc_Model.state_0).
  (** runner.go:287-299: Compile.  protoc reads the files as they are on the disk. *)
  Definition the_compiler (gen set : bool) (full : option (bool * bool)) (disk : string -> result string) (ps : proto_set)
    : result (list failure * list file_set) :=
    let commands := match the_cmd_metas gen set full ps with Ok ms => map Protoc_Model.cm_args ms | Err _ => [] end in
    match snd (Protoc_Model.compile (w_order w) (w_grow w)
           (with_downloader ps (fun _ => Ok tt)) (with_downloader ps (fun d => do _ <- cached d; Ok tt))
           (with_downloader ps (fun d => wkt_include_path d (cached d))) (with_downloader ps (fun d => protoc_path d (cached d)))
           (w_protoc_temp w) gen (set || is_full full) (is_full full) (full_imports full) (full_source_info full) ps
           (w_mkdir_all w) file_set (w_protoc_set w disk commands) (fun i => w_protoc w disk (nth i commands []))
           (w_ended w (length commands)) Protoc_Model.state_0) with
    | Protoc_Model.Sets _ ds => Ok ([], map (@Protoc_Model.ds_set file_set) ds)
    | Protoc_Model.Failures _ fs => Ok (fs, [])
    | Protoc_Model.Error _ m => Err m
    | Protoc_Model.Crash _ => Err "runtime error: invalid memory address or nil pointer dereference"
    end.
  (** runner.go:1018-1030 *)
  Definition the_transform (fix_value : Z) (header java_prefix path data : string) : result (string * list failure) :=
    Format_Model.transform (w_sort_options w) (w_sort_imports w) (w_parse w path) fix_value header java_prefix path data.
  (** runner.go:1012-1016 *)
  Definition the_lint : (string -> result string) -> proto_set -> bool -> result (list failure) :=
    LintCmd_Model.run_lint (w_order w) here (w_parse w) (w_singularize w).

  (** runner.go:131-166, 1233-1235 *)
  Definition version_cells : list (string * string) :=
    [("Version:", version_string); ("Default protoc version:", default_protoc_version);
     ("Go version:", w_go_version w); ("OS/Arch:", w_goos w +++ "/" +++ w_goarch w)].
  Definition version_fields : list (string * string) :=
    [("version", version_string); ("default_protoc_version", default_protoc_version);
     ("go_version", w_go_version w); ("goos", w_goos w); ("goarch", w_goarch w)].
  Definition version_cmd : cmd unit :=
    if r_json r then print (Json_Model.version_json version_fields)
    else
      let width := 2 + list_max (map (fun c => String.length (fst c)) version_cells) in
      print (join "" (map (fun c => pad width (fst c) +++ snd c +++ String newline "") version_cells)).

  (** runner.go:191-193, 1032-1047; handler.go:100-195.  The file is written under its
      absolute name. *)
  Definition files_now (s : io) : fsys := fun p =>
    match io_disk s p with
    | Ok data => Create_Model.Regular data
    | Err _ =>
        match w_stat w p with
        | Ok Exec_Model.Directory => Create_Model.Directory
        | Ok _ => Unreadable
        | Err _ => Missing
        end
    end.
  Definition create_cmd (files : list string) (pkg : string) : cmd unit := fun s =>
    let config_for_dir :=
      get_config_for_dir (exists_at (io_disk s)) (io_disk s) (w_decode_json w) (w_decode_yaml w) (w_look_path w) (w_sort_plugins w) false in
    let config_for_data := get_config_for_data (io_disk s) (w_decode_json w) (w_look_path w) (w_sort_plugins w) false in
    (Exec_Model.check (mapM (check_file_path here (files_now s)) files) ;;
     each (fun f =>
       run data <- Exec_Model.check (create_data (w_order w) here config_for_dir config_for_data pkg (r_config_data r) f);
       write_file (w_write_error w) (path_abs here f) data) files) s.

  (** runner.go:195-206, downloader.go:112-120 *)
  Definition cache_update (args : list string) : cmd unit := fun s =>
    (run m <- get_meta here (w_stat w) (provider (io_disk s)) args;
     run d <- Exec_Model.check (downloader_for (ps_config (m_set m)));
     match d_bin_path d with
     | EmptyString =>
         run base <- Exec_Model.check (base_path (w_goos w) (w_goarch w) (w_getenv w) here (w_digest w) d);
         emit (Downloaded base) ;; Exec_Model.check (w_download w base)
     | _ => ret tt
     end) s.
  (** runner.go:208-219, downloader.go:144-152 *)
  Definition cache_delete_cmd : cmd unit := fun s =>
    (run m <- get_meta here (w_stat w) (provider (io_disk s)) [];
     run d <- Exec_Model.check (downloader_for (ps_config (m_set m)));
     run base <- Exec_Model.check (deleted_path (w_goos w) (w_goarch w) (w_getenv w) here d);
     emit (Removed base) ;;
     match w_remove_all w base with Some m => fail m | None => ret tt end) s.

  (** exec.go:48-67: the methods of the runner.  Files are discovered, and configurations
      are read, as they are when the program starts. *)
  Definition method (c : Cmd_Model.call) : cmd unit := fun s =>
    let ord := w_order w in
    let format := r_error_format r in
    let json := r_json r in
    let to_json := Json_Model.failure_json in
    let stat := w_stat w in
    let get := provider (io_disk s) in
    match c with
    | CallInit args uncomment document =>
        init here (w_mkdir_all w) (fun p => match w_stat w p with Ok _ => true | Err _ => false end) (w_write_error w) default_protoc_version args uncomment document s
    | CallCreate args pkg => create_cmd args pkg s
    | CallVersion => version_cmd s
    | CallCacheUpdate args => cache_update args s
    | CallCacheDelete => cache_delete_cmd s
    | CallFiles args => files_cmd ord here stat get args s
    | CallCompile args dry_run => compile_cmd here here format json to_json stat get file_set the_compiler the_commands args dry_run s
    | CallGen args dry_run => gen_cmd here here format json to_json stat get file_set the_compiler the_commands args dry_run s
    | CallLint args list_all_linters list_linters list_all_lint_groups list_lint_group diff_lint_groups generate_ignores =>
        lint_cmd ord here here format json to_json stat get file_set the_compiler the_commands (w_parse w) (w_singularize w) (Lint_Purpose.purpose_of (all_linters ord (w_singularize w)))
          (w_encode_ignores w) args list_all_linters list_linters list_all_lint_groups list_lint_group diff_lint_groups generate_ignores s
    | CallFormat args overwrite diff_mode lint_mode fix_flag =>
        format_cmd ord here here format json to_json stat get file_set the_compiler the_commands the_transform (w_diff w) (w_write_error w)
          args overwrite diff_mode lint_mode fix_flag s
    | CallAll args disable_format disable_lint fix_flag =>
        all_cmd ord here here format json to_json stat get file_set the_compiler the_commands the_transform (w_diff w) the_lint (w_write_error w)
          args disable_format disable_lint fix_flag s
    | CallGRPC args headers address method data call_timeout connect_timeout keepalive_time stdin details tls insecure cacert cert key server_name =>
        Grpc_Model.grpc ord here here format json to_json stat get the_compiler the_commands (w_parse_duration w) (w_create_descriptor w)
          (w_create_source w) (w_credentials w) (w_dial w) (w_invoke_rpc w) args
          (Grpc_Model.mk_grpc_flags headers address method data call_timeout connect_timeout keepalive_time stdin details tls insecure cacert cert key server_name) s
    | CallInspectPackages args => inspect_packages ord here here format json to_json stat get the_compiler the_commands args s
    | CallInspectPackageDeps args name => inspect_package_deps ord here here format json to_json stat get the_compiler the_commands args name s
    | CallInspectPackageImporters args name => inspect_package_importers ord here here format json to_json stat get the_compiler the_commands args name s
    | CallBreakCheck args git_branch descriptor_set_path =>
        break_check here here format json to_json stat get the_compiler the_commands (w_unmarshal w) (w_temp_dir w) (w_git w) args git_branch descriptor_set_path s
    | CallBreakDescriptorSet args output_path =>
        break_descriptor_set here here format json to_json stat get the_compiler (w_sha256 w) (w_marshal w) (w_set_json w) (w_write_error w) (w_temp_file w)
          args output_path s
    | CallDescriptorSet args include_imports include_source_info output_path tmp =>
        descriptor_set here here format json to_json stat get the_compiler (w_sha256 w) (w_marshal w) (w_set_json w) (w_write_error w) (w_temp_file w)
          args include_imports include_source_info output_path tmp s
    end.
End Main.

(** cmd/prototool/main.go:29-31 *)
Definition main (w : world) (args : list string) : io -> io * Z :=
  prototool (w_goos w) (w_getenv w) (w_getwd w) (w_parse_duration w) (w_read_csv w) (w_usage w) (w_help w) (w_suggestions w) (w_help_topic w)
    (method w) args.
