(** Model of internal/cmd: the commands, their flags and arguments, the options of the
    runner, and the exit status (cmd.go, flags.go, templates.go).

    The way spf13/cobra v0.0.6 and spf13/pflag v1.0.5 read a command line is written down
    here too, from their sources: Command.Find, stripFlags, argsMinusFirstX, legacyArgs,
    Command.execute, FlagSet.parseArgs, and what they print for an error.

    Simplifications.
    - The texts of help and usage, the suggestions for a mistyped command, the reading of
      comma separated values and time.ParseDuration are arguments.
    - The flag --debug has no effect here, since logging is left out.
    - What a command does is an argument; the models of the commands are put in its place in
      Main_Model. *)
From Verif Require Export GoFmt Exec_Model.

(** flags.go:27-75: the options, by type *)
Inductive string_flag : Type :=
  | AddressFlag | CachePathFlag | CallTimeoutFlag | CacertFlag | CertFlag | ConfigDataFlag
  | ConnectTimeoutFlag | DataFlag | DescriptorSetPathFlag | DiffLintGroupsFlag | ErrorFormatFlag
  | GitBranchFlag | KeepaliveTimeFlag | KeyFlag | ListLintGroupFlag | MethodFlag | NameFlag | OutputPathFlag
  | PkgFlag | ProtocBinPathFlag | ProtocWKTPathFlag | ProtocURLFlag | ServerNameFlag | WalkTimeoutFlag.
Inductive bool_flag : Type :=
  | DebugFlag | DetailsFlag | DiffModeFlag | DisableFormatFlag | DisableLintFlag | DocumentFlag | DryRunFlag
  | FixFlag | InsecureFlag | IncludeImportsFlag | IncludeSourceInfoFlag | JsonFlag | ListAllLintersFlag
  | ListLintersFlag | ListAllLintGroupsFlag | LintModeFlag | OverwriteFlag | StdinFlag | TlsFlag | TmpFlag
  | UncommentFlag | GenerateIgnoresFlag.
Scheme Equality for string_flag.
Scheme Equality for bool_flag.
Record flags : Type := mk_flags {
  fs_string : string_flag -> string;
  fs_bool : bool_flag -> bool;
  fs_headers : list string
}.
(** The variable that a flag sets: pflag's StringVar, BoolVar and StringSliceVar, and that of
    cobra's own flag --help. *)
Inductive target : Type := ToString (f : string_flag) | ToBool (f : bool_flag) | ToHeaders | ToHelp.
(** A flag: its name, its one letter form, its variable and its default.  The default of
    all boolean flags is false, that of --header the empty list. *)
Record flag : Type := mk_flag {
  fl_name : string; fl_short : option ascii; fl_target : target; fl_default : string
}.
Definition put_string (f : string_flag) (v : string) (fl : flags) : flags :=
  mk_flags (fun g => if string_flag_beq f g then v else fs_string fl g) (fs_bool fl) (fs_headers fl).
Definition put_bool (f : bool_flag) (v : bool) (fl : flags) : flags :=
  mk_flags (fs_string fl) (fun g => if bool_flag_beq f g then v else fs_bool fl g) (fs_headers fl).
Definition put_headers (v : list string) (fl : flags) : flags := mk_flags (fs_string fl) (fs_bool fl) v.
(** Binding a flag gives its variable the default. *)
Definition bind_flag (fl : flags) (f : flag) : flags :=
  match fl_target f with
  | ToString g => put_string g (fl_default f) fl
  | ToBool g => put_bool g false fl
  | ToHeaders => put_headers [] fl
  | ToHelp => fl
  end.

(** flags.go:77-79 *)
Definition bind_address : flag := mk_flag "address" None (ToString AddressFlag) "".
(** flags.go:81-83 *)
Definition bind_cache_path : flag := mk_flag "cache-path" None (ToString CachePathFlag) "".
(** flags.go:85-87 *)
Definition bind_call_timeout : flag := mk_flag "call-timeout" None (ToString CallTimeoutFlag) "60s".
(** flags.go:89-91 *)
Definition bind_config_data : flag := mk_flag "config-data" None (ToString ConfigDataFlag) "".
(** flags.go:93-95 *)
Definition bind_connect_timeout : flag := mk_flag "connect-timeout" None (ToString ConnectTimeoutFlag) "10s".
(** flags.go:97-99 *)
Definition bind_data : flag := mk_flag "data" None (ToString DataFlag) "".
(** flags.go:101-103 *)
Definition bind_debug : flag := mk_flag "debug" None (ToBool DebugFlag) "".
(** flags.go:105-107 *)
Definition bind_descriptor_set_path : flag := mk_flag "descriptor-set-path" (Some "f"%char) (ToString DescriptorSetPathFlag) "".
(** flags.go:109-111 *)
Definition bind_details : flag := mk_flag "details" None (ToBool DetailsFlag) "".
(** flags.go:113-115 *)
Definition bind_diff_lint_groups : flag := mk_flag "diff-lint-groups" None (ToString DiffLintGroupsFlag) "".
(** flags.go:117-119 *)
Definition bind_diff_mode : flag := mk_flag "diff" (Some "d"%char) (ToBool DiffModeFlag) "".
(** flags.go:121-123 *)
Definition bind_disable_format : flag := mk_flag "disable-format" None (ToBool DisableFormatFlag) "".
(** flags.go:125-127 *)
Definition bind_disable_lint : flag := mk_flag "disable-lint" None (ToBool DisableLintFlag) "".
(** flags.go:129-131 *)
Definition bind_dry_run : flag := mk_flag "dry-run" None (ToBool DryRunFlag) "".
(** flags.go:133-135 *)
Definition bind_document : flag := mk_flag "document" None (ToBool DocumentFlag) "".
(** flags.go:137-139 *)
Definition bind_error_format : flag := mk_flag "error-format" None (ToString ErrorFormatFlag) "filename:line:column:message".
(** flags.go:141-143 *)
Definition bind_fix : flag := mk_flag "fix" (Some "f"%char) (ToBool FixFlag) "".
(** flags.go:145-147 *)
Definition bind_git_branch : flag := mk_flag "git-branch" None (ToString GitBranchFlag) "".
(** flags.go:149-151 *)
Definition bind_headers : flag := mk_flag "header" (Some "H"%char) (ToHeaders) "".
(** flags.go:153-155 *)
Definition bind_include_imports : flag := mk_flag "include-imports" None (ToBool IncludeImportsFlag) "".
(** flags.go:157-159 *)
Definition bind_include_source_info : flag := mk_flag "include-source-info" None (ToBool IncludeSourceInfoFlag) "".
(** flags.go:161-163 *)
Definition bind_json : flag := mk_flag "json" None (ToBool JsonFlag) "".
(** flags.go:165-167 *)
Definition bind_keepalive_time : flag := mk_flag "keepalive-time" None (ToString KeepaliveTimeFlag) "".
(** flags.go:169-171 *)
Definition bind_lint_mode : flag := mk_flag "lint" (Some "l"%char) (ToBool LintModeFlag) "".
(** flags.go:173-175 *)
Definition bind_list_all_linters : flag := mk_flag "list-all-linters" None (ToBool ListAllLintersFlag) "".
(** flags.go:177-179 *)
Definition bind_list_linters : flag := mk_flag "list-linters" None (ToBool ListLintersFlag) "".
(** flags.go:181-183 *)
Definition bind_list_all_lint_groups : flag := mk_flag "list-all-lint-groups" None (ToBool ListAllLintGroupsFlag) "".
(** flags.go:185-187 *)
Definition bind_list_lint_group : flag := mk_flag "list-lint-group" None (ToString ListLintGroupFlag) "".
(** flags.go:189-191 *)
Definition bind_method : flag := mk_flag "method" None (ToString MethodFlag) "".
(** flags.go:193-195 *)
Definition bind_name : flag := mk_flag "name" None (ToString NameFlag) "".
(** flags.go:197-199 *)
Definition bind_output_path : flag := mk_flag "output-path" (Some "o"%char) (ToString OutputPathFlag) "".
(** flags.go:201-203 *)
Definition bind_output_path_break_descriptor_set : flag := mk_flag "output-path" (Some "o"%char) (ToString OutputPathFlag) "".
(** flags.go:205-207 *)
Definition bind_overwrite : flag := mk_flag "overwrite" (Some "w"%char) (ToBool OverwriteFlag) "".
(** flags.go:209-211 *)
Definition bind_package : flag := mk_flag "package" None (ToString PkgFlag) "".
(** flags.go:213-215 *)
Definition bind_protoc_url : flag := mk_flag "protoc-url" None (ToString ProtocURLFlag) "".
(** flags.go:217-219 *)
Definition bind_protoc_bin_path : flag := mk_flag "protoc-bin-path" None (ToString ProtocBinPathFlag) "".
(** flags.go:221-223 *)
Definition bind_protoc_wkt_path : flag := mk_flag "protoc-wkt-path" None (ToString ProtocWKTPathFlag) "".
(** flags.go:225-227 *)
Definition bind_stdin : flag := mk_flag "stdin" None (ToBool StdinFlag) "".
(** flags.go:229-231 *)
Definition bind_uncomment : flag := mk_flag "uncomment" None (ToBool UncommentFlag) "".
(** flags.go:233-235 *)
Definition bind_generate_ignores : flag := mk_flag "generate-ignores" None (ToBool GenerateIgnoresFlag) "".
(** flags.go:237-239 *)
Definition bind_tmp : flag := mk_flag "tmp" None (ToBool TmpFlag) "".
(** flags.go:241-243 *)
Definition bind_tls : flag := mk_flag "tls" None (ToBool TlsFlag) "".
(** flags.go:245-247 *)
Definition bind_insecure : flag := mk_flag "insecure" None (ToBool InsecureFlag) "".
(** flags.go:249-251 *)
Definition bind_cacert : flag := mk_flag "cacert" None (ToString CacertFlag) "".
(** flags.go:253-255 *)
Definition bind_cert : flag := mk_flag "cert" None (ToString CertFlag) "".
(** flags.go:257-259 *)
Definition bind_key : flag := mk_flag "key" None (ToString KeyFlag) "".
(** flags.go:261-263 *)
Definition bind_server_name : flag := mk_flag "server-name" None (ToString ServerNameFlag) "".
(** flags.go:265-267 *)
Definition bind_walk_timeout : flag := mk_flag "walk-timeout" None (ToString WalkTimeoutFlag) "3s".

(** exec.go:48-67: a call of a method of the runner *)
Inductive call : Type :=
| CallInit (args : list string) (uncomment document : bool)
| CallCreate (args : list string) (pkg : string)
| CallVersion
| CallCacheUpdate (args : list string)
| CallCacheDelete
| CallFiles (args : list string)
| CallCompile (args : list string) (dry_run : bool)
| CallGen (args : list string) (dry_run : bool)
| CallLint (args : list string) (list_all_linters list_linters list_all_lint_groups : bool) (list_lint_group diff_lint_groups : string) (generate_ignores : bool)
| CallFormat (args : list string) (overwrite diff_mode lint_mode fix_flag : bool)
| CallAll (args : list string) (disable_format disable_lint fix_flag : bool)
| CallGRPC (args headers : list string) (address method data call_timeout connect_timeout keepalive_time : string)
    (stdin details tls insecure : bool) (cacert cert key server_name : string)
| CallInspectPackages (args : list string)
| CallInspectPackageDeps (args : list string) (name : string)
| CallInspectPackageImporters (args : list string) (name : string)
| CallBreakCheck (args : list string) (git_branch descriptor_set_path : string)
| CallBreakDescriptorSet (args : list string) (output_path : string)
| CallDescriptorSet (args : list string) (include_imports include_source_info : bool) (output_path : string) (tmp : bool).

(** cobra.NoArgs, MaximumNArgs and MinimumNArgs *)
Inductive arg_rule : Type := NoArgs | AtMost (n : nat) | AtLeast (n : nat).
(** templates.go:520-556; [t_words] are the names of the command and of the commands above
    it (cmd.go:97-131). *)
Record template : Type := mk_template {
  t_words : list string; t_args : arg_rule; t_flags : list flag; t_call : flags -> list string -> call
}.
(** templates.go:41-61 *)
Definition all_template : template := mk_template ["all"] (AtMost 1)
  [bind_cache_path; bind_config_data; bind_disable_format; bind_disable_lint; bind_error_format; bind_json;
  bind_fix; bind_protoc_url; bind_protoc_bin_path; bind_protoc_wkt_path; bind_walk_timeout]
  (fun fl args => CallAll args (fs_bool fl DisableFormatFlag) (fs_bool fl DisableLintFlag) (fs_bool fl FixFlag)).
(** templates.go:63-82 *)
Definition break_check_template : template := mk_template ["break"; "check"] (AtMost 1)
  [bind_cache_path; bind_config_data; bind_descriptor_set_path; bind_git_branch; bind_json; bind_protoc_url;
  bind_protoc_bin_path; bind_protoc_wkt_path; bind_walk_timeout]
  (fun fl args => CallBreakCheck args (fs_string fl GitBranchFlag) (fs_string fl DescriptorSetPathFlag)).
(** templates.go:84-102 *)
Definition break_descriptor_set_template : template := mk_template ["break"; "descriptor-set"] (AtMost 1)
  [bind_cache_path; bind_config_data; bind_error_format; bind_json; bind_protoc_url; bind_protoc_bin_path;
  bind_protoc_wkt_path; bind_output_path_break_descriptor_set; bind_walk_timeout]
  (fun fl args => CallBreakDescriptorSet args (fs_string fl OutputPathFlag)).
(** templates.go:104-130 *)
Definition cache_update_template : template := mk_template ["cache"; "update"] (AtMost 1)
  [bind_cache_path; bind_config_data; bind_walk_timeout]
  (fun fl args => CallCacheUpdate args).
(** templates.go:132-146 *)
Definition cache_delete_template : template := mk_template ["cache"; "delete"] NoArgs
  []
  (fun fl args => CallCacheDelete ).
(** templates.go:148-167 *)
Definition compile_template : template := mk_template ["compile"] (AtMost 1)
  [bind_cache_path; bind_config_data; bind_dry_run; bind_error_format; bind_json; bind_protoc_url;
  bind_protoc_bin_path; bind_protoc_wkt_path; bind_walk_timeout]
  (fun fl args => CallCompile args (fs_bool fl DryRunFlag)).
(** templates.go:169-238 *)
Definition create_template : template := mk_template ["create"] (AtLeast 1)
  [bind_config_data; bind_package]
  (fun fl args => CallCreate args (fs_string fl PkgFlag)).
(** templates.go:240-261 *)
Definition descriptor_set_template : template := mk_template ["descriptor-set"] (AtMost 1)
  [bind_cache_path; bind_config_data; bind_error_format; bind_include_imports; bind_include_source_info;
  bind_json; bind_protoc_url; bind_protoc_bin_path; bind_protoc_wkt_path; bind_output_path; bind_tmp;
  bind_walk_timeout]
  (fun fl args => CallDescriptorSet args (fs_bool fl IncludeImportsFlag) (fs_bool fl IncludeSourceInfoFlag) (fs_string fl OutputPathFlag) (fs_bool fl TmpFlag)).
(** templates.go:263-274 *)
Definition files_template : template := mk_template ["files"] (AtMost 1)
  [bind_config_data; bind_walk_timeout]
  (fun fl args => CallFiles args).
(** templates.go:276-297 *)
Definition format_template : template := mk_template ["format"] (AtMost 1)
  [bind_cache_path; bind_config_data; bind_diff_mode; bind_error_format; bind_json; bind_lint_mode;
  bind_overwrite; bind_fix; bind_protoc_url; bind_protoc_bin_path; bind_protoc_wkt_path; bind_walk_timeout]
  (fun fl args => CallFormat args (fs_bool fl OverwriteFlag) (fs_bool fl DiffModeFlag) (fs_bool fl LintModeFlag) (fs_bool fl FixFlag)).
(** templates.go:299-317 *)
Definition generate_template : template := mk_template ["generate"] (AtMost 1)
  [bind_cache_path; bind_config_data; bind_dry_run; bind_error_format; bind_json; bind_protoc_url;
  bind_protoc_bin_path; bind_protoc_wkt_path; bind_walk_timeout]
  (fun fl args => CallGen args (fs_bool fl DryRunFlag)).
(** templates.go:319-412 *)
Definition grpc_template : template := mk_template ["grpc"] (AtMost 1)
  [bind_cache_path; bind_config_data; bind_address; bind_call_timeout; bind_connect_timeout; bind_data;
  bind_details; bind_error_format; bind_headers; bind_keepalive_time; bind_method; bind_stdin;
  bind_protoc_url; bind_protoc_bin_path; bind_protoc_wkt_path; bind_tls; bind_insecure; bind_cacert;
  bind_cert; bind_key; bind_server_name; bind_walk_timeout]
  (fun fl args => CallGRPC args (fs_headers fl) (fs_string fl AddressFlag) (fs_string fl MethodFlag) (fs_string fl DataFlag) (fs_string fl CallTimeoutFlag) (fs_string fl ConnectTimeoutFlag) (fs_string fl KeepaliveTimeFlag) (fs_bool fl StdinFlag) (fs_bool fl DetailsFlag) (fs_bool fl TlsFlag) (fs_bool fl InsecureFlag) (fs_string fl CacertFlag) (fs_string fl CertFlag) (fs_string fl KeyFlag) (fs_string fl ServerNameFlag)).
(** templates.go:414-430 *)
Definition inspect_packages_template : template := mk_template ["x"; "inspect"; "packages"] (AtMost 1)
  [bind_cache_path; bind_config_data; bind_error_format; bind_protoc_url; bind_protoc_bin_path;
  bind_protoc_wkt_path; bind_walk_timeout]
  (fun fl args => CallInspectPackages args).
(** templates.go:432-449 *)
Definition inspect_package_deps_template : template := mk_template ["x"; "inspect"; "package-deps"] (AtMost 1)
  [bind_cache_path; bind_config_data; bind_error_format; bind_name; bind_protoc_url; bind_protoc_bin_path;
  bind_protoc_wkt_path; bind_walk_timeout]
  (fun fl args => CallInspectPackageDeps args (fs_string fl NameFlag)).
(** templates.go:451-468 *)
Definition inspect_package_importers_template : template := mk_template ["x"; "inspect"; "package-importers"] (AtMost 1)
  [bind_cache_path; bind_config_data; bind_error_format; bind_name; bind_protoc_url; bind_protoc_bin_path;
  bind_protoc_wkt_path; bind_walk_timeout]
  (fun fl args => CallInspectPackageImporters args (fs_string fl NameFlag)).
(** templates.go:470-482 *)
Definition config_init_template : template := mk_template ["config"; "init"] (AtMost 1)
  [bind_document; bind_uncomment]
  (fun fl args => CallInit args (fs_bool fl UncommentFlag) (fs_bool fl DocumentFlag)).
(** templates.go:484-507 *)
Definition lint_template : template := mk_template ["lint"] (AtMost 1)
  [bind_cache_path; bind_config_data; bind_error_format; bind_json; bind_list_all_linters; bind_list_linters;
  bind_list_all_lint_groups; bind_list_lint_group; bind_diff_lint_groups; bind_protoc_url;
  bind_protoc_bin_path; bind_protoc_wkt_path; bind_generate_ignores; bind_walk_timeout]
  (fun fl args => CallLint args (fs_bool fl ListAllLintersFlag) (fs_bool fl ListLintersFlag) (fs_bool fl ListAllLintGroupsFlag) (fs_string fl ListLintGroupFlag) (fs_string fl DiffLintGroupsFlag) (fs_bool fl GenerateIgnoresFlag)).
(** templates.go:509-519 *)
Definition version_template : template := mk_template ["version"] NoArgs
  [bind_json]
  (fun fl args => CallVersion ).

(** cmd.go:97-131 *)
Definition templates : list template :=
  [all_template; compile_template; create_template; files_template; format_template; generate_template; grpc_template;
   descriptor_set_template; config_init_template; lint_template; version_template; cache_update_template;
   cache_delete_template; break_check_template; break_descriptor_set_template; inspect_packages_template;
   inspect_package_deps_template; inspect_package_importers_template].
(** cmd.go:98, 133-134: all commands share one set of variables, and --debug is for all *)
Definition initial_flags : flags :=
  fold_left bind_flag (concat (map t_flags templates) ++ [bind_debug])
    (mk_flags (fun _ => "") (fun _ => false) []).

(** exec.go:69-153, runner.go:70-112: the options of the runner.  The development mode is
    never on (cmd.go:50-52). *)
Record runner : Type := mk_runner {
  r_work_dir : string; r_cache_path : string; r_config_data : string; r_json : bool;
  r_protoc_bin_path : string; r_protoc_wkt_path : string; r_error_format : string; r_protoc_url : string;
  r_walk_timeout : Z
}.

(** strconv.ParseBool *)
Definition parse_bool (s : string) : result bool :=
  if mem s ["1"; "t"; "T"; "TRUE"; "true"; "True"] then Ok true
  else if mem s ["0"; "f"; "F"; "FALSE"; "false"; "False"] then Ok false
  else Err ("strconv.ParseBool: parsing " +++ quote s +++ ": invalid syntax").
(** Go's %q of a byte *)
Definition quote_byte (c : ascii) : string :=
  if Ascii.eqb c "'" then "'" +++ String backslash "''"
  else if Ascii.eqb c dquote then "'" +++ String dquote "'"
  else "'" +++ quote_char c +++ "'".
Definition line (s : string) : string := s +++ String newline "".

(** cobra's --help and -h *)
Definition help_flag : flag := mk_flag "help" (Some "h"%char) ToHelp "".
Definition lookup (name : string) (fs : list flag) : option flag := find (fun f => String.eqb (fl_name f) name) fs.
Definition lookup_short (c : ascii) (fs : list flag) : option flag :=
  find (fun f => match fl_short f with Some d => Ascii.eqb d c | None => false end) fs.
(** pflag's NoOptDefVal: a boolean flag needs no value *)
Definition takes_value (f : flag) : bool :=
  match fl_target f with ToString _ | ToHeaders => true | ToBool _ | ToHelp => false end.
(** strings.SplitN(name, "=", 2) *)
Fixpoint cut_equals (s : string) : string * option string :=
  match s with
  | EmptyString => ("", None)
  | String c r => if Ascii.eqb c "=" then ("", Some r) else let (a, b) := cut_equals r in (String c a, b)
  end.

(** What reading a command line has found so far: the variables, whether --header was
    given, whether help was asked for, and the arguments that are not flags. *)
Record parsed : Type := mk_parsed { p_flags : flags; p_header_set : bool; p_help : bool; p_args : list string }.

Section Cmd.
  (** runtime.GOOS, os.Getenv, os.Getwd, time.ParseDuration *)
  Variable goos : string.
  Variable getenv : string -> string.
  Variable getwd : result string.
  Variable parse_duration : string -> result Z.
  (** pflag's readAsCSV *)
  Variable read_csv : string -> result (list string).
  (** cobra's texts for the command with the given words *)
  Variable usage help : list string -> string.
  (** cobra's findSuggestions *)
  Variable suggestions : string -> string.
  (** what Command.Run of cobra's own command help prints *)
  Variable help_topic : list string -> string.
  (** The methods of the runner. *)
  Variable exec : runner -> call -> cmd unit.

  (** pflag: FlagSet.Set *)
  Definition set_flag (f : flag) (v : string) (p : parsed) : result parsed :=
    let bad m := Err ("invalid argument " +++ quote v +++ " for " +++
          quote (match fl_short f with Some c => "-" +++ String c ", " | None => "" end +++ "--" +++ fl_name f) +++ " flag: " +++ m) in
    match fl_target f with
    | ToHelp =>
        match parse_bool v with Ok b => Ok (mk_parsed (p_flags p) (p_header_set p) b (p_args p)) | Err m => bad m end
    | ToString g => Ok (mk_parsed (put_string g v (p_flags p)) (p_header_set p) (p_help p) (p_args p))
    | ToBool g =>
        match parse_bool v with
        | Ok b => Ok (mk_parsed (put_bool g b (p_flags p)) (p_header_set p) (p_help p) (p_args p))
        | Err m => bad m
        end
    | ToHeaders =>
        match read_csv v with
        | Ok l => Ok (mk_parsed (put_headers (if p_header_set p then fs_headers (p_flags p) ++ l else l) (p_flags p)) true (p_help p) (p_args p))
        | Err m => bad m
        end
    end.
  (** pflag: FlagSet.parseShortArg and parseSingleShortArg; [next] is the argument that
      follows, and the result says whether it was used *)
  Fixpoint parse_short (fs : list flag) (shorthands : string) (next : option string) (p : parsed) : result (parsed * bool) :=
    match shorthands with
    | EmptyString => Ok (p, false)
    | String c out =>
        if has_prefix shorthands "test." then Ok (p, false)
        else match lookup_short c fs with
        | None => Err ("unknown shorthand flag: " +++ quote_byte c +++ " in -" +++ shorthands)
        | Some f =>
            match out with
            | String "=" (String _ _ as v) => do p <- set_flag f v p; Ok (p, false)
            | _ =>
                if negb (takes_value f) then do p <- set_flag f "true" p; parse_short fs out next p
                else if negb (is_empty out) then do p <- set_flag f out p; Ok (p, false)
                else match next with
                | Some v => do p <- set_flag f v p; Ok (p, true)
                | None => Err ("flag needs an argument: " +++ quote_byte c +++ " in -" +++ shorthands)
                end
            end
        end
    end.
  Definition add_args (l : list string) (p : parsed) : parsed :=
    mk_parsed (p_flags p) (p_header_set p) (p_help p) (p_args p ++ l).
  (** pflag: FlagSet.parseArgs and parseLongArg *)
  Fixpoint parse_args (fs : list flag) (args : list string) (p : parsed) : result parsed :=
    match args with
    | [] => Ok p
    | s :: rest =>
        match s with
        | String "-" (String "-" EmptyString) => Ok (add_args rest p)
        | String "-" (String "-" body) =>
            match body with
            | String "-" _ | String "=" _ => Err ("bad flag syntax: " +++ s)
            | _ =>
                let (name, value) := cut_equals body in
                match lookup name fs with
                | None => Err ("unknown flag: --" +++ name)
                | Some f =>
                    match value with
                    | Some v => do p <- set_flag f v p; parse_args fs rest p
                    | None =>
                        if negb (takes_value f) then do p <- set_flag f "true" p; parse_args fs rest p
                        else match rest with
                        | v :: rest => do p <- set_flag f v p; parse_args fs rest p
                        | [] => Err ("flag needs an argument: " +++ s)
                        end
                    end
                end
            end
        | String "-" (String _ _ as shorthands) =>
            match rest with
            | [] => do r <- parse_short fs shorthands None p; Ok (fst r)
            | v :: rest' =>
                do r <- parse_short fs shorthands (Some v) p;
                if snd r then parse_args fs rest' (fst r) else parse_args fs rest (fst r)
            end
        | _ => parse_args fs rest (add_args [s] p)
        end
    end.

  (** cobra: the commands are the prefixes of the words of the templates, and help *)
  Fixpoint is_prefix (a b : list string) : bool :=
    match a, b with
    | [], _ => true
    | x :: a, y :: b => String.eqb x y && is_prefix a b
    | _ :: _, [] => false
    end.
  Definition list_eqb (a b : list string) : bool := is_prefix a b && is_prefix b a.
  Definition template_at (path : list string) : option template := find (fun t => list_eqb (t_words t) path) templates.
  Definition is_command (path : list string) : bool :=
    existsb (fun t => is_prefix path (t_words t)) templates || list_eqb path ["help"].
  (** The flags of a command, and --debug of the root. *)
  Definition flags_at (path : list string) : list flag :=
    match template_at path with Some t => t_flags t | None => [] end ++ [bind_debug].
  (** cobra: stripFlags, with hasNoOptDefVal and shortHasNoOptDefVal *)
  Definition eats_next (fs : list flag) (s : string) : bool :=
    negb (sexists (Ascii.eqb "=") s) &&
    match s with
    | String "-" (String "-" name) => negb (match lookup name fs with Some f => negb (takes_value f) | None => false end)
    | String "-" (String c EmptyString) => negb (match lookup_short c fs with Some f => negb (takes_value f) | None => false end)
    | _ => false
    end.
  Fixpoint strip_flags (fs : list flag) (args : list string) : list string :=
    match args with
    | [] => []
    | s :: rest =>
        if String.eqb s "--" then []
        else if eats_next fs s then
          match rest with [] | [_] => [] | _ :: rest' => strip_flags fs rest' end
        else if negb (is_empty s) && negb (has_prefix s "-") then s :: strip_flags fs rest
        else strip_flags fs rest
    end.
  (** cobra: argsMinusFirstX *)
  Fixpoint minus_first (args : list string) (x : string) : list string :=
    match args with
    | [] => []
    | y :: r => if String.eqb x y then r else y :: minus_first r x
    end.
  (** cobra: Command.Find; no command has more than three words *)
  Fixpoint find_command (depth : nat) (path args : list string) : list string * list string :=
    match depth with
    | 0 => (path, args)
    | S depth =>
        match strip_flags (flags_at path) args with
        | [] => (path, args)
        | next :: _ =>
            if is_command (path ++ [next]) then find_command depth (path ++ [next]) (minus_first args next)
            else (path, args)
        end
    end.
  Definition command_path (path : list string) : string := join " " ("prototool" :: path).
  Definition validate_args (path : list string) (r : arg_rule) (args : list string) : result unit :=
    let received := itoa (Z.of_nat (length args)) in
    match r with
    | NoArgs => match args with [] => Ok tt | a :: _ => Err ("unknown command " +++ quote a +++ " for " +++ quote (command_path path)) end
    | AtMost n => if length args <=? n then Ok tt else Err ("accepts at most " +++ itoa (Z.of_nat n) +++ " arg(s), received " +++ received)
    | AtLeast n => if n <=? length args then Ok tt else Err ("requires at least " +++ itoa (Z.of_nat n) +++ " arg(s), only received " +++ received)
    end.

  (** templates.go:587-673; exec.go:89-144 *)
  Definition or_env (flag : string) (variable : string) : string :=
    if negb (is_empty flag) then flag else getenv variable.
  Definition get_runner (fl : flags) : result runner :=
    do walk <- (if negb (is_empty (fs_string fl WalkTimeoutFlag)) then parse_duration (fs_string fl WalkTimeoutFlag) else Ok 0%Z);
    do dir <- getwd;
    Ok (mk_runner dir (or_env (fs_string fl CachePathFlag) "PROTOTOOL_CACHE_PATH") (fs_string fl ConfigDataFlag) (fs_bool fl JsonFlag)
          (or_env (fs_string fl ProtocBinPathFlag) "PROTOTOOL_PROTOC_BIN_PATH")
          (or_env (fs_string fl ProtocWKTPathFlag) "PROTOTOOL_PROTOC_WKT_PATH")
          (fs_string fl ErrorFormatFlag) (fs_string fl ProtocURLFlag) walk).
  (** templates.go:576-585 *)
  Definition check_cmd (fl : flags) (c : call) : cmd unit :=
    run r <- check (get_runner fl); exec r c.

  (** An error that cobra returns: it prints it, and then cmd.go:87-95 prints it again. *)
  Definition cobra_error (m extra : string) : io -> io * Z :=
    process (print (line ("Error: " +++ m) +++ extra) ;; @fail unit m).
  Definition shows_help (path : list string) : io -> io * Z := process (print (help path)).
  (** cobra: Command.execute; [path] is the command and [args] what is left for it *)
  Definition execute (path args : list string) : io -> io * Z :=
    match parse_args (flags_at path ++ [help_flag]) args (mk_parsed initial_flags false false []) with
    | Err m => cobra_error m (line (usage path))
    | Ok p =>
        if p_help p then shows_help path
        else match template_at path with
        | None =>
            if list_eqb path ["help"] then process (print (help_topic (p_args p)))
            else shows_help path
        | Some t =>
            match validate_args path (t_args t) (p_args p) with
            | Err m => cobra_error m (line (usage path))
            | Ok _ => process (check_cmd (p_flags p) (t_call t (p_flags p) (p_args p)))
            end
        end
    end.
  (** cobra: Command.ExecuteC, legacyArgs.  cmd.go:50-56, 87-95, 140-147. *)
  Definition prototool (args : list string) : io -> io * Z :=
    if negb (mem goos ["darwin"; "linux"]) then process (@fail unit (goos +++ " is not a supported operating system"))
    else
      let (path, rest) := find_command 4 [] args in
      match path, strip_flags (flags_at []) rest with
      | [], a :: _ =>
          cobra_error ("unknown command " +++ quote a +++ " for " +++ quote "prototool" +++ suggestions a)
            (line "Run 'prototool --help' for usage.")
      | _, _ => execute path rest
      end.
End Cmd.
