(** Model of internal/settings/config_provider.go: finding, validating and normalising
    configurations.  The file system, the decoders and exec.LookPath are parameters. *)
From Verif Require Export GoPath GoMap Strs_Model Settings_Types.
From Verif Require GoFmt.

(** settings.go:303-306, 310-313, 319-323, 335-344 *)
Record ext_package : Type := mk_ext_package { ep_directory : string; ep_name : string }.
Record ext_ignore : Type := mk_ext_ignore { ei_id : string; ei_files : list string }.
Record ext_header : Type := mk_ext_header { eh_path : string; eh_content : string; eh_is_commented : bool }.
Record ext_plugin : Type := mk_ext_plugin {
  xp_name : string;
  xp_type : string;
  xp_flags : string;
  xp_output : string;
  xp_path : string;
  xp_file_suffix : string;
  xp_include_imports : bool;
  xp_include_source_info : bool
}.
(** settings.go:294-347 (the nested anonymous structs are flattened) *)
Record external_config : Type := mk_external_config {
  x_excludes : list string;
  x_allow_unused_imports : bool;
  x_version : string;
  x_includes : list string;
  x_packages : list ext_package;
  x_group : string;
  x_ignores : list ext_ignore;
  x_no_default : bool;
  x_add : list string;
  x_remove : list string;
  x_header : ext_header;
  x_java_package_prefix : string;
  x_allow_suppression : bool;
  x_include_beta : bool;
  x_allow_beta_deps : bool;
  x_import_path : string;
  x_extra_modifiers : list (string * string);
  x_plugins : list ext_plugin
}.
(** The zero value ExternalConfig{}. *)
Definition empty_external : external_config :=
  mk_external_config [] false "" [] [] "" [] false [] [] (mk_ext_header "" "" false) "" false false false "" [] [].

(** settings.go:46-52 *)
Definition config_filenames : list string := ["prototool.yaml"; "prototool.json"].
(** settings.go:59-63, 107-113 *)
Definition parse_plugin_type (s : string) : result plugin_type :=
  if String.eqb (to_lower s) "" then Ok PluginNone
  else if String.eqb (to_lower s) "go" then Ok PluginGo
  else if String.eqb (to_lower s) "gogo" then Ok PluginGogo
  else Err ("could not parse " +++ s +++ " to a GenPluginType").
(** settings.go:65-74, 94-102: IsGo() || IsGogo() *)
Definition is_go_type (t : plugin_type) : bool :=
  match t with PluginNone => false | _ => true end.

(** The pattern "if !IsAbs(p) { p = Join(dir, p) }; p = Clean(p)" of
    config_provider.go:207-210, 217-220, 412-415. *)
Definition resolve (dir p : string) : string :=
  path_clean (if is_abs p then p else path_join [dir; p]).
(** config_provider.go:409-425 *)
Definition get_exclude_prefixes (excludes : list string) (dir : string) : result (list string) :=
  mapM (fun x =>
    let p := resolve dir x in
    if String.eqb p dir then Err ("cannot exclude directory of config file: " +++ dir)
    else if negb (has_prefix p dir) then
      Err ("cannot exclude directory outside of config file directory " +++ dir +++ ": " +++ p)
    else Ok p) (sort_uniq excludes).
(** config_provider.go:436-442 *)
Definition file_header_lines (content : string) : list string :=
  map trim_space (split_char newline (trim_space content)).
(** config_provider.go:301-310 *)
Definition comment_line (l : string) : string := if is_empty l then "//" else "// " +++ l.

Section Settings.
  (** os.Stat succeeds *)
  Variable exists_file : string -> bool.
  (** ioutil.ReadFile *)
  Variable read_file : string -> result string.
  (** config_provider.go:430-434 and yaml.UnmarshalStrict on a zero ExternalConfig *)
  Variable decode_json decode_yaml : string -> result external_config.
  (** exec.LookPath *)
  Variable look_path : string -> result string.
  (** sort.Slice by name (config_provider.go:268): not stable, so any function that
      sorts; see [sorts] in Settings_Spec. *)
  Variable sort_plugins : list gen_plugin -> list gen_plugin.
  Variable devel : bool.

  (** config_provider.go:444-451 *)
  Definition plugin_path (path : string) : result string :=
    if is_empty path then Ok "" else look_path path.
  (** config_provider.go:230-267: one plugin *)
  Definition convert_plugin (dir : string) (p : ext_plugin) : result gen_plugin :=
    do t <- parse_plugin_type (xp_type p);
    if is_empty (xp_output p) then Err ("output path required for plugin " +++ xp_name p)
    else
      do paths <-
        (if is_abs (xp_output p) then
           let abs := path_clean (xp_output p) in
           do rel <- path_rel dir abs; Ok (rel, abs)
         else Ok (xp_output p, path_clean (path_join [dir; xp_output p])));
      if has_prefix (xp_file_suffix p) "." then
        Err ("file_suffix begins with '.' but should not include the '.': " +++ xp_file_suffix p)
      else if negb (String.eqb (xp_name p) "descriptor_set") && xp_include_imports p then
        Err ("include_imports is only valid for the descriptor_set plugin but set on " +++ GoFmt.quote (xp_name p))
      else if negb (String.eqb (xp_name p) "descriptor_set") && xp_include_source_info p then
        Err ("include_source_info is only valid for the descriptor_set plugin but set on " +++ GoFmt.quote (xp_name p))
      else Ok (mk_gen_plugin (xp_name p) (plugin_path (xp_path p)) t (xp_flags p) (fst paths) (snd paths)
                 (xp_file_suffix p) (xp_include_imports p) (xp_include_source_info p)).
  (** config_provider.go:270-284: one entry of create.packages *)
  Definition convert_package (dir : string) (p : ext_package) : result (string * string) :=
    if is_empty (ep_directory p) then Err "directory for create package is empty"
    else if is_empty (ep_name p) then Err "name for create package is empty"
    else if is_abs (ep_directory p) then Err ("directory for create package must be relative: " +++ ep_directory p)
    else Ok (path_clean (path_join [dir; ep_directory p]), ep_name p).
  (** config_provider.go:214-227: the map built from lint.ignores *)
  Definition convert_ignores (dir : string) (is : list ext_ignore) : list (string * list string) :=
    fold_left (fun m i =>
      fold_left (fun m f =>
        let id := to_upper (ei_id i) in
        gput id (match gget id m with Some l => l | None => [] end ++ [resolve dir f]) m) (ei_files i) m) is [].
  (** config_provider.go:290-317 *)
  Definition convert_header (dir : string) (h : ext_header) : result string :=
    if is_empty (eh_path h) && is_empty (eh_content h) then Ok ""
    else if negb (is_empty (eh_path h)) && negb (is_empty (eh_content h)) then
      Err "must only specify either file header path or content"
    else
      do content <-
        (if negb (is_empty (eh_path h)) then
           if is_abs (eh_path h) then Err ("path for file header must be relative: " +++ eh_path h)
           else read_file (path_join [dir; eh_path h])
         else Ok (eh_content h));
      let lines := file_header_lines content in
      let lines := if eh_is_commented h then lines else map comment_line lines in
      let header := join (String newline EmptyString) lines in
      if is_empty header then Err "file header path or content specified but result was empty file header"
      else Ok header.
  (** config_provider.go:368-387: one plugin *)
  Definition validate_plugin (import_path : string) (p : gen_plugin) : result unit :=
    if has_prefix (gp_name p) "protoc-gen-" then
      Err ("plugin name provided was " +++ gp_name p +++ ", do not include the protoc-gen- prefix")
    else if is_go_type (gp_type p) && is_empty import_path then
      Err ("go plugin " +++ gp_name p +++ " specified but no import path provided")
    else Ok tt.
  (** config_provider.go:200-392.  Simplification: a nil map and an empty map are the
      same (lines 286-289). *)
  Definition external_config_to_config (e : external_config) (dir : string) : result config :=
    do excludes <- get_exclude_prefixes (x_excludes e) dir;
    let includes := map (resolve dir) (sort_uniq (x_includes e)) in
    let ignores := convert_ignores dir (x_ignores e) in
    do plugins <- mapM (convert_plugin dir) (x_plugins e);
    let plugins := sort_plugins plugins in
    do packages <- mapM (convert_package dir) (x_packages e);
    do header <- convert_header dir (x_header e);
    if negb devel && x_allow_suppression e then
      Err "allow_suppression is not allowed outside of internal prototool tests"
    else
      let add := sort_uniq_modify to_upper (x_add e) in
      let remove := sort_uniq_modify to_upper (x_remove e) in
      do _ <- mapM (validate_plugin (x_import_path e)) plugins;
      match intersection add remove with
      | (_ :: _) as both =>
          Err ("config had intersection of [" +++ join " " both +++ "] between lint_include and lint_exclude")
      | [] =>
          Ok (mk_config dir excludes
                (mk_compile_config (x_version e) includes true (x_allow_unused_imports e))
                (mk_create_config (build packages))
                (mk_lint_config (to_lower (x_group e)) (x_no_default e) add remove ignores header
                   (x_java_package_prefix e) (x_allow_suppression e))
                (mk_break_config (x_include_beta e) (x_allow_beta_deps e))
                (mk_gen_config (x_import_path e) (x_extra_modifiers e) plugins))
      end.

  (** config_provider.go:139-155 *)
  Definition get_single_file_path_for_dir (dir : string) : result string :=
    match filter exists_file (map (fun f => path_join [dir; f]) config_filenames) with
    | [] => Ok ""
    | [p] => Ok p
    | ps => Err ("multiple configuration files in the same directory: [" +++ join " " ps +++ "]")
    end.
  (** config_provider.go:120-134.  The loop has no bound; every filepath.Dir of a clean
      absolute path other than the root is shorter, so the length of the path is enough
      (proved: the loop never runs out). *)
  Fixpoint file_path_loop (fuel : nat) (dir : string) : result string :=
    match fuel with
    | 0 => Err "out of fuel"
    | S fuel =>
        do p <- get_single_file_path_for_dir dir;
        if negb (is_empty p) then Ok p
        else if String.eqb dir "/" then Ok ""
        else file_path_loop fuel (path_dir dir)
    end.
  (** config_provider.go:65-70 *)
  Definition get_file_path_for_dir (dir : string) : result string :=
    if negb (is_abs dir) then Err (dir +++ " is not an absolute path")
    else let d := path_clean dir in file_path_loop (S (String.length d)) d.

  (** config_provider.go:172-195 *)
  Definition get_external_config (file : string) : result external_config :=
    do data <- read_file file;
    if is_empty data then Ok empty_external
    else if String.eqb (path_ext file) ".json" then decode_json data
    else if String.eqb (path_ext file) ".yaml" then decode_yaml data
    else Err ("unknown config file extension, must be .json or .yaml: " +++ file).
  (** config_provider.go:72-78, 160-166 *)
  Definition get_for_file (file : string) : result config :=
    if negb (is_abs file) then Err (file +++ " is not an absolute path")
    else
      let file := path_clean file in
      do e <- get_external_config file;
      external_config_to_config e (path_dir file).
  (** config_provider.go:54-63, 168-170 *)
  Definition get_for_dir (dir : string) : result config :=
    do file <- get_file_path_for_dir dir;
    if is_empty file then external_config_to_config empty_external dir
    else get_for_file file.
  (** config_provider.go:80-90 *)
  Definition get_for_data (dir data : string) : result config :=
    if negb (is_abs dir) then Err (dir +++ " is not an absolute path")
    else do e <- decode_json data; external_config_to_config e (path_clean dir).
  (** config_provider.go:92-98, 394-407 *)
  Definition get_exclude_prefixes_for_dir (dir : string) : result (list string) :=
    if negb (is_abs dir) then Err (dir +++ " is not an absolute path")
    else
      let dir := path_clean dir in
      do file <- get_single_file_path_for_dir dir;
      if is_empty file then Ok []
      else do e <- get_external_config file; get_exclude_prefixes (x_excludes e) dir.
  (** config_provider.go:100-110 *)
  Definition get_exclude_prefixes_for_data (dir data : string) : result (list string) :=
    if negb (is_abs dir) then Err (dir +++ " is not an absolute path")
    else do e <- decode_json data; get_exclude_prefixes (x_excludes e) (path_clean dir).
End Settings.
