(** Configuration and file set types. *)
From Verif Require Export GoStr.

(** internal/settings/settings.go:151-164 *)
Record compile_config : Type := mk_compile_config {
  cc_protobuf_version : string;
  cc_include_paths : list string;
  cc_include_wkt : bool;
  cc_allow_unused_imports : bool
}.
(** internal/settings/settings.go:167-171: the map DirPathToBasePackage. *)
Record create_config : Type := mk_create_config { cr_dir_to_base : list (string * string) }.
(** internal/settings/settings.go:174-212 *)
Record lint_config : Type := mk_lint_config {
  lc_group : string;
  lc_no_default : bool;
  lc_include_ids : list string;
  lc_exclude_ids : list string;
  lc_ignores : list (string * list string);
  lc_file_header : string;
  lc_java_package_prefix : string;
  lc_allow_suppression : bool
}.
(** internal/settings/settings.go:215-221 *)
Record break_config : Type := mk_break_config { bc_include_beta : bool; bc_allow_beta_deps : bool }.

(** internal/settings/settings.go:60-78 *)
Inductive plugin_type : Type := PluginNone | PluginGo | PluginGogo.
(** internal/settings/settings.go:243-289.  Simplification: GetPath, a function,
    is the path it returns (or the error). *)
Record gen_plugin : Type := mk_gen_plugin {
  gp_name : string;
  gp_path : result string;
  gp_type : plugin_type;
  gp_flags : string;
  gp_output_rel : string;
  gp_output_abs : string;
  gp_file_suffix : string;
  gp_include_imports : bool;
  gp_include_source_info : bool
}.
(** internal/settings/settings.go:224-241 *)
Record gen_config : Type := mk_gen_config {
  gc_import_path : string;
  gc_extra_modifiers : list (string * string);
  gc_plugins : list gen_plugin
}.
(** internal/settings/settings.go:127-148 *)
Record config : Type := mk_config {
  cfg_dir : string;
  cfg_exclude_prefixes : list string;
  cfg_compile : compile_config;
  cfg_create : create_config;
  cfg_lint : lint_config;
  cfg_break : break_config;
  cfg_gen : gen_config
}.

(** internal/file/file.go:62-71 *)
Record proto_file : Type := mk_proto_file { pf_path : string; pf_display : string }.
(** internal/file/file.go:37-59: DirPathToFiles is a Go map. *)
Record proto_set : Type := mk_proto_set {
  ps_work_dir : string;
  ps_dir : string;
  ps_files : list (string * list proto_file);
  ps_config : config
}.
