(** Model of internal/protoc/compiler.go: the protoc commands, running them and reading
    what they print.

    Simplifications.
    - The operating system is Linux.
    - What protoc, the file system and the downloader answer are arguments.
    - Logging is left out.
    - Regular expressions work on bytes, see GoRegexp.  *)
From Verif Require Export GoStr GoMap GoPath GoSlice GoRegexp Settings_Types Settings_Model Text_Model Strs_Model.
From Verif Require Import Lint_Model.

(** ** What protoc prints *)
(** strconv.Atoi *)
Definition max_int : Z := 9223372036854775807%Z.
Definition atoi (s : string) : option Z :=
  let '(neg, digits) :=
    match s with
    | String c r => if Ascii.eqb c "-" then (true, r) else if Ascii.eqb c "+" then (false, r) else (false, s)
    | EmptyString => (false, s)
    end in
  match parse_uint digits with
  | None => None
  | Some n =>
      let z := Z.of_N n in
      if neg then if (z <=? max_int + 1)%Z then Some (- z)%Z else None
      else if (z <=? max_int)%Z then Some z else None
  end.

(** compiler.go:48-78: the expressions *)
Definition grp (is : list item) : list item := Open :: is ++ [Close].
Definition plugin_failed_re : regexp :=
  mk_regexp true ([Lit "--"; Dots; Lit "_out: protoc-gen-"] ++ grp [Dots] ++ [Lit ": Plugin failed with status code "] ++ grp [Dots] ++ [Dot; End]).
Definition other_plugin_failure_re : regexp :=
  mk_regexp true ([Lit "--"] ++ grp [Dots] ++ [Lit "_out: "] ++ grp [Dots] ++ [End]).
Definition full_plugin_failed_re : regexp :=
  mk_regexp false (grp [Dots] ++ [Lit "--"; Dots; Lit "_out: protoc-gen-"] ++ grp [Dots] ++ [Lit ": Plugin failed with status code "] ++ grp [Dots] ++ [Dot; End]).
(** The beginning of compiler.go:58, 60, 64, 74: a file, a line and a column *)
Definition position_items : list item :=
  grp [Dots] ++ [Lit ":"] ++ grp [Nums] ++ [Lit ":"] ++ grp [Nums] ++ [Lit ": "].
Definition extra_import_3110_re : regexp :=
  mk_regexp true (position_items ++ [Lit "warning: Import "] ++ grp [Dots] ++ [Lit " is unused"; Dot; End]).
Definition extra_import_380_re : regexp :=
  mk_regexp true (position_items ++ [Lit "warning: Import "] ++ grp [Dots] ++ [Lit " but not used"; Dot; End]).
Definition extra_import_re : regexp :=
  mk_regexp true (grp [Dots] ++ [Lit ": warning: Import "] ++ grp [Dots] ++ [Lit " but not used"; Dot; End]).
Definition recursive_import_380_re : regexp :=
  mk_regexp true (position_items ++ [Lit "File recursively imports itself: "] ++ grp [Dots] ++ [End]).
Definition recursive_import_re : regexp :=
  mk_regexp true (grp [Dots] ++ [Lit ": File recursively imports itself: "] ++ grp [Dots] ++ [End]).
Definition directory_does_not_exist_re : regexp :=
  mk_regexp true (grp [Dots] ++ [Lit ": warning: directory does not exist"; Dot; End]).
Definition file_not_found_re : regexp :=
  mk_regexp true (grp [Dots] ++ [Lit ": File not found"; Dot; End]).
Definition import_not_found_re : regexp :=
  mk_regexp true (grp [Dots] ++ [Lit ": Import "] ++ grp [Dots] ++ [Lit " was not found or had errors"; Dot; End]).
Definition no_syntax_specified_re : regexp :=
  mk_regexp false ([Lit "No syntax specified for the proto file: "] ++ grp [Dots] ++ [Lit ". Please use"]).
Definition json_camel_case_380_re : regexp :=
  mk_regexp true (position_items ++ grp [Lit "The JSON camel-case name of field"; Dots] ++ [End]).
Definition json_camel_case_re : regexp :=
  mk_regexp true (grp [Dots] ++ [Lit ": "] ++ grp [Lit "The JSON camel-case name of field"; Dots] ++ [End]).
Definition is_not_defined_re : regexp :=
  mk_regexp true (grp [Dots] ++ [Lit ": "] ++ grp [Dots] ++ [Lit " is not defined"; Dot; End]).
Definition quote : string := String dquote EmptyString.
Definition seems_to_be_defined_re : regexp :=
  mk_regexp true (grp [Dots] ++ [Lit ": "] ++
    grp [Lit quote; Dots; Lit (quote +++ " seems to be defined in " +++ quote); Dots;
         Lit (quote +++ ", which is not imported by " +++ quote); Dots; Lit quote; Dot;
         Lit " To use it here, please add the necessary import"; Dot] ++ [End]).
Definition explicit_default_re : regexp :=
  mk_regexp true (grp [Dots] ++ [Lit ": Explicit default values are not allowed in proto3"; Dot; End]).
Definition option_value_re : regexp :=
  mk_regexp true (grp [Dots] ++ [Lit ": Error while parsing option value for "] ++ grp [Dots] ++ [End]).
Definition program_not_found_re : regexp :=
  mk_regexp false ([Lit "protoc-gen-"] ++ grp [Dots] ++ [Lit ": program not found or is not executable"; End]).
Definition first_enum_value_re : regexp :=
  mk_regexp true (grp [Dots] ++ [Lit ": The first enum value must be zero in proto3"; Dot; End]).

Section Output.
  (** cmdMeta.protoFiles *)
  Variable files : list proto_file.
  (** protoSet.Config.Compile.AllowUnusedImports *)
  Variable allow_unused : bool.

  (** compiler.go:861-878 *)
  Fixpoint display_loop (matching : string) (fs : list proto_file) (name : string) : result string :=
    match fs with
    | [] => if is_empty matching then Err ("no matching file for " +++ name) else Ok matching
    | f :: r =>
        if has_suffix (pf_display f) name then
          if is_empty matching then display_loop (pf_display f) r name
          else Err ("duplicate matching file: " +++ matching)
        else display_loop matching r name
    end.
  Definition get_display_file_path (name : string) : result string := display_loop "" files name.
  (** compiler.go:851-857 *)
  Definition best_file_path (name : string) : string :=
    match get_display_file_path name with Ok d => d | Err _ => name end.
  (** compiler.go:833-839 *)
  Definition uninterpreted (line : string) : failure := mk_failure "" 0 0 "" line.
  Definition plain (file message : string) : failure := mk_failure (best_file_path file) 0 0 "" message.
  Definition unplaced (message : string) : failure := mk_failure "" 0 0 "" message.
  (** The pattern of compiler.go:665-679, 685-699, 710-724, 755-769: the failure at the
      position that was matched *)
  Definition placed (line file l c message : string) : failure :=
    match atoi l with
    | None => uninterpreted line
    | Some l =>
        match atoi c with
        | None => uninterpreted line
        | Some c => mk_failure (best_file_path file) l c "" message
        end
    end.
  (** The answer for a line: nothing matched, or a failure, or nil. *)
  Definition tried : Type := option (option failure).
  Definition try (re : regexp) (line : string) (f : list string -> option failure) (next : tried) : tried :=
    match re_find re line with Some g => Some (f g) | None => next end.
  Definition unused (name : string) : string := "Import " +++ quote +++ name +++ quote +++ " was not used.".
  Definition allowed (f : failure) : option failure := if allow_unused then None else Some f.
  Definition at_0 (g : list string) : string := nth 0 g "".
  Definition at_1 (g : list string) : string := nth 1 g "".
  Definition at_2 (g : list string) : string := nth 2 g "".
  Definition at_3 (g : list string) : string := nth 3 g "".

  (** compiler.go:653-812: the lines that do not have four parts *)
  Definition parse_known (line : string) : tried :=
    try no_syntax_specified_re line (fun g =>
      Some (plain (at_0 g) ("No syntax specified. Please use 'syntax = " +++ quote +++ "proto2" +++ quote +++ ";' or 'syntax = " +++ quote +++ "proto3" +++ quote +++ ";' to specify a syntax version.")))
    (try extra_import_3110_re line (fun g => allowed (placed line (at_0 g) (at_1 g) (at_2 g) (unused (at_3 g))))
    (try extra_import_380_re line (fun g => allowed (placed line (at_0 g) (at_1 g) (at_2 g) (unused (at_3 g))))
    (try extra_import_re line (fun g => allowed (plain (at_0 g) (unused (at_1 g))))
    (try recursive_import_380_re line (fun g => Some (placed line (at_0 g) (at_1 g) (at_2 g) ("File recursively imports itself " +++ at_3 g +++ ".")))
    (try recursive_import_re line (fun g => Some (plain (at_0 g) ("File recursively imports itself " +++ at_1 g +++ ".")))
    (try directory_does_not_exist_re line (fun g => Some (unplaced ("Directory " +++ quote +++ at_0 g +++ quote +++ " does not exist.")))
    (try file_not_found_re line (fun g => Some (unplaced ("Import " +++ quote +++ at_0 g +++ quote +++ " was not found.")))
    (try explicit_default_re line (fun g => Some (plain (at_0 g) "Explicit default values are not allowed in proto3."))
    (try import_not_found_re line (fun g => None)
    (try json_camel_case_380_re line (fun g => Some (placed line (at_0 g) (at_1 g) (at_2 g) (at_3 g)))
    (try json_camel_case_re line (fun g => Some (plain (at_0 g) (at_1 g)))
    (try is_not_defined_re line (fun g => Some (plain (at_0 g) (at_1 g +++ " is not defined.")))
    (try seems_to_be_defined_re line (fun g => Some (plain (at_0 g) (at_1 g)))
    (try option_value_re line (fun g => Some (plain (at_0 g) ("Error while parsing option value for " +++ at_1 g)))
    (try program_not_found_re line (fun g => Some (unplaced ("protoc-gen-" +++ at_0 g +++ " not found or is not executable.")))
    (try first_enum_value_re line (fun g => Some (plain (at_0 g) "The first enum value must be zero in proto3."))
      None)))))))))))))))).
  (** compiler.go:636-831 *)
  Definition parse_line (line : string) : option failure :=
    match
      try plugin_failed_re line (fun g => Some (unplaced ("protoc-gen-" +++ at_0 g +++ " failed with status code " +++ at_1 g +++ ".")))
      (try other_plugin_failure_re line (fun g => Some (unplaced ("protoc-gen-" +++ at_0 g +++ ": " +++ at_1 g)))
      (try full_plugin_failed_re line (fun g => Some (unplaced ("protoc-gen-" +++ at_1 g +++ " failed with status code " +++ at_2 g +++ ": " +++ at_0 g)))
        None))
    with
    | Some a => a
    | None =>
        match split_char ":" line with
        | [file; l; c; message] =>
            match atoi l with
            | None => Some (uninterpreted line)
            | Some l =>
                match atoi c with
                | None => Some (uninterpreted line)
                | Some c =>
                    let message := trim_space message in
                    if is_empty message then Some (uninterpreted line)
                    else Some (mk_failure (best_file_path file) l c "" message)
                end
            end
        | _ => match parse_known line with Some a => a | None => Some (uninterpreted line) end
        end
    end.
  (** compiler.go:623-634 *)
  Fixpoint parse_lines (lines : list string) : list failure :=
    match lines with
    | [] => []
    | line :: r =>
        let line := trim_space line in
        if is_empty line then parse_lines r
        else match parse_line line with None => parse_lines r | Some f => f :: parse_lines r end
    end.
  Definition parse_output (output : string) : list failure :=
    parse_lines (split_char newline (trim_space output)).
End Output.

(** ** The commands *)
(** wkt.go:46-59 *)
Definition wkt_go_modifiers : list (string * string) :=
  [("google/protobuf/any.proto", "github.com/golang/protobuf/ptypes/any");
   ("google/protobuf/api.proto", "google.golang.org/genproto/protobuf/api");
   ("google/protobuf/compiler/plugin.proto", "github.com/golang/protobuf/protoc-gen-go/plugin");
   ("google/protobuf/descriptor.proto", "github.com/golang/protobuf/protoc-gen-go/descriptor");
   ("google/protobuf/duration.proto", "github.com/golang/protobuf/ptypes/duration");
   ("google/protobuf/empty.proto", "github.com/golang/protobuf/ptypes/empty");
   ("google/protobuf/field_mask.proto", "google.golang.org/genproto/protobuf/field_mask");
   ("google/protobuf/source_context.proto", "google.golang.org/genproto/protobuf/source_context");
   ("google/protobuf/struct.proto", "github.com/golang/protobuf/ptypes/struct");
   ("google/protobuf/timestamp.proto", "github.com/golang/protobuf/ptypes/timestamp");
   ("google/protobuf/type.proto", "google.golang.org/genproto/protobuf/ptype");
   ("google/protobuf/wrappers.proto", "github.com/golang/protobuf/ptypes/wrappers")].
(** wkt.go:62-75 *)
Definition wkt_gogo_modifiers : list (string * string) :=
  [("google/protobuf/any.proto", "github.com/gogo/protobuf/types");
   ("google/protobuf/api.proto", "google.golang.org/genproto/protobuf/api");
   ("google/protobuf/compiler/plugin.proto", "github.com/gogo/protobuf/protoc-gen-gogo/plugin");
   ("google/protobuf/descriptor.proto", "github.com/gogo/protobuf/protoc-gen-gogo/descriptor");
   ("google/protobuf/duration.proto", "github.com/gogo/protobuf/types");
   ("google/protobuf/empty.proto", "github.com/gogo/protobuf/types");
   ("google/protobuf/field_mask.proto", "github.com/gogo/protobuf/types");
   ("google/protobuf/source_context.proto", "google.golang.org/genproto/protobuf/source_context");
   ("google/protobuf/struct.proto", "github.com/gogo/protobuf/types");
   ("google/protobuf/timestamp.proto", "github.com/gogo/protobuf/types");
   ("google/protobuf/type.proto", "google.golang.org/genproto/protobuf/ptype");
   ("google/protobuf/wrappers.proto", "github.com/gogo/protobuf/types")].

(** compiler.go:585-619 *)
Definition get_includes (wkt_path : result string) (c : config) (dir config_dir : string) : result (list string) :=
  let paths := cc_include_paths (cfg_compile c) in
  let in_path := existsb (fun p => has_prefix dir p) paths in
  let has_config := existsb (fun p => String.eqb p config_dir) paths in
  do wkt <-
    (if cc_include_wkt (cfg_compile c) then do p <- wkt_path; Ok [p] else Ok []);
  let in_path := in_path || existsb (fun p => has_prefix dir p) wkt in
  Ok (paths ++ wkt ++ (if negb in_path && negb has_config then [config_dir] else [])).
(** compiler.go:510-526 *)
Definition get_rel_output_file_path (set : proto_set) (dir suffix : string) : result string :=
  let config_dir := cfg_dir (ps_config set) in
  match path_rel config_dir dir with
  | Err m => Err ("could not find relative path for " +++ quote +++ dir +++ quote +++ " to " +++ quote +++ config_dir +++ quote +++ ", this is a system error, please file a bug at github.com/uber/prototool/issues/new: " +++ m)
  | Ok rel =>
      let base :=
        if is_empty rel || String.eqb rel "." then
          if String.eqb config_dir "/" then "default" else path_base config_dir
        else path_base rel in
      Ok (path_join [rel; base +++ "." +++ suffix])
  end.
(** compiler.go:565, 576, 580 *)
Definition modifier (m : string * string) : string := "M" +++ fst m +++ "=" +++ snd m.

Section Commands.
  (** The orders in which maps are ranged over; the first argument names the loop. *)
  Variable ord : order.
  (** How append grows a slice. *)
  Variable grow : nat -> nat -> nat.
  (** Download, WellKnownTypesIncludePath and ProtocPath of the downloader, and
      newDownloader; see Download_Model. *)
  Variable new_downloader download : result unit.
  Variable wkt_path protoc_path : result string.
  (** The answer of the n-th call of ioutil.TempFile. *)
  Variable temp_file : nat -> result string.
  (** compiler.go:80-91 *)
  Variable do_gen do_set full_control include_imports include_source_info : bool.
  Variable set : proto_set.

  (** compiler.go:552-561, one file: the map entry *)
  Definition file_modifier (p : gen_plugin) (f : proto_file) : string * string :=
    let path := match path_rel (cfg_dir (ps_config set)) (pf_path f) with Ok r => r | Err _ => pf_path f end in
    (path, path_clean (path_join [gc_import_path (cfg_gen (ps_config set)); gp_output_rel p; path_dir path])).
  (** compiler.go:531-583.  IsGo and IsGogo cannot both hold. *)
  Definition get_proto_flags (dir : string) (p : gen_plugin) : string :=
    let loop s := s +++ " " +++ dir +++ " " +++ gp_name p in
    match gp_type p with
    | PluginNone => gp_flags p
    | t =>
        let flags := if is_empty (gp_flags p) then [] else [gp_flags p] in
        let others := filter (fun d => negb (String.eqb (fst d) dir)) (ord (loop "directories") _ (ps_files set)) in
        let modifiers := build (map (file_modifier p) (concat (map snd others))) in
        let wkt :=
          if cc_include_wkt (cfg_compile (ps_config set)) then
            match t with PluginGogo => wkt_gogo_modifiers | _ => wkt_go_modifiers end
          else [] in
        join "," (flags ++ map modifier (ord (loop "modifiers") _ modifiers)
                  ++ map modifier (ord (loop "wkt") _ wkt)
                  ++ map modifier (ord (loop "extra") _ (gc_extra_modifiers (cfg_gen (ps_config set)))))
    end.
  (** compiler.go:477-508 *)
  Definition get_plugin_flag_set (dir : string) (p : gen_plugin) : result (list string) :=
    let proto_flags := get_proto_flags dir p in
    do out <-
      (if is_empty (gp_file_suffix p) then Ok (gp_output_abs p)
       else do rel <- get_rel_output_file_path set dir (gp_file_suffix p);
            Ok (path_join [gp_output_abs p; rel]));
    let flag :=
      if is_empty proto_flags then "--" +++ gp_name p +++ "_out=" +++ out
      else "--" +++ gp_name p +++ "_out=" +++ proto_flags +++ ":" +++ out in
    do path <- gp_path p;
    Ok ([flag]
        ++ (if is_empty path then [] else ["--plugin=protoc-gen-" +++ gp_name p +++ "=" +++ path])
        ++ (if gp_include_imports p then ["--include_imports"] else [])
        ++ (if gp_include_source_info p then ["--include_source_info"] else [])).
  (** compiler.go:461-475 *)
  Definition get_plugin_flag_sets (dir : string) : result (list (list string)) :=
    if negb do_gen then Ok [] else mapM (get_plugin_flag_set dir) (gc_plugins (cfg_gen (ps_config set))).

  (** What a call does, in order: make a temporary file, make a directory, run protoc,
      read a temporary file, remove a temporary file. *)
  Inductive event : Type :=
  | MadeTemp (f : string)
  | MadeDir (d : string)
  | Ran (args : list string)
  | ReadTemp (f : string)
  | RemovedTemp (f : string).
  Record state : Type := mk_state { st_heap : heap; st_temps : nat; st_events : list event }.
  Definition state_0 : state := mk_state [] 0 [].
  Definition emit (e : list event) (s : state) : state := mk_state (st_heap s) (st_temps s) (st_events s ++ e).
  Definition st_append (s : state) (a : slice) (xs : list string) : state * slice :=
    let '(h, b) := sl_append grow (st_heap s) a xs in (mk_state h (st_temps s) (st_events s), b).
  (** compiler.go:925-931; execCmd.Args, which exec.Command copies *)
  Record cmd_meta : Type := mk_cmd_meta {
    cm_args : list string;
    cm_dir : string;
    cm_files : list proto_file;
    cm_temp : string
  }.
  (** exec.Command(name, args...) *)
  Definition command (s : state) (name : string) (args : slice) : list string :=
    name :: sl_elements (st_heap s) args.
  (** compiler.go:377-379, 396-398 *)
  Fixpoint append_files (s : state) (a : slice) (fs : list proto_file) : state * slice :=
    match fs with
    | [] => (s, a)
    | f :: r => let '(s, a) := st_append s a [pf_path f] in append_files s a r
    end.
  (** compiler.go:340-343 *)
  Fixpoint append_includes (s : state) (a : slice) (is : list string) : state * slice :=
    match is with
    | [] => (s, a)
    | i :: r => let '(s, a) := st_append s a ["-I"; i] in append_includes s a r
    end.
  (** compiler.go:442-455, 900-917 *)
  Definition get_descriptor_set_file_path (s : state) : state * result (string * bool) :=
    if do_set then
      let n := st_temps s in
      let s := mk_state (st_heap s) (S n) (st_events s) in
      match temp_file n with
      | Ok f => (emit [MadeTemp f] s, Ok (f, true))
      | Err m => (s, Err m)
      end
    else if do_gen && negb (match gc_plugins (cfg_gen (ps_config set)) with [] => true | _ => false end) then
      (s, Ok ("", false))
    else (s, Ok ("/dev/null", false)).
  (** compiler.go:394-405 *)
  Fixpoint plugin_cmds (s : state) (protoc dir : string) (files : list proto_file) (args : slice) (flags : list (list string)) (acc : list cmd_meta)
      : state * list cmd_meta :=
    match flags with
    | [] => (s, acc)
    | fl :: r =>
        let '(s, i_args) := st_append s args fl in
        let '(s, i_args) := append_files s i_args files in
        plugin_cmds s protoc dir files args r (acc ++ [mk_cmd_meta (command s protoc i_args) dir files ""])
    end.
  (** compiler.go:332-405: one directory *)
  Definition dir_cmds (s : state) (acc : list cmd_meta) (dir : string) (files : list proto_file)
      : state * list cmd_meta * option string :=
    let config_dir := if is_empty (cfg_dir (ps_config set)) then ps_work_dir set else cfg_dir (ps_config set) in
    match get_includes wkt_path (ps_config set) dir config_dir with
    | Err m => (s, acc, Some m)
    | Ok includes =>
        let '(s, args) := append_includes s nil_slice includes in
        match protoc_path with
        | Err m => (s, acc, Some m)
        | Ok protoc =>
            match get_descriptor_set_file_path s with
            | (s, Err m) => (s, acc, Some m)
            | (s, Ok (path, is_temp)) =>
                let '(s, acc) :=
                  if is_empty path then (s, acc)
                  else
                    let temp := if is_temp then path else "" in
                    let '(s, i_args) := st_append s args ["-o"; path] in
                    let '(s, i_args) :=
                      if is_empty temp then (s, i_args)
                      else
                        let '(s, i_args) :=
                          if negb full_control || include_imports then st_append s i_args ["--include_imports"] else (s, i_args) in
                        if include_source_info then st_append s i_args ["--include_source_info"] else (s, i_args) in
                    let '(s, i_args) := append_files s i_args files in
                    (s, acc ++ [mk_cmd_meta (command s protoc i_args) dir files temp]) in
                match get_plugin_flag_sets dir with
                | Err m => (s, acc, Some m)
                | Ok flags => let '(s, acc) := plugin_cmds s protoc dir files args flags acc in (s, acc, None)
                end
            end
        end
    end.
  (** compiler.go:316-406 *)
  Fixpoint dirs_cmds (s : state) (acc : list cmd_meta) (dirs : list (string * list proto_file))
      : state * list cmd_meta * option string :=
    match dirs with
    | [] => (s, acc, None)
    | (dir, files) :: r =>
        if negb (has_prefix dir (ps_dir set)) then dirs_cmds s acc r
        else
          match dir_cmds s acc dir files with
          | (s, acc, Some m) => (s, acc, Some m)
          | (s, acc, None) => dirs_cmds s acc r
          end
    end.
  (** compiler.go:919-923, 937-945 *)
  Definition clean_cmd_metas (ms : list cmd_meta) (s : state) : state :=
    emit (concat (map (fun m => if is_empty (cm_temp m) then [] else [RemovedTemp (cm_temp m)]) ms)) s.
  (** compiler.go:299-408 *)
  Definition get_cmd_metas (s : state) : state * result (list cmd_meta) :=
    match new_downloader with
    | Err m => (s, Err m)
    | Ok _ =>
        match download with
        | Err m => (s, Err m)
        | Ok _ =>
            match dirs_cmds s [] (ord "getCmdMetas" _ (ps_files set)) with
            | (s, ms, Some m) => (clean_cmd_metas ms s, Err m)
            | (s, ms, None) => (s, Ok ms)
            end
        end
    end.
  (** compiler.go:189-204 *)
  Definition protoc_commands (s : state) : state * result (list string) :=
    match get_cmd_metas s with
    | (s, Err m) => (s, Err m)
    | (s, Ok ms) => (clean_cmd_metas ms s, Ok (map (fun m => join " " (cm_args m)) ms))
    end.

  (** ** Running them *)
  (** os.MkdirAll; Some is an error *)
  Variable mkdir_all : string -> option string.
  (** compiler.go:208-228: the directories of one plugin *)
  Definition plugin_gen_dirs (p : gen_plugin) : result (list string) :=
    if is_empty (gp_file_suffix p) then Ok [gp_output_abs p]
    else
      mapM (fun d =>
        do rel <- get_rel_output_file_path set (fst d) (gp_file_suffix p);
        Ok (path_dir (path_join [gp_output_abs p; rel])))
        (filter (fun d => has_prefix (fst d) (ps_dir set)) (ord ("makeGenDirs " +++ gp_name p) _ (ps_files set))).
  (** compiler.go:229-238 *)
  Fixpoint make_dirs (s : state) (ds : list string) : state * option string :=
    match ds with
    | [] => (s, None)
    | d :: r =>
        match mkdir_all d with
        | Some m => (s, Some m)
        | None => make_dirs (emit [MadeDir d] s) r
        end
    end.
  (** compiler.go:206-240 *)
  Definition make_gen_dirs (s : state) : state * option string :=
    match mapM plugin_gen_dirs (gc_plugins (cfg_gen (ps_config set))) with
    | Err m => (s, Some m)
    | Ok dss => make_dirs s (ord "genDirs" _ (dedup (concat dss)))
    end.

  (** How a run of protoc ends: by itself, with what it wrote to its standard error and
      the error of Run, if any, which is an ExitError or another one; or because of a
      signal, with the error of Kill, if any; without a process Kill panics. *)
  Inductive run_error : Type := NoError | ExitError (m : string) | OtherError (m : string).
  Inductive outcome : Type :=
  | Ended (stderr : string) (e : run_error)
  | Signalled (kill_error : option string)
  | SignalledEarly.
  (** What runCmdMeta returns; it may also panic. *)
  Inductive returned : Type :=
  | Returned (fs : list failure) (e : option string)
  | Panics.
  (** compiler.go:242-297 *)
  Definition run_cmd_meta (m : cmd_meta) (o : outcome) : returned :=
    match o with
    | Signalled e => Returned [] e
    | SignalledEarly => Panics
    | Ended stderr (OtherError e) => Returned [] (Some e)
    | Ended stderr e =>
        let output := trim_space stderr in
        let fs := parse_output (cm_files m) (cc_allow_unused_imports (cfg_compile (ps_config set))) output in
        match fs, e with
        | [], ExitError e => Returned [] (Some e)
        | fs, _ => Returned fs None
        end
    end.
  (** The file descriptor sets, as they are in the files that protoc writes. *)
  Variable fds : Type.
  (** ioutil.ReadFile and proto.Unmarshal *)
  Variable read_set : string -> result fds.
  (** How protoc ends when run with the i-th command. *)
  Variable outcomes : nat -> outcome.

  (** compiler.go:172-183, 880-898; protoc.FileDescriptorSet without the ProtoSet *)
  Record descriptor_set : Type := mk_descriptor_set { ds_set : fds; ds_dir : string; ds_files : list proto_file }.
  Fixpoint get_sets (s : state) (ms : list cmd_meta) : state * result (list descriptor_set) :=
    match ms with
    | [] => (s, Ok [])
    | m :: r =>
        if is_empty (cm_temp m) then get_sets s r
        else
          let s := emit [ReadTemp (cm_temp m)] s in
          match read_set (cm_temp m) with
          | Err e => (s, Err e)
          | Ok d =>
              match get_sets s r with
              | (s, Err e) => (s, Err e)
              | (s, Ok ds) => (s, Ok (mk_descriptor_set d (cm_dir m) (cm_files m) :: ds))
              end
          end
    end.
  (** What Compile returns; it may also end with a panic of one of its goroutines. *)
  Inductive compiled : Type :=
  | Sets (ds : list descriptor_set)
  | Failures (fs : list failure)
  | Error (m : string)
  | Crash.
  Definition fresh_failures (fs : list failure) : list failure :=
    concat (map (fun o => match o with Some f => [f] | None => [] end) (sort_failures (map Some fs))).
  (** compiler.go:150-161: the text of the errors *)
  Definition join_errors (es : list string) : string :=
    join (String newline EmptyString) (filter (fun e => negb (is_empty e)) es).
  Definition returned_failures (r : returned) : list failure := match r with Returned fs _ => fs | Panics => [] end.
  Definition returned_errors (r : returned) : list string := match r with Returned _ (Some e) => [e] | _ => [] end.
  Definition panics (r : returned) : bool := match r with Panics => true | _ => false end.
  (** compiler.go:148-187, once all runs have ended; [fs] and [es] are what they appended *)
  Definition finish (s : state) (ms : list cmd_meta) (fs : list failure) (es : list string) : state * compiled :=
    match es with
    | _ :: _ => (clean_cmd_metas ms s, Error (join_errors es))
    | [] =>
        match fs with
        | _ :: _ => (clean_cmd_metas ms s, Failures (fresh_failures fs))
        | [] =>
            match get_sets s ms with
            | (s, Err e) => (clean_cmd_metas ms s, Error e)
            | (s, Ok ds) => (clean_cmd_metas ms s, Sets ds)
            end
        end
    end.
  (** What the i-th goroutine gets from runCmdMeta. *)
  Definition worker_result (ms : list cmd_meta) (i : nat) : returned :=
    match nth_error ms i with Some m => run_cmd_meta m (outcomes i) | None => Returned [] None end.
  (** compiler.go:103-187.  [ended] lists the goroutines in the order in which they take
      the lock; see Pool_Model for why there is such an order. *)
  Definition compile (ended : list nat) (s : state) : state * compiled :=
    match get_cmd_metas s with
    | (s, Err e) => (s, Error e)
    | (s, Ok ms) =>
        match (if do_gen then make_gen_dirs s else (s, None)) with
        | (s, Some e) => (clean_cmd_metas ms s, Error e)
        | (s, None) =>
            let s := emit (map (fun m => Ran (cm_args m)) ms) s in
            let rs := map (worker_result ms) ended in
            if existsb panics rs then (s, Crash)
            else finish s ms (concat (map returned_failures rs)) (concat (map returned_errors rs))
        end
    end.
End Commands.
