(** Independent vocabulary for the protoc commands and what is made of their output. *)
From Verif Require Export Protoc_Model GoPathFacts.
From Coq Require Export Permutation.

(** ** Command lines *)
(** protoc, the include paths, the flags, the files. *)
Definition command_line (protoc : string) (includes flags : list string) (files : list proto_file) : list string :=
  protoc :: concat (map (fun i => ["-I"; i]) includes) ++ flags ++ map pf_path files.
Definition command_for (protoc : string) (includes flags : list string) (d : string * list proto_file) (temp : string) : cmd_meta :=
  mk_cmd_meta (command_line protoc includes flags (snd d)) (fst d) (snd d) temp.
(** The flags of a plugin: where it writes with its parameters, where it is, what it gets. *)
Definition plugin_flags (p : gen_plugin) (params out path : string) : list string :=
  ["--" +++ gp_name p +++ "_out=" +++ (if is_empty params then out else params +++ ":" +++ out)]
  ++ (if is_empty path then [] else ["--plugin=protoc-gen-" +++ gp_name p +++ "=" +++ path])
  ++ (if gp_include_imports p then ["--include_imports"] else [])
  ++ (if gp_include_source_info p then ["--include_source_info"] else []).
(** The flags of the command that writes descriptors to [file]. *)
Definition set_flags (full_control include_imports include_source_info : bool) (file : string) : list string :=
  ["-o"; file]
  ++ (if negb full_control || include_imports then ["--include_imports"] else [])
  ++ (if include_source_info then ["--include_source_info"] else []).

(** ** Relative paths *)
Definition rel_path (cs : list string) : string := match cs with [] => "." | _ => join "/" cs end.

(** ** Parameters *)
(** The set is configured at [/cs]; all its files are below, and none is listed twice. *)
Definition files_of (l : list (string * list proto_file)) : list proto_file := concat (map snd l).
Definition laid_out (set : proto_set) (cs : list string) : Prop :=
  cfg_dir (ps_config set) = abs_path cs /\ ok_comps cs /\
  (forall f, In f (files_of (ps_files set)) -> exists rs x, pf_path f = abs_path (cs ++ rs ++ [x]) /\ ok_comps (rs ++ [x])) /\
  NoDup (map pf_path (files_of (ps_files set))).
(** The parameter for a file [/cs/rs/x]: its import path in Go is that of the output
    directory of the plugin, [import/out], and [rs]. *)
Definition import_parameter (cs import out : list string) (f : proto_file) (m : string) : Prop :=
  exists rs x, pf_path f = abs_path (cs ++ rs ++ [x]) /\ ok_comps (rs ++ [x]) /\
    m = "M" +++ join "/" (rs ++ [x]) +++ "=" +++ join "/" (import ++ out ++ rs).
Definition assignment (m : string * string) : string := "M" +++ fst m +++ "=" +++ snd m.
(** The files that are not in the directory. *)
Definition files_elsewhere (set : proto_set) (dir : string) : list proto_file :=
  files_of (filter (fun d => negb (String.eqb (fst d) dir)) (ps_files set)).
(** The files that come with protoc, and the Go packages that golang/protobuf and gogo/protobuf
    have for them. *)
Definition well_known (home : string -> string) : list (string * string) :=
  map (fun n => ("google/protobuf/" +++ n +++ ".proto", home n))
    ["any"; "api"; "compiler/plugin"; "descriptor"; "duration"; "empty"; "field_mask"; "source_context"; "struct"; "timestamp"; "type"; "wrappers"].
Definition genproto_home (n : string) : string := "google.golang.org/genproto/protobuf/" +++ (if String.eqb n "type" then "ptype" else n).
Definition golang_home (n : string) : string :=
  if mem n ["any"; "duration"; "empty"; "struct"; "timestamp"; "wrappers"] then "github.com/golang/protobuf/ptypes/" +++ n
  else if String.eqb n "descriptor" then "github.com/golang/protobuf/protoc-gen-go/descriptor"
  else if String.eqb n "compiler/plugin" then "github.com/golang/protobuf/protoc-gen-go/plugin"
  else genproto_home n.
Definition gogo_home (n : string) : string :=
  if mem n ["any"; "duration"; "empty"; "field_mask"; "struct"; "timestamp"; "wrappers"] then "github.com/gogo/protobuf/types"
  else if String.eqb n "descriptor" then "github.com/gogo/protobuf/protoc-gen-gogo/descriptor"
  else if String.eqb n "compiler/plugin" then "github.com/gogo/protobuf/protoc-gen-gogo/plugin"
  else genproto_home n.
Definition parameters (set : proto_set) (dir : string) (p : gen_plugin) (params : string) : Prop :=
  match gp_type p with
  | PluginNone => params = gp_flags p
  | t =>
      exists imports wkts extras,
        params = join "," ((if is_empty (gp_flags p) then [] else [gp_flags p]) ++ imports ++ wkts ++ extras) /\
        (forall cs import out, laid_out set cs -> ok_comps import -> import <> [] -> ok_comps out ->
           gc_import_path (cfg_gen (ps_config set)) = join "/" import -> gp_output_rel p = rel_path out ->
           exists fs, Permutation fs (files_elsewhere set dir) /\ Forall2 (import_parameter cs import out) fs imports) /\
        Permutation wkts (map assignment
          (if cc_include_wkt (cfg_compile (ps_config set))
           then match t with PluginGogo => well_known gogo_home | _ => well_known golang_home end else [])) /\
        Permutation extras (map assignment (gc_extra_modifiers (cfg_gen (ps_config set))))
  end.
(** Where the plugin writes for the directory: its output directory or, with a file
    suffix, a file below it, named after the directory. *)
Definition written (set : proto_set) (dir : string) (p : gen_plugin) (out : string) : Prop :=
  if is_empty (gp_file_suffix p) then out = gp_output_abs p
  else forall cs os rs x,
    cfg_dir (ps_config set) = abs_path cs -> gp_output_abs p = abs_path os -> dir = abs_path (cs ++ rs) ->
    ok_comps cs -> ok_comps os -> ok_comps rs -> ok_comp (x +++ "." +++ gp_file_suffix p) = true ->
    (exists up, cs ++ rs = up ++ [x]) \/ cs ++ rs = [] /\ x = "default" ->
    out = abs_path (os ++ rs ++ [x +++ "." +++ gp_file_suffix p]).
(** The directory that it writes to: its output directory or, with a file suffix, the
    directory below it that corresponds to the directory. *)
Definition output_dir (set : proto_set) (dir : string) (p : gen_plugin) (o : string) : Prop :=
  if is_empty (gp_file_suffix p) then o = gp_output_abs p
  else exists cs os rs up x,
    cfg_dir (ps_config set) = abs_path cs /\ gp_output_abs p = abs_path os /\ dir = abs_path (cs ++ rs) /\
    ok_comps cs /\ ok_comps os /\ ok_comps rs /\ (cs ++ rs = up ++ [x] \/ cs ++ rs = [] /\ x = "default") /\ ok_comp (x +++ "." +++ gp_file_suffix p) = true /\
    o = abs_path (os ++ rs).

(** ** Commands *)
(** The commands of a directory: one for the descriptors, [made] the file made for it,
    and one per plugin. *)
Section Block.
  Variable wkt_path protoc_path : result string.
  Variable do_gen do_set full_control include_imports include_source_info : bool.
  Variable set : proto_set.
  Definition requested (d : string * list proto_file) : bool := has_prefix (fst d) (ps_dir set).
  Definition plugins_of (s : proto_set) : list gen_plugin := gc_plugins (cfg_gen (ps_config s)).
  Definition base_dir : string := if is_empty (cfg_dir (ps_config set)) then ps_work_dir set else cfg_dir (ps_config set).
  (** The configured include paths, the well known types and, maybe, the directory of the
      configuration. *)
  Definition includes_of (dir : string) (is : list string) : Prop :=
    exists wkt tail,
      is = cc_include_paths (cfg_compile (ps_config set)) ++ wkt ++ tail /\
      (if cc_include_wkt (cfg_compile (ps_config set)) then exists w, wkt_path = Ok w /\ wkt = [w] else wkt = []) /\
      (tail = [] /\ (exists i, In i is /\ (has_prefix dir i = true \/ i = base_dir)) \/ tail = [base_dir]).
  Definition descriptor_command (protoc : string) (is : list string) (d : string * list proto_file) (made : list string) (ms : list cmd_meta) : Prop :=
    if do_set then
      exists f, made = [f] /\ ms = [command_for protoc is (set_flags full_control include_imports include_source_info f) d f]
    else
      made = [] /\
      if do_gen && negb (match plugins_of set with [] => true | _ => false end) then ms = []
      else ms = [command_for protoc is ["-o"; "/dev/null"] d ""].
  Definition plugin_command (protoc : string) (is : list string) (d : string * list proto_file) (p : gen_plugin) (m : cmd_meta) : Prop :=
    exists params out path,
      m = command_for protoc is (plugin_flags p params out path) d "" /\
      parameters set (fst d) p params /\ written set (fst d) p out /\ gp_path p = Ok path.
  Definition commands_of (d : string * list proto_file) (made : list string) (ms : list cmd_meta) : Prop :=
    exists protoc is descriptors plugins,
      protoc_path = Ok protoc /\ includes_of (fst d) is /\ ms = descriptors ++ plugins /\
      descriptor_command protoc is d made descriptors /\
      (if do_gen then Forall2 (plugin_command protoc is d) (plugins_of set) plugins else plugins = []).
End Block.

(** ** Lines *)
(** The warning about an unused import, in the wordings of the versions of protoc. *)
Definition unused_import_line (l : string) : Prop :=
  exists file import c, l = file +++ ": warning: Import " +++ import +++ " is unused" +++ String c EmptyString
                     \/ l = file +++ ": warning: Import " +++ import +++ " but not used" +++ String c EmptyString.
(** The line that protoc prints in addition to "File not found". *)
Definition import_with_errors_line (l : string) : Prop :=
  exists file import c, l = file +++ ": Import " +++ import +++ " was not found or had errors" +++ String c EmptyString.
Definition silent_line (allow_unused : bool) (l : string) : Prop :=
  allow_unused = true /\ unused_import_line l \/ import_with_errors_line l.
(** The lines of an output that are not blank, without the blanks around them. *)
Definition lines_in (output : string) : list string :=
  filter (fun l => negb (is_empty l)) (map trim_space (split_char newline output)).
(** The failures for the lines, in order: one for each line that is not silent, with a
    message. *)
Inductive reported (allow_unused : bool) : list string -> list failure -> Prop :=
| ReportedNone : reported allow_unused [] []
| ReportedSilent l ls fs : silent_line allow_unused l -> reported allow_unused ls fs -> reported allow_unused (l :: ls) fs
| ReportedLine l ls f fs : f_message f <> "" -> reported allow_unused ls fs -> reported allow_unused (l :: ls) (f :: fs).
(** Names of files as protoc prints them. *)
Definition plain_name (n : string) : Prop :=
  n <> "" /\ no_char ":" n = true /\ no_char " " n = true /\ has_prefix n "--" = false.
(** A number of a line or a column. *)
Definition number (s : string) (n : Z) : Prop := s = itoa n /\ (0 <= n <= 9223372036854775807)%Z.
(** The file of the command that a name in the output stands for: the only one whose
    displayed path ends with it, if there is one. *)
Definition stands_for (files : list proto_file) (name shown : string) : Prop :=
  (exists f, filter (fun f => has_suffix (pf_display f) name) files = [f] /\ shown = pf_display f) \/
  (length (filter (fun f => has_suffix (pf_display f) name) files) <> 1%nat /\ shown = name).

(** ** What a call does *)
Definition made_temps (es : list event) : list string :=
  concat (map (fun e => match e with MadeTemp f => [f] | _ => [] end) es).
Definition removes_nothing (es : list event) : Prop := forall f, ~ In (RemovedTemp f) es.
(** All temporary files made are removed, at the end, once each. *)
Definition cleans_up (es : list event) : Prop :=
  exists work, es = work ++ map RemovedTemp (made_temps work) /\ removes_nothing work.
(** What was done since. *)
Definition done_since (s s' : state) (es : list event) : Prop := st_events s' = st_events s ++ es.

(** ** Results *)
(** The same but for the order of the messages in the text of an error. *)
Definition same_result {fds} (a b : compiled fds) : Prop :=
  match a, b with
  | Sets _ x, Sets _ y => x = y
  | Failures _ x, Failures _ y => x = y
  | Error _ x, Error _ y =>
      exists l l', Permutation l l' /\ x = join (String newline EmptyString) l /\ y = join (String newline EmptyString) l'
  | Crash _, Crash _ => True
  | _, _ => False
  end.
(** What a run that succeeded may have written. *)
Definition quiet (allow_unused : bool) (stderr : string) : Prop := Forall (silent_line allow_unused) (lines_in stderr).
