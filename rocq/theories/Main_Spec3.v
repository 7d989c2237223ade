(** Which protoc is run, with which commands, and what it answers; for the properties of the
    whole program. *)
From Verif Require Import GoStrFacts GoPathFacts Download_Spec Protoc_Spec Exec_Spec Cmd_Spec Main_Model Main_Spec Main_Spec2.

(** The protoc that is run, and the directory of its well known types: those that the flags or the
    environment give; or those that are in the cache for the release that the configuration names,
    which is 3.11.0 if it names none, or for the URL that is given. *)
Definition the_protoc (w : world) (cwd : string) (items : list item) (c : config) (protoc wkt : string) : Prop :=
  let given flag variable := if String.eqb (text items flag) "" then w_getenv w variable else text items flag in
  let version := cc_protobuf_version (cfg_compile c) in
  (given "protoc-bin-path" "PROTOTOOL_PROTOC_BIN_PATH" <> "" /\
   protoc = path_clean (given "protoc-bin-path" "PROTOTOOL_PROTOC_BIN_PATH") /\
   wkt = path_clean (given "protoc-wkt-path" "PROTOTOOL_PROTOC_WKT_PATH")) \/
  (given "protoc-bin-path" "PROTOTOOL_PROTOC_BIN_PATH" = "" /\
   forall release, ok_comp release = true ->
     (text items "protoc-url" = "" -> version = "" -> release = "3.11.0") ->
     (text items "protoc-url" = "" -> version <> "" -> release = version) ->
     (text items "protoc-url" <> "" -> release = w_digest w (text items "protoc-url")) ->
     exists cs, cache_root (w_goos w) (w_goarch w) (w_getenv w) cwd (given "cache-path" "PROTOTOOL_CACHE_PATH") cs /\
       protoc = abs_path (cs ++ ["protobuf"; release; "bin"; "protoc"]) /\
       wkt = abs_path (cs ++ ["protobuf"; release; "include"])).
(** The command runs protoc with these flags on these files of the directory.  It includes what the
    configuration says, the well known types, and the directory of the configuration unless it is
    included already or one of these is taken to be above the directory. *)
Definition runs_on (c : config) (protoc wkt dir : string) (flags files command : list string) : Prop :=
  exists includes tail, command = protoc :: concat (map (fun i => ["-I"; i]) includes) ++ flags ++ files /\
    includes = cc_include_paths (cfg_compile c) ++ wkt :: tail /\
    (tail = [cfg_dir c] \/ (tail = [] /\ exists i, In i includes /\ (has_prefix dir i = true \/ i = cfg_dir c))).
(** The flags for a plugin of the configuration. *)
Definition plugin_call (g : gen_plugin) (flags : list string) : Prop :=
  exists params out path, flags = plugin_flags g params out path /\ gp_path g = Ok path /\
    (gp_file_suffix g = "" -> out = gp_output_abs g) /\ (gp_type g = PluginNone -> params = gp_flags g).
(** Which flags there are: for the first argument, generate and not compile, those for each plugin;
    otherwise, or if there is none, those to throw away the result. *)
Definition flags_wanted (gen : bool) (c : config) : list (list string -> Prop) :=
  match gen, gc_plugins (cfg_gen c) with
  | true, (_ :: _) as gs => map plugin_call gs
  | _, _ => [fun flags => flags = ["-o"; "/dev/null"]]
  end.

Section Answers.
  Variable w : world.
  Variable disk : string -> result string.
  (** Whether the configuration allows unused imports. *)
  Variable allow : bool.
  (** protoc was content, or was interrupted. *)
  Definition accepts (command : list string) : Prop :=
    (exists stderr, w_protoc w disk command = Protoc_Model.Ended stderr NoError /\ quiet allow stderr) \/ w_protoc w disk command = Protoc_Model.Signalled None.
  (** protoc ended well and said nothing. *)
  Definition says_nothing (command : list string) : Prop :=
    exists stderr, w_protoc w disk command = Protoc_Model.Ended stderr NoError /\ lines_in stderr = [].
  (** protoc failed without saying why, or could not be run or stopped. *)
  Definition breaks_down (command : list string) : Prop :=
    match w_protoc w disk command with
    | Protoc_Model.Ended stderr (ExitError _) => lines_in stderr = []
    | Protoc_Model.Ended _ (OtherError _) => True
    | Protoc_Model.Ended _ NoError => False
    | Protoc_Model.Signalled e => e <> None
    | Protoc_Model.SignalledEarly => True
    end.
  (** What protoc said, as failures. *)
  Definition complaints (command : list string) (fs : list failure) : Prop :=
    match w_protoc w disk command with
    | Protoc_Model.Ended stderr (OtherError _) => False
    | Protoc_Model.Ended stderr _ => Protoc_Spec.reported allow (lines_in stderr) fs
    | Protoc_Model.Signalled None => fs = []
    | _ => False
    end.
End Answers.

Section Whole.
  Variable w : world.
  Variable disk : string -> result string.
  Variable cwd : string.
  (** The files of a directory among those with these names. *)
  Definition files_in (names : list string) (dir : string) (files : list string) : Prop :=
    files <> [] /\ forall p, In p files <-> path_dir p = dir /\ exists n, In n names /\ File_Spec.shown cwd p n.
  (** The commands run protoc on all of the files, a directory at a time, with the flags wanted. *)
  Definition cover (gen : bool) (names : list string) (c : config) (protoc wkt : string) (commands : list (list string)) : Prop :=
    (forall command, In command commands -> exists dir files wanted flags,
       files_in names dir files /\ In wanted (flags_wanted gen c) /\ wanted flags /\ runs_on c protoc wkt dir flags files command) /\
    (forall n p wanted, In n names -> File_Spec.shown cwd p n -> In wanted (flags_wanted gen c) -> exists files flags command,
       files_in names (path_dir p) files /\ In p files /\ wanted flags /\ runs_on c protoc wkt (path_dir p) flags files command /\ In command commands).
  (** A failure is shown if a directory was asked for, or the file that it is about. *)
  Definition to_show (args : list string) (f : failure) : Prop :=
    w_stat w (Exec_Spec.target args) = Ok Exec_Model.Directory \/ f_filename f = Exec_Spec.target args \/
    (f_filename f <> "" /\ path_abs cwd (f_filename f) = path_abs cwd (Exec_Spec.target args)).
End Whole.

(** ** Creating files *)
Section New.
  Variable w : world.
  Variable disk : string -> result string.
  (** The configuration for a file that is to be created in the directory with these components:
      the one given as [data], if any, which is that of the directory; or the one that holds there. *)
  Definition in_force_for_new (data : string) (d : list string) (c : config) : Prop :=
    (data = "" /\ configured w disk d c) \/ (data <> "" /\ exists e, w_decode_json w data = Ok e /\ taken w disk e (abs_path d) c).
  (** There is no directory for the file, or there is something in its place other than an empty
      file. *)
  Definition in_the_way (cwd file : string) : Prop :=
    file = "" \/
    (exists data, disk (path_abs cwd (path_dir file)) = Ok data) \/ w_stat w (path_abs cwd (path_dir file)) <> Ok Exec_Model.Directory \/
    (exists data, disk (path_abs cwd file) = Ok data /\ data <> "") \/
    (exists m k, disk (path_abs cwd file) = Err m /\ w_stat w (path_abs cwd file) = Ok k).
End New.
