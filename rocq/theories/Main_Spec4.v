(** The descriptor sets that protoc makes for a command; for the properties of the whole program. *)
From Verif Require Import GoStrFacts GoPathFacts Protoc_Spec Exec_Spec Cmd_Spec PackageCmd_Spec Main_Model Main_Spec Main_Spec2 Main_Spec3.

Section Sets.
  Variable w : world.
  Variable disk : string -> result string.
  Variable cwd : string.
  (** The flags to have the set written to a file, with the imports and with the comments and
      positions, or without them. *)
  Definition set_wanted (imports info : bool) (file : string) : list string :=
    ["-o"; file] ++ (if imports then ["--include_imports"] else []) ++ (if info then ["--include_source_info"] else []).
  (** The commands run protoc on all of the files, a directory at a time, each time with the flags to
      have the set written to the next temporary file. *)
  Record set_commands (imports info : bool) (names : list string) (c : config) (protoc wkt : string) (commands : list (list string)) (temps : list string) : Prop := {
    sc_temps : Forall2 (fun i t => w_protoc_temp w i = Ok t) (List.seq 0 (length commands)) temps;
    sc_each : Forall2 (fun command temp => exists dir files,
      files_in cwd names dir files /\ runs_on c protoc wkt dir (set_wanted imports info temp) files command) commands temps;
    sc_all : forall n p, In n names -> File_Spec.shown cwd p n -> exists temp files command,
      files_in cwd names (path_dir p) files /\ In p files /\ In command commands /\ runs_on c protoc wkt (path_dir p) (set_wanted imports info temp) files command
  }.
  (** It accepted them, and these are the sets that it left in the temporary files. *)
  Definition made_sets (imports info : bool) (names : list string) (c : config) (protoc wkt : string) (commands : list (list string)) (sets : list file_set) : Prop :=
    exists temps, set_commands imports info names c protoc wkt commands temps /\
      (forall command, In command commands -> accepts w disk (cc_allow_unused_imports (cfg_compile c)) command) /\
      Forall2 (fun temp set => w_protoc_set w disk commands temp = Ok set) temps sets.
  (** It had something to say about them, of which this is shown. *)
  Definition rejected_sets (imports info : bool) (names : list string) (c : config) (protoc wkt : string) (args : list string) (shown : list failure) : Prop :=
    exists commands temps fss, set_commands imports info names c protoc wkt commands temps /\
      Forall2 (complaints w disk (cc_allow_unused_imports (cfg_compile c))) commands fss /\ concat fss <> [] /\ picks (to_show w cwd args) (concat fss) shown.
  (** The configuration that is in force for the files, and the protoc that it stands for. *)
  Definition set_up (items : list item) (names : list string) (c : config) (protoc wkt : string) : Prop :=
    (forall n, In n names -> exists p, File_Spec.shown cwd p n /\ in_force w disk cwd (text items "config-data") p c) /\ the_protoc w cwd items c protoc wkt.
End Sets.
