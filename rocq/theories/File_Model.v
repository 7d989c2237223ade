(** Model of internal/file/proto_set_provider.go and file.go: collecting the .proto
    files and the one configuration for a directory. *)
From Verif Require Export Settings_Model Lint_Model.

(** What os.Lstat and reading the directory find at a path.  Anything that is not a
    directory, a symbolic link too, is a [NFile].  The entries of a directory are listed
    in the order filepath.Walk visits them (sorted by name). *)
Inductive node : Type :=
| NFile
| NDir (entries : list (string * node))
(** a directory that cannot be read *)
| NUnreadable
(** os.Lstat fails *)
| NBroken.

(** file.go:134-142 *)
Definition abs_clean (cwd p : string) : string :=
  if is_empty p then p
  else if negb (is_abs p) then path_abs cwd p
  else path_clean p.

(** proto_set_provider.go:316-328 *)
Definition validate_is_rel (base dir : string) : result unit :=
  match path_rel base dir with
  | Err m => Err ("could not make " +++ base +++ " relative to " +++ dir +++ ", this is a system error: " +++ m)
  | Ok rel =>
      if is_empty rel then Err ("could not make " +++ base +++ " relative to " +++ dir +++ ", this is a system error")
      else if has_prefix rel ".." then
        Err ("could not make " +++ base +++ " within " +++ dir +++ ", got " +++ rel +++ ", this is a system error")
      else Ok tt
  end.
(** proto_set_provider.go:330-337 *)
Definition dir_path_to_proto_files (fs : list proto_file) : list (string * list proto_file) :=
  fold_left (fun m f =>
    let d := path_dir (pf_path f) in
    gput d (match gget d m with Some l => l | None => [] end ++ [f]) m) fs [].

(** What the closure passed to filepath.Walk has collected: the variables excludes and
    protoFiles (proto_set_provider.go:214-217). *)
Record walk_state : Type := mk_walk_state { w_excludes : list string; w_files : list proto_file }.
(** The closure's answer for one path. *)
Inductive visit : Type := VContinue | VSkipDir.

Section Provider.
  Variable ord : order.
  (** The current working directory of the process. *)
  Variable cwd : string.
  (** What is found at an absolute path. *)
  Variable node_at : string -> node.
  Variable exists_file : string -> bool.
  Variable read_file : string -> result string.
  Variable decode_json decode_yaml : string -> result external_config.
  Variable look_path : string -> result string.
  Variable sort_plugins : list gen_plugin -> list gen_plugin.
  Variable devel : bool.
  (** c.configData; empty when the user gave none. *)
  Variable config_data : string.

  (** proto_set_provider.go:234-278: one call of the closure, for a path without an
      error from Walk and with timedOut not set. *)
  Definition visit_path (work root path : string) (is_dir : bool) (st : walk_state) : result (visit * walk_state) :=
    if is_dir then
      do st <-
        (if is_empty config_data then
           do ex <- get_exclude_prefixes_for_dir exists_file read_file decode_json decode_yaml path;
           Ok (mk_walk_state (w_excludes st ++ ex) (w_files st))
         else Ok st);
      if is_excluded path root (w_excludes st) then Ok (VSkipDir, st) else Ok (VContinue, st)
    else if negb (String.eqb (path_ext path) ".proto") then Ok (VContinue, st)
    else if is_excluded path root (w_excludes st) then Ok (VContinue, st)
    else
      let display := match path_rel work path with Ok r => r | Err _ => path end in
      Ok (VContinue, mk_walk_state (w_excludes st) (w_files st ++ [mk_proto_file path (path_clean display)])).
  (** filepath.Walk (Go standard library) applied to the closure: the directory first,
      then its entries; an error of os.Lstat or of reading a directory is handed to the
      closure, which returns it (lines 235-237). *)
  Fixpoint walk (work root path : string) (n : node) (st : walk_state) {struct n} : result walk_state :=
    match n with
    | NBroken => Err ("lstat " +++ path)
    | NUnreadable => Err ("open " +++ path)
    | NFile => do r <- visit_path work root path false st; Ok (snd r)
    | NDir entries =>
        do r <- visit_path work root path true st;
        match r with
        | (VSkipDir, st) => Ok st
        | (VContinue, st) =>
            (fix walk_entries (l : list (string * node)) (st : walk_state) : result walk_state :=
               match l with
               | [] => Ok st
               | (name, c) :: l' => do st' <- walk work root (path_join [path; name]) c st; walk_entries l' st'
               end) entries st
        end
    end.
  (** proto_set_provider.go:213-226 *)
  Definition initial_excludes (work : string) : result (list string) :=
    if is_empty config_data then Ok []
    else get_exclude_prefixes_for_data decode_json work config_data.
  (** proto_set_provider.go:213-286, with no timeout; see Walk_Model for the timeout. *)
  Definition walk_and_get_all_proto_files (work root : string) : result (list proto_file) :=
    do ex <- initial_excludes work;
    do st <- walk work root root (node_at root) (mk_walk_state ex []);
    Ok (w_files st).

  Definition get_config_for_dir : string -> result config :=
    get_for_dir exists_file read_file decode_json decode_yaml look_path sort_plugins devel.
  Definition get_config_for_data : string -> string -> result config :=
    get_for_data read_file decode_json look_path sort_plugins devel.
  Definition get_config : string -> result config :=
    get_for_file read_file decode_json decode_yaml look_path sort_plugins devel.

  (** proto_set_provider.go:138-177: the loop body for one directory.  The map from
      configuration file to set; a set here is its files and its configuration. *)
  Definition add_dir (work : string) (m : list (string * (list (string * list proto_file) * config)))
    (d : string * list proto_file) : result (list (string * (list (string * list proto_file) * config))) :=
    let (dir, fs) := d in
    do cf <- (if is_empty config_data then get_file_path_for_dir exists_file dir else Ok "");
    let old := match gget cf m with Some (files, _) => files | None => [] end in
    let files := gput dir (match gget dir old with Some l => l | None => [] end ++ fs) old in
    do c <-
      (if negb (is_empty config_data) then get_config_for_data work config_data
       else if negb (is_empty cf) then get_config cf
       else get_config_for_dir work);
    Ok (gput cf (files, c) m).
  Fixpoint add_dirs (work : string) (ds : list (string * list proto_file))
    (m : list (string * (list (string * list proto_file) * config))) : result (list (string * (list (string * list proto_file) * config))) :=
    match ds with
    | [] => Ok m
    | d :: ds' => do m' <- add_dir work m d; add_dirs work ds' m'
    end.
  (** proto_set_provider.go:189-206 *)
  Definition default_base_proto_set (work : string) : result (list (string * list proto_file) * config) :=
    do c <- (if is_empty config_data then get_config_for_dir work else get_config_for_data work config_data);
    Ok ([], c).
  (** proto_set_provider.go:129-186.  Simplification: the sort by configuration directory
      is left to [provider_get_for_dir], the only one to look at several sets. *)
  Definition base_proto_sets (work : string) (dirs : list (string * list proto_file))
    : result (list (list (string * list proto_file) * config)) :=
    match dirs with
    | [] => do s <- default_base_proto_set work; Ok [s]
    | _ => do m <- add_dirs work (ord "DirPathToProtoFiles" _ dirs) []; Ok (map snd m)
    end.
  (** proto_set_provider.go:302-314 *)
  Definition validate_file (cfg dir : string) (f : proto_file) : result unit :=
    if negb (String.eqb (path_dir (pf_path f)) dir) then
      Err (pf_path f +++ " does not reside within " +++ dir +++ ", this is a system error")
    else match validate_is_rel cfg (pf_path f) with
         | Err m => Err ("proto file " +++ pf_path f +++ " not within config dirPath " +++ cfg +++ ": " +++ m)
         | Ok _ => Ok tt
         end.
  Definition validate_proto_set (s : proto_set) : result unit :=
    do _ <- mapM (fun d => mapM (validate_file (cfg_dir (ps_config s)) (fst d)) (snd d))
                 (ord "DirPathToFiles" _ (ps_files s));
    Ok tt.
  (** A map of directories as the list of its entries in the order of their keys: a map has no
      order of its own, whoever ranges over it applies [ord]. *)
  Definition by_dir (m : list (string * list proto_file)) : list (string * list proto_file) :=
    isort (fun a b => str_leb (fst a) (fst b)) m.
  (** proto_set_provider.go:82-127 *)
  Definition get_multiple_for_dir (work dir : string) : result (list proto_set) :=
    let work := abs_clean cwd work in
    let abs := abs_clean cwd dir in
    do root <-
      (if is_empty config_data then
         do cf <- get_file_path_for_dir exists_file abs;
         Ok (if negb (is_empty cf) then path_dir cf else abs)
       else Ok work);
    do fs <- walk_and_get_all_proto_files work root;
    do sets <- base_proto_sets work (dir_path_to_proto_files fs);
    let sets := map (fun s => mk_proto_set work abs (by_dir (fst s)) (snd s)) sets in
    do _ <- mapM validate_proto_set sets;
    Ok sets.
  (** proto_set_provider.go:63-80, with the sort of lines 180-185 *)
  Definition provider_get_for_dir (work dir : string) : result proto_set :=
    do sets <- get_multiple_for_dir work dir;
    match sets with
    | [] => Err "no ProtoSet returned, this is a system error"
    | [s] => Ok s
    | _ => Err ("expected exactly one configuration file for dirPath " +++ GoFmt.quote dir +++ ", but found multiple in directories: ["
                +++ join " " (sort_strings (map (fun s => cfg_dir (ps_config s)) sets)) +++ "]")
    end.
End Provider.
