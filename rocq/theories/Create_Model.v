(** Model of internal/create: creating files from a template. *)
From Verif Require Export Settings_Model Strs_Model Lint_Model.

(** create.go:26-32 *)
Definition default_package : string := "uber.prototool.generated".
Definition default_package_v2 : string := "uber.prototool.generated.v1".

(** What is at an absolute path.  Simplifications: a path names what its cleaned
    absolute form names (no symbolic links); everything for which os.Stat fails is
    [Missing]. *)
Inductive fentry : Type :=
| Missing
| Directory
| Regular (data : string)
(** os.Stat succeeds, reading fails *)
| Unreadable.
Definition fsys : Type := string -> fentry.
(** What ioutil.WriteFile does: it writes everything, or fails without having touched
    the file, or fails after the file has been opened, leaving the first [n] bytes. *)
Inductive write_outcome : Type := WriteOk | WriteFails | WritePartial (n : nat).
Definition fput (p : string) (e : fentry) (fs : fsys) : fsys := fun q => if String.eqb q p then e else fs q.

Definition nl : string := String newline EmptyString.
Definition quoted (s : string) : string := String dquote s +++ String dquote EmptyString.
(** handler.go:61-70 *)
Record tmpl_data : Type := mk_tmpl_data {
  t_header : string; t_pkg : string; t_csharp : string; t_go : string;
  t_java_class : string; t_java : string; t_objc : string; t_php : string
}.
(** handler.go:39-46, 315-321 *)
Definition data_v1 (t : tmpl_data) : string :=
  t_header t +++ "syntax = " +++ quoted "proto3" +++ ";" +++ nl
  +++ nl
  +++ "package " +++ t_pkg t +++ ";" +++ nl
  +++ nl
  +++ "option go_package = " +++ quoted (t_go t) +++ ";" +++ nl
  +++ "option java_multiple_files = true;" +++ nl
  +++ "option java_outer_classname = " +++ quoted (t_java_class t) +++ ";" +++ nl
  +++ "option java_package = " +++ quoted (t_java t) +++ ";".
(** handler.go:48-58, 323-329 *)
Definition data_v2 (t : tmpl_data) : string :=
  t_header t +++ "syntax = " +++ quoted "proto3" +++ ";" +++ nl
  +++ nl
  +++ "package " +++ t_pkg t +++ ";" +++ nl
  +++ nl
  +++ "option csharp_namespace = " +++ quoted (t_csharp t) +++ ";" +++ nl
  +++ "option go_package = " +++ quoted (t_go t) +++ ";" +++ nl
  +++ "option java_multiple_files = true;" +++ nl
  +++ "option java_outer_classname = " +++ quoted (t_java_class t) +++ ";" +++ nl
  +++ "option java_package = " +++ quoted (t_java t) +++ ";" +++ nl
  +++ "option objc_class_prefix = " +++ quoted (t_objc t) +++ ";" +++ nl
  +++ "option php_namespace = " +++ quoted (t_php t) +++ ";".

(** handler.go:301-313 *)
Definition get_pkg_from_rel (rel base default : string) : string :=
  if String.eqb rel "." then if is_empty base then default else base
  else
    let rel_pkg := join "." (split_char "/" rel) in
    if is_empty base then rel_pkg else base +++ "." +++ rel_pkg.

Section Create.
  (** The order in which the map DirPathToBasePackage is ranged over. *)
  Variable ord : order.
  (** The current working directory of the process. *)
  Variable cwd : string.
  (** h.configProvider.GetForDir, and GetForData with h.configData; see Settings_Model.
      Simplification: creating the files does not change the configuration. *)
  Variable config_for_dir : string -> result config.
  Variable config_for_data : string -> string -> result config.
  (** h.pkg and h.configData *)
  Variable pkg config_data : string.
  Variable write : string -> write_outcome.

  (** handler.go:289-299 *)
  Definition create_get_config (file : string) : result config :=
    let dir := path_dir (path_abs cwd file) in
    if negb (is_empty config_data) then config_for_data dir config_data else config_for_dir dir.
  (** handler.go:247-265: the longest configured directory that is a string prefix *)
  Definition longest_match (dir : string) (m : list (string * string)) : string * string :=
    fold_left (fun best e =>
      if negb (has_prefix dir (fst e)) then best
      else if Nat.ltb (String.length (fst best)) (String.length (fst e)) then e
      else best) m ("", "").
  (** handler.go:233-287 *)
  Definition get_pkg (file default : string) : result string :=
    if negb (is_empty pkg) then Ok pkg
    else
      do c <- create_get_config file;
      if is_empty (cfg_dir c) then Ok default
      else
        let dir := path_dir (path_abs cwd file) in
        let longest := longest_match dir (ord "DirPathToBasePackage" _ (cr_dir_to_base (cfg_create c))) in
        if negb (is_empty (fst longest)) then
          do rel <- path_rel (fst longest) dir; Ok (get_pkg_from_rel rel (snd longest) default)
        else if negb (has_prefix dir (cfg_dir c)) then Ok default
        else do rel <- path_rel (cfg_dir c) dir; Ok (get_pkg_from_rel rel "" default).
  (** handler.go:197-207 *)
  Definition create_is_v2 (file : string) : result bool :=
    do c <- create_get_config file;
    if is_empty (cfg_dir c) then Ok false else Ok (String.eqb (to_lower (lc_group (cfg_lint c))) "uber2").
  (** handler.go:209-219 *)
  Definition get_file_header (file : string) : result string :=
    do c <- create_get_config file;
    if is_empty (cfg_dir c) then Ok "" else Ok (lc_file_header (cfg_lint c)).
  (** handler.go:221-231 *)
  Definition get_java_package_prefix (file : string) : result string :=
    do c <- create_get_config file;
    if is_empty (cfg_dir c) then Ok "" else Ok (lc_java_package_prefix (cfg_lint c)).
  (** handler.go:139-194: what is written *)
  Definition create_data (file : string) : result string :=
    do v2 <- create_is_v2 file;
    let default := if v2 then default_package_v2 else default_package in
    do header <- get_file_header file;
    let header := if is_empty header then header else header +++ nl +++ nl in
    do p <- get_pkg file default;
    do prefix <- get_java_package_prefix file;
    Ok (if v2 then
          data_v2 (mk_tmpl_data header p (csharp_namespace p) (go_package_v2 p) (java_outer_classname file)
                     (java_package_prefix_override p prefix) (objc_class_prefix p) (php_namespace p))
        else
          data_v1 (mk_tmpl_data header p "" (go_package p) (java_outer_classname file)
                     (java_package_prefix_override p prefix) "" "")).
  (** handler.go:114-137 *)
  Definition check_file_path (fs : fsys) (file : string) : result unit :=
    if is_empty file then Err "filePath empty"
    else
      match fs (path_abs cwd (path_dir file)) with
      | Missing => Err ("stat " +++ path_dir file)
      | Directory =>
          match fs (path_abs cwd file) with
          | Missing => Ok tt
          | Directory | Unreadable => Err ("read " +++ file)
          | Regular data => if is_empty data then Ok tt else Err (GoFmt.quote file +++ " already exists")
          end
      | _ => Err (GoFmt.quote (path_dir file) +++ " is not a directory somehow")
      end.
  (** handler.go:139-195: the file system after one file, and whether it went well *)
  Definition create_file (fs : fsys) (file : string) : fsys * result unit :=
    match create_data file with
    | Err m => (fs, Err m)
    | Ok data =>
        match write file with
        | WriteOk => (fput (path_abs cwd file) (Regular data) fs, Ok tt)
        | WriteFails => (fs, Err ("open " +++ file))
        | WritePartial n => (fput (path_abs cwd file) (Regular (stake n data)) fs, Err ("write " +++ file))
        end
    end.
  Fixpoint create_files (fs : fsys) (files : list string) : fsys * result unit :=
    match files with
    | [] => (fs, Ok tt)
    | f :: rest =>
        match create_file fs f with
        | (fs', Ok _) => create_files fs' rest
        | (fs', Err m) => (fs', Err m)
        end
    end.
  (** handler.go:100-112 *)
  Definition create (fs : fsys) (files : list string) : fsys * result unit :=
    match mapM (check_file_path fs) files with
    | Err m => (fs, Err m)
    | Ok _ => create_files fs files
    end.
End Create.
