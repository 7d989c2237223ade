(** Model of internal/exec/runner.go and internal/exec/exec.go: what the commands read,
    print, write and return, and of the exit code in internal/cmd/cmd.go.

    Simplifications.
    - The compiler, the formatter, lint, diff and the discovery of files are arguments;
      their models are in Protoc_Model, Format_Model, Lint_Model and File_Model.
    - Writing to the standard output does not fail, and the working directory can be found.
    - Running protoc does not change the files that are read afterwards.
    - Logging is left out. *)
From Verif Require Export GoStr GoPath Settings_Types Text_Model File_Model.
From Verif Require Grpc_Types.

(** What a command does, in order. *)
Inductive event : Type :=
| Printed (s : string)
| Compiled (gen : bool)
| Wrote (path data : string)
| MadeDir (path : string)
| Ran (args : list string)
| Removed (path : string)
| Dialed (c : Grpc_Types.connection)
| Called (c : Grpc_Types.call)
| Downloaded (path : string).
(** The files and what was done so far. *)
Record io : Type := mk_io {
  io_disk : string -> result string;     (* ioutil.ReadFile *)
  io_done : list event
}.
(** What a command returns: exec.go:33-42, an ExitError always has the code 255. *)
Inductive outcome (A : Type) : Type :=
| Value (a : A)
| Exit (m : string)
| Fail (m : string).
Arguments Value {A}. Arguments Exit {A}. Arguments Fail {A}.
Definition cmd (A : Type) : Type := io -> io * outcome A.
Definition ret {A} (a : A) : cmd A := fun s => (s, Value a).
Definition exit255 {A} (m : string) : cmd A := fun s => (s, Exit m).
Definition fail {A} (m : string) : cmd A := fun s => (s, Fail m).
Definition and_then {A B} (c : cmd A) (k : A -> cmd B) : cmd B := fun s =>
  match c s with
  | (s, Value a) => k a s
  | (s, Exit m) => (s, Exit m)
  | (s, Fail m) => (s, Fail m)
  end.
Notation "'run' x <- c ; k" := (and_then c (fun x => k)) (at level 200, x name, c at level 100, k at level 200).
Notation "c ;; k" := (and_then c (fun _ => k)) (at level 100, k at level 200, right associativity).
(** An error of a called function is returned. *)
Definition check {A} (r : result A) : cmd A := match r with Ok a => ret a | Err m => fail m end.
Definition emit (e : event) : cmd unit := fun s => (mk_io (io_disk s) (io_done s ++ [e]), Value tt).
(** io.Copy and Write on r.output *)
Definition print (s : string) : cmd unit := emit (Printed s).
(** runner.go:1211-1217 *)
Definition println (s : string) : cmd unit :=
  if is_empty s then ret tt else print (s +++ String newline "").
(** A loop that stops at the first error. *)
Fixpoint each {A} (f : A -> cmd unit) (l : list A) : cmd unit :=
  match l with [] => ret tt | x :: r => f x ;; each f r end.

(** cmd.go:151-160: what the process prints about an error, and its exit code *)
Definition process {A} (c : cmd A) (s : io) : io * Z :=
  match c s with
  | (s, Value _) => (s, 0%Z)
  | (s, Exit m) => (fst (println m s), 255%Z)
  | (s, Fail m) => (fst (println m s), 1%Z)
  end.

(** runner.go:1237-1245 *)
Definition more_than_one_set (values : list bool) : bool :=
  1 <? length (filter (fun b => b) values).

(** runner.go:1085-1091 *)
Record meta : Type := mk_meta { m_set : proto_set; m_single : string }.
(** What os.Stat finds: a directory, a regular file, something else. *)
Inductive file_kind : Type := Directory | Regular | OtherFile.

(** Go's iteration over a map: any order, possibly another one at each place. *)
Definition map_order : Type := string -> forall A : Type, list A -> list A.

Section Exec.
  Variable ord : map_order.
  Variable cwd work_dir : string.
  (** the options errorFormat and json *)
  Variable error_format : string.
  Variable json : bool.
  (** json.Marshal of a failure *)
  Variable to_json : failure -> string.
  Variable stat : string -> result file_kind.
  (** ProtoSetProvider.GetForDir *)
  Variable get_for_dir : string -> string -> result proto_set.
  (** Descriptor sets; Compiler.Compile and Compiler.ProtocCommands for the options
      doGen, doFileDescriptorSet, and, if there is one, includeImports and
      includeSourceInfo of doFileDescriptorSetFullControl *)
  Variable D : Type.
  Variable compiler : bool -> bool -> option (bool * bool) -> (string -> result string) -> proto_set -> result (list failure * list D).
  Variable commands : bool -> proto_set -> result (list string).
  (** Transformer.Transform: the options fix, file header and java package prefix, the path
      and the data *)
  Variable transform : Z -> string -> string -> string -> string -> result (string * list failure).
  (** diff.Do *)
  Variable diff : string -> string -> string -> result string.
  (** lint.Runner.Run *)
  Variable run_lint : (string -> result string) -> proto_set -> bool -> result (list failure).
  (** What ioutil.WriteFile leaves at the path and returns, if it fails. *)
  Variable write_error : string -> string -> option (result string * string).

  (** ioutil.WriteFile *)
  Definition write_file (path data : string) : cmd unit := fun s =>
    let put c := fun q => if String.eqb q path then c else io_disk s q in
    match write_error path data with
    | None => (mk_io (put (Ok data)) (io_done s ++ [Wrote path data]), Value tt)
    | Some (rest, m) => (mk_io (put rest) (io_done s ++ [Wrote path data]), Fail m)
    end.
  (** ioutil.ReadFile *)
  Definition read_file (path : string) : cmd string := fun s =>
    match io_disk s path with Ok d => (s, Value d) | Err m => (s, Fail m) end.

  (** runner.go:1093-1124 *)
  Definition get_meta (args : list string) : cmd meta :=
    let file_or_dir := match args with [a] => a | _ => "." end in
    run k <- check (stat file_or_dir);
    match k with
    | Directory => run ps <- check (get_for_dir work_dir file_or_dir); ret (mk_meta ps "")
    | Regular => run ps <- check (get_for_dir work_dir (path_dir file_or_dir)); ret (mk_meta ps file_or_dir)
    | OtherFile => fail (file_or_dir +++ " is not a directory or a regular file")
    end.

  (** runner.go:1154-1173 *)
  Definition should_print (m : option meta) (f : failure) : bool :=
    match m with
    | None => true
    | Some m =>
        is_empty (m_single m) || String.eqb (m_single m) (f_filename f)
        || String.eqb (abs_clean cwd (m_single m)) (abs_clean cwd (f_filename f))
    end.
  (** runner.go:1138-1142 *)
  Definition with_filename (name : string) (f : failure) : failure :=
    if is_empty name then f else mk_failure name (f_line f) (f_column f) (f_lint_id f) (f_message f).
  (** runner.go:1174-1184.  Simplification: nothing is printed before an error; there is
      none for the fields that can be parsed. *)
  Definition failure_line (fields : list failure_field) (f : failure) : result string :=
    if json then Ok (to_json f +++ String newline "")
    else match fprintln f fields with (s, None) => Ok s | (_, Some m) => Err m end.
  (** runner.go:1137-1186 *)
  Definition print_failures_for (format filename : string) (m : option meta) (fs : list failure) : cmd unit :=
    run fields <- check (parse_colon_separated_failure_fields format);
    let sorted := concat (map (fun o => match o with Some f => [f] | None => [] end)
                    (sort_failures (map Some (map (with_filename filename) fs)))) in
    run lines <- check (mapM (failure_line fields) (filter (should_print m) sorted));
    match lines with [] => ret tt | _ => print (join "" lines) end.
  (** runner.go:1133-1135 *)
  Definition print_failures (filename : string) (m : meta) (fs : list failure) : cmd unit :=
    print_failures_for error_format filename (Some m) fs.

  (** runner.go:288-299, 345-359: failures are printed, and if there are any the code is 255 *)
  Definition report (m : meta) (fs : list failure) : cmd unit :=
    print_failures "" m fs ;; match fs with [] => ret tt | _ => exit255 "" end.
  (** runner.go:282-299; newCompiler:946-1013 *)
  Definition do_compile (gen set : bool) (full : option (bool * bool)) (m : meta) : cmd (list D) :=
    emit (Compiled gen) ;;
    run r <- (fun s => check (compiler gen set full (io_disk s) (m_set m)) s);
    report m (fst r) ;; ret (snd r).
  (** runner.go:265-280, 301-312 *)
  Definition compile (gen set dry_run : bool) (m : meta) : cmd (list D) :=
    if dry_run then
      run cs <- check (commands gen (m_set m)); each println cs ;; ret []
    else do_compile gen set None m.
  (** runner.go:245-263 *)
  Definition compile_cmd (args : list string) (dry_run : bool) : cmd unit :=
    run m <- get_meta args; compile false false dry_run m ;; ret tt.
  Definition gen_cmd (args : list string) (dry_run : bool) : cmd unit :=
    run m <- get_meta args; compile true false dry_run m ;; ret tt.

  (** runner.go:221-243 *)
  Definition files_cmd (args : list string) : cmd unit :=
    run m <- get_meta args;
    let dirs := filter (fun d => has_prefix (fst d) (ps_dir (m_set m))) (ord "Files" _ (ps_files (m_set m))) in
    each println (isort str_leb (concat (map (fun d => map pf_display (snd d)) dirs))).

  (** runner.go:1247-1269 *)
  Definition format_fix (fix_flag : bool) (m : meta) : Z :=
    if negb fix_flag then 0%Z
    else if String.eqb (lc_group (cfg_lint (ps_config (m_set m)))) "uber2" then 2%Z else 1%Z.
  Definition format_header (fix_flag : bool) (m : meta) : string :=
    if negb fix_flag then "" else lc_file_header (cfg_lint (ps_config (m_set m))).
  Definition format_java_prefix (fix_flag : bool) (m : meta) : string :=
    if negb fix_flag then "" else lc_java_package_prefix (cfg_lint (ps_config (m_set m))).
  (** runner.go:518-570; whether there is nothing to report *)
  Definition format_file (overwrite diff_mode lint_mode fix_flag : bool) (m : meta) (f : proto_file) : cmd bool :=
    if negb (is_empty (m_single m)) && negb (String.eqb (pf_path f) (abs_clean cwd (m_single m))) then ret true
    else
      run input <- read_file (pf_path f);
      run r <- check (transform (format_fix fix_flag m) (format_header fix_flag m) (format_java_prefix fix_flag m) (pf_path f) input);
      let (data, failures) := r in
      match failures with
      | _ :: _ => print_failures (pf_display f) m failures ;; ret false
      | [] =>
          if negb (String.eqb input data) then
            if overwrite then write_file (pf_path f) data ;; ret true
            else if lint_mode then
              print_failures "" m [mk_failure (pf_display f) 0 0 "FORMAT_DIFF" "Format returned a diff."] ;; ret false
            else if diff_mode then
              run d <- check (diff input data (pf_display f)); print d ;; ret false
            else print data ;; ret false
          else if negb overwrite && negb lint_mode && negb diff_mode then print data ;; ret true
          else ret true
      end.
  (** runner.go:491-513 *)
  Fixpoint format_files (overwrite diff_mode lint_mode fix_flag : bool) (m : meta) (success : bool) (fs : list proto_file) : cmd bool :=
    match fs with
    | [] => ret success
    | f :: r =>
        run ok <- format_file overwrite diff_mode lint_mode fix_flag m f;
        format_files overwrite diff_mode lint_mode fix_flag m (success && ok) r
    end.
  Definition format (overwrite diff_mode lint_mode fix_flag : bool) (m : meta) : cmd unit :=
    let dirs := filter (fun d => has_prefix (fst d) (ps_dir (m_set m))) (ord "format" _ (ps_files (m_set m))) in
    run ok <- format_files overwrite diff_mode lint_mode fix_flag m true (concat (map snd dirs));
    if ok : bool then ret tt else exit255 "".
  (** runner.go:475-489 *)
  Definition format_cmd (args : list string) (overwrite diff_mode lint_mode fix_flag : bool) : cmd unit :=
    if more_than_one_set [overwrite; diff_mode; lint_mode] then exit255 "can only set one of overwrite, diff, lint"
    else
      run m <- get_meta args;
      compile false false false m ;;
      format overwrite diff_mode lint_mode fix_flag m.

  (** runner.go:345-359 *)
  Definition lint (m : meta) : cmd unit :=
    run fs <- (fun s => check (run_lint (io_disk s) (m_set m) false) s); report m fs.
  (** runner.go:572-593 *)
  Definition all_cmd (args : list string) (disable_format disable_lint fix_flag : bool) : cmd unit :=
    run m <- get_meta args;
    compile false false false m ;;
    (if disable_format then ret tt else format true false false fix_flag m) ;;
    compile true false false m ;;
    (if disable_lint then ret tt else lint m).
End Exec.
