(** Independent vocabulary for the commands. *)
From Verif Require Export Exec_Model Text_Spec.
From Coq Require Export Permutation.

(** The standard output, and the files written with their contents. *)
Definition printed (es : list event) : string :=
  join "" (concat (map (fun e => match e with Printed s => [s] | _ => [] end) es)).
Definition written (es : list event) : list (string * string) :=
  concat (map (fun e => match e with Wrote p d => [(p, d)] | _ => [] end) es).
(** An order in which a map is visited. *)
Definition visits_all (ord : map_order) : Prop := forall place A (l : list A), Permutation l (ord place A l).
(** [fs'] are the elements of [fs] that satisfy [P]. *)
Definition picks {A} (P : A -> Prop) (fs fs' : list A) : Prop :=
  exists b, (forall x, In x fs -> (b x = true <-> P x)) /\ fs' = filter b fs.

(** ** What a command is about *)
Section Target.
  Variable cwd work_dir : string.
  Variable stat : string -> result file_kind.
  Variable get_for_dir : string -> string -> result proto_set.
  (** The argument, or the current directory: a directory, or a file, for which the files
      of its directory are used. *)
  Definition target (args : list string) : string := match args with [a] => a | _ => "." end.
  Inductive found (args : list string) : meta -> Prop :=
  | FoundDirectory ps : stat (target args) = Ok Directory -> get_for_dir work_dir (target args) = Ok ps -> found args (mk_meta ps "")
  | FoundFile ps : stat (target args) = Ok Regular -> get_for_dir work_dir (path_dir (target args)) = Ok ps -> found args (mk_meta ps (target args)).
  (** The file that a failure is about is the one asked for, if one is. *)
  Definition about (m : meta) (f : failure) : Prop :=
    m_single m = "" \/ f_filename f = m_single m \/
    (f_filename f <> "" /\ path_abs cwd (f_filename f) = path_abs cwd (m_single m)).
  (** The files of the directory asked for. *)
  Definition below (ps : proto_set) (f : proto_file) : Prop :=
    exists dir files, In (dir, files) (ps_files ps) /\ In f files /\ has_prefix dir (ps_dir ps) = true.
  Definition asked (m : meta) (f : proto_file) : Prop :=
    below (m_set m) f /\ (m_single m = "" \/ pf_path f = abs_clean cwd (m_single m)).
  (** Each file is in the set once. *)
  Definition distinct_paths (ps : proto_set) : Prop := NoDup (map pf_path (concat (map snd (ps_files ps)))).
End Target.

(** ** Printed failures *)
Section Lines.
  Variable json : bool.
  Variable to_json : failure -> string.
  (** The fields that an error format stands for. *)
  Definition fields_of (format : string) (fields : list failure_field) : Prop :=
    (format = "" /\ fields = [FFilename; FLine; FColumn; FMessage]) \/
    (format <> "" /\ Forall2 (fun part x => known_field x /\ to_lower part = field_name_of x) (split_char ":" format) fields).
  Definition shown_line (fields : list failure_field) (f : failure) : string :=
    if json then to_json f +++ String newline ""
    else if String.eqb (line_text f fields) "" then "" else line_text f fields +++ String newline "".
  (** The text lists the failures in order. *)
  Definition listing (format : string) (fs : list failure) (text : string) : Prop :=
    exists fields sorted, fields_of format fields /\ Permutation fs sorted /\ StronglySorted failure_le sorted /\
      text = join "" (map (shown_line fields) sorted).
End Lines.

(** ** Formatting *)
Section Formatting.
  Variable transform : Z -> string -> string -> string -> string -> result (string * list failure).
  Variable diff : string -> string -> string -> result string.
  Variable write_error : string -> string -> option (result string * string).
  (** What the formatter makes of a file: with --fix the options of the lint group, the
      header and the java package prefix of the configuration. *)
  Definition formatter (fix_flag : bool) (m : meta) (path input : string) : result (string * list failure) :=
    let lc := cfg_lint (ps_config (m_set m)) in
    if fix_flag then transform (if String.eqb (lc_group lc) "uber2" then 2%Z else 1%Z) (lc_file_header lc) (lc_java_package_prefix lc) path input
    else transform 0%Z "" "" path input.
  (** The modes. *)
  Inductive mode : Type := Plain | Overwrite | Diff | LintOnly.
  Definition mode_of (overwrite diff_mode lint_mode : bool) (md : mode) : Prop :=
    match md with
    | Plain => overwrite = false /\ diff_mode = false /\ lint_mode = false
    | Overwrite => overwrite = true /\ diff_mode = false /\ lint_mode = false
    | Diff => overwrite = false /\ diff_mode = true /\ lint_mode = false
    | LintOnly => overwrite = false /\ diff_mode = false /\ lint_mode = true
    end.
  (** Nothing to report about a file: it is formatted, or it can be overwritten. *)
  Definition fine (disk : string -> result string) (fix_flag : bool) (m : meta) (md : mode) (f : proto_file) : Prop :=
    exists input data, disk (pf_path f) = Ok input /\ formatter fix_flag m (pf_path f) input = Ok (data, []) /\
      (data = input \/ (md = Overwrite /\ write_error (pf_path f) data = None)).
  (** Something to report, but no error. *)
  Definition reported (disk : string -> result string) (fix_flag : bool) (m : meta) (md : mode) (f : proto_file) : Prop :=
    exists input data fs, disk (pf_path f) = Ok input /\ formatter fix_flag m (pf_path f) input = Ok (data, fs) /\
      (fs <> [] \/ (fs = [] /\ data <> input /\ md <> Overwrite /\ (md = Diff -> exists d, diff input data (pf_display f) = Ok d))).
  (** What is printed about a file. *)
  Inductive file_output (json : bool) (to_json : failure -> string) (cwd format : string) (disk : string -> result string) (fix_flag : bool) (m : meta) (md : mode) (f : proto_file) : string -> Prop :=
  | OutFailures input data fs shown out : disk (pf_path f) = Ok input -> formatter fix_flag m (pf_path f) input = Ok (data, fs) -> fs <> [] ->
      picks (about cwd m) (map (fun x => mk_failure (if String.eqb (pf_display f) "" then f_filename x else pf_display f) (f_line x) (f_column x) (f_lint_id x) (f_message x)) fs) shown ->
      listing json to_json format shown out ->
      file_output json to_json cwd format disk fix_flag m md f out
  | OutSame data : disk (pf_path f) = Ok data -> formatter fix_flag m (pf_path f) data = Ok (data, []) ->
      file_output json to_json cwd format disk fix_flag m md f (match md with Plain => data | _ => "" end)
  | OutPlain input data : disk (pf_path f) = Ok input -> formatter fix_flag m (pf_path f) input = Ok (data, []) -> data <> input -> md = Plain ->
      file_output json to_json cwd format disk fix_flag m md f data
  | OutOverwrite input data : disk (pf_path f) = Ok input -> formatter fix_flag m (pf_path f) input = Ok (data, []) -> data <> input -> md = Overwrite ->
      file_output json to_json cwd format disk fix_flag m md f ""
  | OutDiff input data d : disk (pf_path f) = Ok input -> formatter fix_flag m (pf_path f) input = Ok (data, []) -> data <> input -> md = Diff ->
      diff input data (pf_display f) = Ok d -> file_output json to_json cwd format disk fix_flag m md f d
  | OutLint input data shown out : disk (pf_path f) = Ok input -> formatter fix_flag m (pf_path f) input = Ok (data, []) -> data <> input -> md = LintOnly ->
      picks (about cwd m) [mk_failure (pf_display f) 0 0 "FORMAT_DIFF" "Format returned a diff."] shown -> listing json to_json format shown out ->
      file_output json to_json cwd format disk fix_flag m md f out.
End Formatting.

(** ** Interrupted runs *)
(** What may be on the disk if the process is killed while it makes the writes [ws], one
    after the other: a write empties the file and then adds the data. *)
Definition killed (disk : string -> result string) (ws : list (string * string)) (d : string -> result string) : Prop :=
  exists done next rest, ws = done ++ next ++ rest /\ length next <= 1 /\
    (forall q data, In (q, data) done -> d q = Ok data) /\
    (forall q data, In (q, data) next -> exists part lost, data = part +++ lost /\ d q = Ok part) /\
    (forall q, ~ In q (map fst (done ++ next)) -> d q = disk q).
