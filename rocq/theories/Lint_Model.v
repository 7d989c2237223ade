(** Model of the lint framework: internal/lint/lint.go, base_linter.go,
    base_visitor.go, runner.go, and file.IsExcluded.

    Every [range] over a Go map goes through [ord key]: an arbitrary reordering
    that may differ at each place, file and directory (the key).  Theorems
    quantify over it.  Panics are [Err nil_dereference]. *)
From Verif Require Export GoPath GoMap GoFmt Strs_Model Text_Model Proto_AST Settings_Types.

Definition nil_dereference : string := "panic: invalid memory address or nil pointer dereference".

(** An order in which maps are ranged over. *)
Definition order : Type := string -> forall A : Type, list A -> list A.

(** lint.go:315-320; Filename is the field of the embedded proto.Proto. *)
Record descriptor : Type := mk_descriptor {
  d_filename : string;
  d_elements : list element;
  d_set : proto_set;
  d_data : string
}.

(** What a check passes to its add function: base_linter.go:49-61, 93. *)
Record raw : Type := mk_raw {
  raw_set : option proto_set;
  raw_comment : option comment;
  raw_failure : failure
}.

(** base_linter.go:33-38.  Purpose is in Lint_Purpose.  Simplification: dirPath, which
    no check reads, is not passed. *)
Record linter : Type := mk_linter {
  ln_id : string;
  ln_annotation : string;
  ln_check : list descriptor -> result (list raw)
}.
(** base_linter.go:40-77 *)
Definition new_suppressable_linter (id annotation : string) (check : list descriptor -> result (list raw)) : linter :=
  mk_linter (to_upper id) annotation check.
Definition new_linter (id : string) (check : list descriptor -> result (list raw)) : linter :=
  new_suppressable_linter id EmptyString check.

(** base_visitor.go:64-66, text.go:227-235 *)
Definition no_pos : position := mk_pos 0 0.
Definition failure_at (d : descriptor) (p : position) (msg : string) : failure :=
  mk_failure (d_filename d) (p_line p) (p_column p) EmptyString msg.
Definition add_failure (d : descriptor) (p : position) (msg : string) : raw :=
  mk_raw None None (failure_at d p msg).
(** base_visitor.go:83-85 *)
Definition add_suppressable (d : descriptor) (c : option comment) (p : position) (msg : string) : raw :=
  mk_raw (Some (d_set d)) c (failure_at d p msg).

(** base_linter.go:114-116 *)
Definition allow_suppression (l : linter) (s : option proto_set) : bool :=
  match s with
  | None => false
  | Some s => negb (is_empty (ln_annotation l)) && lc_allow_suppression (cfg_lint (ps_config s))
  end.
(** base_linter.go:118-132 *)
Definition is_suppressed (l : linter) (s : option proto_set) (c : option comment) : bool :=
  allow_suppression l s
  && match c with
     | None => false
     | Some c => existsb (fun line => contains line ("@suppresswarnings " +++ ln_annotation l)) (c_lines c)
     end.
(** base_linter.go:93-104, 108-110: what becomes of one failure. *)
Definition finish (l : linter) (r : raw) : list failure :=
  if is_suppressed l (raw_set r) (raw_comment r) then []
  else
    let f := raw_failure r in
    let msg :=
      if allow_suppression l (raw_set r) && negb (is_empty (f_message f))
      then f_message f +++ " This can be suppressed by adding " +++ String dquote EmptyString
           +++ "@suppresswarnings " +++ ln_annotation l +++ String dquote EmptyString +++ " to the comment."
      else f_message f in
    [mk_failure (f_filename f) (f_line f) (f_column f) (ln_id l) msg].
(** base_linter.go:90-112 *)
Definition linter_check (l : linter) (ds : list descriptor) : result (list failure) :=
  do raws <- ln_check l ds; Ok (flat_map (finish l) raws).

(** file.go:159: one run of the inner loop of IsExcluded.  The loop has no bound
    of its own; [fuel] is large enough for every absolute path (each filepath.Dir
    of a path other than the root is shorter), see Lint_Proofs. *)
Fixpoint excluded_walk (fuel : nat) (cur config_dir exclude : string) : bool :=
  match fuel with
  | 0 => false
  | S fuel =>
      if String.eqb cur config_dir || String.eqb cur "/" then false
      else if String.eqb cur exclude then true
      else excluded_walk fuel (path_dir cur) config_dir exclude
  end.
(** file.go:157-167 *)
Definition is_excluded (file config_dir : string) (excludes : list string) : bool :=
  existsb (excluded_walk (S (String.length file)) file config_dir) excludes.

Section Lint.
  Variable ord : order.
  (** The current working directory, for filepath.Abs. *)
  Variable cwd : string.
  (** lint.go:437-460: opening, parsing and reading the file at a path. *)
  Variable read : string -> result (list element * string).

  (** lint.go:511-525 *)
  Definition should_ignore (l : linter) (d : descriptor) (ignores : list (string * list string)) : bool :=
    let path := if is_abs (d_filename d) then d_filename d else path_abs cwd (d_filename d) in
    match gget (ln_id l) ignores with
    | None => false
    | Some paths => is_excluded path (cfg_dir (ps_config (d_set d))) paths
    end.
  (** lint.go:497-509 *)
  Definition filter_ignores (l : linter) (ds : list descriptor) (ignores : list (string * list string)) : list descriptor :=
    filter (fun d => negb (should_ignore l d ignores)) ds.
  (** lint.go:489-495 *)
  Definition check_one (l : linter) (ds : list descriptor) (ignores : list (string * list string)) : result (list failure) :=
    linter_check l (filter_ignores l ds ignores).
  (** lint.go:474-487 *)
  Definition check_multiple (ls : list linter) (dirs : list (string * list descriptor))
    (ignores : list (string * list string)) : result (list (option failure)) :=
    do all <- concatM (fun dir => concatM (fun l => check_one l (snd dir) ignores) ls)
                      (ord "CheckMultiple" _ dirs);
    Ok (sort_failures (map Some all)).

  (** lint.go:435-467: one file *)
  Definition read_descriptor (ps : proto_set) (absolute : bool) (f : proto_file) : result descriptor :=
    do x <- read (pf_path f);
    Ok (mk_descriptor (if absolute then pf_path f else pf_display f) (fst x) ps (snd x)).
  (** lint.go:428-471 *)
  Definition dir_path_to_descriptors (ps : proto_set) (absolute : bool) : result (list (string * list descriptor)) :=
    do dirs <- mapM (fun dir => do ds <- mapM (read_descriptor ps absolute) (snd dir); Ok (fst dir, ds))
                    (filter (fun dir => has_prefix (fst dir) (ps_dir ps)) (ord "GetDirPathToDescriptors" _ (ps_files ps)));
    Ok (build dirs).

  Section Select.
    Variable all_linters : list linter.
    Variable default_linters : list linter.
    Variable groups : list (string * list linter).

    (** lint.go:283-290, 527-532 *)
    Definition check_lint_id (id : string) : result unit :=
      if existsb (fun l => String.eqb (ln_id l) id) all_linters then Ok tt
      else Err ("unknown lint id in configuration file: " +++ id).
    (** The delete built-in. *)
    Definition gdelete {V} (k : string) (m : list (string * V)) : list (string * V) :=
      filter (fun kv => negb (String.eqb (fst kv) k)) m.
    (** lint.go:371-379 *)
    Definition base_linters (c : lint_config) : result (list linter) :=
      if negb (is_empty (lc_group c)) then
        match gget (lc_group c) groups with
        | Some ls => Ok ls
        | None => Err ("unknown lint group: " +++ lc_group c)
        end
      else if lc_no_default c then Ok [] else Ok default_linters.
    (** lint.go:368-422 *)
    Definition get_linters (c : lint_config) : result (list linter) :=
      do linters <- base_linters c;
      do _ <- mapM check_lint_id (lc_include_ids c);
      do _ <- mapM check_lint_id (lc_exclude_ids c);
      do _ <- mapM check_lint_id (ord "IgnoreIDToFilePaths" _ (map fst (lc_ignores c)));
      match lc_include_ids c, lc_exclude_ids c with
      | [], [] => Ok linters
      | _, _ =>
          let m1 := build (map (fun l => (ln_id l, l)) linters) in
          let m2 := fold_left
                      (fun m l => fold_left
                                    (fun m id => if String.eqb (ln_id l) id then gput id l m else m)
                                    (lc_include_ids c) m)
                      all_linters m1 in
          let m3 := fold_left (fun m id => gdelete id m) (lc_exclude_ids c) m2 in
          Ok (map snd (ord "linterMap" _ m3))
      end.

    (** runner.go:43-53 *)
    Definition lint_run (ps : proto_set) (absolute : bool) : result (list (option failure)) :=
      do ls <- get_linters (cfg_lint (ps_config ps));
      do dirs <- dir_path_to_descriptors ps absolute;
      check_multiple ls dirs (lc_ignores (cfg_lint (ps_config ps))).
  End Select.
End Lint.
