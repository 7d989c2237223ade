(** Properties of the commands about packages and descriptor sets: C71-C74. *)
From Verif Require Import Breaking_Spec Reflect_Types Exec_Proofs PackageCmd_Proofs4.
From Verif Require Import Props_Reflect.
From Verif Require Protoc_Model.

Section Commands.
  Variable ord : map_order.
  Variable cwd work_dir error_format : string.
  Variable json : bool.
  Variable to_json : failure -> string.
  Variable stat : string -> result file_kind.
  Variable get_for_dir : string -> string -> result proto_set.
  Variable compiler : bool -> bool -> option (bool * bool) -> (string -> result string) -> proto_set -> result (list failure * list file_set).
  Variable commands : bool -> proto_set -> result (list string).
  Variable sha256 : string -> string.
  Variable marshal to_jsonpb : file_set -> result string.
  Variable unmarshal : string -> result file_set.
  Variable write_error : string -> string -> option (result string * string).
  Variable temp_file : result string.
  Variable temp_dir : result string.
  Variable git : list string -> result unit.
  (** The error format can be used. *)
  Hypothesis Hfields : exists fields, fields_of error_format fields.
  Hypothesis Hord : visits_all ord.
  (** A temporary file has a name, and so has the working directory. *)
  Hypothesis Htemp : temp_file <> Ok "".
  Hypothesis Hwork : work_dir <> "".
  Notation found := (found work_dir stat get_for_dir).
  Notation tree := (tree stat get_for_dir compiler).
  Notation descriptor_set := (descriptor_set cwd work_dir error_format json to_json stat get_for_dir compiler sha256 marshal to_jsonpb write_error temp_file).
  Notation break_descriptor_set := (break_descriptor_set cwd work_dir error_format json to_json stat get_for_dir compiler sha256 marshal to_jsonpb write_error temp_file).
  Notation break_descriptor_set_binary := (PackageCmd_Model.break_descriptor_set cwd work_dir error_format false to_json stat get_for_dir compiler sha256 marshal to_jsonpb write_error temp_file).
  Notation inspect_packages := (inspect_packages ord cwd work_dir error_format json to_json stat get_for_dir compiler commands).
  Notation inspect_package_deps := (inspect_package_deps ord cwd work_dir error_format json to_json stat get_for_dir compiler commands).
  Notation inspect_package_importers := (inspect_package_importers ord cwd work_dir error_format json to_json stat get_for_dir compiler commands).
  Notation break_check := (break_check cwd work_dir error_format json to_json stat get_for_dir compiler commands unmarshal temp_dir git).
  Notation encode all := (if json then to_jsonpb all else marshal all).

  (** ** C71 *)
  (** Every file once, in the order of the names, in the one place asked for. *)
  Theorem C71_set : forall args include_imports include_source_info output tmp m d sets s,
    found args m -> destination_of output tmp temp_file d ->
    compiler false false (Some (include_imports, include_source_info)) (io_disk s) (m_set m) = Ok ([], sets) ->
    tells_apart sha256 sets -> consistent sets ->
    exists all, joined sets all /\ forall data, encode all = Ok data -> writable write_error d data ->
      exists s', descriptor_set args include_imports include_source_info output tmp s = (s', Value tt) /\ delivered d data s s'.
  Proof. intros. eapply descriptor_set_delivers; eauto. Qed.
  (** Both flags: nothing is done. *)
  Theorem C71_flags : forall args include_imports include_source_info output s, output <> "" ->
    exists e, e <> "" /\ descriptor_set args include_imports include_source_info output true s = (s, Exit e).
  Proof. intros. exists "can only set one of output-path, tmp". split; [discriminate|]. now apply descriptor_set_flags. Qed.
  (** Different files with one name, or a file without a name: an error, nothing printed or written. *)
  Theorem C71_inconsistent : forall args include_imports include_source_info output tmp m sets s,
    found args m -> output = "" \/ tmp = false ->
    compiler false false (Some (include_imports, include_source_info)) (io_disk s) (m_set m) = Ok ([], sets) ->
    tells_apart sha256 sets -> ~ consistent sets ->
    exists e s', descriptor_set args include_imports include_source_info output tmp s = (s', Fail e) /\ io_disk s' = io_disk s /\ io_done s' = io_done s ++ [Compiled false].
  Proof.
    intros args ii si output tmp m sets s F O C T N. destruct (descriptor_set_inconsistent cwd work_dir error_format json to_json stat get_for_dir compiler sha256 marshal to_jsonpb write_error temp_file Hfields args ii si output tmp m sets s F O C T N) as (e & ->).
    exists e. eexists. split; [reflexivity|]. split; reflexivity.
  Qed.
  (** Files that do not compile: their failures are listed, nothing is written, the code is 255. *)
  Theorem C71_failures : forall args include_imports include_source_info output tmp m fs sets s,
    found args m -> output = "" \/ tmp = false ->
    compiler false false (Some (include_imports, include_source_info)) (io_disk s) (m_set m) = Ok (fs, sets) -> fs <> [] ->
    exists es kept s', descriptor_set args include_imports include_source_info output tmp s = (s', Exit "") /\ io_disk s' = io_disk s /\ io_done s' = io_done s ++ Compiled false :: es /\
      only_prints es /\ picks (about cwd m) fs kept /\ listing json to_json error_format kept (printed es).
  Proof.
    intros args ii si output tmp m fs sets s F O C N. destruct (descriptor_set_failures cwd work_dir error_format json to_json stat get_for_dir compiler sha256 marshal to_jsonpb write_error temp_file Hfields args ii si output tmp m fs sets s F O C N) as (es & kept & -> & A & B & L).
    exists es, kept. eexists. split; [reflexivity|]. split; [reflexivity|]. split; [reflexivity|]. auto.
  Qed.
  (** Whatever happens, no file but the destination is written, at most once, with all of the set. *)
  Theorem C71_writes : forall args include_imports include_source_info output tmp s s' r,
    descriptor_set args include_imports include_source_info output tmp s = (s', r) ->
    exists es, io_done s' = io_done s ++ es /\
    ((written es = [] /\ io_disk s' = io_disk s) \/
     exists p m sets all data, (destination_of output tmp temp_file (ToFile p) \/ destination_of output tmp temp_file (ToTemp p)) /\
       found args m /\ compiler false false (Some (include_imports, include_source_info)) (io_disk s) (m_set m) = Ok ([], sets) /\ (tells_apart sha256 sets -> joined sets all) /\ encode all = Ok data /\
       written es = [(p, data)] /\ changes_only (eq p) s s' /\ (r = Value tt -> io_disk s' p = Ok data)).
  Proof. intros. eapply descriptor_set_writes; eauto. Qed.
  (** break descriptor-set needs a path; it has the imports and no source info. *)
  Theorem C71_break : forall args output s,
    (output = "" -> exists e, e <> "" /\ break_descriptor_set args output s = (s, Exit e)) /\
    (output <> "" -> break_descriptor_set args output s = descriptor_set args true false output false s).
  Proof.
    intros args output s. split; [|apply break_descriptor_set_eq]. intros H. exists "must set output-path". split; [discriminate|]. now apply break_descriptor_set_eq.
  Qed.

  (** ** C72 *)
  (** A check against a stored set is a check against the tree that it was made from. *)
  Theorem C72_baseline : forall args output m sets old s,
    found args m -> output <> "" ->
    compiler false false (Some (true, false)) (io_disk s) (m_set m) = Ok ([], sets) -> tells_apart sha256 sets -> consistent sets ->
    distinct_files sets old -> valid_files old ->
    (forall all, joined sets all -> exists data, marshal all = Ok data /\ unmarshal data = Ok all) -> (forall data, write_error output data = None) ->
    exists s1, break_descriptor_set_binary args output s = (s1, Value tt) /\ changes_only (eq output) s s1 /\
      forall s2 args' new c, io_disk s2 output = io_disk s1 output -> tree (io_disk s2) work_dir args' new c ->
        exists fails es r, break_check args' "" output s2 = (adds s2 (Compiled false :: es), r) /\ only_prints es /\ verdict c old new fails /\ announced json to_json fails es r.
  Proof. intros. eapply stored_baseline; eauto. Qed.
  (** When the files are the same as then, nothing is found. *)
  Theorem C72_unchanged : forall args output m sets old s,
    found args m -> output <> "" ->
    compiler false false (Some (true, false)) (io_disk s) (m_set m) = Ok ([], sets) -> tells_apart sha256 sets -> consistent sets ->
    distinct_files sets old -> valid_files old -> unique_definitions old ->
    (forall all, joined sets all -> exists data, marshal all = Ok data /\ unmarshal data = Ok all) -> (forall data, write_error output data = None) ->
    exists s1, break_descriptor_set_binary args output s = (s1, Value tt) /\
      forall s2 args' new c, io_disk s2 output = io_disk s1 output -> tree (io_disk s2) work_dir args' new c ->
        (forall f, In f new <-> In f old) ->
        bc_include_beta (cfg_break c) = true \/ bc_allow_beta_deps (cfg_break c) = true \/ (forall a b, depends old a b -> ~ beta_name a -> ~ beta_name b) ->
        break_check args' "" output s2 = (adds s2 [Compiled false], Value tt).
  Proof. intros. eapply stored_unchanged; eauto. Qed.

  (** ** C73 *)
  Theorem C73_packages : forall args fs c s, tree (io_disk s) work_dir args fs c ->
    exists names es, inspect_packages args s = (adds s (Compiled false :: es), Value tt) /\ only_prints es /\ printed es = one_per_line names /\
      Increasing names /\ (forall n, In n names <-> package_in fs n).
  Proof. intros. eapply inspect_packages_spec; eauto. Qed.
  Theorem C73_deps : forall args fs c s name, tree (io_disk s) work_dir args fs c -> package_in fs name ->
    exists names es, inspect_package_deps args name s = (adds s (Compiled false :: es), Value tt) /\ only_prints es /\ printed es = one_per_line names /\
      Increasing names /\ (forall n, In n names <-> depends fs name n).
  Proof. intros. eapply inspect_deps_spec; eauto. Qed.
  Theorem C73_importers : forall args fs c s name, tree (io_disk s) work_dir args fs c -> package_in fs name ->
    exists names es, inspect_package_importers args name s = (adds s (Compiled false :: es), Value tt) /\ only_prints es /\ printed es = one_per_line names /\
      Increasing names /\ (forall n, In n names <-> depends fs n name).
  Proof. intros. eapply inspect_importers_spec; eauto. Qed.
  (** Another package is an error; no package is refused before anything is done. *)
  Theorem C73_unknown : forall args fs c s name, tree (io_disk s) work_dir args fs c -> ~ package_in fs name -> name <> "" ->
    inspect_package_deps args name s = (adds s [Compiled false], Fail ("package not found: " +++ name)) /\
    inspect_package_importers args name s = (adds s [Compiled false], Fail ("package not found: " +++ name)).
  Proof. intros args fs c s name T N Ne. eapply inspect_unknown; eauto. Qed.
  Theorem C73_no_name : forall args s, exists e, e <> "" /\ inspect_package_deps args "" s = (s, Exit e) /\ inspect_package_importers args "" s = (s, Exit e).
  Proof. intros. exists "must set name". split; [discriminate|]. split; reflexivity. Qed.

  (** ** C74 *)
  Theorem C74_flags : forall args branch path s, branch <> "" -> path <> "" -> exists e, e <> "" /\ break_check args branch path s = (s, Exit e).
  Proof. intros. exists "can only set one of git-branch, descriptor-set-path". split; [discriminate|]. now apply break_check_flags. Qed.
  (** Against a stored descriptor set. *)
  Theorem C74_stored : forall args path data stored old new c s, path <> "" -> tree (io_disk s) work_dir args new c ->
    io_disk s path = Ok data -> unmarshal data = Ok stored -> distinct_files [stored] old -> faithful old -> valid_files old ->
    exists fails es r, break_check args "" path s = (adds s (Compiled false :: es), r) /\ only_prints es /\ verdict c old new fails /\ announced json to_json fails es r.
  Proof. intros. eapply break_check_stored; eauto. Qed.
  (** Against a clone: the same directory in it, with the configuration of the new files; the clone is removed. *)
  Theorem C74_git : forall args branch old new c c' clone s, tree (io_disk s) work_dir args new c ->
    is_abs (target args) = false -> inside (path_abs cwd work_dir) (abs_clean cwd (target args)) ->
    stat (path_join [path_abs cwd work_dir; ".git"]) = Ok Directory -> temp_dir = Ok clone ->
    git (tl (clone_of (path_abs cwd work_dir) branch clone)) = Ok tt ->
    tree (io_disk s) clone [in_clone clone (target args)] old c' ->
    exists fails es r, break_check args branch "" s =
        (adds s ([Compiled false; MadeDir clone; Ran (clone_of (path_abs cwd work_dir) branch clone); Compiled false] ++ es ++ [Removed clone]), r) /\
      only_prints es /\ verdict c old new fails /\ announced json to_json fails es r.
  Proof. intros. eapply break_check_git; eauto. Qed.
  Theorem C74_absolute : forall args branch new c s, tree (io_disk s) work_dir args new c -> is_abs (target args) = true ->
    break_check args branch "" s = (adds s [Compiled false], Fail ("input argument must be relative directory path: " +++ target args)).
  Proof. intros. eapply break_check_absolute; eauto. Qed.
  (** Directories whose path does not begin with that of the working directory are refused. *)
  Theorem C74_outside_partial : forall args branch new c s, tree (io_disk s) work_dir args new c -> is_abs (target args) = false ->
    (forall r, abs_clean cwd (target args) <> path_abs cwd work_dir +++ r) ->
    break_check args branch "" s = (adds s [Compiled false], Fail ("input directory must be within working directory: " +++ target args)).
  Proof. intros. eapply break_check_outside; eauto. Qed.
  (** No repository, no clone: what git said, after the command that was given to it. *)
  Theorem C74_said : forall args branch new c s, tree (io_disk s) work_dir args new c ->
    is_abs (target args) = false -> inside (path_abs cwd work_dir) (abs_clean cwd (target args)) ->
    (forall m, stat (path_join [path_abs cwd work_dir; ".git"]) = Err m -> break_check args branch "" s = (adds s [Compiled false], Fail m)) /\
    (forall k, stat (path_join [path_abs cwd work_dir; ".git"]) = Ok k -> k <> Directory ->
      break_check args branch "" s = (adds s [Compiled false], Fail (GoFmt.quote (path_abs cwd work_dir) +++ " does not contain a .git directory"))) /\
    (forall clone output, stat (path_join [path_abs cwd work_dir; ".git"]) = Ok Directory -> temp_dir = Ok clone ->
      git (tl (clone_of (path_abs cwd work_dir) branch clone)) = Err output ->
      break_check args branch "" s = (adds s [Compiled false; MadeDir clone; Ran (clone_of (path_abs cwd work_dir) branch clone)],
        Fail (join " " (clone_of (path_abs cwd work_dir) branch clone) +++ " had error: " +++ output))).
  Proof. intros. now apply (break_check_said cwd work_dir error_format json to_json stat get_for_dir compiler commands unmarshal temp_dir git Hfields Hwork args branch new c s). Qed.
  (** Whatever happens, no file is written ... *)
  Theorem C74_reads : forall args branch path s s' r, break_check args branch path s = (s', r) ->
    io_disk s' = io_disk s /\ exists es, io_done s' = io_done s ++ es /\ written es = [].
  Proof.
    intros args branch path s s' r H. destruct (break_check_does cwd work_dir error_format json to_json stat get_for_dir compiler commands unmarshal temp_dir git args branch path s) as (es & r' & E & F).
    rewrite H in E. injection E as -> _. split; [reflexivity|]. exists es. split; [reflexivity|]. now apply no_write_written.
  Qed.
  (** ... and no directory is left behind unless git failed. *)
  Theorem C74_cleanup_partial : forall args branch path s s' r es d, break_check args branch path s = (s', r) -> io_done s' = io_done s ++ es -> left_behind es d ->
    temp_dir = Ok d /\ exists output, git (tl (clone_of (path_abs cwd work_dir) branch d)) = Err output.
  Proof.
    intros args branch path s s' r es d H E. destruct (break_check_does cwd work_dir error_format json to_json stat get_for_dir compiler commands unmarshal temp_dir git args branch path s) as (es' & r' & E' & _).
    assert (X : s' = adds s es' /\ r = r') by (rewrite H in E'; now injection E'). destruct X as (-> & ->). cbn in E. apply app_inv_head in E. subst es'.
    now apply (break_check_cleanup cwd work_dir error_format json to_json stat get_for_dir compiler commands unmarshal temp_dir git Hwork args branch path s es r').
  Qed.
End Commands.
Print Assumptions C71_set.
Print Assumptions C71_flags.
Print Assumptions C71_inconsistent.
Print Assumptions C71_failures.
Print Assumptions C71_writes.
Print Assumptions C71_break.
Print Assumptions C72_baseline.
Print Assumptions C72_unchanged.
Print Assumptions C73_packages.
Print Assumptions C73_deps.
Print Assumptions C73_importers.
Print Assumptions C73_unknown.
Print Assumptions C73_no_name.
Print Assumptions C74_flags.
Print Assumptions C74_stored.
Print Assumptions C74_git.
Print Assumptions C74_absolute.
Print Assumptions C74_outside_partial.
Print Assumptions C74_said.
Print Assumptions C74_reads.
Print Assumptions C74_cleanup_partial.

(** The compilers of break descriptor-set and of break check run the same commands on the
    same files, so that they see the same files. *)
Theorem C72_same_compilation : forall ord grow new_downloader download wkt_path protoc_path temp_file set mkdir_all fds read_set outcomes s,
  Protoc_Model.compile ord grow new_downloader download wkt_path protoc_path temp_file false true true true false set mkdir_all fds read_set outcomes s =
  Protoc_Model.compile ord grow new_downloader download wkt_path protoc_path temp_file false true false false false set mkdir_all fds read_set outcomes s.
Proof. reflexivity. Qed.
Print Assumptions C72_same_compilation.

(** ** Examples *)
(** A repository in /w, with its clone in /tmp/c: a file was deleted since. *)
Definition kx_old : list file_set := [[rx_foo2; rx_bar]; [rx_bar; rx_foo1]].
Definition kx_new : list file_set := [[rx_bar; rx_foo1]].
Definition kx_less := [rx_bar; rx_foo1].
Definition kx_config : config := mk_config "/w" [] (mk_compile_config "" [] false false) (mk_create_config []) (mk_lint_config "uber2" false [] [] [] "// h" "com" false)
  (Settings_Types.mk_break_config false false) (mk_gen_config "" [] []).
Definition kx_set (dir : string) : proto_set := mk_proto_set "/w" dir [] kx_config.
Definition kx_stat (p : string) : result file_kind :=
  if existsb (String.eqb p) ["."; "../w2"; "/tmp/c"; "/tmp/w2"; "/w/.git"] then Ok Directory else Err "no such file".
Definition kx_get_for_dir (work dir : string) : result proto_set := Ok (kx_set dir).
(** What is in a descriptor set: the directory .. is broken, it has another file bar.proto. *)
Definition kx_compiler (gen set : bool) (full : option (bool * bool)) (disk : string -> result string) (ps : proto_set) : result (list failure * list file_set) :=
  match disk "/w/edited" with
  | Ok "bad" => Ok ([mk_failure "foo/v1/foo.proto" 1 2 "" "expected"], [])
  | Ok "two" => Ok ([], [rx_bar'] :: kx_old)
  | Ok _ => Ok ([], kx_new)
  | Err _ => Ok ([], kx_old)
  end.
(** The same where the clone is the old tree. *)
Definition kx_compiler_git (gen set : bool) (full : option (bool * bool)) (disk : string -> result string) (ps : proto_set) : result (list failure * list file_set) :=
  Ok ([], if has_prefix (ps_dir ps) "/tmp" then kx_old else kx_new).
Definition kx_commands (gen : bool) (ps : proto_set) : result (list string) := Ok [].
Definition kx_marshal (fs : file_set) : result string :=
  if list_eq_dec string_dec (map fl_data fs) ["bar"; "foo2"; "foo1"] then Ok "a set" else Err "unknown".
Definition kx_jsonpb (fs : file_set) : result string := Ok "{}".
Definition kx_unmarshal (data : string) : result file_set := if String.eqb data "a set" then Ok [rx_bar; rx_foo2; rx_foo1] else Err "unexpected EOF".
Definition kx_write_error (p data : string) : option (result string * string) := None.
Definition kx_git (args : list string) : result unit := Ok tt.
Definition kx_start : io := mk_io (fun _ => Err "no such file") [].
Definition kx_edited : io := mk_io (fun p => if String.eqb p "/w/edited" then Ok "" else if String.eqb p "old.bin" then Ok "a set" else Err "no such file") [].
Definition kx_two : io := mk_io (fun p => if String.eqb p "/w/edited" then Ok "two" else Err "no such file") [].
Definition kx_bad : io := mk_io (fun p => if String.eqb p "/w/edited" then Ok "bad" else Err "no such file") [].
Definition kx_ord : map_order := fun _ _ l => l.
Lemma kx_visits : visits_all kx_ord.
Proof. intros p A l. apply Permutation_refl. Qed.
Notation kx_descriptor_set json := (descriptor_set "/w" "/w" "" json (fun _ => "{}") kx_stat kx_get_for_dir kx_compiler (fun s => s) kx_marshal kx_jsonpb kx_write_error (Ok "/tmp/set")).
Notation kx_break_descriptor_set json := (break_descriptor_set "/w" "/w" "" json (fun _ => "{}") kx_stat kx_get_for_dir kx_compiler (fun s => s) kx_marshal kx_jsonpb kx_write_error (Ok "/tmp/set")).
Notation kx_break_check := (break_check "/w" "/w" "" false (fun _ => "{}") kx_stat kx_get_for_dir kx_compiler kx_commands kx_unmarshal (Ok "/tmp/c") kx_git).
Notation kx_break_check_git git := (break_check "/w" "/w" "" false (fun _ => "{}") kx_stat kx_get_for_dir kx_compiler_git kx_commands kx_unmarshal (Ok "/tmp/c") git).
Notation kx_inspect_packages := (inspect_packages kx_ord "/w" "/w" "" false (fun _ => "{}") kx_stat kx_get_for_dir kx_compiler kx_commands).
Notation kx_deps := (inspect_package_deps kx_ord "/w" "/w" "" false (fun _ => "{}") kx_stat kx_get_for_dir kx_compiler kx_commands).
Notation kx_importers := (inspect_package_importers kx_ord "/w" "/w" "" false (fun _ => "{}") kx_stat kx_get_for_dir kx_compiler kx_commands).
Definition kseen {A} (r : io * outcome A) : list event * outcome A := (io_done (fst r), snd r).
Lemma kx_found dir args : kx_stat (target args) = Ok Directory -> found dir kx_stat kx_get_for_dir args (mk_meta (kx_set (target args)) "").
Proof. intros H. now apply FoundDirectory. Qed.
Lemma kx_fields : exists fields, fields_of "" fields.
Proof. exists [FFilename; FLine; FColumn; FMessage]. left; split; reflexivity. Qed.
Lemma kx_tells_apart : tells_apart (fun s => s) kx_old.
Proof. intros f g (s & Hs & Hf) (s' & Hs' & Hg). unfold kx_old in *. members; try reflexivity; discriminate. Qed.
Lemma kx_consistent : consistent kx_old.
Proof.
  split.
  - intros f (s & Hs & Hf). unfold kx_old in *. members; discriminate.
  - intros f g (s & Hs & Hf) (s' & Hs' & Hg). unfold kx_old in *. members; try reflexivity; discriminate.
Qed.
Lemma kx_tree args : kx_stat (target args) = Ok Directory -> tree kx_stat kx_get_for_dir kx_compiler (io_disk kx_start) "/w" args rx_two kx_config.
Proof.
  intros H. exists (mk_meta (kx_set (target args)) ""), kx_old. split; [now apply kx_found|]. split; [reflexivity|]. split; [exact rx_distinct2|]. split; [exact rx_faithful2|]. split; [exact rx_valid2|reflexivity].
Qed.
Lemma kx_distinct_less : distinct_files kx_new kx_less.
Proof.
  split; [repeat constructor; simpl; intuition discriminate|]. intros f. split; [intros H; exists kx_less; simpl; auto|].
  intros (s & [<-|[]] & Hf). exact Hf.
Qed.
Lemma kx_faithful_less : faithful kx_less.
Proof. intros f g Hf Hg. unfold kx_less in *. members; try reflexivity; discriminate. Qed.
Lemma kx_valid_less : valid_files kx_less.
Proof.
  destruct rx_valid2 as (V & _ & _). split; [|split].
  - rewrite Forall_forall in *. intros f Hf. apply V. unfold kx_less, rx_two in *. members; simpl; auto.
  - intros f d Hf Hd. unfold kx_less in *. members; simpl in Hd; members. exists rx_bar. split; [simpl; auto|reflexivity].
  - intros f g Hf Hg. unfold kx_less in *. members; try reflexivity; discriminate.
Qed.
Lemma kx_tree_less args disk : kx_stat (target args) = Ok Directory -> has_prefix (target args) "/tmp" = false -> tree kx_stat kx_get_for_dir kx_compiler_git disk "/w" args kx_less kx_config.
Proof.
  intros H P. exists (mk_meta (kx_set (target args)) ""), kx_new. split; [now apply kx_found|]. split; [unfold kx_compiler_git; cbn [ps_dir m_set kx_set]; now rewrite P|].
  split; [exact kx_distinct_less|]. split; [exact kx_faithful_less|]. split; [exact kx_valid_less|reflexivity].
Qed.
Lemma kx_tree_clone : tree kx_stat kx_get_for_dir kx_compiler_git (io_disk kx_start) "/tmp/c" ["/tmp/c"] rx_two kx_config.
Proof.
  exists (mk_meta (kx_set "/tmp/c") ""), kx_old. split; [now apply kx_found|]. split; [reflexivity|]. split; [exact rx_distinct2|]. split; [exact rx_faithful2|]. split; [exact rx_valid2|reflexivity].
Qed.

Example C71_set_ex : destination_of "set.bin" false (Ok "/tmp/set") (ToFile "set.bin") /\ tells_apart (fun s => s) kx_old /\ consistent kx_old /\
  kseen (kx_descriptor_set false [] true false "set.bin" false kx_start) = ([Compiled false; Wrote "set.bin" "a set"], Value tt) /\
  kseen (kx_descriptor_set false [] true false "" false kx_start) = ([Compiled false; Printed "a set"], Value tt) /\
  kseen (kx_descriptor_set true [] true false "" true kx_start) = ([Compiled false; Wrote "/tmp/set" "{}"; Printed ("/tmp/set" +++ String newline "")], Value tt).
Proof. split; [cbn; repeat split; discriminate|]. split; [exact kx_tells_apart|]. split; [exact kx_consistent|]. repeat split. Qed.
Example C71_inconsistent_ex : ~ consistent ([rx_bar'] :: kx_old) /\
  exists e, kseen (kx_descriptor_set false [] true false "set.bin" false kx_two) = ([Compiled false], Fail e).
Proof.
  split.
  - intros (_ & H). assert (E : rx_bar = rx_bar'); [|discriminate]. apply H; [exists [rx_foo2; rx_bar]; simpl; auto|exists [rx_bar']; simpl; auto|reflexivity].
  - eexists. reflexivity.
Qed.
Example C71_failures_ex : exists line, kseen (kx_descriptor_set false [] true false "set.bin" false kx_bad) = ([Compiled false; Printed (line +++ String newline "")], Exit "") /\ line <> "".
Proof. exists "foo/v1/foo.proto:1:2:expected". split; [reflexivity|discriminate]. Qed.
Example C72_ex : (forall all, joined kx_old all -> exists data, kx_marshal all = Ok data /\ kx_unmarshal data = Ok all) /\
  unique_definitions rx_two /\ (forall a b, depends rx_two a b -> ~ beta_name a -> ~ beta_name b) /\
  exists s1, kx_break_descriptor_set false [] "old.bin" kx_start = (s1, Value tt) /\
  kseen (kx_break_check [] "" "old.bin" (mk_io (io_disk s1) [])) = ([Compiled false], Value tt).
Proof.
  split; [|split; [exact rx_unique|split]].
  - intros all J. assert (E : all = [rx_bar; rx_foo2; rx_foo1]); [|subst; exists "a set"; split; reflexivity].
    apply (joined_fun kx_old); [exact J| |exact kx_consistent]. split; [repeat (constructor; [intros y Hy; cbn [map] in Hy; members; reflexivity|]); constructor|]. intros f. split.
    + intros H. members; [exists [rx_bar; rx_foo1]|exists [rx_foo2; rx_bar]|exists [rx_bar; rx_foo1]]; simpl; auto.
    + intros (s & Hs & Hf). unfold kx_old in Hs. members; simpl; auto.
  - intros a b (f & g & Hf & Hg & Hd & <- & <- & Hn) _ B. unfold rx_two in Hf, Hg. members; simpl in *; try congruence; intuition try discriminate.
    all: assert (X := proj2 (Extract_Proofs.ignore_package_spec true "bar.v1") (conj eq_refl B)); vm_compute in X; discriminate.
  - eexists. split; [reflexivity|]. reflexivity.
Qed.
(** A set that was stored with --json cannot be used for a check. *)
Theorem C72_json_refuted : exists s1, kx_break_descriptor_set true [] "old.json" kx_start = (s1, Value tt) /\
  exists e, snd (kx_break_check [] "" "old.json" s1) = Fail e.
Proof. eexists. split; [reflexivity|]. eexists. reflexivity. Qed.
Print Assumptions C72_json_refuted.
Example C73_ex : tree kx_stat kx_get_for_dir kx_compiler (io_disk kx_start) "/w" [] rx_two kx_config /\
  printed (io_done (fst (kx_inspect_packages [] kx_start))) = one_per_line ["bar.v1"; "foo.v1"] /\
  printed (io_done (fst (kx_deps [] "foo.v1" kx_start))) = one_per_line ["bar.v1"] /\
  printed (io_done (fst (kx_deps [] "bar.v1" kx_start))) = "" /\
  printed (io_done (fst (kx_importers [] "bar.v1" kx_start))) = one_per_line ["foo.v1"] /\
  snd (kx_deps [] "bar" kx_start) = Fail "package not found: bar" /\ package_in rx_two "foo.v1" /\ depends rx_two "foo.v1" "bar.v1".
Proof.
  split; [now apply kx_tree|]. split; [reflexivity|]. split; [reflexivity|]. split; [reflexivity|]. split; [reflexivity|]. split; [reflexivity|].
  split; [exists rx_foo1; simpl; auto|]. exists rx_foo1, rx_bar. simpl. intuition discriminate.
Qed.
Example C74_stored_ex : exists lines r, kseen (kx_break_check [] "" "old.bin" kx_edited) = (Compiled false :: lines, r) /\
  printed lines <> "" /\ r = Exit "" /\ only_prints lines.
Proof. eexists. eexists. split; [reflexivity|]. split; [discriminate|]. split; [reflexivity|]. repeat (constructor; [eexists; reflexivity|]). constructor. Qed.
Example C74_git_ex : tree kx_stat kx_get_for_dir kx_compiler_git (io_disk kx_start) "/w" [] kx_less kx_config /\
  tree kx_stat kx_get_for_dir kx_compiler_git (io_disk kx_start) "/tmp/c" [in_clone "/tmp/c" (target [])] rx_two kx_config /\
  inside (path_abs "/w" "/w") (abs_clean "/w" (target [])) /\
  exists lines, kseen (kx_break_check_git kx_git [] "v1" "" kx_start) =
    ([Compiled false; MadeDir "/tmp/c"; Ran ["git"; "clone"; "--depth"; "1"; "--branch"; "v1"; "file:///w"; "/tmp/c"]; Compiled false] ++ lines ++ [Removed "/tmp/c"], Exit "") /\ only_prints lines /\ printed lines <> "".
Proof.
  split; [now apply kx_tree_less|]. split; [exact kx_tree_clone|]. split; [left; reflexivity|].
  set (es := fst (kseen (kx_break_check_git kx_git [] "v1" "" kx_start))). vm_compute in es.
  exists (firstn (List.length es - 5) (skipn 4 es)). split; [vm_compute; reflexivity|]. split; [vm_compute; repeat (constructor; [eexists; reflexivity|]); constructor|vm_compute; discriminate].
Qed.
(** When git fails the directory for the clone stays. *)
Theorem C74_cleanup_refuted : exists git es e, io_done (fst (kx_break_check_git git [] "v1" "" kx_start)) = es /\
  snd (kx_break_check_git git [] "v1" "" kx_start) = Fail e /\ left_behind es "/tmp/c".
Proof.
  exists (fun _ => Err "fatal: Remote branch v1 not found"). eexists. eexists. split; [vm_compute; reflexivity|]. split; [vm_compute; reflexivity|].
  exists [Compiled false], [Ran (clone_of "/w" "v1" "/tmp/c")]. split; [vm_compute; reflexivity|]. intros [H|[]]. discriminate.
Qed.
Print Assumptions C74_cleanup_refuted.
(** A directory that is not within the working directory is accepted if its name begins
    with that of the working directory: the baseline is then not in the clone. *)
Theorem C74_outside_refuted : ~ inside (path_abs "/w" "/w") (abs_clean "/w" (target ["../w2"])) /\
  in_clone "/tmp/c" "../w2" = "/tmp/w2" /\
  (forall e, snd (kx_break_check_git kx_git ["../w2"] "" "" kx_start) <> Fail e) /\
  In (Ran (clone_of "/w" "" "/tmp/c")) (io_done (fst (kx_break_check_git kx_git ["../w2"] "" "" kx_start))).
Proof.
  split; [|split; [|split]].
  - intros [H|(r & H)]; [discriminate|]. vm_compute in H. discriminate.
  - reflexivity.
  - intros e. vm_compute. discriminate.
  - vm_compute. auto 8.
Qed.
Print Assumptions C74_outside_refuted.
