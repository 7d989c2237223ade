(** What a command does depends on the files only, not on what was done before. *)
From Verif Require Import GoStrFacts.
From Verif Require Import Main_Model Main_Proofs Main_Proofs2.

Definition framed {A} (c : cmd A) : Prop := forall disk, exists es d o,
  (forall done, c (mk_io disk done) = (mk_io d (done ++ es), o)) /\ ((forall p x, ~ In (Wrote p x) es) -> d = disk).

Lemma fr_same {A} (c : cmd A) (o : (string -> result string) -> outcome A) :
  (forall disk done, c (mk_io disk done) = (mk_io disk done, o disk)) -> framed c.
Proof. intros H disk. exists [], disk, (o disk). split; [|auto]. intros done. now rewrite app_nil_r, H. Qed.
Lemma fr_ret {A} (a : A) : framed (ret a).
Proof. apply (fr_same _ (fun _ => Value a)). reflexivity. Qed.
Lemma fr_exit {A} m : framed (@exit255 A m).
Proof. apply (fr_same _ (fun _ => Exit m)). reflexivity. Qed.
Lemma fr_fail {A} m : framed (@fail A m).
Proof. apply (fr_same _ (fun _ => Fail m)). reflexivity. Qed.
Lemma fr_check {A} (x : result A) : framed (Exec_Model.check x).
Proof. destruct x; [apply fr_ret|apply fr_fail]. Qed.
Lemma fr_then {A B} (c : cmd A) (k : A -> cmd B) : framed c -> (forall a, framed (k a)) -> framed (and_then c k).
Proof.
  intros C K disk. destruct (C disk) as (es & d & o & E & W). unfold and_then.
  destruct o as [a|m|m].
  - destruct (K a d) as (es' & d' & o' & E' & W'). exists (es ++ es'), d', o'. split.
    + intros done. now rewrite E, E', app_assoc.
    + intros N. rewrite W'; [apply W|]; intros p x I; apply (N p x), in_app_iff; auto.
  - exists es, d, (Exit m). split; [|assumption]. intros done. now rewrite E.
  - exists es, d, (Fail m). split; [|assumption]. intros done. now rewrite E.
Qed.
Lemma fr_emit e : framed (emit e).
Proof. intros disk. exists [e], disk, (Value tt). split; [|auto]. reflexivity. Qed.
Lemma fr_print s : framed (print s).
Proof. apply fr_emit. Qed.
Lemma fr_println s : framed (println s).
Proof. unfold println. destruct (is_empty s); [apply fr_ret|apply fr_print]. Qed.
Lemma fr_each {A} (f : A -> cmd unit) l : (forall x, framed (f x)) -> framed (each f l).
Proof. intros H. induction l as [|x l IH]; [apply fr_ret|]. apply fr_then; auto. Qed.
Lemma fr_read p : framed (read_file p).
Proof.
  apply (fr_same _ (fun disk => match disk p with Ok d => Value d | Err m => Fail m end)).
  intros disk done. unfold read_file. cbn. now destruct (disk p).
Qed.
Lemma fr_write e p d : framed (write_file e p d).
Proof.
  intros disk. unfold write_file. cbn.
  destruct (e p d) as [[x m]|]; do 3 eexists; (split; [reflexivity|]); intros N; destruct (N p d); now left.
Qed.
Lemma fr_at {A} (c : cmd A) : (forall disk, exists c', (forall done, c (mk_io disk done) = c' (mk_io disk done)) /\ framed c') -> framed c.
Proof.
  intros H disk. destruct (H disk) as (c' & E & F). destruct (F disk) as (es & d & o & E' & W). exists es, d, o. split; [|assumption].
  intros done. now rewrite E.
Qed.
Lemma fr_deferred {A} (c : cmd A) e : framed c -> (forall p d, e <> Wrote p d) -> framed (deferred c e).
Proof.
  intros F N disk. destruct (F disk) as (es & d & o & E & W). unfold deferred.
  exists (es ++ [e]), d, o. split.
  - intros done. rewrite E. cbn. now rewrite app_assoc.
  - intros K. apply W. intros p x I. apply (K p x), in_app_iff. auto.
Qed.
Ltac fr_state := apply fr_at; let d := fresh "disk" in intros d; cbv beta; cbn [io_disk]; eexists; split; [intros done; reflexivity|].
Ltac framing :=
  repeat first
    [ assumption | apply fr_ret | apply fr_exit | apply fr_fail | apply fr_check
    | apply fr_print | apply fr_println | apply fr_read | apply fr_write | apply fr_emit
    | apply fr_each; intros ?
    | apply fr_then; [|intros ?]
    | match goal with
      | |- framed (if ?b then _ else _) => destruct b
      | |- framed (match ?x with _ => _ end) => destruct x
      | |- framed (let x := _ in _) => cbv zeta
      end ].
Lemma fr_get_meta work stat get args : framed (get_meta work stat get args).
Proof. unfold get_meta. framing. Qed.
Lemma fr_print_failures_for cwd json to_json format filename m fs : framed (print_failures_for cwd json to_json format filename m fs).
Proof. unfold print_failures_for. framing. Qed.
Lemma fr_report cwd format json to_json m fs : framed (report cwd format json to_json m fs).
Proof. unfold report, print_failures. apply fr_then; [apply fr_print_failures_for|intros _]. framing. Qed.
Lemma fr_disk {A} (f : (string -> result string) -> result A) : framed (fun s => Exec_Model.check (f (io_disk s)) s).
Proof. fr_state. apply fr_check. Qed.
Lemma fr_do_compile cwd format json to_json D compiler gen set full m : framed (do_compile cwd format json to_json D compiler gen set full m).
Proof.
  unfold do_compile. apply fr_then; [apply fr_emit|intros _].
  apply fr_then; [apply (fr_disk (fun d => compiler gen set full d (m_set m)))|intros ?].
  apply fr_then; [apply fr_report|intros _]. framing.
Qed.
Lemma fr_compile cwd format json to_json D compiler commands gen set dry_run m : framed (compile cwd format json to_json D compiler commands gen set dry_run m).
Proof. unfold compile. destruct dry_run; [framing|]. apply fr_do_compile. Qed.
Lemma fr_lint cwd format json to_json run_lint m : framed (lint cwd format json to_json run_lint m).
Proof.
  unfold lint. apply fr_then; [|intros; apply fr_report]. apply (fr_disk (fun d => run_lint d (m_set m) false)).
Qed.
Lemma fr_format_file cwd format json to_json transform diff write_error overwrite diff_mode lint_mode fix_flag m f :
  framed (format_file cwd format json to_json transform diff write_error overwrite diff_mode lint_mode fix_flag m f).
Proof.
  unfold format_file, print_failures. destruct (_ && _); [apply fr_ret|].
  apply fr_then; [apply fr_read|intros input]. apply fr_then; [apply fr_check|intros [data fs]].
  destruct fs; [|apply fr_then; [apply fr_print_failures_for|intros; apply fr_ret]].
  destruct (negb _); [|framing].
  destruct overwrite; [framing|].
  destruct lint_mode; [apply fr_then; [apply fr_print_failures_for|intros; apply fr_ret]|]. framing.
Qed.
Lemma fr_format ord cwd format json to_json transform diff write_error overwrite diff_mode lint_mode fix_flag m :
  framed (Exec_Model.format ord cwd format json to_json transform diff write_error overwrite diff_mode lint_mode fix_flag m).
Proof.
  unfold Exec_Model.format. apply fr_then; [|intros []; framing].
  set (fs0 := concat _). clearbody fs0. generalize true as ok. induction fs0 as [|f fs IH]; intros ok; cbn [format_files]; [apply fr_ret|].
  apply fr_then; [apply fr_format_file|intros ok'; apply IH].
Qed.
Lemma fr_get_package_set cwd format json to_json stat get compiler commands dir args :
  framed (get_package_set_and_config cwd format json to_json stat get compiler commands dir args).
Proof.
  unfold get_package_set_and_config. apply fr_then; [apply fr_get_meta|intros m]. apply fr_then; [apply fr_compile|intros ?]. framing.
Qed.
Lemma fr_print_names ord {A} (m : list (string * A)) : framed (print_package_names ord m).
Proof. unfold print_package_names. framing. Qed.
Lemma fr_break_failures cwd json to_json c from to : framed (break_failures cwd json to_json c from to).
Proof.
  unfold break_failures. apply fr_then; [apply fr_check|intros [|f fs]]; [apply fr_ret|].
  apply fr_then; [apply fr_print_failures_for|intros; apply fr_exit].
Qed.
Lemma fr_descriptor_set cwd work format json to_json stat get compiler sha marshal tojson werr temp args imports info out tmp :
  framed (descriptor_set cwd work format json to_json stat get compiler sha marshal tojson werr temp args imports info out tmp).
Proof.
  unfold descriptor_set. destruct (_ && tmp); [apply fr_exit|].
  apply fr_then; [apply fr_get_meta|intros m]. apply fr_then; [apply fr_do_compile|intros sets]. framing.
Qed.
Lemma fr_events details es : forall err, framed (Grpc_Model.on_events details err es).
Proof.
  induction es as [|e es IH]; intros err; cbn [Grpc_Model.on_events]; [apply fr_ret|]. apply fr_then; [|intros; apply IH].
  unfold Grpc_Model.on_event, Grpc_Model.print_proto_message, Grpc_Model.print_metadata. framing.
Qed.
Lemma fr_print_linters purpose c ls : framed (print_linters purpose c ls).
Proof. unfold print_linters. cbv zeta. destruct (isort _ ls); [apply fr_ret|]. apply fr_print. Qed.
Lemma fr_is_there stat p : framed (is_there stat p).
Proof.
  apply (fr_same _ (fun disk => Value (match disk p with Ok _ => true | Err _ => stat p end))). intros. unfold is_there. cbn.
  now destruct (disk p).
Qed.

Theorem method_framed w r k : framed (Main_Model.method w r k).
Proof.
  destruct k; cbv beta zeta delta [Main_Model.method].
  - (* init *)
    fr_state. unfold init, make_dir. destruct (1 <? length args); [apply fr_fail|]. apply fr_then; [framing|intros ?]. cbv zeta.
    apply fr_then; [apply fr_is_there|intros ?]. framing.
  - (* create *)
    apply fr_at; intros disk; cbv beta delta [create_cmd files_now]; cbn [io_disk]; eexists; split; [intros done; reflexivity|]. framing.
  - (* version *) fr_state. unfold version_cmd. framing.
  - (* cache update *)
    apply fr_at; intros disk; cbv beta delta [cache_update]; cbn [io_disk]; eexists; split; [intros done; reflexivity|].
    apply fr_then; [apply fr_get_meta|intros ?]. framing.
  - (* cache delete *)
    apply fr_at; intros disk; cbv beta delta [cache_delete_cmd]; cbn [io_disk]; eexists; split; [intros done; reflexivity|].
    apply fr_then; [apply fr_get_meta|intros ?]. framing.
  - fr_state. unfold files_cmd. apply fr_then; [apply fr_get_meta|intros ?]. framing.
  - fr_state. unfold compile_cmd. apply fr_then; [apply fr_get_meta|intros ?]. apply fr_then; [apply fr_compile|intros; apply fr_ret].
  - fr_state. unfold gen_cmd. apply fr_then; [apply fr_get_meta|intros ?]. apply fr_then; [apply fr_compile|intros; apply fr_ret].
  - (* lint *) fr_state. unfold lint_cmd. destruct (more_than_one_set _); [apply fr_exit|].
    destruct list_all_lint_groups; [unfold LintCmd_Model.list_all_lint_groups; framing|].
    destruct (negb (is_empty diff_lint_groups)).
    { unfold LintCmd_Model.diff_lint_groups, get_linter_ids. framing. }
    apply fr_then; [apply fr_get_meta|intros ?].
    unfold LintCmd_Model.list_all_linters, LintCmd_Model.list_linters, LintCmd_Model.list_lint_group.
    destruct list_all_linters; [now apply fr_print_linters|].
    destruct list_linters; [apply fr_then; [apply fr_check|intros ?; now apply fr_print_linters]|].
    destruct (negb (is_empty list_lint_group)).
    { destruct (gget (to_lower _) _); [now apply fr_print_linters|apply fr_exit]. }
    apply fr_then; [apply fr_compile|intros _]. destruct generate_ignores; [|apply fr_lint].
    unfold LintCmd_Model.generate_ignores. apply fr_then; [|intros ?; framing].
    fr_state. apply fr_check.
  - (* format *) fr_state. unfold format_cmd. destruct (more_than_one_set _); [apply fr_exit|].
    apply fr_then; [apply fr_get_meta|intros ?]. apply fr_then; [apply fr_compile|intros _]. apply fr_format.
  - (* all *) fr_state. unfold all_cmd. apply fr_then; [apply fr_get_meta|intros ?]. apply fr_then; [apply fr_compile|intros _].
    apply fr_then; [destruct disable_format; [apply fr_ret|apply fr_format]|intros _].
    apply fr_then; [apply fr_compile|intros _]. destruct disable_lint; [apply fr_ret|apply fr_lint].
  - (* grpc *) fr_state. unfold Grpc_Model.grpc. destruct (Grpc_Model.check_flags _); [apply fr_exit|].
    do 4 (apply fr_then; [apply fr_check|intros ?]). apply fr_then; [apply fr_get_meta|intros ?]. apply fr_then; [apply fr_compile|intros sets].
    destruct sets as [|set sets]; [apply fr_fail|]. unfold Grpc_Model.invoke.
    do 2 (apply fr_then; [apply fr_check|intros ?]).
    apply fr_then.
    { unfold Grpc_Model.dial_handler. destruct (Grpc_Model.get_network_address _) as [[]|]; [|apply fr_fail].
      destruct (if Grpc_Model.h_tls _ then _ else _); [|apply fr_fail]. framing. }
    intros c. cbv zeta. apply fr_then; [apply fr_emit|intros _]. apply fr_then; [apply fr_events|intros ?]. framing.
  - fr_state. unfold inspect_packages. apply fr_then; [apply fr_get_package_set|intros ?]. apply fr_print_names.
  - fr_state. unfold inspect_package_deps, get_package. apply fr_then; [|intros; apply fr_print_names].
    destruct (is_empty name); [apply fr_exit|]. apply fr_then; [apply fr_get_package_set|intros ?]. framing.
  - fr_state. unfold inspect_package_importers, get_package. apply fr_then; [|intros; apply fr_print_names].
    destruct (is_empty name); [apply fr_exit|]. apply fr_then; [apply fr_get_package_set|intros ?]. framing.
  - (* break check *) fr_state. unfold break_check. destruct (_ && _); [apply fr_exit|].
    apply fr_then; [apply fr_get_package_set|intros [[to xs] c]]. cbv zeta. cbn [fst snd].
    destruct (negb (is_empty descriptor_set_path)).
    + apply fr_then; [|intros; apply fr_break_failures]. unfold package_set_for_descriptor_set_path. framing.
    + destruct (is_abs _); [apply fr_fail|]. destruct (negb _); [apply fr_fail|].
      apply fr_then; [unfold temporary_clone; cbv zeta; framing|intros ?].
      apply fr_deferred; [|discriminate]. apply fr_then; [apply fr_get_package_set|intros; apply fr_break_failures].
  - fr_state. unfold break_descriptor_set. destruct (is_empty output_path); [apply fr_exit|]. apply fr_descriptor_set.
  - fr_state. apply fr_descriptor_set.
Qed.

(** The same for the process. *)
Definition process_framed (f : io -> io * Z) : Prop := forall disk, exists es d z,
  (forall done, f (mk_io disk done) = (mk_io d (done ++ es), z)) /\ ((forall p x, ~ In (Wrote p x) es) -> d = disk).
Lemma fr_process {A} (c : cmd A) : framed c -> process_framed (process c).
Proof.
  intros F disk. destruct (F disk) as (es & d & o & E & W). destruct o as [a|m|m].
  - exists es, d, 0%Z. split; [|assumption]. intros done. unfold process. now rewrite E.
  - destruct (is_empty m) eqn:M.
    + exists es, d, 255%Z. split; [|assumption]. intros done. unfold process, println. now rewrite E, M.
    + exists (es ++ [Printed (m +++ String newline "")]), d, 255%Z. split.
      * intros done. unfold process, println. rewrite E, M. cbn. now rewrite app_assoc.
      * intros N. apply W. intros p x I. apply (N p x), in_app_iff. auto.
  - destruct (is_empty m) eqn:M.
    + exists es, d, 1%Z. split; [|assumption]. intros done. unfold process, println. now rewrite E, M.
    + exists (es ++ [Printed (m +++ String newline "")]), d, 1%Z. split.
      * intros done. unfold process, println. rewrite E, M. cbn. now rewrite app_assoc.
      * intros N. apply W. intros p x I. apply (N p x), in_app_iff. auto.
Qed.
Theorem main_framed w args : process_framed (main w args).
Proof.
  assert (T : forall t, process_framed (process (print t))) by (intros; apply fr_process, fr_print).
  assert (X : forall m x, process_framed (cobra_error m x)).
  { intros. apply fr_process. apply fr_then; [apply fr_print|intros; apply fr_fail]. }
  unfold main, prototool. destruct (negb _); [apply fr_process, fr_fail|]. destruct (find_command 4 [] args) as [path rest].
  assert (E : process_framed (execute (w_getenv w) (w_getwd w) (w_parse_duration w) (w_read_csv w) (w_usage w) (w_help w) (w_help_topic w)
                (Main_Model.method w) path rest)).
  { unfold execute. destruct (parse_args _ _ _ _) as [p|m]; [|apply X]. destruct (p_help p); [apply T|].
    destruct (template_at path) as [t|]; [|destruct (list_eqb _ _); apply T]. destruct (validate_args _ _ _); [|apply X].
    apply fr_process. unfold check_cmd. apply fr_then; [apply fr_check|intros; apply method_framed]. }
  destruct path as [|x path]; [|exact E]. destruct (strip_flags _ rest); [exact E|apply X].
Qed.
