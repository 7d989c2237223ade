(** A file, or its directory. *)
From Verif Require Import GoStrFacts GoPathFacts Exec_Model Exec_Spec Exec_Proofs Exec_Proofs3 Settings_Model LintCmd_Model Main_Model Narrow_Spec.
From Verif Require Place_Proofs.
Import Place_Proofs (and_then_ext, elsewhere, of_args).

Section Narrow.
  Variable cwd file format : string.
  Variable json : bool.
  Variable to_json : failure -> string.
  Hypothesis Nf : file <> "".
  Definition less_than {A} (x y : io * outcome A) : Prop :=
    x = y \/ exists s fs kept less more, x = (adds s less, Exit "") /\ y = (adds s more, Exit "") /\ fs <> [] /\ picks (about_file cwd file) fs kept /\
      only_prints less /\ only_prints more /\ listing json to_json format kept (printed less) /\ listing json to_json format fs (printed more).
  Lemma less_then {A B} (c c' : cmd A) (k k' : A -> cmd B) s : less_than (c s) (c' s) -> (forall a t, less_than (k a t) (k' a t)) -> less_than (and_then c k s) (and_then c' k' s).
  Proof.
    intros [E|(t & fs & kept & less & more & E & E' & H)] K; unfold and_then.
    - rewrite E. destruct (c' s) as [t [a|a|a]]; [apply K|left; reflexivity..].
    - rewrite E, E'. right. exists t, fs, kept, less, more. auto.
  Qed.
  Lemma less_refl {A} (x : io * outcome A) : less_than x x.
  Proof. now left. Qed.
  Lemma less_same {A B} (c : cmd A) (k k' : A -> cmd B) s : (forall a t, less_than (k a t) (k' a t)) -> less_than (and_then c k s) (and_then c k' s).
  Proof. intros K. apply less_then; [apply less_refl|exact K]. Qed.
  Lemma less_first {A B} (c c' : cmd A) (k : A -> cmd B) s : less_than (c s) (c' s) -> less_than (and_then c k s) (and_then c' k s).
  Proof. intros K. apply less_then; [exact K|intros; apply less_refl]. Qed.

  Variable ps : proto_set.
  Notation m := (mk_meta ps file).
  Notation m' := (mk_meta ps "").
  Lemma report_less fs s : less_than (report cwd format json to_json m fs s) (report cwd format json to_json m' fs s).
  Proof.
    destruct (parse_colon_separated_failure_fields format) as [fields|e] eqn:P.
    2:{ left. unfold report, print_failures, print_failures_for. rewrite P. reflexivity. }
    apply fields_of_ok in P.
    destruct (report_pure cwd format json to_json m fs) as (es & r & E & O & V & _). destruct (report_pure cwd format json to_json m' fs) as (es' & r' & E' & O' & V' & _).
    destruct (V (ex_intro _ _ P)) as (-> & kept & K & L). destruct (V' (ex_intro _ _ P)) as (-> & all & K' & L').
    assert (all = fs) as ->.
    { destruct K' as (b & B & ->). clear -B. induction fs as [|f fs IH]; [reflexivity|]. cbn [filter]. rewrite (proj2 (B f (or_introl eq_refl))) by (left; reflexivity).
      f_equal. apply IH. intros x I. apply B. now right. }
    destruct fs as [|f fs].
    - left. unfold report, print_failures, print_failures_for, Exec_Model.check, and_then, ret. destruct (parse_colon_separated_failure_fields format); reflexivity.
    - rewrite E, E'. right. exists s, (f :: fs), kept, es, es'. split; [reflexivity|]. split; [reflexivity|]. split; [discriminate|]. split; [|auto].
      destruct K as (b & B & ->). exists b. split; [|reflexivity]. intros x I. rewrite (B x I). unfold about, about_file. cbn [m_single]. intuition contradiction.
  Qed.
  Variable D : Type.
  Variable compiler : bool -> bool -> option (bool * bool) -> (string -> result string) -> proto_set -> result (list failure * list D).
  Variable commands : bool -> proto_set -> result (list string).
  Lemma do_compile_less gen set full s : less_than (do_compile cwd format json to_json D compiler gen set full m s) (do_compile cwd format json to_json D compiler gen set full m' s).
  Proof. unfold do_compile. apply less_same. intros _ t. apply less_same. intros x u. apply less_first, report_less. Qed.
  Lemma compile_less gen set dry s : less_than (Exec_Model.compile cwd format json to_json D compiler commands gen set dry m s) (Exec_Model.compile cwd format json to_json D compiler commands gen set dry m' s).
  Proof. unfold Exec_Model.compile. destruct dry; [apply less_refl|apply do_compile_less]. Qed.
  Variable run_lint : (string -> result string) -> proto_set -> bool -> result (list failure).
  Lemma lint_less s : less_than (lint cwd format json to_json run_lint m s) (lint cwd format json to_json run_lint m' s).
  Proof. unfold lint. apply less_same. intros fs t. apply report_less. Qed.
End Narrow.

Section Method.
  Variable w : world.
  Variable r : runner.
  Variable args args' : list string.
  Hypothesis Nf : Exec_Spec.target args <> "".
  Hypothesis Sf : w_stat w (Exec_Spec.target args) = Ok Regular.
  Hypothesis Sd : w_stat w (Exec_Spec.target args') = Ok Directory.
  Hypothesis Td : Exec_Spec.target args' = path_dir (Exec_Spec.target args).
  Notation less_than := (less_than (here r) (Exec_Spec.target args) (r_error_format r) (r_json r) Json_Model.failure_json).
  Lemma meta_less {B} disk (k k' : meta -> cmd B) s : (forall ps t, less_than (k (mk_meta ps (Exec_Spec.target args)) t) (k' (mk_meta ps "") t)) ->
    less_than (and_then (get_meta (here r) (w_stat w) (provider w r disk) args) k s) (and_then (get_meta (here r) (w_stat w) (provider w r disk) args') k' s).
  Proof.
    intros K. unfold get_meta. change (match args with [a] => a | _ => "." end) with (Exec_Spec.target args). change (match args' with [a] => a | _ => "." end) with (Exec_Spec.target args').
    rewrite Sf, Sd, Td. unfold and_then, Exec_Model.check. cbn [ret]. destruct (provider w r disk (here r) (path_dir (Exec_Spec.target args))) as [p|e]; [apply K|left; reflexivity].
  Qed.
  Definition not_formatting (k : Cmd_Model.call) : Prop := match k with Cmd_Model.CallAll _ _ _ _ | Cmd_Model.CallFormat _ _ _ _ _ => False | _ => True end.
  Ltac meta := apply meta_less; intros ? ?.
  Lemma descriptor_less a b c d s : let get := provider w r (io_disk s) in
    let go := fun x => PackageCmd_Model.descriptor_set (here r) (here r) (r_error_format r) (r_json r) Json_Model.failure_json (w_stat w) get (the_compiler w r) (w_sha256 w) (w_marshal w) (w_set_json w) (w_write_error w) (w_temp_file w) x a b c d s in
    less_than (go args) (go args').
  Proof.
    cbv zeta. unfold PackageCmd_Model.descriptor_set. destruct (_ && _); [apply less_refl|]. meta. apply less_first. now apply do_compile_less.
  Qed.
  Lemma packages_less disk t : let go := fun x => PackageCmd_Model.get_package_set_and_config (here r) (r_error_format r) (r_json r) Json_Model.failure_json (w_stat w) (provider w r disk) (the_compiler w r) (the_commands w r) (here r) x t in
    less_than (go args) (go args').
  Proof. cbv zeta. unfold PackageCmd_Model.get_package_set_and_config. meta. apply less_first. now apply compile_less. Qed.
  Lemma package_less name s : let go := fun x => PackageCmd_Model.get_package (here r) (here r) (r_error_format r) (r_json r) Json_Model.failure_json (w_stat w) (provider w r (io_disk s)) (the_compiler w r) (the_commands w r) x name s in
    less_than (go args) (go args').
  Proof. cbv zeta. unfold PackageCmd_Model.get_package. destruct (is_empty name); [apply less_refl|]. apply less_first, packages_less. Qed.
  Lemma method_less k k' s : of_args args k -> elsewhere args' k = Some k' -> not_formatting k -> less_than (method w r k s) (method w r k' s).
  Proof.
    destruct k; try discriminate; cbn [of_args elsewhere not_formatting]; intros ->; try (intros [= <-]); intros Nt; try (exact (False_ind _ Nt)); unfold Main_Model.method; cbv zeta.
    - meta. apply less_refl.
    - meta. apply less_refl.
    - meta. apply less_first. now apply compile_less.
    - meta. apply less_first. now apply compile_less.
    - unfold lint_cmd. destruct (more_than_one_set _); [apply less_refl|]. destruct list_all_lint_groups; [apply less_refl|]. destruct (negb (is_empty diff_lint_groups)); [apply less_refl|].
      meta. destruct list_all_linters; [apply less_refl|]. destruct list_linters; [apply less_refl|]. destruct (negb (is_empty list_lint_group)); [apply less_refl|].
      apply less_then; [now apply compile_less|]. intros _ u. destruct generate_ignores; [apply less_refl|]. now apply lint_less.
    - unfold Grpc_Model.grpc. destruct (Grpc_Model.check_flags _); [apply less_refl|]. do 4 (apply less_same; intros ? ?). meta. apply less_first. now apply compile_less.
    - unfold PackageCmd_Model.inspect_packages. apply less_first, packages_less.
    - unfold PackageCmd_Model.inspect_package_deps. apply less_first, package_less.
    - unfold PackageCmd_Model.inspect_package_importers. apply less_first, package_less.
    - revert Nt. destruct (is_empty descriptor_set_path) eqn:De; [discriminate|]. intros [= <-] _. unfold PackageCmd_Model.break_check. rewrite De. cbn [negb]. destruct (negb (is_empty git_branch) && true); [apply less_refl|].
      apply less_first, packages_less.
    - unfold PackageCmd_Model.break_descriptor_set. destruct (is_empty output_path); [apply less_refl|]. apply descriptor_less.
    - apply descriptor_less.
  Qed.
End Method.
