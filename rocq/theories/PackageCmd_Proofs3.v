(** Proofs about the break check as a command. *)
From Verif Require Import GoStrFacts GoMapFacts GoPathFacts Text_Proofs Reflect_Model Reflect_Proofs ReflectValid_Proofs
  Breaking_Model Breaking_Spec Extract_Proofs BreakRun_Proofs Desc_Spec Desc_Proofs Exec_Proofs Exec_Proofs3 LintCmd_Proofs.
From Verif Require Export PackageCmd_Proofs2.
From Coq Require Import Lia.

(** ** Commands that do only certain things *)
Definition does {A} (P : event -> Prop) (c : cmd A) : Prop := forall s, exists es r, c s = (adds s es, r) /\ Forall P es.
Lemma does_ret {A} P (a : A) : does P (ret a).
Proof. intros s. exists [], (Value a). rewrite adds_nil. auto. Qed.
Lemma does_fail {A} P e : does P (@fail A e).
Proof. intros s. exists [], (Fail e). rewrite adds_nil. auto. Qed.
Lemma does_exit {A} P e : does P (@exit255 A e).
Proof. intros s. exists [], (Exit e). rewrite adds_nil. auto. Qed.
Lemma does_check {A} P (r : result A) : does P (Exec_Model.check r).
Proof. destruct r; [apply does_ret|apply does_fail]. Qed.
Lemma does_read P path : does P (read_file path).
Proof. intros s. unfold read_file. destruct (io_disk s path) as [d|e]; [exists [], (Value d)|exists [], (Fail e)]; rewrite adds_nil; auto. Qed.
Lemma does_emit (P : event -> Prop) e : P e -> does P (emit e).
Proof. intros H s. exists [e], (Value tt). split; [reflexivity|auto]. Qed.
Lemma does_then {A B} P (c : cmd A) (k : A -> cmd B) : does P c -> (forall a, does P (k a)) -> does P (and_then c k).
Proof.
  intros Hc Hk s. unfold and_then. destruct (Hc s) as (es & r & -> & W). destruct r as [a|e|e]; [|exists es, (Exit e); auto|exists es, (Fail e); auto].
  destruct (Hk a (adds s es)) as (es' & r & -> & W'). exists (es ++ es'), r. rewrite adds_adds. split; [reflexivity|]. apply Forall_app. auto.
Qed.
Lemma does_deferred {A} (P : event -> Prop) (c : cmd A) e : P e -> does P c -> does P (deferred c e).
Proof.
  intros N Hc s. unfold deferred. destruct (Hc s) as (es & r & -> & W). exists (es ++ [e]), r. split; [now rewrite <- adds_adds|]. apply Forall_app. auto.
Qed.
Lemma does_imp {A} (P Q : event -> Prop) (c : cmd A) : (forall e, P e -> Q e) -> does P c -> does Q c.
Proof. intros H Hc s. destruct (Hc s) as (es & r & E & F). exists es, r. split; [exact E|]. eapply Forall_impl; eassumption. Qed.
Definition mild (e : event) : Prop := e = Compiled false \/ exists t, e = Printed t.
Definition no_write (e : event) : Prop := forall p d, e <> Wrote p d.
Lemma no_write_written es : Forall no_write es -> written es = [].
Proof. induction 1 as [|e es H F IH]; [reflexivity|]. change (e :: es) with ([e] ++ es). rewrite written_app, IH. destruct e; try reflexivity. now destruct (H path data). Qed.
Lemma mild_no_write e : mild e -> no_write e.
Proof. intros [->|(t & ->)] p d; discriminate. Qed.
Lemma only_prints_mild es : only_prints es -> Forall mild es.
Proof. apply Forall_impl. intros e (t & ->). right. eauto. Qed.

Section Facts.
  Variable ord : map_order.
  Variable cwd work_dir error_format : string.
  Variable json : bool.
  Variable to_json : failure -> string.
  Variable stat : string -> result file_kind.
  Variable get_for_dir : string -> string -> result proto_set.
  Variable compiler : bool -> bool -> option (bool * bool) -> (string -> result string) -> proto_set -> result (list failure * list file_set).
  Variable commands : bool -> proto_set -> result (list string).
  Variable unmarshal : string -> result file_set.
  Variable temp_dir : result string.
  Variable git : list string -> result unit.
  Hypothesis Hfields : exists fields, fields_of error_format fields.
  Notation get_packages := (get_package_set_and_config cwd error_format json to_json stat get_for_dir compiler commands).
  Notation break_check := (break_check cwd work_dir error_format json to_json stat get_for_dir compiler commands unmarshal temp_dir git).
  Notation break_failures := (break_failures cwd json to_json).
  Notation temporary_clone := (temporary_clone cwd stat temp_dir git).
  Notation tree := (tree stat get_for_dir compiler).

  Lemma message_fields : fields_of "message" [FMessage].
  Proof. apply fields_of_ok. reflexivity. Qed.
  Lemma failures_announced c old new from to s :
    describes old from -> describes new to -> valid_set from -> valid_set to -> (forall b, oneofs_disjoint (Breaking_Spec.packages_of b to)) ->
    exists fails es r, break_failures c from to s = (adds s es, r) /\ only_prints es /\ verdict c old new fails /\ announced json to_json fails es r /\
      run_break (Reflect_Types.mk_break_config (bc_include_beta (cfg_break c)) (bc_allow_beta_deps (cfg_break c))) from to = Ok fails.
  Proof.
    intros Do Dn Vf Vt O. set (cfg := Reflect_Types.mk_break_config (bc_include_beta (cfg_break c)) (bc_allow_beta_deps (cfg_break c))).
    destruct (run_break_valid cfg from to Vf Vt) as (fails & R). assert (S := run_break_spec cfg from to fails (valid_set_named _ Vf) (O _) R).
    assert (Ve : verdict c old new fails) by (exists from, to; auto).
    destruct (print_failures_none cwd json to_json "message" _ fails message_fields) as (es & P & Op & L).
    unfold PackageCmd_Model.break_failures, and_then. fold cfg. rewrite R. cbn [Exec_Model.check]. unfold ret at 1. destruct fails as [|f fails].
    - exists [], [], (Value tt). rewrite adds_nil. split; [reflexivity|]. split; [constructor|]. split; [exact Ve|]. split; [|first [exact R|reflexivity]]. split; [reflexivity|]. split; [|reflexivity].
      exists [FMessage], []. split; [exact message_fields|]. repeat split; constructor.
    - exists (f :: fails), es, (Exit ""). split; [now rewrite P|]. split; [exact Op|]. split; [exact Ve|]. split; [|first [exact R|reflexivity]]. split; [discriminate|]. split; [exact L|reflexivity].
  Qed.
  Theorem break_check_flags args branch path s : branch <> "" -> path <> "" ->
    break_check args branch path s = (s, Exit "can only set one of git-branch, descriptor-set-path").
  Proof. intros A B. unfold PackageCmd_Model.break_check. apply is_empty_false in A, B. now rewrite A, B. Qed.
  Lemma break_check_stored_run args path data stored old new c s : path <> "" -> tree (io_disk s) work_dir args new c ->
    io_disk s path = Ok data -> unmarshal data = Ok stored -> distinct_files [stored] old -> faithful old -> valid_files old ->
    exists fails es r from to, break_check args "" path s = (adds s (Compiled false :: es), r) /\ only_prints es /\ verdict c old new fails /\ announced json to_json fails es r /\
      run_break (Reflect_Types.mk_break_config (bc_include_beta (cfg_break c)) (bc_allow_beta_deps (cfg_break c))) from to = Ok fails /\ valid_set to /\
      new_package_set_of [stored] = Ok from /\ describes new to /\ (exists sets, distinct_files sets new /\ faithful new /\ valid_files new /\ new_package_set_of sets = Ok to).
  Proof.
    intros Np T Hd Hu D F V. destruct (get_packages_tree cwd error_format json to_json stat get_for_dir compiler commands Hfields s work_dir args new c T) as (to & xs & G & _ & Dn & Vt & O & Sets).
    destruct (packages_of_files [stored] old D F V) as (from & xf & E & Es & _ & Do & Vf & _).
    destruct (failures_announced c old new from to (adds s [Compiled false]) Do Dn Vf Vt O) as (fails & es & r & B & Op & Ve & An & R).
    exists fails, es, r, from, to. split; [|repeat (split; [assumption|]); exact Sets].
    unfold PackageCmd_Model.break_check. apply is_empty_false in Np. rewrite Np. cbn [is_empty negb andb]. unfold and_then. rewrite G. cbn [fst snd].
    unfold package_set_for_descriptor_set_path, and_then, read_file. cbn [adds io_disk]. fold (adds s [Compiled false]). rewrite Hd, Hu. cbn [Exec_Model.check]. unfold ret at 1. rewrite E. cbn [Exec_Model.check]. unfold ret at 1 2. cbn [fst]. rewrite B. now rewrite adds_adds.
  Qed.
  Theorem break_check_stored args path data stored old new c s : path <> "" -> tree (io_disk s) work_dir args new c ->
    io_disk s path = Ok data -> unmarshal data = Ok stored -> distinct_files [stored] old -> faithful old -> valid_files old ->
    exists fails es r, break_check args "" path s = (adds s (Compiled false :: es), r) /\ only_prints es /\ verdict c old new fails /\ announced json to_json fails es r.
  Proof.
    intros. destruct (break_check_stored_run args path data stored old new c s) as (fails & es & r & from & to & A & B & C & D & _); auto. exists fails, es, r. auto.
  Qed.

  Lemma inside_prefix d p : inside d p -> has_prefix p d = true.
  Proof.
    intros [->|(r & ->)]; [apply has_prefix_spec; exists ""; now rewrite sapp_nil_r|]. destruct (String.eqb_spec d "/") as [->|].
    - apply has_prefix_spec. now exists r.
    - apply has_prefix_app.
  Qed.
  Lemma rel_dir_in_clone clone rel : rel_dir_path clone rel = in_clone clone rel.
  Proof. unfold rel_dir_path, in_clone. destruct rel as [|a r]; [reflexivity|]. cbn [is_empty negb andb]. change (String.eqb (String a r) "") with false. cbn [orb]. destruct (String.eqb (String a r) "."); reflexivity. Qed.
  Lemma clone_args abs branch clone : clone_of abs branch clone = "git" :: ["clone"; "--depth"; "1"] ++ (if is_empty branch then [] else ["--branch"; branch]) ++ ["file://" +++ abs; clone].
  Proof. unfold clone_of. destruct branch; reflexivity. Qed.
  Lemma abs_clean_ne p : p <> "" -> abs_clean cwd p = path_abs cwd p.
  Proof. apply abs_clean_abs. Qed.

  (** The working directory is a clean absolute path, as os.Getwd returns. *)
  Hypothesis Hwork : work_dir <> "".
  Theorem break_check_git args branch old new c c' clone s : tree (io_disk s) work_dir args new c ->
    is_abs (target args) = false -> inside (path_abs cwd work_dir) (abs_clean cwd (target args)) ->
    stat (path_join [path_abs cwd work_dir; ".git"]) = Ok Directory -> temp_dir = Ok clone ->
    git (tl (clone_of (path_abs cwd work_dir) branch clone)) = Ok tt ->
    tree (io_disk s) clone [in_clone clone (target args)] old c' ->
    exists fails es r, break_check args branch "" s =
        (adds s ([Compiled false; MadeDir clone; Ran (clone_of (path_abs cwd work_dir) branch clone); Compiled false] ++ es ++ [Removed clone]), r) /\
      only_prints es /\ verdict c old new fails /\ announced json to_json fails es r.
  Proof.
    intros T Ab In Gd Td Gi T'. destruct (get_packages_tree cwd error_format json to_json stat get_for_dir compiler commands Hfields s work_dir args new c T) as (to & xs & G & _ & Dn & Vt & O & _).
    set (s2 := adds s [Compiled false; MadeDir clone; Ran (clone_of (path_abs cwd work_dir) branch clone)]).
    destruct (get_packages_tree cwd error_format json to_json stat get_for_dir compiler commands Hfields s2 clone [in_clone clone (target args)] old c' T') as (from & xf & G' & _ & Do & Vf & _).
    destruct (failures_announced c old new from to (adds s2 [Compiled false]) Do Dn Vf Vt O) as (fails & es & r & B & Op & Ve & An & _).
    exists fails, es, r. split; [|auto].
    unfold PackageCmd_Model.break_check. rewrite andb_comm. cbn [is_empty negb andb]. unfold and_then at 1. rewrite G. cbn [fst snd]. change (match args with [a] => a | _ => "." end) with (target args). rewrite Ab.
    rewrite (abs_clean_ne work_dir Hwork). rewrite (inside_prefix _ _ In). cbn [negb]. unfold and_then at 1.
    unfold PackageCmd_Model.temporary_clone. cbv zeta. rewrite (abs_clean_ne work_dir Hwork). unfold and_then at 1. rewrite Gd, Td. cbn [Exec_Model.check]. unfold ret at 1. unfold and_then at 1. unfold ret at 1. unfold and_then at 1. unfold emit at 1. unfold and_then at 1. unfold emit at 1.
    rewrite clone_args in Gi. cbn [tl] in Gi. rewrite Gi. unfold ret at 1.
    match goal with |- deferred _ _ ?x = _ => replace x with s2 end.
    2:{ unfold s2, adds. rewrite clone_args. cbn [io_disk io_done]. now rewrite <- !app_assoc. }
    unfold deferred. rewrite rel_dir_in_clone. unfold and_then. rewrite G'. cbn [fst]. rewrite B. unfold s2. rewrite !adds_adds. unfold adds. cbn [io_disk io_done]. now rewrite <- !app_assoc.
  Qed.
  Theorem break_check_said args branch new c s : tree (io_disk s) work_dir args new c ->
    is_abs (target args) = false -> inside (path_abs cwd work_dir) (abs_clean cwd (target args)) ->
    (forall m, stat (path_join [path_abs cwd work_dir; ".git"]) = Err m -> break_check args branch "" s = (adds s [Compiled false], Fail m)) /\
    (forall k, stat (path_join [path_abs cwd work_dir; ".git"]) = Ok k -> k <> Directory ->
      break_check args branch "" s = (adds s [Compiled false], Fail (GoFmt.quote (path_abs cwd work_dir) +++ " does not contain a .git directory"))) /\
    (forall clone output, stat (path_join [path_abs cwd work_dir; ".git"]) = Ok Directory -> temp_dir = Ok clone ->
      git (tl (clone_of (path_abs cwd work_dir) branch clone)) = Err output ->
      break_check args branch "" s = (adds s [Compiled false; MadeDir clone; Ran (clone_of (path_abs cwd work_dir) branch clone)],
        Fail (join " " (clone_of (path_abs cwd work_dir) branch clone) +++ " had error: " +++ output))).
  Proof.
    intros T Ab In. destruct (get_packages_tree cwd error_format json to_json stat get_for_dir compiler commands Hfields s work_dir args new c T) as (to & xs & G & _).
    assert (B : break_check args branch "" s = (run clone <- temporary_clone work_dir branch; deferred
        (run y <- get_packages clone [rel_dir_path clone (target args)]; break_failures c (fst (fst y)) to) (Removed clone)) (adds s [Compiled false])).
    { unfold PackageCmd_Model.break_check. rewrite andb_comm. cbn [is_empty negb andb]. unfold and_then at 1. rewrite G. cbn [fst snd]. change (match args with [a] => a | _ => "." end) with (target args). rewrite Ab.
      rewrite (abs_clean_ne work_dir Hwork). rewrite (inside_prefix _ _ In). reflexivity. }
    rewrite B. clear B. unfold and_then at 1 3 5. unfold PackageCmd_Model.temporary_clone. cbv zeta. rewrite (abs_clean_ne work_dir Hwork). split; [|split].
    - intros m Gd. unfold and_then at 1. rewrite Gd. reflexivity.
    - intros k Gd N. unfold and_then at 1. rewrite Gd. destruct k; [destruct (N eq_refl)|reflexivity|reflexivity].
    - intros clone output Gd Td Gi. unfold and_then at 1. rewrite Gd, Td. cbn [Exec_Model.check]. unfold ret at 1. unfold and_then at 1. unfold ret at 1. unfold and_then at 1. unfold emit at 1. unfold and_then at 1. unfold emit at 1.
      rewrite clone_args in *. cbn [tl] in Gi. rewrite Gi. unfold fail. f_equal. unfold adds. cbn [io_disk io_done]. now rewrite <- !app_assoc.
  Qed.
  Theorem break_check_absolute args branch new c s : tree (io_disk s) work_dir args new c -> is_abs (target args) = true ->
    break_check args branch "" s = (adds s [Compiled false], Fail ("input argument must be relative directory path: " +++ target args)).
  Proof.
    intros T Ab. destruct (get_packages_tree cwd error_format json to_json stat get_for_dir compiler commands Hfields s work_dir args new c T) as (to & xs & G & _).
    unfold PackageCmd_Model.break_check. rewrite andb_comm. cbn [is_empty negb andb]. unfold and_then. rewrite G. cbn [fst snd]. change (match args with [a] => a | _ => "." end) with (target args). now rewrite Ab.
  Qed.
  Theorem break_check_outside args branch new c s : tree (io_disk s) work_dir args new c -> is_abs (target args) = false ->
    (forall r, abs_clean cwd (target args) <> path_abs cwd work_dir +++ r) ->
    break_check args branch "" s = (adds s [Compiled false], Fail ("input directory must be within working directory: " +++ target args)).
  Proof.
    intros T Ab N. destruct (get_packages_tree cwd error_format json to_json stat get_for_dir compiler commands Hfields s work_dir args new c T) as (to & xs & G & _).
    unfold PackageCmd_Model.break_check. rewrite andb_comm. cbn [is_empty negb andb]. unfold and_then. rewrite G. cbn [fst snd]. change (match args with [a] => a | _ => "." end) with (target args). rewrite Ab.
    rewrite (abs_clean_ne work_dir Hwork). apply has_prefix_false in N. now rewrite N.
  Qed.

  (** What is done. *)
  Lemma does_get_packages dir args : does mild (get_packages dir args).
  Proof.
    unfold get_package_set_and_config. apply does_then.
    - intros s. destruct (get_meta_pure dir stat get_for_dir args) as (r & G & _). exists [], r. rewrite G, adds_nil. auto.
    - intros m. apply does_then.
      + intros s. unfold compile. destruct (compile_pure cwd error_format json to_json file_set compiler false true None m (io_disk s)) as (es & r & P & Op & _). exists (Compiled false :: es), r. split; [now apply P|]. constructor; [now left|]. now apply only_prints_mild.
      + intros sets. apply does_then; [apply does_check|]. intros xs. apply does_ret.
  Qed.
  Lemma does_break_failures c from to : does mild (break_failures c from to).
  Proof.
    unfold PackageCmd_Model.break_failures. apply does_then; [apply does_check|]. intros [|f fs]; [apply does_ret|]. apply does_then; [|intros; apply does_exit].
    intros s. destruct (print_failures_none cwd json to_json "message" _ (f :: fs) message_fields) as (es & P & Op & _). exists es, (Value tt). split; [apply P|]. now apply only_prints_mild.
  Qed.
  Lemma does_stored path : does mild (package_set_for_descriptor_set_path unmarshal path).
  Proof. unfold package_set_for_descriptor_set_path. apply does_then; [apply does_read|]. intros d. apply does_then; [apply does_check|]. intros fs. apply does_then; [apply does_check|]. intros y. apply does_ret. Qed.
  Theorem break_check_does args branch path : does no_write (break_check args branch path).
  Proof.
    unfold PackageCmd_Model.break_check. destruct (negb (is_empty branch) && negb (is_empty path)); [apply does_exit|]. apply does_then; [apply (does_imp mild); [apply mild_no_write|apply does_get_packages]|]. intros x. cbv zeta. destruct (negb (is_empty path)).
    - apply (does_imp mild); [apply mild_no_write|]. apply does_then; [apply does_stored|intros; apply does_break_failures].
    - destruct (is_abs _); [apply does_fail|]. destruct (negb (has_prefix _ _)); [apply does_fail|]. apply does_then.
      + unfold PackageCmd_Model.temporary_clone. cbv zeta. apply does_then; [apply does_check|]. intros []; [|apply does_fail|apply does_fail]. apply does_then; [apply does_check|]. intros clone. apply does_then; [apply does_emit; intros p d; discriminate|]. intros _. apply does_then; [apply does_emit; intros p d; discriminate|]. intros _. destruct (git _); [apply does_ret|apply does_fail].
      + intros clone. apply does_deferred; [intros p d; discriminate|]. apply (does_imp mild); [apply mild_no_write|]. apply does_then; [apply does_get_packages|]. intros y. apply does_break_failures.
  Qed.
  Lemma temporary_clone_events branch s :
    (exists e, temporary_clone work_dir branch s = (s, Fail e)) \/
    exists clone, temp_dir = Ok clone /\ exists r, temporary_clone work_dir branch s = (adds s [MadeDir clone; Ran (clone_of (path_abs cwd work_dir) branch clone)], r) /\
      (r = Value clone \/ exists output e, git (tl (clone_of (path_abs cwd work_dir) branch clone)) = Err output /\ r = Fail e).
  Proof.
    unfold PackageCmd_Model.temporary_clone. cbv zeta. rewrite (abs_clean_ne work_dir Hwork). unfold and_then, emit. destruct (stat (path_join [path_abs cwd work_dir; ".git"])) as [[| |]|e]; cbn [Exec_Model.check]; unfold ret, fail; eauto.
    destruct temp_dir as [clone|e]; cbn [Exec_Model.check]; unfold ret, fail; eauto. right. exists clone. split; [reflexivity|].
    unfold adds. rewrite clone_args. cbn [tl io_disk io_done]. rewrite <- !app_assoc. cbn [app].
    destruct (git _) as [u|output] eqn:G; eexists; (split; [reflexivity|]); [now left|right]. eauto.
  Qed.
  (** The events of a check: those of a command that makes no directory; or the clone is made, and
      removed unless git failed. *)
  Lemma break_check_events args branch path s : exists es r, break_check args branch path s = (adds s es, r) /\
    (Forall mild es \/
     exists a b clone, es = a ++ MadeDir clone :: Ran (clone_of (path_abs cwd work_dir) branch clone) :: b /\ temp_dir = Ok clone /\ Forall mild a /\
       ((exists output, b = [] /\ git (tl (clone_of (path_abs cwd work_dir) branch clone)) = Err output) \/ (exists b', b = b' ++ [Removed clone] /\ Forall mild b'))).
  Proof.
    unfold PackageCmd_Model.break_check. destruct (negb (is_empty branch) && negb (is_empty path)); [destruct (@does_exit unit mild "can only set one of git-branch, descriptor-set-path" s) as (es & r & E & F); exists es, r; auto|].
    unfold and_then at 1. destruct (does_get_packages work_dir args s) as (es & r & E & F). rewrite E. destruct r as [x|e|e]; [|exists es, (Exit e); auto|exists es, (Fail e); auto]. cbv zeta.
    destruct (negb (is_empty path)).
    { destruct (does_then mild _ _ (does_stored path) (fun from => does_break_failures (snd x) from (fst (fst x))) (adds s es)) as (es' & r & E' & F'). exists (es ++ es'), r. rewrite E', adds_adds. split; [reflexivity|]. left. apply Forall_app. auto. }
    destruct (is_abs _); [eexists es, _; split; [reflexivity|auto]|].
    destruct (negb (has_prefix _ _)); [eexists es, _; split; [reflexivity|auto]|].
    unfold and_then at 1. destruct (temporary_clone_events branch (adds s es)) as [(e & ->)|(clone & Td & r & -> & [ -> | (output & e & G & -> ) ])].
    - eexists es, _. split; [reflexivity|auto].
    - unfold deferred. destruct (does_then mild _ _ (does_get_packages clone [rel_dir_path clone (match args with [a] => a | _ => "." end)]) (fun y => does_break_failures (snd x) (fst (fst y)) (fst (fst x))) (adds (adds s es) [MadeDir clone; Ran (clone_of (path_abs cwd work_dir) branch clone)])) as (es' & r & E' & F').
      rewrite E'. exists (es ++ MadeDir clone :: Ran (clone_of (path_abs cwd work_dir) branch clone) :: es' ++ [Removed clone]), r. split.
      + unfold adds. cbn [io_disk io_done]. now rewrite <- !app_assoc.
      + right. exists es, (es' ++ [Removed clone]), clone. split; [reflexivity|]. split; [exact Td|]. split; [exact F|]. right. eauto.
    - rewrite adds_adds. eexists _, _. split; [reflexivity|]. right. exists es, [], clone. split; [reflexivity|]. split; [exact Td|]. split; [exact F|]. left. eauto.
  Qed.
  Lemma mild_made es d : Forall mild es -> ~ In (MadeDir d) es.
  Proof. intros F H. rewrite Forall_forall in F. destruct (F _ H) as [X|(t & X)]; discriminate X. Qed.
  Theorem break_check_cleanup args branch path s es r d : break_check args branch path s = (adds s es, r) -> left_behind es d ->
    temp_dir = Ok d /\ exists output, git (tl (clone_of (path_abs cwd work_dir) branch d)) = Err output.
  Proof.
    intros H (before & after & Ees & Nr). destruct (break_check_events args branch path s) as (es' & r' & E & C). rewrite H in E.
    assert (es' = es). { assert (X := f_equal (fun p => io_done (fst p)) E). cbn in X. now apply app_inv_head in X. } subst es'. clear H E.
    destruct C as [F|(a & b & clone & E & Td & Fa & C)].
    { exfalso. apply (mild_made es d F). rewrite Ees. apply in_elt. }
    assert (X : clone = d /\ after = Ran (clone_of (path_abs cwd work_dir) branch clone) :: b).
    { assert (Q : Ran (clone_of (path_abs cwd work_dir) branch clone) <> MadeDir d) by discriminate. rewrite E in Ees. clear -Ees Fa C Q. revert Ees Q. generalize (Ran (clone_of (path_abs cwd work_dir) branch clone)) as y. intros y Ees Q. revert a Ees Fa. induction before as [|e before IH]; intros a Ees Fa.
      - destruct a as [|x a]; [injection Ees as -> <-; auto|]. injection Ees as -> _. exfalso. now apply (mild_made _ d Fa); left.
      - destruct a as [|x a].
        + cbn in Ees. injection Ees as <- Ees. exfalso. assert (I : In (MadeDir d) (y :: b)) by (rewrite Ees; apply in_elt). destruct I as [I|I]; [contradiction|].
          destruct C as [(o & -> & _)|(b' & -> & F)]; [destruct I|]. apply in_app_or in I as [I|[I|[]]]; [now apply (mild_made _ d F)|discriminate].
        + cbn in Ees. injection Ees as -> Ees. apply (IH a Ees). now inversion Fa. }
    destruct X as (-> & ->). split; [exact Td|]. destruct C as [(o & _ & G)|(b' & -> & _)]; [eauto|]. exfalso. apply Nr. right. apply in_or_app. right. now left.
  Qed.
End Facts.
