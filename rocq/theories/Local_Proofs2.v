(** Files that do not matter make no difference: the methods. *)
From Verif Require Import GoStrFacts GoPathFacts Settings_Model Exec_Model Exec_Spec LintCmd_Model Main_Model Main_Spec Main_Proofs Main_Proofs2 Local_Spec Local_Proofs.
From Verif Require Place_Proofs Lint_Model Grpc_Model PackageCmd_Model Main_Proofs6 Settings_Spec.

(** A command that does not look at files, and changes none. *)
Definition blind {A} (c : cmd A) : Prop := exists es o, forall s, c s = (mk_io (io_disk s) (io_done s ++ es), o).
Lemma blind_same {A} (c : cmd A) o : (forall s, c s = (s, o)) -> blind c.
Proof. intros H. exists [], o. intros s. rewrite H, app_nil_r. now destruct s. Qed.
Lemma blind_ret {A} (a : A) : blind (ret a).
Proof. now apply blind_same with (Value a). Qed.
Lemma blind_fail {A} m : blind (@fail A m).
Proof. now apply blind_same with (Fail m). Qed.
Lemma blind_exit {A} m : blind (@exit255 A m).
Proof. now apply blind_same with (Exit m). Qed.
Lemma blind_check {A} (x : result A) : blind (Exec_Model.check x).
Proof. destruct x; [apply blind_ret|apply blind_fail]. Qed.
Lemma blind_then {A B} (c : cmd A) (k : A -> cmd B) : blind c -> (forall a, blind (k a)) -> blind (and_then c k).
Proof.
  intros (es & o & C) K. destruct o as [a|e|e].
  - destruct (K a) as (es' & o' & K'). exists (es ++ es'), o'. intros s. unfold and_then. rewrite C, K'. cbn [io_disk io_done]. now rewrite app_assoc.
  - exists es, (Exit e). intros s. unfold and_then. now rewrite C.
  - exists es, (Fail e). intros s. unfold and_then. now rewrite C.
Qed.
Lemma blind_emit e : blind (emit e).
Proof. exists [e], (Value tt). reflexivity. Qed.
Lemma blind_print t : blind (print t).
Proof. exists [Printed t], (Value tt). reflexivity. Qed.
Lemma blind_println t : blind (println t).
Proof. unfold println. destruct (is_empty t); [apply blind_ret|apply blind_print]. Qed.
Lemma blind_each {A} (f : A -> cmd unit) l : (forall a, blind (f a)) -> blind (each f l).
Proof. intros H. induction l as [|a l IH]; [apply blind_ret|]. cbn [each]. apply blind_then; [apply H|intros _; exact IH]. Qed.
Ltac blinds := repeat first [apply blind_then; [|intros ?] | apply blind_check | apply blind_ret | apply blind_fail | apply blind_exit | apply blind_emit | apply blind_print | apply blind_println | apply blind_each; intros ? |
  match goal with |- blind (match ?x with _ => _ end) => destruct x end].
Lemma blind_failures cwd json to_json f n m fs : blind (print_failures_for cwd json to_json f n m fs).
Proof. unfold print_failures_for. blinds. Qed.
Lemma blind_report cwd f json to_json m fs : blind (report cwd f json to_json m fs).
Proof. unfold report, print_failures. apply blind_then; [apply blind_failures|intros _; blinds]. Qed.
Lemma blind_meta work stat get args : blind (get_meta work stat get args).
Proof. unfold get_meta. blinds. Qed.

Lemma blind_events details es : forall err, blind (Grpc_Model.on_events details err es).
Proof. induction es as [|e es IH]; intros err; cbn [Grpc_Model.on_events]; [apply blind_ret|]. apply blind_then; [|intros ?; apply IH]. unfold Grpc_Model.on_event. cbv zeta. blinds; unfold Grpc_Model.print_metadata, Grpc_Model.print_proto_message; blinds. Qed.

Section Sim.
  Variable M : string -> Prop.
  Variable d d' : string -> result string.
  (** Two states that agree on what matters, reached by doing the same. *)
  Definition twin (s s' : io) : Prop := io_done s = io_done s' /\ (forall p, M p -> io_disk s p = io_disk s' p) /\
    (forall p, io_disk s p = io_disk s' p \/ (io_disk s p = d p /\ io_disk s' p = d' p)).
  Definition same_end {A} (x y : io * outcome A) : Prop := snd x = snd y /\ twin (fst x) (fst y).
  Lemma blind_end {A} (c : cmd A) s s' : blind c -> twin s s' -> same_end (c s) (c s').
  Proof. intros (es & o & C) (D & P & R). rewrite !C. split; [reflexivity|]. cbn [fst]. split; [cbn; now rewrite D|]. split; cbn [io_disk]; assumption. Qed.
  Lemma end_then {A B} (c c' : cmd A) (k k' : A -> cmd B) s s' : same_end (c s) (c' s') -> (forall a t t', c s = (t, Value a) -> twin t t' -> same_end (k a t) (k' a t')) ->
    same_end (and_then c k s) (and_then c' k' s').
  Proof.
    unfold same_end at 1, and_then. destruct (c s) as [t o], (c' s') as [t' o']. cbn [fst snd]. intros (<- & T) K. destruct o as [a|e|e]; [now apply K|split; [reflexivity|exact T]..].
  Qed.
  Lemma read_end p s s' : M p -> twin s s' -> same_end (read_file p s) (read_file p s').
  Proof. intros N (D & P & R). unfold read_file. rewrite (P p N). destruct (io_disk s' p); (split; [reflexivity|split; auto]). Qed.
  Lemma write_end we p data s s' : twin s s' -> same_end (write_file we p data s) (write_file we p data s').
  Proof.
    intros (D & P & R). unfold write_file. destruct (we p data) as [[rest m]|]; (split; [reflexivity|]); cbn [fst]; (split; [cbn; now rewrite D|]); (split; cbn [io_disk]; intros q; [intros N|]; destruct (String.eqb q p); auto).
  Qed.
  Lemma checked_end {A} (f : (string -> result string) -> result A) s s' : twin s s' -> f (io_disk s) = f (io_disk s') -> same_end ((fun s => Exec_Model.check (f (io_disk s)) s) s) ((fun s => Exec_Model.check (f (io_disk s)) s) s').
  Proof. intros T E. cbv beta. rewrite E. apply blind_end; [apply blind_check|exact T]. Qed.

  Section Exec.
    Variable ord : map_order.
    Variable cwd error_format : string.
    Variable json : bool.
    Variable to_json : failure -> string.
    Variable D : Type.
    Variable compiler : bool -> bool -> option (bool * bool) -> (string -> result string) -> proto_set -> result (list failure * list D).
    Hypothesis Hc : forall a b e x y ps, (forall p, M p -> x p = y p) -> compiler a b e x ps = compiler a b e y ps.
    Variable commands : bool -> proto_set -> result (list string).
    Variable transform : Z -> string -> string -> string -> string -> result (string * list failure).
    Variable diff : string -> string -> string -> result string.
    Variable write_error : string -> string -> option (result string * string).
    Lemma do_compile_end gen set full m s s' : twin s s' -> same_end (do_compile cwd error_format json to_json D compiler gen set full m s) (do_compile cwd error_format json to_json D compiler gen set full m s').
    Proof.
      intros T. unfold do_compile. apply end_then; [apply blind_end; [apply blind_emit|exact T]|]. intros _ t t' _ T1.
      apply end_then; [apply (checked_end (fun disk => compiler gen set full disk (m_set m))); [exact T1|apply Hc, T1]|]. intros x u u' _ T2. apply blind_end; [|exact T2].
      apply blind_then; [apply blind_report|intros _; apply blind_ret].
    Qed.
    Lemma compile_end gen set dry m s s' : twin s s' -> same_end (Exec_Model.compile cwd error_format json to_json D compiler commands gen set dry m s) (Exec_Model.compile cwd error_format json to_json D compiler commands gen set dry m s').
    Proof. intros T. unfold Exec_Model.compile. destruct dry; [apply blind_end; [blinds|exact T]|now apply do_compile_end]. Qed.
    Variable m : meta.
    Variable o di l x : bool.
    Notation format_file := (format_file cwd error_format json to_json transform diff write_error o di l x m).
    Notation format_files := (format_files cwd error_format json to_json transform diff write_error o di l x m).
    Lemma format_file_end f s s' : M (pf_path f) -> twin s s' -> same_end (format_file f s) (format_file f s').
    Proof.
      intros N T. unfold Exec_Model.format_file. destruct (_ && _); [apply blind_end; [apply blind_ret|exact T]|].
      apply end_then; [now apply read_end|]. intros input t t' _ T1. apply end_then; [apply blind_end; [apply blind_check|exact T1]|]. intros [data fs] u u' _ T2.
      destruct fs as [|f0 fs]; [|apply blind_end; [|exact T2]; apply blind_then; [apply blind_failures|intros _; apply blind_ret]].
      destruct (negb (String.eqb input data)); [|apply blind_end; [blinds|exact T2]].
      destruct o; [apply end_then; [now apply write_end|]; intros _ v v' _ T3; apply blind_end; [apply blind_ret|exact T3]|].
      apply blind_end; [|exact T2]. destruct l; [apply blind_then; [apply blind_failures|intros _; apply blind_ret]|]. destruct di; blinds.
    Qed.
    Lemma format_files_end fs : Forall (fun f => M (pf_path f)) fs -> forall b s s', twin s s' -> same_end (format_files b fs s) (format_files b fs s').
    Proof.
      induction 1 as [|f fs F Fs IH]; intros b s s' T; cbn [Exec_Model.format_files]; [apply blind_end; [apply blind_ret|exact T]|].
      apply end_then; [now apply format_file_end|]. intros k t t' _ T1. now apply IH.
    Qed.
    Hypothesis V : visits ord.
    Lemma in_set f : (forall dir fs f, In (dir, fs) (ps_files (m_set m)) -> In f fs -> M (pf_path f)) -> forall place test, In f (concat (map snd (filter test (ord place _ (ps_files (m_set m)))))) -> M (pf_path f).
    Proof.
      intros H place test I. apply in_concat in I as (fs & I1 & I2). apply in_map_iff in I1 as ([dir fs'] & <- & I1). apply filter_In in I1 as (I1 & _). apply V in I1. eapply H; eassumption.
    Qed.
    Hypothesis Hm : forall dir fs f, In (dir, fs) (ps_files (m_set m)) -> In f fs -> M (pf_path f).
    Lemma format_end s s' : twin s s' -> same_end (format ord cwd error_format json to_json transform diff write_error o di l x m s) (format ord cwd error_format json to_json transform diff write_error o di l x m s').
    Proof.
      intros T. unfold format. apply end_then; [apply format_files_end; [|exact T]|].
      - apply Forall_forall. intros f I. eapply in_set; eassumption.
      - intros k t t' _ T1. apply blind_end; [blinds|exact T1].
    Qed.
    Variable run_lint : (string -> result string) -> proto_set -> bool -> result (list failure).
    Hypothesis Hl : forall a b y, (forall p, M p -> a p = b p) -> run_lint a (m_set m) y = run_lint b (m_set m) y.
    Lemma lint_end s s' : twin s s' -> same_end (lint cwd error_format json to_json run_lint m s) (lint cwd error_format json to_json run_lint m s').
    Proof.
      intros T. unfold lint. apply end_then; [apply (checked_end (fun disk => run_lint disk (m_set m) false)); [exact T|apply Hl, T]|]. intros fs t t' _ T1. apply blind_end; [apply blind_report|exact T1].
    Qed.
  End Exec.
  Lemma mapM_same {A B} (f g : A -> result B) l : (forall a, In a l -> f a = g a) -> mapM f l = mapM g l.
  Proof. induction l as [|a l IH]; intros H; [reflexivity|]. cbn [mapM]. rewrite (H a) by now left. rewrite IH by (intros b I; apply H; now right). reflexivity. Qed.
  Lemma run_lint_same ord cwd parse sing x y ps absolute : visits ord -> (forall p, M p -> x p = y p) -> (forall dir fs f, In (dir, fs) (ps_files ps) -> In f fs -> M (pf_path f)) ->
    run_lint ord cwd parse sing x ps absolute = run_lint ord cwd parse sing y ps absolute.
  Proof.
    intros V H P. unfold run_lint, Lint_Model.lint_run. destruct (Lint_Model.get_linters _ _ _ _ _); [|reflexivity]. cbn [bind].
    assert (E : Lint_Model.dir_path_to_descriptors ord (read_proto parse x) ps absolute = Lint_Model.dir_path_to_descriptors ord (read_proto parse y) ps absolute); [|now rewrite E].
    unfold Lint_Model.dir_path_to_descriptors. erewrite mapM_same; [reflexivity|]. intros [dir fs] I. apply filter_In in I as (I & _). apply V in I. cbn [fst snd].
    erewrite mapM_same; [reflexivity|]. intros f F. unfold Lint_Model.read_descriptor, read_proto. rewrite (H (pf_path f)); [reflexivity|]. eapply P; eassumption.
  Qed.
End Sim.

Section Method.
  Variable w : world.
  Hypothesis V : visits (w_order w).
  Variable r : runner.
  Variable d d' : string -> result string.
  Variable M : string -> Prop.
  Variable args : list string.
  Hypothesis A : forall p, M p -> d p = d' p.
  Hypothesis Pl : protoc_looks_at w M.
  Hypothesis provider_local : forall work dir, provider w r d work dir = provider w r d' work dir.
  Hypothesis found_in : forall dir ps x fs f, dir = (match w_stat w (Exec_Spec.target args) with Ok Regular => path_dir (Exec_Spec.target args) | _ => Exec_Spec.target args end) -> (forall e, w_stat w (Exec_Spec.target args) <> Err e) ->
    provider w r d (here r) dir = Ok ps -> In (x, fs) (ps_files ps) -> In f fs -> M (pf_path f).
  Notation twin := (twin M d d').
  Notation same_end := (same_end M d d').
  Lemma compiler_local a b e x y ps : (forall p, M p -> x p = y p) -> the_compiler w r a b e x ps = the_compiler w r a b e y ps.
  Proof.
    intros H. destruct (Pl x y H) as (P1 & P2). unfold the_compiler. cbv zeta.
    match goal with |- match snd ?u with _ => _ end = match snd ?v with _ => _ end => assert (E : u = v); [|now rewrite E] end.
    apply compile_ext; [intros t; apply P2|intros i; apply P1].
  Qed.
  Lemma meta_end {B} (k k' : meta -> cmd B) s s' : twin s s' ->
    (forall m t t', (forall dir fs f, In (dir, fs) (ps_files (m_set m)) -> In f fs -> M (pf_path f)) -> twin t t' -> same_end (k m t) (k' m t')) ->
    same_end (and_then (get_meta (here r) (w_stat w) (provider w r d) args) k s) (and_then (get_meta (here r) (w_stat w) (provider w r d') args) k' s').
  Proof.
    intros T K. apply end_then.
    - rewrite <- (Main_Proofs6.get_meta_same (here r) (w_stat w) (provider w r d) (provider w r d') args s' provider_local). apply blind_end; [apply blind_meta|exact T].
    - intros m t t' E T1. apply K; [|exact T1]. intros dir fs f I1 I2.
      unfold get_meta, and_then, Exec_Model.check, ret, fail in E. change (match args with [a] => a | _ => "." end) with (Exec_Spec.target args) in E. destruct (w_stat w (Exec_Spec.target args)) as [[]|] eqn:S; cbn in E; try discriminate E;
        (destruct (provider w r d _ _) eqn:Q; cbn in E; [|discriminate E]); injection E as <- <-; cbn [m_set] in I1; (eapply (found_in _ _ dir fs f); [reflexivity|discriminate|exact Q|exact I1|exact I2]).
  Qed.

  Lemma start done : twin (mk_io d done) (mk_io d' done).
  Proof. split; [|split]; [reflexivity|cbn [io_disk]; assumption|cbn [io_disk]; auto]. Qed.
  Ltac blindly := apply blind_end; [blinds|assumption].
  Ltac meta := apply meta_end; [assumption|]; intros ?m ?t ?t' ?Hm ?T.
  Ltac compiled := apply end_then; [apply compile_end; [intros; now apply compiler_local|assumption]|]; intros ?sets ?t ?t' _ ?T.
  Lemma lint_ends m s s' : (forall dir fs f, In (dir, fs) (ps_files (m_set m)) -> In f fs -> M (pf_path f)) -> twin s s' ->
    same_end (lint (here r) (r_error_format r) (r_json r) Json_Model.failure_json (the_lint w r) m s) (lint (here r) (r_error_format r) (r_json r) Json_Model.failure_json (the_lint w r) m s').
  Proof. intros Hm T. apply lint_end; [|exact T]. intros a b y H. exact (run_lint_same M (w_order w) (here r) (w_parse w) (w_singularize w) a b (m_set m) y V H Hm). Qed.
  Lemma ignores_ends m s s' : (forall dir fs f, In (dir, fs) (ps_files (m_set m)) -> In f fs -> M (pf_path f)) -> twin s s' ->
    let go := generate_ignores (w_order w) (here r) (w_parse w) (w_singularize w) (w_encode_ignores w) m in same_end (go s) (go s').
  Proof.
    intros Hm T. cbv zeta. unfold generate_ignores. cbv zeta. apply end_then.
    - apply (checked_end M d d' (fun disk => run_lint (w_order w) (here r) (w_parse w) (w_singularize w) disk (with_ignores [] (m_set m)) true)); [exact T|].
      exact (run_lint_same M (w_order w) (here r) (w_parse w) (w_singularize w) (io_disk s) (io_disk s') (with_ignores [] (m_set m)) true V (proj1 (proj2 T)) Hm).
    - intros fs t t' _ T1. blindly.
  Qed.
  Lemma set_end a b e f s s' : twin s s' -> let go := fun get => PackageCmd_Model.descriptor_set (here r) (here r) (r_error_format r) (r_json r) Json_Model.failure_json (w_stat w) get (the_compiler w r) (w_sha256 w) (w_marshal w) (w_set_json w) (w_write_error w) (w_temp_file w) args a b e f in
    same_end (go (provider w r d) s) (go (provider w r d') s').
  Proof.
    intros T0. cbv zeta. unfold PackageCmd_Model.descriptor_set. destruct (_ && _); [blindly|]. meta. apply end_then; [apply do_compile_end; [intros; now apply compiler_local|assumption]|].
    intros sets u u' _ T1. apply end_then; [blindly|]. intros merged v v' _ T2. apply end_then; [blindly|]. intros data x x' _ T3.
    destruct (_ && _); [blindly|]. destruct (negb _); [now apply write_end|]. apply end_then; [blindly|]. intros name y y' _ T4. apply end_then; [now apply write_end|]. intros _ z z' _ T5. blindly.
  Qed.
  Lemma packages_end s s' : twin s s' -> let go := fun get => PackageCmd_Model.get_package_set_and_config (here r) (r_error_format r) (r_json r) Json_Model.failure_json (w_stat w) get (the_compiler w r) (the_commands w r) (here r) args in
    same_end (go (provider w r d) s) (go (provider w r d') s').
  Proof. intros T0. cbv zeta. unfold PackageCmd_Model.get_package_set_and_config. meta. compiled. blindly. Qed.

  Lemma given_end p s s' : d p = d' p -> twin s s' -> same_end (read_file p s) (read_file p s').
  Proof.
    intros E (D & P & R). assert (X : io_disk s p = io_disk s' p) by (destruct (R p) as [X|(X & Y)]; congruence).
    unfold read_file. rewrite X. destruct (io_disk s' p); (split; [reflexivity|split; auto]).
  Qed.
  Definition reads_files (k : Cmd_Model.call) : Prop :=
    match k with
    | Cmd_Model.CallInit _ _ _ | Cmd_Model.CallCreate _ _ | Cmd_Model.CallCacheDelete => False
    | Cmd_Model.CallBreakCheck _ _ p => p <> "" /\ d p = d' p
    | _ => True
    end.
  Lemma method_simulates k done : Place_Proofs.of_args args k -> reads_files k -> same_end (Main_Model.method w r k (mk_io d done)) (Main_Model.method w r k (mk_io d' done)).
  Proof.
    intros O K. pose proof (start done) as T0. destruct k; try contradiction K; cbn [Place_Proofs.of_args] in O; try (match type of O with ?x = _ => subst x end); unfold Main_Model.method; cbv zeta; cbn [io_disk].
    - unfold version_cmd. cbv zeta. blindly.
    - unfold cache_update. cbn [io_disk]. meta. blindly.
    - unfold files_cmd. meta. blindly.
    - unfold compile_cmd. meta. compiled. blindly.
    - unfold gen_cmd. meta. compiled. blindly.
    - unfold lint_cmd. destruct (more_than_one_set _); [blindly|]. destruct list_all_lint_groups; [apply blind_end; [unfold LintCmd_Model.list_all_lint_groups; blinds|assumption]|].
      destruct (negb _); [apply blind_end; [unfold LintCmd_Model.diff_lint_groups; blinds; unfold LintCmd_Model.get_linter_ids; blinds|assumption]|]. meta. 
      do 3 (match goal with |- same_end ((if ?b then _ else _) _) _ => destruct b end; [apply blind_end; [unfold LintCmd_Model.list_all_linters, LintCmd_Model.list_linters, LintCmd_Model.list_lint_group, LintCmd_Model.print_linters; blinds|assumption]|]).
      compiled. destruct generate_ignores; [now apply ignores_ends|now apply lint_ends].
    - unfold format_cmd. destruct (more_than_one_set _); [blindly|]. meta. compiled. apply format_end; assumption.
    - unfold all_cmd. meta. compiled. apply end_then; [destruct disable_format; [blindly|apply format_end; assumption]|]. intros _ u u' _ T2. compiled. destruct disable_lint; [blindly|now apply lint_ends].
    - unfold Grpc_Model.grpc. destruct (Grpc_Model.check_flags _); [blindly|]. do 4 (apply end_then; [blindly|intros ? ? ? _ ?]). meta. compiled. 
      destruct sets; [blindly|]. apply blind_end; [|assumption]. unfold Grpc_Model.invoke, Grpc_Model.dial_handler. cbv zeta.
      repeat first [apply blind_then; [|intros ?] | apply blind_events | apply blind_check | apply blind_ret | apply blind_fail | apply blind_emit | match goal with |- blind (match ?x with _ => _ end) => destruct x end].
    - unfold PackageCmd_Model.inspect_packages. apply end_then; [now apply packages_end|]. intros x t t' _ T. apply blind_end; [unfold PackageCmd_Model.print_package_names; blinds|assumption].
    - unfold PackageCmd_Model.inspect_package_deps, PackageCmd_Model.get_package. apply end_then; [|intros; apply blind_end; [unfold PackageCmd_Model.print_package_names; blinds|assumption]].
      destruct (is_empty _); [blindly|]. apply end_then; [now apply packages_end|]. intros; blindly.
    - unfold PackageCmd_Model.inspect_package_importers, PackageCmd_Model.get_package. apply end_then; [|intros; apply blind_end; [unfold PackageCmd_Model.print_package_names; blinds|assumption]].
      destruct (is_empty _); [blindly|]. apply end_then; [now apply packages_end|]. intros; blindly.
    - cbn [reads_files] in K. destruct K as (N & E). unfold PackageCmd_Model.break_check. destruct (_ && _); [blindly|]. apply end_then; [now apply packages_end|]. intros x t t' _ T. apply is_empty_false in N. cbv zeta. rewrite N. cbn [negb].
      unfold PackageCmd_Model.package_set_for_descriptor_set_path. apply end_then.
      + apply end_then; [now apply given_end|]. intros data u u' _ T1. blindly.
      + intros from u u' _ T1. apply blind_end; [|assumption]. unfold PackageCmd_Model.break_failures. apply blind_then; [apply blind_check|intros fs]. destruct fs; [apply blind_ret|]. apply blind_then; [apply blind_failures|intros _; apply blind_exit].
    - unfold PackageCmd_Model.break_descriptor_set. destruct (is_empty _); [blindly|]. now apply set_end.
    - now apply set_end.
  Qed.
End Method.

Section Local.
  Variable w : world.
  Variable r : runner.
  Variable d d' : string -> result string.
  Notation S := (settings_file w (r_config_data r) d).
  Hypothesis As : forall p, S p -> d p = d' p.

  Lemma config_base cs f : ok_comps cs -> In f config_filenames -> config_name (abs_path (cs ++ [f])).
  Proof. intros O I. unfold config_name. rewrite path_base_abs; [|exact O|destruct I as [<-|[<-|[]]]; reflexivity]. destruct I as [<-|[<-|[]]]; auto. Qed.
  Lemma provider_local work dir : provider w r d work dir = provider w r d' work dir.
  Proof.
    unfold provider. destruct (is_empty (r_config_data r)) eqn:Nd.
    - assert (Ed : r_config_data r = "") by (destruct (r_config_data r); [reflexivity|discriminate Nd]).
      rewrite (provider_get_same S (exists_at w d') (exists_at w d) d' d); [reflexivity|..].
      + intros cs f O I. unfold exists_at. rewrite As; [reflexivity|]. apply Configuration; [exact Ed|]. now apply config_base.
      + intros p N. symmetry. now apply As.
      + intros cs f O I. apply Configuration; [exact Ed|]. now apply config_base.
      + intros cs f text e O I R E N. eapply Header; eauto. now apply config_base.
      + intros e x X E N. now destruct X.
    - rewrite (provider_get_given (exists_at w d') (exists_at w d) d' d); [reflexivity|exact Nd|].
      intros e x E N. symmetry. apply As, Header_given; [|exact E|exact N]. intros X. now rewrite X in Nd.
  Qed.
End Local.
Section Matters.
  Variable w : world.
  Hypothesis V : visits (w_order w).
  Variable r : runner.
  Variable d d' : string -> result string.
  Notation M := (matters w (r_config_data r) d).
  Hypothesis A : forall p, M p -> d p = d' p.
  Hypothesis Pl : protoc_looks_at w M.
  Lemma method_local args k done : Place_Proofs.of_args args k -> reads_files d d' k -> same_end M d d' (Main_Model.method w r k (mk_io d done)) (Main_Model.method w r k (mk_io d' done)).
  Proof.
    apply (method_simulates w V r d d' M args A Pl (provider_local w r d d' (fun p X => A p (or_intror X)))). intros dir ps x fs f _ _ E I1 I2. left. eapply protos_of; [|exact I1|exact I2]. eapply found_protos; eassumption.
  Qed.
End Matters.
