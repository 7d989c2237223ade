(** What each method may do, and that the files found are named *.proto. *)
From Verif Require Import GoStrFacts GoMapFacts File_Proofs.
From Verif Require Import Main_Model Main_Proofs.

Section Ext.
  Definition protos (fs : list proto_file) : Prop := Forall (fun f => path_ext (pf_path f) = ".proto") fs.
  Definition protos_in (m : list (string * list proto_file)) : Prop := Forall (fun e => protos (snd e)) m.
  Lemma protos_put d fs m : protos fs -> protos_in m -> protos_in (gput d fs m).
  Proof.
    intros H M. induction M as [|[k v] m X M IH]; cbn [gput]; [now repeat constructor|].
    destruct (keqb d k); constructor; auto.
  Qed.
  Lemma protos_get d m : protos_in m -> protos (match gget d m with Some l => l | None => [] end).
  Proof.
    intros M. destruct (gget d m) eqn:E; [|constructor]. apply gget_In in E.
    unfold protos_in in M. rewrite Forall_forall in M. apply (M _ E).
  Qed.
  Variable ord : order.
  Hypothesis V : visits ord.
  Variable cwd : string.
  Variable node_at : string -> node.
  Variable ex : string -> bool.
  Variable read : string -> result string.
  Variable dj dy : string -> result external_config.
  Variable look : string -> result string.
  Variable sort : list gen_plugin -> list gen_plugin.
  Variable devel : bool.
  Variable data : string.
  Lemma walk_protos work root n : forall path st st', walk ex read dj dy data work root path n st = Ok st' ->
    protos (w_files st) -> protos (w_files st').
  Proof.
    induction n as [| | |es IH] using node_ind'; intros path st st' W F.
    - cbn [walk] in W. unfold visit_path in W. destruct (String.eqb (path_ext path) ".proto") eqn:E; cbn [negb] in W.
      + apply String.eqb_eq in E. destruct (is_excluded _ _ _); cbn [bind snd] in W; injection W as <-; [assumption|].
        cbn [w_files]. apply Forall_app. split; [assumption|]. now repeat constructor.
      + cbn [bind snd] in W. now injection W as <-.
    - discriminate W.
    - discriminate W.
    - cbn [walk] in W.
      destruct (visit_path ex read dj dy data work root path true st) as [[v st1]|] eqn:E; [|discriminate W]. cbn [bind] in W.
      assert (F1 : protos (w_files st1)).
      { unfold visit_path in E. destruct (is_empty data).
        - destruct (get_exclude_prefixes_for_dir _ _ _ _ _); [|discriminate E]. cbn [bind] in E.
          destruct (is_excluded _ _ _); injection E as <- <-; assumption.
        - cbn [bind] in E. destruct (is_excluded _ _ _); injection E as <- <-; assumption. }
      destruct v; [|now injection W as <-]. clear E F.
      revert st1 W F1. induction es as [|[name c] es IHes]; intros st1 W F1; [now injection W as <-|].
      inversion IH as [|? ? Hc Hr]; subst. cbn [snd] in Hc.
      destruct (walk ex read dj dy data work root (path_join [path; name]) c st1) as [st2|] eqn:E; [|discriminate W]. cbn [bind] in W.
      apply (IHes Hr _ W). eapply Hc; eassumption.
  Qed.
  Lemma dirs_protos fs : protos fs -> protos_in (dir_path_to_proto_files fs).
  Proof.
    unfold dir_path_to_proto_files. intros F. assert (M : protos_in []) by constructor. revert M. generalize (@nil (string * list proto_file)).
    induction F as [|f fs X F IH]; intros m M; cbn [fold_left]; [assumption|]. apply IH. apply protos_put; [|assumption].
    apply Forall_app. split; [now apply protos_get|now repeat constructor].
  Qed.
  Lemma add_dirs_protos work ds : protos_in ds -> forall m m',
    add_dirs ex read dj dy look sort devel data work ds m = Ok m' ->
    Forall (fun e => protos_in (fst (snd e))) m -> Forall (fun e => protos_in (fst (snd e))) m'.
  Proof.
    induction 1 as [|[d fs] ds X F IH]; intros m m' A M; cbn [add_dirs] in A; [now injection A as <-|].
    destruct (add_dir ex read dj dy look sort devel data work m (d, fs)) as [m1|] eqn:E; [|discriminate A]. cbn [bind] in A.
    apply (IH _ _ A). clear A IH. unfold add_dir in E.
    destruct (if is_empty data then _ else _) as [cf|]; [|discriminate E]. cbn [bind] in E.
    destruct (if negb (is_empty data) then _ else _) as [c|]; [|discriminate E]. cbn [bind] in E. injection E as <-.
    assert (G : protos_in (match gget cf m with Some (files, _) => files | None => [] end)).
    { destruct (gget cf m) as [[fl c']|] eqn:E; [|constructor]. apply gget_In in E. rewrite Forall_forall in M. apply (M _ E). }
    assert (N : protos_in (gput d (match gget d (match gget cf m with Some (files, _) => files | None => [] end) with Some l => l | None => [] end ++ fs)
                   (match gget cf m with Some (files, _) => files | None => [] end))).
    { apply protos_put; [|assumption]. apply Forall_app. split; [now apply protos_get|assumption]. }
    revert N. generalize (gput d (match gget d (match gget cf m with Some (files, _) => files | None => [] end) with Some l => l | None => [] end ++ fs)
                   (match gget cf m with Some (files, _) => files | None => [] end)). clear - M. intros new N.
    induction M as [|[k v] m X M IH]; cbn [gput]; [now repeat constructor|].
    destruct (keqb cf k); constructor; auto.
  Qed.
  Lemma provider_protos work dir ps : provider_get_for_dir ord cwd node_at ex read dj dy look sort devel data work dir = Ok ps ->
    protos_in (ps_files ps).
  Proof.
    unfold provider_get_for_dir, get_multiple_for_dir. set (W := abs_clean cwd work).
    destruct (if is_empty data then _ else _) as [root|]; [|discriminate]. cbn [bind].
    destruct (walk_and_get_all_proto_files node_at ex read dj dy data W root) as [fs|] eqn:E; [|discriminate]. cbn [bind].
    destruct (base_proto_sets ord ex read dj dy look sort devel data W (dir_path_to_proto_files fs)) as [sets|] eqn:B; [|discriminate]. cbn [bind].
    destruct (mapM _ _); [|discriminate]. cbn [bind].
    assert (F : protos fs).
    { unfold walk_and_get_all_proto_files in E. destruct (initial_excludes _ _ _) as [e|]; [|discriminate E]. cbn [bind] in E.
      destruct (walk _ _ _ _ _ _ _ _ _ _) as [st|] eqn:K; [|discriminate E]. cbn [bind] in E. injection E as <-.
      apply walk_protos in K; [assumption|constructor]. }
    apply dirs_protos in F.
    assert (G : Forall (fun s => protos_in (fst s)) sets).
    { unfold base_proto_sets in B. destruct (dir_path_to_proto_files fs) as [|d ds] eqn:D.
      - destruct (default_base_proto_set _ _ _ _ _ _ _ _ _) as [s|] eqn:Q; [|discriminate B]. cbn [bind] in B. injection B as <-.
        unfold default_base_proto_set in Q. destruct (if is_empty data then _ else _); [|discriminate Q]. cbn [bind] in Q. injection Q as <-.
        constructor; [constructor|constructor].
      - rewrite <- D in *. clear D.
        destruct (add_dirs _ _ _ _ _ _ _ _ _ _ _) as [m|] eqn:Q; [|discriminate B]. cbn [bind] in B. injection B as <-.
        apply add_dirs_protos in Q; [|apply Forall_forall; intros x I; apply V in I; unfold protos_in in F; rewrite Forall_forall in F; now apply F|constructor].
        apply Forall_map. exact Q. }
    destruct sets as [|s [|s' sets]]; [discriminate| |discriminate]. cbn [map]. intros [= <-]. cbn [ps_files].
    inversion G; subst. eapply Permutation_Forall; [apply (isort_perm (fun a b => str_leb (fst a) (fst b)))|eassumption].
  Qed.
End Ext.

(** What a call may do. *)
Definition may (w : world) (r : runner) (k : Cmd_Model.call) (e : event) : Prop :=
  match e with
  | Printed _ => True
  | Compiled true => match k with CallGen _ dry => dry = false | CallAll _ _ _ _ => True | _ => False end
  | Compiled false =>
      match k with
      | CallInit _ _ _ | CallCreate _ _ | CallVersion | CallCacheUpdate _ | CallCacheDelete | CallFiles _ | CallGen _ _ => False
      | CallCompile _ dry => dry = false
      | _ => True
      end
  | Wrote p _ =>
      match k with
      | CallInit args _ _ => p = path_join [match args with [d] => d | _ => r_work_dir r end; "prototool.yaml"]
      | CallCreate fs _ => exists f, In f fs /\ p = path_abs (r_work_dir r) f
      | CallFormat _ o _ _ _ => o = true /\ path_ext p = ".proto"
      | CallAll _ disable _ _ => disable = false /\ path_ext p = ".proto"
      | CallDescriptorSet _ _ _ out tmp => (out <> "" /\ p = out) \/ (tmp = true /\ w_temp_file w = Ok p)
      | CallBreakDescriptorSet _ out => out <> "" /\ p = out
      | _ => False
      end
  | MadeDir p =>
      match k with
      | CallInit args _ _ => args = [p]
      | CallBreakCheck _ _ d => d = "" /\ w_temp_dir w = Ok p
      | _ => False
      end
  | Ran l => match k with CallBreakCheck _ _ d => d = "" /\ exists l', l = "git" :: "clone" :: l' | _ => False end
  | Removed p =>
      match k with
      | CallCacheDelete => exists c d, downloader_for w r c = Ok d /\ deleted_path (w_goos w) (w_goarch w) (w_getenv w) (r_work_dir r) d = Ok p
      | CallBreakCheck _ _ d => d = "" /\ w_temp_dir w = Ok p
      | _ => False
      end
  | Dialed _ | Called _ => match k with CallGRPC _ _ _ _ _ _ _ _ _ _ _ _ _ _ _ _ => True | _ => False end
  | Downloaded _ => match k with CallCacheUpdate _ => True | _ => False end
  end.
Lemma does_found {A} (P : event -> Prop) work stat get args (k : meta -> cmd A) : (forall t, P (Printed t)) ->
  (forall m, (exists a b, get a b = Ok (m_set m)) -> does P (k m)) -> does P (and_then (get_meta work stat get args) k).
Proof.
  intros H K. intros s.
  destruct (get_meta work stat get args s) as [s1 o] eqn:E.
  assert (s1 = s /\ forall m, o = Value m -> exists a b, get a b = Ok (m_set m)) as [-> G].
  { unfold get_meta, and_then, Exec_Model.check, ret, fail in E. destruct (stat _) as [[]|]; cbn in E; try (injection E as <- <-; split; [reflexivity|intros m; discriminate]);
      (destruct (get _ _) eqn:Q; cbn in E; injection E as <- <-; (split; [reflexivity|]); intros m; [intros [= <-]; eauto|discriminate]). }
  unfold and_then. rewrite E. destruct o as [m|m|m].
  - apply K. auto.
  - apply (does_exit P (A:=A) m).
  - apply (does_fail P (A:=A) m).
Qed.
Ltac print_ok := intros; exact I.
Lemma mapM_in {A B} (f : A -> result B) l : forall bs, mapM f l = Ok bs -> forall a, In a l -> exists b, f a = Ok b.
Proof.
  induction l as [|x l IH]; intros bs H a I; [destruct I|]. cbn [mapM] in H. destruct (f x) eqn:E; [|discriminate H]. cbn [bind] in H.
  destruct (mapM f l) eqn:M; [|discriminate H]. destruct I as [->|I]; [eauto|]. eapply IH; eauto.
Qed.
Ltac met := apply does_found; [intros; exact I|]; intros ? (? & ? & ?).
Lemma found_protos w r d a b ps : visits (w_order w) -> provider w r d a b = Ok ps -> protos_in (ps_files ps).
Proof.
  intros V. unfold provider. destruct (provider_get_for_dir _ _ _ _ _ _ _ _ _ _ _ _ _) as [ps'|] eqn:E; [|discriminate]. cbn [bind].
  apply provider_protos in E; [|assumption]. destruct (_ =? 0)%Z; [intros [= <-]; assumption|].
  destruct (w_too_slow _ _ _); [discriminate|intros [= <-]; assumption].
Qed.
Lemma protos_of ps d fs f : protos_in (ps_files ps) -> In (d, fs) (ps_files ps) -> In f fs -> path_ext (pf_path f) = ".proto".
Proof.
  unfold protos_in, protos. rewrite Forall_forall. intros H A B. specialize (H _ A). cbn in H. rewrite Forall_forall in H. auto.
Qed.
Lemma same_value {A} (P : event -> Prop) {B} (a : A) (k : A -> cmd B) : does P (k a) -> does P (and_then (ret a) k).
Proof. exact (fun H => H). Qed.
Lemma checked {A B} (P : event -> Prop) (x : result A) (k : A -> cmd B) : (forall a, x = Ok a -> does P (k a)) -> does P (and_then (Exec_Model.check x) k).
Proof. intros H. destruct x as [a|m]; [exact (H a eq_refl)|]. exact (does_fail P m). Qed.
Lemma known {A B} (P : event -> Prop) (c : cmd A) (k : A -> cmd B) : does P c -> (forall s s' a, c s = (s', Value a) -> does P (k a)) -> does P (and_then c k).
Proof.
  intros C K s. destruct (C s) as (es & D & F & W). unfold and_then. destruct (c s) as [s1 [a|m|m]] eqn:Q; cbn [fst] in *; eauto.
  destruct (K _ _ _ Q s1) as (es' & D' & F' & W'). exists (es ++ es'). rewrite D', D, app_assoc. split; [reflexivity|].
  split; [now apply Forall_app|]. intros p H.
  destruct (result_string_dec (io_disk s1 p) (io_disk s p)) as [E|E].
  - rewrite <- E in H. destruct (W' p H) as (d & I). exists d. apply in_app_iff. auto.
  - destruct (W p E) as (d & I). exists d. apply in_app_iff. auto.
Qed.
Ltac compiled_ok := apply does_then; [apply does_compile; [intros; exact I|intros _; exact I]|].

Section Packages.
  Variable P : event -> Prop.
  Hypothesis Hp : forall t, P (Printed t).
  Hypothesis Hc : P (Compiled false).
  Lemma does_get_package_set cwd format json to_json stat get compiler commands dir args :
    does P (get_package_set_and_config cwd format json to_json stat get compiler commands dir args).
  Proof.
    unfold get_package_set_and_config. apply does_then; [now apply does_get_meta|intros m].
    apply does_then; [apply does_compile; [assumption|intros _; assumption]|intros ?]. doing.
  Qed.
  Lemma does_print_names ord {A} (m : list (string * A)) : does P (print_package_names ord m).
  Proof. unfold print_package_names. doing. Qed.
  Lemma does_break_failures cwd json to_json c from to : does P (break_failures cwd json to_json c from to).
  Proof.
    unfold break_failures. apply does_then; [apply does_check|intros [|f fs]]; [apply does_ret|].
    apply does_then; [now apply does_print_failures_for|intros; apply does_exit].
  Qed.
  Lemma does_descriptor_set cwd work format json to_json stat get compiler sha marshal tojson werr temp args imports info out tmp :
    (forall p d, (out <> "" /\ p = out) \/ (tmp = true /\ temp = Ok p) -> P (Wrote p d)) ->
    does P (descriptor_set cwd work format json to_json stat get compiler sha marshal tojson werr temp args imports info out tmp).
  Proof.
    intros H. unfold descriptor_set. destruct (_ && tmp) eqn:E0; [apply does_exit|].
    apply does_then; [now apply does_get_meta|intros m].
    apply does_then; [now apply does_do_compile|intros sets].
    apply does_then; [apply does_check|intros merged]. apply does_then; [apply does_check|intros data].
    destruct (is_empty out) eqn:E; cbn [negb andb] in *.
    - destruct tmp; cbn [negb].
      + apply checked. intros name T. apply does_then; [apply does_write; apply H; auto|intros _]. now apply does_println.
      + now apply does_print.
    - apply does_write. apply H. left. split; [intros ->; discriminate E|reflexivity].
  Qed.
  Lemma does_events details es : forall err, does P (Grpc_Model.on_events details err es).
  Proof.
    induction es as [|e es IH]; intros err; cbn [Grpc_Model.on_events]; [apply does_ret|]. apply does_then; [|intros; apply IH].
    unfold Grpc_Model.on_event, Grpc_Model.print_proto_message, Grpc_Model.print_metadata. doing.
  Qed.
  Lemma does_clone cwd stat temp git dir branch :
    (forall p, temp = Ok p -> P (MadeDir p)) -> (forall l, P (Ran ("git" :: "clone" :: l))) ->
    does P (temporary_clone cwd stat temp git dir branch).
  Proof.
    intros T G. unfold temporary_clone. cbv zeta. apply does_then; [apply does_check|intros []]; try apply does_fail.
    apply checked. intros c C. apply does_then; [apply does_emit; auto|intros _]. apply does_then; [apply does_emit; apply G|intros _]. doing.
  Qed.
  Lemma clone_is cwd stat temp git dir branch s s' a : temporary_clone cwd stat temp git dir branch s = (s', Value a) -> temp = Ok a.
  Proof.
    unfold temporary_clone, and_then, Exec_Model.check, emit, fail, ret. cbv zeta. destruct (stat _) as [[]|]; cbn; try congruence.
    destruct temp; cbn; [|congruence]. destruct (git _); cbn; congruence.
  Qed.
End Packages.

Lemma does_print_linters (P : event -> Prop) purpose c ls : (forall t, P (Printed t)) -> does P (print_linters purpose c ls).
Proof. intros H. unfold print_linters. cbv zeta. destruct (isort _ ls); [apply does_ret|]. now apply does_print. Qed.
Lemma does_at {A} (P : event -> Prop) (c : cmd A) : (forall s, exists c', c s = c' s /\ does P c') -> does P c.
Proof. intros H s. destruct (H s) as (c' & E & D). rewrite E. apply D. Qed.
Ltac at_state := apply does_at; intros s; cbv beta; eexists; split; [reflexivity|].

Theorem method_may w r k : visits (w_order w) -> does (may w r k) (Main_Model.method w r k).
Proof.
  intros V. set (P := may w r k).
  assert (Hp : forall t, P (Printed t)) by (intros; exact I).
  destruct k; cbv beta zeta delta [Main_Model.method].
  - (* init *)
    change (does P (init (here r) (w_mkdir_all w) (fun p => match w_stat w p with Ok _ => true | Err _ => false end) (w_write_error w) default_protoc_version args uncomment document)).
    unfold init. destruct (1 <? length args) eqn:L; [apply does_fail|].
    assert (G : forall dir, dir = match args with [d] => d | _ => r_work_dir r end -> does P
       (let path := path_join [dir; "prototool.yaml"] in
        run b <- is_there (fun p => match w_stat w p with Ok _ => true | Err _ => false end) path;
        (if b then fail (path +++ " already exists") else write_file (w_write_error w) path (generate default_protoc_version uncomment document)))).
    { intros dir D. cbv zeta. apply does_then; [apply (does_nothing P)|]. intros []; [apply does_fail|].
      apply does_write. cbn. now rewrite D. }
    destruct args as [|a [|b args]]; [|  |discriminate L].
    + apply same_value. now apply G.
    + apply known.
      * apply does_then; [unfold make_dir; destruct (w_mkdir_all w a); [apply does_fail|apply does_emit; reflexivity]|intros; apply does_ret].
      * intros s s' x E. apply G. unfold and_then, make_dir in E. destruct (w_mkdir_all w a); cbn in E; [discriminate E|]. now injection E as _ <-.
  - (* create *)
    change (does P (create_cmd w r args pkg)). unfold create_cmd. cbv zeta. at_state. apply does_then; [apply does_check|intros _]. apply does_each. intros f F. apply does_then; [apply does_check|intros d].
    apply does_write. cbn. eauto.
  - (* version *) change (does P (version_cmd w r)). unfold version_cmd. doing.
  - (* cache update *)
    change (does P (cache_update w r args)). unfold cache_update. at_state. met. apply checked. intros d D. destruct (d_bin_path d); [|apply does_ret].
    apply does_then; [apply does_check|intros b]. apply does_then; [apply does_emit; exact I|intros; apply does_check].
  - (* cache delete *)
    change (does P (cache_delete_cmd w r)). unfold cache_delete_cmd. at_state. met. apply checked. intros d D. apply checked. intros b B.
    apply does_then; [apply does_emit; cbn; eauto|intros _]. doing.
  - (* files *) at_state. unfold files_cmd. met. doing.
  - (* compile *) at_state. unfold compile_cmd. met.
    apply does_then; [apply does_compile; [assumption|intros ->; reflexivity]|intros; apply does_ret].
  - (* generate *) at_state. unfold gen_cmd. met.
    apply does_then; [apply does_compile; [assumption|intros ->; reflexivity]|intros; apply does_ret].
  - (* lint *) at_state. unfold lint_cmd. destruct (more_than_one_set _); [apply does_exit|].
    destruct list_all_lint_groups; [unfold LintCmd_Model.list_all_lint_groups; doing|].
    destruct (negb (is_empty diff_lint_groups)).
    { unfold LintCmd_Model.diff_lint_groups, get_linter_ids. doing. }
    met. unfold LintCmd_Model.list_all_linters, LintCmd_Model.list_linters, LintCmd_Model.list_lint_group.
    destruct list_all_linters; [now apply does_print_linters|].
    destruct list_linters; [apply does_then; [apply does_check|intros ?; now apply does_print_linters]|].
    destruct (negb (is_empty list_lint_group)).
    { destruct (gget (to_lower _) _); [now apply does_print_linters|apply does_exit]. }
    compiled_ok. intros _. destruct generate_ignores; [|now apply does_lint].
    unfold LintCmd_Model.generate_ignores. apply does_then.
    { apply (does_state P (fun s => Exec_Model.check _)). intros; apply does_check. }
    intros ?. doing.
  - (* format *) at_state. unfold format_cmd. destruct (more_than_one_set _); [apply does_exit|].
    met. compiled_ok. intros _. apply does_format; [assumption|assumption|]. intros -> d fs f z Hd Hf. cbn. split; [reflexivity|].
    eapply protos_of; [|eassumption|eassumption]. eapply found_protos; eassumption.
  - (* all *) at_state. unfold all_cmd. met. compiled_ok. intros _.
    apply does_then.
    { destruct disable_format; [apply does_ret|]. apply does_format; [assumption|assumption|]. intros _ d fs f z Hd Hf. cbn. split; [reflexivity|].
      eapply protos_of; [|eassumption|eassumption]. eapply found_protos; eassumption. }
    intros _. compiled_ok. intros _. destruct disable_lint; [apply does_ret|now apply does_lint].
  - (* grpc *) at_state. unfold Grpc_Model.grpc. destruct (Grpc_Model.check_flags _); [apply does_exit|].
    apply does_then; [apply does_check|intros ?]. apply does_then; [apply does_check|intros ?]. apply does_then; [apply does_check|intros ?].
    apply does_then; [apply does_check|intros ?]. met. compiled_ok. intros sets.
    destruct sets as [|set sets]; [apply does_fail|]. unfold Grpc_Model.invoke.
    apply does_then; [apply does_check|intros ?]. apply does_then; [apply does_check|intros ?].
    apply does_then.
    { unfold Grpc_Model.dial_handler. destruct (Grpc_Model.get_network_address _) as [[]|]; [|apply does_fail].
      destruct (if Grpc_Model.h_tls _ then _ else _); [|apply does_fail]. apply does_then; [apply does_emit; exact I|intros _]. doing. }
    intros c. cbv zeta. apply does_then; [apply does_emit; exact I|intros _]. apply does_then.
    { now apply does_events. }
    intros ?. doing.
  - (* inspect *) at_state. unfold inspect_packages. apply does_then; [now apply does_get_package_set|intros ?]. now apply does_print_names.
  - at_state. unfold inspect_package_deps, get_package. apply does_then; [|intros; now apply does_print_names].
    destruct (is_empty name); [apply does_exit|]. apply does_then; [now apply does_get_package_set|intros ?]. doing.
  - at_state. unfold inspect_package_importers, get_package. apply does_then; [|intros; now apply does_print_names].
    destruct (is_empty name); [apply does_exit|]. apply does_then; [now apply does_get_package_set|intros ?]. doing.
  - (* break check *) at_state. unfold break_check. destruct (_ && _); [apply does_exit|].
    apply does_then; [now apply does_get_package_set|intros [[to xs] c]]. cbv zeta. cbn [fst snd].
    destruct (is_empty descriptor_set_path) eqn:E; cbn [negb].
    + destruct descriptor_set_path; [|discriminate E]. destruct (is_abs _); [apply does_fail|]. destruct (negb _); [apply does_fail|].
      apply known.
      * apply does_clone; [|intros l; split; [reflexivity|eauto]]. intros p T. split; [reflexivity|exact T].
      * intros s1 s2 a C. apply does_deferred.
        -- apply does_then; [now apply does_get_package_set|intros; now apply does_break_failures].
        -- split; [reflexivity|]. eapply clone_is; eassumption.
    + apply does_then; [|intros; now apply does_break_failures]. unfold package_set_for_descriptor_set_path. doing.
  - (* break descriptor-set *) at_state. unfold break_descriptor_set. destruct (is_empty output_path) eqn:E; [apply does_exit|].
    apply does_descriptor_set; [assumption|exact I|]. intros p d [H|[H _]]; [exact H|discriminate H].
  - (* descriptor-set *) at_state. apply does_descriptor_set; [assumption|exact I|]. intros p d H; exact H.
Qed.
