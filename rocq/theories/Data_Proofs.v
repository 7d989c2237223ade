(** A configuration on the command line and the same one in the working directory. *)
From Coq Require Import Permutation.
From Verif Require Import GoStrFacts GoPathFacts Settings_Model Settings_Spec Settings_Proofs File_Model File_Spec File_Proofs File_Proofs2 File_Proofs3 Settings_Proofs2 Exec_Model Exec_Spec LintCmd_Model Main_Model Main_Proofs.
From Verif Require Place_Spec Place_Proofs Main_Proofs7 Grpc_Model PackageCmd_Model.

Section Given.
  Variable ex : string -> bool.
  Variable rd : string -> result string.
  Variable dj dy : string -> result external_config.
  Variable look : string -> result string.
  Variable sort : list gen_plugin -> list gen_plugin.
  Variable devel : bool.
  Variable ord : order.
  Hypothesis V : forall place A (l : list A) x, In x (ord place A l) -> In x l.
  Variable node_at : string -> node.
  Hypothesis Nm : forall p, named (node_at p).
  Variable hs : list string.
  Hypothesis Hh : ok_comps hs.
  Notation cfg := (abs_path (hs ++ ["prototool.json"])).
  Hypothesis Hc : the_config ex hs cfg.
  Hypothesis Hn : forall t, t <> [] -> no_config ex (hs ++ t).
  Variable data : string.
  Hypothesis Nd : data <> "".
  Hypothesis Hd : rd cfg = Ok data.

  Lemma data_some : is_empty data = false.
  Proof. now apply is_empty_false. Qed.
  Lemma below_path t : ok_comps t -> get_file_path_for_dir ex (abs_path (hs ++ t)) = Ok cfg.
  Proof.
    intros O. assert (Od : ok_comps (hs ++ t)) by (now apply ok_comps_app). apply governs_iff; [exact Od|]. right. exists hs. split; [|exact Hc].
    exists t. split; [reflexivity|]. split.
    - intros N. destruct Hc as (I & E & _). rewrite (N _ I) in E. discriminate E.
    - intros b1 b2 -> B. now apply Hn.
  Qed.
  Lemma here_path : get_file_path_for_dir ex (abs_path hs) = Ok cfg.
  Proof. rewrite <- (app_nil_r hs) at 1. apply below_path. constructor. Qed.
  Lemma cfg_dir_is : path_dir cfg = abs_path hs.
  Proof. now apply path_dir_abs. Qed.
  Lemma cfg_abs : is_abs cfg = true /\ path_clean cfg = cfg.
  Proof. split; [apply is_abs_abs_path|]. apply clean_abs_path, ok_comps_app. split; [exact Hh|repeat constructor]. Qed.
  Lemma cfg_external : get_external_config rd dj dy cfg = dj data.
  Proof. unfold get_external_config. rewrite Hd. cbn [bind]. rewrite data_some, path_ext_abs by reflexivity. reflexivity. Qed.
  Lemma cfg_config : get_for_file rd dj dy look sort devel cfg = get_for_data rd dj look sort devel (abs_path hs) data.
  Proof.
    unfold get_for_file, get_for_data. destruct cfg_abs as (-> & ->). rewrite is_abs_abs_path, (clean_abs_path hs Hh), cfg_dir_is, cfg_external. reflexivity.
  Qed.
  Lemma dir_config : get_for_dir ex rd dj dy look sort devel (abs_path hs) = get_for_data rd dj look sort devel (abs_path hs) data.
  Proof. unfold get_for_dir. rewrite here_path. cbn [bind]. change (is_empty cfg) with false. apply cfg_config. Qed.
  Lemma single_of t p : ok_comps t -> get_single_file_path_for_dir ex (abs_path (hs ++ t)) = Ok p -> match t with [] => p = cfg | _ => p = "" end.
  Proof.
    intros O. unfold get_single_file_path_for_dir. rewrite candidates_eq by now apply ok_comps_app. unfold config_paths. cbn [filter]. destruct t as [|c t].
    - rewrite app_nil_r. destruct Hc as (_ & E & U). rewrite E. destruct (ex (abs_path (hs ++ ["prototool.yaml"]))) eqn:Y; [|now intros [= <-]].
      specialize (U _ (or_introl eq_refl) Y). apply abs_path_inj in U; [apply app_inj_tail in U as (_ & U); discriminate U|..]; apply ok_comps_app; (split; [exact Hh|repeat constructor]).
    - assert (N : no_config ex (hs ++ c :: t)) by (apply Hn; discriminate). rewrite !N by (cbn; auto). now intros [= <-].
  Qed.
  Lemma single_ok t : ok_comps t -> exists p, get_single_file_path_for_dir ex (abs_path (hs ++ t)) = Ok p.
  Proof.
    intros O. unfold get_single_file_path_for_dir. rewrite candidates_eq by now apply ok_comps_app. unfold config_paths. cbn [filter]. destruct t as [|c t].
    - rewrite app_nil_r. destruct Hc as (_ & E & U). rewrite E. destruct (ex (abs_path (hs ++ ["prototool.yaml"]))) eqn:Y; [|eauto].
      specialize (U _ (or_introl eq_refl) Y). apply abs_path_inj in U; [apply app_inj_tail in U as (_ & U); discriminate U|..]; apply ok_comps_app; (split; [exact Hh|repeat constructor]).
    - assert (N : no_config ex (hs ++ c :: t)) by (apply Hn; discriminate). rewrite !N by (cbn; auto). eauto.
  Qed.
  Lemma here_excludes : get_exclude_prefixes_for_dir ex rd dj dy (abs_path hs) = get_exclude_prefixes_for_data dj (abs_path hs) data.
  Proof.
    unfold get_exclude_prefixes_for_dir, get_exclude_prefixes_for_data. rewrite is_abs_abs_path, (clean_abs_path hs Hh). cbn [negb].
    destruct (single_ok [] (Forall_nil _)) as (p & E). pose proof (single_of [] p (Forall_nil _) E) as ->. rewrite app_nil_r in E. rewrite E. cbn [bind]. change (is_empty cfg) with false. now rewrite cfg_external.
  Qed.
  Lemma below_excludes t : t <> [] -> ok_comps t -> get_exclude_prefixes_for_dir ex rd dj dy (abs_path (hs ++ t)) = Ok [].
  Proof.
    intros N O. assert (Od : ok_comps (hs ++ t)) by (now apply ok_comps_app). unfold get_exclude_prefixes_for_dir. rewrite is_abs_abs_path, (clean_abs_path _ Od). cbn [negb].
    destruct (single_ok t O) as (p & E). pose proof (single_of t p O E) as X. rewrite E. destruct t; [contradiction|]. now subst p.
  Qed.

  Notation walk1 := (walk ex rd dj dy "").
  Notation walk2 := (walk ex rd dj dy data).
  Definition below (f : proto_file) : Prop := exists t c, ok_comps t /\ ok_comp c = true /\ pf_path f = abs_path (hs ++ t ++ [c]).
  Lemma visit_below work root t d st : t <> [] -> ok_comps t -> visit_path ex rd dj dy "" work root (abs_path (hs ++ t)) d st = visit_path ex rd dj dy data work root (abs_path (hs ++ t)) d st.
  Proof.
    intros N O. unfold visit_path. rewrite data_some. destruct d; [|reflexivity]. cbn [is_empty]. rewrite (below_excludes t N O). cbn [bind]. rewrite app_nil_r. now destruct st.
  Qed.
  Lemma step_path t name : ok_comps t -> ok_comp name = true -> path_join [abs_path (hs ++ t); name] = abs_path (hs ++ t ++ [name]).
  Proof.
    intros O1 O2. change name with (join "/" [name]) at 1. rewrite app_assoc. apply path_join_abs_ok; [now apply ok_comps_app|constructor; [exact O2|constructor]|discriminate].
  Qed.
  Lemma walk_below work root n : forall t st, t <> [] -> ok_comps t -> named n -> walk1 work root (abs_path (hs ++ t)) n st = walk2 work root (abs_path (hs ++ t)) n st.
  Proof.
    induction n as [| | |es IH] using node_ind'; intros t st N O Na; cbn [walk]; rewrite ?visit_below by assumption; try reflexivity.
    destruct (visit_path ex rd dj dy data work root (abs_path (hs ++ t)) true st) as [[[] st1]|]; try reflexivity. cbn [bind].
    inversion Na as [| | |? No _ Nn]; subst. clear Na. revert st1. induction IH as [|[name c] es Hc1 Hr IHes]; intros st1; [reflexivity|]. cbn [snd] in Hc1. cbn [map fst] in No. inversion No as [|? ? O1 O2]; subst.
    rewrite step_path by assumption. rewrite Hc1; [|now destruct t|apply ok_comps_app; split; [exact O|repeat constructor; exact O1]|eapply Nn; left; reflexivity].
    destruct (walk2 work root (abs_path (hs ++ t ++ [name])) c st1); [|reflexivity]. cbn [bind]. apply IHes; [exact O2|intros; eapply Nn; right; eassumption].
  Qed.
  Lemma files_below dt work root n : forall t c st st', ok_comps t -> ok_comp c = true -> named n -> Forall below (w_files st) -> walk ex rd dj dy dt work root (abs_path (hs ++ t ++ [c])) n st = Ok st' -> Forall below (w_files st').
  Proof.
    induction n as [| | |es IH] using node_ind'; intros t c st st' O Oc Na F; cbn [walk]; try discriminate.
    - unfold visit_path. destruct (negb _); [intros [= <-]; exact F|]. destruct (is_excluded _ _ _); [intros [= <-]; exact F|]. intros [= <-]. cbn [w_files]. apply Forall_app. split; [exact F|]. constructor; [|constructor]. exists t, c. auto.
    - destruct (visit_path ex rd dj dy dt work root (abs_path (hs ++ t ++ [c])) true st) as [[v st1]|] eqn:E; [|discriminate]. cbn [bind].
      assert (F1 : Forall below (w_files st1)).
      { unfold visit_path in E. destruct (is_empty dt); [destruct (get_exclude_prefixes_for_dir _ _ _ _ _); [|discriminate E]|]; cbn [bind] in E; destruct (is_excluded _ _ _); injection E as <- <-; exact F. }
      clear E F st. destruct v; [|intros [= <-]; exact F1].
      inversion Na as [| | |? No _ Nn]; subst. clear Na. revert st1 F1. induction IH as [|[name x] es Hc1 Hr IHes]; intros st1 F1; [intros [= <-]; exact F1|]. cbn [snd] in Hc1. cbn [map fst] in No. inversion No as [|? ? O1 O2]; subst.
      assert (Ot : ok_comps (t ++ [c])) by (apply ok_comps_app; split; [exact O|repeat constructor; exact Oc]).
      rewrite step_path by assumption. destruct (walk ex rd dj dy dt work root (abs_path (hs ++ (t ++ [c]) ++ [name])) x st1) as [st2|] eqn:W; [|discriminate]. cbn [bind].
      apply IHes; [exact O2|intros; eapply Nn; right; eassumption|]. eapply Hc1; [exact Ot|exact O1|eapply Nn; left; reflexivity|exact F1|exact W].
  Qed.
  Variable es0 : list (string * node).
  Hypothesis Dir : node_at (abs_path hs) = NDir es0.
  Lemma files_given : walk_and_get_all_proto_files node_at ex rd dj dy "" (abs_path hs) (abs_path hs) = walk_and_get_all_proto_files node_at ex rd dj dy data (abs_path hs) (abs_path hs).
  Proof.
    pose proof (Nm (abs_path hs)) as Na. rewrite Dir in Na. inversion Na as [| | |? No _ Nn]; subst. clear Na.
    unfold walk_and_get_all_proto_files, initial_excludes. rewrite Dir, data_some. cbn [is_empty bind]. rewrite walk_dir. unfold visit_path at 1. cbn [is_empty]. rewrite here_excludes.
    destruct (get_exclude_prefixes_for_data dj (abs_path hs) data) as [xs|]; [|reflexivity]. cbn [bind w_excludes w_files app]. rewrite walk_dir. unfold visit_path. rewrite data_some. cbn [bind w_excludes].
    destruct (is_excluded _ _ _); [reflexivity|]. cbn [bind]. generalize {| w_excludes := xs; w_files := [] |} as st. clear Dir. induction es0 as [|[name c] es IH]; intros st; [reflexivity|]. cbn [walk_entries].
    cbn [map fst] in No. inversion No as [|? ? O1 O2]; subst. pose proof (step_path [] name (Forall_nil _) O1) as J. rewrite app_nil_r in J. cbn [app] in J. rewrite J.
    rewrite (walk_below _ _ c [name]); [|discriminate|repeat constructor; exact O1|eapply Nn; left; reflexivity].
    destruct (walk2 (abs_path hs) (abs_path hs) (abs_path (hs ++ [name])) c st); [|reflexivity]. cbn [bind]. apply IH; [exact O2|intros; eapply Nn; right; eassumption].
  Qed.
  Lemma given_below fs : walk_and_get_all_proto_files node_at ex rd dj dy data (abs_path hs) (abs_path hs) = Ok fs -> Forall below fs.
  Proof.
    pose proof (Nm (abs_path hs)) as Na. rewrite Dir in Na. inversion Na as [| | |? No _ Nn]; subst. clear Na.
    unfold walk_and_get_all_proto_files, initial_excludes. rewrite Dir, data_some. destruct (get_exclude_prefixes_for_data dj (abs_path hs) data) as [xs|]; [|discriminate]. cbn [bind]. rewrite walk_dir.
    unfold visit_path. rewrite data_some. cbn [bind w_excludes]. destruct (is_excluded _ _ _); [intros [= <-]; constructor|]. cbn [bind].
    assert (F : Forall below (w_files {| w_excludes := xs; w_files := [] |})) by constructor. revert F. generalize {| w_excludes := xs; w_files := [] |} as st. clear Dir.
    induction es0 as [|[name c] es IH]; intros st F; [intros [= <-]; exact F|]. cbn [walk_entries]. cbn [map fst] in No. inversion No as [|? ? O1 O2]; subst.
    pose proof (step_path [] name (Forall_nil _) O1) as J. rewrite app_nil_r in J. cbn [app] in J. rewrite J.
    destruct (walk2 (abs_path hs) (abs_path hs) (abs_path (hs ++ [name])) c st) as [st2|] eqn:W; [|discriminate]. cbn [bind]. apply IH; [exact O2|intros; eapply Nn; right; eassumption|].
    eapply (files_below _ _ _ c [] name); [constructor|exact O1|eapply Nn; left; reflexivity|exact F|exact W].
  Qed.
  Lemma dirs_below fs d l : Forall below fs -> In (d, l) (dir_path_to_proto_files fs) -> get_file_path_for_dir ex d = Ok cfg.
  Proof.
    intros F I. destruct (group_ok fs) as (_ & G). apply G in I as (N & ->). destruct (files_of_dir d fs) as [|f r] eqn:E; [contradiction|].
    assert (J : In f (files_of_dir d fs)) by (rewrite E; now left). apply filter_In in J as (J & D). apply String.eqb_eq in D. subst d. rewrite Forall_forall in F. destruct (F f J) as (t & c & O & Oc & ->).
    rewrite app_assoc, path_dir_abs; [now apply below_path|now apply ok_comps_app|exact Oc].
  Qed.
  Notation sets dt := (base_proto_sets ord ex rd dj dy look sort devel dt (abs_path hs)).
  Definition sames (m m' : list (string * (list (string * list proto_file) * config))) : Prop := (m = [] /\ m' = []) \/ exists x, m = [(cfg, x)] /\ m' = [("", x)].
  Lemma adds_given ds : (forall d l, In (d, l) ds -> get_file_path_for_dir ex d = Ok cfg) -> forall m m', sames m m' ->
    match add_dirs ex rd dj dy look sort devel "" (abs_path hs) ds m, add_dirs ex rd dj dy look sort devel data (abs_path hs) ds m' with Ok a, Ok b => sames a b | Err a, Err b => a = b | _, _ => False end.
  Proof.
    induction ds as [|[d l] ds IH]; intros P m m' S; cbn [add_dirs]; [exact S|]. unfold add_dir. rewrite data_some. cbn [is_empty negb]. rewrite (P d l) by now left. cbn [bind]. change (is_empty cfg) with false. cbn [negb].
    unfold get_config, get_config_for_data. rewrite cfg_config.
    assert (Old : match gget cfg m with Some (files, _) => files | None => [] end = match gget "" m' with Some (files, _) => files | None => [] end).
    { destruct S as [(-> & ->)|([fl cf] & -> & ->)]; [reflexivity|]. cbn [gget]. now rewrite !String.eqb_refl. }
    rewrite Old. destruct (get_for_data rd dj look sort devel (abs_path hs) data) as [c|]; [|reflexivity]. cbn [bind]. apply IH; [intros; eapply P; right; eassumption|].
    right. eexists. destruct S as [(-> & ->)|(x & -> & ->)]; cbn [gput]; rewrite ?String.eqb_refl; split; reflexivity.
  Qed.
  Lemma sets_given fs : Forall below fs -> sets "" (dir_path_to_proto_files fs) = sets data (dir_path_to_proto_files fs).
  Proof.
    intros F. pose proof (dirs_below fs) as D. unfold base_proto_sets. destruct (dir_path_to_proto_files fs) as [|x ds].
    - unfold default_base_proto_set, get_config_for_dir, get_config_for_data. rewrite data_some. cbn [is_empty]. now rewrite dir_config.
    - set (l := ord "DirPathToProtoFiles" _ (x :: ds)). pose proof (adds_given l) as A. assert (P : forall d k, In (d, k) l -> get_file_path_for_dir ex d = Ok cfg) by (intros d k I; apply V in I; now apply (D d k)).
      specialize (A P [] [] (or_introl (conj eq_refl eq_refl))). destruct (add_dirs _ _ _ _ _ _ _ "" _ l _), (add_dirs _ _ _ _ _ _ _ data _ l _); try contradiction; cbn [bind]; [|now subst].
      destruct A as [(-> & ->)|(y & -> & ->)]; reflexivity.
  Qed.
  Variable cwd work dir : string.
  Variable t0 : list string.
  Hypothesis Hw : abs_clean cwd work = abs_path hs.
  Hypothesis Ht : abs_clean cwd dir = abs_path (hs ++ t0).
  Hypothesis Ot : ok_comps t0.
  Lemma provider_given : provider_get_for_dir ord cwd node_at ex rd dj dy look sort devel "" work dir = provider_get_for_dir ord cwd node_at ex rd dj dy look sort devel data work dir.
  Proof.
    unfold provider_get_for_dir, get_multiple_for_dir. rewrite Hw, Ht, data_some. cbn [is_empty]. rewrite (below_path t0 Ot). cbn [bind]. change (is_empty cfg) with false. cbn [negb]. rewrite cfg_dir_is, files_given.
    destruct (walk_and_get_all_proto_files node_at ex rd dj dy data (abs_path hs) (abs_path hs)) as [fs|] eqn:E; [|reflexivity]. cbn [bind]. now rewrite (sets_given fs (given_below fs E)).
  Qed.
End Given.

(** ** The methods *)
Section Method.
  Variable w : world.
  Hypothesis V : visits (w_order w).
  Hypothesis Nm : forall p, named (w_node_at w p).
  Hypothesis St : forall k, w_stat w "" <> Ok k.
  Variable r r' : runner.
  Hypothesis Er : r' = mk_runner (r_work_dir r) (r_cache_path r) "" (r_json r) (r_protoc_bin_path r) (r_protoc_wkt_path r) (r_error_format r) (r_protoc_url r) (r_walk_timeout r).
  Variable hs : list string.
  Hypothesis Hh : ok_comps hs.
  Hypothesis Hr : here r = abs_path hs.
  Variable disk : string -> result string.
  Notation cfg := (abs_path (hs ++ ["prototool.json"])).
  Hypothesis Hc : the_config (exists_at w disk) hs cfg.
  Hypothesis Hn : forall t, t <> [] -> no_config (exists_at w disk) (hs ++ t).
  Hypothesis Nd : r_config_data r <> "".
  Hypothesis Hd : disk cfg = Ok (r_config_data r).
  Variable es0 : list (string * node).
  Hypothesis Dir : w_node_at w (abs_path hs) = NDir es0.
  Variable args : list string.
  Variable t0 : list string.
  Hypothesis Ht : Place_Spec.place hs (match w_stat w (Exec_Spec.target args) with Ok Regular => path_dir (Exec_Spec.target args) | _ => Exec_Spec.target args end) = hs ++ t0.

  Lemma provider_data dir : dir <> "" -> Place_Spec.place hs dir = hs ++ t0 -> provider w r disk (here r) dir = provider w r' disk (here r) dir.
  Proof.
    intros N P. unfold provider. rewrite Er. cbn [r_config_data r_walk_timeout]. change (here (mk_runner (r_work_dir r) (r_cache_path r) "" (r_json r) (r_protoc_bin_path r) (r_protoc_wkt_path r) (r_error_format r) (r_protoc_url r) (r_walk_timeout r))) with (here r).
    assert (Ot : ok_comps t0) by (pose proof (Place_Proofs.place_ok hs dir Hh) as X; rewrite P in X; now apply ok_comps_app in X).
    assert (Ew : abs_clean (here r) (here r) = abs_path hs). { unfold abs_clean. rewrite Hr, is_abs_abs_path, clean_abs_path by assumption. destruct (is_empty _); reflexivity. }
    assert (Ed : abs_clean (here r) dir = abs_path (hs ++ t0)) by (rewrite (Place_Proofs.clean_place hs Hh r Hr dir N); now rewrite P).
    rewrite (provider_given (exists_at w disk) disk (w_decode_json w) (w_decode_yaml w) (w_look_path w) (w_sort_plugins w) false (w_order w) V (w_node_at w) Nm hs Hh Hc Hn (r_config_data r) Nd Hd es0 Dir (here r) (here r) dir t0 Ew Ed Ot). reflexivity.
  Qed.
  Lemma meta_data t : get_meta (here r) (w_stat w) (provider w r disk) args t = get_meta (here r) (w_stat w) (provider w r' disk) args t.
  Proof.
    unfold get_meta, and_then. change (match args with [a] => a | _ => "." end) with (Exec_Spec.target args).
    destruct (w_stat w (Exec_Spec.target args)) as [[]|] eqn:S; cbn; [| |reflexivity..].
    - rewrite provider_data; [reflexivity| |exact Ht]. intros X. rewrite X in S. now apply St in S.
    - rewrite provider_data; [reflexivity|apply Main_Proofs7.path_clean_not_empty|exact Ht].
  Qed.
  Definition finds_files (k : Cmd_Model.call) : Prop :=
    match k with
    | Cmd_Model.CallInit _ _ _ | Cmd_Model.CallCreate _ _ | Cmd_Model.CallCacheDelete => False
    | Cmd_Model.CallBreakCheck _ _ p => p <> ""
    | _ => True
    end.
  Ltac meta := apply Place_Proofs.and_then_ext; [apply meta_data|reflexivity].
  Lemma method_data k done : Place_Proofs.of_args args k -> finds_files k -> Main_Model.method w r k (mk_io disk done) = Main_Model.method w r' k (mk_io disk done).
  Proof.
    intros O K. set (s := mk_io disk done).
    destruct k; try (exact (False_ind _ K)); cbn [Place_Proofs.of_args] in O; try (match type of O with ?x = _ => subst x end); unfold Main_Model.method; cbv zeta; change (io_disk s) with disk;
      replace (the_compiler w r') with (the_compiler w r) by (now rewrite Er); replace (the_commands w r') with (the_commands w r) by (now rewrite Er); replace (the_lint w r') with (the_lint w r) by (now rewrite Er);
      replace (here r') with (here r) by (now rewrite Er); replace (r_error_format r') with (r_error_format r) by (now rewrite Er); replace (r_json r') with (r_json r) by (now rewrite Er).
    - unfold version_cmd. rewrite Er. reflexivity.
    - unfold cache_update. replace (here r') with (here r) by (now rewrite Er). replace (downloader_for w r') with (downloader_for w r) by (now rewrite Er). meta.
    - unfold files_cmd. meta.
    - unfold compile_cmd. meta.
    - unfold gen_cmd. meta.
    - unfold lint_cmd. destruct (more_than_one_set _); [reflexivity|]. destruct list_all_lint_groups; [reflexivity|]. destruct (negb _); [reflexivity|]. meta.
    - unfold format_cmd. destruct (more_than_one_set _); [reflexivity|]. meta.
    - unfold all_cmd. meta.
    - unfold Grpc_Model.grpc. destruct (Grpc_Model.check_flags _); [reflexivity|]. do 4 (apply Place_Proofs.and_then_ext; [reflexivity|intros]). meta.
    - unfold PackageCmd_Model.inspect_packages, PackageCmd_Model.get_package_set_and_config. apply Place_Proofs.and_then_ext; [|reflexivity]. meta.
    - unfold PackageCmd_Model.inspect_package_deps, PackageCmd_Model.get_package, PackageCmd_Model.get_package_set_and_config. apply Place_Proofs.and_then_ext; [|reflexivity]. destruct (is_empty _); [reflexivity|]. apply Place_Proofs.and_then_ext; [|reflexivity]. meta.
    - unfold PackageCmd_Model.inspect_package_importers, PackageCmd_Model.get_package, PackageCmd_Model.get_package_set_and_config. apply Place_Proofs.and_then_ext; [|reflexivity]. destruct (is_empty _); [reflexivity|]. apply Place_Proofs.and_then_ext; [|reflexivity]. meta.
    - cbn [finds_files] in K. apply is_empty_false in K. unfold PackageCmd_Model.break_check. destruct (_ && _); [reflexivity|]. cbv zeta. rewrite K. cbn [negb]. unfold PackageCmd_Model.get_package_set_and_config. apply Place_Proofs.and_then_ext; [|reflexivity]. meta.
    - unfold PackageCmd_Model.break_descriptor_set. destruct (is_empty _); [reflexivity|]. unfold PackageCmd_Model.descriptor_set. destruct (_ && _); [reflexivity|]. meta.
    - unfold PackageCmd_Model.descriptor_set. destruct (_ && _); [reflexivity|]. meta.
  Qed.
End Method.
