(** Files that do not matter make no difference: which files there are. *)
From Verif Require Import GoStrFacts GoPathFacts Settings_Model File_Model File_Spec File_Proofs File_Proofs3 Exec_Model Exec_Spec LintCmd_Model Main_Model Main_Spec Main_Proofs Main_Proofs2 Local_Spec Local_Proofs Local_Proofs2.
From Verif Require Place_Spec.
From Verif Require Settings_Spec Settings_Proofs Main_Proofs7 Lint_Model Grpc_Model PackageCmd_Model Main_Proofs6 Place_Proofs.

Section Walk.
  Variable ex : string -> bool.
  Variable rd : string -> result string.
  Variable dj dy : string -> result external_config.
  Variable data : string.
  Lemma walk_bare work root n : forall cs st, ok_comps cs -> named n ->
    walk ex rd dj dy data work root (abs_path cs) n st = walk ex rd dj dy data work root (abs_path cs) (bare n) st.
  Proof.
    induction n as [| | |es IH] using node_ind'; intros cs st O N; try reflexivity. cbn [walk bare].
    destruct (visit_path ex rd dj dy data work root (abs_path cs) true st) as [[[] st1]|]; try reflexivity. cbn [bind].
    inversion N as [| | |? No Nd Nn]; subst. clear N Nd. revert st1.
    induction IH as [|[name c] es Hc Hr IHes]; intros st1; [reflexivity|]. cbn [snd] in Hc. cbn [map fst] in No. inversion No as [|? ? O1 O2]; subst.
    assert (J : path_join [abs_path cs; name] = abs_path (cs ++ [name])).
    { change name with (join "/" [name]) at 1. apply path_join_abs_ok; [exact O|constructor; [exact O1|constructor]|discriminate]. }
    assert (Oc : ok_comps (cs ++ [name])) by (apply ok_comps_app; split; [exact O|constructor; [exact O1|constructor]]).
    destruct (other_file name c) eqn:F.
    - destruct c; try discriminate F. cbn [walk]. rewrite J. unfold visit_path. rewrite path_ext_abs by exact O1. cbn [other_file] in F. rewrite F. cbn [bind snd].
      apply IHes; [exact O2|intros nm x I; eapply Nn; right; exact I].
    - rewrite J, (Hc (cs ++ [name]) st1 Oc (Nn name c (or_introl eq_refl))).
      destruct (walk ex rd dj dy data work root (abs_path (cs ++ [name])) (bare c) st1); [|reflexivity]. cbn [bind]. apply IHes; [exact O2|intros nm x I; eapply Nn; right; exact I].
  Qed.
  Variable look : string -> result string.
  Variable sort : list gen_plugin -> list gen_plugin.
  Variable devel : bool.
  Variable ord : order.
  Variable cwd : string.
  Variable nd nd' : string -> node.
  Hypothesis Nm : forall p, named (nd p).
  Hypothesis Nm' : forall p, named (nd' p).
  Hypothesis Cl : clean_abs cwd.
  Lemma loop_above n : forall ds p, ok_comps ds -> file_path_loop ex n (abs_path ds) = Ok p -> p = "" \/ exists cs t f, ds = cs ++ t /\ In f config_filenames /\ p = abs_path (cs ++ [f]).
  Proof.
    induction n as [|n IH]; intros ds p O E; [discriminate|]. cbn [file_path_loop] in E.
    destruct (get_single_file_path_for_dir ex (abs_path ds)) as [q|] eqn:S; [|discriminate]. cbn [bind] in E. destruct (negb (is_empty q)); [|destruct (String.eqb (abs_path ds) "/") eqn:R].
    - injection E as <-. unfold get_single_file_path_for_dir in S. rewrite Settings_Proofs.candidates_eq in S by assumption. unfold Settings_Spec.config_paths in S. cbn [filter] in S.
      destruct (ex (abs_path (ds ++ ["prototool.yaml"]))), (ex (abs_path (ds ++ ["prototool.json"]))); try discriminate S; injection S as <-; auto; right; exists ds, []; eexists; rewrite app_nil_r; (split; [reflexivity|]); (split; [|reflexivity]); cbn; auto.
    - injection E as <-. now left.
    - destruct (exists_last (l := ds)) as (ds' & c & ->); [intros ->; discriminate R|]. apply ok_comps_app in O as (O1 & O2). inversion O2 as [|? ? O3 _]; subst.
      rewrite path_dir_abs in E by assumption. destruct (IH ds' p O1 E) as [->|(cs & t & f & -> & I & ->)]; [now left|]. right. exists cs, (t ++ [c]), f. rewrite app_assoc. auto.
  Qed.
  Lemma provider_bare work dir ws ds : abs_clean cwd work = abs_path ws -> ok_comps ws -> abs_clean cwd dir = abs_path ds -> ok_comps ds ->
    (forall cs, cs = ws \/ (exists t, ds = cs ++ t) -> bare (nd (abs_path cs)) = bare (nd' (abs_path cs))) ->
    provider_get_for_dir ord cwd nd ex rd dj dy look sort devel data work dir = provider_get_for_dir ord cwd nd' ex rd dj dy look sort devel data work dir.
  Proof.
    intros Ew Ow Ed Od B. unfold provider_get_for_dir, get_multiple_for_dir. rewrite Ew, Ed.
    assert (R : forall root, (if is_empty data then do cf <- get_file_path_for_dir ex (abs_path ds); Ok (if negb (is_empty cf) then path_dir cf else abs_path ds) else Ok (abs_path ws)) = Ok root ->
      exists cs, ok_comps cs /\ root = abs_path cs /\ (cs = ws \/ (exists t, ds = cs ++ t))).
    { intros root. destruct (is_empty data); [|intros [= <-]; exists ws; auto].
      destruct (get_file_path_for_dir ex (abs_path ds)) as [cf|] eqn:G; [|discriminate]. cbn [bind]. intros [= <-].
      unfold get_file_path_for_dir in G. rewrite is_abs_abs_path, clean_abs_path in G by assumption. cbn [negb] in G. cbv zeta in G. apply loop_above in G; [|exact Od].
      destruct G as [->|(cs & t & f & -> & I & ->)].
      - exists ds. split; [exact Od|]. split; [reflexivity|]. right. exists []. now rewrite app_nil_r.
      - exists cs. apply ok_comps_app in Od as (O1 & O2). split; [exact O1|]. split; [|right; now exists t].
        change (is_empty (abs_path (cs ++ [f]))) with false. cbn [negb]. apply path_dir_abs; [exact O1|]. destruct I as [<-|[<-|[]]]; reflexivity. }
    destruct (if is_empty data then _ else _) as [root|]; [|reflexivity]. cbn [bind]. destruct (R root eq_refl) as (cs & O & -> & X).
    unfold walk_and_get_all_proto_files. destruct (initial_excludes dj data (abs_path ws)) as [e|]; [|reflexivity]. cbn [bind].
    rewrite (walk_bare _ _ (nd _) cs _ O (Nm _)), (walk_bare _ _ (nd' _) cs _ O (Nm' _)), (B cs X). reflexivity.
  Qed.
End Walk.

Lemma exists_only ex1 ex2 rd dj dy data look sort devel ord cwd nd work dir : (data = "" -> forall p, config_name p -> ex1 p = ex2 p) ->
  provider_get_for_dir ord cwd nd ex1 rd dj dy look sort devel data work dir = provider_get_for_dir ord cwd nd ex2 rd dj dy look sort devel data work dir.
Proof.
  intros E. destruct (is_empty data) eqn:D; [|now apply provider_get_given].
  apply (provider_get_same (fun _ => True)); auto. intros cs f O I. apply E; [|now apply config_base]. destruct data; [reflexivity|discriminate D].
Qed.

Section Other.
  Variable w : world.
  Variable st : string -> result file_kind.
  Variable nd : string -> node.
  Notation w' := (other_files w st nd).
  Variable r : runner.
  Hypothesis Nm : forall p, named (w_node_at w p).
  Hypothesis Nm' : forall p, named (nd p).
  Variable hs : list string.
  Hypothesis Hh : ok_comps hs.
  Hypothesis Hr : here r = abs_path hs.
  Hypothesis St : forall k, w_stat w "" <> Ok k.
  Hypothesis Sc : r_config_data r = "" -> forall p, config_name p -> w_stat w p = st p.
  Lemma provider_other disk dir : dir <> "" -> (forall cs, cs = hs \/ (exists t, Place_Spec.place hs dir = cs ++ t) -> bare (w_node_at w (abs_path cs)) = bare (nd (abs_path cs))) ->
    provider w' r disk (here r) dir = provider w r disk (here r) dir.
  Proof.
    intros Nd B. unfold provider. cbn [other_files w_order w_node_at w_decode_json w_decode_yaml w_look_path w_sort_plugins w_too_slow].
    assert (Nw : here r <> "") by (rewrite Hr; discriminate).
    assert (Ew : abs_clean (here r) (here r) = abs_path hs). { unfold abs_clean. rewrite Hr, is_abs_abs_path, clean_abs_path by assumption. destruct (is_empty _); reflexivity. }
    rewrite <- (provider_bare (exists_at w' disk) disk (w_decode_json w) (w_decode_yaml w) (r_config_data r) (w_look_path w) (w_sort_plugins w) false (w_order w) (here r) (w_node_at w) nd Nm Nm' (here r) dir hs (Place_Spec.place hs dir) Ew Hh
      (Place_Proofs.clean_place hs Hh r Hr dir Nd) (Place_Proofs.place_ok hs dir Hh) B).
    rewrite (exists_only (exists_at w' disk) (exists_at w disk)); [reflexivity|].
    intros D p C. unfold exists_at. cbn [other_files w_stat]. now rewrite Sc.
  Qed.
  Lemma meta_provider disk args t : w_stat w (Exec_Spec.target args) = st (Exec_Spec.target args) ->
    (forall k, w_stat w (Exec_Spec.target args) = Ok k -> let dir := match w_stat w (Exec_Spec.target args) with Ok Regular => path_dir (Exec_Spec.target args) | _ => Exec_Spec.target args end in
      dir <> "" -> provider w' r disk (here r) dir = provider w r disk (here r) dir) ->
    get_meta (here r) (w_stat w) (provider w r disk) args t = get_meta (here r) st (provider w' r disk) args t.
  Proof.
    intros E B. unfold get_meta, and_then. change (match args with [a] => a | _ => "." end) with (Exec_Spec.target args). rewrite <- E.
    destruct (w_stat w (Exec_Spec.target args)) as [[]|] eqn:S; cbn; [| |reflexivity..].
    - rewrite (B _ eq_refl); [reflexivity|]. intros X. rewrite X in S. now apply St in S.
    - rewrite (B _ eq_refl); [reflexivity|]. apply Main_Proofs7.path_clean_not_empty.
  Qed.
  Ltac meta := apply Place_Proofs.and_then_ext; [apply meta_provider; assumption|reflexivity].
  Lemma method_provider d d' args k s : Place_Proofs.of_args args k -> reads_files d d' k -> w_stat w (Exec_Spec.target args) = st (Exec_Spec.target args) ->
    (forall k, w_stat w (Exec_Spec.target args) = Ok k -> let dir := match w_stat w (Exec_Spec.target args) with Ok Regular => path_dir (Exec_Spec.target args) | _ => Exec_Spec.target args end in
      dir <> "" -> provider w' r (io_disk s) (here r) dir = provider w r (io_disk s) (here r) dir) ->
    Main_Model.method w r k s = Main_Model.method w' r k s.
  Proof.
    intros O K E Bw. destruct k; try contradiction K; cbn [Place_Proofs.of_args] in O; subst; unfold Main_Model.method; cbv zeta;
      cbn [other_files w_order w_stat w_parse w_singularize w_encode_ignores w_diff w_write_error w_parse_duration w_create_descriptor w_create_source w_credentials w_dial w_invoke_rpc w_unmarshal w_temp_dir w_git w_sha256 w_marshal w_set_json w_temp_file];
      change (the_compiler w' r) with (the_compiler w r); change (the_commands w' r) with (the_commands w r); change (the_transform w') with (the_transform w); change (the_lint w' r) with (the_lint w r).
    - reflexivity.
    - unfold cache_update. meta.
    - unfold files_cmd. meta.
    - unfold compile_cmd. meta.
    - unfold gen_cmd. meta.
    - unfold lint_cmd. destruct (more_than_one_set _); [reflexivity|]. destruct list_all_lint_groups; [reflexivity|]. destruct (negb _); [reflexivity|]. meta.
    - unfold format_cmd. destruct (more_than_one_set _); [reflexivity|]. meta.
    - unfold all_cmd. meta.
    - unfold Grpc_Model.grpc. destruct (Grpc_Model.check_flags _); [reflexivity|]. do 4 (apply Place_Proofs.and_then_ext; [reflexivity|intros]). meta.
    - unfold PackageCmd_Model.inspect_packages, PackageCmd_Model.get_package_set_and_config. apply Place_Proofs.and_then_ext; [|reflexivity]. meta.
    - unfold PackageCmd_Model.inspect_package_deps, PackageCmd_Model.get_package, PackageCmd_Model.get_package_set_and_config. apply Place_Proofs.and_then_ext; [|reflexivity]. destruct (is_empty _); [reflexivity|]. apply Place_Proofs.and_then_ext; [|reflexivity]. meta.
    - unfold PackageCmd_Model.inspect_package_importers, PackageCmd_Model.get_package, PackageCmd_Model.get_package_set_and_config. apply Place_Proofs.and_then_ext; [|reflexivity]. destruct (is_empty _); [reflexivity|]. apply Place_Proofs.and_then_ext; [|reflexivity]. meta.
    - destruct K as (N & _). apply is_empty_false in N. unfold PackageCmd_Model.break_check. destruct (_ && _); [reflexivity|]. cbv zeta. rewrite N. cbn [negb]. unfold PackageCmd_Model.get_package_set_and_config. apply Place_Proofs.and_then_ext; [|reflexivity]. meta.
    - unfold PackageCmd_Model.break_descriptor_set. destruct (is_empty _); [reflexivity|]. unfold PackageCmd_Model.descriptor_set. destruct (_ && _); [reflexivity|]. meta.
    - unfold PackageCmd_Model.descriptor_set. destruct (_ && _); [reflexivity|]. meta.
  Qed.
  Lemma method_other d d' args k s : Place_Proofs.of_args args k -> reads_files d d' k -> w_stat w (Exec_Spec.target args) = st (Exec_Spec.target args) ->
    (forall cs, cs = hs \/ on_the_way w hs (Exec_Spec.target args) cs -> bare (w_node_at w (abs_path cs)) = bare (nd (abs_path cs))) ->
    Main_Model.method w r k s = Main_Model.method w' r k s.
  Proof. intros O K E B. apply (method_provider d d' args k s O K E). intros x _ dir N. now apply provider_other. Qed.
End Other.
