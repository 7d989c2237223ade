(** Files that do not matter make no difference. *)
From Verif Require Import GoStrFacts GoPathFacts Settings_Spec Settings_Proofs File_Proofs Exec_Spec Main_Model Main_Spec Main_Proofs Main_Proofs2 Main_Proofs4 Main_Proofs5.
From Verif Require Main_Proofs6.
From Verif Require Import Local_Spec.

Section Agree.
  Variable Q : string -> Prop.
  Variable ex1 ex2 : string -> bool.
  Variable rd1 rd2 : string -> result string.
  Hypothesis Aex : forall cs f, ok_comps cs -> In f config_filenames -> ex1 (abs_path (cs ++ [f])) = ex2 (abs_path (cs ++ [f])).
  Hypothesis Ard : forall p, Q p -> rd1 p = rd2 p.
  Variable dj dy : string -> result external_config.
  Variable data : string.
  Hypothesis Qc : forall cs f, ok_comps cs -> In f config_filenames -> Q (abs_path (cs ++ [f])).
  Hypothesis Qh : forall cs f text e, ok_comps cs -> In f config_filenames -> rd2 (abs_path (cs ++ [f])) = Ok text -> dj text = Ok e \/ dy text = Ok e ->
    eh_path (x_header e) <> "" -> Q (path_join [path_dir (abs_path (cs ++ [f])); eh_path (x_header e)]).
  Hypothesis Qd : forall e dir, data <> "" -> dj data = Ok e -> eh_path (x_header e) <> "" -> Q (path_join [dir; eh_path (x_header e)]).
  Variable look : string -> result string.
  Variable sort : list gen_plugin -> list gen_plugin.
  Variable devel : bool.
  Notation a_config := Main_Proofs6.a_config.
  Notation single_in := (Main_Proofs6.single_in ex2).
  Notation file_path_in := (Main_Proofs6.file_path_in ex2).

  Lemma single_same dir : clean_abs dir -> get_single_file_path_for_dir ex1 dir = get_single_file_path_for_dir ex2 dir.
  Proof.
    intros (cs & O & ->). unfold get_single_file_path_for_dir. rewrite candidates_eq by assumption. unfold config_paths. cbn [filter].
    rewrite !Aex by (assumption || (cbn; auto)). reflexivity.
  Qed.
  Lemma loop_same n : forall dir, clean_abs dir -> file_path_loop ex1 n dir = file_path_loop ex2 n dir.
  Proof.
    induction n as [|n IH]; intros dir C; [reflexivity|]. cbn [file_path_loop]. rewrite single_same by assumption.
    destruct (get_single_file_path_for_dir ex2 dir) as [p|]; [|reflexivity]. cbn [bind]. destruct (negb (is_empty p)), (String.eqb dir "/"); try reflexivity.
    apply IH. now apply path_dir_clean_abs.
  Qed.
  Lemma file_path_same dir : get_file_path_for_dir ex1 dir = get_file_path_for_dir ex2 dir.
  Proof.
    unfold get_file_path_for_dir. destruct (is_abs dir) eqn:A; [|reflexivity]. cbn [negb]. apply loop_same. now apply path_clean_clean_abs.
  Qed.
  Lemma a_config_q p : a_config p -> path_clean p = p /\ Q p.
  Proof. intros A. split; [now apply Main_Proofs6.a_config_clean|]. destruct A as (cs & f & O & I & ->). now apply Qc. Qed.
  Lemma external_same p : Q p -> get_external_config rd1 dj dy p = get_external_config rd2 dj dy p.
  Proof. intros N. unfold get_external_config. now rewrite Ard. Qed.
  Lemma external_header p e : a_config p -> get_external_config rd2 dj dy p = Ok e -> eh_path (x_header e) <> "" -> Q (path_join [path_dir p; eh_path (x_header e)]).
  Proof.
    intros (cs & f & O & I & ->). unfold get_external_config. destruct (rd2 _) as [d|] eqn:R; [|discriminate]. cbn [bind]. destruct (is_empty d); [intros [= <-] X; now destruct X|].
    destruct (String.eqb _ _); [intros E X; eapply Qh; eauto|]. destruct (String.eqb _ _); [intros E X; eapply Qh; eauto|discriminate].
  Qed.
  Lemma to_config_same e dir : (eh_path (x_header e) <> "" -> Q (path_join [dir; eh_path (x_header e)])) ->
    external_config_to_config rd1 look sort devel e dir = external_config_to_config rd2 look sort devel e dir.
  Proof.
    intros H. unfold external_config_to_config.
    assert (X : convert_header rd1 dir (x_header e) = convert_header rd2 dir (x_header e)); [|now rewrite X].
    unfold convert_header. destruct (is_empty (eh_path (x_header e))) eqn:E; [reflexivity|]. cbn [negb andb].
    rewrite Ard; [reflexivity|]. apply H. intros X. now rewrite X in E.
  Qed.
  Lemma for_file_same p : a_config p -> get_for_file rd1 dj dy look sort devel p = get_for_file rd2 dj dy look sort devel p.
  Proof.
    intros A. destruct (a_config_q p A) as (C & N). unfold get_for_file. destruct (negb (is_abs p)); [reflexivity|]. rewrite C, external_same by assumption.
    destruct (get_external_config rd2 dj dy p) as [e|] eqn:E; [|reflexivity]. cbn [bind]. apply to_config_same. now apply external_header.
  Qed.
  Lemma for_dir_same dir : get_for_dir ex1 rd1 dj dy look sort devel dir = get_for_dir ex2 rd2 dj dy look sort devel dir.
  Proof.
    unfold get_for_dir. rewrite file_path_same. destruct (get_file_path_for_dir ex2 dir) as [p|] eqn:E; [|reflexivity]. cbn [bind].
    destruct (is_empty p) eqn:N; [apply to_config_same; intros X; now destruct X|]. apply for_file_same.
    destruct (file_path_in _ _ E) as [->|A]; [discriminate N|assumption].
  Qed.
  Lemma for_data_same dir : data <> "" -> get_for_data rd1 dj look sort devel dir data = get_for_data rd2 dj look sort devel dir data.
  Proof.
    intros Nd. unfold get_for_data. destruct (negb _); [reflexivity|]. destruct (dj data) as [e|] eqn:E; [|reflexivity]. cbn [bind]. apply to_config_same. intros X. now apply Qd.
  Qed.
  Lemma excludes_same dir : get_exclude_prefixes_for_dir ex1 rd1 dj dy dir = get_exclude_prefixes_for_dir ex2 rd2 dj dy dir.
  Proof.
    unfold get_exclude_prefixes_for_dir. destruct (is_abs dir) eqn:A; [|reflexivity]. cbn [negb]. apply path_clean_clean_abs in A. rewrite single_same by assumption.
    destruct (get_single_file_path_for_dir ex2 (path_clean dir)) as [p|] eqn:E; [|reflexivity]. cbn [bind]. destruct (is_empty p) eqn:N; [reflexivity|].
    destruct (single_in _ _ A E) as [->|C]; [discriminate N|]. rewrite external_same; [reflexivity|]. now apply a_config_q.
  Qed.

  Variable ord : order.
  Variable cwd : string.
  Variable node_at : string -> node.
  Lemma visit_same work root path is_dir st : visit_path ex1 rd1 dj dy data work root path is_dir st = visit_path ex2 rd2 dj dy data work root path is_dir st.
  Proof. unfold visit_path. now rewrite excludes_same. Qed.
  Lemma walk_same work root n : forall path st, walk ex1 rd1 dj dy data work root path n st = walk ex2 rd2 dj dy data work root path n st.
  Proof.
    induction n as [| | |es IH] using node_ind'; intros path st; cbn [walk]; rewrite ?visit_same; try reflexivity.
    destruct (visit_path ex2 rd2 dj dy data work root path true st) as [[[] st1]|]; try reflexivity. cbn [bind]. revert st1.
    induction IH as [|[name c] es Hc Hr IHes]; intros st1; [reflexivity|]. cbn [snd] in Hc. rewrite Hc.
    destruct (walk ex2 rd2 dj dy data work root (path_join [path; name]) c st1); [|reflexivity]. cbn [bind]. apply IHes.
  Qed.
  Lemma add_dirs_same work ds : forall m, add_dirs ex1 rd1 dj dy look sort devel data work ds m = add_dirs ex2 rd2 dj dy look sort devel data work ds m.
  Proof.
    induction ds as [|[d fs] ds IH]; intros m; cbn [add_dirs]; [reflexivity|].
    assert (X : add_dir ex1 rd1 dj dy look sort devel data work m (d, fs) = add_dir ex2 rd2 dj dy look sort devel data work m (d, fs)).
    { unfold add_dir. rewrite file_path_same. destruct (if is_empty data then _ else _) as [cf|] eqn:E; [|reflexivity]. cbn [bind].
      unfold get_config_for_data, get_config, get_config_for_dir. rewrite for_dir_same.
      destruct (is_empty data) eqn:D; cbn [negb]; [|rewrite for_data_same by (intros X; now rewrite X in D); reflexivity]. destruct (is_empty cf) eqn:N; cbn [negb]; [reflexivity|].
      rewrite for_file_same; [reflexivity|]. destruct (file_path_in _ _ E) as [->|A]; [discriminate N|assumption]. }
    rewrite X. destruct (add_dir ex2 rd2 dj dy look sort devel data work m (d, fs)); [|reflexivity]. cbn [bind]. apply IH.
  Qed.
  Lemma provider_get_same work dir :
    provider_get_for_dir ord cwd node_at ex1 rd1 dj dy look sort devel data work dir = provider_get_for_dir ord cwd node_at ex2 rd2 dj dy look sort devel data work dir.
  Proof.
    unfold provider_get_for_dir, get_multiple_for_dir. rewrite file_path_same. set (W := abs_clean cwd work).
    destruct (if is_empty data then _ else _) as [root|]; [|reflexivity]. cbn [bind].
    unfold walk_and_get_all_proto_files. destruct (initial_excludes dj data W) as [e|]; [|reflexivity]. cbn [bind].
    rewrite walk_same. destruct (walk ex2 rd2 dj dy data W root root (node_at root) (mk_walk_state e [])) as [st|]; [|reflexivity]. cbn [bind].
    assert (X : base_proto_sets ord ex1 rd1 dj dy look sort devel data W (dir_path_to_proto_files (w_files st)) =
                base_proto_sets ord ex2 rd2 dj dy look sort devel data W (dir_path_to_proto_files (w_files st))); [|now rewrite X].
    unfold base_proto_sets. destruct (dir_path_to_proto_files (w_files st)) as [|d ds].
    - unfold default_base_proto_set, get_config_for_dir, get_config_for_data. rewrite for_dir_same. destruct (is_empty data) eqn:D; [reflexivity|]. now rewrite for_data_same by (intros X; now rewrite X in D).
    - now rewrite add_dirs_same.
  Qed.
End Agree.

(** With a configuration on the command line, there is no other. *)
Section Agree_given.
  Variable ex1 ex2 : string -> bool.
  Variable rd1 rd2 : string -> result string.
  Variable dj dy : string -> result external_config.
  Variable data : string.
  Hypothesis Nd : is_empty data = false.
  Hypothesis Ard : forall e dir, dj data = Ok e -> eh_path (x_header e) <> "" -> rd1 (path_join [dir; eh_path (x_header e)]) = rd2 (path_join [dir; eh_path (x_header e)]).
  Variable look : string -> result string.
  Variable sort : list gen_plugin -> list gen_plugin.
  Variable devel : bool.
  Lemma for_data_given dir : get_for_data rd1 dj look sort devel dir data = get_for_data rd2 dj look sort devel dir data.
  Proof.
    unfold get_for_data. destruct (negb _); [reflexivity|]. destruct (dj data) as [e|] eqn:E; [|reflexivity]. cbn [bind].
    apply (to_config_same (fun p => rd1 p = rd2 p) rd1 rd2 (fun p X => X)). intros X. now apply Ard.
  Qed.
  Variable ord : order.
  Variable cwd : string.
  Variable node_at : string -> node.
  Lemma visit_given work root path is_dir st : visit_path ex1 rd1 dj dy data work root path is_dir st = visit_path ex2 rd2 dj dy data work root path is_dir st.
  Proof. unfold visit_path. now rewrite Nd. Qed.
  Lemma walk_given work root n : forall path st, walk ex1 rd1 dj dy data work root path n st = walk ex2 rd2 dj dy data work root path n st.
  Proof.
    induction n as [| | |es IH] using node_ind'; intros path st; cbn [walk]; rewrite ?visit_given; try reflexivity.
    destruct (visit_path ex2 rd2 dj dy data work root path true st) as [[[] st1]|]; try reflexivity. cbn [bind]. revert st1.
    induction IH as [|[name c] es Hc Hr IHes]; intros st1; [reflexivity|]. cbn [snd] in Hc. rewrite Hc.
    destruct (walk ex2 rd2 dj dy data work root (path_join [path; name]) c st1); [|reflexivity]. cbn [bind]. apply IHes.
  Qed.
  Lemma add_dirs_given work ds : forall m, add_dirs ex1 rd1 dj dy look sort devel data work ds m = add_dirs ex2 rd2 dj dy look sort devel data work ds m.
  Proof.
    induction ds as [|[d fs] ds IH]; intros m; cbn [add_dirs]; [reflexivity|].
    assert (X : add_dir ex1 rd1 dj dy look sort devel data work m (d, fs) = add_dir ex2 rd2 dj dy look sort devel data work m (d, fs)).
    { unfold add_dir. rewrite Nd. cbn [bind negb]. unfold get_config_for_data. now rewrite for_data_given. }
    rewrite X. destruct (add_dir ex2 rd2 dj dy look sort devel data work m (d, fs)); [|reflexivity]. cbn [bind]. apply IH.
  Qed.
  Lemma provider_get_given work dir :
    provider_get_for_dir ord cwd node_at ex1 rd1 dj dy look sort devel data work dir = provider_get_for_dir ord cwd node_at ex2 rd2 dj dy look sort devel data work dir.
  Proof.
    unfold provider_get_for_dir, get_multiple_for_dir. rewrite Nd. cbn [bind]. set (W := abs_clean cwd work).
    unfold walk_and_get_all_proto_files. destruct (initial_excludes dj data W) as [e|]; [|reflexivity]. cbn [bind].
    rewrite walk_given. destruct (walk ex2 rd2 dj dy data W W W (node_at W) (mk_walk_state e [])) as [st|]; [|reflexivity]. cbn [bind].
    assert (X : base_proto_sets ord ex1 rd1 dj dy look sort devel data W (dir_path_to_proto_files (w_files st)) =
                base_proto_sets ord ex2 rd2 dj dy look sort devel data W (dir_path_to_proto_files (w_files st))); [|now rewrite X].
    unfold base_proto_sets. destruct (dir_path_to_proto_files (w_files st)) as [|d ds].
    - unfold default_base_proto_set, get_config_for_data. rewrite Nd. cbn [negb]. now rewrite for_data_given.
    - now rewrite add_dirs_given.
  Qed.
End Agree_given.

(** ** Running protoc *)
Section Protoc.
  Variable ord : map_order.
  Variable grow : nat -> nat -> nat.
  Variable c1 c2 : result unit.
  Variable c3 c4 : result string.
  Variable temp : nat -> result string.
  Variable gen set full inc src : bool.
  Variable ps : proto_set.
  Variable mkdir : string -> option string.
  Variable fds : Type.
  Variable rs rs' : string -> result fds.
  Variable os os' : nat -> Protoc_Model.outcome.
  Hypothesis Hr : forall t, rs t = rs' t.
  Hypothesis Ho : forall i, os i = os' i.
  Lemma get_sets_ext ms : forall s, Protoc_Model.get_sets fds rs s ms = Protoc_Model.get_sets fds rs' s ms.
  Proof. induction ms as [|m ms IH]; intros s; [reflexivity|]. cbn [Protoc_Model.get_sets]. rewrite Hr, IH. destruct (is_empty _); [reflexivity|]. destruct (rs' _); [|reflexivity]. now rewrite IH. Qed.
  Lemma compile_ext ended s : Protoc_Model.compile ord grow c1 c2 c3 c4 temp gen set full inc src ps mkdir fds rs os ended s = Protoc_Model.compile ord grow c1 c2 c3 c4 temp gen set full inc src ps mkdir fds rs' os' ended s.
  Proof.
    unfold Protoc_Model.compile. destruct (Protoc_Model.get_cmd_metas _ _ _ _ _ _ _ _ _ _ _ _ _ _) as [t [ms|]]; [|reflexivity].
    destruct (if gen then _ else _) as [u [e|]]; [reflexivity|]. cbv zeta.
    rewrite (map_ext _ (Protoc_Model.worker_result ps os' ms)) by (intros i; unfold Protoc_Model.worker_result; now rewrite Ho).
    destruct (existsb _ _); [reflexivity|]. unfold Protoc_Model.finish. now rewrite get_sets_ext.
  Qed.
End Protoc.
