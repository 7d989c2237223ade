(** Discovery and configuration do not depend on the contents of the .proto files. *)
From Verif Require Import GoStrFacts GoPathFacts Settings_Spec Settings_Proofs File_Proofs Exec_Spec Main_Model Main_Spec Main_Proofs Main_Proofs2 Main_Proofs4 Main_Proofs5.

Section Agree.
  Variable ex1 ex2 : string -> bool.
  Variable rd1 rd2 : string -> result string.
  Hypothesis Aex : forall p, path_ext p <> ".proto" -> ex1 p = ex2 p.
  Hypothesis Ard : forall p, path_ext p <> ".proto" -> rd1 p = rd2 p.
  Variable dj dy : string -> result external_config.
  Hypothesis Hj : forall d e, dj d = Ok e -> header_elsewhere e.
  Hypothesis Hy : forall d e, dy d = Ok e -> header_elsewhere e.
  Variable look : string -> result string.
  Variable sort : list gen_plugin -> list gen_plugin.
  Variable devel : bool.

  Lemma config_ext cs f : In f config_filenames -> path_ext (abs_path (cs ++ [f])) <> ".proto".
  Proof. intros [<-|[<-|[]]]; [rewrite ext_yaml|rewrite ext_json]; discriminate. Qed.
  Lemma single_same dir : clean_abs dir -> get_single_file_path_for_dir ex1 dir = get_single_file_path_for_dir ex2 dir.
  Proof.
    intros (cs & O & ->). unfold get_single_file_path_for_dir. rewrite candidates_eq by assumption. unfold config_paths. cbn [filter].
    rewrite !Aex by (apply config_ext; cbn; auto). reflexivity.
  Qed.
  Definition a_config (p : string) : Prop := exists cs f, ok_comps cs /\ In f config_filenames /\ p = abs_path (cs ++ [f]).
  Lemma single_in dir p : clean_abs dir -> get_single_file_path_for_dir ex2 dir = Ok p -> p = "" \/ a_config p.
  Proof.
    intros (cs & O & ->). unfold get_single_file_path_for_dir. rewrite candidates_eq by assumption. unfold config_paths. cbn [filter].
    unfold a_config, config_filenames.
    destruct (ex2 (abs_path (cs ++ ["prototool.yaml"]))), (ex2 (abs_path (cs ++ ["prototool.json"]))); intros [= <-]; auto; right; do 2 eexists;
      (split; [eassumption|]); (split; [|reflexivity]); cbn; auto.
  Qed.
  Lemma loop_same n : forall dir, clean_abs dir -> file_path_loop ex1 n dir = file_path_loop ex2 n dir.
  Proof.
    induction n as [|n IH]; intros dir C; [reflexivity|]. cbn [file_path_loop]. rewrite single_same by assumption.
    destruct (get_single_file_path_for_dir ex2 dir) as [p|]; [|reflexivity]. cbn [bind]. destruct (negb (is_empty p)), (String.eqb dir "/"); try reflexivity.
    apply IH. now apply path_dir_clean_abs.
  Qed.
  Lemma loop_in n : forall dir p, clean_abs dir -> file_path_loop ex2 n dir = Ok p -> p = "" \/ a_config p.
  Proof.
    induction n as [|n IH]; intros dir p C E; [discriminate|]. cbn [file_path_loop] in E.
    destruct (get_single_file_path_for_dir ex2 dir) as [q|] eqn:S; [|discriminate]. cbn [bind] in E. destruct (negb (is_empty q)); [|destruct (String.eqb dir "/")].
    - injection E as <-. eapply single_in; eassumption.
    - injection E as <-. now left.
    - eapply IH; [|exact E]. now apply path_dir_clean_abs.
  Qed.
  Lemma file_path_same dir : get_file_path_for_dir ex1 dir = get_file_path_for_dir ex2 dir.
  Proof.
    unfold get_file_path_for_dir. destruct (is_abs dir) eqn:A; [|reflexivity]. cbn [negb]. apply loop_same. now apply path_clean_clean_abs.
  Qed.
  Lemma file_path_in dir p : get_file_path_for_dir ex2 dir = Ok p -> p = "" \/ a_config p.
  Proof.
    unfold get_file_path_for_dir. destruct (is_abs dir) eqn:A; [|discriminate]. cbn [negb]. apply loop_in. now apply path_clean_clean_abs.
  Qed.
  Lemma a_config_clean p : a_config p -> path_clean p = p /\ path_ext p <> ".proto".
  Proof.
    intros (cs & f & O & I & ->). split; [|now apply config_ext]. apply clean_abs_path, ok_comps_app. split; [assumption|].
    constructor; [now apply filename_ok|constructor].
  Qed.
  Lemma external_same p : path_ext p <> ".proto" -> get_external_config rd1 dj dy p = get_external_config rd2 dj dy p.
  Proof. intros N. unfold get_external_config. now rewrite Ard. Qed.
  Lemma external_header p e : get_external_config rd2 dj dy p = Ok e -> header_elsewhere e.
  Proof.
    unfold get_external_config. destruct (rd2 p) as [d|]; [|discriminate]. cbn [bind]. destruct (is_empty d); [intros [= <-] X; now destruct X|].
    destruct (String.eqb _ _); [apply Hj|]. destruct (String.eqb _ _); [apply Hy|discriminate].
  Qed.
  Lemma to_config_same e dir : header_elsewhere e ->
    external_config_to_config rd1 look sort devel e dir = external_config_to_config rd2 look sort devel e dir.
  Proof.
    intros H. unfold external_config_to_config.
    assert (X : convert_header rd1 dir (x_header e) = convert_header rd2 dir (x_header e)); [|now rewrite X].
    unfold convert_header. destruct (is_empty (eh_path (x_header e))) eqn:E; [reflexivity|]. cbn [negb andb].
    rewrite Ard; [reflexivity|]. apply H. intros X. now rewrite X in E.
  Qed.
  Lemma empty_header : header_elsewhere empty_external.
  Proof. intros X. now destruct X. Qed.
  Lemma for_file_same p : a_config p -> get_for_file rd1 dj dy look sort devel p = get_for_file rd2 dj dy look sort devel p.
  Proof.
    intros A. destruct (a_config_clean p A) as (C & N). unfold get_for_file. destruct (negb (is_abs p)); [reflexivity|]. rewrite C, external_same by assumption.
    destruct (get_external_config rd2 dj dy p) as [e|] eqn:E; [|reflexivity]. cbn [bind]. apply to_config_same. eapply external_header; eassumption.
  Qed.
  Lemma for_dir_same dir : get_for_dir ex1 rd1 dj dy look sort devel dir = get_for_dir ex2 rd2 dj dy look sort devel dir.
  Proof.
    unfold get_for_dir. rewrite file_path_same. destruct (get_file_path_for_dir ex2 dir) as [p|] eqn:E; [|reflexivity]. cbn [bind].
    destruct (is_empty p) eqn:N; [apply to_config_same, empty_header|]. apply for_file_same.
    destruct (file_path_in _ _ E) as [->|A]; [discriminate N|assumption].
  Qed.
  Lemma for_data_same dir data : get_for_data rd1 dj look sort devel dir data = get_for_data rd2 dj look sort devel dir data.
  Proof.
    unfold get_for_data. destruct (negb _); [reflexivity|]. destruct (dj data) as [e|] eqn:E; [|reflexivity]. cbn [bind]. apply to_config_same. eapply Hj; eassumption.
  Qed.
  Lemma excludes_same dir : get_exclude_prefixes_for_dir ex1 rd1 dj dy dir = get_exclude_prefixes_for_dir ex2 rd2 dj dy dir.
  Proof.
    unfold get_exclude_prefixes_for_dir. destruct (is_abs dir) eqn:A; [|reflexivity]. cbn [negb]. apply path_clean_clean_abs in A. rewrite single_same by assumption.
    destruct (get_single_file_path_for_dir ex2 (path_clean dir)) as [p|] eqn:E; [|reflexivity]. cbn [bind]. destruct (is_empty p) eqn:N; [reflexivity|].
    destruct (single_in _ _ A E) as [->|C]; [discriminate N|]. rewrite external_same; [reflexivity|]. now apply a_config_clean.
  Qed.

  Variable ord : order.
  Variable cwd : string.
  Variable node_at : string -> node.
  Variable data : string.
  Lemma visit_same work root path is_dir st : visit_path ex1 rd1 dj dy data work root path is_dir st = visit_path ex2 rd2 dj dy data work root path is_dir st.
  Proof. unfold visit_path. now rewrite excludes_same. Qed.
  Lemma walk_same work root n : forall path st, walk ex1 rd1 dj dy data work root path n st = walk ex2 rd2 dj dy data work root path n st.
  Proof.
    induction n as [| | |es IH] using node_ind'; intros path st; cbn [walk]; rewrite ?visit_same; try reflexivity.
    destruct (visit_path ex2 rd2 dj dy data work root path true st) as [[[] st1]|]; try reflexivity. cbn [bind]. revert st1.
    induction IH as [|[name c] es Hc Hr IHes]; intros st1; [reflexivity|]. cbn [snd] in Hc. rewrite Hc.
    destruct (walk ex2 rd2 dj dy data work root (path_join [path; name]) c st1); [|reflexivity]. cbn [bind]. apply IHes.
  Qed.
  Lemma add_dirs_same work ds : forall m, add_dirs ex1 rd1 dj dy look sort devel data work ds m = add_dirs ex2 rd2 dj dy look sort devel data work ds m.
  Proof.
    induction ds as [|[d fs] ds IH]; intros m; cbn [add_dirs]; [reflexivity|].
    assert (X : add_dir ex1 rd1 dj dy look sort devel data work m (d, fs) = add_dir ex2 rd2 dj dy look sort devel data work m (d, fs)).
    { unfold add_dir. rewrite file_path_same. destruct (if is_empty data then _ else _) as [cf|] eqn:E; [|reflexivity]. cbn [bind].
      unfold get_config_for_data, get_config, get_config_for_dir. rewrite for_data_same, for_dir_same.
      destruct (is_empty data) eqn:D; cbn [negb]; [|reflexivity]. destruct (is_empty cf) eqn:N; cbn [negb]; [reflexivity|].
      rewrite for_file_same; [reflexivity|]. destruct (file_path_in _ _ E) as [->|A]; [discriminate N|assumption]. }
    rewrite X. destruct (add_dir ex2 rd2 dj dy look sort devel data work m (d, fs)); [|reflexivity]. cbn [bind]. apply IH.
  Qed.
  Lemma provider_get_same work dir :
    provider_get_for_dir ord cwd node_at ex1 rd1 dj dy look sort devel data work dir = provider_get_for_dir ord cwd node_at ex2 rd2 dj dy look sort devel data work dir.
  Proof.
    unfold provider_get_for_dir, get_multiple_for_dir. rewrite file_path_same. set (W := abs_clean cwd work).
    destruct (if is_empty data then _ else _) as [root|]; [|reflexivity]. cbn [bind].
    unfold walk_and_get_all_proto_files. destruct (initial_excludes dj data W) as [e|]; [|reflexivity]. cbn [bind].
    rewrite walk_same. destruct (walk ex2 rd2 dj dy data W root root (node_at root) (mk_walk_state e [])) as [st|]; [|reflexivity]. cbn [bind].
    assert (X : base_proto_sets ord ex1 rd1 dj dy look sort devel data W (dir_path_to_proto_files (w_files st)) =
                base_proto_sets ord ex2 rd2 dj dy look sort devel data W (dir_path_to_proto_files (w_files st))); [|now rewrite X].
    unfold base_proto_sets. destruct (dir_path_to_proto_files (w_files st)) as [|d ds].
    - unfold default_base_proto_set, get_config_for_dir, get_config_for_data. now rewrite for_dir_same, for_data_same.
    - now rewrite add_dirs_same.
  Qed.
End Agree.

Section Provider.
  Variable w : world.
  Variable r : runner.
  Hypothesis Hj : forall d e, w_decode_json w d = Ok e -> header_elsewhere e.
  Hypothesis Hy : forall d e, w_decode_yaml w d = Ok e -> header_elsewhere e.
  Lemma provider_same d1 d2 : (forall p, path_ext p <> ".proto" -> d1 p = d2 p) -> forall work dir, provider w r d1 work dir = provider w r d2 work dir.
  Proof.
    intros A work dir. unfold provider.
    rewrite (provider_get_same (exists_at w d1) (exists_at w d2) d1 d2); try assumption; [reflexivity|].
    intros p N. unfold exists_at. now rewrite A.
  Qed.
End Provider.

(** ** One command after the other *)
Lemma process_then {A B} (c : cmd A) (k : A -> cmd B) s :
  process (run a <- c; k a) s = match c s with (s1, Value a) => process (k a) s1 | _ => process c s end.
Proof. unfold process, and_then. destruct (c s) as [s1 [a|m|m]]; reflexivity. Qed.
Lemma process_value {A} (c : cmd A) s s1 : process c s = (s1, 0%Z) <-> exists a, c s = (s1, Value a).
Proof.
  unfold process. destruct (c s) as [s2 [a|m|m]]; (split; [intros E|intros (b & E)]); try discriminate E; injection E as <-; eauto.
Qed.
Lemma compiled_ok cwd format json to_json D compiler commands gen m s s1 ds :
  compile cwd format json to_json D compiler commands gen false false m s = (s1, Value ds) ->
  s1 = mk_io (io_disk s) (io_done s ++ [Compiled gen]).
Proof.
  unfold compile, do_compile, and_then, emit. cbn [io_disk]. destruct (compiler gen false None (io_disk s) (m_set m)) as [[fs d]|e]; [|discriminate].
  cbn [Exec_Model.check ret fst snd]. unfold report, and_then. destruct fs as [|f fs].
  - unfold print_failures, print_failures_for. cbn [map filter sort_failures]. unfold and_then, Exec_Model.check, ret, fail.
    destruct (parse_colon_separated_failure_fields format); cbn; [|discriminate]. intros [= <- _]; reflexivity.
  - destruct (print_failures _ _ _ _ _ _ _ _) as [s2 [|e|e]]; discriminate.
Qed.

Section Turns.
  Variable w : world.
  Hypothesis V : visits (w_order w).
  Hypothesis Hj : forall d e, w_decode_json w d = Ok e -> header_elsewhere e.
  Hypothesis Hy : forall d e, w_decode_yaml w d = Ok e -> header_elsewhere e.
  Variable r : runner.
  Lemma method_keeps k s s1 o : (forall p d, may w r k (Wrote p d) -> path_ext p = ".proto") ->
    Main_Model.method w r k s = (s1, o) -> forall work dir, provider w r (io_disk s1) work dir = provider w r (io_disk s) work dir.
  Proof.
    intros K E work dir. symmetry. apply provider_same; try assumption. intros p N.
    destruct (method_may w r k V s) as (es & _ & F & W). rewrite E in W. cbn [fst] in W.
    assert (D : io_disk s1 p = io_disk s p \/ io_disk s1 p <> io_disk s p).
    { destruct (io_disk s1 p) as [a|a], (io_disk s p) as [b|b]; try (right; discriminate); destruct (string_dec a b); subst; auto; right; congruence. }
    destruct D as [D|D]; [now symmetry|]. destruct (W p D) as (d & I). rewrite Forall_forall in F. destruct N. apply (K p d), F, I.
  Qed.
  Lemma get_meta_same work stat get get' args s : (forall a b, get a b = get' a b) -> get_meta work stat get args s = get_meta work stat get' args s.
  Proof. intros H. unfold get_meta, and_then. destruct (stat _) as [[]|]; cbn; rewrite ?H; reflexivity. Qed.

  Variable args : list string.
  Variable disable_format disable_lint fix_flag : bool.
  Definition first_call : Cmd_Model.call := if disable_format then CallCompile args false else CallFormat args true false false fix_flag.
  Lemma all_in_turn s s1 z1 s2 z2 sc zc s3 z3 :
    process (method w r first_call) s = (s1, z1) ->
    process (method w r (CallGen args false)) s1 = (s2, z2) ->
    process (method w r (CallCompile args false)) s2 = (sc, zc) ->
    process (method w r (CallLint args false false false "" "" false)) s2 = (s3, z3) ->
    (z1 <> 0%Z -> process (method w r (CallAll args disable_format disable_lint fix_flag)) s = (s1, z1)) /\
    (z1 = 0%Z -> z2 <> 0%Z \/ disable_lint = true -> process (method w r (CallAll args disable_format disable_lint fix_flag)) s = (s2, z2)) /\
    (z1 = 0%Z -> z2 = 0%Z -> disable_lint = false -> zc = 0%Z -> exists es,
       io_done s3 = io_done s2 ++ Compiled false :: es /\
       process (method w r (CallAll args disable_format disable_lint fix_flag)) s = (mk_io (io_disk s3) (io_done s2 ++ es), z3)).
  Proof.
    intros E1 E2 Ec E3.
    set (stat := w_stat w) in *.
    set (comp := fun gen m => compile (here r) (r_error_format r) (r_json r) Json_Model.failure_json file_set (the_compiler w r) (the_commands w r) gen false false m).
    set (fmt := fun m => if disable_format then ret tt else Exec_Model.format (w_order w) (here r) (r_error_format r) (r_json r) Json_Model.failure_json (the_transform w) (w_diff w) (w_write_error w) true false false fix_flag m).
    set (lnt := fun m => lint (here r) (r_error_format r) (r_json r) Json_Model.failure_json (the_lint w r) m).
    set (get := fun s => get_meta (here r) stat (provider w r (io_disk s)) args).
    assert (F1 : method w r first_call s = (run m <- get s; (comp false m ;; fmt m)) s) by (unfold first_call, fmt; destruct disable_format; reflexivity).
    assert (F2 : forall s, method w r (CallGen args false) s = (run m <- get s; comp true m ;; ret tt) s) by reflexivity.
    assert (F3 : forall s, method w r (CallCompile args false) s = (run m <- get s; comp false m ;; ret tt) s) by reflexivity.
    assert (F4 : forall s, method w r (CallLint args false false false "" "" false) s = (run m <- get s; comp false m ;; lnt m) s) by reflexivity.
    assert (F5 : method w r (CallAll args disable_format disable_lint fix_flag) s = (run m <- get s; comp false m ;; fmt m ;; comp true m ;; (if disable_lint then ret tt else lnt m)) s) by reflexivity.
    assert (Pr : forall (c c' : cmd unit) x, c x = c' x -> process c x = process c' x) by (intros c c' x Q; unfold process; now rewrite Q).
    rewrite (Pr _ _ _ F5). rewrite (Pr _ _ _ F1) in E1. rewrite (Pr _ _ _ (F2 s1)) in E2. rewrite (Pr _ _ _ (F3 s2)) in Ec. rewrite (Pr _ _ _ (F4 s2)) in E3.
    rewrite process_then in E1 |- *. unfold get in *. destruct (get_meta_pure (here r) stat (provider w r (io_disk s)) args s) as (o & G & Gs).
    rewrite G in *. destruct o as [m|e|e].
    2:{ assert (z1 <> 0%Z) by (unfold process in E1; rewrite G in E1; now injection E1 as _ <-). split; [|split; intros ->; contradiction].
        intros _. rewrite <- E1. unfold process. now rewrite G. }
    2:{ assert (z1 <> 0%Z) by (unfold process in E1; rewrite G in E1; now injection E1 as _ <-). split; [|split; intros ->; contradiction].
        intros _. rewrite <- E1. unfold process. now rewrite G. }
    assert (As : forall x, (comp false m ;; fmt m ;; comp true m ;; (if disable_lint then ret tt else lnt m)) x = ((comp false m ;; fmt m) ;; comp true m ;; (if disable_lint then ret tt else lnt m)) x).
    { intros x. unfold and_then. destruct (comp false m x) as [x1 [a|a|a]]; try reflexivity. }
    rewrite (Pr _ _ _ (As s)), process_then.
    destruct ((comp false m ;; fmt m) s) as [s1' o1] eqn:C1.
    destruct o1 as [[]|e|e].
    2,3: assert (z1 <> 0%Z) by (unfold process in E1; rewrite C1 in E1; now injection E1 as _ <-); split; [intros _; exact E1|split; intros ->; contradiction].
    assert (S1 : s1' = s1 /\ z1 = 0%Z) by (unfold process in E1; rewrite C1 in E1; now injection E1 as <- <-). destruct S1 as (-> & Z1).
    split; [intros N; contradiction|]. clear E1.
    assert (K1 : forall a b, provider w r (io_disk s1) a b = provider w r (io_disk s) a b).
    { apply (method_keeps first_call s s1 (Value tt)); [unfold first_call; destruct disable_format; [intros p d []|intros p d (_ & X); exact X]|].
      rewrite F1. unfold and_then at 1. unfold get. rewrite G. exact C1. }
    rewrite process_then in E2. rewrite (get_meta_same _ _ _ _ _ _ K1), Gs in E2.
    rewrite process_then in E2. rewrite process_then.
    destruct (comp true m s1) as [s2' o2] eqn:C2. destruct o2 as [ds|e|e].
    2,3: assert (z2 <> 0%Z) by (unfold process in E2; rewrite C2 in E2; now injection E2 as _ <-); split; [intros _ _; exact E2|intros _ ->; contradiction].
    cbn in E2. injection E2 as -> <-. split; [intros _ [N|N]; [now destruct N|]; rewrite N; reflexivity|]. intros _ _ Nl Zc. subst zc. rewrite Nl.
    pose proof (compiled_ok (here r) (r_error_format r) (r_json r) Json_Model.failure_json file_set (the_compiler w r) (the_commands w r) true m _ _ _ C2) as S2.
    assert (K2 : forall a b, provider w r (io_disk s2) a b = provider w r (io_disk s) a b).
    { intros a b. rewrite S2. cbn [io_disk]. apply K1. }
    rewrite process_then in Ec, E3. rewrite (get_meta_same _ _ _ _ _ _ K2), Gs in Ec, E3. rewrite process_then in Ec, E3.
    destruct (comp false m s2) as [sc' oc] eqn:C3. destruct oc as [dc|e|e].
    2,3: exfalso; unfold process in Ec; rewrite C3 in Ec; discriminate Ec.
    pose proof (compiled_ok (here r) (r_error_format r) (r_json r) Json_Model.failure_json file_set (the_compiler w r) (the_commands w r) false m _ _ _ C3) as S3. subst sc'. clear Ec.
    destruct (fr_process _ (fr_lint (here r) (r_error_format r) (r_json r) Json_Model.failure_json (the_lint w r) m) (io_disk s2)) as (es & d & z & Q & _).
    destruct s2 as [disk2 done2]. cbn [io_disk io_done] in *. rewrite Q in E3. injection E3 as <- <-. exists es. cbn [io_disk io_done].
    split; [now rewrite <- app_assoc|]. apply Q.
  Qed.
End Turns.
