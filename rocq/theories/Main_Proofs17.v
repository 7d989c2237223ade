(** A change of the ignores in one configuration file changes nothing else about what is
    found. *)
From Coq Require Import Permutation.
From Verif Require Import GoStrFacts GoPathFacts GoMapFacts Settings_Spec Settings_Proofs File_Spec File_Proofs Exec_Spec LintCmd_Spec Main_Model Main_Spec Main_Proofs Main_Proofs2 Main_Proofs4 Main_Proofs5 Main_Proofs6.

Definition rmap {A B} (f : A -> B) (r : result A) : result B := match r with Ok a => Ok (f a) | Err m => Err m end.
Lemma same_ok {A} (a b : A) : Ok a = Ok b -> a = b.
Proof. congruence. Qed.
Definition plain_external (e : external_config) : external_config :=
  mk_external_config (x_excludes e) (x_allow_unused_imports e) (x_version e) (x_includes e) (x_packages e) (x_group e) [] (x_no_default e) (x_add e) (x_remove e)
    (x_header e) (x_java_package_prefix e) (x_allow_suppression e) (x_include_beta e) (x_allow_beta_deps e) (x_import_path e) (x_extra_modifiers e) (x_plugins e).
Definition plain_config (c : config) : config :=
  let l := cfg_lint c in
  mk_config (cfg_dir c) (cfg_exclude_prefixes c) (cfg_compile c) (cfg_create c)
    (mk_lint_config (lc_group l) (lc_no_default l) (lc_include_ids l) (lc_exclude_ids l) [] (lc_file_header l) (lc_java_package_prefix l) (lc_allow_suppression l))
    (cfg_break c) (cfg_gen c).
Definition plain_set (ps : proto_set) : proto_set := mk_proto_set (ps_work_dir ps) (ps_dir ps) (ps_files ps) (plain_config (ps_config ps)).
Definition plain_entry (x : string * (list (string * list proto_file) * config)) := (fst x, (fst (snd x), plain_config (snd (snd x)))).

Lemma plain_ignoring ps ps' : plain_set ps = plain_set ps' -> ignoring (lc_ignores (cfg_lint (ps_config ps'))) ps ps'.
Proof.
  destruct ps as [a b f [d e c1 c2 [] c3 c4]], ps' as [a' b' f' [d' e' c1' c2' [] c3' c4']]. cbn. intros E. injection E. intros. constructor; cbn; congruence.
Qed.

Lemma entry_inj k1 f1 d1 k2 f2 d2 m1 m2 : map plain_entry ((k1, (f1, d1)) :: m1) = map plain_entry ((k2, (f2, d2)) :: m2) ->
  k1 = k2 /\ f1 = f2 /\ plain_config d1 = plain_config d2 /\ map plain_entry m1 = map plain_entry m2.
Proof.
  cbn [map]. unfold plain_entry at 1 3. cbn [fst snd]. generalize (plain_config d1) (plain_config d2) (map plain_entry m1) (map plain_entry m2). intros p1 p2 l1 l2 E. injection E. auto.
Qed.

Section Agree.
  Variable q : string.
  Variable ex1 ex2 : string -> bool.
  Hypothesis Aex : forall p, ex1 p = ex2 p.
  Variable rd1 rd2 : string -> result string.
  Hypothesis Ard : forall p, p <> q -> rd1 p = rd2 p.
  Variable dj dy : string -> result external_config.
  Definition header_not_in (e : external_config) : Prop := eh_path (x_header e) <> "" -> forall dir, path_join [dir; eh_path (x_header e)] <> q.
  Hypothesis Hj : forall d e, dj d = Ok e -> header_not_in e.
  Hypothesis Hy : forall d e, dy d = Ok e -> header_not_in e.
  Hypothesis Aq : rmap plain_external (get_external_config rd1 dj dy q) = rmap plain_external (get_external_config rd2 dj dy q).
  Variable look : string -> result string.
  Variable sort : list gen_plugin -> list gen_plugin.
  Variable devel : bool.

  Lemma single_ext dir : get_single_file_path_for_dir ex1 dir = get_single_file_path_for_dir ex2 dir.
  Proof. unfold get_single_file_path_for_dir. now rewrite (filter_ext _ _ Aex). Qed.
  Lemma file_path_ext dir : get_file_path_for_dir ex1 dir = get_file_path_for_dir ex2 dir.
  Proof.
    unfold get_file_path_for_dir. destruct (negb (is_abs dir)); [reflexivity|]. cbv zeta. set (n := S (String.length (path_clean dir))). clearbody n. generalize (path_clean dir).
    induction n as [|n IH]; intros d; [reflexivity|]. cbn [file_path_loop]. rewrite single_ext. destruct (get_single_file_path_for_dir ex2 d); [|reflexivity]. cbn [bind]. now rewrite IH.
  Qed.
  Lemma external_like p : rmap plain_external (get_external_config rd1 dj dy p) = rmap plain_external (get_external_config rd2 dj dy p).
  Proof. destruct (string_dec p q) as [->|N]; [exact Aq|]. unfold get_external_config. now rewrite Ard. Qed.
  Lemma external_not_in p e : get_external_config rd2 dj dy p = Ok e -> header_not_in e.
  Proof.
    unfold get_external_config. destruct (rd2 p) as [d|]; [|discriminate]. cbn [bind]. destruct (is_empty d); [intros [= <-] X; now destruct X|].
    destruct (String.eqb _ _); [apply Hj|]. destruct (String.eqb _ _); [apply Hy|discriminate].
  Qed.
  Lemma to_config_like e1 e2 dir : plain_external e1 = plain_external e2 -> header_not_in e2 ->
    rmap plain_config (external_config_to_config rd1 look sort devel e1 dir) = rmap plain_config (external_config_to_config rd2 look sort devel e2 dir).
  Proof.
    intros E H. assert (X : convert_header rd1 dir (x_header e2) = convert_header rd2 dir (x_header e2)).
    { unfold convert_header. destruct (is_empty (eh_path (x_header e2))) eqn:N; [reflexivity|]. cbn [negb andb]. rewrite Ard; [reflexivity|]. apply H. intros Y. now rewrite Y in N. }
    unfold plain_external in E. injection E. clear E. intros. unfold external_config_to_config. repeat match goal with F : ?f e1 = ?f e2 |- _ => rewrite F; clear F end. rewrite X.
    destruct (get_exclude_prefixes _ _); [|reflexivity]. cbn [bind]. destruct (mapM _ _); [|reflexivity]. cbn [bind]. destruct (mapM _ _); [|reflexivity]. cbn [bind].
    rewrite ?X. destruct (convert_header rd2 _ _); [|reflexivity]. cbn [bind]. destruct (negb devel && _); [reflexivity|]. destruct (mapM _ _); [|reflexivity]. cbn [bind]. destruct (intersection _ _); reflexivity.
  Qed.
  Lemma for_file_like p : rmap plain_config (get_for_file rd1 dj dy look sort devel p) = rmap plain_config (get_for_file rd2 dj dy look sort devel p).
  Proof.
    unfold get_for_file. destruct (negb (is_abs p)); [reflexivity|]. pose proof (external_like (path_clean p)) as X.
    destruct (get_external_config rd1 dj dy (path_clean p)) as [e1|], (get_external_config rd2 dj dy (path_clean p)) as [e2|] eqn:E; try discriminate X; cbn [rmap bind] in X |- *; [|exact (f_equal (fun r => match r with Ok _ => Err "" | Err m => Err m end) X)].
    apply to_config_like; [exact (same_ok _ _ X)|]. eapply external_not_in; eassumption.
  Qed.
  Lemma for_dir_like dir : rmap plain_config (get_for_dir ex1 rd1 dj dy look sort devel dir) = rmap plain_config (get_for_dir ex2 rd2 dj dy look sort devel dir).
  Proof.
    unfold get_for_dir. rewrite file_path_ext. destruct (get_file_path_for_dir ex2 dir) as [p|]; [|reflexivity]. cbn [bind]. destruct (is_empty p); [|apply for_file_like].
    apply to_config_like; [reflexivity|]. intros X. now destruct X.
  Qed.
  Lemma for_data_like dir data : rmap plain_config (get_for_data rd1 dj look sort devel dir data) = rmap plain_config (get_for_data rd2 dj look sort devel dir data).
  Proof.
    unfold get_for_data. destruct (negb _); [reflexivity|]. destruct (dj data) as [e|] eqn:E; [|reflexivity]. cbn [bind]. apply to_config_like; [reflexivity|]. eapply Hj; eassumption.
  Qed.
  Lemma excludes_like dir : get_exclude_prefixes_for_dir ex1 rd1 dj dy dir = get_exclude_prefixes_for_dir ex2 rd2 dj dy dir.
  Proof.
    unfold get_exclude_prefixes_for_dir. destruct (negb _); [reflexivity|]. rewrite single_ext. destruct (get_single_file_path_for_dir ex2 (path_clean dir)) as [p|]; [|reflexivity]. cbn [bind]. destruct (is_empty p); [reflexivity|].
    pose proof (external_like p) as X.
    destruct (get_external_config rd1 dj dy p) as [e1|], (get_external_config rd2 dj dy p) as [e2|]; try discriminate X; cbn [rmap bind] in X |- *; [|exact (f_equal (fun r => match r with Ok _ => Err "" | Err m => Err m end) X)].
    injection X. intros. f_equal; congruence.
  Qed.

  Variable ord : order.
  Variable cwd : string.
  Variable node_at : string -> node.
  Variable data : string.
  Lemma walk_like work root n : forall path st, walk ex1 rd1 dj dy data work root path n st = walk ex2 rd2 dj dy data work root path n st.
  Proof.
    assert (Vs : forall path is_dir st, visit_path ex1 rd1 dj dy data work root path is_dir st = visit_path ex2 rd2 dj dy data work root path is_dir st) by (intros; unfold visit_path; now rewrite excludes_like).
    induction n as [| | |es IH] using node_ind'; intros path st; cbn [walk]; rewrite ?Vs; try reflexivity.
    destruct (visit_path ex2 rd2 dj dy data work root path true st) as [[[] st1]|]; try reflexivity. cbn [bind]. revert st1.
    induction IH as [|[name c] es Hc Hr IHes]; intros st1; [reflexivity|]. cbn [snd] in Hc. rewrite Hc.
    destruct (walk ex2 rd2 dj dy data work root (path_join [path; name]) c st1); [|reflexivity]. cbn [bind]. apply IHes.
  Qed.
  Lemma gget_plain k m1 m2 : map plain_entry m1 = map plain_entry m2 ->
    match gget k m1 with Some (files, _) => files | None => [] end = match gget k m2 with Some (files, _) => files | None => [] end.
  Proof.
    revert m2. induction m1 as [|[k1 [f1 c1]] m1 IH]; intros [|[k2 [f2 c2]] m2] E; try discriminate E; [reflexivity|]. apply entry_inj in E as (<- & <- & _ & E). cbn [gget]. destruct (keqb k k1); [reflexivity|auto].
  Qed.
  Lemma gput_plain k f c1 c2 m1 m2 : map plain_entry m1 = map plain_entry m2 -> plain_config c1 = plain_config c2 -> map plain_entry (gput k (f, c1) m1) = map plain_entry (gput k (f, c2) m2).
  Proof.
    intros E C. revert m2 E. induction m1 as [|[k1 [f1 d1]] m1 IH]; intros [|[k2 [f2 d2]] m2] E; try discriminate E; cbn [gput map].
    - unfold plain_entry. cbn [fst snd]. now rewrite C.
    - apply entry_inj in E as (<- & <- & Ed & E0). destruct (keqb k k1); cbn [map]; (f_equal; [unfold plain_entry; cbn [fst snd]; congruence|]); [exact E0|auto].
  Qed.
  Lemma add_dirs_like work ds : forall m1 m2, map plain_entry m1 = map plain_entry m2 ->
    rmap (map plain_entry) (add_dirs ex1 rd1 dj dy look sort devel data work ds m1) = rmap (map plain_entry) (add_dirs ex2 rd2 dj dy look sort devel data work ds m2).
  Proof.
    induction ds as [|[d fs] ds IH]; intros m1 m2 E; cbn [add_dirs]; [cbn [rmap]; now rewrite E|]. unfold add_dir. rewrite file_path_ext.
    destruct (if is_empty data then _ else _) as [cf|]; [|reflexivity]. cbn [bind]. unfold get_config_for_data, get_config, get_config_for_dir.
    rewrite (gget_plain cf _ _ E). set (files := gput d _ _).
    match goal with |- context [bind ?A (fun c => Ok (gput cf (files, c) m1))] => match goal with |- context [bind ?B (fun c => Ok (gput cf (files, c) m2))] => assert (X : rmap plain_config A = rmap plain_config B) end end.
    { destruct (negb (is_empty data)); [apply for_data_like|]. destruct (negb (is_empty cf)); [apply for_file_like|apply for_dir_like]. }
    match goal with |- context [bind ?A (fun c => Ok (gput cf (files, c) m1))] => destruct A as [c1|e1] end; match goal with |- context [bind ?B (fun c => Ok (gput cf (files, c) m2))] => destruct B as [c2|e2] end; try discriminate X; cbn [bind rmap] in *.
    - apply IH. apply gput_plain; [exact E|]. exact (same_ok _ _ X).
    - now injection X as ->.
  Qed.
  Lemma plain_sets m1 m2 (f : list (string * list proto_file) * config -> proto_set) : (forall x y, fst x = fst y -> plain_config (snd x) = plain_config (snd y) -> plain_set (f x) = plain_set (f y)) ->
    map plain_entry m1 = map plain_entry m2 -> map plain_set (map f (map snd m1)) = map plain_set (map f (map snd m2)).
  Proof.
    intros Hf. revert m2. induction m1 as [|[k1 [f1 d1]] m1 IH]; intros [|[k2 [f2 d2]] m2] E; try discriminate E; [reflexivity|]. cbn [map snd]. apply entry_inj in E as (<- & <- & Ed & E0).
    f_equal; [|apply IH; exact E0]. apply Hf; [reflexivity|exact Ed].
  Qed.
  Lemma provider_like work dir :
    forall m, provider_get_for_dir ord cwd node_at ex1 rd1 dj dy look sort devel data work dir = Ok m ->
      exists m2, provider_get_for_dir ord cwd node_at ex2 rd2 dj dy look sort devel data work dir = Ok m2 /\ plain_set m = plain_set m2.
  Proof.
    assert (K : rmap plain_set (provider_get_for_dir ord cwd node_at ex1 rd1 dj dy look sort devel data work dir) = rmap plain_set (provider_get_for_dir ord cwd node_at ex2 rd2 dj dy look sort devel data work dir)).
    { unfold provider_get_for_dir, get_multiple_for_dir. rewrite file_path_ext. set (W := abs_clean cwd work).
      destruct (if is_empty data then _ else _) as [root|]; [|reflexivity]. cbn [bind].
      unfold walk_and_get_all_proto_files. destruct (initial_excludes dj data W) as [e|]; [|reflexivity]. cbn [bind].
      rewrite walk_like. destruct (walk ex2 rd2 dj dy data W root root (node_at root) (mk_walk_state e [])) as [st|]; [|reflexivity]. cbn [bind].
      set (f := fun s : list (string * list proto_file) * config => mk_proto_set W (abs_clean cwd dir) (by_dir (fst s)) (snd s)).
      assert (X : rmap (fun l => map plain_set (map f l)) (base_proto_sets ord ex1 rd1 dj dy look sort devel data W (dir_path_to_proto_files (w_files st))) =
                  rmap (fun l => map plain_set (map f l)) (base_proto_sets ord ex2 rd2 dj dy look sort devel data W (dir_path_to_proto_files (w_files st)))).
      { assert (Hf : forall x y, fst x = fst y -> plain_config (snd x) = plain_config (snd y) -> plain_set (f x) = plain_set (f y)).
        { intros x y A B. unfold f, plain_set. cbn [ps_work_dir ps_dir ps_files ps_config]. now rewrite A, B. }
        unfold base_proto_sets. destruct (dir_path_to_proto_files (w_files st)) as [|d ds].
        - unfold default_base_proto_set, get_config_for_dir, get_config_for_data.
          assert (Y : rmap plain_config (if is_empty data then get_for_dir ex1 rd1 dj dy look sort devel W else get_for_data rd1 dj look sort devel W data) =
                      rmap plain_config (if is_empty data then get_for_dir ex2 rd2 dj dy look sort devel W else get_for_data rd2 dj look sort devel W data)).
          { destruct (is_empty data); [apply for_dir_like|apply for_data_like]. }
          destruct (if is_empty data then get_for_dir ex1 rd1 dj dy look sort devel W else _) as [c1|], (if is_empty data then get_for_dir ex2 rd2 dj dy look sort devel W else _) as [c2|]; try discriminate Y; cbn [bind rmap] in *; [|now injection Y as ->].
          cbn [map]. f_equal. f_equal. apply Hf; [reflexivity|]. cbn [snd]. exact (same_ok _ _ Y).
        - pose proof (add_dirs_like W (ord "DirPathToProtoFiles" _ (d :: ds)) [] [] eq_refl) as Y.
          destruct (add_dirs ex1 rd1 dj dy look sort devel data W (ord "DirPathToProtoFiles" _ (d :: ds)) []) as [m1|], (add_dirs ex2 rd2 dj dy look sort devel data W (ord "DirPathToProtoFiles" _ (d :: ds)) []) as [m2|]; try discriminate Y; cbn [bind rmap] in *; [|now injection Y as ->].
          f_equal. apply plain_sets; [exact Hf|]. exact (same_ok _ _ Y). }
      destruct (base_proto_sets ord ex1 rd1 dj dy look sort devel data W (dir_path_to_proto_files (w_files st))) as [l1|], (base_proto_sets ord ex2 rd2 dj dy look sort devel data W (dir_path_to_proto_files (w_files st))) as [l2|]; try discriminate X; cbn [bind rmap] in *; [|now injection X as ->].
      apply same_ok in X. fold f. set (L1 := map f l1) in *. set (L2 := map f l2) in *. clearbody L1 L2. clear l1 l2.
      assert (Vl : forall a b, map plain_set a = map plain_set b -> mapM (validate_proto_set ord) a = mapM (validate_proto_set ord) b).
      { clear. induction a as [|x a IH]; intros [|y b] E; try discriminate E; [reflexivity|]. cbn [map] in E. pose proof E as E'. injection E. intros E0 _ E2 _ _. cbn [mapM]. rewrite (IH b E0).
        assert (Z : validate_proto_set ord x = validate_proto_set ord y); [|now rewrite Z].
        unfold validate_proto_set. assert (A1 : ps_files x = ps_files y) by (cbn in E'; unfold plain_set in E'; congruence). assert (A2 : cfg_dir (ps_config x) = cfg_dir (ps_config y)) by (unfold plain_set, plain_config in E'; cbn in E'; congruence).
        now rewrite A1, A2. }
      rewrite (Vl _ _ X). destruct (mapM _ L2); [|reflexivity]. cbn [bind]. clear Vl.
      assert (Dl : map (fun s => cfg_dir (ps_config s)) L1 = map (fun s => cfg_dir (ps_config s)) L2).
      { assert (P : forall L, map (fun s => cfg_dir (ps_config s)) L = map (fun s => cfg_dir (ps_config s)) (map plain_set L)) by (intros L; now rewrite map_map). now rewrite (P L1), (P L2), X. }
      destruct L1 as [|x1 [|y1 L1]], L2 as [|x2 [|y2 L2]]; try discriminate X; try reflexivity.
      - cbn [rmap]. cbn [map] in X. f_equal. assert (H : hd (plain_set x1) [plain_set x1] = hd (plain_set x1) [plain_set x2]) by now rewrite X. exact H.
      - now rewrite Dl. }
    intros m E. rewrite E in K. destruct (provider_get_for_dir _ _ _ _ rd2 _ _ _ _ _ _ _ _) as [m2|]; [|discriminate K]. exists m2. split; [reflexivity|]. exact (same_ok _ _ K).
  Qed.
End Agree.

Lemma found_like w r q d1 d2 args m : (forall p, p <> q -> d1 p = d2 p) -> (exists e is, get_external_config d1 (w_decode_json w) (w_decode_yaml w) q = Ok e /\
    exists e2, get_external_config d2 (w_decode_json w) (w_decode_yaml w) q = Ok e2 /\ plain_external e = plain_external e2 /\ x_ignores e2 = is) ->
  (forall data e, w_decode_json w data = Ok e \/ w_decode_yaml w data = Ok e -> header_not_in q e) ->
  found (here r) (w_stat w) (provider w r d1) args m ->
  exists m2, found (here r) (w_stat w) (provider w r d2) args m2 /\ m_single m2 = m_single m /\ plain_set (m_set m) = plain_set (m_set m2).
Proof.
  intros A (e & is & E1 & e2 & E2 & Pe & _) H F.
  assert (Ex : forall p, exists_at w d1 p = exists_at w d2 p).
  { intros p. unfold exists_at. destruct (string_dec p q) as [->|N]; [|now rewrite A]. unfold get_external_config in E1, E2. destruct (d1 q); [|discriminate E1]. destruct (d2 q); [reflexivity|discriminate E2]. }
  assert (K : forall dir ps, provider w r d1 (here r) dir = Ok ps -> exists ps2, provider w r d2 (here r) dir = Ok ps2 /\ plain_set ps = plain_set ps2).
  { intros dir ps P. unfold provider in P |- *. destruct (provider_get_for_dir _ _ _ _ d1 _ _ _ _ _ _ _ _) as [x|] eqn:Px; [|discriminate P].
    destruct (provider_like q (exists_at w d1) (exists_at w d2) Ex d1 d2 A (w_decode_json w) (w_decode_yaml w) (fun data e X => H data e (or_introl X)) (fun data e X => H data e (or_intror X))
      ltac:(rewrite E1, E2; cbn [rmap]; now rewrite Pe) (w_look_path w) (w_sort_plugins w) false (w_order w) (here r) (w_node_at w) (r_config_data r) (here r) dir x Px) as (x2 & Py & Xe).
    rewrite Py. cbn [bind] in P |- *. destruct (_ =? 0)%Z; [injection P as <-; eauto|]. destruct (w_too_slow _ _ _); [discriminate P|]. injection P as <-. eauto. }
  destruct F as [ps St P|ps St P]; destruct (K _ _ P) as (ps2 & P2 & Xe).
  - exists (mk_meta ps2 ""). split; [now apply FoundDirectory|]. auto.
  - exists (mk_meta ps2 (Exec_Spec.target args)). split; [now apply FoundFile|]. auto.
Qed.

(** The linter reads only the files of the set. *)
Lemma mapM_on {A B} (f g : A -> result B) l : (forall x, In x l -> f x = g x) -> mapM f l = mapM g l.
Proof. induction l as [|x l IH]; intros H; [reflexivity|]. cbn [mapM]. rewrite (H x) by now left. now rewrite IH by (intros; apply H; now right). Qed.
Lemma run_lint_disk ord cwd parse sing d1 d2 ps ab : (forall k A (l : list A), Permutation l (ord k A l)) ->
  (forall dir files f, In (dir, files) (ps_files ps) -> In f files -> d1 (pf_path f) = d2 (pf_path f)) -> run_lint ord cwd parse sing d1 ps ab = run_lint ord cwd parse sing d2 ps ab.
Proof.
  intros V H. unfold run_lint, lint_run. destruct (get_linters _ _ _ _ _); [|reflexivity]. cbn [bind].
  assert (X : dir_path_to_descriptors ord (read_proto parse d1) ps ab = dir_path_to_descriptors ord (read_proto parse d2) ps ab); [|now rewrite X].
  unfold dir_path_to_descriptors. erewrite mapM_on; [reflexivity|]. intros [d files] I. apply filter_In in I as (I & _). apply (Permutation_in _ (Permutation_sym (V _ _ _))) in I.
  cbn [fst snd]. erewrite mapM_on; [reflexivity|]. intros f J. unfold read_descriptor, read_proto. now rewrite (H _ _ _ I J).
Qed.

(** ** Names *)
Lemma clean_step_rel oks k c : ok_comps oks -> no_char slash c = true ->
  exists oks' k', clean_step false (oks ++ repeat ".." k) c = oks' ++ repeat ".." k' /\ ok_comps oks'.
Proof.
  intros O N. unfold clean_step. destruct (is_empty c) eqn:E1; [exists oks, k; auto|]. destruct (String.eqb c ".") eqn:E2; [exists oks, k; auto|]. cbn [orb].
  destruct (String.eqb c "..") eqn:E3.
  - destruct oks as [|top rest]; cbn [app].
    + destruct k as [|k]; [exists [], 1; split; [reflexivity|constructor]|]. exists [], (S (S k)). split; [reflexivity|constructor].
    + inversion O as [|? ? Ht Hr]; subst. destruct (String.eqb top "..") eqn:E4; [apply String.eqb_eq in E4; apply ok_comp_inv in Ht; tauto|]. exists rest, k. auto.
  - exists (c :: oks), k. split; [reflexivity|]. constructor; [|exact O]. unfold ok_comp. now rewrite E1, E2, E3, N.
Qed.
Lemma clean_fold_rel cs : Forall (fun x => no_char slash x = true) cs -> forall oks k, ok_comps oks ->
  exists oks' k', fold_left (clean_step false) cs (oks ++ repeat ".." k) = oks' ++ repeat ".." k' /\ ok_comps oks'.
Proof.
  induction 1 as [|c cs Hc F IH]; intros oks k O; [exists oks, k; auto|]. cbn [fold_left]. destruct (clean_step_rel oks k c O Hc) as (o & j & -> & O'). auto.
Qed.
Lemma fold_ups k : forall st, ok_comps st -> fold_left (clean_step true) (repeat ".." k) st = skipn k st.
Proof.
  induction k as [|k IH]; intros st O; [reflexivity|]. cbn [repeat fold_left]. destruct st as [|x st]; [rewrite IH by constructor; now rewrite skipn_nil|].
  inversion O as [|? ? Hx Hr]; subst. replace (clean_step true (x :: st) "..") with st; [apply IH; exact Hr|]. unfold clean_step. cbn.
  apply ok_comp_inv in Hx as (_ & _ & Hx & _). apply String.eqb_neq in Hx. now rewrite Hx.
Qed.
(** The name shown for a file ends in the name of the file, unless the file lies above the
    working directory. *)
Lemma shown_base cwd p n : clean_abs cwd -> File_Spec.shown cwd p n -> ~ within p cwd -> path_base n = path_base p.
Proof.
  intros (w & Ow & ->) (A & C & P) N. rewrite <- P. rewrite <- join_against in P |- * by (exists w; auto).
  assert (Nn : n <> "") by (intros ->; discriminate C). rewrite path_join_abs in P |- * by assumption.
  pose proof C as C'. unfold path_clean in C'. rewrite A in C'. unfold clean_comps in C'.
  pose proof (split_char_parts slash n) as Sp. destruct (clean_fold_rel _ Sp [] 0 (Forall_nil _)) as (oks & k & Ef & Oo). cbn [app repeat] in Ef. rewrite Ef in C'.
  rewrite rev_app_distr in C'. assert (Rk : rev (repeat ".." k) = repeat ".." k).
  { clear. induction k as [|k IH]; [reflexivity|]. cbn [repeat rev]. rewrite IH. clear. induction k as [|k IH]; [reflexivity|]. cbn [repeat app]. now rewrite IH. }
  rewrite Rk in C'.
  destruct oks as [|c oks].
  - exfalso. apply N. cbn [rev app] in C'. rewrite app_nil_r in C'. assert (X : exists j, fold_left (clean_step true) (split_char slash n) (rev w) = skipn j (rev w)).
    { destruct k as [|k]; cbn [repeat] in C'; [subst n; now exists 0|]. exists (S k). rewrite <- C'. change "/" with (String slash ""). rewrite (split_join slash (".." :: repeat ".." k)).
      - exact (fold_ups (S k) (rev w) (ok_comps_rev _ Ow)).
      - discriminate.
      - constructor; [reflexivity|]. clear. induction k; constructor; auto. }
    destruct X as (j & X). rewrite X in P. rewrite <- P. exists (rev (skipn j (rev w))), (rev (firstn j (rev w))).
    assert (W : w = rev (skipn j (rev w)) ++ rev (firstn j (rev w))) by now rewrite <- rev_app_distr, firstn_skipn, rev_involutive.
    pose proof Ow as Ow'. rewrite W in Ow'. apply ok_comps_app in Ow' as (O1 & O2). split; [exact O1|]. split; [exact O2|]. split; [reflexivity|now rewrite <- W].
  - cbn [rev] in C'. unfold ok_comps in Oo. apply Forall_cons_iff in Oo as [Hc Hr]. rewrite app_assoc in C'.
    set (pre := repeat ".." k ++ rev oks) in *. assert (C2 : join "/" (pre ++ [c]) = n) by (destruct (pre ++ [c]) eqn:Z; [now destruct pre|exact C']). clear C'.
    assert (Nc : no_char slash c = true) by (apply ok_comp_inv in Hc; tauto).
    assert (Sn : split_char slash n = pre ++ [c]).
    { rewrite <- C2. change "/" with (String slash ""). apply split_join; [destruct pre; discriminate|]. apply Forall_app. split; [|constructor; auto]. apply Forall_app. split; [clear; induction k; constructor; auto|]. apply ok_comps_no_slash. now apply ok_comps_rev. }
    assert (Xc : forall st, clean_step true st c = c :: st) by (intros; now apply clean_step_ok).
    rewrite Sn, fold_left_app. cbn [fold_left]. rewrite Xc. cbn [rev]. rewrite path_base_abs; [|apply ok_comps_rev, clean_fold_rooted_ok; [now apply ok_comps_rev|]|exact Hc].
    2:{ apply Forall_app. split; [clear; induction k; constructor; auto|]. apply ok_comps_no_slash. now apply ok_comps_rev. }
    assert (Ce : c <> "") by (apply ok_comp_inv in Hc; tauto).
    unfold path_base. destruct (is_empty n) eqn:En; [apply is_empty_true in En; congruence|].
    assert (Tr : trim_right (fun x => Ascii.eqb x slash) n = n).
    { apply trim_right_id. intros a Ha. assert (Z : exists b, n = b +++ c).
      { rewrite <- C2. destruct pre as [|x pre]; [now exists ""|]. exists (join "/" (x :: pre) +++ "/"). rewrite join_snoc by discriminate. now rewrite sapp_assoc. }
      destruct Z as (b & ->). rewrite last_char_app_r in Ha by assumption. clear -Nc Ha. induction c as [|x c IH]; [discriminate|].
      unfold no_char in Nc; simpl in Nc. apply andb_true_iff in Nc as [Hx Hc]. destruct c as [|y c]; [vm_compute in Ha; injection Ha as <-; now apply negb_true_iff in Hx|]. rewrite last_char_cons in Ha. auto. }
    rewrite Tr. unfold after_last_slash. rewrite Sn, last_last. destruct (is_empty c) eqn:Y; [apply is_empty_true in Y; congruence|reflexivity].
Qed.
