(** Proofs about what is said of a configuration that is not accepted. *)
From Coq Require Import Permutation.
From Verif Require Import GoStrFacts GoPathFacts GoFmt Strs_Spec Strs_Proofs Settings_Model Settings_Spec Settings_Proofs Settings_Proofs2 File_Spec Settings_Text_Spec.

Lemma mapM_err {A B} (f : A -> result B) l t : mapM f l = Err t ->
  exists a x b, l = a ++ x :: b /\ f x = Err t /\ forall y, In y a -> exists z, f y = Ok z.
Proof.
  induction l as [|x l IH]; [discriminate|]. cbn [mapM]. destruct (f x) as [y|m] eqn:E; cbn [bind].
  - destruct (mapM f l) as [ys|m] eqn:E'; cbn [bind]; [discriminate|]. intros H; injection H as ->.
    destruct (IH eq_refl) as (a & z & b & -> & Ez & Hz). exists (x :: a), z, b. split; [reflexivity|]. split; [assumption|].
    intros w [<-|Hw]; [eauto|auto].
  - intros H; injection H as ->. exists [], x, l. split; [reflexivity|]. split; [assumption|]. intros ? [].
Qed.
Lemma mapM_ok_In {A B} (f : A -> result B) l r x : mapM f l = Ok r -> In x l -> exists y, f x = Ok y.
Proof. intros H I. apply mapM_ok in H. destruct (Forall2_In_l _ _ _ _ H I) as (y & _ & E). eauto. Qed.
Lemma first_said_intro {A B} (f : A -> result B) (says : A -> string -> Prop) l t :
  (forall x u, f x = Err u -> says x u) -> (forall x y u, f x = Ok y -> ~ says x u) ->
  mapM f l = Err t -> first_said says l t.
Proof.
  intros Hs Hn H. apply mapM_err in H as (a & x & b & -> & Ex & Ha). exists a, x, b. split; [reflexivity|]. split; [auto|].
  intros y u Hy. destruct (Ha y Hy) as (z & Ez). eauto.
Qed.
Lemma first_said_none {A B} (f : A -> result B) (says : A -> string -> Prop) l r t :
  (forall x y u, f x = Ok y -> ~ says x u) -> mapM f l = Ok r -> ~ first_said says l t.
Proof.
  intros Hn H (a & x & b & -> & S & _). assert (I : In x (a ++ x :: b)) by (apply in_or_app; right; now left).
  destruct (mapM_ok_In _ _ _ _ H I) as (y & E). exact (Hn _ _ _ E S).
Qed.

(** ** Excludes *)
Definition exclude_step (dir x : string) : result string :=
  let p := resolve dir x in
  if String.eqb p dir then Err ("cannot exclude directory of config file: " +++ dir)
  else if negb (has_prefix p dir) then Err ("cannot exclude directory outside of config file directory " +++ dir +++ ": " +++ p)
  else Ok p.
Lemma exclude_err dir x t : clean_abs dir -> exclude_step dir x = Err t -> exclude_fault dir x t.
Proof.
  intros Hd. unfold exclude_step. cbv zeta. rewrite resolve_against by assumption.
  destruct (String.eqb (against dir x) dir) eqn:E1.
  - apply String.eqb_eq in E1. intros H; injection H as <-. now constructor.
  - destruct (has_prefix (against dir x) dir) eqn:E2; [discriminate|]. cbn [negb]. intros H; injection H as <-.
    constructor. apply has_prefix_false. exact E2.
Qed.
Lemma exclude_fine dir x y t : clean_abs dir -> exclude_step dir x = Ok y -> ~ exclude_fault dir x t.
Proof.
  intros Hd. unfold exclude_step. cbv zeta. rewrite resolve_against by assumption.
  destruct (String.eqb (against dir x) dir) eqn:E1; [discriminate|]. apply seqb_neq in E1.
  destruct (has_prefix (against dir x) dir) eqn:E2; [|discriminate]. intros _ F. destruct F as [F|F]; [contradiction|].
  apply has_prefix_spec in E2 as (r & E2). exact (F _ E2).
Qed.
Lemma excludes_err es dir t : clean_abs dir -> get_exclude_prefixes es dir = Err t -> least_said (exclude_fault dir) es t.
Proof.
  intros Hd H. change (mapM (exclude_step dir) (sort_uniq es) = Err t) in H. apply mapM_err in H as (a & x & b & E & Ex & Ha).
  assert (I : In x (sort_uniq es)) by (rewrite E; apply in_or_app; right; now left).
  apply sort_uniq_In in I as (Nx & Ix). exists x. split; [assumption|]. split; [assumption|]. split; [now apply exclude_err|].
  intros y u Iy Ny Fy. assert (J : In y (sort_uniq es)) by now apply sort_uniq_In.
  pose proof (proj1 (sort_uniq_modify_spec (fun x => x) es)) as Inc. change (Increasing (sort_uniq es)) in Inc. rewrite E in J, Inc.
  apply in_app_or in J as [J|[<-|J]].
  - destruct (Ha y J) as (z & Ez). exfalso. exact (exclude_fine _ _ _ _ Hd Ez Fy).
  - apply str_leb_refl.
  - clear - Inc J. induction a as [|c a IH]; cbn [app] in Inc; inversion Inc as [|? ? Hc Hl]; subst.
    + apply str_ltb_leb. now apply Hc.
    + now apply IH.
Qed.
Lemma excludes_fine es dir l t : clean_abs dir -> get_exclude_prefixes es dir = Ok l -> ~ least_said (exclude_fault dir) es t.
Proof.
  intros Hd H (x & Ix & Nx & Fx & _). change (mapM (exclude_step dir) (sort_uniq es) = Ok l) in H.
  destruct (mapM_ok_In _ _ _ x H) as (y & E); [now apply sort_uniq_In|]. exact (exclude_fine _ _ _ _ Hd E Fx).
Qed.

(** ** Plugins *)
Lemma plugin_fault_not_first p t : plugin_fault p t -> ~ plugin_first p.
Proof.
  intros F (T & O & S & I1 & I2). destruct F as [H|H H0|r H H0 H1|H H0 H1 H2 H3|H H0 H1 H2 H3 H4].
  - contradiction.
  - contradiction.
  - exact (S _ H1).
  - exact (H2 (I1 H3)).
  - exact (H2 (I2 H4)).
Qed.
Lemma plugin_fine look dir p g t : clean_abs dir -> convert_plugin look dir p = Ok g -> ~ plugin_fault p t.
Proof. intros Hd E F. apply (plugin_fault_not_first _ _ F). now apply (convert_plugin_ok look dir p g Hd). Qed.
Lemma plugin_err look dir p t : clean_abs dir -> convert_plugin look dir p = Err t -> plugin_fault p t.
Proof.
  intros Hd. unfold convert_plugin. pose proof (parse_type (xp_type p)) as P.
  destruct (parse_plugin_type (xp_type p)) as [ty|m] eqn:Ep.
  2: { cbn [bind]. intros H; injection H as <-. assert (m = "could not parse " +++ xp_type p +++ " to a GenPluginType") as ->; [|now constructor].
       unfold parse_plugin_type in Ep. repeat (destruct (String.eqb _ _); [discriminate|]). now injection Ep as <-. }
  destruct P as (T & _). cbn [bind]. destruct (is_empty (xp_output p)) eqn:E1.
  { apply is_empty_true in E1. intros H; injection H as <-. now apply Output_missing. }
  apply is_empty_false in E1.
  assert (exists paths, (if is_abs (xp_output p) then do r <- path_rel dir (path_clean (xp_output p)); Ok (r, path_clean (xp_output p))
     else Ok (xp_output p, path_clean (path_join [dir; xp_output p]))) = Ok paths) as (paths & ->).
  { destruct (is_abs (xp_output p)) eqn:E2; [|eauto]. cbv zeta. destruct Hd as (cs & Hcs & ->).
    destruct (path_clean_clean_abs _ E2) as (os & Hos & ->). rewrite path_rel_abs by assumption.
    destruct (list_eq_dec string_dec cs os); cbn [bind]; eauto. }
  cbn [bind]. destruct (has_prefix (xp_file_suffix p) ".") eqn:E3.
  { apply has_prefix_spec in E3 as (r & E3). rewrite E3. intros H; injection H as <-. now apply (Suffix_with_dot p r). }
  pose proof (proj1 (has_prefix_false _ _) E3) as E3'.
  destruct (String.eqb (xp_name p) "descriptor_set") eqn:E4; cbn [negb andb]; [discriminate|]. apply seqb_neq in E4.
  destruct (xp_include_imports p) eqn:E5; [intros H; injection H as <-; now apply Imports_elsewhere|].
  destruct (xp_include_source_info p) eqn:E6; [intros H; injection H as <-; now apply Source_info_elsewhere|]. discriminate.
Qed.

(** ** Packages *)
Lemma package_err dir p t : convert_package dir p = Err t -> package_fault p t.
Proof.
  unfold convert_package. destruct (is_empty (ep_directory p)) eqn:E1; [apply is_empty_true in E1; intros H; injection H as <-; now constructor|].
  apply is_empty_false in E1. destruct (is_empty (ep_name p)) eqn:E2; [apply is_empty_true in E2; intros H; injection H as <-; now apply Name_missing|].
  apply is_empty_false in E2. destruct (is_abs (ep_directory p)) eqn:E3; [|discriminate]. intros H; injection H as <-. now apply Directory_absolute.
Qed.
Lemma package_fine dir p r t : convert_package dir p = Ok r -> ~ package_fault p t.
Proof.
  unfold convert_package. destruct (is_empty (ep_directory p)) eqn:E1; [discriminate|]. apply is_empty_false in E1.
  destruct (is_empty (ep_name p)) eqn:E2; [discriminate|]. apply is_empty_false in E2.
  destruct (is_abs (ep_directory p)) eqn:E3; [discriminate|]. intros _ F. destruct F; congruence.
Qed.

(** ** The header *)
Lemma header_err read dir h t : clean_abs dir -> convert_header read dir h = Err t -> header_fault read dir h t.
Proof.
  intros Hd. unfold convert_header.
  destruct (is_empty (eh_path h)) eqn:E1; destruct (is_empty (eh_content h)) eqn:E2; cbn [andb negb].
  - discriminate.
  - apply is_empty_true in E1. apply is_empty_false in E2. cbn [bind]. rewrite header_lines_eq.
    destruct (is_empty (join _ _)) eqn:E3; [|discriminate]. apply is_empty_true, header_empty in E3 as (C & B).
    intros H; injection H as <-. apply (Header_empty _ _ _ (eh_content h)); [left; auto|exact C|]. exact B.
  - apply is_empty_false in E1. apply is_empty_true in E2.
    destruct (is_abs (eh_path h)) eqn:E4; [cbn [bind]; intros H; injection H as <-; now apply Header_absolute|].
    rewrite join_against by assumption.
    destruct (read (path_clean (dir +++ "/" +++ eh_path h))) as [text|m] eqn:E5; [|cbn [bind]; intros H; injection H as <-; now apply Header_unreadable].
    cbn [bind]. rewrite header_lines_eq.
    destruct (is_empty (join _ _)) eqn:E3; [|discriminate]. apply is_empty_true, header_empty in E3 as (C & B).
    intros H; injection H as <-. apply (Header_empty _ _ _ text); [right; auto|exact C|]. exact B.
  - apply is_empty_false in E1, E2. intros H; injection H as <-. now apply Header_twice.
Qed.
Lemma header_fine read dir h s t : clean_abs dir -> convert_header read dir h = Ok s -> ~ header_fault read dir h t.
Proof.
  intros Hd H F. apply header_ok_lemma in H as ([(P & C)|(text & T & B)] & _); [..|assumption].
  - destruct F as [H1 H2|H1 H2|m H1 H2 H3 H4|text T C' B]; try congruence.
    + rewrite P in H2. discriminate.
    + destruct T as [(_ & T & _)|(T & _)]; congruence.
  - destruct F as [H1 H2|H1 H2|m H1 H2 H3 H4|text' T' C' B'].
    + destruct T as [(T & _)|(_ & T & _)]; congruence.
    + destruct T as [(_ & T & _)|(_ & _ & T & _)]; congruence.
    + destruct T as [(T & _)|(_ & _ & _ & T)]; congruence.
    + assert (text' = text) as -> by (destruct T as [(T1 & _ & T2)|(T1 & _ & _ & T2)], T' as [(T3 & _ & T4)|(T3 & _ & _ & T4)]; congruence).
      exact (B C' B').
Qed.

(** ** Names of plugins *)
Lemma becomes_name_fault look dir p g imp t : plugin_becomes look dir p g ->
  (validate_plugin imp g = Err t <-> plugin_name_fault imp p t).
Proof.
  intros Hb. pose proof (becomes_go _ _ _ _ Hb) as Go. destruct Hb as (En & _). unfold validate_plugin. rewrite En.
  destruct (has_prefix (xp_name p) "protoc-gen-") eqn:E1.
  - apply has_prefix_spec in E1 as (r & E1). split.
    + intros H; injection H as <-. now apply (Prefix_given _ _ r).
    + intros F. destruct F as [r' F|F]; [reflexivity|]. now specialize (F r).
  - pose proof (proj1 (has_prefix_false _ _) E1) as E1'. destruct (is_go_type (gp_type g)) eqn:E2; cbn [andb].
    + destruct (is_empty imp) eqn:E3.
      * apply is_empty_true in E3. split; [intros H; injection H as <-; apply Import_path_missing; [assumption|now apply Go|assumption]|].
        intros F. destruct F as [r' F|F]; [now specialize (E1' r')|reflexivity].
      * apply is_empty_false in E3. split; [discriminate|]. intros F. destruct F as [r' F|F]; [now specialize (E1' r')|contradiction].
    + split; [discriminate|]. intros F. destruct F as [r' F|F F1]; [now specialize (E1' r')|]. apply Go in F1. discriminate.
Qed.

Section Whole.
  Variable read look : string -> result string.
  Variable sort : list gen_plugin -> list gen_plugin.
  Variable devel : bool.
  Theorem rejected_told e dir t : sorts sort -> clean_abs dir ->
    external_config_to_config read look sort devel e dir = Err t -> told read devel e dir t.
  Proof.
    intros So Hd. unfold external_config_to_config.
    destruct (get_exclude_prefixes (x_excludes e) dir) as [ex|m] eqn:E1.
    2: { cbn [bind]. intros H; injection H as <-. exists 1. split; [constructor; now apply excludes_err|]. intros k u Hk S. inversion S; subst; lia. }
    assert (N1 : forall u, ~ least_said (exclude_fault dir) (x_excludes e) u) by (intros u; now apply (excludes_fine _ _ ex)).
    cbn [bind]. destruct (mapM (convert_plugin look dir) (x_plugins e)) as [pl|m] eqn:E2.
    2: { cbn [bind]. intros H; injection H as <-. exists 2. split; [constructor; eapply first_said_intro; [| |exact E2]; [intros x u; now apply plugin_err|intros x y u; now apply plugin_fine]|].
         intros k u Hk S. inversion S; subst; try lia. now apply (N1 u). }
    assert (N2 : forall u, ~ first_said plugin_fault (x_plugins e) u) by (intros u; eapply first_said_none; [|exact E2]; intros x y v; now apply plugin_fine).
    cbn [bind]. destruct (mapM (convert_package dir) (x_packages e)) as [pk|m] eqn:E3.
    2: { cbn [bind]. intros H; injection H as <-. exists 3. split; [constructor; eapply first_said_intro; [| |exact E3]; [intros x u; now apply package_err|intros x y u; now apply package_fine]|].
         intros k u Hk S. inversion S; subst; try lia; [now apply (N1 u)|now apply (N2 u)]. }
    assert (N3 : forall u, ~ first_said package_fault (x_packages e) u) by (intros u; eapply first_said_none; [|exact E3]; intros x y v; now apply package_fine).
    cbn [bind]. destruct (convert_header read dir (x_header e)) as [hd|m] eqn:E4.
    2: { cbn [bind]. intros H; injection H as <-. exists 4. split; [constructor; now apply header_err|].
         intros k u Hk S. inversion S; subst; try lia; [now apply (N1 u)|now apply (N2 u)|now apply (N3 u)]. }
    assert (N4 : forall u, ~ header_fault read dir (x_header e) u) by (intros u; now apply (header_fine _ _ _ hd)).
    cbn [bind]. destruct (negb devel && x_allow_suppression e) eqn:E5.
    { apply andb_true_iff in E5 as (E5 & E5'). apply negb_true_iff in E5. intros H; injection H as <-. exists 5. split; [now constructor|].
      intros k u Hk S. inversion S; subst; try lia; [now apply (N1 u)|now apply (N2 u)|now apply (N3 u)|now apply (N4 u)]. }
    assert (N5 : ~ (devel = false /\ x_allow_suppression e = true)) by (intros (-> & H); now rewrite H in E5).
    destruct (So pl) as (Pm & Sd). apply mapM_ok in E2.
    assert (B : Forall2 (plugin_becomes look dir) (x_plugins e) pl) by (eapply Forall2_impl_In; [exact E2|]; intros x y _ _ E; now apply (convert_plugin_ok look dir x y Hd)).
    destruct (mapM (validate_plugin (x_import_path e)) (sort pl)) as [us|m] eqn:E6.
    2: { cbn [bind]. intros H; injection H as <-. exists 6. split.
         - apply mapM_err in E6 as (a & g & b & Eg & Fg & Ha).
           assert (Ig : In g pl) by (apply (Permutation_in _ (Permutation_sym Pm)); rewrite Eg; apply in_or_app; right; now left).
           destruct (Forall2_In_r _ _ _ _ B Ig) as (p & Ip & Bp). apply (Said_plugin_names _ _ _ _ p); [assumption|now apply (becomes_name_fault look dir p g)|].
           intros q u Iq Fq. destruct (Forall2_In_l _ _ _ _ B Iq) as (h & Ih & Bh). apply (becomes_name_fault look dir q h) in Fq; [|assumption].
           apply (Permutation_in _ Pm) in Ih. rewrite Eg in Ih. destruct Bp as (<- & _), Bh as (<- & _). apply in_app_or in Ih as [Ih|[<-|Ih]].
           + destruct (Ha _ Ih) as (z & Z). congruence.
           + apply str_leb_refl.
           + apply in_split in Ih as (c & d & ->). exact (Sd _ _ _ _ _ Eg).
         - intros k u Hk S. inversion S; subst; try lia; [now apply (N1 u)|now apply (N2 u)|now apply (N3 u)|now apply (N4 u)|apply N5; auto]. }
    cbn [bind]. destruct (intersection _ _) as [|z zs] eqn:E7; [discriminate|]. intros H; injection H as <-. exists 7. split.
    - apply (Said_rules read devel e dir (z :: zs)); [|discriminate]. rewrite <- E7. destruct (intersection_spec (sort_uniq_modify to_upper (x_add e)) (sort_uniq_modify to_upper (x_remove e))) as (Inc & I).
      split; [exact Inc|]. intros i. rewrite I, !(proj2 (sort_uniq_modify_spec _ _)). firstorder.
    - intros k u Hk S. inversion S; subst; try lia; [now apply (N1 u)|now apply (N2 u)|now apply (N3 u)|now apply (N4 u)|apply N5; auto|].
      destruct (Forall2_In_l _ _ _ _ B H) as (h & Ih & Bh). apply (becomes_name_fault look dir p h) in H0; [|assumption].
      destruct (mapM_ok_In _ _ _ h E6) as (v & V); [apply (Permutation_in _ Pm); assumption|]. congruence.
  Qed.
End Whole.
