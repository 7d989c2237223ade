(** Ignores, the whole run, and crashes. *)
From Verif Require Import LintRun_Spec Text_Spec GoStrFacts GoPathFacts GoMapFacts Text_Proofs Lint_RuleFacts Lint_Table LintRun_Proofs.
From Coq Require Import Lia Sorting.Sorted.

Lemma linter_check_split l ds : file_linter l -> linter_check l ds = concatM (fun d => linter_check l [d]) ds.
Proof.
  intros [H _]. unfold linter_check. rewrite H. clear H. induction ds as [|d ds IH]; [reflexivity|].
  rewrite !concatM_cons, <- IH. destruct (ln_check l [d]) as [a|]; cbn [bind]; [|reflexivity].
  destruct (concatM _ ds) as [b|]; cbn [bind]; [|reflexivity]. now rewrite flat_map_app.
Qed.
Lemma finish_file l r f : In f (finish l r) -> f_filename f = f_filename (raw_failure r) /\ f_lint_id f = ln_id l.
Proof.
  unfold finish. destruct (is_suppressed _ _ _); [easy|]. intros [<-|[]]. split; reflexivity.
Qed.
Lemma linter_check_covers ord sing l ds fs f : In l (all_linters ord sing) -> linter_check l ds = Ok fs -> In f fs ->
  f_lint_id f = ln_id l /\ exists d, In d ds /\ f_filename f = d_filename d.
Proof.
  intros Hl E Hf. unfold linter_check in E. destruct (ln_check l ds) as [rs|] eqn:Er; cbn [bind] in E; [|discriminate].
  injection E as <-. apply in_flat_map in Hf as (r & Hr & Hf). apply finish_file in Hf as [E1 E2].
  split; [assumption|]. destruct (covers ord sing l ds rs r Hl Er Hr) as (d & Hd & A). exists d. split; [assumption|].
  now rewrite E1.
Qed.

Section Ignores.
  Variables (cwd cfg : string) (ignores : list (string * list string)).
  Hypothesis keys : NoDup (map fst ignores).
  Hypothesis entries : forall id paths p, In (id, paths) ignores -> In p paths -> ~ within p cfg.
  Definition under_config (d : descriptor) : Prop :=
    cfg_dir (ps_config (d_set d)) = cfg /\ within cfg (absolute_name cwd (d_filename d)).
  Definition ignoredb (id file : string) : bool :=
    match gget id ignores with
    | None => false
    | Some paths => is_excluded (absolute_name cwd file) cfg paths
    end.
  Lemma should_ignore_eq l d : under_config d -> should_ignore cwd l d ignores = ignoredb (ln_id l) (d_filename d).
  Proof. intros [E _]. unfold should_ignore, ignoredb, absolute_name. now rewrite E. Qed.
  Lemma ignoredb_iff id file : within cfg (absolute_name cwd file) -> (ignoredb id file = true <-> ignored cwd ignores id file).
  Proof.
    intros W. unfold ignoredb, ignored. destruct (gget id ignores) as [paths|] eqn:E.
    - apply gget_In in E. rewrite (excluded_iff _ _ _ W). split.
      + intros (p & Hp & Hw & _). eauto.
      + intros (paths' & p & Hin & Hp & Hw). assert (paths' = paths) as ->.
        { apply (In_gget _ _ _ keys) in Hin, E. congruence. }
        exists p. repeat split; auto. now apply (entries id paths).
    - apply gget_None in E. split; [discriminate|]. intros (paths & p & Hin & _). exfalso. apply E.
      now apply (in_map fst) in Hin.
  Qed.
  Lemma check_one_file l ds fs : file_linter l -> (forall d, In d ds -> under_config d) ->
    (forall d gs f, linter_check l [d] = Ok gs -> In f gs -> f_lint_id f = ln_id l /\ f_filename f = d_filename d) ->
    linter_check l ds = Ok fs ->
    check_one cwd l ds ignores = Ok (filter (fun f => negb (ignoredb (f_lint_id f) (f_filename f))) fs).
  Proof.
    intros F U A. unfold check_one. rewrite !(linter_check_split l) by assumption. revert fs.
    induction ds as [|d ds IH]; intros fs E; [injection E as <-; reflexivity|].
    rewrite concatM_cons in E. destruct (linter_check l [d]) as [a|] eqn:Ea; cbn [bind] in E; [|discriminate].
    destruct (concatM _ ds) as [b|] eqn:Eb; cbn [bind] in E; [|discriminate]. injection E as <-.
    specialize (IH (fun d Hd => U d (or_intror Hd)) b eq_refl).
    unfold filter_ignores in *. cbn [filter]. rewrite should_ignore_eq by (apply U; now left).
    assert (P : filter (fun f => negb (ignoredb (f_lint_id f) (f_filename f))) a
                = if ignoredb (ln_id l) (d_filename d) then [] else a).
    { assert (Q : forall f, In f a -> f_lint_id f = ln_id l /\ f_filename f = d_filename d) by (intros; eapply A; eauto).
      clear -Q. induction a as [|f a IH]; simpl; [now destruct (ignoredb _ _)|].
      destruct (Q f (or_introl eq_refl)) as [-> ->]. rewrite IH by (intros; apply Q; now right).
      now destruct (ignoredb _ _). }
    rewrite filter_app, P. destruct (ignoredb (ln_id l) (d_filename d)); cbn [negb app]; [exact IH|].
    rewrite concatM_cons, Ea. cbn [bind]. rewrite IH. reflexivity.
  Qed.
End Ignores.
Lemma concatM_filter {A B} (f g : A -> result (list B)) b l r :
  (forall x a, In x l -> f x = Ok a -> g x = Ok (filter b a)) -> concatM f l = Ok r -> concatM g l = Ok (filter b r).
Proof.
  intros H. revert r. induction l as [|x l IH]; intros r E; [injection E as <-; reflexivity|].
  rewrite concatM_cons in E |- *. destruct (f x) as [a|] eqn:Ea; cbn [bind] in E; [|discriminate].
  destruct (concatM f l) as [c|] eqn:Ec; cbn [bind] in E; [|discriminate]. injection E as <-.
  rewrite (H x a (or_introl eq_refl) Ea), (IH (fun x a Hx => H x a (or_intror Hx)) c eq_refl). cbn [bind].
  now rewrite filter_app.
Qed.
Lemma filter_nil_ignores cwd l ds : filter_ignores cwd l ds [] = ds.
Proof. unfold filter_ignores. induction ds as [|d ds IH]; [reflexivity|]. cbn [filter].
  replace (should_ignore cwd l d []) with false by reflexivity. cbn [negb]. now rewrite IH. Qed.
Lemma filter_sorted {A} (R : A -> A -> Prop) b (l : list A) : StronglySorted R l -> StronglySorted R (filter b l).
Proof.
  induction 1 as [|a l S IH F]; simpl; [constructor|]. destruct (b a); [constructor; [assumption|]|assumption].
  rewrite Forall_forall in *. intros x Hx. apply filter_In in Hx. now apply F.
Qed.
Lemma sorted_map_Some l : StronglySorted failure_le l -> StronglySorted opt_le (map Some l).
Proof.
  induction 1 as [|a l S IH F]; simpl; constructor; [assumption|]. rewrite Forall_forall in *. intros x Hx.
  apply in_map_iff in Hx as (y & <- & Hy). simpl. auto.
Qed.
Lemma map_Some_inj {A} (l l' : list A) : map Some l = map Some l' -> l = l'.
Proof. revert l'. induction l as [|x l IH]; intros [|y l'] E; try discriminate; [reflexivity|]. simpl in E. injection E as -> E. f_equal. auto. Qed.
Lemma sort_filter b a s : sort_failures (map Some a) = map Some s -> sort_failures (map Some (filter b a)) = map Some (filter b s).
Proof.
  intros E. destruct (sort_failures_plain a) as (s' & E' & P & S). rewrite E in E'. apply map_Some_inj in E' as <-.
  symmetry. apply sort_failures_char; [apply Permutation_map, filter_perm, P|]. apply sorted_map_Some, filter_sorted, S.
Qed.

Theorem ignores_exact ord sing cwd cfg ignores ls dirs fs :
  reorders ord ->
  NoDup (map fst ignores) ->
  (forall id paths p, In (id, paths) ignores -> In p paths -> ~ within p cfg) ->
  (forall l, In l ls -> In l (all_linters ord sing) /\ ~ In (ln_id l) directory_rules) ->
  (forall dir ds d, In (dir, ds) dirs -> In d ds ->
     cfg_dir (ps_config (d_set d)) = cfg /\ within cfg (absolute_name cwd (d_filename d))) ->
  check_multiple ord cwd ls dirs [] = Ok (map Some fs) ->
  exists fs', check_multiple ord cwd ls dirs ignores = Ok (map Some fs') /\
    without (fun f => ignored cwd ignores (f_lint_id f) (f_filename f)) fs fs'.
Proof.
  intros Ho K En Hl Hd E. unfold check_multiple in *.
  destruct (concatM _ _) as [all|] eqn:Ea in E; cbn [bind] in E; [|discriminate]. injection E as E.
  set (b := fun f => negb (ignoredb cwd cfg ignores (f_lint_id f) (f_filename f))).
  assert (FL : forall l, In l ls -> file_linter l).
  { intros l H. destruct (Hl l H) as [H1 H2]. pose proof (file_linters ord sing) as F. rewrite Forall_forall in F. now apply F. }
  assert (Eb : concatM (fun dir => concatM (fun l => check_one cwd l (snd dir) ignores) ls) (ord "CheckMultiple" _ dirs) = Ok (filter b all)).
  { eapply concatM_filter; [|exact Ea]. intros [dir ds] a Hin. apply (Permutation_in _ (Permutation_sym (Ho _ _ _))) in Hin.
    cbn [snd]. apply concatM_filter. intros l c Hll Ec. unfold check_one in Ec. rewrite filter_nil_ignores in Ec.
    apply check_one_file; auto.
    - intros d Hdd. exact (Hd dir ds d Hin Hdd).
    - intros d gs f Eg Hf. destruct (Hl l Hll) as [H1 _]. destruct (linter_check_covers ord sing l [d] gs f H1 Eg Hf) as (E1 & d' & [<-|[]] & E2). auto. }
  rewrite Eb. cbn [bind]. exists (filter b fs). split.
  - f_equal. now apply sort_filter.
  - exists (fun f => ignoredb cwd cfg ignores (f_lint_id f) (f_filename f)). split; [|reflexivity].
    intros f Hf. apply ignoredb_iff; auto.
    destruct (sort_failures_plain all) as (s & E' & P & _). rewrite E in E'. apply map_Some_inj in E' as <-.
    apply (Permutation_in _ (Permutation_sym P)) in Hf. apply concatM_Ok in Ea as [_ Ea]. apply Ea in Hf as ([dir ds] & a & Hin & E1 & Hf).
    apply (Permutation_in _ (Permutation_sym (Ho _ _ _))) in Hin. cbn [snd] in E1. apply concatM_Ok in E1 as [_ E1].
    apply E1 in Hf as (l & c & Hll & Ec & Hf). unfold check_one in Ec. rewrite filter_nil_ignores in Ec.
    destruct (Hl l Hll) as [H1 _]. destruct (linter_check_covers ord sing l ds c f H1 Ec Hf) as (_ & d & Hdd & ->).
    now destruct (Hd dir ds d Hin Hdd).
Qed.
(** Any rule: as if the ignored files were not there. *)
Theorem ignores_files cwd cfg ignores l ds :
  NoDup (map fst ignores) ->
  (forall id paths p, In (id, paths) ignores -> In p paths -> ~ within p cfg) ->
  (forall d, In d ds -> cfg_dir (ps_config (d_set d)) = cfg /\ within cfg (absolute_name cwd (d_filename d))) ->
  exists ds', without (fun d => ignored cwd ignores (ln_id l) (d_filename d)) ds ds' /\
    check_one cwd l ds ignores = linter_check l ds'.
Proof.
  intros K En U. exists (filter_ignores cwd l ds ignores). split; [|reflexivity].
  exists (fun d => should_ignore cwd l d ignores). split; [|reflexivity].
  intros d Hd. rewrite (should_ignore_eq cwd cfg) by now apply U. apply ignoredb_iff; auto. now apply U.
Qed.

(** ** The whole run *)
Lemma mapM_Err {A B} (f : A -> result B) l m : mapM f l = Err m -> exists x m', In x l /\ f x = Err m'.
Proof.
  revert m. induction l as [|x l IH]; intros m; cbn [mapM]; [discriminate|].
  destruct (f x) as [y|m'] eqn:E; cbn [bind]; [|exists x, m'; simpl; auto].
  destruct (mapM f l) as [ys|m'] eqn:E'; cbn [bind]; [discriminate|]. intros _. destruct (IH m' eq_refl) as (z & m'' & ? & ?).
  exists z, m''. simpl. auto.
Qed.
Lemma concatM_Err {A B} (f : A -> result (list B)) l m : concatM f l = Err m -> exists x m', In x l /\ f x = Err m'.
Proof.
  revert m. induction l as [|x l IH]; intros m; [discriminate|]. rewrite concatM_cons.
  destruct (f x) as [y|m'] eqn:E; cbn [bind]; [|exists x, m'; simpl; auto].
  destruct (concatM f l) as [ys|m'] eqn:E'; cbn [bind]; [discriminate|]. intros _. destruct (IH m' eq_refl) as (z & m'' & ? & ?).
  exists z, m''. simpl. auto.
Qed.
Theorem run_exact ord sing cwd read ps absolute :
  reorders ord -> NoDup (map fst (ps_files ps)) ->
  match lint_run ord cwd read (all_linters ord sing) (default_linters ord) (group_to_linters ord) ps absolute with
  | Err _ => ~ known_names (cfg_lint (ps_config ps))
      \/ exists dir files, In (dir, files) (ps_files ps) /\ has_prefix dir (ps_dir ps) = true /\
           ((exists file e, In file files /\ read (pf_path file) = Err e)
            \/ exists ds l e, mapM (read_descriptor read ps absolute) files = Ok ds /\ In l (all_linters ord sing)
                 /\ selected (cfg_lint (ps_config ps)) (ln_id l)
                 /\ check_one cwd l ds (lc_ignores (cfg_lint (ps_config ps))) = Err e)
  | Ok r => exists fs, r = map Some fs /\ known_names (cfg_lint (ps_config ps)) /\ StronglySorted failure_le fs /\
      forall f, In f fs <->
        exists dir files ds l gs, In (dir, files) (ps_files ps) /\ has_prefix dir (ps_dir ps) = true
          /\ mapM (read_descriptor read ps absolute) files = Ok ds
          /\ In l (all_linters ord sing) /\ selected (cfg_lint (ps_config ps)) (ln_id l)
          /\ check_one cwd l ds (lc_ignores (cfg_lint (ps_config ps))) = Ok gs /\ In f gs
  end.
Proof.
  intros Ho N. unfold lint_run.
  pose proof (selection ord sing Ho (cfg_lint (ps_config ps))) as S.
  destruct (get_linters _ _ _ _ _) as [ls|]; cbn [bind]; [|now left]. destruct S as (KN & N1 & I1 & S1).
  rewrite dirs_eq by assumption.
  destruct (mapM _ _) as [dirs|] eqn:Ed; cbn [bind].
  2:{ right. apply mapM_Err in Ed as ([dir files] & m' & Hin & E). apply filter_In in Hin as [Hin W].
      apply (Permutation_in _ (Permutation_sym (Ho _ _ _))) in Hin. exists dir, files. split; [exact Hin|]. split; [exact W|]. left.
      unfold read_dir in E. cbn [fst snd] in E. destruct (mapM _ files) as [ds|] eqn:Em; cbn [bind] in E; [discriminate|].
      apply mapM_Err in Em as (file & m'' & Hf & Em). unfold read_descriptor in Em.
      destruct (read (pf_path file)) as [x|] eqn:Er; [discriminate|]. eauto. }
  assert (D : forall x ds, In (x, ds) dirs <-> exists files, In (x, files) (ps_files ps) /\ has_prefix x (ps_dir ps) = true
                /\ mapM (read_descriptor read ps absolute) files = Ok ds).
  { intros x ds. apply mapM_Forall2 in Ed.
    assert (Q : In (x, ds) dirs <-> exists y, In y (filter (wanted ps) (ord "GetDirPathToDescriptors" _ (ps_files ps))) /\ read_dir read ps absolute y = Ok (x, ds)).
    { clear -Ed. induction Ed as [|a b la lb Hab F IH]; simpl; [split; [easy|intros (y & [] & _)]|]. rewrite IH. split.
      - intros [->|(y & H1 & H2)]; eauto.
      - intros (y & [<-|H1] & H2); [left; congruence|eauto]. }
    rewrite Q. split.
    - intros ([k files] & H1 & H2). apply filter_In in H1 as [H1 H3]. apply (Permutation_in _ (Permutation_sym (Ho _ _ _))) in H1.
      unfold read_dir in H2. cbn [fst snd] in H2. destruct (mapM _ files) as [ds'|] eqn:Em; cbn [bind] in H2; [|discriminate].
      injection H2 as <- <-. exists files. auto.
    - intros (files & H1 & H2 & H3). exists (x, files). split.
      + apply filter_In. split; [apply (Permutation_in _ (Ho _ _ _)), H1|exact H2].
      + unfold read_dir. cbn [fst snd]. now rewrite H3. }
  unfold check_multiple. destruct (concatM _ _) as [all|] eqn:Ea; cbn [bind].
  2:{ right. apply concatM_Err in Ea as ([x ds] & m' & Hin & E). apply (Permutation_in _ (Permutation_sym (Ho _ _ _))) in Hin.
      apply D in Hin as (files & H1 & H2 & H3). exists x, files. split; [exact H1|]. split; [exact H2|]. right.
      cbn [snd] in E. apply concatM_Err in E as (l & m'' & Hl & E). exists ds, l, m''.
      repeat (split; [solve [auto|apply I1; auto|apply S1; now apply in_map]|]). exact E. }
  destruct (sort_failures_plain all) as (s & E' & P & So). exists s. split; [exact E'|]. split; [exact KN|]. split; [exact So|].
  intros f. apply concatM_Ok in Ea as [Ea0 Ea].
  assert (Q : In f s <-> In f all) by (split; apply Permutation_in; [apply Permutation_sym|]; exact P).
  rewrite Q, Ea. split.
  - intros ([x ds] & a & Hin & E1 & Hf). apply (Permutation_in _ (Permutation_sym (Ho _ _ _))) in Hin.
    apply D in Hin as (files & H1 & H2 & H3). cbn [snd] in E1. apply concatM_Ok in E1 as [_ E1].
    apply E1 in Hf as (l & gs & Hl & Eg & Hf). exists x, files, ds, l, gs. repeat (split; [solve [auto|apply I1; auto|apply S1; now apply in_map]|]). assumption.
  - intros (x & files & ds & l & gs & H1 & H2 & H3 & Hl & Sl & Eg & Hf).
    assert (Hin : In (x, ds) (ord "CheckMultiple" _ dirs)) by (apply (Permutation_in _ (Ho _ _ _)), D; eauto).
    destruct (Ea0 _ Hin) as [a E1]. exists (x, ds), a. split; [assumption|]. split; [assumption|]. cbn [snd] in E1.
    apply concatM_Ok in E1 as [_ E1]. apply E1. exists l, gs. repeat split; auto.
    apply S1, in_map_iff in Sl as (l' & El & Hl'). rewrite <- (unique_linter ord sing l' l); auto.
Qed.
Theorem run_directory ord sing cwd read ps absolute fs f :
  reorders ord -> NoDup (map fst (ps_files ps)) ->
  lint_run ord cwd read (all_linters ord sing) (default_linters ord) (group_to_linters ord) ps absolute = Ok (map Some fs) ->
  In f fs ->
  exists dir files file, In (dir, files) (ps_files ps) /\ In file files /\ has_prefix dir (ps_dir ps) = true
    /\ f_filename f = if absolute then pf_path file else pf_display file.
Proof.
  intros Ho N E Hf. pose proof (run_exact ord sing cwd read ps absolute Ho N) as R. rewrite E in R.
  destruct R as (fs' & E' & _ & _ & R). apply map_Some_inj in E' as <-. apply R in Hf as (dir & files & ds & l & gs & H1 & H2 & H3 & Hl & _ & Eg & Hf).
  unfold check_one in Eg. destruct (linter_check_covers ord sing l _ gs f Hl Eg Hf) as (_ & d & Hd & E2).
  unfold filter_ignores in Hd. apply filter_In in Hd as [Hd _].
  assert (X : exists file, In file files /\ read_descriptor read ps absolute file = Ok d).
  { apply mapM_Forall2 in H3. clear -H3 Hd. induction H3 as [|a b la lb Hab F IH]; [easy|].
    destruct Hd as [<-|Hd]; [exists a; simpl; auto|]. destruct (IH Hd) as (file & ? & ?). exists file. simpl. auto. }
  destruct X as (file & Hfile & Er). exists dir, files, file. repeat split; auto. rewrite E2.
  unfold read_descriptor in Er. destruct (read (pf_path file)) as [x|]; [|discriminate]. injection Er as <-. reflexivity.
Qed.
Theorem no_crash ord sing l ds : In l (all_linters ord sing) ->
  (forall d, In d ds -> well_formed (d_elements d) /\ named d /\ no_stray_http_option d) ->
  exists fs, linter_check l ds = Ok fs.
Proof.
  intros Hl Hd. destruct (all_safe ord sing l Hl ds Hd) as [rs E]. unfold linter_check. rewrite E. eexists. reflexivity.
Qed.
