(** Proofs about file sets: one configuration for all files. *)
From Coq Require Import Permutation Lia.
From Verif Require Import GoStrFacts GoPathFacts GoMapFacts Strs_Spec Settings_Model Settings_Spec Settings_Proofs.
From Verif Require Import Lint_Spec LintRun_Proofs LintRun_Proofs2 File_Model File_Spec File_Proofs File_Proofs2.

Lemma gput_fresh {V} (k : string) (v : V) m : ~ In k (map fst m) -> gput k v m = m ++ [(k, v)].
Proof.
  induction m as [|[k' v'] m IH]; intros H; [reflexivity|]. cbn [gput]. destruct (keqb k k') eqn:E.
  - apply String.eqb_eq in E. subst. exfalso. apply H. now left.
  - cbn [app]. f_equal. apply IH. intros F. apply H. now right.
Qed.

Lemma by_dir_perm m : Permutation m (by_dir m).
Proof. apply isort_perm. Qed.

Section Provider.
  Variable ord : order.
  Hypothesis Hord : reorders ord.
  Variable cwd : string.
  Variable node_at : string -> node.
  Variable ex : string -> bool.
  Variable read : string -> result string.
  Variable dj dy : string -> result external_config.
  Variable look : string -> result string.
  Variable sort : list gen_plugin -> list gen_plugin.
  Variable devel : bool.
  Variable data : string.

  Definition cf_of (dir : string) : result string := if is_empty data then get_file_path_for_dir ex dir else Ok "".
  Definition conf (work cf : string) : result config :=
    if negb (is_empty data) then get_config_for_data read dj look sort devel work data
    else if negb (is_empty cf) then get_config read dj dy look sort devel cf
    else get_config_for_dir ex read dj dy look sort devel work.
  Notation adds := (add_dirs ex read dj dy look sort devel data).
  Notation add := (add_dir ex read dj dy look sort devel data).
  Lemma add_eq work m dir fs : add work m (dir, fs) =
    do cf <- cf_of dir;
    let old := match gget cf m with Some (files, _) => files | None => [] end in
    let files := gput dir (match gget dir old with Some l => l | None => [] end ++ fs) old in
    do c <- conf work cf; Ok (gput cf (files, c) m).
  Proof. reflexivity. Qed.
  Definition for_cf (cf : string) (ds : list (string * list proto_file)) : list (string * list proto_file) :=
    filter (fun d => match cf_of (fst d) with Ok c => String.eqb c cf | Err _ => false end) ds.
  (** What the loop has built after the directories [done]. *)
  Definition built (work : string) (done : list (string * list proto_file))
    (m : list (string * (list (string * list proto_file) * config))) : Prop :=
    NoDup (map fst m) /\
    (forall cf files c, gget cf m = Some (files, c) -> files = for_cf cf done /\ conf work cf = Ok c) /\
    (forall d, In d done -> exists cf, cf_of (fst d) = Ok cf /\ In cf (map fst m)).
  Lemma add_built work done m d m' : ~ In (fst d) (map fst done) -> built work done m -> add work m d = Ok m' -> built work (done ++ [d]) m'.
  Proof.
    destruct d as [dir fs]. cbn [fst]. intros Hn (A & B & C). rewrite add_eq.
    destruct (cf_of dir) as [cf|] eqn:Ecf; [|discriminate]. cbn [bind].
    destruct (conf work cf) as [c|] eqn:Ec; [|discriminate]. cbn [bind]. intros H; injection H as <-.
    set (old := match gget cf m with Some (files, _) => files | None => [] end).
    assert (old = for_cf cf done) as Eo.
    { unfold old. destruct (gget cf m) as [[files c']|] eqn:Eg; [now apply B in Eg|].
      symmetry. unfold for_cf. destruct (filter _ done) as [|d l] eqn:Ef; [reflexivity|]. exfalso.
      assert (In d (filter (fun d => match cf_of (fst d) with Ok c => String.eqb c cf | Err _ => false end) done)) as Hd by (rewrite Ef; now left).
      apply filter_In in Hd as [H1 H2]. destruct (C d H1) as (cf' & E1 & E2). rewrite E1 in H2. apply String.eqb_eq in H2. subst cf'.
      apply gget_None in Eg. contradiction. }
    assert (~ In dir (map fst old)) as Hno.
    { rewrite Eo. intros F. apply in_map_iff in F as (d & Ed & Hd). apply filter_In in Hd as [Hd _]. apply Hn. rewrite <- Ed. now apply in_map. }
    assert (gget dir old = None) as -> by (now apply gget_None).
    rewrite (gput_fresh dir) by assumption. rewrite Eo. cbn [app].
    split; [now apply gput_NoDup|]. split.
    - intros cf' files c'. destruct (String.eqb cf' cf) eqn:E.
      + apply String.eqb_eq in E. subst cf'. rewrite gget_gput_eq. intros H; injection H as <- <-. split; [|assumption].
        unfold for_cf. rewrite filter_app. cbn [filter fst]. rewrite Ecf, seqb_refl. reflexivity.
      + apply seqb_neq in E. rewrite gget_gput_neq by assumption. intros H. apply B in H as [-> H]. split; [|assumption].
        unfold for_cf. rewrite filter_app. cbn [filter fst]. rewrite Ecf.
        destruct (String.eqb cf cf') eqn:E2; [apply String.eqb_eq in E2; now symmetry in E2|]. now rewrite app_nil_r.
    - intros d Hd. apply in_app_or in Hd as [Hd|[<-|[]]].
      + destruct (C d Hd) as (cf' & E1 & E2). exists cf'. split; [assumption|]. apply gput_keys. now right.
      + exists cf. split; [assumption|]. apply gput_keys. now left.
  Qed.
  Lemma adds_built work ds : forall done m m', NoDup (map fst (done ++ ds)) -> built work done m -> adds work ds m = Ok m' -> built work (done ++ ds) m'.
  Proof.
    induction ds as [|d ds IH]; intros done m m' N B H; cbn [add_dirs] in H.
    - injection H as <-. now rewrite app_nil_r.
    - destruct (add work m d) as [m1|] eqn:E; [|discriminate]. cbn [bind] in H.
      assert (~ In (fst d) (map fst done)) as Hd.
      { rewrite map_app in N. cbn [map] in N. apply NoDup_remove_2 in N. intros F. apply N. apply in_or_app. now left. }
      replace (done ++ d :: ds) with ((done ++ [d]) ++ ds) in * by (now rewrite <- app_assoc).
      eapply IH; [exact N| |exact H]. eapply add_built; [exact Hd|exact B|exact E].
  Qed.
  Lemma adds_single work ds cf files c : NoDup (map fst ds) -> adds work ds [] = Ok [(cf, (files, c))] ->
    files = ds /\ conf work cf = Ok c /\ forall d, In d ds -> cf_of (fst d) = Ok cf.
  Proof.
    intros N H. apply (adds_built work ds [] [] _ N) in H as (A & B & C).
    - cbn [app] in *. specialize (B cf files c). cbn [gget] in B. rewrite keqb_refl in B. destruct (B eq_refl) as [-> B2].
      assert (forall d, In d ds -> cf_of (fst d) = Ok cf) as All.
      { intros d Hd. destruct (C d Hd) as (cf' & E & F). cbn in F. destruct F as [<-|[]]. assumption. }
      split; [|auto]. unfold for_cf. clear - All. induction ds as [|d ds IH]; [reflexivity|]. cbn [filter].
      rewrite All by (now left). rewrite seqb_refl. f_equal. apply IH. intros d' Hd'. apply All. now right.
    - split; [constructor|]. split; [discriminate|]. intros d [].
  Qed.
  Lemma adds_same work cf c : conf work cf = Ok c -> forall ds done, NoDup (map fst (done ++ ds)) ->
    (forall d, In d ds -> cf_of (fst d) = Ok cf) ->
    done <> [] -> adds work ds [(cf, (done, c))] = Ok [(cf, (done ++ ds, c))].
  Proof.
    intros Hc. induction ds as [|[dir fs] ds IH]; intros done N H Hd; cbn [add_dirs]; [now rewrite app_nil_r|].
    rewrite add_eq. pose proof (H _ (or_introl eq_refl)) as E. cbn [fst] in E. rewrite E. cbn [bind].
    cbn [gget]. rewrite keqb_refl. rewrite Hc. cbn [bind].
    assert (~ In dir (map fst done)) as Hno.
    { rewrite map_app in N. cbn [map fst] in N. apply NoDup_remove_2 in N. intros F. apply N. apply in_or_app. now left. }
    assert (gget dir done = None) as -> by (now apply gget_None). rewrite (gput_fresh dir) by assumption. cbn [app gput]. rewrite keqb_refl.
    rewrite IH.
    - now rewrite <- app_assoc.
    - now rewrite <- app_assoc.
    - intros d Hd'. apply H. now right.
    - now destruct done.
  Qed.
  Lemma adds_same_start work ds cf c : conf work cf = Ok c -> NoDup (map fst ds) -> ds <> [] ->
    (forall d, In d ds -> cf_of (fst d) = Ok cf) -> adds work ds [] = Ok [(cf, (ds, c))].
  Proof.
    intros Hc N Hn H. destruct ds as [|[dir fs] ds]; [easy|]. cbn [add_dirs]. rewrite add_eq.
    pose proof (H _ (or_introl eq_refl)) as E. cbn [fst] in E. rewrite E. cbn [bind gget]. rewrite Hc. cbn [bind gput app].
    rewrite (adds_same work cf c Hc ds [(dir, fs)]); [reflexivity|assumption| |discriminate].
    intros d Hd. apply H. now right.
  Qed.

  (** ** Validation *)
  Lemma validate_set_iff s : (validate_proto_set ord s = Ok tt <->
    forall d l f, In (d, l) (ps_files s) -> In f l -> path_dir (pf_path f) = d /\ validate_is_rel (cfg_dir (ps_config s)) (pf_path f) = Ok tt).
  Proof.
    unfold validate_proto_set.
    assert (forall d f, (exists u, validate_file (cfg_dir (ps_config s)) d f = Ok u) <->
      path_dir (pf_path f) = d /\ validate_is_rel (cfg_dir (ps_config s)) (pf_path f) = Ok tt) as V.
    { intros d f. unfold validate_file. destruct (String.eqb (path_dir (pf_path f)) d) eqn:E; cbn [negb].
      - apply String.eqb_eq in E. destruct (validate_is_rel (cfg_dir (ps_config s)) (pf_path f)) as [[]|].
        + split; [auto|eauto].
        + split; [intros (u & H); discriminate|intros [_ H]; discriminate].
      - apply seqb_neq in E. split; [intros (u & H); discriminate|intros [H _]; contradiction]. }
    split.
    - destruct (mapM _ (ord "DirPathToFiles" _ (ps_files s))) as [us|] eqn:E; [|discriminate]. intros _ d l f H1 H2.
      apply mapM_ok in E. assert (In (d, l) (ord "DirPathToFiles" _ (ps_files s))) as H1' by (eapply Permutation_in; [apply Hord|assumption]).
      destruct (Forall2_In_l _ _ _ _ E H1') as (u & _ & Eu). cbn [fst snd] in Eu. apply mapM_ok in Eu.
      destruct (Forall2_In_l _ _ _ _ Eu H2) as (v & _ & Ev). apply V. eauto.
    - intros H. destruct (mapM_total (fun d => mapM (validate_file (cfg_dir (ps_config s)) (fst d)) (snd d)) (ord "DirPathToFiles" _ (ps_files s))) as (r & ->); [|reflexivity].
      intros [d l] Hd. cbn [fst snd]. apply mapM_total. intros f Hf. apply V. eapply H; [|exact Hf].
      eapply Permutation_in; [symmetry; apply Hord|exact Hd].
  Qed.

  (** ** The provider *)
  Notation files_at := (walk_and_get_all_proto_files node_at ex read dj dy data).
  Notation provide := (provider_get_for_dir ord cwd node_at ex read dj dy look sort devel data).
  Definition root_of (work abs : string) : result string :=
    if is_empty data then do cf <- get_file_path_for_dir ex abs; Ok (if negb (is_empty cf) then path_dir cf else abs)
    else Ok work.
  (** What the result says. *)
  Definition set_ok (work abs : string) (s : proto_set) : Prop :=
    ps_work_dir s = work /\ ps_dir s = abs /\
    exists root fs, root_of work abs = Ok root /\ files_at work root = Ok fs /\
      grouped fs (ps_files s) /\
      (fs = [] -> conf work "" = Ok (ps_config s)) /\
      (fs <> [] -> exists cf, conf work cf = Ok (ps_config s) /\ forall f, In f fs -> cf_of (path_dir (pf_path f)) = Ok cf) /\
      forall f, In f fs -> validate_is_rel (cfg_dir (ps_config s)) (pf_path f) = Ok tt.
  Lemma default_conf work : default_base_proto_set ex read dj dy look sort devel data work = do c <- conf work ""; Ok ([], c).
  Proof. unfold default_base_proto_set, conf. destruct (is_empty data); reflexivity. Qed.
  Lemma map_snd_single {A B} (m : list (A * B)) s : map snd m = [s] -> exists k, m = [(k, s)].
  Proof. destruct m as [|[k v] [|y m]]; intros H; try discriminate. cbn in H. injection H as ->. eauto. Qed.
  Theorem provide_ok work dir s : provide work dir = Ok s -> set_ok (abs_clean cwd work) (abs_clean cwd dir) s.
  Proof.
    unfold provider_get_for_dir, get_multiple_for_dir. cbv zeta.
    change (if is_empty data then do cf <- get_file_path_for_dir ex (abs_clean cwd dir); Ok (if negb (is_empty cf) then path_dir cf else abs_clean cwd dir) else Ok (abs_clean cwd work))
      with (root_of (abs_clean cwd work) (abs_clean cwd dir)).
    set (W := abs_clean cwd work). set (D := abs_clean cwd dir).
    destruct (root_of W D) as [root|] eqn:Er; [|discriminate]. cbn [bind].
    destruct (files_at W root) as [fs|] eqn:Ef; [|discriminate]. cbn [bind].
    pose proof (group_ok fs) as G. unfold base_proto_sets.
    destruct (dir_path_to_proto_files fs) as [|d0 ds0] eqn:Ed.
    - rewrite default_conf. destruct (conf W "") as [c|] eqn:Ec; [|discriminate]. cbn [bind map fst snd mapM].
      destruct (validate_proto_set ord _) as [u|] eqn:Ev; [|discriminate]. cbn [bind].
      intros H; injection H as <-. apply (grouped_nil _ _) in G as G'. pose proof (proj1 G' eq_refl) as Efs.
      split; [reflexivity|]. split; [reflexivity|]. exists root, fs. cbn [ps_files ps_config].
      split; [assumption|]. split; [assumption|]. split; [assumption|]. split; [auto|]. split; [intros F; contradiction|].
      subst fs. intros f [].
    - assert (dir_path_to_proto_files fs <> []) as Hdm by (rewrite Ed; discriminate).
      rewrite <- Ed in *. clear d0 ds0 Ed. set (dm := dir_path_to_proto_files fs) in *.
      set (ds := ord "DirPathToProtoFiles" _ dm).
      assert (Permutation dm ds) as P by apply Hord.
      pose proof (grouped_perm _ _ _ P G) as G2.
      destruct (adds W ds []) as [m|] eqn:Em; [|discriminate]. cbn [bind].
      destruct (mapM (validate_proto_set ord) _) as [us|] eqn:Ev; [|discriminate]. cbn [bind].
      intros H. destruct (map snd m) as [|[files c] [|y l]] eqn:Es; try discriminate H. cbn [map fst snd] in *. injection H as <-.
      apply map_snd_single in Es as (cf & ->).
      apply adds_single in Em as (-> & Hc & All); [|apply G2].
      split; [reflexivity|]. split; [reflexivity|]. exists root, fs. cbn [ps_files ps_config].
      pose proof (grouped_perm _ _ _ (by_dir_perm ds) G2) as G3.
      split; [assumption|]. split; [assumption|]. split; [assumption|].
      assert (forall f, In f fs -> cf_of (path_dir (pf_path f)) = Ok cf) as AllF.
      { intros f Hf. destruct (grouped_file _ _ _ G2 Hf) as (l & Hl & _). exact (All _ Hl). }
      split; [|split; [eauto|]].
      + intros Ef0. exfalso. apply Hdm. now apply (grouped_nil _ _ G).
      + intros f Hf. apply mapM_ok in Ev. inversion Ev as [|? ? ? ? Ev1 _]; subst.
        destruct y. pose proof (proj1 (validate_set_iff _) Ev1) as Ev2. cbn [ps_files ps_config] in Ev2. destruct (grouped_file _ _ _ G3 Hf) as (l & Hl & Hfl).
        eapply Ev2; eassumption.
  Qed.
  Theorem provide_total work dir root fs c :
    root_of (abs_clean cwd work) (abs_clean cwd dir) = Ok root -> files_at (abs_clean cwd work) root = Ok fs ->
    (fs = [] -> conf (abs_clean cwd work) "" = Ok c) ->
    (fs <> [] -> exists cf, conf (abs_clean cwd work) cf = Ok c /\ forall f, In f fs -> cf_of (path_dir (pf_path f)) = Ok cf) ->
    (forall f, In f fs -> validate_is_rel (cfg_dir c) (pf_path f) = Ok tt) ->
    exists s, provide work dir = Ok s /\ ps_config s = c.
  Proof.
    unfold provider_get_for_dir, get_multiple_for_dir. cbv zeta.
    change (if is_empty data then do cf <- get_file_path_for_dir ex (abs_clean cwd dir); Ok (if negb (is_empty cf) then path_dir cf else abs_clean cwd dir) else Ok (abs_clean cwd work))
      with (root_of (abs_clean cwd work) (abs_clean cwd dir)).
    set (W := abs_clean cwd work). set (D := abs_clean cwd dir). intros -> Hfs H0 H1 Hv. cbn [bind]. rewrite Hfs. cbn [bind].
    pose proof (group_ok fs) as G. unfold base_proto_sets.
    destruct (dir_path_to_proto_files fs) as [|d0 ds0] eqn:Ed.
    - rewrite default_conf, (H0 (proj1 (grouped_nil _ _ G) eq_refl)). cbn [bind map fst snd mapM].
      rewrite (proj2 (validate_set_iff _)) by (intros d l f []). cbn [bind]. eexists. split; reflexivity.
    - rewrite <- Ed in *.
      assert (fs <> []) as Hn. { intros E. apply (grouped_nil _ _ G) in E. rewrite Ed in E. discriminate. }
      destruct (H1 Hn) as (cf & Hc & All).
      assert (dir_path_to_proto_files fs <> []) as Hdm by (rewrite Ed; discriminate).
      clear d0 ds0 Ed. set (dm := dir_path_to_proto_files fs) in *.
      set (ds := ord "DirPathToProtoFiles" _ dm).
      assert (Permutation dm ds) as P by apply Hord.
      pose proof (grouped_perm _ _ _ P G) as G2.
      rewrite (adds_same_start W ds cf c Hc).
      + cbn [bind map fst snd mapM]. rewrite (proj2 (validate_set_iff _)).
        * cbn [bind]. eexists. split; reflexivity.
        * cbn [ps_files ps_config]. intros d l f Hd Hf. apply (grouped_perm _ _ _ (by_dir_perm ds) G2) in Hd as [_ ->]. unfold files_of_dir in Hf. apply filter_In in Hf as [F1 F2].
          apply String.eqb_eq in F2. split; [assumption|auto].
      + apply G2.
      + intros E. apply Hn. apply (grouped_nil _ _ G2). exact E.
      + intros [d l] Hd. cbn [fst]. destruct (grouped_dir _ _ _ _ G2 Hd) as (f & F1 & _ & <-). auto.
  Qed.
End Provider.

(** Whatever the excludes, the files found are files of the tree. *)
Section Paths.
  Variable ex : string -> bool.
  Variable read : string -> result string.
  Variable dj dy : string -> result external_config.
  Variable data work : string.
  Variable root : list string.
  Lemma walk_paths n : forall d st st', ok_comps d -> named n ->
    walk ex read dj dy data work (abs_path root) (abs_path d) n st = Ok st' ->
    forall f, In f (w_files st') -> In f (w_files st) \/ exists cs, file_in n cs /\ pf_path f = abs_path (d ++ cs) /\
      (clean_abs work -> shown work (pf_path f) (pf_display f)).
  Proof.
    induction n as [| | |es IH] using node_ind'; intros d st st' Hd Nn W f Hf.
    - cbn [walk] in W. unfold visit_path in W. destruct (negb _); [cbn in W; injection W as <-; auto|].
      destruct (is_excluded _ _ _); cbn [bind snd] in W; injection W as <-; [auto|]. cbn [w_files] in Hf.
      apply in_app_or in Hf as [Hf|[<-|[]]]; [auto|]. right. exists []. rewrite app_nil_r. split; [constructor|]. split; [reflexivity|]. intros Hw. cbn [pf_path pf_display].
      assert (clean_abs (abs_path d)) as Hcl by (now exists d). destruct (rel_ok work (abs_path d) Hw Hcl) as (r & Er).
      rewrite Er. now apply shown_rel.
    - discriminate W.
    - discriminate W.
    - rewrite walk_dir in W. destruct (visit_path ex read dj dy data work (abs_path root) (abs_path d) true st) as [[v st1]|] eqn:V; [|discriminate].
      cbn [bind] in W. apply visit_dir in V as (X & E1 & _); [|assumption].
      assert (w_files st1 = w_files st) as Ef by (now subst st1). rewrite <- Ef. clear E1 Ef.
      inversion Nn as [| | |? No Nd Ns]; subst.
      destruct v; [|injection W as <-; auto].
      assert (forall l s, incl l es -> walk_entries ex read dj dy data work root (abs_path d) l s = Ok st' ->
        In f (w_files s) \/ exists cs, file_in (NDir es) cs /\ pf_path f = abs_path (d ++ cs) /\ (clean_abs work -> shown work (pf_path f) (pf_display f))) as L; [|eapply L; [apply incl_refl|eassumption]].
      induction l as [|[name c] l IHl]; intros s Hl Wl; cbn [walk_entries] in Wl; [injection Wl as <-; auto|].
      assert (In (name, c) es) as Hin by (apply Hl; now left).
      assert (ok_comp name = true) as Hname.
      { unfold ok_comps in No. rewrite Forall_forall in No. apply No. apply (in_map fst) in Hin. exact Hin. }
      replace (path_join [abs_path d; name]) with (abs_path (d ++ [name])) in Wl.
      2:{ symmetry. apply (path_join_abs_ok d [name]); [assumption|constructor; [assumption|constructor]|discriminate]. }
      destruct (walk ex read dj dy data work (abs_path root) (abs_path (d ++ [name])) c s) as [s1|] eqn:W1; [|discriminate]. cbn [bind] in Wl.
      apply IHl in Wl as [Hin1|Hx]; [|auto|intros e He; apply Hl; now right].
      rewrite Forall_forall in IH.
      assert (ok_comps (d ++ [name])) as Hdn by (apply ok_comps_app; split; [assumption|constructor; [assumption|constructor]]).
      destruct (IH _ Hin (d ++ [name]) s s1 Hdn (Ns _ _ Hin) W1 f Hin1) as [A|(cs & A1 & A2 & A3)]; [auto|].
      right. exists (name :: cs). split; [econstructor; eassumption|]. split; [|assumption]. rewrite A2. now rewrite <- app_assoc.
  Qed.
End Paths.
Lemma files_paths node_at ex read dj dy data work root fs f : ok_comps root -> named (node_at (abs_path root)) ->
  walk_and_get_all_proto_files node_at ex read dj dy data work (abs_path root) = Ok fs -> In f fs ->
  exists cs, ok_comps cs /\ file_in (node_at (abs_path root)) cs /\ pf_path f = abs_path (root ++ cs) /\
    (clean_abs work -> shown work (pf_path f) (pf_display f)).
Proof.
  intros Hr Nn. unfold walk_and_get_all_proto_files.
  destruct (initial_excludes dj data work) as [E|]; [|discriminate]. cbn [bind].
  destruct (walk _ _ _ _ _ _ _ _ _ _) as [st|] eqn:W; [|discriminate]. cbn [bind]. intros H Hf; injection H as <-.
  destruct (walk_paths _ _ _ _ _ _ _ _ _ _ _ Hr Nn W f Hf) as [[]|(cs & A & B & C)].
  exists cs. split; [eapply file_in_ok; eassumption|auto].
Qed.

(** ** In terms of the specification *)
Lemma abs_clean_ok cwd p : clean_abs cwd -> p <> "" -> clean_abs (abs_clean cwd p).
Proof.
  intros H Hp. unfold abs_clean. apply is_empty_false in Hp. rewrite Hp.
  destruct (is_abs p) eqn:E; cbn [negb]; [now apply path_clean_clean_abs|].
  unfold path_abs. rewrite E. now apply path_join_abs_clean.
Qed.
Lemma get_dir read dj dy look sort devel file c : get_for_file read dj dy look sort devel file = Ok c ->
  is_abs file = true /\ cfg_dir c = path_dir (path_clean file).
Proof.
  unfold get_for_file. destruct (is_abs file); [|discriminate]. cbn [negb].
  destruct (get_external_config read dj dy (path_clean file)) as [e|]; [|discriminate]. cbn [bind]. unfold external_config_to_config.
  repeat (match goal with |- (do _ <- ?x; _) = _ -> _ => destruct x; [|discriminate] end; cbn [bind]).
  destruct (negb devel && x_allow_suppression e); [discriminate|].
  match goal with |- (do _ <- ?x; _) = _ -> _ => destruct x; [|discriminate] end; cbn [bind].
  destruct (intersection _ _); [|discriminate]. intros H; injection H as <-. auto.
Qed.
