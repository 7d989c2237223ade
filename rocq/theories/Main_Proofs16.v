(** What the other commands see, when files has listed the files. *)
From Coq Require Import Lia Sorted Permutation.
From Verif Require Settings_Proofs.
From Verif Require Import GoStrFacts GoPathFacts Settings_Spec File_Spec Exec_Spec Exec_Proofs Exec_Proofs3 Cmd_Spec Download_Spec Download_Proofs
  Protoc_Spec Main_Model Main_Spec Main_Spec2 Main_Spec3 Main_Spec4 Main_Proofs Main_Proofs2 Main_Proofs5 Main_Proofs6 Main_Proofs7 Main_Proofs10 Main_Proofs11 Main_Proofs12 Main_Proofs13 Main_Proofs15
  Props_Main Props_Main2 Props_Main3 Props_Main4 Props_Main10.

Record sees (w : world) (cwd : string) (items : list item) (args : list string) (disk : string -> result string) (r : runner) (m : meta) (names : list string) : Prop := {
  se_here : here r = cwd;
  se_options : exists z, r = options (w_getenv w) cwd z items;
  se_found : found (here r) (w_stat w) (provider w r disk) args m;
  se_config : forall n, In n names -> exists p, File_Spec.shown cwd p n /\ in_force w disk cwd (text items "config-data") p (ps_config (m_set m));
  se_some : names <> [] -> exists d, In d (ps_files (m_set m)) /\ requested (m_set m) d = true;
  se_files : forall d l, In (d, l) (ps_files (m_set m)) -> requested (m_set m) (d, l) = true -> files_in cwd names d (map pf_path l);
  se_in : forall n p, In n names -> File_Spec.shown cwd p n -> exists l, In (path_dir p, l) (ps_files (m_set m)) /\ requested (m_set m) (path_dir p, l) = true /\ In p (map pf_path l);
  se_wkt : cc_include_wkt (cfg_compile (ps_config (m_set m))) = true;
  se_dir : cfg_dir (ps_config (m_set m)) <> ""
}.
Lemma files_see w cwd args fl f fi items s s1 : ordinary w cwd -> sorts (w_sort_plugins w) ->
  means (w_read_csv w) fl f fi args -> c_words f = ["files"] -> main w fl s = (s1, 0%Z) -> same_settings fi items ->
  exists names r m, io_done s1 = io_done s ++ Main_Spec.shown names /\ the_options w items = Ok r /\ sees w cwd items args (io_disk s) r m names.
Proof.
  intros (V & G & Wd & Cl & Nm & St) So Mf Wf Ef Sm.
  destruct (line_is w fl f fi args G Mf) as (kf & Kf & Lf). rewrite Lf in Ef. clear Lf. unfold asked in Kf. rewrite Wf in Kf. injection Kf as <-.
  destruct (the_options w fi) as [r0|m] eqn:Or0; [|rewrite no_options in Ef; discriminate Ef]. rewrite with_options in Ef.
  apply process_value in Ef as ([] & Ef).
  assert (Hr0 : here r0 = cwd) by (eapply options_files; [exact Wd| |exact Or0|exact Or0]; split; reflexivity).
  assert (Cr0 : clean_abs (here r0)) by now rewrite Hr0.
  destruct (files_shows w V Nm St r0 Cr0 args s s1 Ef) as (m & names & F & -> & I).
  destruct (options_some _ _ _ _ _ Wd Sm Or0) as (r & Or).
  destruct (options_files _ _ _ _ _ _ Wd Sm Or0 Or) as (_ & Sr).
  assert (Hr : here r = cwd) by (rewrite <- Hr0; apply Sr). assert (Cr : clean_abs (here r)) by now rewrite Hr.
  assert (Fr : found (here r) (w_stat w) (provider w r (io_disk s)) args m).
  { rewrite Hr, <- Hr0. destruct F as [ps A B|ps A B]; [apply FoundDirectory|apply FoundFile]; try exact A; rewrite (provider_runner w r r0) by exact Sr; exact B. }
  assert (Rw : exists z, r = options (w_getenv w) cwd z items).
  { clear - Or Wd. unfold the_options in Or. rewrite Wd in Or. destruct (if String.eqb _ _ then _ else _) as [z|] in Or; [|discriminate Or]. cbn [bind] in Or. injection Or as <-. eauto. }
  destruct Rw as (walk & Rw). assert (Da : r_config_data r = text items "config-data") by now rewrite Rw.
  destruct (found_config w V So Nm St r Cr _ _ _ Fr) as (Fc & (e & dd & Cd & (_ & Tk)) & Nd). rewrite Hr, Da in Fc.
  exists names, r, m. split; [reflexivity|]. split; [exact Or|]. constructor; eauto.
  - intros n Hn. apply I in Hn as (g & (d0 & l0 & B1 & B2 & _) & <-). destruct (Fc _ _ _ B1 B2) as (A1 & _ & _ & A2). eauto.
  - intros Nn. destruct names as [|n names]; [now destruct Nn|]. destruct (proj1 (I n) (or_introl eq_refl)) as (g & (d0 & l0 & B1 & B2 & B3) & _). exists (d0, l0). auto.
  - intros d0 l0 B1 B3. split.
    + pose proof (found_groups w V St r _ _ _ Fr _ _ B1) as Ne. destruct l0; [now destruct Ne|discriminate].
    + intros p. rewrite in_map_iff. split.
      * intros (g & <- & B2). destruct (Fc _ _ _ B1 B2) as (_ & _ & Pd & Sh). split; [exact Pd|]. exists (pf_display g). split; [|exact Sh]. apply I. exists g. split; [|reflexivity]. now exists d0, l0.
      * intros (Pd & n & Hn & Sh). apply I in Hn as (g & (d1 & l1 & C1 & C2 & C3) & <-). destruct (Fc _ _ _ C1 C2) as (_ & _ & Pd1 & Sh1).
        apply (shown_absolute _ _ _ Cl) in Sh, Sh1. rewrite Sh in Sh1. subst p. exists g. split; [now symmetry|]. rewrite Sh1 in Pd. rewrite Pd in Pd1. subst d1. now rewrite (group_of _ _ _ _ Nd B1 C1).
  - intros n p Hn Sh. apply I in Hn as (g & (d0 & l0 & B1 & B2 & B3) & <-). destruct (Fc _ _ _ B1 B2) as (_ & _ & Pd & Sh1).
    pose proof (shown_absolute _ _ _ Cl Sh) as X1. pose proof (shown_absolute _ _ _ Cl Sh1) as X2. rewrite X1 in X2. rewrite X2. rewrite Pd. exists l0. split; [exact B1|]. split; [exact B3|]. now apply in_map.
  - apply (be_compile _ _ _ _ _ Tk).
  - rewrite (be_dir _ _ _ _ _ Tk). destruct Cd as (cd & _ & ->). discriminate.
Qed.

(** The compiler of the commands that work on sets. *)
Lemma sees_compiled w cwd items args disk r m names set full fs sets : ordinary w cwd -> (forall n f, w_protoc_temp w n = Ok f -> f <> "") -> (forall n, Permutation (w_ended w n) (List.seq 0 n)) ->
  sees w cwd items args disk r m names -> names <> [] -> set || is_full full = true -> the_compiler w r false set full disk (m_set m) = Ok (fs, sets) ->
  exists protoc wkt commands temps fss, set_up w disk cwd items names (ps_config (m_set m)) protoc wkt /\
    set_commands w cwd (negb (is_full full) || full_imports full) (full_source_info full) names (ps_config (m_set m)) protoc wkt commands temps /\
    Forall2 (complaints w disk (cc_allow_unused_imports (cfg_compile (ps_config (m_set m))))) commands fss /\ Permutation fs (concat fss) /\
    (fs = [] -> (forall cmd, In cmd commands -> accepts w disk (cc_allow_unused_imports (cfg_compile (ps_config (m_set m)))) cmd) /\ Forall2 (fun t st => w_protoc_set w disk commands t = Ok st) temps sets).
Proof.
  intros (V & G & Wd & Cl & Nm & St) Tn En S Nn Do C. destruct (set_compiler w Tn En r set full Do (m_set m) disk _ _ C) as (s1 & ms & fss & M & K1 & K2 & K3).
  destruct (set_shape w V Tn r full (m_set m) (se_wkt _ _ _ _ _ _ _ _ S) (se_dir _ _ _ _ _ _ _ _ S) _ _ M (se_some _ _ _ _ _ _ _ _ S Nn)) as (protoc & wkt & dirs & P1 & P2 & Pm & F).
  destruct (se_options _ _ _ _ _ _ _ _ S) as (z & Rw).
  exists protoc, wkt, (map Protoc_Model.cm_args ms), (map Protoc_Model.cm_temp ms), fss. split; [split; [exact (se_config _ _ _ _ _ _ _ _ S)|rewrite Rw in P1, P2; exact (which_protoc w items z cwd Cl _ _ _ P1 P2)]|].
  assert (Fi : forall d, In d dirs -> files_in cwd names (fst d) (map pf_path (snd d))).
  { intros [d l] I. apply (Permutation_in _ Pm), filter_In in I as (I & R). exact (se_files _ _ _ _ _ _ _ _ S _ _ I R). }
  split; [constructor|auto].
  - rewrite map_length; exact (metas_temps w Tn r full (m_set m) _ _ M).
  - clear - F Fi. induction F as [|d m' dirs ms H F IH]; cbn [map]; constructor.
    + exists (fst d), (map pf_path (snd d)). split; [apply Fi; now left|exact H].
    + apply IH. intros x I. apply Fi. now right.
  - intros n p Hn Sh. destruct (se_in _ _ _ _ _ _ _ _ S n p Hn Sh) as (l & I & R & Ip).
    assert (Id : In (path_dir p, l) dirs) by (apply (Permutation_in _ (Permutation_sym Pm)), filter_In; auto).
    destruct (Settings_Proofs.Forall2_In_l _ _ _ _ F Id) as (m' & Im & Rn). exists (Protoc_Model.cm_temp m'), (map pf_path l), (Protoc_Model.cm_args m').
    split; [exact (Fi _ Id)|]. split; [exact Ip|]. split; [now apply in_map|exact Rn].
Qed.
Lemma sees_sets w cwd items args disk r m names set full sets : ordinary w cwd -> (forall n f, w_protoc_temp w n = Ok f -> f <> "") -> (forall n, Permutation (w_ended w n) (List.seq 0 n)) ->
  sees w cwd items args disk r m names -> names <> [] -> set || is_full full = true -> the_compiler w r false set full disk (m_set m) = Ok ([], sets) ->
  exists protoc wkt commands, set_up w disk cwd items names (ps_config (m_set m)) protoc wkt /\
    made_sets w disk cwd (negb (is_full full) || full_imports full) (full_source_info full) names (ps_config (m_set m)) protoc wkt commands sets.
Proof.
  intros O Tn En S Nn Do C. destruct (sees_compiled _ _ _ _ _ _ _ _ _ _ _ _ O Tn En S Nn Do C) as (protoc & wkt & commands & temps & fss & A & B & _ & _ & K). destruct (K eq_refl) as (K1 & K2).
  exists protoc, wkt, commands. split; [exact A|]. exists temps. auto.
Qed.
(** What is printed when protoc has something to say. *)
Lemma sees_rejected w cwd items args disk r m names set full f fs sets kept : ordinary w cwd -> (forall n f, w_protoc_temp w n = Ok f -> f <> "") -> (forall n, Permutation (w_ended w n) (List.seq 0 n)) ->
  sees w cwd items args disk r m names -> names <> [] -> set || is_full full = true -> the_compiler w r false set full disk (m_set m) = Ok (f :: fs, sets) ->
  picks (about (here r) m) (f :: fs) kept ->
  exists protoc wkt kept', set_up w disk cwd items names (ps_config (m_set m)) protoc wkt /\ Permutation kept kept' /\
    rejected_sets w disk cwd (negb (is_full full) || full_imports full) (full_source_info full) names (ps_config (m_set m)) protoc wkt args kept'.
Proof.
  intros O Tn En S Nn Do C Pk. destruct (sees_compiled _ _ _ _ _ _ _ _ _ _ _ _ O Tn En S Nn Do C) as (protoc & wkt & commands & temps & fss & A & B & Cm & Pm & _).
  destruct (picks_perm _ _ _ _ Pm Pk) as (kept' & Pk1 & Pk2). exists protoc, wkt, kept'. split; [exact A|]. split; [exact Pk1|]. exists commands, temps, fss. split; [exact B|]. split; [exact Cm|]. split.
  { intros X. rewrite X in Pm. symmetry in Pm. now apply Permutation_nil in Pm. }
  destruct Pk2 as (b & B1 & B2). exists b. split; [|exact B2]. intros y Hy. rewrite (B1 y Hy). unfold about, to_show. pose proof (se_found _ _ _ _ _ _ _ _ S) as Fr. pose proof (se_here _ _ _ _ _ _ _ _ S) as Hr.
  destruct O as (V & G & Wd & Cl & Nm & St). destruct Fr as [ps P Q|ps P Q]; cbn [m_single].
  - split; [now left|now left].
  - rewrite P, Hr. split; [intros [X|X]; [rewrite X in P; now apply St in P|now right]|intros [X|X]; [discriminate X|now right]].
Qed.
