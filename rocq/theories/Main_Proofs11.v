(** What a lint finds. *)
From Coq Require Import Permutation.
From Verif Require Grpc_Proofs3 Settings_Proofs.
From Verif Require Import GoMap GoMapFacts GoStrFacts GoPathFacts Settings_Spec File_Spec Exec_Spec LintRun_Spec Lint_RuleProofs Lint_RuleProofs2 Lint_FileProofs Lint_MapProofs Lint_Table LintRun_Proofs LintRun_Proofs2
  Exec_Proofs Main_Model Main_Spec2 Main_Proofs10 Props_Lint.

Lemma for_any_in {A} id (V : A) P rules : In (id, V, P) (for_any rules) -> In (id, V) rules /\ P = anything.
Proof. unfold for_any. intros H. apply in_map_iff in H as (x & [= -> <-] & H). auto. Qed.
Lemma map_in_pair {A B} (r : A) (p : B) (q : B) (l : list A) : In (r, p) (map (fun r => (r, q)) l) -> In r l /\ p = q.
Proof. intros H. apply in_map_iff in H as (x & [= -> <-] & H). auto. Qed.
Section Lint.
  Variable ord : map_order.
  Hypothesis O : reorders ord.
  Variable sing : string -> string.
  Lemma elements_exact id V A : In (id, V, A) (rules_on_elements sing) -> Reports_exactly ord sing A id V.
  Proof.
    unfold rules_on_elements. intros H. repeat (apply in_app_iff in H as [H|H]).
    - apply for_any_in in H as [H ->]. now apply C16_naming_partial.
    - apply for_any_in in H as [H ->]. now apply C17_golang_comments.
    - apply for_any_in in H as [H ->]. now apply C60_element_rules.
    - apply for_any_in in H as [H ->]. now apply C14_suppression.
    - apply map_in_pair in H as [H ->]. now apply C17_sentence_comments_partial.
    - destruct H as [[= <- <- <-]|[[= <- <- <-]|[[= <- <- <-]|[[= <- <- <-]|[]]]]].
      + now apply C17_golang_comments_except.
      + now apply C17_sentence_comments_except_partial.
      + now apply C60_empty_messages_partial.
      + apply C14_http_option.
  Qed.
  Lemma files_exact id V A : In (id, V, A) rules_on_files -> Files_reported_exactly ord sing A id V.
  Proof.
    unfold rules_on_files. intros H. repeat (apply in_app_iff in H as [H|H]).
    - apply for_any_in in H as [H ->]. now apply C18_required.
    - apply for_any_in in H as [H ->]. now apply C20_request_response.
    - apply for_any_in in H as [H ->]. now apply C61_file_rules.
    - apply map_in_pair in H as [H ->]. now apply C18_values.
    - apply map_in_pair in H as [H ->]. now apply C20_layout.
    - destruct H as [[= <- <- <-]|[]]. apply C61_file_name.
  Qed.
  Lemma directories_exact id B A : In (id, B, A) rules_on_directories -> Directory_reported_exactly ord sing A id B.
  Proof.
    intros [[= <- <- <-]|H]; [apply C19_packages|]. apply in_map_iff in H as ([i n] & [= <- <- <-] & H). now apply C19_options_partial.
  Qed.
  Lemma every_rule l : In l (all_linters ord sing) ->
    (exists V A, In (ln_id l, V, A) (rules_on_elements sing)) \/ (exists V A, In (ln_id l, V, A) rules_on_files) \/ (exists B A, In (ln_id l, B, A) rules_on_directories).
  Proof.
    intros H. apply (in_map ln_id) in H. apply documented_iff in H as (gs & H). apply (in_map fst) in H. cbn [fst] in H. generalize dependent (ln_id l). intros id H.
    assert (X : forallb (fun i => mem i (map (fun r => fst (fst r)) (rules_on_elements sing) ++ map (fun r => fst (fst r)) rules_on_files ++ map (fun r => fst (fst r)) rules_on_directories)) (map fst documented_rules) = true) by (vm_compute; reflexivity).
    rewrite forallb_forall in X. apply X, mem_In in H. clear X. repeat (apply in_app_iff in H as [H|H]); apply in_map_iff in H as ([[i V] A] & E & H); cbn [fst] in E; subst i; eauto.
  Qed.
  Lemma same_linter l l' : In l (all_linters ord sing) -> In l' (all_linters ord sing) -> ln_id l = ln_id l' -> l = l'.
  Proof.
    assert (N : NoDup (map ln_id (all_linters ord sing))) by apply (all_nodup ord sing). revert N. generalize (all_linters ord sing) as ls.
    induction ls as [|x ls IH]; intros N []; inversion_clear N as [|? ? N1 N2]; intros [] E; subst; auto.
    - destruct N1. rewrite E. now apply in_map.
    - destruct N1. rewrite <- E. now apply in_map.
  Qed.
  Lemma pair_disagree id B A ds : In (id, B, A) rules_on_directories -> (B ds <-> exists d1 d2, In d1 ds /\ In d2 ds /\ B [d1; d2]).
  Proof.
    intros H. split.
    - destruct H as [[= <- <- <-]|H]; [|apply in_map_iff in H as ([i n] & [= <- <- <-] & _)];
        (intros (d1 & d2 & x1 & x2 & H1 & H2 & R); exists d1, d2; split; [exact H1|]; split; [exact H2|]; exists d1, d2, x1, x2; split; [now left|]; split; [right; now left|exact R]).
    - destruct H as [[= <- <- <-]|H]; [|apply in_map_iff in H as ([i n] & [= <- <- <-] & _)];
        (intros (d1 & d2 & H1 & H2 & (e1 & e2 & x1 & x2 & [<-|[<-|[]]] & [<-|[<-|[]]] & R)); [exists d1, d1, x1, x2|exists d1, d2, x1, x2|exists d2, d1, x1, x2|exists d2, d2, x1, x2]; auto).
  Qed.

  Variable cwd : string.
  Variable ps : proto_set.
  Notation c := (ps_config ps).
  Notation ignores := (lc_ignores (cfg_lint (ps_config ps))).
  Hypothesis Keys : NoDup (map fst ignores).
  Lemma kept l ds d : (forall d, In d ds -> d_set d = ps /\ within (cfg_dir c) (absolute_name cwd (d_filename d))) ->
    (In d (filter_ignores cwd l ds ignores) <-> In d ds /\ ~ silenced cwd c (ln_id l) (d_filename d)).
  Proof.
    intros U. unfold filter_ignores. rewrite filter_In, Bool.negb_true_iff, <- Bool.not_true_iff_false.
    split; intros [H1 H2]; (split; [exact H1|]); intros X; apply H2; clear H2; destruct (U d H1) as (E & W);
      unfold should_ignore in *; rewrite E in *; fold (absolute_name cwd (d_filename d)) in *.
    - destruct X as (paths & p & H & Hp & Hw & Hn). apply (In_gget _ _ _ Keys) in H. rewrite H. apply (excluded_iff _ _ _ W). eauto.
    - destruct (gget (ln_id l) ignores) as [paths|] eqn:G; [|discriminate]. apply gget_In in G. apply (excluded_iff _ _ _ W) in X as (p & P1 & P2 & P3). exists paths, p. auto.
  Qed.
  Lemma check_exact l ds dir : In l (all_linters ord sing) -> selected (cfg_lint c) (ln_id l) ->
    (forall d, In d ds -> d_set d = ps /\ within (cfg_dir c) (absolute_name cwd (d_filename d)) /\ path_dir (absolute_name cwd (d_filename d)) = dir /\
       well_formed (d_elements d) /\ presupposed sing c d) ->
    exists gs, check_one cwd l ds ignores = Ok gs /\ (gs = [] <-> ~ breaks sing cwd c (ln_id l) ds).
  Proof.
    intros Hl Hs U. assert (K : forall d, In d (filter_ignores cwd l ds ignores) <-> In d ds /\ ~ silenced cwd c (ln_id l) (d_filename d)).
    { intros d. apply kept. intros e He. destruct (U e He) as (A & B & _). auto. }
    unfold check_one. set (ds' := filter_ignores cwd l ds ignores) in *. clearbody ds'.
    assert (Pe : forall V A d, In (ln_id l, V, A) (rules_on_elements sing) -> In d ds' -> well_formed (d_elements d) /\ A d).
    { intros V A d T Hd. apply K in Hd as [Hd _]. destruct (U d Hd) as (_ & _ & _ & Wf & Pr). split; [exact Wf|]. now apply (proj1 (Pr _ Hs) V). }
    assert (Pf : forall V A d, In (ln_id l, V, A) rules_on_files -> In d ds' -> well_formed (d_elements d) /\ A d).
    { intros V A d T Hd. apply K in Hd as [Hd _]. destruct (U d Hd) as (_ & _ & _ & Wf & Pr). split; [exact Wf|]. now apply (proj1 (proj2 (Pr _ Hs)) V). }
    assert (Pd : forall B A d, In (ln_id l, B, A) rules_on_directories -> In d ds' -> A d).
    { intros V A d T Hd. apply K in Hd as [Hd _]. destruct (U d Hd) as (_ & _ & _ & Wf & Pr). now apply (proj2 (proj2 (Pr _ Hs)) V). }
    assert (First : exists gs, linter_check l ds' = Ok gs /\ (~ breaks sing cwd c (ln_id l) ds -> gs = [])).
    { destruct (every_rule l Hl) as [(V & A & T)|[(V & A & T)|(B & A & T)]].
      - destruct (elements_exact _ _ _ T) as (l' & Hl' & El & R). apply same_linter in El; [|assumption..]. subst l'.
        destruct (R ds' (fun d => Pe V A d T)) as (gs & G & _ & P). exists gs. split; [exact G|]. intros N. destruct gs as [|g gs]; [reflexivity|]. destruct N.
        destruct (proj1 (P (f_filename g) (mk_pos (f_line g) (f_column g)))) as (d & ctx & e & Hd & _ & L & Q); [exists g; split; [now left|repeat split]|].
        apply K in Hd as [Hd Hn]. exists d. split; [exact Hd|]. split; [exact Hn|]. left. exists V, A, ctx, e. eauto.
      - destruct (files_exact _ _ _ T) as (l' & Hl' & El & R). apply same_linter in El; [|assumption..]. subst l'.
        destruct (R ds' (fun d => Pf V A d T)) as (gs & G & _ & P). exists gs. split; [exact G|]. intros N. destruct gs as [|g gs]; [reflexivity|]. destruct N.
        destruct (proj1 (P (f_filename g) (mk_pos (f_line g) (f_column g)))) as (d & Hd & _ & Q); [exists g; split; [now left|repeat split]|].
        apply K in Hd as [Hd Hn]. exists d. split; [exact Hd|]. split; [exact Hn|]. right. left. exists V, A. eauto.
      - destruct (directories_exact _ _ _ T) as (l' & Hl' & El & R). apply same_linter in El; [|assumption..]. subst l'.
        destruct (R ds' (fun d => Pd B A d T)) as (gs & G & _ & P & _). exists gs. split; [exact G|]. intros N. destruct gs as [|g gs]; [reflexivity|]. destruct N.
        assert (B ds') as Q by (apply P; discriminate). apply (pair_disagree _ _ _ ds' T) in Q as (d1 & d2 & H1 & H2 & Q).
        apply K in H1 as [H1 N1]. apply K in H2 as [H2 N2]. exists d1. split; [exact H1|]. split; [exact N1|]. right. right. exists B, A, d2. split; [exact T|].
        split; [exact H2|]. split; [exact N2|]. split; [|exact Q]. destruct (U d1 H1) as (_ & _ & -> & _). now destruct (U d2 H2) as (_ & _ & -> & _). }
    destruct First as (gs & G & First). exists gs. split; [exact G|]. split; [|exact First]. intros -> (d & Hd & Hn & Q). clear First.
    assert (Hd' : In d ds') by (apply K; auto).
    destruct Q as [(V & A & ctx & e & p & T & L & Q)|[(V & A & p & T & Q)|(B & A & d2 & T & H2 & N2 & _ & Q)]].
    - destruct (elements_exact _ _ _ T) as (l' & Hl' & El & R). apply same_linter in El; [|assumption..]. subst l'.
      destruct (R ds' (fun d => Pe V A d T)) as (gs & G' & _ & P). rewrite G in G'. injection G' as <-.
      destruct (proj2 (P (d_filename d) p)) as (f & [] & _). exists d, ctx, e. auto.
    - destruct (files_exact _ _ _ T) as (l' & Hl' & El & R). apply same_linter in El; [|assumption..]. subst l'.
      destruct (R ds' (fun d => Pf V A d T)) as (gs & G' & _ & P). rewrite G in G'. injection G' as <-.
      destruct (proj2 (P (d_filename d) p)) as (f & [] & _). exists d. auto.
    - destruct (directories_exact _ _ _ T) as (l' & Hl' & El & R). apply same_linter in El; [|assumption..]. subst l'.
      destruct (R ds' (fun d => Pd B A d T)) as (gs & G' & _ & P & _). rewrite G in G'. injection G' as <-.
      apply (proj2 P); [|reflexivity]. apply (pair_disagree _ _ _ ds' T). exists d, d2. split; [exact Hd'|]. split; [apply K; auto|exact Q].
  Qed.
End Lint.

Lemma shown_absolute cwd p n : clean_abs cwd -> File_Spec.shown cwd p n -> absolute_name cwd n = p.
Proof.
  intros C (A & B & <-). unfold absolute_name, path_abs. rewrite A. now apply Settings_Proofs.join_against.
Qed.
Section Run.
  Variable w : world.
  Hypothesis O : reorders (w_order w).
  Variable cwd : string.
  Variable disk : string -> result string.
  Variable ps : proto_set.
  Notation sing := (w_singularize w).
  Notation c := (ps_config ps).
  Notation read := (LintCmd_Model.read_proto (w_parse w) disk).
  Hypothesis Keys : NoDup (map fst (lc_ignores (cfg_lint c))).
  Hypothesis Dirs : NoDup (map fst (ps_files ps)).
  Hypothesis Files : forall d l f, In (d, l) (ps_files ps) -> In f l ->
    File_Spec.shown cwd (pf_path f) (pf_display f) /\ absolute_name cwd (pf_display f) = pf_path f /\ within (cfg_dir c) (pf_path f) /\ path_dir (pf_path f) = d.
  Variable names : list string.
  Hypothesis Names : forall n, In n names <-> exists f, below ps f /\ pf_display f = n.
  Variable ds : list descriptor.
  Hypothesis Ds : on_disk w disk cwd ps names ds.
  Lemma read_is f : below ps f -> exists d, In d ds /\ read_descriptor read ps false f = Ok d.
  Proof.
    intros B. destruct Ds as (D1 & D2). assert (In (pf_display f) names) as H by (apply Names; eauto). apply D1, in_map_iff in H as (d & E & H).
    exists d. split; [exact H|]. destruct (D2 d H) as (Es & p & S & R & P).
    destruct B as (dir & l & B1 & B2 & _). destruct (Files dir l f B1 B2) as ((_ & _ & S2) & _). destruct S as (_ & _ & S). rewrite E, S2 in S. subst p.
    unfold read_descriptor, LintCmd_Model.read_proto. rewrite R. cbn [bind]. rewrite P. cbn [bind fst snd]. rewrite <- E, <- Es. now destruct d.
  Qed.
  Lemma is_read d : In d ds -> exists f, below ps f /\ pf_display f = d_filename d /\ read_descriptor read ps false f = Ok d.
  Proof.
    intros H. destruct Ds as (D1 & D2). assert (In (d_filename d) names) as N by (apply D1; now apply in_map). apply Names in N as (f & B & E).
    exists f. split; [exact B|]. split; [exact E|]. destruct (D2 d H) as (Es & p & S & R & P).
    destruct B as (dir & l & B1 & B2 & _). destruct (Files dir l f B1 B2) as ((_ & _ & S2) & _). destruct S as (_ & _ & S). rewrite <- E, S2 in S. subst p.
    unfold read_descriptor, LintCmd_Model.read_proto. rewrite R. cbn [bind]. rewrite P. cbn [bind fst snd]. rewrite E, <- Es. now destruct d.
  Qed.
  Hypothesis Well : forall d, In d ds -> well_formed (d_elements d) /\ presupposed sing c d.
  Lemma dir_read dir files : In (dir, files) (ps_files ps) -> has_prefix dir (ps_dir ps) = true ->
    exists dd, mapM (read_descriptor read ps false) files = Ok dd /\
      (forall d, In d dd <-> exists f, In f files /\ read_descriptor read ps false f = Ok d) /\
      forall d, In d dd -> In d ds /\ d_set d = ps /\ within (cfg_dir c) (absolute_name cwd (d_filename d)) /\ path_dir (absolute_name cwd (d_filename d)) = dir /\
         well_formed (d_elements d) /\ presupposed sing c d.
  Proof.
    intros H P. assert (B : forall f, In f files -> below ps f) by (intros f Hf; exists dir, files; auto).
    destruct (Grpc_Proofs3.mapM_all (read_descriptor read ps false) files) as (dd & M).
    { intros f Hf. destruct (read_is f (B f Hf)) as (d & _ & R). eauto. }
    exists dd. split; [exact M|]. split; [now apply Grpc_Proofs3.mapM_ok|]. intros d Hd. apply (Grpc_Proofs3.mapM_ok _ _ _ M) in Hd as (f & Hf & R).
    destruct (read_is f (B f Hf)) as (d' & Hd & R'). rewrite R in R'. injection R' as <-.
    assert (E : d_filename d = pf_display f /\ d_set d = ps).
    { unfold read_descriptor in R. destruct (read (pf_path f)); [|discriminate R]. injection R as <-. auto. }
    destruct E as (E1 & E2). destruct (Files dir files f H Hf) as (_ & E3 & E4 & E5). rewrite E1, E3. destruct (Well d Hd). auto 7.
  Qed.
  Lemma run_clean : (exists fs, LintCmd_Model.run_lint (w_order w) cwd (w_parse w) sing disk ps false = Ok fs /\ (fs = [] <-> ~ exists id, selected (cfg_lint c) id /\ breaks sing cwd c id ds))
     /\ known_names (cfg_lint c) \/
    (exists e, LintCmd_Model.run_lint (w_order w) cwd (w_parse w) sing disk ps false = Err e) /\ ~ known_names (cfg_lint c).
  Proof.
    unfold LintCmd_Model.run_lint.
    pose proof (C12_run (w_order w) sing cwd read ps false O Dirs) as R.
    destruct (lint_run _ _ _ _ _ _ _ _) as [r|e].
    - left. destruct R as (fs & -> & Kn & _ & R). split; [|exact Kn]. cbn [bind].
      replace (concat _) with fs by (clear; induction fs as [|f fs IH]; [reflexivity|cbn; now rewrite <- IH]). exists fs. split; [reflexivity|]. split.
      + intros -> (id & Sel & d & Hd & Hn & Q).
        destruct (is_read d Hd) as (f & (dir & files & B1 & B2 & B3) & Ef & Rd). destruct (dir_read dir files B1 B3) as (dd & M & I & U).
        assert (In d dd) as Hdd by (apply I; eauto).
        assert (documented id) as Doc. { destruct Q as [(V & A & ctx & e & p & T & _)|[(V & A & p & T & _)|(B & A & d2 & T & _)]];
          [destruct (elements_exact _ O sing _ _ _ T) as (l & Hl & <- & _)|destruct (files_exact _ O sing _ _ _ T) as (l & Hl & <- & _)|destruct (directories_exact (w_order w) sing _ _ _ T) as (l & Hl & <- & _)];
          apply (documented_iff (w_order w) sing); now apply in_map. }
        apply (documented_iff (w_order w) sing) in Doc. apply in_map_iff in Doc as (l & <- & Hl).
        destruct (check_exact _ O sing cwd ps Keys l dd dir Hl Sel (fun d H => proj2 (U d H))) as (gs & G & X).
        destruct gs as [|g gs].
        * apply (proj1 X eq_refl). exists d. split; [exact Hdd|]. split; [exact Hn|].
          destruct Q as [Q|[Q|(B & A & d2 & T & H2 & N2 & E & Q)]]; [now left|right; now left|right; right].
          exists B, A, d2. split; [exact T|]. split; [|auto].
          destruct (is_read d2 H2) as (f2 & (dir2 & files2 & C1 & C2 & C3) & Ef2 & Rd2).
          destruct (Files _ _ _ B1 B2) as (_ & F1 & _ & F2). destruct (Files _ _ _ C1 C2) as (_ & F3 & _ & F4).
          rewrite <- Ef, <- Ef2, F1, F3, F2, F4 in E. subst dir2. assert (files2 = files) as ->.
          { apply (In_gget _ _ _ Dirs) in B1, C1. congruence. }
          apply I. eauto.
        * apply (proj2 (R g)). exists dir, files, dd, l, (g :: gs). repeat (split; [assumption|]). now left.
      + intros N. destruct fs as [|g fs]; [reflexivity|]. exfalso.
        destruct (proj1 (R g) (or_introl eq_refl)) as (dir & files & dd & l & gs & B1 & B3 & M & Hl & Sel & G & Hg).
        destruct (dir_read dir files B1 B3) as (dd' & M' & I & U). rewrite M in M'. injection M' as <-.
        destruct (check_exact _ O sing cwd ps Keys l dd dir Hl Sel (fun d H => proj2 (U d H))) as (gs' & G' & X). rewrite G in G'. injection G' as <-.
        rewrite (proj2 X) in Hg; [destruct Hg|]. intros (d & Hd & Hn & Q). apply N. exists (ln_id l). split; [exact Sel|]. exists d. split; [now apply U|]. split; [exact Hn|].
        destruct Q as [Q|[Q|(B & A & d2 & T & H2 & Q)]]; [now left|right; now left|right; right]. exists B, A, d2. split; [exact T|]. split; [now apply U|exact Q].
    - right. split; [cbn [bind]; eauto|]. destruct R as [R|(dir & files & B1 & B3 & [(f & e' & Hf & R)|(dd & l & e' & M & Hl & Sel & R)])]; [exact R|exfalso..].
      + destruct (read_is f) as (d & _ & Q); [exists dir, files; auto|]. unfold read_descriptor in Q. rewrite R in Q. discriminate Q.
      + destruct (dir_read dir files B1 B3) as (dd' & M' & I & U). rewrite M in M'. injection M' as <-.
        destruct (check_exact _ O sing cwd ps Keys l dd dir Hl Sel (fun d H => proj2 (U d H))) as (gs' & G' & X). rewrite R in G'. discriminate G'.
  Qed.
End Run.
