(** Proofs about the lint command. *)
From Verif Require Import GoStrFacts GoMapFacts GoPathFacts Strs_Proofs Settings_Proofs Lint_RuleFacts Lint_Table LintRun_Proofs LintRun_Proofs2 Lint_Quiet Exec_Proofs.
From Verif Require Export LintCmd_Spec.
From Coq Require Import Lia Permutation Sorting.Sorted.

Lemma ok_inj {A} (a b : A) : Ok a = Ok b -> a = b.
Proof. now intros [= ->]. Qed.
(** ** Sorting *)
Lemma increasing_by {A} (key : A -> string) l : NoDup (map key l) ->
  Increasing (map key (isort (fun a b => str_leb (key a) (key b)) l)).
Proof.
  intros N.
  assert (P : Permutation (map key l) (map key (isort (fun a b => str_leb (key a) (key b)) l))) by apply Permutation_map, isort_perm.
  apply (Permutation_NoDup P) in N. clear P.
  assert (S : StronglySorted (fun a b => str_leb (key a) (key b) = true) (isort (fun a b => str_leb (key a) (key b)) l)).
  { apply isort_sorted; [intros a b; apply str_leb_total|intros a b c; apply str_leb_trans]. }
  induction S as [|x r S IH F]; [constructor|]. cbn [map] in *. inversion N as [|? ? H1 H2]; subst. constructor; [|auto].
  intros y Hy. apply in_map_iff in Hy as (z & <- & Hz). rewrite Forall_forall in F. apply str_leb_neq_ltb; [now apply F|].
  intros E. apply H1. rewrite E. now apply in_map.
Qed.
Lemma increasing_sort l : NoDup l -> Increasing (sort_strings l).
Proof. intros N. rewrite <- (map_id (sort_strings l)). apply (increasing_by (fun x => x)). now rewrite map_id. Qed.
Lemma increasing_nodup l : Increasing l -> NoDup l.
Proof. induction 1 as [|x l H1 H2 IH]; constructor; auto. intros H. apply H1 in H. now rewrite str_ltb_irrefl in H. Qed.
Lemma says_lines text : lines_of [text] = says (if is_empty text then "" else text +++ String newline "").
Proof. unfold lines_of, says. cbn. destruct (is_empty text); [reflexivity|]. rewrite app_nil_r. now destruct text. Qed.

(** ** The entries *)
Definition good_map (m : list (string * list (string * unit))) : Prop :=
  NoDup (map fst m) /\ forall id files, gget id m = Some files -> files <> [] /\ NoDup (map fst files).
Definition entry (m : list (string * list (string * unit))) (id rel : string) : Prop :=
  exists files, gget id m = Some files /\ In rel (map fst files).
Lemma id_to_files_ok dir fs : (forall f, In f fs -> f_lint_id f <> "" /\ f_filename f <> "") ->
  forall m m', good_map m -> id_to_files dir m fs = Ok m' ->
  good_map m' /\ forall id rel, entry m' id rel <-> entry m id rel \/
    exists f, In f fs /\ f_lint_id f = id /\ path_rel dir (f_filename f) = Ok rel.
Proof.
  induction fs as [|f fs IH]; intros H m m' G E.
  - injection E as <-. split; [assumption|]. intros id rel. split; [auto|]. intros [?|(f & [] & _)]. assumption.
  - cbn [id_to_files] in E. destruct (H f (or_introl eq_refl)) as [N1 N2].
    apply is_empty_false in N1, N2. rewrite N1, N2 in E. cbn [negb andb] in E.
    destruct (path_rel dir (f_filename f)) as [rel0|] eqn:Er; cbn [bind] in E; [|discriminate].
    set (files := match gget (f_lint_id f) m with Some files => files | None => [] end) in E.
    assert (K : forall k, In k (map fst files) <-> entry m (f_lint_id f) k).
    { intros k. unfold files, entry. destruct (gget (f_lint_id f) m) as [fl|].
      - split; [eauto|]. intros (x & [= <-] & Hx). assumption.
      - split; [easy|]. intros (x & Hx & _). discriminate Hx. }
    apply IH in E as [E1 E2]; [|intros; apply H; now right|].
    + split; [assumption|]. intros id rel. rewrite E2. clear E1 E2.
      assert (X : entry (gput (f_lint_id f) (gput rel0 tt files) m) id rel <-> entry m id rel \/ (id = f_lint_id f /\ rel = rel0)).
      { unfold entry at 1. destruct (string_dec id (f_lint_id f)) as [->|Ni].
        - rewrite gget_gput_eq. split.
          + intros (x & [= <-] & Hx). apply gput_keys in Hx as [->|Hx]; [auto|]. left. now apply K.
          + intros D. eexists. split; [reflexivity|]. apply gput_keys. destruct D as [D|[_ ->]]; [right; now apply K|now left].
        - rewrite gget_gput_neq by assumption. unfold entry. split; [auto|]. intros [D|[E _]]; [assumption|contradiction]. }
      rewrite X. split.
      * intros [[D|[-> ->]]|(g & Hg & D)]; [auto| |].
        -- right. exists f. split; [now left|]. auto.
        -- right. exists g. split; [now right|]. exact D.
      * intros [D|(g & [<-|Hg] & D1 & D2)]; [auto| |].
        -- left. right. split; [auto|]. congruence.
        -- right. exists g. auto.
    + destruct G as [G1 G2]. split; [now apply gput_NoDup|]. intros id fl Hf.
      assert (NF : NoDup (map fst files)).
      { unfold files. destruct (gget (f_lint_id f) m) as [x|] eqn:Ex; [|constructor]. now apply G2 in Ex. }
      destruct (string_dec id (f_lint_id f)) as [->|Ni].
      * rewrite gget_gput_eq in Hf. injection Hf as <-. split; [|now apply gput_NoDup].
        intros E0. assert (Hk : In rel0 (map fst (gput rel0 tt files))) by (apply gput_keys; auto). now rewrite E0 in Hk.
      * rewrite gget_gput_neq in Hf by assumption. now apply (G2 id).
Qed.
Lemma entries_ok ord dir fs m : reorders ord -> (forall f, In f fs -> f_lint_id f <> "" /\ f_filename f <> "") ->
  id_to_files dir [] fs = Ok m -> entries_of dir fs (ignore_entries ord m).
Proof.
  intros Ho H E. destruct (id_to_files_ok dir fs H [] m) as [[G1 G2] G3]; [split; [constructor|discriminate]|assumption|].
  unfold ignore_entries. split; [|split].
  - rewrite map_map. cbn [ei_id]. rewrite map_id. apply increasing_sort. eapply Permutation_NoDup; [apply Ho|assumption].
  - intros i Hi. apply in_map_iff in Hi as (id & <- & Hi). cbn [ei_files].
    rewrite sort_strings_In in Hi. apply (Permutation_in _ (Permutation_sym (Ho _ _ _))) in Hi.
    apply gget_Some_key in Hi as [files Hf]. rewrite Hf. destruct (G2 id files Hf) as [Ne Nd]. split.
    + intros E0. apply Ne. destruct files as [|[k u] files]; [reflexivity|]. exfalso.
      enough (X : In k []) by destruct X. rewrite <- E0, sort_strings_In. eapply Permutation_in; [apply Ho|]. now left.
    + apply increasing_sort. eapply Permutation_NoDup; [apply Ho|assumption].
  - intros id rel.
    assert (X : (exists f, In f fs /\ f_lint_id f = id /\ path_rel dir (f_filename f) = Ok rel) <-> entry m id rel).
    { rewrite G3. split; [auto|]. intros [(x & Hx & _)|D]; [discriminate Hx|assumption]. }
    rewrite X. unfold entry. split.
    + intros (i & Hi & Ei & Hr). apply in_map_iff in Hi as (id' & <- & Hi). cbn [ei_id ei_files] in *. subst id'.
      rewrite sort_strings_In in Hr. apply (Permutation_in _ (Permutation_sym (Ho _ _ _))) in Hr.
      destruct (gget id m) as [files|]; [eauto|destruct Hr].
    + intros (files & Hf & Hr). eexists. split.
      * apply in_map_iff. exists id. split; [reflexivity|]. rewrite sort_strings_In. eapply Permutation_in; [apply Ho|].
        apply gget_Some_key. eauto.
      * cbn [ei_id ei_files]. split; [reflexivity|]. rewrite sort_strings_In, Hf. eapply Permutation_in; [apply Ho|assumption].
Qed.

(** ** Silence *)
Section Silence.
  Variables (cwd : string) (read : string -> result (list element * string)) (sing : string -> string).
  Variables (ps ps0 ps1 : proto_set) (m : list (string * list string)) (is : list ext_ignore) (fs : list failure).
  Let dir := cfg_dir (ps_config ps).
  Hypothesis keys : NoDup (map fst (ps_files ps)).
  Hypothesis cwd_ok : clean_abs cwd.
  Hypothesis dir_ok : clean_abs dir.
  Hypothesis files_ok : forall d files f, In (d, files) (ps_files ps) -> has_prefix d (ps_dir ps) = true -> In f files -> listed cwd dir f.
  Hypothesis I0 : ignoring [] ps ps0.
  Hypothesis I1 : ignoring m ps ps1.
  Hypothesis M : Settings_Spec.ignores_of dir is m.
  Hypothesis E : entries_of dir fs is.
  Let go ps absolute := lint_run same_order cwd read (all_linters same_order sing) (default_linters same_order) (group_to_linters same_order) ps absolute.
  Hypothesis R0 : go ps0 true = Ok (map Some fs).
  Lemma same_reorders : reorders same_order.
  Proof. intros k A l. apply Permutation_refl. Qed.

  Lemma ignored_file l f : In l (all_linters same_order sing) -> In f fs -> f_lint_id f = ln_id l -> clean_abs (f_filename f) ->
    exists paths, gget (ln_id l) m = Some paths /\ In (f_filename f) paths.
  Proof.
    intros Hl Hf El (fc & Ofc & Ef). destruct dir_ok as (dc & Odc & Ed).
    destruct (path_rel dir (f_filename f)) as [rel|e] eqn:Er.
    2:{ rewrite Ed, Ef, path_rel_abs in Er by assumption. destruct (list_eq_dec _ _ _); discriminate. }
    destruct E as (_ & _ & E3). destruct (proj2 (E3 (f_lint_id f) rel)) as (i & Hi & Ei & Hr); [exists f; auto|].
    destruct M as [_ M2].
    assert (Up : to_upper (ln_id l) = ln_id l).
    { assert (F : Forall (fun l => to_upper (ln_id l) = ln_id l) (all_linters same_order sing)).
      { table ltac:(apply to_upper_idem). }
      rewrite Forall_forall in F. now apply F. }
    assert (Hin : In (f_filename f) (files_for dir (ln_id l) is)).
    { unfold files_for. apply in_concat. eexists. split.
      - apply in_map_iff. exists i. split; [reflexivity|]. apply filter_In. split; [assumption|]. apply String.eqb_eq. now rewrite Ei, El.
      - apply in_map_iff. exists rel. split; [|assumption]. rewrite <- resolve_against by (exists dc; auto). unfold resolve.
        assert (A : is_abs rel = false).
        { rewrite Ed, Ef, path_rel_abs in Er by assumption. destruct (list_eq_dec _ _ _) as [_|Ne]; injection Er as <-; [reflexivity|].
          destruct (strip_common_spec dc fc) as (c & H1 & H2).
          destruct (strip_common dc fc) as [rb rt]. cbn [fst snd] in *. destruct rb as [|x rb]; [|change (dotdots (x :: rb) ++ rt) with (".." :: (dotdots rb ++ rt)); destruct (dotdots rb ++ rt); reflexivity].
          cbn [dotdots map app]. destruct rt as [|y rt]; [reflexivity|]. rewrite H2 in Ofc. apply ok_comps_app in Ofc as [_ Ofc].
          inversion Ofc as [|? ? Oy _]; subst. apply ok_comp_inv in Oy as (N1 & _ & _ & N2).
          destruct y as [|a y]; [contradiction|]. unfold no_char in N2. simpl in N2. apply andb_true_iff in N2 as [N2 _].
          apply negb_true_iff in N2. destruct rt; cbn [join append]; unfold is_abs; cbn [has_prefix]; change "/"%char with slash; rewrite Ascii.eqb_sym in N2; rewrite N2; reflexivity. }
        rewrite A, Ed, Ef. rewrite (path_join_rel dc fc rel) by (assumption || (rewrite <- Ed, <- Ef; exact Er)).
        now apply clean_abs_path. }
    exists (files_for dir (ln_id l) is). split; [|assumption].
    assert (Him : In (ln_id l, files_for dir (ln_id l) is) m).
    { apply M2. split; [|reflexivity]. intros E0. now rewrite E0 in Hin. }
    destruct (gget (ln_id l) m) as [v|] eqn:Eg.
    - apply gget_In in Eg. apply M2 in Eg as [_ ->]. reflexivity.
    - apply gget_None in Eg. exfalso. apply Eg. apply in_map_iff. now exists (ln_id l, files_for dir (ln_id l) is).
  Qed.
  Lemma hidden d l f : In l (all_linters same_order sing) -> In f fs -> f_lint_id f = ln_id l -> clean_abs (f_filename f) ->
    absolute_name cwd (d_filename d) = f_filename f -> cfg_dir (ps_config (d_set d)) = dir ->
    f_filename f <> dir -> f_filename f <> "/" -> should_ignore cwd l d m = true.
  Proof.
    intros Hl Hf El C A Ec N1 N2. destruct (ignored_file l f Hl Hf El C) as (paths & Eg & Hp).
    unfold should_ignore. fold (absolute_name cwd (d_filename d)). rewrite Eg, A, Ec. unfold is_excluded. apply existsb_exists.
    exists (f_filename f). split; [assumption|]. cbn [excluded_walk].
    apply String.eqb_neq in N1, N2. rewrite N1, N2, seqb_refl. reflexivity.
  Qed.
  Lemma same_selection id : selected (cfg_lint (ps_config ps1)) id <-> selected (cfg_lint (ps_config ps0)) id.
  Proof.
    unfold selected, base_rule. rewrite (ig_group _ _ _ I0), (ig_group _ _ _ I1), (ig_default _ _ _ I0), (ig_default _ _ _ I1),
      (ig_include _ _ _ I0), (ig_include _ _ _ I1), (ig_exclude _ _ _ I0), (ig_exclude _ _ _ I1). reflexivity.
  Qed.
  Lemma shown_absolute f : listed cwd dir f -> absolute_name cwd (pf_display f) = pf_path f.
  Proof.
    intros (_ & _ & _ & (A & _ & B) & _). unfold absolute_name, path_abs. rewrite A. rewrite join_against by assumption. exact B.
  Qed.
  Lemma silent : go ps1 false = Ok [].
  Proof.
    assert (K0 : NoDup (map fst (ps_files ps0))) by (rewrite (ig_files _ _ _ I0); exact keys).
    assert (K1 : NoDup (map fst (ps_files ps1))) by (rewrite (ig_files _ _ _ I1); exact keys).
    pose proof (run_exact same_order sing cwd read ps0 true same_reorders K0) as X0. fold (go ps0 true) in X0. rewrite R0 in X0.
    destruct X0 as (fs' & Efs & Kn & _ & X0). apply map_Some_inj in Efs as <-.
    (* Every rule ran on every directory. *)
    assert (Ran : forall d files l, In (d, files) (ps_files ps) -> has_prefix d (ps_dir ps) = true -> In l (all_linters same_order sing) ->
      selected (cfg_lint (ps_config ps0)) (ln_id l) ->
      exists ds gs, mapM (read_descriptor read ps0 true) files = Ok ds /\ linter_check l ds = Ok gs /\ incl gs fs).
    { intros d files l Hin Hp Hl Sl. unfold go, lint_run in R0.
      pose proof (selection same_order sing same_reorders (cfg_lint (ps_config ps0))) as S.
      destruct (get_linters _ _ _ _ _) as [ls|]; cbn [bind] in R0; [|discriminate]. destruct S as (_ & _ & I & S).
      rewrite (dirs_eq read same_order ps0 true same_reorders K0) in R0. destruct (mapM _ _) as [dirs|] eqn:Ed; cbn [bind] in R0; [|discriminate].
      apply mapM_Forall2 in Ed.
      assert (W : In (d, files) (filter (wanted ps0) (same_order "GetDirPathToDescriptors" _ (ps_files ps0)))).
      { apply filter_In. split; [unfold same_order; rewrite (ig_files _ _ _ I0); exact Hin|]. unfold wanted. cbn [fst]. rewrite (ig_dir _ _ _ I0). exact Hp. }
      assert (Y : exists y, In y dirs /\ read_dir read ps0 true (d, files) = Ok y).
      { clear -Ed W. induction Ed as [|a b la lb Hab F IH]; [destruct W|]. destruct W as [->|W]; [exists b; simpl; auto|].
        destruct (IH W) as (y & ? & ?). exists y. simpl. auto. }
      destruct Y as (y & Hy & Ey). unfold read_dir in Ey. cbn [fst snd] in Ey.
      destruct (mapM (read_descriptor read ps0 true) files) as [ds|] eqn:Em; cbn [bind] in Ey; [|discriminate]. injection Ey as <-.
      exists ds. unfold check_multiple in R0. destruct (concatM _ _) as [all|] eqn:Ea; cbn [bind] in R0; [|discriminate].
      apply concatM_Ok in Ea as [Ea _]. destruct (Ea (d, ds) Hy) as [a Ela]. cbn [snd] in Ela.
      apply concatM_Ok in Ela as [Ela _]. apply S, in_map_iff in Sl as (l' & El & Hl').
      rewrite (unique_linter same_order sing l' l (I l' Hl') Hl El) in Hl'. destruct (Ela l Hl') as [gs Eg]. exists gs.
      split; [reflexivity|]. unfold check_one in Eg. rewrite (ig_ignores _ _ _ I0) in Eg.
      rewrite filter_nil_ignores in Eg. split; [exact Eg|].
      intros f Hf. apply X0. exists d, files, ds, l, gs. rewrite (ig_files _ _ _ I0), (ig_dir _ _ _ I0).
      split; [exact Hin|]. split; [exact Hp|]. split; [exact Em|]. split; [exact Hl|]. split; [apply S, in_map; exact Hl'|].
      split; [|exact Hf]. unfold check_one. rewrite (ig_ignores _ _ _ I0), filter_nil_ignores. exact Eg. }
    assert (Reads : forall d files, In (d, files) (ps_files ps) -> has_prefix d (ps_dir ps) = true ->
      exists ds, mapM (read_descriptor read ps0 true) files = Ok ds).
    { intros d files Hin Hp. unfold go, lint_run in R0.
      destruct (get_linters _ _ _ _ _) as [ls|]; cbn [bind] in R0; [|discriminate].
      rewrite (dirs_eq read same_order ps0 true same_reorders K0) in R0. destruct (mapM _ _) as [dirs|] eqn:Ed; cbn [bind] in R0; [|discriminate].
      apply mapM_Forall2 in Ed.
      assert (W : In (d, files) (filter (wanted ps0) (same_order "GetDirPathToDescriptors" _ (ps_files ps0)))).
      { apply filter_In. split; [unfold same_order; rewrite (ig_files _ _ _ I0); exact Hin|]. unfold wanted. cbn [fst]. rewrite (ig_dir _ _ _ I0). exact Hp. }
      assert (Y : exists y, read_dir read ps0 true (d, files) = Ok y).
      { clear -Ed W. induction Ed as [|a b la lb Hab F IH]; [destruct W|]. destruct W as [->|W]; eauto. }
      destruct Y as (y & Ey). unfold read_dir in Ey. cbn [fst snd] in Ey.
      destruct (mapM (read_descriptor read ps0 true) files) as [ds|]; cbn [bind] in Ey; [eauto|discriminate]. }
    assert (Quiet : forall d files ds' l, In (d, files) (ps_files ps) -> has_prefix d (ps_dir ps) = true ->
      mapM (read_descriptor read ps1 false) files = Ok ds' -> In l (all_linters same_order sing) ->
      selected (cfg_lint (ps_config ps0)) (ln_id l) -> check_one cwd l ds' m = Ok []).
    { intros d files ds' l Hin Hp Eds' Hl Sl. destruct (Ran d files l Hin Hp Hl Sl) as (ds & gs & Eds & Eg & Sub).
      unfold check_one. apply (stays_quiet sing l ds gs); [assumption|assumption|].
      intros d' Hd'. unfold filter_ignores in Hd'. apply filter_In in Hd' as [Hd' Nig]. apply negb_true_iff in Nig.
      apply mapM_Forall2 in Eds, Eds'.
      assert (Y : exists file d0, In file files /\ In d0 ds /\ read_descriptor read ps0 true file = Ok d0 /\ read_descriptor read ps1 false file = Ok d').
      { clear -Eds Eds' Hd'. revert ds' Eds' Hd'. induction Eds as [|a b la lb Hab F IH]; intros ds' F' Hd'; inversion F' as [|? b' ? lb' Hab' F'']; subst; [destruct Hd'|].
        destruct Hd' as [->|Hd']; [exists a, b; simpl; auto|]. destruct (IH lb' F'' Hd') as (file & d0 & ? & ? & ? & ?). exists file, d0. simpl. auto. }
      destruct Y as (file & d0 & Hfile & Hd0 & E0 & E1). exists d0. split; [assumption|].
      pose proof (files_ok d files file Hin Hp Hfile) as L. pose proof (shown_absolute file L) as An. destruct L as (Lc & Ln & Lr & Ls & Lb).
      unfold read_descriptor in E0, E1. destruct (read (pf_path file)) as [x|]; cbn [bind] in E0, E1; [|discriminate].
      apply ok_inj in E0, E1. subst d0 d'. split.
      - unfold alike. cbn [d_elements d_data d_filename d_set].
        rewrite (ig_header _ _ _ I0), (ig_header _ _ _ I1), (ig_prefix _ _ _ I0), (ig_prefix _ _ _ I1), (ig_suppress _ _ _ I0), (ig_suppress _ _ _ I1).
        repeat (split; [reflexivity|]). split; [exact Lb|]. split; [destruct Lc as (cs & _ & ->); discriminate|]. split; [|auto].
        intros Ee. destruct Ls as (_ & Lk & _). rewrite Ee in Lk. discriminate Lk.
      - intros f Hf Ef. cbn [d_filename] in Ef.
        destruct (linter_check_covers same_order sing l ds gs f Hl Eg Hf) as (Ei & _).
        enough (X : should_ignore cwd l (mk_descriptor (pf_display file) (fst x) ps1 (snd x)) m = true) by congruence.
        apply (hidden _ l f); auto; rewrite ?Ef; auto. cbn [d_set]. apply (ig_config _ _ _ I1). }
    pose proof (run_exact same_order sing cwd read ps1 false same_reorders K1) as X1. fold (go ps1 false) in X1.
    destruct (go ps1 false) as [r|e] eqn:Er.
    - destruct X1 as (fs1 & -> & _ & _ & X1). rewrite (no_members fs1); [reflexivity|]. intros f Hf.
      apply X1 in Hf as (d & files & ds & l & gs & H1 & H2 & H3 & H4 & H5 & H6 & H7).
      rewrite (ig_files _ _ _ I1) in H1. rewrite (ig_dir _ _ _ I1) in H2. rewrite (ig_ignores _ _ _ I1) in H6. apply same_selection in H5.
      rewrite (Quiet d files ds l H1 H2 H3 H4 H5) in H6. injection H6 as <-. destruct H7.
    - exfalso. destruct X1 as [X1|(d & files & H1 & H2 & X1)].
      + apply X1. destruct Kn as [Kg Ki]. split; [now rewrite (ig_group _ _ _ I1), <- (ig_group _ _ _ I0)|]. intros id.
        rewrite (ig_include _ _ _ I1), (ig_exclude _ _ _ I1), (ig_ignores _ _ _ I1). intros [H|[H|H]].
        * apply Ki. left. now rewrite (ig_include _ _ _ I0).
        * apply Ki. right. left. now rewrite (ig_exclude _ _ _ I0).
        * apply in_map_iff in H as ([k files] & Ek & H). cbn [fst] in Ek. subst k. destruct M as [_ M2]. apply M2 in H as [Hne ->].
          destruct (files_for dir id is) as [|p r] eqn:Ef; [easy|].
          assert (Hp : In p (files_for dir id is)) by (rewrite Ef; now left). unfold files_for in Hp.
          apply in_concat in Hp as (ps' & Hps & Hp). apply in_map_iff in Hps as (i & <- & Hi). apply filter_In in Hi as [Hi Ei].
          apply String.eqb_eq in Ei. apply in_map_iff in Hp as (rel & _ & Hr). destruct E as (_ & _ & E3).
          destruct (proj1 (E3 (ei_id i) rel)) as (f & Hf & Eid & _); [eauto|]. apply X0 in Hf as (d & files & ds & l & gs & _ & _ & _ & Hl & _ & Eg & Hg).
          unfold check_one in Eg. destruct (linter_check_covers same_order sing l _ gs f Hl Eg Hg) as (El & _).
          apply (documented_iff same_order sing). apply in_map_iff. exists l. split; [|assumption].
          rewrite <- Ei, <- Eid, El. symmetry.
          assert (F : Forall (fun l => to_upper (ln_id l) = ln_id l) (all_linters same_order sing)).
          { table ltac:(apply to_upper_idem). }
          rewrite Forall_forall in F. now apply F.
      + rewrite (ig_files _ _ _ I1) in H1. rewrite (ig_dir _ _ _ I1) in H2. destruct X1 as [(file & e' & Hf & Ee)|(ds & l & e' & H3 & H4 & H5 & H6)].
        * (* the file was read in the first run *)
          destruct (Reads d files H1 H2) as (ds & Eds). apply mapM_Forall2 in Eds.
          clear -Eds Hf Ee. induction Eds as [|a b la lb Hab F IH]; [destruct Hf|]. destruct Hf as [->|Hf]; [|auto].
          unfold read_descriptor in Hab. rewrite Ee in Hab. discriminate Hab.
        * apply same_selection in H5. rewrite (ig_ignores _ _ _ I1) in H6. rewrite (Quiet d files ds l H1 H2 H3 H4 H5) in H6. discriminate.
  Qed.
End Silence.

(** ** generate-ignores *)
Lemma somes (fs : list failure) : concat (map (fun o : option failure => match o with Some f => [f] | None => [] end) (map Some fs)) = fs.
Proof. induction fs; simpl; congruence. Qed.
Lemma ignoring_with m ps : ignoring m ps (with_ignores m ps).
Proof. constructor; reflexivity. Qed.
Lemma run_lint_order o1 o2 cwd parse sing disk ps absolute fs : reorders o1 -> reorders o2 -> NoDup (map fst (ps_files ps)) ->
  run_lint o1 cwd parse sing disk ps absolute = Ok fs ->
  lint_run o2 cwd (read_proto parse disk) (all_linters o2 sing) (default_linters o2) (group_to_linters o2) ps absolute = Ok (map Some fs).
Proof.
  intros H1 H2 N E. unfold run_lint in E.
  pose proof (run_deterministic cwd (read_proto parse disk) sing o1 o2 ps absolute H1 H2 N) as Dt.
  pose proof (run_exact o1 sing cwd (read_proto parse disk) ps absolute H1 N) as X.
  destruct (lint_run o1 _ _ _ _ _ _ _) as [r|]; cbn [bind] in E; [|discriminate].
  destruct X as (fs' & -> & _). rewrite somes in E. apply ok_inj in E as ->.
  destruct (lint_run o2 _ _ _ _ _ _ _); [now subst|contradiction].
Qed.
Lemma run_named ord cwd parse sing disk ps fs f : reorders ord -> NoDup (map fst (ps_files ps)) ->
  (forall d files f, In (d, files) (ps_files ps) -> has_prefix d (ps_dir ps) = true -> In f files -> pf_path f <> "") ->
  run_lint ord cwd parse sing disk ps true = Ok fs -> In f fs -> f_lint_id f <> "" /\ f_filename f <> "".
Proof.
  intros Ho N Hp E Hf. apply (run_lint_order ord ord) in E; auto. split.
  - pose proof (run_exact ord sing cwd (read_proto parse disk) ps true Ho N) as X. rewrite E in X.
    destruct X as (fs' & Ef & _ & _ & X). apply map_Some_inj in Ef as <-. apply X in Hf as (d & files & ds & l & gs & _ & _ & _ & Hl & _ & Eg & Hg).
    unfold check_one in Eg. destruct (linter_check_covers ord sing l _ gs f Hl Eg Hg) as (-> & _).
    assert (F : Forall (fun l => ln_id l <> "") (all_linters ord sing)) by (table ltac:(discriminate)).
    rewrite Forall_forall in F. now apply F.
  - destruct (run_directory ord sing cwd (read_proto parse disk) ps true fs f Ho N E Hf) as (d & files & file & H1 & H2 & H3 & ->).
    now apply (Hp d files).
Qed.
Theorem ignores_silence ord ord' cwd parse sing marshal ps single s s' :
  reorders ord -> reorders ord' -> NoDup (map fst (ps_files ps)) -> clean_abs cwd -> clean_abs (cfg_dir (ps_config ps)) ->
  (forall d files f, In (d, files) (ps_files ps) -> has_prefix d (ps_dir ps) = true -> In f files -> listed cwd (cfg_dir (ps_config ps)) f) ->
  generate_ignores ord cwd parse sing marshal (mk_meta ps single) s = (s', Value tt) ->
  exists ps0 fs is text,
    ignoring [] ps ps0 /\ run_lint ord cwd parse sing (io_disk s) ps0 true = Ok fs /\
    entries_of (cfg_dir (ps_config ps)) fs is /\
    (fs = [] /\ text = "" \/ fs <> [] /\ exists data, marshal is = Ok data /\ text = trim_space data) /\
    s' = mk_io (io_disk s) (io_done s ++ says (if String.eqb text "" then "" else text +++ String newline "")) /\
    forall m ps1, Settings_Spec.ignores_of (cfg_dir (ps_config ps)) is m -> ignoring m ps ps1 ->
      run_lint ord' cwd parse sing (io_disk s) ps1 false = Ok [].
Proof.
  intros Ho Ho' N Hc Hd Hf G. unfold generate_ignores in G. cbn [m_set] in G. unfold and_then at 1 in G.
  exists (with_ignores [] ps).
  destruct (run_lint ord cwd parse sing (io_disk s) (with_ignores [] ps) true) as [fs|] eqn:E; cbn [check] in G; [|discriminate].
  unfold ret at 1 in G. exists fs.
  assert (Sil : forall is, entries_of (cfg_dir (ps_config ps)) fs is -> forall m ps1, Settings_Spec.ignores_of (cfg_dir (ps_config ps)) is m -> ignoring m ps ps1 ->
      run_lint ord' cwd parse sing (io_disk s) ps1 false = Ok []).
  { intros is He m ps1 Hm I1.
    assert (K1 : NoDup (map fst (ps_files ps1))) by (rewrite (ig_files _ _ _ I1); exact N).
    assert (Q : run_lint same_order cwd parse sing (io_disk s) ps1 false = Ok []).
    { unfold run_lint. rewrite (silent cwd (read_proto parse (io_disk s)) sing ps (with_ignores [] ps) ps1 m is fs); auto.
      - apply ignoring_with.
      - apply (run_lint_order ord); auto. apply same_reorders. }
    apply (run_lint_order same_order ord') in Q; auto using same_reorders. unfold run_lint. rewrite Q. reflexivity. }
  destruct fs as [|f fs].
  - injection G as <-. exists [], "". split; [apply ignoring_with|]. split; [reflexivity|].
    assert (He : entries_of (cfg_dir (ps_config ps)) [] []).
    { split; [constructor|]. split; [easy|]. intros id rel. split; [intros (i & [] & _)|intros (f & [] & _)]. }
    split; [exact He|]. split; [auto|]. split; [|now apply Sil]. cbn. rewrite app_nil_r. now destruct s.
  - unfold and_then in G. destruct (id_to_files _ [] (f :: fs)) as [ids|] eqn:Ei; cbn [check] in G; [|discriminate].
    unfold ret at 1 in G. destruct (marshal (ignore_entries ord ids)) as [data|] eqn:Em; cbn [check] in G; [|discriminate].
    unfold ret in G. rewrite println_adds in G. injection G as <-.
    exists (ignore_entries ord ids), (trim_space data). split; [apply ignoring_with|]. split; [reflexivity|].
    assert (He : entries_of (cfg_dir (ps_config ps)) (f :: fs) (ignore_entries ord ids)).
    { apply entries_ok; [assumption| |exact Ei]. intros g Hg. apply (run_named ord cwd parse sing (io_disk s) (with_ignores [] ps) (f :: fs)); auto.
      intros d files x Hx Hy Hx'. destruct (Hf d files x Hx Hy Hx') as ((cs & _ & ->) & _). discriminate. }
    split; [exact He|]. split; [right; split; [discriminate|eauto]|]. split; [|now apply Sil].
    unfold adds. f_equal. f_equal. unfold says. destruct (trim_space data) as [|a d]; reflexivity.
Qed.

(** ** Listings *)
Lemma length_app a b : String.length (a +++ b) = String.length a + String.length b.
Proof. induction a as [|c a IH]; [reflexivity|]. cbn. now rewrite IH. Qed.
Lemma max_in l : l <> [] -> In (list_max l) l.
Proof.
  induction l as [|x l IH]; [easy|]. intros _. cbn [list_max fold_right]. fold (list_max l). destruct l as [|y l]; [left; cbn; lia|].
  destruct (Nat.max_dec x (list_max (y :: l))) as [ -> | -> ]; [now left|right; apply IH; discriminate].
Qed.
Lemma max_le l x : In x l -> x <= list_max l.
Proof.
  induction l as [|y l IH]; [easy|]. cbn [list_max fold_right]. fold (list_max l). intros [->|H]; [lia|]. apply IH in H. lia.
Qed.
Lemma print_table ord sing purpose c ls P s : good_list ord sing ls P ->
  exists text, table_of (purpose c) P text /\ print_linters purpose c ls s = (mk_io (io_disk s) (io_done s ++ says text), Value tt).
Proof.
  intros (N & _ & HP). unfold print_linters. set (sorted := isort _ ls).
  set (ids := map ln_id sorted). set (width := 2 + list_max (map String.length ids)).
  exists (join "" (map (fun id => id +++ srepeat " " (width - String.length id) +++ purpose c id +++ String newline "") ids)). split.
  - exists ids, width. split; [now apply increasing_by|]. split; [|split; [|split; [|reflexivity]]].
    + intros id. rewrite <- HP. unfold ids, sorted. split; apply Permutation_in; [apply Permutation_sym|]; apply Permutation_map, isort_perm.
    + intros id Hid. unfold width. pose proof (max_le (map String.length ids) (String.length id) (in_map _ _ _ Hid)). lia.
    + intros Hne. assert (Hm : In (list_max (map String.length ids)) (map String.length ids)).
      { apply max_in. destruct ids; [easy|discriminate]. }
      apply in_map_iff in Hm as (id & Em & Hid). exists id. split; [assumption|]. unfold width. lia.
  - assert (W : 2 + list_max (map (fun l => String.length (ln_id l)) sorted) = width) by (unfold width, ids; now rewrite map_map).
    rewrite W. assert (T : map (fun l => pad width (ln_id l) +++ purpose c (ln_id l) +++ String newline "") sorted
      = map (fun id => id +++ srepeat " " (width - String.length id) +++ purpose c id +++ String newline "") ids).
    { unfold ids. rewrite map_map. apply map_ext. intros l. unfold pad. now rewrite sapp_assoc. }
    rewrite T. unfold ids. destruct sorted as [|l r].
    + cbn. rewrite app_nil_r. now destruct s.
    + unfold print, emit, says. f_equal. f_equal. f_equal.
      match goal with |- context [String.eqb ?x ""] => destruct (String.eqb_spec x "") as [Ex|_]; [exfalso|reflexivity] end.
      apply (f_equal String.length) in Ex. cbn [map] in Ex. change (join "" (?x :: ?l)) with (join "" ([x] ++ l)) in Ex.
      rewrite join_empty_app in Ex. cbn [join] in Ex. rewrite !length_app in Ex. cbn in Ex. lia.
Qed.

Lemma id_to_files_total dir fs : clean_abs dir -> (forall f, In f fs -> clean_abs (f_filename f)) -> forall m, exists r, id_to_files dir m fs = Ok r.
Proof.
  intros (dc & Od & ->) H. induction fs as [|f fs IH]; intros m; [eexists; reflexivity|]. cbn [id_to_files].
  destruct (H f (or_introl eq_refl)) as (fc & Of & Ef). assert (IH' : forall m, exists r, id_to_files (abs_path dc) m fs = Ok r) by (apply IH; intros; apply H; now right).
  destruct (_ && _); [|apply IH']. destruct (path_rel (abs_path dc) (f_filename f)) as [rel|e] eqn:Er; cbn [bind]; [apply IH'|].
  rewrite Ef, path_rel_abs in Er by assumption. destruct (list_eq_dec _ _ _); discriminate.
Qed.
(** Nothing but lint itself and the marshalling can fail. *)
Theorem ignores_succeed ord cwd parse sing marshal ps single s :
  reorders ord -> NoDup (map fst (ps_files ps)) -> clean_abs (cfg_dir (ps_config ps)) ->
  (forall d files f, In (d, files) (ps_files ps) -> In f files -> clean_abs (pf_path f)) ->
  (forall ps0, ignoring [] ps ps0 -> exists fs, run_lint ord cwd parse sing (io_disk s) ps0 true = Ok fs) ->
  (forall is, exists data, marshal is = Ok data) ->
  exists s', generate_ignores ord cwd parse sing marshal (mk_meta ps single) s = (s', Value tt).
Proof.
  intros Ho N Hd Hf R Hm. destruct (R _ (ignoring_with [] ps)) as (fs & E). unfold generate_ignores. cbn [m_set]. unfold and_then at 1.
  rewrite E. cbn [check]. unfold ret at 1. destruct fs as [|f fs]; [eexists; reflexivity|].
  destruct (id_to_files_total (cfg_dir (ps_config (with_ignores [] ps))) (f :: fs) Hd) with (m := @nil (string * list (string * unit))) as (ids & Ei).
  { intros g Hg. pose proof (run_lint_order ord ord cwd parse sing (io_disk s) (with_ignores [] ps) true (f :: fs) Ho Ho N E) as E'.
    destruct (run_directory ord sing cwd (read_proto parse (io_disk s)) (with_ignores [] ps) true (f :: fs) g Ho N E' Hg) as (d & files & file & H1 & H2 & _ & ->).
    exact (Hf d files file H1 H2). }
  unfold and_then. rewrite Ei. cbn [check]. unfold ret at 1. destruct (Hm (ignore_entries ord ids)) as (data & ->). cbn [check]. unfold ret.
  rewrite println_adds. eexists. reflexivity.
Qed.

(** ** Flags *)
Lemma one_set flags : 0 < length (filter (fun b => b) flags) <-> exists i, nth i flags false = true.
Proof.
  induction flags as [|b flags IH].
  - split; [cbn; lia|]. intros ([|i] & H); discriminate H.
  - destruct b; cbn [filter length].
    + split; [|lia]. intros _. now exists 0.
    + rewrite IH. split; [intros (i & H); now exists (S i)|]. intros ([|i] & H); [discriminate H|now exists i].
Qed.
Lemma more_than_one_iff flags : more_than_one_set flags = true <-> two_set flags.
Proof.
  unfold more_than_one_set, two_set. rewrite Nat.ltb_lt. induction flags as [|b flags IH].
  - split; [cbn; lia|]. intros ([|i] & j & _ & H & _); discriminate H.
  - destruct b; cbn [filter length].
    + rewrite <- Nat.succ_lt_mono, one_set. split.
      * intros (i & H). exists 0, (S i). repeat split; [discriminate|exact H].
      * intros ([|i] & [|j] & N & H1 & H2); [now destruct N|now exists j|now exists i|now exists i].
    + rewrite IH. split.
      * intros (i & j & N & H1 & H2). exists (S i), (S j). repeat split; [congruence|exact H1|exact H2].
      * intros ([|i] & [|j] & N & H1 & H2); try discriminate. exists i, j. repeat split; [congruence|exact H1|exact H2].
Qed.
