(** What lint finds in a file does not depend on the files of other directories. *)
From Verif Require Import Exec_Spec LintRun_Spec GoStrFacts GoMapFacts Lint_RuleFacts Lint_Table LintRun_Proofs LintRun_Proofs2 Text_Proofs Select_Proofs.
From Coq Require Import Lia Permutation.

Definition name_of (absolute : bool) (f : proto_file) : string := if absolute then pf_path f else pf_display f.

Lemma filter_none {A} (b : A -> bool) l : (forall x, In x l -> b x = false) -> filter b l = [].
Proof. induction l as [|x l IH]; intros H; [reflexivity|]. cbn [filter]. rewrite (H x (or_introl eq_refl)). apply IH. intros y Hy. apply H. now right. Qed.
Lemma concatM_none {A B} (f : A -> result (list B)) (b : B -> bool) l r :
  (forall y c z, In y l -> f y = Ok c -> In z c -> b z = false) -> concatM f l = Ok r -> filter b r = [].
Proof. intros H E. apply filter_none. intros z Hz. apply concatM_Ok in E as [_ E]. apply E in Hz as (y & c & Hy & Ec & Hz). exact (H y c z Hy Ec Hz). Qed.
Lemma concatM_split {A B} (f : A -> result (list B)) l l' r : concatM f (l ++ l') = Ok r ->
  exists a b, concatM f l = Ok a /\ concatM f l' = Ok b /\ r = a ++ b.
Proof.
  revert r. induction l as [|x l IH]; intros r E; [exists [], r; auto|]. cbn [app] in E. rewrite concatM_cons in E |- *.
  destruct (f x) as [c|]; cbn [bind] in *; [|discriminate]. destruct (concatM f (l ++ l')) as [d|]; cbn [bind] in E; [|discriminate]. injection E as <-.
  destruct (IH d eq_refl) as (a & b & -> & Eb & ->). exists (c ++ a), b. cbn [bind]. rewrite app_assoc. auto.
Qed.
Lemma concatM_single {A B} (f : A -> result (list B)) (b : B -> bool) l1 x l2 r :
  (forall y c z, In y (l1 ++ l2) -> f y = Ok c -> In z c -> b z = false) -> concatM f (l1 ++ x :: l2) = Ok r ->
  exists c, f x = Ok c /\ filter b r = filter b c.
Proof.
  intros H E. apply concatM_split in E as (a & d & Ea & Ed & ->). rewrite concatM_cons in Ed.
  destruct (f x) as [c|]; cbn [bind] in Ed; [|discriminate]. destruct (concatM f l2) as [e|] eqn:Ee; cbn [bind] in Ed; [|discriminate]. injection Ed as <-.
  exists c. split; [reflexivity|]. rewrite !filter_app.
  rewrite (concatM_none f b l1 a), (concatM_none f b l2 e), app_nil_r; auto; intros y k z Hy; apply H, in_app_iff; auto.
Qed.
Lemma concatM_filter2 {A B} (f g : A -> result (list B)) b l r :
  (forall x a, In x l -> f x = Ok a -> exists a', g x = Ok a' /\ filter b a = filter b a') -> concatM f l = Ok r ->
  exists r', concatM g l = Ok r' /\ filter b r = filter b r'.
Proof.
  intros H. revert r. induction l as [|x l IH]; intros r E; [injection E as <-; now exists []|].
  rewrite concatM_cons in E |- *. destruct (f x) as [a|] eqn:Ea; cbn [bind] in E; [|discriminate].
  destruct (concatM f l) as [c|] eqn:Ec; cbn [bind] in E; [|discriminate]. injection E as <-.
  destruct (H x a (or_introl eq_refl) Ea) as (a' & -> & Q). destruct (IH (fun x a Hx => H x a (or_intror Hx)) c eq_refl) as (c' & -> & Q').
  cbn [bind]. exists (a' ++ c'). split; [reflexivity|]. now rewrite !filter_app, Q, Q'.
Qed.
Lemma concatM_agree {A B} (f g : A -> result (list B)) l r r' :
  (forall x a a', In x l -> f x = Ok a -> g x = Ok a' -> a = a') -> concatM f l = Ok r -> concatM g l = Ok r' -> r = r'.
Proof.
  intros H. revert r r'. induction l as [|x l IH]; intros r r' E E'; [cbn in *; congruence|].
  rewrite concatM_cons in E, E'. destruct (f x) as [a|] eqn:Ea; cbn [bind] in E; [|discriminate]. destruct (g x) as [a'|] eqn:Ea'; cbn [bind] in E'; [|discriminate].
  destruct (concatM f l) as [c|] eqn:Ec; cbn [bind] in E; [|discriminate]. destruct (concatM g l) as [c'|] eqn:Ec'; cbn [bind] in E'; [|discriminate].
  injection E as <-. injection E' as <-. f_equal; [apply (H x); auto; now left|]. apply IH; auto. intros y b b' Hy. apply H. now right.
Qed.

Lemma nodup_r {A} (l l' : list A) : NoDup (l ++ l') -> NoDup l'.
Proof. induction l as [|x l IH]; intros N; [exact N|]. inversion N; auto. Qed.
Lemma nodup_l {A} (l l' : list A) : NoDup (l ++ l') -> NoDup l.
Proof. induction l as [|x l IH]; intros N; [constructor|]. inversion N as [|? ? Na Nb]; subst. constructor; [|auto]. intros H. apply Na, in_app_iff. now left. Qed.

Section Separate.
  Variables (ord : order) (sing : string -> string) (cwd : string).
  Hypothesis Ho : reorders ord.
  Lemma kin_same l ds ds' ignores a a' : In l (all_linters ord sing) -> Forall2 kin ds ds' ->
    check_one cwd l ds ignores = Ok a -> check_one cwd l ds' ignores = Ok a' -> a = a'.
  Proof.
    intros Hl F. unfold check_one, linter_check.
    assert (F' : Forall2 kin (filter_ignores cwd l ds ignores) (filter_ignores cwd l ds' ignores)).
    { unfold filter_ignores. induction F as [|d d' ds ds' K F IH]; [constructor|]. cbn [filter].
      assert (should_ignore cwd l d' ignores = should_ignore cwd l d ignores) as ->.
      { destruct K as (N & _ & _ & _ & _ & _ & D). unfold should_ignore. now rewrite N, D. }
      destruct (negb _); [now constructor|assumption]. }
    pose proof (all_steady ord sing) as St. rewrite Forall_forall in St. pose proof (St l Hl _ _ F') as S.
    destruct (ln_check l (filter_ignores cwd l ds ignores)), (ln_check l (filter_ignores cwd l ds' ignores)); cbn [sims] in S; try contradiction; cbn [bind]; try discriminate.
    rewrite (sims_finish l _ _ S). congruence.
  Qed.
  Lemma read_names read ps absolute files ds : mapM (read_descriptor read ps absolute) files = Ok ds -> map d_filename ds = map (name_of absolute) files.
  Proof.
    intros E. apply mapM_Forall2 in E. induction E as [|x y l r Hxy H IH]; [reflexivity|]. cbn [map]. rewrite IH. f_equal.
    unfold read_descriptor in Hxy. destruct (read (pf_path x)); cbn [bind] in Hxy; [|discriminate]. injection Hxy as <-. reflexivity.
  Qed.
  Lemma read_kin read read' ps ps' absolute files ds ds' : kin_sets ps ps' -> (forall f, In f files -> read' (pf_path f) = read (pf_path f)) ->
    mapM (read_descriptor read ps absolute) files = Ok ds -> mapM (read_descriptor read' ps' absolute) files = Ok ds' -> Forall2 kin ds ds'.
  Proof.
    intros K. revert ds ds'. induction files as [|f files IH]; intros ds ds' R E E'; cbn [mapM] in *; [injection E as <-; injection E' as <-; constructor|].
    unfold read_descriptor in E at 1. unfold read_descriptor in E' at 1. rewrite (R f (or_introl eq_refl)) in E'.
    destruct (read (pf_path f)) as [x|]; cbn [bind] in *; [|discriminate].
    destruct (mapM _ files) as [r|] eqn:Er in E; cbn [bind] in E; [|discriminate]. destruct (mapM _ files) as [r'|] eqn:Er' in E'; cbn [bind] in E'; [|discriminate].
    injection E as <-. injection E' as <-. constructor; [repeat split; apply K|]. apply IH; auto. intros g Hg. apply R. now right.
  Qed.
  Definition names (dir : string * list descriptor) : list string := map d_filename (snd dir).
  Lemma dir_part read ps absolute fs dir files :
    NoDup (map fst (ps_files ps)) -> NoDup (map (name_of absolute) (concat (map snd (ps_files ps)))) ->
    In (dir, files) (ps_files ps) -> has_prefix dir (ps_dir ps) = true ->
    lint_run ord cwd read (all_linters ord sing) (default_linters ord) (group_to_linters ord) ps absolute = Ok (map Some fs) ->
    exists ls ds r, get_linters ord (all_linters ord sing) (default_linters ord) (group_to_linters ord) (cfg_lint (ps_config ps)) = Ok ls
      /\ incl ls (all_linters ord sing)
      /\ mapM (read_descriptor read ps absolute) files = Ok ds
      /\ concatM (fun l => check_one cwd l ds (lc_ignores (cfg_lint (ps_config ps)))) ls = Ok r
      /\ forall b, (forall f, b f = true -> In (f_filename f) (map (name_of absolute) files)) ->
           sort_failures (map Some (filter b r)) = map Some (filter b fs).
  Proof.
    intros Nd Nn Hin W E. unfold lint_run in E.
    pose proof (selection ord sing Ho (cfg_lint (ps_config ps))) as S.
    destruct (get_linters _ _ _ _ (cfg_lint (ps_config ps))) as [ls|]; cbn [bind] in E; [|discriminate]. destruct S as (_ & _ & I1 & _).
    rewrite dirs_eq in E by assumption. destruct (mapM _ _) as [dirs|] eqn:Ed in E; cbn [bind] in E; [|discriminate].
    set (L := filter (wanted ps) (ord "GetDirPathToDescriptors" _ (ps_files ps))) in *.
    assert (HL : In (dir, files) L). { apply filter_In. split; [apply (Permutation_in _ (Ho _ _ _)), Hin|exact W]. }
    assert (X : exists ds, In (dir, ds) dirs /\ mapM (read_descriptor read ps absolute) files = Ok ds).
    { apply mapM_Forall2 in Ed. clear -Ed HL. induction Ed as [|x y l r Hxy H IH]; [destruct HL|].
      destruct HL as [->|HL]; [|destruct (IH HL) as (ds & A & B); exists ds; split; [now right|exact B]].
      unfold read_dir in Hxy. cbn [fst snd] in Hxy. destruct (mapM _ files) as [ds|]; cbn [bind] in Hxy; [|discriminate]. injection Hxy as <-. exists ds. split; [now left|reflexivity]. }
    destruct X as (ds & Hd & Em).
    assert (Nl : NoDup (flat_map names (ord "CheckMultiple" _ dirs))).
    { apply (Permutation_NoDup (l := flat_map names dirs)); [apply Permutation_flat_map, Ho|].
      assert (Q : flat_map names dirs = map (name_of absolute) (concat (map snd L))).
      { apply mapM_Forall2 in Ed. clear -Ed. induction Ed as [|x y l r Hxy H IH]; [reflexivity|]. cbn [flat_map map concat]. rewrite map_app, IH. f_equal.
        unfold read_dir in Hxy. destruct (mapM _ (snd x)) as [ds|] eqn:Er; cbn [bind] in Hxy; [|discriminate]. injection Hxy as <-. unfold names. cbn [snd]. exact (read_names _ _ _ _ _ Er). }
      rewrite Q. unfold L. clear -Ho Nn.
      assert (Pn : NoDup (map (name_of absolute) (concat (map snd (ord "GetDirPathToDescriptors" _ (ps_files ps)))))).
      { apply (Permutation_NoDup (l := map (name_of absolute) (concat (map snd (ps_files ps))))); [|exact Nn]. apply Permutation_map. rewrite <- !flat_map_concat_map. apply Permutation_flat_map, Ho. }
      revert Pn. generalize (ord "GetDirPathToDescriptors" _ (ps_files ps)). intros k. induction k as [|x k IH]; intros N; [constructor|].
      cbn [map concat filter] in *. rewrite map_app in N. destruct (wanted ps x); [|apply IH; clear -N; induction (map (name_of absolute) (snd x)) as [|a l IH]; [exact N|inversion N; auto]].
      cbn [map concat]. rewrite map_app.
      assert (Inc : incl (map (name_of absolute) (concat (map snd (filter (wanted ps) k)))) (map (name_of absolute) (concat (map snd k)))).
      { clear. intros n. rewrite !in_map_iff. intros (f & <- & Hf). exists f. split; [reflexivity|]. apply in_concat in Hf as (fl & Hfl & Hf). apply in_concat. exists fl. split; [|exact Hf].
        apply in_map_iff in Hfl as (y & <- & Hy). apply filter_In in Hy as [Hy _]. now apply in_map. }
      assert (IHk : NoDup (map (name_of absolute) (concat (map snd k))) -> NoDup (map (name_of absolute) (concat (map snd (filter (wanted ps) k))))) by exact IH.
      clear IH. induction (map (name_of absolute) (snd x)) as [|a l IH]; [exact (IHk N)|].
      cbn [app] in N |- *. inversion N as [|? ? Na Nb]; subst. constructor; [|now apply IH].
      intros H. apply Na. apply in_app_iff in H as [H|H]; apply in_app_iff; [now left|right; now apply Inc]. }
    unfold check_multiple in E. destruct (concatM _ _) as [all|] eqn:Ea in E; cbn [bind] in E; [|discriminate]. injection E as E.
    assert (Hin' : In (dir, ds) (ord "CheckMultiple" _ dirs)) by (apply (Permutation_in _ (Ho _ _ _)), Hd).
    apply in_split in Hin' as (l1 & l2 & Sp). rewrite Sp in Ea, Nl.
    assert (Out : forall b, (forall f, b f = true -> In (f_filename f) (map (name_of absolute) files)) ->
      forall y c f, In y (l1 ++ l2) -> concatM (fun l => check_one cwd l (snd y) (lc_ignores (cfg_lint (ps_config ps)))) ls = Ok c -> In f c -> b f = false).
    { intros b Hb y c f Hy Ec Hf. destruct (b f) eqn:B; [|reflexivity]. exfalso. apply Hb in B. rewrite <- (read_names _ _ _ _ _ Em) in B.
      apply concatM_Ok in Ec as [_ Ec]. apply Ec in Hf as (l & a & Hl & El & Hf). unfold check_one in El.
      destruct (linter_check_covers ord sing l _ a f (I1 l Hl) El Hf) as (_ & d & Hdd & En). unfold filter_ignores in Hdd. apply filter_In in Hdd as [Hdd _].
      assert (Hy' : In (f_filename f) (flat_map names (l1 ++ l2))). { apply in_flat_map. exists y. split; [exact Hy|]. unfold names. apply in_map_iff. now exists d. }
      clear -Nl B Hy'. rewrite flat_map_app in Nl, Hy'. cbn [flat_map] in Nl. unfold names in Nl at 2. cbn [snd] in Nl.
      apply in_app_iff in Hy' as [H|H].
      - induction (flat_map names l1) as [|a k IH]; [destruct H|]. cbn [app] in Nl. inversion Nl as [|? ? Na Nb]; subst. destruct H as [->|H]; [|now apply IH]. apply Na. apply in_app_iff. right. apply in_app_iff. now left.
      - induction (flat_map names l1) as [|a k IH]; [|inversion Nl; now apply IH]. cbn [app] in Nl.
        induction (map d_filename ds) as [|a k IH]; [destruct B|]. cbn [app] in Nl. inversion Nl as [|? ? Na Nb]; subst. destruct B as [->|B]; [|now apply IH]. apply Na. apply in_app_iff. now right. }
    pose proof (concatM_single _ (fun _ => false) l1 (dir, ds) l2 all (fun _ _ _ _ _ _ => eq_refl) Ea) as (r & Er & _). cbn [snd] in Er.
    exists ls, ds, r. split; [reflexivity|]. split; [exact I1|]. split; [exact Em|]. split; [exact Er|].
    intros b Hb. destruct (concatM_single _ b l1 (dir, ds) l2 all (Out b Hb) Ea) as (r' & Er' & Q). cbn [snd] in Er'. rewrite Er in Er'. injection Er' as <-.
    rewrite <- Q. now apply sort_filter.
  Qed.

  Variables (read read' : string -> result (list element * string)) (ps ps' : proto_set) (absolute : bool) (fs fs' : list failure).
  Hypothesis Nd : NoDup (map fst (ps_files ps)).
  Hypothesis Nd' : NoDup (map fst (ps_files ps')).
  Hypothesis Nn : NoDup (map (name_of absolute) (concat (map snd (ps_files ps)))).
  Hypothesis Nn' : NoDup (map (name_of absolute) (concat (map snd (ps_files ps')))).
  Hypothesis Ec : ps_config ps' = ps_config ps.
  Hypothesis R : lint_run ord cwd read (all_linters ord sing) (default_linters ord) (group_to_linters ord) ps absolute = Ok (map Some fs).
  Hypothesis R' : lint_run ord cwd read' (all_linters ord sing) (default_linters ord) (group_to_linters ord) ps' absolute = Ok (map Some fs').
  Lemma same_kin : kin_sets ps ps'.
  Proof. unfold kin_sets. rewrite Ec. repeat split. Qed.
  Theorem separate_directory dir dir' files :
    In (dir, files) (ps_files ps) -> has_prefix dir (ps_dir ps) = true -> In (dir', files) (ps_files ps') -> has_prefix dir' (ps_dir ps') = true ->
    (forall f, In f files -> read' (pf_path f) = read (pf_path f)) ->
    exists found, picks (fun f => exists file, In file files /\ f_filename f = name_of absolute file) fs found
      /\ picks (fun f => exists file, In file files /\ f_filename f = name_of absolute file) fs' found.
  Proof.
    intros H W H' W' Rd.
    destruct (dir_part read ps absolute fs dir files Nd Nn H W R) as (ls & ds & r & G & I1 & M & C & S).
    destruct (dir_part read' ps' absolute fs' dir' files Nd' Nn' H' W' R') as (ls' & ds' & r' & G' & _ & M' & C' & S'). rewrite Ec, G in G'. injection G' as <-.
    pose proof (read_kin _ _ _ _ _ _ _ _ same_kin Rd M M') as K.
    assert (r = r') as <-.
    { refine (concatM_agree _ _ ls r r' _ C C'). intros l a a' Hl A A'. rewrite Ec in A'. exact (kin_same l ds ds' _ a a' (I1 l Hl) K A A'). }
    set (b := fun f => mem (f_filename f) (map (name_of absolute) files)).
    assert (Hb : forall f, b f = true -> In (f_filename f) (map (name_of absolute) files)) by (intros f; apply mem_In).
    assert (P : forall f, b f = true <-> exists file, In file files /\ f_filename f = name_of absolute file).
    { intros f. unfold b. rewrite mem_In, in_map_iff. split; intros (file & A & B); exists file; auto. }
    exists (filter b fs). split; [exists b; split; [intros; apply P|reflexivity]|]. exists b. split; [intros; apply P|].
    apply map_Some_inj. now rewrite <- (S b Hb), <- (S' b Hb).
  Qed.

  (** One file, and the rules that look at one file at a time. *)
  Definition alone (d : descriptor) (l : linter) : result (list failure) :=
    if mem (ln_id l) directory_rules then Ok [] else check_one cwd l [d] (lc_ignores (cfg_lint (ps_config ps))).
  Lemma alone_part file ls ds d b r : incl ls (all_linters ord sing) ->
    (exists l1 l2, ds = l1 ++ d :: l2 /\ ~ In (name_of absolute file) (map d_filename (l1 ++ l2))) ->
    (forall f, b f = true -> f_filename f = name_of absolute file /\ ~ In (f_lint_id f) directory_rules) ->
    concatM (fun l => check_one cwd l ds (lc_ignores (cfg_lint (ps_config ps)))) ls = Ok r ->
    exists r', concatM (alone d) ls = Ok r' /\ filter b r = filter b r'.
  Proof.
    intros I1 (l1 & l2 & -> & No) Hb. apply concatM_filter2. intros l a Hl E. unfold alone.
    destruct (mem (ln_id l) directory_rules) eqn:D.
    { exists []. split; [reflexivity|]. apply filter_none. intros f Hf. destruct (b f) eqn:B; [|reflexivity]. apply Hb in B as [_ B]. exfalso. apply B.
      unfold check_one in E. destruct (linter_check_covers ord sing l _ a f (I1 l Hl) E Hf) as (-> & _). now apply mem_In. }
    assert (FL : file_linter l).
    { pose proof (file_linters ord sing) as F. rewrite Forall_forall in F. apply F; [now apply I1|]. now apply mem_false. }
    unfold check_one in *. unfold filter_ignores in E at 1. rewrite filter_app in E. cbn [filter] in E. unfold filter_ignores. cbn [filter].
    set (p := fun d => negb (should_ignore cwd l d (lc_ignores (cfg_lint (ps_config ps))))) in *.
    assert (Out : forall y c f, In y (filter p l1 ++ filter p l2) -> linter_check l [y] = Ok c -> In f c -> b f = false).
    { intros y c f Hy Ey Hf. destruct (b f) eqn:B; [|reflexivity]. exfalso. apply Hb in B as [B _]. apply No. rewrite <- B.
      destruct (linter_check_covers ord sing l _ c f (I1 l Hl) Ey Hf) as (_ & d' & [<-|[]] & ->). apply in_map. rewrite <- filter_app in Hy. now apply filter_In in Hy. }
    fold (p d) in E |- *.
    rewrite linter_check_split in E by assumption. destruct (p d) eqn:Pd.
    - destruct (concatM_single _ b _ _ _ a Out E) as (c & Ed & Q). exists c. split; [exact Ed|exact Q].
    - exists []. split; [rewrite linter_check_split by assumption; reflexivity|]. exact (concatM_none _ b _ a Out E).
  Qed.
  Lemma alone_split file files ds rd ps0 : NoDup (map (name_of absolute) files) -> In file files -> mapM (read_descriptor rd ps0 absolute) files = Ok ds ->
    exists d, read_descriptor rd ps0 absolute file = Ok d /\ exists l1 l2, ds = l1 ++ d :: l2 /\ ~ In (name_of absolute file) (map d_filename (l1 ++ l2)).
  Proof.
    intros N H E. pose proof (read_names _ _ _ _ _ E) as Q. apply mapM_Forall2 in E. apply in_split in H as (f1 & f2 & ->).
    apply Forall2_app_inv_l in E as (l1 & k & _ & E & ->). inversion E as [|? d ? l2 Hd _]; subst. exists d. split; [exact Hd|]. exists l1, l2. split; [reflexivity|].
    intros X. rewrite <- Q in N. rewrite map_app in N, X. cbn [map] in N. apply NoDup_remove_2 in N. apply N.
    assert (d_filename d = name_of absolute file) as ->; [|exact X].
    unfold read_descriptor in Hd. destruct (rd (pf_path file)); cbn [bind] in Hd; [|discriminate]. injection Hd as <-. reflexivity.
  Qed.
  Lemma names_of_dir qs dir files : In (dir, files) (ps_files qs) -> NoDup (map (name_of absolute) (concat (map snd (ps_files qs)))) -> NoDup (map (name_of absolute) files).
  Proof.
    intros H N. apply in_split in H as (a & c & E). rewrite E, map_app, concat_app, map_app in N. cbn [map concat snd] in N.
    apply nodup_r in N. rewrite map_app in N. exact (nodup_l _ _ N).
  Qed.
  Theorem separate_file dir dir' files files' file :
    In (dir, files) (ps_files ps) -> has_prefix dir (ps_dir ps) = true -> In (dir', files') (ps_files ps') -> has_prefix dir' (ps_dir ps') = true ->
    In file files -> In file files' -> read' (pf_path file) = read (pf_path file) ->
    exists found, picks (fun f => f_filename f = name_of absolute file /\ ~ In (f_lint_id f) directory_rules) fs found
      /\ picks (fun f => f_filename f = name_of absolute file /\ ~ In (f_lint_id f) directory_rules) fs' found.
  Proof.
    intros H W H' W' Hf Hf' Rd.
    destruct (dir_part read ps absolute fs dir files Nd Nn H W R) as (ls & ds & r & G & I1 & M & C & S).
    destruct (dir_part read' ps' absolute fs' dir' files' Nd' Nn' H' W' R') as (ls' & ds' & r' & G' & _ & M' & C' & S'). rewrite Ec, G in G'. injection G' as <-. rewrite Ec in C'.
    set (b := fun f => String.eqb (f_filename f) (name_of absolute file) && negb (mem (f_lint_id f) directory_rules)).
    assert (P : forall f, b f = true <-> f_filename f = name_of absolute file /\ ~ In (f_lint_id f) directory_rules).
    { intros f. unfold b. rewrite Bool.andb_true_iff, String.eqb_eq, Bool.negb_true_iff. split; intros [A B]; (split; [exact A|now apply mem_false]). }
    destruct (alone_split file files ds read ps (names_of_dir _ _ _ H Nn) Hf M) as (d & Ed & Sd).
    destruct (alone_split file files' ds' read' ps' (names_of_dir _ _ _ H' Nn') Hf' M') as (d' & Ed' & Sd').
    destruct (alone_part file ls ds d b r I1 Sd (fun f => proj1 (P f)) C) as (q & Eq & Q).
    destruct (alone_part file ls ds' d' b r' I1 Sd' (fun f => proj1 (P f)) C') as (q' & Eq' & Q').
    assert (K : Forall2 kin [d] [d']).
    { refine (read_kin read read' ps ps' absolute [file] _ _ same_kin _ _ _).
      - intros f [<-|[]]. exact Rd.
      - cbn [mapM]. now rewrite Ed.
      - cbn [mapM]. now rewrite Ed'. }
    assert (q = q') as <-.
    { refine (concatM_agree _ _ ls q q' _ Eq Eq'). intros l a a' Hl. unfold alone. destruct (mem (ln_id l) directory_rules); [congruence|]. exact (kin_same l _ _ _ a a' (I1 l Hl) K). }
    assert (Hb : forall fl f, In file fl -> b f = true -> In (f_filename f) (map (name_of absolute) fl)).
    { intros fl f Hl B. apply P in B as [-> _]. now apply in_map. }
    exists (filter b fs). split; [exists b; split; [intros; apply P|reflexivity]|]. exists b. split; [intros; apply P|].
    apply map_Some_inj. rewrite <- (S b (fun f => Hb files f Hf)), <- (S' b (fun f => Hb files' f Hf')). now rewrite Q, Q'.
  Qed.
End Separate.
