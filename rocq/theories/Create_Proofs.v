(** Proofs about file creation. *)
From Coq Require Import Permutation Lia.
From Verif Require Import GoStrFacts GoPathFacts GoMapFacts Strs_Spec Settings_Model Settings_Spec Settings_Proofs Settings_Proofs2.
From Verif Require Import Lint_Spec File_Spec File_Proofs File_Proofs2 File_Proofs4 Create_Model Create_Spec.

Section Files.
  Variable ord : order.
  Variable cwd : string.
  Variable cdir : string -> result config.
  Variable cdata : string -> string -> result config.
  Variable pkg data : string.
  Variable write : string -> write_outcome.
  Notation run := (create ord cwd cdir cdata pkg data write).
  Notation runs := (create_files ord cwd cdir cdata pkg data write).
  Notation text := (create_data ord cwd cdir cdata pkg data).
  Lemma check_iff fs file : (check_file_path cwd fs file = Ok tt <-> ~ not_creatable cwd fs file).
  Proof.
    unfold check_file_path, not_creatable. destruct (is_empty file) eqn:E.
    - apply is_empty_true in E. split; [discriminate|]. intros H. exfalso. apply H. auto.
    - apply is_empty_false in E. destruct (fs (path_abs cwd (path_dir file))) eqn:D.
      1,3,4: split; [discriminate|]; intros H; exfalso; apply H; right; left; discriminate.
      destruct (fs (path_abs cwd file)) as [| |d|] eqn:F.
      2,4: split; [discriminate|]; intros H; exfalso; apply H; right; right; split; discriminate.
      + split; [|reflexivity]. intros _ [H|[H|[H _]]]; auto.
      + destruct (is_empty d) eqn:Ed.
        * apply is_empty_true in Ed. subst d. split; [|reflexivity]. intros _ [H|[H|[_ H]]]; auto.
        * apply is_empty_false in Ed. split; [discriminate|]. intros H. exfalso. apply H. right. right. split; congruence.
  Qed.
  Lemma check_bad fs file : not_creatable cwd fs file -> exists m, check_file_path cwd fs file = Err m.
  Proof.
    intros H. destruct (check_file_path cwd fs file) as [[]|m] eqn:E; [|eauto]. apply check_iff in E. contradiction.
  Qed.
  Theorem nothing_written fs files file : In file files -> not_creatable cwd fs file ->
    exists m, run fs files = (fs, Err m).
  Proof.
    intros Hf Hb. apply check_bad in Hb as (m & Hb). unfold create.
    assert (exists m', mapM (check_file_path cwd fs) files = Err m') as (m' & ->); [|eauto].
    induction files as [|f files IH]; [easy|]. cbn [mapM]. destruct Hf as [->|Hf]; [rewrite Hb; cbn [bind]; eauto|].
    destruct (check_file_path cwd fs f); cbn [bind]; [|eauto]. destruct (IH Hf) as (m' & ->). cbn [bind]. eauto.
  Qed.
  Lemma checked fs files us : mapM (check_file_path cwd fs) files = Ok us -> forall f, In f files -> ~ not_creatable cwd fs f.
  Proof.
    intros H f Hf. apply mapM_ok in H. destruct (Forall2_In_l _ _ _ _ H Hf) as ([] & _ & E). now apply check_iff.
  Qed.
  Lemma runs_frame files : forall fs p, (forall f, In f files -> p <> path_abs cwd f) -> fst (runs fs files) p = fs p.
  Proof.
    induction files as [|f files IH]; intros fs p H; [reflexivity|]. cbn [create_files]. unfold create_file.
    assert (p <> path_abs cwd f) as Hp by (apply H; now left).
    assert (forall e, fput (path_abs cwd f) e fs p = fs p) as Ef by (intros e; unfold fput; apply seqb_neq in Hp; now rewrite Hp).
    destruct (text f) as [d|m]; [|reflexivity]. destruct (write f) as [| |n]; [|reflexivity|apply Ef].
    rewrite IH by (intros g Hg; apply H; now right). apply Ef.
  Qed.
  (** Only paths that were asked for and had no content change. *)
  Theorem only_empty_changed fs files p : fst (run fs files) p <> fs p ->
    exists f, In f files /\ p = path_abs cwd f /\ (fs p = Missing \/ fs p = Regular "").
  Proof.
    unfold create. destruct (mapM (check_file_path cwd fs) files) as [us|m] eqn:E; [|intros H; now contradiction H].
    intros H. destruct (in_dec string_dec p (map (path_abs cwd) files)) as [Hin|Hin].
    - apply in_map_iff in Hin as (f & <- & Hf). exists f. split; [assumption|]. split; [reflexivity|].
      pose proof (checked _ _ _ E f Hf) as C. unfold not_creatable in C.
      destruct (fs (path_abs cwd f)) as [| |[|ch d]|]; auto; exfalso; apply C; right; right; split; discriminate.
    - exfalso. apply H. apply runs_frame. intros f Hf ->. apply Hin. now apply in_map.
  Qed.
  Lemma runs_ok files : forall fs fs', runs fs files = (fs', Ok tt) ->
    forall f, In f files -> exists g d, In g files /\ path_abs cwd g = path_abs cwd f /\ text g = Ok d /\ fs' (path_abs cwd f) = Regular d.
  Proof.
    induction files as [|g files IH]; intros fs fs' H f Hf; [easy|]. cbn [create_files] in H. unfold create_file in H.
    destruct (text g) as [d|m] eqn:Ed; [|discriminate]. destruct (write g); [|discriminate|discriminate].
    destruct (in_dec string_dec (path_abs cwd f) (map (path_abs cwd) files)) as [Hin|Hin].
    - apply in_map_iff in Hin as (f' & E & Hf'). destruct (IH _ _ H f' Hf') as (g' & d' & A & B & C & D).
      exists g', d'. rewrite E in *. split; [now right|]. auto.
    - destruct Hf as [<-|Hf]; [|exfalso; apply Hin; now apply in_map].
      exists g, d. split; [now left|]. split; [reflexivity|]. split; [assumption|].
      pose proof (runs_frame files (fput (path_abs cwd g) (Regular d) fs) (path_abs cwd g)) as F.
      rewrite H in F. cbn [fst] in F. rewrite F.
      + unfold fput. now rewrite seqb_refl.
      + intros f' Hf' E. apply Hin. rewrite E. now apply in_map.
  Qed.
  (** A run that succeeds has written every file. *)
  Theorem all_written fs files fs' : run fs files = (fs', Ok tt) -> forall f, In f files ->
    exists g d, In g files /\ path_abs cwd g = path_abs cwd f /\ text g = Ok d /\ fs' (path_abs cwd f) = Regular d.
  Proof.
    unfold create. destruct (mapM (check_file_path cwd fs) files) as [us|m] eqn:E; [|discriminate]. apply runs_ok.
  Qed.
End Files.

(** ** The package *)
Lemma join_app_ne sep l r rs : l <> [] -> join sep (l ++ r :: rs) = join sep l +++ sep +++ join sep (r :: rs).
Proof.
  revert r rs. induction l as [|x l IH]; intros r rs Hl; [easy|]. destruct l as [|y l]; [reflexivity|].
  cbn [app]. rewrite !join_cons2. cbn [app] in IH. rewrite IH by discriminate. now rewrite !sapp_assoc.
Qed.
Lemma prefix_abs d ds : ok_comps d -> ok_comps ds -> no_sibling d ds ->
  (has_prefix (abs_path ds) (abs_path d) = true <-> exists rs, ds = d ++ rs).
Proof.
  intros Hd Hds Ns. split.
  - intros H. destruct d as [|n d _] using rev_ind; [exists ds; reflexivity|].
    apply has_prefix_spec in H as (r & E). destruct (join_prefix d n ds r) as (k & rest & -> & _); [assumption|assumption| |].
    { unfold abs_path in E. cbn in E. injection E as E. exact E. }
    rewrite (Ns d n k rest eq_refl eq_refl), sapp_nil_r. exists rest. now rewrite <- app_assoc.
  - intros (rs & ->). apply within_prefix. exists d, rs. split; [assumption|]. apply ok_comps_app in Hds as [_ H]. auto.
Qed.
Lemma abs_length_lt d e ds rs : ok_comps ds -> ds = d ++ rs -> (exists rs', ds = e ++ rs') ->
  (String.length (abs_path d) < String.length (abs_path e) <-> length d < length e) /\
  (String.length (abs_path d) = String.length (abs_path e) -> d = e).
Proof.
  intros H -> (rs' & E).
  assert (forall a b, ok_comps (a ++ b) -> b <> [] -> String.length (abs_path a) < String.length (abs_path (a ++ b))) as L.
  { intros a b Hab Hb. destruct b as [|x b]; [easy|]. clear E H. apply ok_comps_app in Hab as [Ha Hb'].
    inversion Hb' as [|? ? Hx _]; subst. destruct a as [|y a _] using rev_ind.
    - unfold abs_path. cbn [app join]. rewrite !slength_app. destruct x; [discriminate Hx|]. destruct b; cbn; lia.
    - unfold abs_path. rewrite (join_app_ne "/" (a ++ [y])) by (destruct a; discriminate). rewrite !slength_app. cbn. lia. }
  assert (forall a b c e : list string, a ++ b = c ++ e -> (exists x, c = a ++ x) \/ (exists x, a = c ++ x)) as S.
  { clear. induction a as [|y a IH]; intros b [|z c] e E; [left; now exists []|left; now exists (z :: c)|right; now exists (y :: a)|].
    cbn in E. injection E as -> E. destruct (IH _ _ _ E) as [(x & ->)|(x & ->)]; [left|right]; now exists x. }
  destruct (S _ _ _ _ E) as [(x & ->)|(x & ->)].
  - destruct x as [|y x]; [rewrite app_nil_r; split; [lia|auto]|].
    assert (ok_comps (d ++ y :: x)) as Hc by (rewrite E in H; now apply ok_comps_app in H).
    specialize (L d (y :: x) Hc). rewrite app_length. cbn [length] in *. split; [split; intros; [lia|apply L; discriminate]|].
    intros F. exfalso. specialize (L ltac:(discriminate)). lia.
  - destruct x as [|y x]; [rewrite app_nil_r; split; [lia|auto]|].
    assert (ok_comps (e ++ y :: x)) as Hc by (now apply ok_comps_app in H).
    specialize (L e (y :: x) Hc ltac:(discriminate)). rewrite app_length. cbn [length] in *. split; [split; intros; lia|]. intros F. lia.
Qed.

Lemma longest_spec m ds : ok_comps ds ->
  (forall k b, In (k, b) m -> exists d, ok_comps d /\ k = abs_path d /\ no_sibling d ds) ->
  let r := longest_match (abs_path ds) m in
  (r = ("", "") /\ forall d base, ~ mapped m ds d base) \/
  exists d base, r = (abs_path d, base) /\ mapped m ds d base /\ forall d' base', mapped m ds d' base' -> length d' <= length d.
Proof.
  intros Hds. induction m as [|[k b] m IH] using rev_ind; intros K; cbv zeta.
  - left. split; [reflexivity|]. intros d base (_ & [] & _).
  - assert (forall k b, In (k, b) m -> exists d, ok_comps d /\ k = abs_path d /\ no_sibling d ds) as K'.
    { intros k' b' H. apply (K k' b'). apply in_or_app. now left. }
    specialize (IH K'). cbv zeta in IH. destruct (K k b) as (d & Hd & -> & Ns); [apply in_or_app; right; now left|].
    pose proof (prefix_abs d ds Hd Hds Ns) as P.
    assert (forall d' b', mapped (m ++ [(abs_path d, b)]) ds d' b' <-> mapped m ds d' b' \/ (d' = d /\ b' = b /\ exists rs, ds = d ++ rs)) as M.
    { intros d' b'. unfold mapped. rewrite in_app_iff. cbn [In]. split.
      - intros (A & [B|[B|[]]] & C); [left; auto|]. assert (abs_path d = abs_path d' /\ b = b') as [B1 B2] by (split; congruence). right. apply abs_path_inj in B1; [|assumption|assumption].
        subst d'. auto.
      - intros [(A & B & C)|(-> & -> & C)]; [auto|]. split; [assumption|]. split; [right; now left|assumption]. }
    unfold longest_match. rewrite fold_left_app. cbn [fold_left fst].
    change (fold_left _ m ("", "")) with (longest_match (abs_path ds) m).
    destruct (has_prefix (abs_path ds) (abs_path d)) eqn:E; cbn [negb].
    + pose proof (proj1 P eq_refl) as (rs & Ers).
      destruct IH as [(-> & N)|(d0 & b0 & -> & M0 & Mx)]; cbn [fst snd].
      * right. exists d, b. replace (Nat.ltb _ _) with true by (symmetry; apply Nat.ltb_lt; unfold abs_path; cbn; lia).
        split; [reflexivity|]. split; [apply M; right; eauto|]. intros d' b' H. apply M in H as [H|(-> & _)]; [|lia].
        exfalso. now apply N in H.
      * destruct M0 as (A0 & B0 & (rs0 & C0)).
        destruct (abs_length_lt d0 d ds rs0 Hds C0 (ex_intro _ rs Ers)) as [L1 L2].
        destruct (Nat.ltb _ _) eqn:El.
        -- apply Nat.ltb_lt in El. apply L1 in El. right. exists d, b. split; [reflexivity|]. split; [apply M; right; eauto|].
           intros d' b' H. apply M in H as [H|(-> & _)]; [|lia]. apply Mx in H. lia.
        -- apply Nat.ltb_ge in El. right. exists d0, b0. split; [reflexivity|]. split; [apply M; left; split; [assumption|eauto]|].
           intros d' b' H. apply M in H as [H|(-> & _)]; [now apply Mx in H|].
           destruct (Nat.lt_ge_cases (length d0) (length d)) as [F|F]; [apply L1 in F; lia|assumption].
    + assert (forall d' b', mapped (m ++ [(abs_path d, b)]) ds d' b' <-> mapped m ds d' b') as M'.
      { intros d' b'. rewrite M. split; [|auto]. intros [H|(_ & _ & H)]; [assumption|]. apply P in H. discriminate. }
      destruct IH as [(-> & N)|(d0 & b0 & -> & M0 & Mx)].
      * left. split; [reflexivity|]. intros d' b' H. apply M' in H. now apply N in H.
      * right. exists d0, b0. split; [reflexivity|]. split; [now apply M'|]. intros d' b' H. apply M' in H. eauto.
Qed.
Lemma package_below_fun base rs default p q : package_below base rs default p -> package_below base rs default q -> p = q.
Proof. unfold package_below. destruct base, rs; congruence. Qed.
Lemma deepest_fun (ds d d' : list string) : (exists rs, ds = d ++ rs) -> (exists rs, ds = d' ++ rs) -> length d = length d' -> d = d'.
Proof.
  intros (rs & ->) (rs' & E) L. revert d' E L. induction d as [|x d IH]; intros [|y d'] E L; try discriminate; [reflexivity|].
  cbn in E. injection E as -> E. f_equal. apply IH; [assumption|]. now injection L.
Qed.
Lemma package_for_fun m cd ds default p q : NoDup (map fst m) -> package_for m cd ds default p -> package_for m cd ds default q -> p = q.
Proof.
  intros N H1 H2. destruct H1 as [d b rs p M Mx E B|rs p Nm E B|Nm No]; destruct H2 as [d' b' rs' q M' Mx' E' B'|rs' q Nm' E' B'|Nm' No'];
    try (exfalso; eapply Nm; eassumption); try (exfalso; eapply Nm'; eassumption).
  - assert (d = d') as <-.
    { apply (deepest_fun ds); [now exists rs|now exists rs'|]. apply Mx in M'. apply Mx' in M. lia. }
    assert (rs = rs') as <- by (rewrite E in E'; now apply app_inv_head in E').
    assert (b = b') as <-.
    { destruct M as (_ & M & _), M' as (_ & M' & _). apply In_gget in M; [|assumption]. apply In_gget in M'; [|assumption]. congruence. }
    eapply package_below_fun; eassumption.
  - assert (rs = rs') as <- by (rewrite E in E'; now apply app_inv_head in E'). eapply package_below_fun; eassumption.
  - exfalso. eapply No'. exact E.
  - exfalso. eapply No. exact E'.
  - reflexivity.
Qed.
Lemma pkg_from_rel d rs base default rel : ok_comps d -> ok_comps rs -> path_rel (abs_path d) (abs_path (d ++ rs)) = Ok rel ->
  package_below base rs default (get_pkg_from_rel rel base default).
Proof.
  intros Hd Hr E. unfold get_pkg_from_rel. destruct rs as [|x rs].
  - rewrite app_nil_r, path_rel_abs in E by assumption. destruct (list_eq_dec string_dec d d); [|contradiction]. injection E as <-.
    cbn [String.eqb Ascii.eqb Bool.eqb]. unfold package_below. destruct base; reflexivity.
  - rewrite path_rel_under in E by (assumption || discriminate). assert (rel = join "/" (x :: rs)) as -> by congruence. clear E.
    assert (String.eqb (join "/" (x :: rs)) "." = false) as ->.
    { apply seqb_neq. intros F. inversion Hr as [|? ? Hx Hrs]; subst. destruct rs as [|y rs].
      - cbn in F. subst x. discriminate Hx.
      - rewrite join_cons2 in F. destruct x as [|c x]; [discriminate Hx|]. cbn in F. injection F as -> F. destruct x; discriminate F. }
    rewrite (split_join slash) by (try discriminate; now apply ok_comps_no_slash).
    unfold package_below. destruct base; reflexivity.
Qed.
Lemma rel_below d rs : ok_comps d -> ok_comps rs -> exists rel, path_rel (abs_path d) (abs_path (d ++ rs)) = Ok rel.
Proof.
  intros Hd Hr. rewrite path_rel_abs; [|assumption|now apply ok_comps_app].
  destruct (list_eq_dec _ _ _); eexists; reflexivity.
Qed.
Lemma no_sibling_prefix d rs : no_sibling d (d ++ rs).
Proof.
  intros parent name k rest -> E. rewrite <- app_assoc in E. apply app_inv_head in E. cbn in E. injection E as E _.
  rewrite <- (sapp_nil_r name) in E at 1. now apply sapp_inj_l in E.
Qed.
Section Package.
  Variable ord : order.
  Hypothesis Hord : reorders ord.
  Variable cwd : string.
  Variable cdir : string -> result config.
  Variable cdata : string -> string -> result config.
  Variable pkg data : string.
  Theorem package_spec file default ds c cd : pkg = "" -> ok_comps ds -> path_dir (path_abs cwd file) = abs_path ds ->
    create_get_config cwd cdir cdata data file = Ok c -> ok_comps cd -> cfg_dir c = abs_path cd -> no_sibling cd ds ->
    NoDup (map fst (cr_dir_to_base (cfg_create c))) ->
    (forall k b, In (k, b) (cr_dir_to_base (cfg_create c)) -> exists d, ok_comps d /\ k = abs_path d /\ no_sibling d ds) ->
    forall p, get_pkg ord cwd cdir cdata pkg data file default = Ok p <-> package_for (cr_dir_to_base (cfg_create c)) cd ds default p.
  Proof.
    intros -> Hds Ed Ec Hcd Ecd Ns N K. set (m := cr_dir_to_base (cfg_create c)) in *.
    enough (exists p, get_pkg ord cwd cdir cdata "" data file default = Ok p /\ package_for m cd ds default p) as (p0 & E0 & P0).
    { intros p. rewrite E0. split; [intros H; now injection H as <-|]. intros H. f_equal. eapply package_for_fun; eassumption. }
    unfold get_pkg. cbn [is_empty negb]. rewrite Ec. cbn [bind]. rewrite Ecd. cbn [is_empty]. rewrite Ed. fold m.
    pose proof (Hord "DirPathToBasePackage" _ m) as P. set (m' := ord _ _ m) in *.
    assert (forall d b, mapped m' ds d b <-> mapped m ds d b) as M.
    { intros d b. unfold mapped. split; intros (A & B & C); (split; [assumption|]; split; [|assumption]).
      - eapply Permutation_in; [symmetry; exact P|assumption].
      - eapply Permutation_in; eassumption. }
    assert (is_empty (abs_path cd) = false) as -> by reflexivity.
    destruct (longest_spec m' ds Hds) as [(-> & Nm)|(d & b & -> & Md & Mx)].
    { intros k b H. apply (K k b). eapply Permutation_in; [symmetry; exact P|assumption]. }
    - cbn [fst is_empty negb].
      assert (forall d base, ~ mapped m ds d base) as Nm' by (intros d b H; apply M in H; now apply Nm in H).
      pose proof (prefix_abs cd ds Hcd Hds Ns) as Pc. destruct (has_prefix (abs_path ds) (abs_path cd)) eqn:E; cbn [negb].
      + pose proof (proj1 Pc eq_refl) as (rs & Ers). assert (ok_comps rs) as Hrs by (rewrite Ers in Hds; now apply ok_comps_app in Hds).
        destruct (rel_below cd rs Hcd Hrs) as (rel & Er). rewrite <- Ers in Er. rewrite Er. cbn [bind].
        eexists. split; [reflexivity|]. eapply pf_relative; [assumption|exact Ers|]. subst ds. now apply (pkg_from_rel cd).
      + exists default. split; [reflexivity|]. apply pf_outside; [assumption|]. intros rs F. 
        assert (false = true) as X by (apply Pc; now exists rs). discriminate X.
    - cbn [fst snd]. assert (is_empty (abs_path d) = false) as -> by reflexivity. cbn [negb].
      destruct Md as (Hd & Hin & (rs & Ers)). assert (ok_comps rs) as Hrs by (rewrite Ers in Hds; now apply ok_comps_app in Hds).
      destruct (rel_below d rs Hd Hrs) as (rel & Er). rewrite <- Ers in Er. rewrite Er. cbn [bind].
      eexists. split; [reflexivity|]. apply (pf_mapped m cd ds default d b rs).
      + apply M. split; [assumption|]. eauto.
      + intros d' b' H. apply M in H. eauto.
      + assumption.
      + subst ds. now apply (pkg_from_rel d).
  Qed.
End Package.

Section Written.
  Variable ord : order.
  Hypothesis Hord : reorders ord.
  Variable cwd : string.
  Variable ex : string -> bool.
  Variable read : string -> result string.
  Variable dj dy : string -> result external_config.
  Variable look : string -> result string.
  Variable sort : list gen_plugin -> list gen_plugin.
  Variable devel : bool.
  Hypothesis Hsort : sorts sort.
  Variable pkg : string.
  Variable write : string -> write_outcome.
  Notation cdir := (get_for_dir ex read dj dy look sort devel).
  Notation cdata := (get_for_data read dj look sort devel).
  Lemma config_facts ds c : ok_comps ds -> cdir (abs_path ds) = Ok c ->
    exists cd rs, searched ex ds cd /\ ok_comps cd /\ ds = cd ++ rs /\ cfg_dir c = abs_path cd /\
      NoDup (map fst (cr_dir_to_base (cfg_create c))) /\
      Forall (fun d => clean_abs (fst d)) (cr_dir_to_base (cfg_create c)) /\
      to_lower (lc_group (cfg_lint c)) = lc_group (cfg_lint c).
  Proof.
    intros Hds E. apply get_for_dir_iff in E; [|assumption].
    assert (exists cd rs e, searched ex ds cd /\ ok_comps cd /\ ds = cd ++ rs /\
              external_config_to_config read look sort devel e (abs_path cd) = Ok c) as (cd & rs & e & S & Hcd & Er & Ec).
    { destruct E as [(G & Ec)|(a & file & e & Na & Tc & _ & Ec)].
      - exists ds, [], empty_external. rewrite app_nil_r. split; [left; auto|]. auto.
      - pose proof Na as Na'. destruct Na' as (b & Eb & _). exists a, b, e. split; [right; exists file; auto|].
        rewrite Eb in Hds. apply ok_comps_app in Hds as [Ha _]. auto. }
    exists cd, rs. apply (accepted read look sort devel Hsort) in Ec as [_ B]; [|exists cd; auto].
    split; [assumption|]. split; [assumption|]. split; [assumption|]. split; [apply (be_dir _ _ _ _ _ B)|].
    split; [apply (be_create _ _ _ _ _ B)|]. split.
    - apply (becomes_clean read look e (abs_path cd)); [exists cd; auto|assumption].
    - destruct (be_lint _ _ _ _ _ B) as (-> & _). apply to_lower_idem.
  Qed.
  Theorem package_written fs files fs' f ds :
    create ord cwd cdir cdata pkg "" write fs files = (fs', Ok tt) -> In f files -> NoDup (map (path_abs cwd) files) ->
    ok_comps ds -> path_dir (path_abs cwd f) = abs_path ds ->
    exists c text p default, cdir (abs_path ds) = Ok c /\ fs' (path_abs cwd f) = Regular text /\
      states_package (lc_file_header (cfg_lint c)) text p /\ default_of c default /\
      (pkg <> "" -> p = pkg) /\
      (pkg = "" -> (forall d base, ok_comps d -> In (abs_path d, base) (cr_dir_to_base (cfg_create c)) -> no_sibling d ds) ->
        exists cd, searched ex ds cd /\ package_for (cr_dir_to_base (cfg_create c)) cd ds default p).
  Proof.
    intros R Hf N Hds Ed. destruct (all_written _ _ _ _ _ _ _ _ _ _ R f Hf) as (g & text & Hg & Eg & Ht & Ew).
    assert (g = f) as ->.
    { clear - N Hf Hg Eg. induction files as [|h files IH]; [easy|]. cbn [map] in N. inversion N as [|? ? N1 N2]; subst.
      destruct Hf as [->|Hf], Hg as [->|Hg]; [reflexivity| | |now apply IH].
      - exfalso. apply N1. rewrite <- Eg. now apply in_map.
      - exfalso. apply N1. rewrite Eg. now apply in_map. }
    unfold create_data in Ht. unfold create_is_v2, get_file_header, get_java_package_prefix in Ht.
    assert (create_get_config cwd cdir cdata "" f = cdir (abs_path ds)) as Ec by (unfold create_get_config; rewrite Ed; reflexivity).
    rewrite Ec in Ht. destruct (cdir (abs_path ds)) as [c|] eqn:E; [|discriminate]. cbn [bind] in Ht.
    destruct (config_facts ds c Hds E) as (cd & rs & S & Hcd & Ers & Ecd & Nd & Cl & Lo).
    rewrite Ecd in Ht. cbn [is_empty abs_path String.append] in Ht.
    assert (is_empty (abs_path cd) = false) as Hne by reflexivity. rewrite ?Hne in Ht. cbn [bind] in Ht. rewrite Lo in Ht.
    set (v2 := String.eqb (lc_group (cfg_lint c)) "uber2") in *.
    set (default := if v2 then default_package_v2 else default_package) in *.
    destruct (get_pkg ord cwd cdir cdata pkg "" f default) as [p|] eqn:Ep; [|discriminate]. cbn [bind] in Ht. injection Ht as Ht.
    exists c, text, p, default. split; [reflexivity|]. split; [assumption|]. split; [|split; [|split]].
    - subst text. unfold states_package. set (h := lc_file_header (cfg_lint c)).
      replace (String.eqb h "") with (is_empty h) by (destruct h; reflexivity).
      assert ((if is_empty h then h else h +++ nl +++ nl) = (if is_empty h then "" else h +++ nl +++ nl)) as Eh by (now destruct h).
      change (String newline nl) with (nl +++ nl). rewrite Eh. destruct v2; unfold data_v1, data_v2; cbn [t_header t_pkg t_csharp t_go t_java_class t_java t_objc t_php];
        eexists; rewrite ?sapp_assoc; reflexivity.
    - unfold default_of. subst default v2. destruct (String.eqb _ _) eqn:Eq; [left; apply String.eqb_eq in Eq; auto|].
      apply seqb_neq in Eq. right. auto.
    - intros Hp. unfold get_pkg in Ep. apply is_empty_false in Hp. rewrite Hp in Ep. now injection Ep.
    - intros Hp Ns. exists cd. split; [assumption|].
      apply (package_spec ord Hord cwd cdir cdata pkg "" f default ds c cd); try assumption.
      + subst ds. apply no_sibling_prefix.
      + intros k b Hkb. rewrite Forall_forall in Cl. destruct (Cl _ Hkb) as (d & Hd & Ek). cbn in Ek. subst k.
        exists d. eauto.
  Qed.
End Written.
