(** The findings of a rule do not depend on which other rules are selected. *)
From Verif Require Import Exec_Spec LintRun_Spec GoStrFacts GoMapFacts Lint_RuleFacts Lint_Table LintRun_Proofs LintRun_Proofs2.
From Verif Require Import Text_Proofs.
From Verif Require Lint_Rename.
From Coq Require Import Lia Permutation.
Import Lint_Rename (suppresses, allow_is, F2_flat_map, F2_map).

(** Settings that only differ in the rules that are selected. *)
Definition kin_sets (s s' : proto_set) : Prop :=
  lc_file_header (cfg_lint (ps_config s')) = lc_file_header (cfg_lint (ps_config s))
  /\ lc_java_package_prefix (cfg_lint (ps_config s')) = lc_java_package_prefix (cfg_lint (ps_config s))
  /\ lc_allow_suppression (cfg_lint (ps_config s')) = lc_allow_suppression (cfg_lint (ps_config s))
  /\ cfg_dir (ps_config s') = cfg_dir (ps_config s).
Definition kin (d d' : descriptor) : Prop :=
  d_filename d' = d_filename d /\ d_elements d' = d_elements d /\ d_data d' = d_data d /\ kin_sets (d_set d) (d_set d').
Definition sim (r r' : raw) : Prop :=
  raw_failure r' = raw_failure r /\ raw_comment r' = raw_comment r /\ suppresses (raw_set r') = suppresses (raw_set r).
Definition sims (x y : result (list raw)) : Prop :=
  match x, y with Ok a, Ok b => Forall2 sim a b | Err _, Err _ => True | _, _ => False end.
Lemma sim_finish l r r' : sim r r' -> finish l r = finish l r'.
Proof. intros (A & B & C). unfold finish, is_suppressed. rewrite !allow_is, A, B, C. reflexivity. Qed.
Lemma sims_finish l a b : Forall2 sim a b -> flat_map (finish l) a = flat_map (finish l) b.
Proof. induction 1 as [|r r' a b H F IH]; [reflexivity|]. cbn [flat_map]. now rewrite (sim_finish l r r' H), IH. Qed.
Lemma sim_unique d d' uses : d_filename d' = d_filename d -> forall seen, Forall2 sim (unique_loop d seen uses) (unique_loop d' seen uses).
Proof.
  intros H. induction uses as [|[r s] uses IH]; intros seen; cbn [unique_loop]; [constructor|]. apply Forall2_app; [|apply IH].
  unfold if_. destruct (mem s seen); repeat constructor. cbn [raw_failure add_failure]. unfold failure_at. now rewrite H.
Qed.
Lemma sims_concatM {X} (f g : X -> result (list raw)) l : (forall x, sims (f x) (g x)) -> sims (concatM f l) (concatM g l).
Proof.
  intros H. induction l as [|x l IH]; [constructor|]. rewrite !concatM_cons. specialize (H x).
  destruct (f x), (g x); cbn in *; try contradiction; [|exact I].
  destruct (concatM f l), (concatM g l); cbn in *; try contradiction; [|exact I]. now apply Forall2_app.
Qed.
Lemma sims_concatM2 {X} (R : X -> X -> Prop) (f g : X -> result (list raw)) l l' : Forall2 R l l' -> (forall x y, R x y -> sims (f x) (g y)) -> sims (concatM f l) (concatM g l').
Proof.
  intros F H. induction F as [|x y l l' Hxy F IH]; [constructor|]. rewrite !concatM_cons. specialize (H _ _ Hxy).
  destruct (f x), (g y); cbn in *; try contradiction; [|exact I].
  destruct (concatM f l), (concatM g l'); cbn in *; try contradiction; [|exact I]. now apply Forall2_app.
Qed.
Lemma F2_flat_map2 {X A} (S : X -> X -> Prop) (R : A -> A -> Prop) (f g : X -> list A) l l' : Forall2 S l l' -> (forall x y, S x y -> Forall2 R (f x) (g y)) -> Forall2 R (flat_map f l) (flat_map g l').
Proof. intros F H. induction F; cbn [flat_map]; [constructor|]. apply Forall2_app; auto. Qed.
Lemma F2_map2 {X A} (S : X -> X -> Prop) (R : A -> A -> Prop) (f g : X -> A) l l' : Forall2 S l l' -> (forall x y, S x y -> R (f x) (g y)) -> Forall2 R (map f l) (map g l').
Proof. intros F H. induction F; cbn [map]; constructor; auto. Qed.

Definition steady (l : linter) : Prop := forall ds ds', Forall2 kin ds ds' -> sims (ln_check l ds) (ln_check l ds').

Lemma st_visiting id ann ks hook :
  (forall d d' ctx e, kin d d' -> Forall2 sim (hook d ctx e) (hook d' ctx e)) ->
  steady (new_suppressable_linter id ann (visiting ks hook)).
Proof.
  intros H ds ds' F. cbn [ln_check new_suppressable_linter]. unfold visiting. cbn [sims]. eapply F2_flat_map2; [exact F|]. intros d d' A.
  unfold visited. destruct A as (N & E & A). rewrite E. apply F2_flat_map. intros [ctx e]. apply H. split; [exact N|]. split; [exact E|exact A].
Qed.
Lemma st_per_file_ok id ann check :
  (forall d d', kin d d' -> Forall2 sim (check d) (check d')) ->
  steady (new_suppressable_linter id ann (per_file_ok check)).
Proof. intros H ds ds' F. cbn [ln_check new_suppressable_linter]. unfold per_file_ok. cbn [sims]. eapply F2_flat_map2; [exact F|exact H]. Qed.
Lemma st_per_file id ann check :
  (forall d d', kin d d' -> sims (check d) (check d')) ->
  steady (new_suppressable_linter id ann (per_file check)).
Proof. intros H ds ds' F. cbn [ln_check new_suppressable_linter]. unfold per_file. eapply sims_concatM2; [exact F|exact H]. Qed.

Ltac prep :=
  let n := fresh "n" in let s := fresh "s" in let n' := fresh "n" in let s' := fresh "s" in
  let els := fresh "els" in let data := fresh "data" in let els' := fresh "els" in let data' := fresh "data" in
  intros [n els s data] [n' els' s' data'];
  let E0 := fresh "E" in let E1 := fresh "E" in let E2 := fresh "E" in
  let Hh := fresh "Hh" in let Hj := fresh "Hj" in let Hs := fresh "Hs" in let Hd := fresh "Hd" in
  intros;
  match goal with H : kin _ _ |- _ => destruct H as (E0 & E1 & E2 & Hh & Hj & Hs & Hd) end;
  cbn [d_filename d_set d_elements d_data] in E0, E1, E2, Hh, Hj, Hs, Hd |- *; subst n' els' data'.
Ltac sim_leaf := split; [reflexivity|split; [reflexivity|first [reflexivity|assumption]]].
Ltac sim_tac :=
  repeat first
    [ match goal with |- Forall2 _ (map _ ?x) (map _ ?y) => change y with x; apply F2_map end
    | apply Forall2_nil
    | apply Forall2_cons; [sim_leaf|]
    | apply sim_unique; reflexivity
    | sim_leaf
    | progress (intros; cbv beta zeta)
    | match goal with
      | |- Forall2 _ (_ ++ _) (_ ++ _) => apply Forall2_app
      | |- Forall2 _ (flat_map _ ?x) (flat_map _ ?y) => change y with x; apply F2_flat_map
      | |- Forall2 _ (map _ ?x) (map _ ?y) => change y with x; apply F2_map
      | |- Forall2 _ (if_ _ _) _ => unfold if_
      | |- Forall2 _ (if_not _ _) _ => unfold if_not
      | |- Forall2 _ (duplicate_packages _) _ => unfold duplicate_packages
      | |- Forall2 _ (duplicates _ _ _ _) _ => unfold duplicates
      | |- Forall2 _ (same_file_failure _ _ _ _ _) _ => unfold same_file_failure
      | |- Forall2 _ (match ?x with _ => _ end) (match ?y with _ => _ end) =>
          first [ change y with x | replace y with x by congruence ]; destruct x
      end ].
Ltac st_tac := first [ apply st_visiting | apply st_per_file_ok ]; prep; sim_tac.

Lemma st_header : steady l_file_header.
Proof. apply st_per_file_ok. prep. rewrite Hh. sim_tac. Qed.
Lemma st_prefixes_except : steady l_enum_field_prefixes_except_message.
Proof.
  apply st_per_file. prep. apply sims_concatM. intros [ctx e]. cbn [fst snd]. destruct e; try (constructor; fail).
  destruct (enclosing_enum ctx); cbn; [|exact I]. sim_tac.
Qed.
Lemma st_zero_except : steady l_enum_zero_values_invalid_except_message.
Proof.
  apply st_per_file. prep. apply sims_concatM. intros [ctx e]. cbn [fst snd]. destruct e; try (constructor; fail).
  match goal with |- context [if ?b then _ else _] => destruct b end; [|constructor].
  destruct (enclosing_enum ctx); cbn; [|exact I]. sim_tac.
Qed.
Lemma st_http : steady l_rpc_options_no_google_api_http.
Proof.
  apply st_per_file. prep. apply sims_concatM. intros [ctx e]. cbn [fst snd]. destruct e; try (constructor; fail).
  match goal with |- context [if ?b then _ else _] => destruct b end; [|constructor].
  destruct ctx as [|[] ctx]; cbn; try exact I. constructor; [sim_leaf|constructor].
Qed.
Lemma st_equal id name expected : (forall d d' p, kin d d' -> expected d' p = expected d p) ->
  steady (new_linter id (check_file_options_equal name expected)).
Proof.
  intros HE. apply st_per_file. intros d d' A. pose proof (fun p => HE d d' p A) as X. destruct A as (N & E & _ & _).
  unfold packages, file_options. rewrite E, N.
  destruct (last_opt (flat_map _ (d_elements d))) as [p|]; [|constructor].
  destruct (last_opt (flat_map _ (d_elements d))) as [o|]; [|constructor].
  destruct (is_empty (d_filename d)); [exact I|].
  rewrite X. cbn [sims]. unfold if_not. destruct (String.eqb _ _); repeat constructor. cbn [raw_failure add_failure]. unfold failure_at. now rewrite N.
Qed.
Lemma kin_dups {A} (pos : A -> position) msg (get : descriptor -> list A) d d' : kin d d' -> get d' = get d -> Forall2 sim (duplicates pos msg d (get d)) (duplicates pos msg d' (get d')).
Proof.
  intros (N & _) E. rewrite E. unfold duplicates. destruct (get d) as [|x l]; [constructor|]. apply F2_map. intros y. split; [|split; reflexivity]. cbn [raw_failure add_failure]. unfold failure_at. now rewrite N.
Qed.
Lemma kin_add p msg d d' : kin d d' -> sim (add_failure d p msg) (add_failure d' p msg).
Proof. intros (N & _). split; [|split; reflexivity]. cbn [raw_failure add_failure]. unfold failure_at. now rewrite N. Qed.
Lemma st_same_in_dir ord id name : steady (new_linter id (check_file_options_same_in_dir ord name)).
Proof.
  intros ds ds' F. cbn [ln_check new_linter new_suppressable_linter]. unfold check_file_options_same_in_dir. cbv zeta.
  set (vals := map _ ds). set (vals' := map _ ds').
  assert (vals' = vals) as ->.
  { unfold vals, vals'. induction F as [|d d' ds ds' (N & E & _) F IH]; [reflexivity|]. cbn [map]. rewrite IH by assumption. unfold file_options. now rewrite E. }
  cbn [sims]. apply Forall2_app.
  - eapply F2_flat_map2; [exact F|]. intros d d' K. apply (kin_dups o_pos _ (file_options name)); [exact K|]. destruct K as (_ & E & _). unfold file_options. now rewrite E.
  - destruct (1 <? length (build vals)); [|constructor]. destruct (has "" (build vals)); (eapply F2_map2; [exact F|]; intros d d' K; now apply kin_add).
Qed.
Lemma st_packages_same ord : steady (l_packages_same_in_dir ord).
Proof.
  intros ds ds' F. cbn [ln_check l_packages_same_in_dir new_linter new_suppressable_linter]. unfold check_packages_same_in_dir. cbv zeta.
  set (vals := flat_map (fun d => match packages d with [] => _ | _ => _ end) ds). set (vals' := flat_map (fun d => match packages d with [] => _ | _ => _ end) ds').
  assert (vals' = vals) as ->.
  { unfold vals, vals'. induction F as [|d d' ds ds' (N & E & _) F IH]; [reflexivity|]. cbn [flat_map]. rewrite IH by assumption. unfold packages. now rewrite E. }
  cbn [sims]. apply Forall2_app.
  - eapply F2_flat_map2; [exact F|]. intros d d' K. unfold duplicate_packages. apply (kin_dups pk_pos _ packages); [exact K|]. destruct K as (_ & E & _). unfold packages. now rewrite E.
  - destruct (1 <? length (build vals)); [|constructor]. eapply F2_map2; [exact F|]; intros d d' K; now apply kin_add.
Qed.
Lemma kin_prefix d d' : kin d d' -> lc_java_package_prefix (cfg_lint (ps_config (d_set d'))) = lc_java_package_prefix (cfg_lint (ps_config (d_set d))).
Proof. intros (_ & _ & _ & _ & H & _). exact H. Qed.
Lemma kin_class d d' : kin d d' -> java_outer_classname (d_filename d') = java_outer_classname (d_filename d).
Proof. intros (N & _). now rewrite N. Qed.
Ltac equal_tac :=
  apply st_equal; intros ? ? ? A;
  first [ reflexivity | rewrite (kin_prefix _ _ A); reflexivity | exact (kin_class _ _ A) ].
Lemma all_steady ord sing : Forall steady (all_linters ord sing).
Proof.
  table ltac:(first
    [ apply st_header | apply st_prefixes_except | apply st_zero_except | apply st_http | apply st_packages_same | apply st_same_in_dir
    | equal_tac; fail
    | st_tac; fail
    | idtac ]).
Qed.

(** ** A whole run *)
Section Fewer.
  Variables (ord : order) (sing : string -> string) (cwd : string) (read : string -> result (list element * string)).
  Hypothesis Ho : reorders ord.
  Lemma kin_check l ds ds' ignores : In l (all_linters ord sing) -> Forall2 kin ds ds' ->
    same_result (@Permutation failure) (check_one cwd l ds' ignores) (check_one cwd l ds ignores).
  Proof.
    intros Hl F. unfold check_one, linter_check.
    assert (F' : Forall2 kin (filter_ignores cwd l ds ignores) (filter_ignores cwd l ds' ignores)).
    { unfold filter_ignores. induction F as [|d d' ds ds' K F IH]; [constructor|]. cbn [filter].
      assert (should_ignore cwd l d' ignores = should_ignore cwd l d ignores) as ->.
      { destruct K as (N & _ & _ & _ & _ & _ & D). unfold should_ignore. now rewrite N, D. }
      destruct (negb _); [now constructor|assumption]. }
    pose proof (all_steady ord sing) as St. rewrite Forall_forall in St. pose proof (St l Hl _ _ F') as S.
    destruct (ln_check l (filter_ignores cwd l ds ignores)), (ln_check l (filter_ignores cwd l ds' ignores)); cbn [sims] in S; try contradiction; cbn [bind]; constructor.
    now rewrite (sims_finish l _ _ S).
  Qed.
  Lemma kin_read ps ps' absolute files ds : kin_sets ps ps' -> mapM (read_descriptor read ps absolute) files = Ok ds ->
    exists ds', mapM (read_descriptor read ps' absolute) files = Ok ds' /\ Forall2 kin ds ds'.
  Proof.
    intros K. revert ds. induction files as [|f files IH]; intros ds E; cbn [mapM] in *; [injection E as <-; exists []; repeat constructor|].
    unfold read_descriptor in *. destruct (read (pf_path f)) as [x|]; cbn [bind] in *; [|discriminate].
    destruct (mapM _ files) as [r|] eqn:Er in E; cbn [bind] in E; [|discriminate]. injection E as <-.
    destruct (IH r Er) as (r' & -> & F). cbn [bind]. eexists. split; [reflexivity|]. constructor; [|exact F]. repeat split; apply K.
  Qed.
  Definition kin_dirs (x y : string * list descriptor) : Prop := fst x = fst y /\ Forall2 kin (snd x) (snd y).
  Lemma kin_read_dirs ps ps' absolute l dirs : kin_sets ps ps' -> mapM (read_dir read ps absolute) l = Ok dirs ->
    exists dirs', mapM (read_dir read ps' absolute) l = Ok dirs' /\ Forall2 kin_dirs dirs dirs'.
  Proof.
    intros K. revert dirs. induction l as [|f l IH]; intros dirs E; cbn [mapM] in *; [injection E as <-; exists []; repeat constructor|].
    unfold read_dir in E at 1. unfold read_dir at 1. destruct (mapM _ (snd f)) as [ds|] eqn:Ed in E; cbn [bind] in E; [|discriminate].
    destruct (kin_read ps ps' absolute _ _ K Ed) as (ds' & -> & F). cbn [bind].
    destruct (mapM _ l) as [r|] eqn:Er in E; cbn [bind] in E; [|discriminate]. injection E as <-.
    destruct (IH r Er) as (r' & -> & F'). cbn [bind]. eexists. split; [reflexivity|]. constructor; [|exact F']. split; [reflexivity|exact F].
  Qed.
  Lemma concatM_sub {A B} (f : A -> result (list B)) (p : A -> bool) (b : B -> bool) l r :
    (forall x a y, In x l -> f x = Ok a -> In y a -> b y = p x) -> concatM f l = Ok r -> concatM f (filter p l) = Ok (filter b r).
  Proof.
    intros H. revert r. induction l as [|x l IH]; intros r E; [injection E as <-; reflexivity|].
    rewrite concatM_cons in E. destruct (f x) as [a|] eqn:Ea; cbn [bind] in E; [|discriminate].
    destruct (concatM f l) as [c|] eqn:Ec; cbn [bind] in E; [|discriminate]. injection E as <-.
    specialize (IH (fun x a y Hx => H x a y (or_intror Hx)) c eq_refl). rewrite filter_app. cbn [filter].
    assert (X : forall y, In y a -> b y = p x) by (intros y; apply H; [now left|exact Ea]).
    destruct (p x).
    - rewrite concatM_cons, Ea, IH. cbn [bind]. do 2 f_equal. clear -X. induction a as [|y a IH]; [reflexivity|]. cbn [filter]. rewrite (X y (or_introl eq_refl)). f_equal. apply IH. intros z Hz. apply X. now right.
    - rewrite IH. f_equal. replace (filter b a) with (@nil B); [reflexivity|]. clear -X. induction a as [|y a IH]; [reflexivity|]. cbn [filter]. rewrite (X y (or_introl eq_refl)). apply IH. intros z Hz. apply X. now right.
  Qed.
  Theorem fewer_rules ps ps' absolute fs :
    NoDup (map fst (ps_files ps)) ->
    ps_files ps' = ps_files ps -> ps_dir ps' = ps_dir ps -> lc_ignores (cfg_lint (ps_config ps')) = lc_ignores (cfg_lint (ps_config ps)) -> kin_sets ps ps' ->
    known_names (cfg_lint (ps_config ps')) ->
    (forall id, selected (cfg_lint (ps_config ps')) id -> selected (cfg_lint (ps_config ps)) id) ->
    lint_run ord cwd read (all_linters ord sing) (default_linters ord) (group_to_linters ord) ps absolute = Ok (map Some fs) ->
    exists fs', lint_run ord cwd read (all_linters ord sing) (default_linters ord) (group_to_linters ord) ps' absolute = Ok (map Some fs')
      /\ picks (fun f => selected (cfg_lint (ps_config ps')) (f_lint_id f)) fs fs'.
  Proof.
    intros Nd Ef Edir Ei K KN Sel E. unfold lint_run in *.
    pose proof (selection ord sing Ho (cfg_lint (ps_config ps))) as S. pose proof (selection ord sing Ho (cfg_lint (ps_config ps'))) as S'.
    destruct (get_linters _ _ _ _ (cfg_lint (ps_config ps))) as [ls|]; cbn [bind] in E; [|discriminate]. destruct S as (_ & N1 & I1 & S1).
    destruct (get_linters _ _ _ _ (cfg_lint (ps_config ps'))) as [ls'|]; cbn [bind]; [|exfalso; exact (S' KN)]. destruct S' as (_ & N2 & I2 & S2).
    rewrite dirs_eq in E by assumption. rewrite dirs_eq by (rewrite ?Ef; assumption). rewrite Ef, Ei.
    assert (filter (wanted ps') (ord "GetDirPathToDescriptors" _ (ps_files ps)) = filter (wanted ps) (ord "GetDirPathToDescriptors" _ (ps_files ps))) as ->.
    { apply filter_ext. intros x. unfold wanted. now rewrite Edir. }
    destruct (mapM _ _) as [dirs|] eqn:Ed in E; cbn [bind] in E; [|discriminate].
    destruct (kin_read_dirs ps ps' absolute _ _ K Ed) as (dirs' & -> & F). cbn [bind].
    set (ign := lc_ignores (cfg_lint (ps_config ps))) in *.
    unfold check_multiple in *. destruct (concatM _ _) as [all|] eqn:Ea in E; cbn [bind] in E; [|discriminate]. injection E as E.
    set (p := fun l : linter => mem (ln_id l) (map ln_id ls')). set (b := fun f => mem (f_lint_id f) (map ln_id ls')).
    assert (Pe : Permutation ls' (filter p ls)).
    { apply NoDup_Permutation.
      - exact (NoDup_map_inv _ _ N2).
      - apply NoDup_filter. exact (NoDup_map_inv _ _ N1).
      - intros l. rewrite filter_In. unfold p. rewrite mem_In. split.
        + intros Hl. split; [|now apply in_map]. pose proof (proj1 (S2 (ln_id l)) (in_map ln_id _ _ Hl)) as Hs.
          apply Sel, S1, in_map_iff in Hs as (l2 & El & H2). rewrite <- (unique_linter ord sing l2 l); auto.
        + intros [Hl Hi]. apply in_map_iff in Hi as (l2 & El & H2). rewrite <- (unique_linter ord sing l2 l); auto. }
    assert (G : concatM (fun dir => concatM (fun l => check_one cwd l (snd dir) ign) (filter p ls)) (ord "CheckMultiple" _ dirs) = Ok (filter b all)).
    { eapply concatM_filter; [|exact Ea]. intros [dir ds] a Hin. cbn [snd]. apply concatM_sub. intros l c f Hl Ec Hf.
      unfold check_one in Ec. destruct (linter_check_covers ord sing l _ c f (I1 l Hl) Ec Hf) as (Ei' & _). unfold b, p. now rewrite Ei'. }
    assert (R : same_result (@Permutation failure)
      (concatM (fun dir => concatM (fun l => check_one cwd l (snd dir) ign) ls') (ord "CheckMultiple" _ dirs')) (Ok (filter b all))).
    { rewrite <- G. eapply same_trans; [apply concatM_perm, Permutation_sym, Ho|].
      eapply same_trans; [|apply concatM_perm, Ho].
      apply (concatM_rel (fun x y => kin_dirs y x)); [clear -F; induction F; constructor; auto|].
      intros x y [_ H]. eapply same_trans; [apply concatM_perm, Pe|].
      apply (concatM_rel (fun l l' => l = l' /\ In l ls)).
      - assert (X : incl (filter p ls) ls) by (intros l Hl; now apply filter_In in Hl). clear -X. revert X. generalize (filter p ls). intros k. induction k as [|l k IH]; intros X; [constructor|].
        constructor; [split; [reflexivity|apply X; now left]|apply IH; intros z Hz; apply X; now right].
      - intros l l' [<- Hl]. apply kin_check; [now apply I1|exact H]. }
    inversion R as [all' ? Pa E1 E2|]; subst. cbn [bind].
    exists (filter b fs). split.
    - f_equal. rewrite <- (sort_filter b all fs E). destruct (sort_failures_plain all') as (s1 & Q1 & P1 & O1).
      destruct (sort_failures_plain (filter b all)) as (s2 & Q2 & P2 & O2). rewrite Q2. symmetry. apply sort_failures_char.
      + apply Permutation_map. etransitivity; [exact Pa|exact P2].
      + now apply sorted_map_Some.
    - exists b. split; [|reflexivity]. intros f _. unfold b. rewrite mem_In. apply S2.
  Qed.
End Fewer.
