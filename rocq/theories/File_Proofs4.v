(** Proofs about file sets: the interface. *)
From Coq Require Import Permutation Lia.
From Verif Require Import GoStrFacts GoPathFacts GoMapFacts Strs_Spec Settings_Model Settings_Spec Settings_Proofs Settings_Proofs2.
From Verif Require Import Lint_Spec LintRun_Proofs LintRun_Proofs2 File_Model File_Spec File_Proofs File_Proofs2 File_Proofs3.

Lemma abs_clean_abs cwd w : ok_comps w -> abs_clean cwd (abs_path w) = abs_path w.
Proof.
  intros H. unfold abs_clean. rewrite is_abs_abs_path. cbn [negb]. rewrite clean_abs_path by assumption.
  destruct (is_empty (abs_path w)) eqn:E; [|reflexivity]. now apply is_empty_true in E.
Qed.
Lemma path_dir_clean p : clean_abs p -> clean_abs (path_dir p).
Proof.
  intros (cs & H & ->). destruct cs as [|x l _] using rev_ind.
  - exists []. split; [constructor|]. vm_compute. reflexivity.
  - apply ok_comps_app in H as [H1 H2]. exists l. split; [assumption|]. apply path_dir_abs; [assumption|now inversion H2].
Qed.
Section Interface.
  Variable ord : order.
  Hypothesis Hord : reorders ord.
  Variable cwd : string.
  Variable node_at : string -> node.
  Hypothesis Hnamed : forall p, named (node_at p).
  Variable ex : string -> bool.
  Variable read : string -> result string.
  Variable dj dy : string -> result external_config.
  Variable look : string -> result string.
  Variable sort : list gen_plugin -> list gen_plugin.
  Variable devel : bool.
  Notation provide := (provider_get_for_dir ord cwd node_at ex read dj dy look sort devel "").
  Notation get_files := (walk_and_get_all_proto_files node_at ex read dj dy "").

  Lemma config_dir_path a p : ok_comps a -> the_config ex a p -> path_dir p = abs_path a /\ p <> "".
  Proof. intros H T. destruct (config_path_facts a p H (proj1 T)) as (_ & _ & A & B). auto. Qed.
  Lemma root_searched work d root : ok_comps d -> (root_of ex "" work (abs_path d) = Ok root <->
    exists r, ok_comps r /\ root = abs_path r /\ searched ex d r).
  Proof.
    intros H. unfold root_of. cbn [is_empty].
    assert (forall a, nearest ex d a -> ok_comps a) as Oa by (intros a (b & E & _); subst d; now apply ok_comps_app in H).
    pose proof (fun p => governs_iff ex d p H) as G. split.
    - destruct (get_file_path_for_dir ex (abs_path d)) as [p|]; [|discriminate]. cbn [bind]. intros E; injection E as <-.
      pose proof (proj1 (G p) eq_refl) as Gp. destruct Gp as [[-> N]|(a & N & T)].
      + exists d. cbn [is_empty negb]. split; [assumption|]. split; [reflexivity|]. left. split; [left; auto|reflexivity].
      + destruct (config_dir_path a p (Oa a N) T) as [E1 E2]. apply is_empty_false in E2. rewrite E2. cbn [negb].
        exists a. split; [auto|]. split; [assumption|]. right. eauto.
    - intros (r & Hr & -> & [[Gd ->]|(p & N & T)]).
      + apply G in Gd. rewrite Gd. reflexivity.
      + assert (governs ex d p) as Gp by (right; eauto). apply G in Gp. rewrite Gp. cbn [bind].
        destruct (config_dir_path r p Hr T) as [E1 E2]. apply is_empty_false in E2. rewrite E2. cbn [negb]. now rewrite E1.
  Qed.
  Lemma conf_dir work cf : ok_comps work -> forall c, conf ex read dj dy look sort devel "" (abs_path work) cf = Ok c <->
    (cf <> "" /\ get_for_file read dj dy look sort devel cf = Ok c) \/
    (cf = "" /\ get_for_dir ex read dj dy look sort devel (abs_path work) = Ok c).
  Proof.
    intros Hw c. unfold conf. cbn [is_empty negb]. destruct cf as [|ch cf]; cbn [is_empty negb]; split.
    - intros H. now right.
    - intros [[F _]|[_ H]]; [contradiction|assumption].
    - intros H. left. split; [discriminate|assumption].
    - intros [[_ H]|[F _]]; [assumption|discriminate].
  Qed.
  Lemma ext_dir e dir c : external_config_to_config read look sort devel e dir = Ok c -> cfg_dir c = dir.
  Proof.
    unfold external_config_to_config.
    repeat (match goal with |- (do _ <- ?x; _) = _ -> _ => destruct x; [|discriminate] end; cbn [bind]).
    destruct (negb devel && x_allow_suppression e); [discriminate|].
    match goal with |- (do _ <- ?x; _) = _ -> _ => destruct x; [|discriminate] end; cbn [bind].
    destruct (intersection _ _); [|discriminate]. intros H; injection H as <-. auto.
  Qed.
  Lemma conf_clean work cf c : ok_comps work -> (cf = "" \/ exists a, ok_comps a /\ the_config ex a cf) ->
    conf ex read dj dy look sort devel "" (abs_path work) cf = Ok c -> clean_abs (cfg_dir c).
  Proof.
    intros Hw Hcf H. apply conf_dir in H as [[Hn H]|[_ H]]; [| |assumption].
    - destruct Hcf as [->|(a & Ha & T)]; [easy|]. rewrite (get_file_eq _ _ _ _ _ _ a) in H by (auto || apply T).
      destruct (get_external_config read dj dy cf); [|discriminate]. apply ext_dir in H. rewrite H. now exists a.
    - apply get_for_dir_iff in H; [|assumption]. destruct H as [[_ H]|(a & file & e & N & _ & _ & H)].
      + apply ext_dir in H. rewrite H. now exists work.
      + apply ext_dir in H. rewrite H. exists a. split; [|reflexivity]. destruct N as (b & -> & _). now apply ok_comps_app in Hw.
  Qed.
  Lemma file_path_clean work root fs f : ok_comps root -> get_files work (abs_path root) = Ok fs -> In f fs ->
    clean_abs (pf_path f).
  Proof.
    intros Hr H Hf. destruct (files_paths _ _ _ _ _ _ _ _ _ _ Hr (Hnamed _) H Hf) as (cs & Hc & _ & -> & _).
    exists (root ++ cs). split; [now apply ok_comps_app|reflexivity].
  Qed.
  Lemma governed_iff f cf : clean_abs (pf_path f) -> (cf_of ex "" (path_dir (pf_path f)) = Ok cf <-> file_governed ex f cf).
  Proof.
    intros Hp. apply path_dir_clean in Hp as (a & Ha & E). unfold cf_of, file_governed. cbn [is_empty]. rewrite E.
    rewrite (governs_iff ex a cf Ha). split; [eauto|]. intros (a' & Ha' & E' & G). now apply abs_path_inj in E' as ->.
  Qed.
  Lemma governed_conf f cf : file_governed ex f cf -> cf = "" \/ exists a, ok_comps a /\ the_config ex a cf.
  Proof.
    intros (a & Ha & _ & [[-> _]|(b & N & T)]); [now left|]. right. exists b. split; [|assumption].
    destruct N as (r & -> & _). now apply ok_comps_app in Ha.
  Qed.
  Theorem one_configuration w d s : ok_comps w -> ok_comps d -> provide (abs_path w) (abs_path d) = Ok s ->
    ps_work_dir s = abs_path w /\ ps_dir s = abs_path d /\
    exists root fs cf,
      ok_comps root /\ searched ex d root /\ get_files (abs_path w) (abs_path root) = Ok fs /\ grouped fs (ps_files s) /\
      (forall f, In f fs -> file_governed ex f cf /\ inside (cfg_dir (ps_config s)) (pf_path f)) /\
      (fs = [] -> cf = "") /\
      (cf <> "" -> get_for_file read dj dy look sort devel cf = Ok (ps_config s)) /\
      (cf = "" -> get_for_dir ex read dj dy look sort devel (abs_path w) = Ok (ps_config s)).
  Proof.
    intros Hw Hd H. apply provide_ok in H; [|assumption]. rewrite !abs_clean_abs in H by assumption.
    destruct H as (A & B & root & fs & R & F & G & C0 & C1 & V). split; [assumption|]. split; [assumption|].
    apply root_searched in R as (r & Hr & -> & S); [|assumption].
    assert (forall f, In f fs -> clean_abs (pf_path f)) as Cl by (intros f; eapply file_path_clean; eassumption).
    assert (exists cf, conf ex read dj dy look sort devel "" (abs_path w) cf = Ok (ps_config s) /\
      (forall f, In f fs -> file_governed ex f cf) /\ (fs = [] -> cf = "")) as (cf & Hc & All & Em).
    { destruct fs as [|f0 fs'].
      - exists "". split; [auto|]. split; [intros f []|reflexivity].
      - destruct C1 as (cf & Hc & All); [discriminate|]. exists cf. split; [assumption|]. split; [|discriminate].
        intros f Hf. apply governed_iff; auto. }
    exists r, fs, cf. split; [assumption|]. split; [assumption|]. split; [assumption|]. split; [assumption|].
    split.
    { intros f Hf. split; [auto|]. apply validate_is_rel_iff; auto.
      eapply conf_clean; [exact Hw|eapply governed_conf; eauto|exact Hc]. }
    split; [assumption|]. apply conf_dir in Hc; [|assumption]. split; intros Hcf; destruct Hc as [[? ?]|[? ?]]; congruence || assumption.
  Qed.
  Theorem one_configuration_accepted w d root fs cf c : ok_comps w -> ok_comps d -> ok_comps root -> searched ex d root ->
    get_files (abs_path w) (abs_path root) = Ok fs ->
    (forall f, In f fs -> file_governed ex f cf /\ inside (cfg_dir c) (pf_path f)) ->
    (fs = [] -> cf = "") ->
    (cf <> "" -> get_for_file read dj dy look sort devel cf = Ok c) ->
    (cf = "" -> get_for_dir ex read dj dy look sort devel (abs_path w) = Ok c) ->
    exists s, provide (abs_path w) (abs_path d) = Ok s /\ ps_config s = c.
  Proof.
    intros Hw Hd Hr S F All Em Cf Cd.
    assert (conf ex read dj dy look sort devel "" (abs_path w) cf = Ok c) as Hc.
    { apply conf_dir; [assumption|]. destruct (is_empty cf) eqn:E; [apply is_empty_true in E|apply is_empty_false in E]; auto. }
    apply (provide_total ord Hord _ _ _ _ _ _ _ _ _ _ _ _ (abs_path root) fs c); rewrite ?abs_clean_abs by assumption.
    - apply root_searched; eauto.
    - assumption.
    - intros E. rewrite Em in Hc by assumption. assumption.
    - intros Hn. exists cf. split; [assumption|]. intros f Hf. apply governed_iff; [eapply file_path_clean; eassumption|now apply All].
    - intros f Hf. apply validate_is_rel_iff; [|eapply file_path_clean; eassumption|now apply All].
      destruct fs as [|f0 fs']; [easy|]. eapply conf_clean; [exact Hw| |exact Hc]. eapply governed_conf. apply All. now left.
  Qed.
  (** Two files with different configuration files. *)
  Theorem two_configurations w d root fs f g cf cg : ok_comps w -> ok_comps d -> ok_comps root -> searched ex d root ->
    get_files (abs_path w) (abs_path root) = Ok fs -> In f fs -> In g fs ->
    file_governed ex f cf -> file_governed ex g cg -> cf <> cg ->
    exists m, provide (abs_path w) (abs_path d) = Err m.
  Proof.
    intros Hw Hd Hr S F Hf Hg Gf Gg Hn. destruct (provide (abs_path w) (abs_path d)) as [s|m] eqn:E; [|eauto]. exfalso. apply Hn.
    apply one_configuration in E as (_ & _ & root' & fs' & c & Hr' & S' & F' & _ & All & _); [|assumption|assumption].
    assert (Ok (abs_path root) = Ok (abs_path root')) as Er.
    { rewrite <- (proj2 (root_searched "" d (abs_path root) Hd)) by eauto.
      rewrite <- (proj2 (root_searched "" d (abs_path root') Hd)) by eauto. reflexivity. }
    assert (abs_path root = abs_path root') as Er' by congruence. rewrite Er', F' in F. injection F as ->.
    assert (forall f, In f fs -> clean_abs (pf_path f)) as Cl by (intros f'; eapply file_path_clean; eassumption).
    pose proof (proj1 (All f Hf)) as Af. pose proof (proj1 (All g Hg)) as Ag.
    apply governed_iff in Gf, Gg, Af, Ag; [|auto..]. congruence.
  Qed.
End Interface.

(** ** The order of the maps does not matter *)
Lemma provide_order ord ord' cwd node_at ex read dj dy look sort devel data work dir s : reorders ord -> reorders ord' ->
  provider_get_for_dir ord cwd node_at ex read dj dy look sort devel data work dir = Ok s ->
  exists s', provider_get_for_dir ord' cwd node_at ex read dj dy look sort devel data work dir = Ok s' /\
    ps_work_dir s' = ps_work_dir s /\ ps_dir s' = ps_dir s /\ ps_config s' = ps_config s /\
    Permutation (ps_files s) (ps_files s').
Proof.
  intros O O' H. apply provide_ok in H; [|assumption]. destruct H as (A & B & root & fs & R & F & G & C0 & C1 & V).
  destruct (provide_total ord' O' _ _ _ _ _ _ _ _ _ _ _ _ _ _ _ R F C0 C1 V) as (s' & Hs & Ec).
  exists s'. split; [assumption|]. apply provide_ok in Hs; [|assumption].
  destruct Hs as (A' & B' & root' & fs' & R' & F' & G' & _). rewrite R in R'. injection R' as <-. rewrite F in F'. injection F' as <-.
  split; [congruence|]. split; [congruence|]. split; [assumption|].
  assert (forall m, grouped fs m -> NoDup m) as ND.
  { intros m [N _]. revert N. induction m as [|x m IH]; intros N; [constructor|]. inversion N; subst. constructor; [|auto].
    intros Hx. apply (in_map fst) in Hx. contradiction. }
  apply NoDup_Permutation; [now apply ND|now apply ND|]. intros [d l]. destruct G as [_ G], G' as [_ G']. now rewrite G, G'.
Qed.
(** ** Configuration data *)
Section Data.
  Variable ord : order.
  Hypothesis Hord : reorders ord.
  Variable cwd : string.
  Variable node_at : string -> node.
  Variable ex : string -> bool.
  Variable read : string -> result string.
  Variable dj dy : string -> result external_config.
  Variable look : string -> result string.
  Variable sort : list gen_plugin -> list gen_plugin.
  Variable devel : bool.
  Variable data : string.
  Hypothesis Hdata : data <> "".
  Theorem data_configuration w dir s : ok_comps w ->
    provider_get_for_dir ord cwd node_at ex read dj dy look sort devel data (abs_path w) dir = Ok s ->
    get_for_data read dj look sort devel (abs_path w) data = Ok (ps_config s) /\
    exists fs, walk_and_get_all_proto_files node_at ex read dj dy data (abs_path w) (abs_path w) = Ok fs /\ grouped fs (ps_files s).
  Proof.
    intros Hw H. apply provide_ok in H; [|assumption]. rewrite !abs_clean_abs in H by assumption.
    destruct H as (A & B & root & fs & R & F & G & C0 & C1 & V). apply is_empty_false in Hdata as Hd.
    unfold root_of in R. rewrite Hd in R. injection R as <-. split; [|eauto].
    destruct fs as [|f0 fs'].
    - specialize (C0 eq_refl). unfold conf in C0. now rewrite Hd in C0.
    - destruct C1 as (cf & C1 & _); [discriminate|]. unfold conf in C1. now rewrite Hd in C1.
  Qed.
  Variable ex' : string -> bool.
  Lemma visit_data work root path b st : visit_path ex read dj dy data work root path b st = visit_path ex' read dj dy data work root path b st.
  Proof. unfold visit_path. apply is_empty_false in Hdata as ->. reflexivity. Qed.
  Lemma walk_data work root n : forall path st, walk ex read dj dy data work root path n st = walk ex' read dj dy data work root path n st.
  Proof.
    induction n as [| | |es IH] using node_ind'; intros path st; [|reflexivity|reflexivity|].
    - cbn [walk]. now rewrite visit_data.
    - cbn [walk]. rewrite visit_data. destruct (visit_path _ _ _ _ _ _ _ _ _ _) as [[[] st']|]; cbn [bind]; [|reflexivity|reflexivity].
      clear st. revert st'. induction es as [|[name c] es IHe]; intros st'; [reflexivity|]. inversion IH as [|? ? IH1 IH2]; subst. cbn [snd] in IH1. rewrite IH1.
      destruct (walk _ _ _ _ _ _ _ _ _ _) as [st2|]; [|reflexivity]. cbn [bind]. now apply IHe.
  Qed.
  (** No configuration file matters. *)
  Theorem data_ignores_files work dir :
    provider_get_for_dir ord cwd node_at ex read dj dy look sort devel data work dir =
    provider_get_for_dir ord cwd node_at ex' read dj dy look sort devel data work dir.
  Proof.
    apply is_empty_false in Hdata as Hd.
    unfold provider_get_for_dir, get_multiple_for_dir, walk_and_get_all_proto_files. cbv zeta. rewrite Hd. cbn [bind].
    destruct (initial_excludes dj data (abs_clean cwd work)) as [E|]; [|reflexivity]. cbn [bind]. rewrite walk_data.
    destruct (walk _ _ _ _ _ _ _ _ _ _) as [st|]; [|reflexivity]. cbn [bind].
    assert (forall W ds, base_proto_sets ord ex read dj dy look sort devel data W ds = base_proto_sets ord ex' read dj dy look sort devel data W ds) as ->.
    { intros W ds. unfold base_proto_sets, default_base_proto_set. rewrite Hd. destruct ds; [reflexivity|].
      generalize (ord "DirPathToProtoFiles" _ (p :: ds)) as l. intros l.
      enough (forall m, add_dirs ex read dj dy look sort devel data W l m = add_dirs ex' read dj dy look sort devel data W l m) as -> by reflexivity.
      induction l as [|[d fs] l IH]; intros m; [reflexivity|]. cbn [add_dirs]. unfold add_dir. rewrite Hd. cbn [bind negb].
      destruct (get_config_for_data _ _ _ _ _ _ _); [|reflexivity]. cbn [bind]. apply IH. }
    reflexivity.
  Qed.
End Data.
(** ** Names shown *)
Lemma provide_shown ord cwd node_at ex read dj dy look sort devel data w d s dir l f : reorders ord -> (forall p, named (node_at p)) ->
  ok_comps w -> ok_comps d ->
  provider_get_for_dir ord cwd node_at ex read dj dy look sort devel data (abs_path w) (abs_path d) = Ok s ->
  In (dir, l) (ps_files s) -> In f l ->
  path_dir (pf_path f) = dir /\ shown (abs_path w) (pf_path f) (pf_display f).
Proof.
  intros O Nm Hw Hd H Hl Hf. apply provide_ok in H; [|assumption]. rewrite !abs_clean_abs in H by assumption.
  destruct H as (_ & _ & root & fs & R & F & [_ G] & _). apply G in Hl as [_ ->]. unfold files_of_dir in Hf.
  apply filter_In in Hf as [Hf E]. apply String.eqb_eq in E. split; [assumption|].
  assert (exists r, ok_comps r /\ root = abs_path r) as (r & Hr & ->).
  { unfold root_of in R. destruct (is_empty data) eqn:Ed; [|injection R as <-; eauto].
    apply is_empty_true in Ed. subst data. apply (root_searched ex "" d root Hd) in R as (r & Hr & -> & _). eauto. }
  destruct (files_paths _ _ _ _ _ _ _ _ _ _ Hr (Nm _) F Hf) as (cs & _ & _ & _ & S). apply S. now exists w.
Qed.
(** ** Relative directories *)
Lemma provide_relative ord cwd node_at ex read dj dy look sort devel data work dir s :
  clean_abs cwd -> dir <> "" -> is_abs dir = false ->
  (provider_get_for_dir ord cwd node_at ex read dj dy look sort devel data work dir = Ok s <->
   provider_get_for_dir ord cwd node_at ex read dj dy look sort devel data work (path_clean (cwd +++ "/" +++ dir)) = Ok s).
Proof.
  intros C Hn Ha. unfold provider_get_for_dir.
  assert (abs_clean cwd (path_clean (cwd +++ "/" +++ dir)) = abs_clean cwd dir) as E.
  { assert (abs_clean cwd dir = path_clean (cwd +++ "/" +++ dir)) as ->.
    { apply is_empty_false in Hn. unfold abs_clean. rewrite Hn, Ha. cbn [negb]. unfold path_abs. rewrite Ha.
      destruct C as (cs & _ & ->). unfold path_join. cbn [filter]. rewrite Hn. reflexivity. }
    assert (clean_abs (path_clean (cwd +++ "/" +++ dir))) as (ds & Hds & ->).
    { apply path_clean_clean_abs. destruct C as (cs & _ & ->). reflexivity. }
    now apply abs_clean_abs. }
  unfold get_multiple_for_dir. cbv zeta. rewrite E. set (X := _ : result (list proto_set)).
  destruct X as [[|x [|y l]]|]; cbn [bind]; split; intros H; try discriminate; assumption.
Qed.

(** ** Entries the configuration accepts *)
Lemma ok_comp_slash x : ok_comp x = true -> no_char "/" x = true.
Proof. unfold ok_comp. intros H. now repeat (apply andb_true_iff in H as [H ?]). Qed.
Lemma prefix_cases a b c d : a +++ b = c +++ d -> (exists k, a = c +++ k) \/ (exists k, c = a +++ k /\ b = k +++ d).
Proof.
  revert c. induction a as [|x a IH]; intros c H.
  - right. exists c. split; [reflexivity|]. exact H.
  - destruct c as [|y c]; [left; now exists (String x a)|]. cbn in H. injection H as -> H.
    destruct (IH c H) as [(k & ->)|(k & -> & ->)]; [left; now exists k|right; now exists k].
Qed.
Lemma join_prefix cs n : forall ds r, ok_comps (cs ++ [n]) -> ok_comps ds -> join "/" ds = join "/" (cs ++ [n]) +++ r ->
  exists k rest, ds = cs ++ (n +++ k) :: rest /\ (k = "" -> r = "" /\ rest = [] \/ exists r', r = "/" +++ r').
Proof.
  induction cs as [|c cs IH]; intros ds r Hc Hd H.
  - cbn [app join] in H. inversion Hc as [|? ? Hn _]; subst. apply ok_comp_slash in Hn as Sn.
    destruct ds as [|d ds].
    + cbn in H. destruct n; [discriminate Hn|discriminate H].
    + inversion Hd as [|? ? Hd1 Hd2]; subst. destruct ds as [|d2 ds].
      * cbn in H. exists r, []. split; [now subst d|]. intros ->. left. auto.
      * rewrite join_cons2 in H. destruct (prefix_cases _ _ _ _ H) as [(k & Ek)|(k & Ek & Er)].
        -- exists k, (d2 :: ds). split; [now subst d|]. intros ->. right. rewrite sapp_nil_r in Ek. subst d.
           apply sapp_inj_l in H. exists (join "/" (d2 :: ds)). now symmetry.
        -- destruct k as [|ch k].
           ++ rewrite sapp_nil_r in Ek. subst d. exists "", (d2 :: ds). rewrite sapp_nil_r. split; [reflexivity|]. intros _. right.
              exists (join "/" (d2 :: ds)). cbn in Er. now symmetry.
           ++ cbn in Er. injection Er as <- _. rewrite Ek, no_char_app in Sn. apply andb_true_iff in Sn as [_ Sn]. discriminate Sn.
  - inversion Hc as [|? ? Hc1 Hc2]; subst. apply ok_comp_slash in Hc1 as Sc.
    assert (exists x l, cs ++ [n] = x :: l) as (x & l & El) by (destruct cs; cbn; eauto).
    cbn [app] in H. rewrite El in H. rewrite join_cons2 in H. rewrite <- El in H. rewrite !sapp_assoc in H.
    destruct ds as [|d ds]; [destruct c; [discriminate Hc1|discriminate H]|].
    inversion Hd as [|? ? Hd1 Hd2]; subst. apply ok_comp_slash in Hd1 as Sd.
    destruct ds as [|d2 ds].
    + cbn [join] in H. rewrite H, no_char_app in Sd. apply andb_true_iff in Sd as [_ Sd]. discriminate Sd.
    + rewrite join_cons2 in H.
      assert (d = c) as ->.
      { destruct (prefix_cases _ _ _ _ H) as [(k & Ek)|(k & Ek & Er)].
        - destruct k as [|ch k]; [now rewrite sapp_nil_r in Ek|]. exfalso. subst d. rewrite sapp_assoc in H. apply sapp_inj_l in H.
          cbn in H. injection H as -> _. rewrite no_char_app in Sd. apply andb_true_iff in Sd as [_ Sd]. discriminate Sd.
        - destruct k as [|ch k]; [now rewrite sapp_nil_r in Ek|]. exfalso. cbn in Er. injection Er as <- _.
          rewrite Ek, no_char_app in Sc. apply andb_true_iff in Sc as [_ Sc]. discriminate Sc. }
      apply sapp_inj_l in H. cbn in H. injection H as H.
      destruct (IH (d2 :: ds) r Hc2 Hd2 H) as (k & rest & E & K). exists k, rest. split; [|assumption]. cbn [app]. now f_equal.
Qed.
(** What an accepted entry is: something below the directory, or something in or below a
    sibling whose name starts with the directory's name. *)
Lemma exclude_ok_cases ds x : ok_comps ds -> exclude_ok (abs_path ds) x ->
  (within (abs_path ds) (against (abs_path ds) x) /\ against (abs_path ds) x <> abs_path ds)
  \/ exists parent name k rest, ds = parent ++ [name] /\ k <> "" /\ ok_comps (parent ++ (name +++ k) :: rest) /\
       against (abs_path ds) x = abs_path (parent ++ (name +++ k) :: rest).
Proof.
  intros Hds (r & Hr & E). assert (clean_abs (against (abs_path ds) x)) as (ps & Hp & Ep).
  { apply against_clean. now exists ds. }
  rewrite Ep in *. destruct ds as [|y ds _] using rev_ind.
  - left. split; [exists [], ps; auto|]. rewrite E. intros F. apply Hr. change "/" with ("/" +++ "") in F. apply sapp_inj_l in F. exact F.
  - destruct (join_prefix ds y ps r) as (k & rest & -> & K); [assumption|assumption| |].
    { unfold abs_path in E. cbn in E. injection E as E. exact E. }
    destruct k as [|ch k].
    + left. rewrite sapp_nil_r in *. split.
      * exists (ds ++ [y]), rest. split; [assumption|]. rewrite <- app_assoc. cbn [app]. split; [|auto].
        apply ok_comps_app in Hp as [_ Hp]. now inversion Hp.
      * rewrite E. intros F. apply Hr. rewrite <- (sapp_nil_r (abs_path (ds ++ [y]))) in F at 2. now apply sapp_inj_l in F.
    + right. exists ds, y, (String ch k), rest. split; [reflexivity|]. split; [discriminate|]. auto.
Qed.
Lemma accepted_entry read dj look sort devel d data e c x : sorts sort -> ok_comps d -> dj data = Ok e ->
  get_for_data read dj look sort devel (abs_path d) data = Ok c -> In x (x_excludes e) -> x <> "" ->
  In (against (abs_path d) x) (cfg_exclude_prefixes c) /\
  ((within (abs_path d) (against (abs_path d) x) /\ against (abs_path d) x <> abs_path d)
   \/ exists parent name k rest, d = parent ++ [name] /\ k <> "" /\ ok_comps (parent ++ (name +++ k) :: rest) /\
       against (abs_path d) x = abs_path (parent ++ (name +++ k) :: rest)).
Proof.
  intros S Hd E H Hx Hn. pose proof (is_abs_abs_path d) as Ha.
  assert (exists c, get_for_data read dj look sort devel (abs_path d) data = Ok c) as A by eauto.
  apply (get_for_data_accepts _ _ _ _ _ _ _ e S Ha E) in A.
  apply (get_for_data_normalises _ _ _ _ _ _ _ e _ S Ha E) in H as (B & _). rewrite clean_abs_path in * by assumption. split.
  - apply (be_excludes _ _ _ _ _ B). eauto.
  - apply exclude_ok_cases; [assumption|]. now apply (ac_excludes _ _ _ _ A).
Qed.
Lemma rejected_entry read dj look sort devel d data e x : sorts sort -> ok_comps d -> dj data = Ok e -> In x (x_excludes e) -> x <> "" ->
  ~ (within (abs_path d) (against (abs_path d) x) /\ against (abs_path d) x <> abs_path d) ->
  ~ (exists parent name k rest, d = parent ++ [name] /\ k <> "" /\ ok_comps (parent ++ (name +++ k) :: rest) /\
       against (abs_path d) x = abs_path (parent ++ (name +++ k) :: rest)) ->
  exists m, get_for_data read dj look sort devel (abs_path d) data = Err m.
Proof.
  intros S Hd E Hx Hn N1 N2. destruct (get_for_data read dj look sort devel (abs_path d) data) as [c|m] eqn:H; [|eauto]. exfalso.
  destruct (accepted_entry _ _ _ _ _ _ _ _ _ _ S Hd E H Hx Hn) as [_ [A|A]]; contradiction.
Qed.
