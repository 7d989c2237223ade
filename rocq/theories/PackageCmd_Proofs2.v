(** Proofs about the inspect commands and the break check. *)
From Verif Require Import GoStrFacts GoMapFacts GoPathFacts Text_Proofs Reflect_Model Reflect_Proofs ReflectValid_Proofs
  Breaking_Model Breaking_Spec Extract_Proofs BreakRun_Proofs Desc_Spec Desc_Proofs Exec_Proofs Exec_Proofs3 LintCmd_Proofs.
From Verif Require Export PackageCmd_Proofs.
From Coq Require Import Lia.

(** ** Names are listed once *)
Definition simple_links (xs : x_package_set) : Prop :=
  forall n p, gget n xs = Some p -> NoDup (map fst (xp_deps p)) /\ NoDup (map fst (xp_importers p)).
Lemma modify_simple k f xs : (forall p, NoDup (map fst (xp_deps p)) /\ NoDup (map fst (xp_importers p)) -> NoDup (map fst (xp_deps (f p))) /\ NoDup (map fst (xp_importers (f p)))) ->
  simple_links xs -> simple_links (modify k f xs).
Proof.
  intros Hf H n p Hp. destruct (string_dec n k) as [->|N].
  - rewrite modify_get_eq in Hp. destruct (gget k xs) as [q|] eqn:E; [|discriminate]. injection Hp as <-. apply Hf. exact (H _ _ E).
  - rewrite modify_get_neq in Hp by assumption. exact (H _ _ Hp).
Qed.
Lemma link_deps_simple wb name deps : forall xs ys, link_deps wb name deps xs = Ok ys -> simple_links xs -> simple_links ys.
Proof.
  induction deps as [|d rest IH]; intros xs ys H S; cbn [link_deps] in H; [now injection H as <-|].
  destruct (gget d xs); [|destruct (ignore_package wb d); [|discriminate]]; [|exact (IH _ _ H S)].
  apply IH in H; [exact H|]. apply modify_simple; [|apply modify_simple; [|exact S]]; intros p (A & B); cbn; split; first [assumption|now apply gput_NoDup].
Qed.
Lemma link_packages_simple wb entries : forall xs ys, link_packages wb entries xs = Ok ys -> simple_links xs -> simple_links ys.
Proof.
  induction entries as [|[n p] rest IH]; intros xs ys H S; cbn [link_packages] in H; [now injection H as <-|].
  destruct (link_deps wb n (pk_deps (xp_proto p)) xs) as [mid|] eqn:E; [|discriminate]. cbn [bind] in H. eauto using link_deps_simple.
Qed.
Lemma new_package_set_simple ps wb xs : new_package_set ps wb = Ok xs -> simple_links xs.
Proof.
  unfold new_package_set. cbv zeta. destruct (link_packages wb (base_packages ps wb) (base_packages ps wb)) as [linked|] eqn:E; [|discriminate].
  cbn [bind]. unfold fill_packages. intros H. apply mapM_keys_get in H as [_ Hg]. apply link_packages_simple in E.
  - intros n p Hp. specialize (Hg n). destruct (gget n linked) as [q|] eqn:Eq; [|congruence]. destruct Hg as (q' & Hq & Hgq). rewrite Hp in Hgq. injection Hgq as <-.
    unfold fill_package in Hq. destruct (mapM _ (pk_messages (xp_proto q))); [|discriminate]. cbn [bind] in Hq. injection Hq as <-. cbn. exact (E _ _ Eq).
  - intros n p Hp. apply base_packages_get in Hp as (p0 & _ & ->). cbn. split; constructor.
Qed.
Lemma declares_increasing ps n p : Increasing (map pk_name ps) -> (Breaking_Spec.declares pk_name ps n p <-> In p ps /\ pk_name p = n).
Proof.
  intros I. split.
  - intros (b & a & -> & E & _). split; [apply in_elt|exact E].
  - intros (Hi & <-). apply in_split in Hi as (b & a & ->). exists b, a. split; [reflexivity|]. split; [reflexivity|].
    apply increasing_nodup in I. rewrite map_app in I. cbn in I. apply NoDup_remove_2 in I. apply Forall_forall. intros y Hy E. apply I, in_or_app. right. rewrite <- E. now apply in_map.
Qed.

Lemma joined_names (ls : list string) : join "" (map (fun x => x +++ String newline "") (filter (fun x => negb (is_empty x)) (filter (fun x => negb (is_empty x)) ls))) = one_per_line (filter (fun x => negb (is_empty x)) ls).
Proof.
  unfold one_per_line. f_equal. f_equal. induction ls as [|x ls IH]; [reflexivity|]. cbn [filter]. destruct (is_empty x) eqn:E; cbn [negb filter]; [exact IH|]. rewrite E. cbn [negb]. now rewrite IH.
Qed.

Section Facts.
  Variable ord : map_order.
  Variable cwd work_dir error_format : string.
  Variable json : bool.
  Variable to_json : failure -> string.
  Variable stat : string -> result file_kind.
  Variable get_for_dir : string -> string -> result proto_set.
  Variable compiler : bool -> bool -> option (bool * bool) -> (string -> result string) -> proto_set -> result (list failure * list file_set).
  Variable commands : bool -> proto_set -> result (list string).
  Variable unmarshal : string -> result file_set.
  Variable temp_dir : result string.
  Variable git : list string -> result unit.
  Hypothesis Hfields : exists fields, fields_of error_format fields.
  Hypothesis Hord : visits_all ord.
  Notation get_packages := (get_package_set_and_config cwd error_format json to_json stat get_for_dir compiler commands).
  Notation inspect_packages := (inspect_packages ord cwd work_dir error_format json to_json stat get_for_dir compiler commands).
  Notation inspect_package_deps := (inspect_package_deps ord cwd work_dir error_format json to_json stat get_for_dir compiler commands).
  Notation inspect_package_importers := (inspect_package_importers ord cwd work_dir error_format json to_json stat get_for_dir compiler commands).
  Notation get_package := (get_package cwd work_dir error_format json to_json stat get_for_dir compiler commands).
  Notation tree := (tree stat get_for_dir compiler).

  Lemma packages_of_files sets fs : distinct_files sets fs -> faithful fs -> valid_files fs ->
    exists ps xs, packages_of_sets sets = Ok (ps, xs) /\ new_package_set_of sets = Ok ps /\ new_package_set ps false = Ok xs /\ describes fs ps /\ valid_set ps /\ (forall b, oneofs_disjoint (Breaking_Spec.packages_of b ps)).
  Proof.
    intros D F V. destruct (new_package_set_valid sets fs D F V) as (ps & E & VS & O). destruct (new_package_set_Ok ps false VS) as (xs & X).
    exists ps, xs. unfold packages_of_sets. rewrite E. cbn [bind]. rewrite X. split; [reflexivity|]. split; [reflexivity|]. split; [reflexivity|]. split; [exact (new_package_set_describes sets fs ps D F E)|]. split; [exact VS|].
    intros b pkg path n m number o o' (ms & es & (p & (Dp & _) & S) & Hd). apply (O pkg path n m number o o'). exists ms, es. split; [|exact Hd]. exists p. split; [|exact S]. split; auto.
  Qed.
  Lemma get_packages_tree s dir args fs c : tree (io_disk s) dir args fs c ->
    exists ps xs, get_packages dir args s = (adds s [Compiled false], Value (ps, xs, c)) /\ new_package_set ps false = Ok xs /\ describes fs ps /\ valid_set ps /\ (forall b, oneofs_disjoint (Breaking_Spec.packages_of b ps)) /\
      exists sets, distinct_files sets fs /\ faithful fs /\ valid_files fs /\ new_package_set_of sets = Ok ps.
  Proof.
    intros (m & sets & Fd & C & D & F & V & ->). destruct (packages_of_files sets fs D F V) as (ps & xs & E & E1 & E2 & De & Va & O).
    exists ps, xs. split; [|split; [exact E2|split; [exact De|split; [exact Va|split; [exact O|exists sets; auto]]]]].
    unfold get_package_set_and_config, and_then. rewrite (get_meta_found _ _ _ _ _ _ Fd). unfold compile.
    rewrite (compile_clean cwd error_format json to_json compiler Hfields false true None m sets s C). rewrite E. reflexivity.
  Qed.
  Lemma printed_packages {A} (l : list (string * A)) (P : string -> Prop) s : NoDup (map fst l) -> (forall n, In n (map fst l) <-> P n) -> ~ P "" ->
    exists names es, print_package_names ord l s = (adds s es, Value tt) /\ only_prints es /\ printed es = one_per_line names /\ Increasing names /\ (forall n, In n names <-> P n).
  Proof.
    intros N H Ne. exists (extract_sort_package_names ord l). unfold print_package_names. exists (Exec_Proofs.lines_of (extract_sort_package_names ord l)).
    assert (I : forall n, In n (extract_sort_package_names ord l) <-> P n).
    { intros n. unfold extract_sort_package_names. rewrite sort_strings_In, filter_In. split.
      - intros (Hn & _). apply H. eapply Permutation_in; [symmetry; apply Hord|exact Hn].
      - intros Hn. split; [eapply Permutation_in; [apply Hord|now apply H]|]. destruct n; [now destruct Ne|reflexivity]. }
    split; [apply each_println|]. split; [apply lines_only_print|]. split; [|split; [|exact I]].
    - rewrite printed_lines. unfold one_per_line. f_equal. f_equal. clear -I Ne. assert (F : forall x, In x (extract_sort_package_names ord l) -> is_empty x = false).
      { intros x Hx. destruct x; [|reflexivity]. now apply I in Hx. }
      revert F. generalize (extract_sort_package_names ord l). intros ls F. induction ls as [|x ls IH]; [reflexivity|]. cbn [filter]. rewrite (F x (or_introl eq_refl)). cbn [negb]. f_equal. apply IH. intros y Hy. apply F. now right.
    - apply increasing_sort. apply NoDup_filter. eapply Permutation_NoDup; [apply Hord|exact N].
  Qed.
  Lemma no_empty_package fs : valid_files fs -> ~ package_in fs "".
  Proof.
    intros (V & _) (f & Hf & E). rewrite Forall_forall in V. destruct (V f Hf) as ((c & s & E' & _) & _). congruence.
  Qed.
  Lemma packages_listed fs ps xs : describes fs ps -> new_package_set ps false = Ok xs ->
    NoDup (map fst xs) /\ forall n, (In n (map fst xs) <-> package_in fs n).
  Proof.
    intros (I & P & _) X. apply new_package_set_spec in X as (N & A & B). split; [exact N|]. intros n. unfold package_in. rewrite <- P. split.
    - intros Hn. apply gget_Some_key in Hn as (x & Hx). apply A in Hx as (p & (D & _) & _). apply declares_increasing in D; [|exact I]. exists p. exact D.
    - intros (p & Hp). destruct (B n p) as (x & Hx & _).
      + split; [now apply declares_increasing|now left].
      + apply gget_Some_key. eauto.
  Qed.
  Theorem inspect_packages_spec args fs c s : tree (io_disk s) work_dir args fs c ->
    exists names es, inspect_packages args s = (adds s (Compiled false :: es), Value tt) /\ only_prints es /\ printed es = one_per_line names /\
      Increasing names /\ (forall n, In n names <-> package_in fs n).
  Proof.
    intros T. destruct (get_packages_tree s work_dir args fs c T) as (ps & xs & G & X & D & _ & _ & sets & _ & _ & V & _).
    destruct (packages_listed fs ps xs D X) as (N & I). destruct (printed_packages xs (package_in fs) (adds s [Compiled false]) N I (no_empty_package fs V)) as (names & es & E & O & Pr & R).
    exists names, es. split; [|split; [exact O|split; [exact Pr|exact R]]]. unfold PackageCmd_Model.inspect_packages, and_then. rewrite G. cbn [fst snd]. rewrite E. now rewrite adds_adds.
  Qed.
  Lemma get_package_tree args fs c s name : name <> "" -> tree (io_disk s) work_dir args fs c ->
    (package_in fs name -> exists p, get_package args name s = (adds s [Compiled false], Value p) /\
       NoDup (map fst (xp_deps p)) /\ NoDup (map fst (xp_importers p)) /\
       (forall d, In d (map fst (xp_deps p)) <-> depends fs name d) /\ (forall d, In d (map fst (xp_importers p)) <-> depends fs d name)) /\
    (~ package_in fs name -> get_package args name s = (adds s [Compiled false], Fail ("package not found: " +++ name))).
  Proof.
    intros Ne T. destruct (get_packages_tree s work_dir args fs c T) as (ps & xs & G & X & D & Va & _). destruct (packages_listed fs ps xs D X) as (N & I).
    unfold PackageCmd_Model.get_package. apply is_empty_false in Ne. rewrite Ne. unfold and_then. rewrite G. cbn [fst snd]. split.
    - intros Hp. apply I, gget_Some_key in Hp as (p & Hp). rewrite Hp. exists p. split; [reflexivity|]. destruct (new_package_set_simple _ _ _ X _ _ Hp) as (N1 & N2). split; [exact N1|]. split; [exact N2|].
      assert (Q : forall a b, (exists q, Breaking_Spec.packages_of true ps a q /\ In b (pk_deps q) /\ exists q', Breaking_Spec.packages_of true ps b q') <-> depends fs a b).
      { intros a b. destruct D as (Inc & Pk & Dp). split.
        - intros (q & (Dq & _) & Hb & _). apply declares_increasing in Dq as (Hq & <-); [|exact Inc]. now apply (Dp q Hq).
        - intros Hd. assert (Pa : exists q, In q ps /\ pk_name q = a) by (apply Pk; destruct Hd as (f & g & Hf & _ & _ & E & _); eauto).
          assert (Pb : exists q, In q ps /\ pk_name q = b) by (apply Pk; destruct Hd as (f & g & _ & Hg & _ & _ & E & _); eauto).
          destruct Pa as (q & Hq & E). destruct Pb as (q' & Hq' & E'). exists q. split; [split; [now apply declares_increasing|now left]|]. split; [apply (Dp q Hq); now rewrite E|]. exists q'. split; [now apply declares_increasing|now left]. }
      destruct (new_package_set_links ps false xs X name name) as (_ & _). split; intros d.
      + destruct (new_package_set_links ps false xs X name d) as (L & _). rewrite <- Q. rewrite <- L. unfold dep_of. rewrite <- gget_Some_key. split.
        * intros ([] & Hd). eauto.
        * intros (p' & Hp' & Hd). rewrite Hp in Hp'. injection Hp' as <-. eauto.
      + destruct (new_package_set_links ps false xs X d name) as (_ & L). rewrite <- Q. rewrite <- L. unfold importer_of. rewrite <- gget_Some_key. split.
        * intros ([] & Hd). eauto.
        * intros (p' & Hp' & Hd). rewrite Hp in Hp'. injection Hp' as <-. eauto.
    - intros Hn. destruct (gget name xs) as [p|] eqn:E; [|reflexivity]. destruct Hn. apply I, gget_Some_key. eauto.
  Qed.
  Lemma depends_packages fs a b : depends fs a b -> package_in fs a /\ package_in fs b.
  Proof. intros (f & g & Hf & Hg & _ & E1 & E2 & _). split; [exists f|exists g]; auto. Qed.
  Theorem inspect_deps_spec args fs c s name : tree (io_disk s) work_dir args fs c -> package_in fs name ->
    exists names es, inspect_package_deps args name s = (adds s (Compiled false :: es), Value tt) /\ only_prints es /\ printed es = one_per_line names /\
      Increasing names /\ (forall n, In n names <-> depends fs name n).
  Proof.
    intros T Hp. assert (V : valid_files fs) by (destruct T as (? & ? & _ & _ & _ & _ & V & _); exact V).
    assert (Ne : name <> "") by (intros ->; now apply (no_empty_package fs V)). destruct (proj1 (get_package_tree args fs c s name Ne T) Hp) as (p & G & N1 & _ & I & _).
    destruct (printed_packages (xp_deps p) (depends fs name) (adds s [Compiled false]) N1 I) as (names & es & E & O & Pr & R).
    - intros H. apply depends_packages in H as (_ & H). now apply (no_empty_package fs V).
    - exists names, es. split; [|auto]. unfold PackageCmd_Model.inspect_package_deps, and_then. rewrite G, E. now rewrite adds_adds.
  Qed.
  Theorem inspect_importers_spec args fs c s name : tree (io_disk s) work_dir args fs c -> package_in fs name ->
    exists names es, inspect_package_importers args name s = (adds s (Compiled false :: es), Value tt) /\ only_prints es /\ printed es = one_per_line names /\
      Increasing names /\ (forall n, In n names <-> depends fs n name).
  Proof.
    intros T Hp. assert (V : valid_files fs) by (destruct T as (? & ? & _ & _ & _ & _ & V & _); exact V).
    assert (Ne : name <> "") by (intros ->; now apply (no_empty_package fs V)). destruct (proj1 (get_package_tree args fs c s name Ne T) Hp) as (p & G & _ & N2 & _ & I).
    destruct (printed_packages (xp_importers p) (fun n => depends fs n name) (adds s [Compiled false]) N2 I) as (names & es & E & O & Pr & R).
    - intros H. apply depends_packages in H as (H & _). now apply (no_empty_package fs V).
    - exists names, es. split; [|auto]. unfold PackageCmd_Model.inspect_package_importers, and_then. rewrite G, E. now rewrite adds_adds.
  Qed.
  Theorem inspect_unknown args fs c s name : tree (io_disk s) work_dir args fs c -> ~ package_in fs name -> name <> "" ->
    inspect_package_deps args name s = (adds s [Compiled false], Fail ("package not found: " +++ name)) /\
    inspect_package_importers args name s = (adds s [Compiled false], Fail ("package not found: " +++ name)).
  Proof.
    intros T Hp Ne. assert (G := proj2 (get_package_tree args fs c s name Ne T) Hp). unfold PackageCmd_Model.inspect_package_deps, PackageCmd_Model.inspect_package_importers, and_then. rewrite G. auto.
  Qed.
  Theorem inspect_no_name args s : inspect_package_deps args "" s = (s, Exit "must set name") /\ inspect_package_importers args "" s = (s, Exit "must set name").
  Proof. split; reflexivity. Qed.
End Facts.
