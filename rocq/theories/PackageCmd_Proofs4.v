(** Proofs about stored descriptor sets. *)
From Verif Require Import GoStrFacts GoMapFacts GoPathFacts Text_Proofs Reflect_Model Reflect_Proofs ReflectValid_Proofs
  Breaking_Model Breaking_Spec Extract_Proofs BreakRun_Proofs Desc_Spec Desc_Proofs Exec_Proofs Exec_Proofs3 LintCmd_Proofs.
From Verif Require Export PackageCmd_Proofs3.

Lemma joined_distinct sets all fs : joined sets all -> distinct_files sets fs -> distinct_files [all] fs.
Proof.
  intros (_ & J) (N & F). split; [exact N|]. intros f. rewrite F. unfold in_sets in J. rewrite <- J. split.
  - intros H. exists all. split; [now left|exact H].
  - intros (s & [<-|[]] & H). exact H.
Qed.
Lemma distinct_same sets fs gs : distinct_files sets fs -> distinct_files sets gs -> Permutation fs gs.
Proof. intros (N & F) (N' & F'). apply NoDup_Permutation; [exact N|exact N'|]. intros f. now rewrite F, F'. Qed.
Lemma files_of_perm pkg fs gs : Permutation fs gs -> Permutation (Reflect_Spec.files_of pkg fs) (Reflect_Spec.files_of pkg gs).
Proof. apply filter_perm. Qed.
Lemma same_files_same fs gs : Permutation fs gs -> same_declarations fs gs.
Proof.
  intros P pkg. assert (Q := files_of_perm pkg fs gs P). split.
  - split; intros (f & Hf & E); exists f; (split; [|exact E]); eapply Permutation_in; try exact Hf; [exact P|now symmetry].
  - unfold messages_of, enums_of, services_of. repeat split; try (apply Permutation_flat_map; exact Q).
    + intros (f & g & Hf & Hg & R). exists f, g. split; [eapply Permutation_in; eassumption|]. split; [eapply Permutation_in; eassumption|exact R].
    + intros (f & g & Hf & Hg & R). symmetry in P. exists f, g. split; [eapply Permutation_in; eassumption|]. split; [eapply Permutation_in; eassumption|exact R].
Qed.

Section Facts.
  Variable cwd work_dir error_format : string.
  Variable json : bool.
  Variable to_json : failure -> string.
  Variable stat : string -> result file_kind.
  Variable get_for_dir : string -> string -> result proto_set.
  Variable compiler : bool -> bool -> option (bool * bool) -> (string -> result string) -> proto_set -> result (list failure * list file_set).
  Variable commands : bool -> proto_set -> result (list string).
  Variable sha256 : string -> string.
  Variable marshal to_jsonpb : file_set -> result string.
  Variable unmarshal : string -> result file_set.
  Variable write_error : string -> string -> option (result string * string).
  Variable temp_file : result string.
  Variable temp_dir : result string.
  Variable git : list string -> result unit.
  Hypothesis Hfields : exists fields, fields_of error_format fields.
  Notation break_descriptor_set := (break_descriptor_set cwd work_dir error_format false to_json stat get_for_dir compiler sha256 marshal to_jsonpb write_error temp_file).
  Notation break_check := (break_check cwd work_dir error_format json to_json stat get_for_dir compiler commands unmarshal temp_dir git).
  Notation found := (found work_dir stat get_for_dir).
  Notation tree := (tree stat get_for_dir compiler).

  Lemma stored_set args output m sets s : found args m -> output <> "" -> temp_file <> Ok "" ->
    compiler false false (Some (true, false)) (io_disk s) (m_set m) = Ok ([], sets) -> tells_apart sha256 sets -> consistent sets ->
    (forall all, joined sets all -> exists data, marshal all = Ok data /\ unmarshal data = Ok all) -> (forall data, write_error output data = None) ->
    exists s1 all data, break_descriptor_set args output s = (s1, Value tt) /\ joined sets all /\ io_disk s1 output = Ok data /\ changes_only (eq output) s s1 /\ unmarshal data = Ok all.
  Proof.
    intros F N Tf C T Co M W.
    destruct (descriptor_set_delivers cwd work_dir error_format false to_json stat get_for_dir compiler sha256 marshal to_jsonpb write_error temp_file Hfields args true false output false m (ToFile output) sets s F) as (all & J & D); auto; [cbn; auto|].
    destruct (M all J) as (data & E & Un). destruct (D data E (W data)) as (s1 & R & (Dt & Ch) & _). exists s1, all, data.
    split; [|split; [exact J|split; [exact Dt|split; [exact Ch|exact Un]]]]. now rewrite (proj2 (break_descriptor_set_eq cwd work_dir error_format false to_json stat get_for_dir compiler sha256 marshal to_jsonpb write_error temp_file args output s) N).
  Qed.
  (** Later checks against the file are checks against the tree as it was. *)
  Theorem stored_baseline args output m sets old s : found args m -> output <> "" -> temp_file <> Ok "" ->
    compiler false false (Some (true, false)) (io_disk s) (m_set m) = Ok ([], sets) -> tells_apart sha256 sets -> consistent sets ->
    distinct_files sets old -> valid_files old ->
    (forall all, joined sets all -> exists data, marshal all = Ok data /\ unmarshal data = Ok all) -> (forall data, write_error output data = None) ->
    exists s1, break_descriptor_set args output s = (s1, Value tt) /\ changes_only (eq output) s s1 /\
      forall s2 args' new c, io_disk s2 output = io_disk s1 output -> tree (io_disk s2) work_dir args' new c ->
        exists fails es r, break_check args' "" output s2 = (adds s2 (Compiled false :: es), r) /\ only_prints es /\ verdict c old new fails /\ announced json to_json fails es r.
  Proof.
    intros F N Tf C T Co D V M W. destruct (stored_set args output m sets s F N Tf C T Co M W) as (s1 & all & data & E & J & Dt & Ch & U). exists s1. split; [exact E|]. split; [exact Ch|].
    intros s2 args' new c E2 Tr. apply (break_check_stored cwd work_dir error_format json to_json stat get_for_dir compiler commands unmarshal temp_dir git Hfields args' output data all old new c s2 N Tr); auto.
    - now rewrite E2.
    - eapply joined_distinct; eassumption.
    - intros f g Hf Hg X. apply T; [now apply D|now apply D|now rewrite X].
  Qed.
  (** Right after, with nothing else changed, nothing is found. *)
  Theorem stored_unchanged args output m sets old s : found args m -> output <> "" -> temp_file <> Ok "" ->
    compiler false false (Some (true, false)) (io_disk s) (m_set m) = Ok ([], sets) -> tells_apart sha256 sets -> consistent sets ->
    distinct_files sets old -> valid_files old -> unique_definitions old ->
    (forall all, joined sets all -> exists data, marshal all = Ok data /\ unmarshal data = Ok all) -> (forall data, write_error output data = None) ->
    exists s1, break_descriptor_set args output s = (s1, Value tt) /\
      forall s2 args' new c, io_disk s2 output = io_disk s1 output -> tree (io_disk s2) work_dir args' new c ->
        (forall f, In f new <-> In f old) ->
        bc_include_beta (cfg_break c) = true \/ bc_allow_beta_deps (cfg_break c) = true \/ (forall a b, depends old a b -> ~ beta_name a -> ~ beta_name b) ->
        break_check args' "" output s2 = (adds s2 [Compiled false], Value tt).
  Proof.
    intros F N Tf C T Co D V U M W. destruct (stored_set args output m sets s F N Tf C T Co M W) as (s1 & all & data & E & J & Dt & Ch & Un). exists s1. split; [exact E|].
    intros s2 args' new c E2 Tr Same Beta. assert (Fa : faithful old) by (intros f g Hf Hg X; apply T; [now apply D|now apply D|now rewrite X]). assert (Da := joined_distinct _ _ _ J D).
    destruct (break_check_stored_run cwd work_dir error_format json to_json stat get_for_dir compiler commands unmarshal temp_dir git Hfields args' output data all old new c s2 N Tr) as (fails & es & r & from & to & B & Op & Ve & An & R & Vt & Ef & Dn & sets' & D' & F' & V' & Et); auto; [now rewrite E2|].
    assert (P : Permutation old new) by (apply NoDup_Permutation; [apply D|apply D'|intros f; symmetry; apply Same]).
    assert (X := new_package_set_moves [all] old from sets' new Da Fa D' F' U (same_files_same _ _ P) (proj1 (proj2 V')) (proj2 (proj2 V')) Ef). rewrite Et in X. injection X as ->.
    rewrite (run_break_extends_clean _ from from Vt Vt (set_extends_refl from)) in R.
    - injection R as <-. destruct An as (Q & _ & ->). rewrite B. now rewrite (Q eq_refl).
    - cbn. destruct Beta as [H|[H|H]]; auto. right; right. intros n p d (Dp & [Hn|Hn]) Hd; [discriminate|]. destruct Dn as (Inc & Pk & Dd). apply declares_increasing in Dp as (Hp & <-); [|exact Inc].
      apply (H (pk_name p)); [|exact Hn]. apply (Dd p Hp) in Hd. destruct Hd as (f & g & Hf & Hg & R'). exists f, g. rewrite <- !Same. auto.
  Qed.
End Facts.
