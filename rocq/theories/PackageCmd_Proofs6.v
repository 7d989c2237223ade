(** What a run of inspect or break check tells, and a check against a set of the same files. *)
From Verif Require Import GoStrFacts GoMapFacts GoPathFacts Text_Proofs Reflect_Model Reflect_Proofs ReflectValid_Proofs
  Breaking_Model Breaking_Spec Extract_Proofs BreakRun_Proofs Desc_Spec Desc_Proofs Exec_Proofs Exec_Proofs3 LintCmd_Proofs PackageCmd_Proofs4 PackageCmd_Proofs5.

Section Facts.
  Variable ord : map_order.
  Variable cwd work_dir error_format : string.
  Variable json : bool.
  Variable to_json : failure -> string.
  Variable stat : string -> result file_kind.
  Variable get_for_dir : string -> string -> result proto_set.
  Variable compiler : bool -> bool -> option (bool * bool) -> (string -> result string) -> proto_set -> result (list failure * list file_set).
  Variable commands : bool -> proto_set -> result (list string).
  Variable unmarshal : string -> result file_set.
  Variable temp_dir : result string.
  Variable git : list string -> result unit.
  Notation break_check := (break_check cwd work_dir error_format json to_json stat get_for_dir compiler commands unmarshal temp_dir git).
  Notation found := (found work_dir stat get_for_dir).
  Notation tree := (tree stat get_for_dir compiler).
  Notation get_packages := (get_package_set_and_config cwd error_format json to_json stat get_for_dir compiler commands).
  Notation compile_failed := (compile_failed cwd error_format json to_json compiler).
  Notation print_names := (print_package_names ord).

  Lemma same_set args path data all old new c s : (exists fields, fields_of error_format fields) -> path <> "" -> tree (io_disk s) work_dir args new c ->
    io_disk s path = Ok data -> unmarshal data = Ok all -> distinct_files [all] old -> faithful old -> valid_files old -> unique_definitions old ->
    (forall f, In f new <-> In f old) ->
    bc_include_beta (cfg_break c) = true \/ bc_allow_beta_deps (cfg_break c) = true \/ (forall a b, depends old a b -> ~ beta_name a -> ~ beta_name b) ->
    break_check args "" path s = (adds s [Compiled false], Value tt).
  Proof.
    intros Hf N Tr Rd Un Da Fa V U Same Beta.
    destruct (break_check_stored_run cwd work_dir error_format json to_json stat get_for_dir compiler commands unmarshal temp_dir git Hf args path data all old new c s N Tr) as (fails & es & r & from & to & B & Op & Ve & An & R & Vt & Ef & Dn & sets' & D' & F' & V' & Et); auto.
    assert (P : Permutation old new) by (apply NoDup_Permutation; [apply Da|apply D'|intros f; symmetry; apply Same]).
    assert (X := new_package_set_moves [all] old from sets' new Da Fa D' F' U (same_files_same _ _ P) (proj1 (proj2 V')) (proj2 (proj2 V')) Ef). rewrite Et in X. injection X as ->.
    rewrite (run_break_extends_clean _ from from Vt Vt (set_extends_refl from)) in R.
    - injection R as <-. destruct An as (Q & _ & ->). rewrite B. now rewrite (Q eq_refl).
    - cbn. destruct Beta as [H|[H|H]]; auto. right; right. intros n p d (Dp & [Hn|Hn]) Hd; [discriminate|]. destruct Dn as (Inc & Pk & Dd). apply declares_increasing in Dp as (Hp & <-); [|exact Inc].
      apply (H (pk_name p)); [|exact Hn]. apply (Dd p Hp) in Hd. destruct Hd as (f & g & Hf' & Hg & R'). exists f, g. rewrite <- !Same. auto.
  Qed.

  (** A command that begins with the packages. *)
  Lemma packages_then {B} (k : package_set * x_package_set * config -> cmd B) args m s s' o : found args m -> and_then (get_packages work_dir args) k s = (s', o) ->
    (exists sets xs, (exists fields, fields_of error_format fields) /\ compiler false true None (io_disk s) (m_set m) = Ok ([], sets) /\ get_packages work_dir args s = (adds s [Compiled false], Value (xs, ps_config (m_set m))) /\ k (xs, ps_config (m_set m)) (adds s [Compiled false]) = (s', o)) \/
    (exists e, o = Exit e /\ compile_failed false true None m s s' e) \/ (exists e, o = Fail e).
  Proof.
    intros F H. unfold and_then in H. destruct (get_packages work_dir args s) as [s1 o1] eqn:E. destruct (get_packages_inv cwd error_format json to_json stat get_for_dir compiler commands work_dir args m s s1 o1 F E) as (I1 & I2 & _).
    destruct o1 as [[xs c]|e|e].
    - left. destruct (I1 _ eq_refl) as (Hf & C & sets & Cs & -> & _). cbn in C. subst c. exists sets, xs. auto 8.
    - right; left. injection H as <- <-. exists e. split; [reflexivity|]. now apply I2.
    - right; right. injection H as <- <-. now exists e.
  Qed.
  Lemma tree_of args m sets fs disk : found args m -> compiler false true None disk (m_set m) = Ok ([], sets) -> distinct_files sets fs -> faithful fs -> valid_files fs -> tree disk work_dir args fs (ps_config (m_set m)).
  Proof. intros F C D Fa Va. exists m, sets. auto 8. Qed.
  Lemma each_println_value l s : exists s', each println l s = (s', Value tt).
  Proof.
    revert s. induction l as [|a l IH]; intros s; [now exists s|]. cbn. unfold and_then. rewrite println_adds. apply IH.
  Qed.
  Lemma print_names_value {A} (m : list (string * A)) s : exists s', print_names m s = (s', Value tt).
  Proof. apply each_println_value. Qed.

  Notation inspect_packages := (inspect_packages ord cwd work_dir error_format json to_json stat get_for_dir compiler commands).
  Notation inspect_package_deps := (inspect_package_deps ord cwd work_dir error_format json to_json stat get_for_dir compiler commands).
  Notation inspect_package_importers := (inspect_package_importers ord cwd work_dir error_format json to_json stat get_for_dir compiler commands).
  Lemma inspect_packages_inv args m s s' o : found args m -> inspect_packages args s = (s', o) ->
    (o = Value tt -> (exists fields, fields_of error_format fields) /\ exists sets, compiler false true None (io_disk s) (m_set m) = Ok ([], sets)) /\ (forall e, o = Exit e -> compile_failed false true None m s s' e).
  Proof.
    intros F H. unfold PackageCmd_Model.inspect_packages in H. apply packages_then with (m := m) in H as [(sets & xs & Hf & C & Gp & K)|[(e & -> & Cf)|(e & ->)]]; [| | |exact F].
    - split; [intros _; split; [exact Hf|now exists sets]|]. intros e ->. destruct (print_names_value (snd (fst (xs, ps_config (m_set m)))) (adds s [Compiled false])) as (s1 & X). congruence.
    - split; [discriminate|]. intros e' [= <-]. exact Cf.
    - split; discriminate.
  Qed.
  Lemma get_package_then (k : x_package -> cmd unit) args name m s s' o : (forall p s, exists s', k p s = (s', Value tt)) -> found args m ->
    and_then (get_package cwd work_dir error_format json to_json stat get_for_dir compiler commands args name) k s = (s', o) ->
    (o = Value tt -> name <> "" /\ (exists fields, fields_of error_format fields) /\ exists sets, compiler false true None (io_disk s) (m_set m) = Ok ([], sets)) /\
    (forall e, o = Exit e -> (name = "" /\ s' = s) \/ compile_failed false true None m s s' e).
  Proof.
    intros Hk F H. unfold get_package in H. destruct (is_empty name) eqn:N.
    { apply is_empty_true in N. injection H as <- <-. split; [discriminate|]. intros e _. left. auto. }
    apply is_empty_false in N. unfold and_then at 1 in H. match type of H with context [let (_, _) := ?x in _] => destruct x as [s1 o1] eqn:E end.
    apply packages_then with (m := m) in E as [(sets & xs & Hf & C & Gp & K)|[(e & -> & Cf)|(e & ->)]]; [| | |exact F].
    - cbn [fst snd] in K. destruct (gget name (snd xs)) as [p|].
      + injection K as <- <-. destruct (Hk p (adds s [Compiled false])) as (s2 & X). rewrite X in H. injection H as <- <-. split; [|discriminate]. intros _. split; [exact N|]. split; [exact Hf|now exists sets].
      + injection K as <- <-. injection H as <- <-. split; discriminate.
    - injection H as <- <-. split; [discriminate|]. intros e' [= <-]. now right.
    - injection H as <- <-. split; discriminate.
  Qed.
  Lemma break_check_stored_inv args path m s s' o : path <> "" -> found args m -> break_check args "" path s = (s', o) ->
    (exists sets, (exists fields, fields_of error_format fields) /\ compiler false true None (io_disk s) (m_set m) = Ok ([], sets) /\
       ((exists e, o = Fail e) \/ exists data stored, io_disk s path = Ok data /\ unmarshal data = Ok stored)) \/
    (exists e, o = Exit e /\ compile_failed false true None m s s' e) \/ (exists e, o = Fail e).
  Proof.
    intros N F H. unfold PackageCmd_Model.break_check in H. apply is_empty_false in N. cbn [is_empty negb andb] in H.
    apply packages_then with (m := m) in H as [(sets & xs & Hf & C & Gp & K)|[(e & -> & Cf)|(e & ->)]]; [| | |exact F]; [|right; left; eauto|right; right; eauto].
    left. exists sets. split; [exact Hf|]. split; [exact C|]. rewrite N in K. cbn [negb] in K. unfold and_then at 1, package_set_for_descriptor_set_path, read_file, and_then at 1 in K. cbn [io_disk adds] in K.
    destruct (io_disk s path) as [data|e]; [|injection K as <- <-; eauto]. unfold ret at 1 in K. unfold Exec_Model.check at 1, and_then at 1 in K. destruct (unmarshal data) as [stored|e] eqn:U; [|injection K as <- <-; eauto].
    right. eauto.
  Qed.
  Hypothesis Hwork : work_dir <> "".
  Lemma break_check_git_inv args branch m s s' o : found args m -> break_check args branch "" s = (s', o) ->
    (exists sets clone es, (exists fields, fields_of error_format fields) /\ compiler false true None (io_disk s) (m_set m) = Ok ([], sets) /\
       is_abs (target args) = false /\ stat (path_join [path_abs cwd work_dir; ".git"]) = Ok Directory /\ temp_dir = Ok clone /\ git (tl (clone_of (path_abs cwd work_dir) branch clone)) = Ok tt /\
       s' = adds s ([Compiled false; MadeDir clone; Ran (clone_of (path_abs cwd work_dir) branch clone)] ++ es ++ [Removed clone]) /\ Forall mild es /\ (forall e, o = Exit e -> e = "") /\
       forall old new c', tree (io_disk s) work_dir args new (ps_config (m_set m)) -> tree (io_disk s) clone [in_clone clone (target args)] old c' ->
         exists fails out, es = Compiled false :: out /\ only_prints out /\ verdict (ps_config (m_set m)) old new fails /\ announced json to_json fails out o) \/
    (exists e, o = Exit e /\ compile_failed false true None m s s' e) \/ (exists e, o = Fail e).
  Proof.
    intros F H. unfold PackageCmd_Model.break_check in H. rewrite andb_comm in H. cbn [is_empty negb andb] in H.
    apply packages_then with (m := m) in H as [(sets & xs & Hf & C & Gp & K)|[(e & -> & Cf)|(e & ->)]]; [| | |exact F]; [|right; left; eauto|right; right; eauto].
    cbn [fst snd] in K. change (match args with [a] => a | _ => "." end) with (target args) in K. destruct (is_abs (target args)) eqn:Ab; [injection K as <- <-; right; right; eauto|].
    rewrite (abs_clean_ne cwd work_dir Hwork) in K. destruct (has_prefix (abs_clean cwd (target args)) (path_abs cwd work_dir)) eqn:Px; cbn [negb] in K; [|injection K as <- <-; right; right; eauto].
    unfold and_then at 1 in K.
    unfold PackageCmd_Model.temporary_clone in K. cbv zeta in K. rewrite (abs_clean_ne cwd work_dir Hwork) in K. unfold and_then at 1 in K.
    destruct (stat (path_join [path_abs cwd work_dir; ".git"])) as [[| |]|e] eqn:Gd; cbn [Exec_Model.check] in K; unfold ret, fail in K; try (injection K as <- <-; right; right; eauto).
    unfold and_then at 1 in K. destruct temp_dir as [clone|e] eqn:Td; cbn [Exec_Model.check] in K; unfold ret, fail in K; [|injection K as <- <-; right; right; eauto].
    unfold and_then at 1 in K. unfold emit at 1 in K. unfold and_then at 1 in K. unfold emit at 1 in K.
    change (["git"; "clone"; "--depth"; "1"] ++ (if is_empty branch then [] else ["--branch"; branch]) ++ ["file://" +++ path_abs cwd work_dir; clone]) with
      ("git" :: ["clone"; "--depth"; "1"] ++ (if is_empty branch then [] else ["--branch"; branch]) ++ ["file://" +++ path_abs cwd work_dir; clone]) in K.
    rewrite <- clone_args in K. destruct (git _) as [[]|output] eqn:Gi; [|injection K as <- <-; right; right; eauto].
    left. match type of K with deferred _ _ ?x = _ => replace x with (adds s [Compiled false; MadeDir clone; Ran (clone_of (path_abs cwd work_dir) branch clone)]) in K end.
    2:{ unfold adds. cbn [io_disk io_done]. now rewrite <- !app_assoc. }
    set (s2 := adds s [Compiled false; MadeDir clone; Ran (clone_of (path_abs cwd work_dir) branch clone)]) in *.
    unfold deferred in K. rewrite rel_dir_in_clone in K.
    assert (Hd : does mild (and_then (get_packages clone [in_clone clone (target args)]) (fun y => break_failures cwd json to_json (ps_config (m_set m)) (fst (fst y)) (fst xs)))).
    { apply does_then; [apply does_get_packages|]. intros y. apply does_break_failures. }
    destruct (Hd s2) as (es & r & E & Fm). unfold s2 in *. clear s2. set (s2 := adds s [Compiled false; MadeDir clone; Ran (clone_of (path_abs cwd work_dir) branch clone)]) in *.
    rewrite E in K. injection K as <- <-. exists sets, clone, es. split; [exact Hf|]. split; [exact C|]. split; [reflexivity|]. split; [reflexivity|]. split; [reflexivity|]. split; [rewrite clone_args; exact Gi|].
    split; [unfold s2, adds; cbn [io_disk io_done]; now rewrite <- !app_assoc|]. split; [exact Fm|]. split.
    { intros e ->. clear - E. unfold and_then at 1 in E. destruct (get_packages clone [in_clone clone (target args)] s2) as [s3 o3] eqn:G. destruct o3 as [y|e'|e']; [| |discriminate E].
      - unfold break_failures, and_then in E. destruct (run_break _ _ _) as [[|f fs]|m']; cbn [Exec_Model.check] in E; unfold ret, fail in E; try discriminate E.
        destruct (print_failures_for _ _ _ _ _ _ _ _) as [s4 [u|e'|e']] eqn:P; [now injection E as _ ->| |discriminate E].
        destruct (print_failures_none cwd json to_json "message" _ (f :: fs) message_fields) as (es' & P' & _). rewrite P' in P. discriminate P.
      - injection E as _ ->. destruct (get_meta_pure clone stat get_for_dir [in_clone clone (target args)]) as (r & Gm & [(m' & -> & F')|((e' & ->) & _)]).
        + destruct (get_packages_inv cwd error_format json to_json stat get_for_dir compiler commands clone _ m' s2 s3 _ F' G) as (_ & I2 & _). destruct (I2 _ eq_refl) as (_ & _ & _ & _ & _ & _ & _ & _ & _ & _ & X). exact X.
        + unfold get_package_set_and_config, and_then at 1 in G. rewrite Gm in G. discriminate G. }
    intros old new c' T T'. destruct (get_packages_tree cwd error_format json to_json stat get_for_dir compiler commands Hf s work_dir args new _ T) as (to & xs' & G & _ & Dn & Vt & O & _).
    destruct (get_packages_tree cwd error_format json to_json stat get_for_dir compiler commands Hf s2 clone [in_clone clone (target args)] old c' T') as (from & xf & G' & _ & Do & Vf & _).
    assert (to = fst xs) as ->.
    { rewrite Gp in G. now injection G as ->. }
    destruct (failures_announced cwd json to_json (ps_config (m_set m)) old new from (fst xs) (adds s2 [Compiled false]) Do Dn Vf Vt O) as (fails & out & o' & B & Op & Ve & An & _).
    unfold and_then in E. rewrite G' in E. cbn [fst] in E. rewrite B, adds_adds in E. injection E as E1 <-. apply app_inv_head in E1. subst es. exists fails, out. auto.
  Qed.
End Facts.
