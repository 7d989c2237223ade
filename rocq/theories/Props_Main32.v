(** C124: a branch and a stored set of the same files are the same baseline, for the whole program. *)
From Verif Require Import GoStrFacts GoPathFacts Settings_Spec File_Spec Reflect_Proofs Breaking_Model Breaking_Spec BreakRun_Proofs Exec_Spec Exec_Proofs Exec_Proofs3 Cmd_Spec PackageCmd_Spec PackageCmd_Proofs PackageCmd_Proofs2 PackageCmd_Proofs3 PackageCmd_Proofs4
  Main_Model Main_Spec Main_Spec2 Main_Spec3 Main_Spec4 Main_Proofs Main_Proofs2 Main_Proofs6 Main_Proofs7 Props_Main Props_Main2 Props_Main3 Props_Main4 Props_Main5 Props_Main8 Props_Main11 Props_Main12 Props_Main31.

Lemma failures_alike cwd json tj c from to : valid_set from -> valid_set to ->
  exists es o, only_prints es /\ (o = Value tt \/ o = Exit "") /\ forall s, PackageCmd_Model.break_failures cwd json tj c from to s = (adds s es, o).
Proof.
  intros Vf Vt. set (cfg := Reflect_Types.mk_break_config (bc_include_beta (cfg_break c)) (bc_allow_beta_deps (cfg_break c))).
  destruct (run_break_valid cfg from to Vf Vt) as (fails & R). destruct (print_failures_none cwd json tj "message" _ fails message_fields) as (es & P & Op & _).
  unfold PackageCmd_Model.break_failures, and_then. fold cfg. rewrite R. cbn [Exec_Model.check]. destruct fails as [|f fails].
  - exists [], (Value tt). split; [constructor|]. split; [now left|]. intros s. unfold ret. now rewrite adds_nil.
  - exists es, (Exit ""). split; [exact Op|]. split; [now right|]. intros s. unfold ret at 1. now rewrite P.
Qed.

(** break check against a branch. *)
Definition checks_branch (w : world) (l : list string) (args : list string) (r : runner) (branch : string) : Prop :=
  exists c items, means (w_read_csv w) l c items args /\ c_words c = ["break"; "check"] /\ text items "descriptor-set-path" = "" /\ text items "git-branch" = branch /\
    the_options w items = Ok r /\ (exists fields, Exec_Spec.fields_of (r_error_format r) fields).
(** The files [v] are those of the branch, cloned to [clone]. *)
Definition cloned (w : world) (r : runner) (disk : string -> result string) (args : list string) (branch clone : string) (v : list file_desc) : Prop :=
  is_abs (Exec_Spec.target args) = false /\ inside (path_abs (here r) (here r)) (abs_clean (here r) (Exec_Spec.target args)) /\
  w_stat w (path_join [path_abs (here r) (here r); ".git"]) = Ok Directory /\ w_temp_dir w = Ok clone /\
  w_git w (tl (clone_of (path_abs (here r) (here r)) branch clone)) = Ok tt /\
  exists c, tree (w_stat w) (provider w r disk) (the_compiler w r) disk clone [in_clone clone (Exec_Spec.target args)] v c.

(** Both checks say the same and end with the same status; the one against the branch makes a clone and
    removes it. *)
Theorem C124_same_baseline : forall w args r l p gl branch clone s v1 v b, w_goos w = "darwin" \/ w_goos w = "linux" -> here r <> "" ->
  checks w l args r p -> checks_branch w gl args r branch ->
  stored w (io_disk s) p v1 -> cloned w r (io_disk s) args branch clone v1 -> version w r (io_disk s) args v b ->
  unique_definitions v1 ->
  exists said z, only_prints said /\ (z = 0%Z \/ z = 255%Z) /\
    main w l s = (adds s (Compiled false :: said), z) /\
    main w gl s = (adds s ([Compiled false; MadeDir clone; Ran (clone_of (path_abs (here r) (here r)) branch clone); Compiled false] ++ said ++ [Removed clone]), z).
Proof.
  intros w args r l p gl branch clone s v1 v b G Hwork (c & items & M & W & Bn & Pp & Pn & Or & Hf) (gc & gi & Mg & Wg & Pg & Bg & Og & _) (data & set & Rd & Un & Da & Fa & Va) (Ab & In & Gd & Td & Gi & c' & T') (cf & Tr & _) U.
  destruct (line_is w l c items args G M) as (k & K & L). unfold asked in K. rewrite W in K. injection K as <-. rewrite Bn, Pp in L.
  destruct (line_is w gl gc gi args G Mg) as (kg & K & Lg). unfold asked in K. rewrite Wg in K. injection K as <-. rewrite Pg, Bg in Lg.
  destruct (packages_of_files [set] v1 Da Fa Va) as (from & xf & E & Es & _ & _ & Vf & _).
  destruct (get_packages_tree (here r) (r_error_format r) (r_json r) Json_Model.failure_json (w_stat w) (provider w r (io_disk s)) (the_compiler w r) (the_commands w r) Hf s (here r) args v cf Tr) as (to & xs & Gp & _ & _ & Vt & _ & _).
  set (s2 := adds s [Compiled false; MadeDir clone; Ran (clone_of (path_abs (here r) (here r)) branch clone)]).
  destruct (get_packages_tree (here r) (r_error_format r) (r_json r) Json_Model.failure_json (w_stat w) (provider w r (io_disk s)) (the_compiler w r) (the_commands w r) Hf s2 clone [in_clone clone (Exec_Spec.target args)] v1 c' T') as (from' & xg & Gp' & _ & _ & Vf' & _ & sets & D' & F' & V' & Es').
  assert (X := new_package_set_moves [set] v1 from sets v1 Da Fa D' F' U (same_files_same _ _ (Permutation_refl _)) (proj1 (proj2 V')) (proj2 (proj2 V')) Es). rewrite Es' in X. injection X as ->.
  destruct (failures_alike (here r) (r_json r) Json_Model.failure_json cf from to Vf Vt) as (es & o & Op & Ho & B).
  exists es, (match o with Value _ => 0%Z | _ => 255%Z end). split; [exact Op|]. split; [destruct Ho as [->| ->]; auto|].
  assert (Y : Main_Model.method w r (CallBreakCheck args "" p) s = (adds s (Compiled false :: es), o)).
  { change (PackageCmd_Model.break_check (here r) (here r) (r_error_format r) (r_json r) Json_Model.failure_json (w_stat w) (provider w r (io_disk s)) (the_compiler w r) (the_commands w r) (w_unmarshal w) (w_temp_dir w) (w_git w) args "" p s = (adds s (Compiled false :: es), o)).
    unfold PackageCmd_Model.break_check. apply is_empty_false in Pn. rewrite Pn. cbn [is_empty negb andb]. unfold and_then. rewrite Gp. cbn [fst snd].
    unfold package_set_for_descriptor_set_path, and_then, read_file. cbn [adds io_disk]. fold (adds s [Compiled false]). rewrite Rd, Un. cbn [Exec_Model.check]. unfold ret at 1. rewrite E. cbn [Exec_Model.check]. unfold ret at 1 2. cbn [fst]. rewrite B. now rewrite adds_adds. }
  assert (Z : Main_Model.method w r (CallBreakCheck args branch "") s = (adds s ([Compiled false; MadeDir clone; Ran (clone_of (path_abs (here r) (here r)) branch clone); Compiled false] ++ es ++ [Removed clone]), o)).
  { change (PackageCmd_Model.break_check (here r) (here r) (r_error_format r) (r_json r) Json_Model.failure_json (w_stat w) (provider w r (io_disk s)) (the_compiler w r) (the_commands w r) (w_unmarshal w) (w_temp_dir w) (w_git w) args branch "" s =
      (adds s ([Compiled false; MadeDir clone; Ran (clone_of (path_abs (here r) (here r)) branch clone); Compiled false] ++ es ++ [Removed clone]), o)).
    unfold PackageCmd_Model.break_check. rewrite andb_comm. cbn [is_empty negb andb]. unfold and_then at 1. rewrite Gp. cbn [fst snd]. change (match args with [a] => a | _ => "." end) with (Exec_Spec.target args). rewrite Ab.
    rewrite (abs_clean_ne (here r) (here r) Hwork). rewrite (inside_prefix _ _ In). cbn [negb]. unfold and_then at 1.
    unfold PackageCmd_Model.temporary_clone. cbv zeta. rewrite (abs_clean_ne (here r) (here r) Hwork). unfold and_then at 1. rewrite Gd, Td. cbn [Exec_Model.check]. unfold ret at 1. unfold and_then at 1. unfold ret at 1. unfold and_then at 1. unfold emit at 1. unfold and_then at 1. unfold emit at 1.
    rewrite clone_args in Gi. cbn [tl] in Gi. rewrite Gi. unfold ret at 1.
    match goal with |- deferred _ _ ?x = _ => replace x with s2 end.
    2:{ unfold s2, adds. rewrite clone_args. cbn [io_disk io_done]. now rewrite <- !app_assoc. }
    unfold deferred. rewrite rel_dir_in_clone. unfold and_then. rewrite Gp'. cbn [fst]. rewrite B. unfold s2. rewrite !adds_adds. unfold adds. cbn [io_disk io_done]. now rewrite <- !app_assoc. }
  split.
  - rewrite L, Or, with_options. unfold process. rewrite Y. destruct Ho as [->| ->]; reflexivity.
  - rewrite Lg, Og, with_options. unfold process. rewrite Z. destruct Ho as [->| ->]; reflexivity.
Qed.
Print Assumptions C124_same_baseline.

(** ** Example: a file of foo.v1 was deleted. *)
Example C124_ex : here exw31_r <> "" /\ checks (exw12 true) ["break"; "check"; "--descriptor-set-path"; "old.bin"] [] exw31_r "old.bin" /\
  checks_branch (exw12 true) ["break"; "check"; "--git-branch"; "v1"] [] exw31_r "v1" /\
  stored (exw12 true) (io_disk exw12_edited) "old.bin" Props_Reflect.rx_two /\ cloned (exw12 true) exw31_r (io_disk exw12_edited) [] "v1" "/tmp/d" Props_Reflect.rx_two /\
  version (exw12 true) exw31_r (io_disk exw12_edited) [] (exw31_version 2) (mk_break_config false false) /\ unique_definitions Props_Reflect.rx_two /\
  exw_seen true ["break"; "check"; "--descriptor-set-path"; "old.bin"] exw12_edited = ([Compiled false; Printed exw12_gone], 255%Z).
Proof.
  split; [discriminate|]. split; [exists (exw_command ["break"; "check"]), [Given "descriptor-set-path" LongSpace "old.bin"]; split; [exact (proj1 C97_ex)|]; repeat (split; [first [reflexivity|discriminate]|]); eexists; apply Exec_Proofs.fields_of_ok; reflexivity|].
  split; [exists (exw_command ["break"; "check"]), [Given "git-branch" LongSpace "v1"]; split; [exact (proj1 (proj2 (proj2 C97_ex)))|]; repeat (split; [first [reflexivity|discriminate]|]); eexists; apply Exec_Proofs.fields_of_ok; reflexivity|].
  assert (N : NoDup Props_Reflect.rx_two) by apply Props_Reflect.rx_distinct2.
  assert (Dd : forall x y, y = [] \/ y = [x] -> x = [Props_Reflect.rx_bar; Props_Reflect.rx_foo2; Props_Reflect.rx_foo1] -> distinct_files (x :: y) Props_Reflect.rx_two).
  { intros x y Hy ->. split; [exact N|]. intros f. split; [intros H; eexists; split; [left; reflexivity|]; cbn in *; intuition|]. intros (z & [<-|Hz] & Hf); [cbn in *; intuition|]. destruct Hy as [->| ->]; [destruct Hz|]. destruct Hz as [<-|[]]. cbn in *; intuition. }
  split; [eexists; eexists; split; [reflexivity|]; split; [reflexivity|]; split; [apply Dd; auto|]; split; [exact Props_Reflect.rx_faithful2|exact Props_Reflect.rx_valid2]|].
  split.
  { split; [reflexivity|]. split; [left; reflexivity|]. split; [reflexivity|]. split; [reflexivity|]. split; [reflexivity|]. eexists. eexists. exists [[Props_Reflect.rx_bar; Props_Reflect.rx_foo2; Props_Reflect.rx_foo1]].
    split; [apply FoundDirectory; [reflexivity|vm_compute; reflexivity]|]. split; [vm_compute; reflexivity|]. split; [apply Dd; auto|]. split; [exact Props_Reflect.rx_faithful2|]. split; [exact Props_Reflect.rx_valid2|reflexivity]. }
  split; [|split; [exact Props_Reflect.rx_unique|vm_compute; reflexivity]].
  destruct (exw31_valid 2 (le_S _ _ (le_n 1))) as (F & V & U & N2). eexists. split; [|shelve]. eexists. exists [[Props_Reflect.rx_bar]; [Props_Reflect.rx_bar; Props_Reflect.rx_foo1]].
  split; [apply FoundDirectory; [reflexivity|vm_compute; reflexivity]|]. split; [vm_compute; reflexivity|]. split; [|split; [exact F|split; [exact V|reflexivity]]].
  split; [exact N2|]. intros f. cbn. split.
  - intros [<-|[<-|[]]]; eexists; (split; [right; left; reflexivity|cbn; auto]).
  - intros (x & [<-|[<-|[]]] & Hf); cbn in Hf; intuition.
  Unshelve. reflexivity.
Qed.
