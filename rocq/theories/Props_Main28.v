(** C120 for the whole program: break check against a stored set. *)
From Verif Require Breaking_Spec Props_Clean.
From Verif Require Import GoStrFacts GoPathFacts Settings_Spec File_Spec Exec_Spec Exec_Proofs Cmd_Spec PackageCmd_Spec PackageCmd_Proofs PackageCmd_Proofs5 PackageCmd_Proofs6 Main_Model Main_Spec Main_Spec2
  Main_Spec3 Main_Spec4 Props_Main Props_Main2 Props_Main3 Props_Main4 Props_Main5 Props_Main8 Props_Main10 Props_Main11 Props_Main12.

Lemma nothing_reported cfg from to : (forall id msg, ~ Breaking_Spec.reported cfg from to id msg) ->
  Props_Clean.kept (Reflect_Types.include_beta cfg) from to /\
  (Reflect_Types.include_beta cfg = false -> Reflect_Types.allow_beta_deps cfg = false -> forall n p d, Breaking_Spec.packages_of false to n p -> In d (Reflect_Types.pk_deps p) -> ~ Breaking_Spec.beta_name d).
Proof.
  intros N. split.
  - intros n p P. destruct (BreakRun_Proofs.packages_of_dec (Reflect_Types.include_beta cfg) to n) as [[t T]|A].
    + exists t. split; [exact T|]. eapply Props_Clean.package_kept; [| |exact P|exact T]; intros id msg H; apply (N id msg); [now left|right; now left].
    + exfalso. eapply N. left. eapply Breaking_Spec.del_package; eassumption.
  - intros Ib Ab n p d P I B. eapply N. right. right. split; [exact Ib|]. split; [exact Ab|]. rewrite Ib. econstructor; eassumption.
Qed.
Lemma nothing_to_report cfg from to : Props_Clean.kept (Reflect_Types.include_beta cfg) from to ->
  (Reflect_Types.include_beta cfg = false -> Reflect_Types.allow_beta_deps cfg = false -> forall n p d, Breaking_Spec.packages_of false to n p -> In d (Reflect_Types.pk_deps p) -> ~ Breaking_Spec.beta_name d) ->
  forall id msg, ~ Breaking_Spec.reported cfg from to id msg.
Proof.
  intros K B id msg [H|[H|(E1 & E2 & H)]].
  - now apply (Props_Clean.kept_quiet _ _ _ K) in H.
  - now apply (Props_Clean.kept_quiet _ _ _ K) in H.
  - rewrite E1 in H. destruct H as [n p d Hp Hd Hb]. exact (B E1 E2 n p d Hp Hd Hb).
Qed.

(** The status is 0 exactly if the files declare all that the stored files declare. *)
Theorem C120_main : forall w cwd args fl f fi dl d di s s1 s2 z, ordinary w cwd -> sorts (w_sort_plugins w) -> protoc_ordinary w ->
  means (w_read_csv w) fl f fi args -> c_words f = ["files"] -> main w fl s = (s1, 0%Z) ->
  means (w_read_csv w) dl d di args -> c_words d = ["break"; "check"] -> text di "git-branch" = "" -> text di "descriptor-set-path" <> "" -> same_settings fi di ->
  main w dl s = (s2, z) -> z <> 1%Z ->
  exists names, io_done s1 = io_done s ++ Main_Spec.shown names /\ (names <> [] ->
    (z = 255%Z /\ turned_down w cwd di args names true false s s2) \/
    exists c protoc wkt commands sets data stored, set_up w (io_disk s) cwd di names c protoc wkt /\ made_sets w (io_disk s) cwd true false names c protoc wkt commands sets /\
      io_disk s (text di "descriptor-set-path") = Ok data /\ w_unmarshal w data = Ok stored /\
      forall old new, distinct_files [stored] old -> faithful old -> valid_files old -> distinct_files sets new -> faithful new -> valid_files new ->
        exists from to, describes old from /\ describes new to /\
          (z = 0%Z <-> Props_Clean.kept (bc_include_beta (cfg_break c)) from to /\
             (bc_include_beta (cfg_break c) = false -> bc_allow_beta_deps (cfg_break c) = false ->
              forall n p d, Breaking_Spec.packages_of false to n p -> In d (Reflect_Types.pk_deps p) -> ~ Breaking_Spec.beta_name d))).
Proof.
  intros w cwd args fl f fi dl d di s s1 s2 z O So Po Mf Wf Ef Md W Bn Pn Sm Ed Nz.
  destruct (C97_stored w cwd args fl f fi dl d di s s1 s2 z O So Po Mf Wf Ef Md W Bn Pn Sm Ed Nz) as (names & E & H). exists names. split; [exact E|]. intros Nn.
  destruct (H Nn) as [X|(c & protoc & wkt & commands & sets & data & stored & A1 & A2 & A3 & A4 & X)]; [now left|right].
  exists c, protoc, wkt, commands, sets, data, stored. split; [exact A1|]. split; [exact A2|]. split; [exact A3|]. split; [exact A4|]. intros old new D1 F1 V1 D2 F2 V2.
  destruct (X old new D1 F1 V1 D2 F2 V2) as (fails & (from & to & De & De' & Vd) & (out & _ & _ & _ & _ & _ & Z) & _). exists from, to. split; [exact De|]. split; [exact De'|].
  set (cfg := Reflect_Types.mk_break_config (bc_include_beta (cfg_break c)) (bc_allow_beta_deps (cfg_break c))) in *. split.
  - intros ->. assert (fails = []) as -> by (destruct fails; [reflexivity|discriminate Z]). apply (nothing_reported cfg). intros id msg R. apply (proj2 (Vd (mk_failure "" 0 0 id msg))). eauto.
  - intros (K & B). destruct fails as [|g fails]; [exact Z|]. destruct (proj1 (Vd g) (or_introl eq_refl)) as (id & msg & _ & R). exfalso. exact (nothing_to_report cfg from to K B id msg R).
Qed.
Print Assumptions C120_main.
(** The example of C97: once the files have been edited the status is 255, as long as they have not it is 0. *)
Example C120_main_ex : ordinary (exw12 true) "/w" /\ protoc_ordinary (exw12 true) /\ means (w_read_csv (exw12 true)) ["break"; "check"; "--descriptor-set-path"; "old.bin"] (exw_command ["break"; "check"]) [Given "descriptor-set-path" LongSpace "old.bin"] [] /\
  same_settings [] [Given "descriptor-set-path" LongSpace "old.bin"] /\
  snd (exw_seen true ["break"; "check"; "--descriptor-set-path"; "old.bin"] exw12_edited) = 255%Z /\
  snd (exw_seen true ["break"; "check"; "--descriptor-set-path"; "old.bin"] (fst (main (exw12 true) ["break"; "descriptor-set"; "--output-path"; "old.bin"] exw8_s))) = 0%Z.
Proof. destruct C97_ex as (A & _ & _ & B & _ & _ & _ & C & _ & _ & D & _). rewrite C, D. split; [exact (exw12_ordinary true)|]. split; [exact (exw12_protoc true)|]. auto. Qed.
(** The same for a branch or tag: [old] are the files of the clone. *)
Theorem C120_git : forall w cwd args fl f fi dl d di s s1 s2 z, ordinary w cwd -> sorts (w_sort_plugins w) -> protoc_ordinary w ->
  means (w_read_csv w) fl f fi args -> c_words f = ["files"] -> main w fl s = (s1, 0%Z) ->
  means (w_read_csv w) dl d di args -> c_words d = ["break"; "check"] -> text di "descriptor-set-path" = "" -> same_settings fi di ->
  main w dl s = (s2, z) -> z <> 1%Z ->
  exists names, io_done s1 = io_done s ++ Main_Spec.shown names /\ (names <> [] ->
    (z = 255%Z /\ turned_down w cwd di args names true false s s2) \/
    exists c protoc wkt commands sets clone, set_up w (io_disk s) cwd di names c protoc wkt /\ made_sets w (io_disk s) cwd true false names c protoc wkt commands sets /\
      w_temp_dir w = Ok clone /\ w_git w (tl (clone_of cwd (text di "git-branch") clone)) = Ok tt /\
      forall r old new c', the_options w di = Ok r -> tree (w_stat w) (provider w r (io_disk s)) (the_compiler w r) (io_disk s) clone [in_clone clone (Exec_Spec.target args)] old c' ->
        distinct_files sets new -> faithful new -> valid_files new ->
        exists from to, describes old from /\ describes new to /\
          (z = 0%Z <-> Props_Clean.kept (bc_include_beta (cfg_break c)) from to /\
             (bc_include_beta (cfg_break c) = false -> bc_allow_beta_deps (cfg_break c) = false ->
              forall n p d, Breaking_Spec.packages_of false to n p -> In d (Reflect_Types.pk_deps p) -> ~ Breaking_Spec.beta_name d))).
Proof.
  intros w cwd args fl f fi dl d di s s1 s2 z O So Po Mf Wf Ef Md W Pn Sm Ed Nz.
  destruct (C97_git w cwd args fl f fi dl d di s s1 s2 z O So Po Mf Wf Ef Md W Pn Sm Ed Nz) as (names & E & H). exists names. split; [exact E|]. intros Nn.
  destruct (H Nn) as [X|(c & protoc & wkt & commands & sets & clone & during & A1 & A2 & _ & _ & A3 & A4 & _ & _ & _ & X)]; [now left|right].
  exists c, protoc, wkt, commands, sets, clone. split; [exact A1|]. split; [exact A2|]. split; [exact A3|]. split; [exact A4|]. intros r old new c' Or Tr D2 F2 V2.
  destruct (X r old new c' Or Tr D2 F2 V2) as (fails & out & _ & _ & (from & to & De & De' & Vd) & _ & _ & Z). exists from, to. split; [exact De|]. split; [exact De'|].
  set (cfg := Reflect_Types.mk_break_config (bc_include_beta (cfg_break c)) (bc_allow_beta_deps (cfg_break c))) in *. split.
  - intros ->. assert (fails = []) as -> by (destruct fails; [reflexivity|discriminate Z]). apply (nothing_reported cfg). intros id msg R. apply (proj2 (Vd (mk_failure "" 0 0 id msg))). eauto.
  - intros (K & B). destruct fails as [|g fails]; [exact Z|]. destruct (proj1 (Vd g) (or_introl eq_refl)) as (id & msg & _ & R). exfalso. exact (nothing_to_report cfg from to K B id msg R).
Qed.
Print Assumptions C120_git.
Example C120_git_ex : ordinary (exw12 true) "/w" /\ protoc_ordinary (exw12 true) /\
  means (w_read_csv (exw12 true)) ["break"; "check"; "--git-branch"; "v1"] (exw_command ["break"; "check"]) [Given "git-branch" LongSpace "v1"] [] /\
  snd (exw_seen true ["break"; "check"; "--git-branch"; "v1"] exw12_edited) = 255%Z.
Proof. destruct C97_ex as (_ & _ & A & _ & _ & _ & _ & _ & C & _). rewrite C. split; [exact (exw12_ordinary true)|]. split; [exact (exw12_protoc true)|]. auto. Qed.
