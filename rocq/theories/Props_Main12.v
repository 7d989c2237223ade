(** C95, C96, C97: the commands that work on the descriptor sets that protoc makes, for the whole
    program. *)
From Coq Require Import Permutation.
From Verif Require Settings_Proofs Settings_Proofs2 PackageCmd_Proofs4 Props_PackageCmd.
From Verif Require Import GoStrFacts GoPathFacts Settings_Spec File_Spec Exec_Spec Exec_Proofs Cmd_Spec PackageCmd_Spec PackageCmd_Proofs PackageCmd_Proofs5 PackageCmd_Proofs6 Main_Model Main_Spec Main_Spec2
  Main_Spec3 Main_Spec4 Main_Proofs Main_Proofs2 Main_Proofs5 Main_Proofs6 Main_Proofs7 Main_Proofs13 Main_Proofs15 Main_Proofs16 Props_Main Props_Main2 Props_Main3 Props_Main4 Props_Main5 Props_Main8 Props_Main10 Props_Main11.

(** What is asked of protoc, and where the set is to go.  break descriptor-set is descriptor-set with
    the imports, to a file. *)
Definition set_asked (d : command) (items : list item) (imports info : bool) (output : string) (tmp : bool) : Prop :=
  (c_words d = ["descriptor-set"] /\ imports = on items "include-imports" /\ info = on items "include-source-info" /\ output = text items "output-path" /\ tmp = on items "tmp") \/
  (c_words d = ["break"; "descriptor-set"] /\ imports = true /\ info = false /\ output = text items "output-path" /\ tmp = false).
(** The temporary files have names, and the runs of protoc end in some order. *)
Definition protoc_ordinary (w : world) : Prop :=
  (forall n f, w_protoc_temp w n = Ok f -> f <> "") /\ (forall n, Permutation (w_ended w n) (List.seq 0 n)).
(** Protoc had something to say, which is listed; nothing else was done. *)
Definition turned_down (w : world) (cwd : string) (items : list item) (args names : list string) (imports info : bool) (s s' : io) : Prop :=
  exists c protoc wkt seen out, set_up w (io_disk s) cwd items names c protoc wkt /\
    rejected_sets w (io_disk s) cwd imports info names c protoc wkt args seen /\
    listing (on items "json") Json_Model.failure_json (text items "error-format") seen (printed out) /\ only_prints out /\
    io_done s' = io_done s ++ Compiled false :: out /\ io_disk s' = io_disk s.

Lemma failed_turned_down w cwd items args r m names full set s s' e : ordinary w cwd -> protoc_ordinary w -> sees w cwd items args (io_disk s) r m names -> names <> [] -> set || is_full full = true ->
  compile_failed (here r) (r_error_format r) (r_json r) Json_Model.failure_json (the_compiler w r) false set full m s s' e ->
  e = "" /\ turned_down w cwd items args names (negb (is_full full) || full_imports full) (full_source_info full) s s'.
Proof.
  intros O (Tn & En) S Nn Do (f & fs & sets & es & kept & C & -> & Pk & L & Op & ->). split; [reflexivity|].
  destruct (sees_rejected _ _ _ _ _ _ _ _ _ _ _ _ _ _ O Tn En S Nn Do C Pk) as (protoc & wkt & kept' & A & B & D).
  destruct (se_options _ _ _ _ _ _ _ _ S) as (z & Rw). exists (ps_config (m_set m)), protoc, wkt, kept', es. split; [exact A|]. split; [exact D|]. split; [|auto].
  rewrite Rw in L. cbn [r_json r_error_format options] in L. eapply listing_perm; eassumption.
Qed.

(** ** C95 *)
Theorem C95_set : forall w cwd args fl f fi dl d di imports info output tmp s s1 s2 z, ordinary w cwd -> sorts (w_sort_plugins w) -> protoc_ordinary w -> w_temp_file w <> Ok "" ->
  means (w_read_csv w) fl f fi args -> c_words f = ["files"] -> main w fl s = (s1, 0%Z) ->
  means (w_read_csv w) dl d di args -> set_asked d di imports info output tmp -> same_settings fi di -> main w dl s = (s2, z) ->
  exists names, io_done s1 = io_done s ++ Main_Spec.shown names /\ (names <> [] ->
    (z = 0%Z -> exists c protoc wkt commands sets all data dest, set_up w (io_disk s) cwd di names c protoc wkt /\
       made_sets w (io_disk s) cwd imports info names c protoc wkt commands sets /\ (tells_apart (w_sha256 w) sets -> consistent sets /\ joined sets all) /\
       (if on di "json" then w_set_json w all else w_marshal w all) = Ok data /\ destination_of output tmp (w_temp_file w) dest /\ delivered dest data s s2) /\
    (z = 255%Z -> (io_disk s2 = io_disk s /\ ((output <> "" /\ tmp = true) \/ (c_words d = ["break"; "descriptor-set"] /\ output = ""))) \/
       turned_down w cwd di args names imports info s s2)).
Proof.
  intros w cwd args fl f fi dl d di imports info output tmp s s1 s2 z O So Po Wt Mf Wf Ef Md As Sm Ed. pose proof O as (V & G & Wd & Cl & Nm & St). pose proof Po as (Tn & En).
  destruct (files_see w cwd args fl f fi di s s1 O So Mf Wf Ef Sm) as (names & r & m & E1 & Or & S). exists names. split; [exact E1|]. intros Nn.
  destruct (line_is w dl d di args G Md) as (k & K & L). rewrite L in Ed. clear L. rewrite Or, with_options in Ed.
  destruct (se_options _ _ _ _ _ _ _ _ S) as (zz & Rw). pose proof (se_found _ _ _ _ _ _ _ _ S) as Fr. pose proof (se_here _ _ _ _ _ _ _ _ S) as Hr.
  assert (Js : r_json r = on di "json") by now rewrite Rw.
  assert (X : (c_words d = ["break"; "descriptor-set"] /\ output = "" /\ io_disk s2 = io_disk s /\ z = 255%Z) \/
    exists o, PackageCmd_Model.descriptor_set (here r) (here r) (r_error_format r) (r_json r) Json_Model.failure_json (w_stat w) (provider w r (io_disk s)) (the_compiler w r) (w_sha256 w) (w_marshal w) (w_set_json w) (w_write_error w) (w_temp_file w)
      args imports info output tmp s = (s2, o) /\ match o with Value _ => z = 0%Z | Exit e => e = "" /\ z = 255%Z | Fail _ => z = 1%Z end \/
      (output <> "" /\ tmp = true /\ io_disk s2 = io_disk s /\ z = 255%Z) \/ z = 1%Z).
  { assert (Y : forall s' o, PackageCmd_Model.descriptor_set (here r) (here r) (r_error_format r) (r_json r) Json_Model.failure_json (w_stat w) (provider w r (io_disk s)) (the_compiler w r) (w_sha256 w) (w_marshal w) (w_set_json w) (w_write_error w) (w_temp_file w)
      args imports info output tmp s = (s', o) -> (match o with Value _ => (s', 0%Z) | Exit e => (fst (println e s'), 255%Z) | Fail e => (fst (println e s'), 1%Z) end) = (s2, z) ->
      exists o, PackageCmd_Model.descriptor_set (here r) (here r) (r_error_format r) (r_json r) Json_Model.failure_json (w_stat w) (provider w r (io_disk s)) (the_compiler w r) (w_sha256 w) (w_marshal w) (w_set_json w) (w_write_error w) (w_temp_file w)
      args imports info output tmp s = (s2, o) /\ match o with Value _ => z = 0%Z | Exit e => e = "" /\ z = 255%Z | Fail _ => z = 1%Z end \/
      (output <> "" /\ tmp = true /\ io_disk s2 = io_disk s /\ z = 255%Z) \/ z = 1%Z).
    { intros s' o E Ez. exists o. destruct (descriptor_set_inv _ _ _ _ _ _ _ _ _ _ _ _ _ Wt _ _ _ _ _ _ _ _ _ Fr E) as (_ & I2). destruct o as [[]|e|e].
      - injection Ez as <- <-. left. auto.
      - destruct (I2 e eq_refl) as [(A & B & ->)|(g & gs & sets & es & kept & _ & _ & _ & _ & _ & ->)].
        + right. left. injection Ez as <- <-. split; [exact A|]. split; [exact B|]. split; [|reflexivity]. unfold println. destruct (is_empty e); reflexivity.
        + left. injection Ez as <- <-. auto.
      - right. right. now injection Ez as _ <-. }
    destruct As as [(W & -> & -> & -> & ->)|(W & -> & -> & -> & ->)]; unfold asked in K; rewrite W in K; injection K as <-.
    - right. unfold process in Ed. change (Main_Model.method w r (CallDescriptorSet args (on di "include-imports") (on di "include-source-info") (text di "output-path") (on di "tmp")) s)
        with (PackageCmd_Model.descriptor_set (here r) (here r) (r_error_format r) (r_json r) Json_Model.failure_json (w_stat w) (provider w r (io_disk s)) (the_compiler w r) (w_sha256 w) (w_marshal w) (w_set_json w) (w_write_error w) (w_temp_file w)
         args (on di "include-imports") (on di "include-source-info") (text di "output-path") (on di "tmp") s) in Ed.
      match type of Ed with context [let (_, _) := ?x in _] => destruct x as [s' o] eqn:E end. exact (Y s' o eq_refl Ed).
    - unfold process in Ed. change (Main_Model.method w r (CallBreakDescriptorSet args (text di "output-path")) s)
        with (PackageCmd_Model.break_descriptor_set (here r) (here r) (r_error_format r) (r_json r) Json_Model.failure_json (w_stat w) (provider w r (io_disk s)) (the_compiler w r) (w_sha256 w) (w_marshal w) (w_set_json w) (w_write_error w) (w_temp_file w)
         args (text di "output-path") s) in Ed.
      destruct (break_descriptor_set_eq (here r) (here r) (r_error_format r) (r_json r) Json_Model.failure_json (w_stat w) (provider w r (io_disk s)) (the_compiler w r) (w_sha256 w) (w_marshal w) (w_set_json w) (w_write_error w) (w_temp_file w)
         args (text di "output-path") s) as (B1 & B2).
      destruct (String.eqb_spec (text di "output-path") "") as [E|N].
      + left. rewrite (B1 E) in Ed. injection Ed as <- <-. auto.
      + right. rewrite (B2 N) in Ed. match type of Ed with context [let (_, _) := ?x in _] => destruct x as [s' o] eqn:E end. exact (Y s' o eq_refl Ed). }
  destruct X as [(W & -> & Dk & ->)|(o & [(E & Hz)|[(A & B & Dk & ->)| ->]])].
  - split; [discriminate|]. intros _. left. auto.
  - destruct (descriptor_set_inv _ _ _ _ _ _ _ _ _ _ _ _ _ Wt _ _ _ _ _ _ _ _ _ Fr E) as (I1 & I2). split.
    + intros ->. destruct o as [[]|e|e]; [|now destruct Hz|discriminate Hz].
      destruct (I1 eq_refl) as (dest & sets & all & data & C & J & En' & De & Dl).
      destruct (sees_sets _ _ _ _ _ _ _ _ _ _ _ O Tn En S Nn (eq_refl : false || is_full (Some (imports, info)) = true) C) as (protoc & wkt & commands & A & B).
      exists (ps_config (m_set m)), protoc, wkt, commands, sets, all, data, dest. rewrite <- Js. auto 8.
    + intros ->. destruct o as [[]|e|]; [discriminate Hz| |discriminate Hz]. destruct (I2 e eq_refl) as [(A & B & ->)|Cf]; [left; auto|]. right.
      now destruct (failed_turned_down _ _ _ _ _ _ _ _ _ _ _ _ O Po S Nn (eq_refl : false || is_full (Some (imports, info)) = true) Cf) as (_ & X).
  - split; [discriminate|]. intros _. left. auto.
  - split; discriminate.
Qed.
Print Assumptions C95_set.

(** ** C96 *)
(** What a command of inspect is to list for the files. *)
Definition inspected (d : command) (items : list item) (fs : list file_desc) (n : string) : Prop :=
  (c_words d = ["x"; "inspect"; "packages"] /\ package_in fs n) \/
  (c_words d = ["x"; "inspect"; "package-deps"] /\ depends fs (text items "name") n) \/
  (c_words d = ["x"; "inspect"; "package-importers"] /\ depends fs n (text items "name")).
Definition inspects (d : command) : Prop := c_words d = ["x"; "inspect"; "packages"] \/ c_words d = ["x"; "inspect"; "package-deps"] \/ c_words d = ["x"; "inspect"; "package-importers"].
Lemma process_cases (c : cmd unit) s s2 z : process c s = (s2, z) -> exists s' o, c s = (s', o) /\
  ((o = Value tt /\ s2 = s' /\ z = 0%Z) \/ (exists e, o = Exit e /\ s2 = fst (println e s') /\ z = 255%Z) \/ (exists e, o = Fail e /\ z = 1%Z)).
Proof.
  unfold process. destruct (c s) as [s' [[]|e|e]]; intros [= <- <-]; (eexists; eexists; split; [reflexivity|]); eauto 8.
Qed.
Lemma println_disk e s : io_disk (fst (println e s)) = io_disk s.
Proof. unfold println. now destruct (is_empty e). Qed.
Lemma in_package fs name : package_in fs name \/ ~ package_in fs name.
Proof.
  destruct (in_dec string_dec name (map fl_package fs)) as [H|H]; [left|right].
  - apply in_map_iff in H as (f & E & Hf). now exists f.
  - intros (f & Hf & E). apply H, in_map_iff. now exists f.
Qed.

Theorem C96_inspect : forall w cwd args fl f fi dl d di s s1 s2 z, ordinary w cwd -> sorts (w_sort_plugins w) -> protoc_ordinary w ->
  means (w_read_csv w) fl f fi args -> c_words f = ["files"] -> main w fl s = (s1, 0%Z) ->
  means (w_read_csv w) dl d di args -> inspects d -> same_settings fi di -> main w dl s = (s2, z) ->
  exists names, io_done s1 = io_done s ++ Main_Spec.shown names /\ (names <> [] ->
    (z = 0%Z -> exists c protoc wkt commands sets, set_up w (io_disk s) cwd di names c protoc wkt /\ made_sets w (io_disk s) cwd true false names c protoc wkt commands sets /\
       (c_words d = ["x"; "inspect"; "packages"] \/ text di "name" <> "") /\
       forall fs, distinct_files sets fs -> faithful fs -> valid_files fs -> (c_words d = ["x"; "inspect"; "packages"] \/ package_in fs (text di "name")) /\
         exists packages out, io_done s2 = io_done s ++ Compiled false :: out /\ io_disk s2 = io_disk s /\ only_prints out /\ printed out = one_per_line packages /\
           Increasing packages /\ forall n, In n packages <-> inspected d di fs n) /\
    (z = 255%Z -> (io_disk s2 = io_disk s /\ text di "name" = "" /\ c_words d <> ["x"; "inspect"; "packages"]) \/ turned_down w cwd di args names true false s s2)).
Proof.
  intros w cwd args fl f fi dl d di s s1 s2 z O So Po Mf Wf Ef Md As Sm Ed. pose proof O as (V & G & Wd & Cl & Nm & St). pose proof Po as (Tn & En).
  destruct (files_see w cwd args fl f fi di s s1 O So Mf Wf Ef Sm) as (names & r & m & E1 & Or & S). exists names. split; [exact E1|]. intros Nn.
  destruct (line_is w dl d di args G Md) as (k & K & L). rewrite L in Ed. clear L. rewrite Or, with_options in Ed.
  pose proof (se_found _ _ _ _ _ _ _ _ S) as Fr. pose proof (se_here _ _ _ _ _ _ _ _ S) as Hr.
  apply process_cases in Ed as (s' & o & E & Z).
  assert (Hc : forall sets, the_compiler w r false true None (io_disk s) (m_set m) = Ok ([], sets) -> exists protoc wkt commands, set_up w (io_disk s) cwd di names (ps_config (m_set m)) protoc wkt /\
    made_sets w (io_disk s) cwd true false names (ps_config (m_set m)) protoc wkt commands sets).
  { intros sets C. destruct (sees_sets _ _ _ _ _ _ _ _ _ _ _ O Tn En S Nn (eq_refl : true || is_full None = true) C) as (protoc & wkt & commands & A & B). eauto 8. }
  assert (Hd : forall e s', compile_failed (here r) (r_error_format r) (r_json r) Json_Model.failure_json (the_compiler w r) false true None m s s' e -> e = "" /\ turned_down w cwd di args names true false s s').
  { intros e s'' Cf. exact (failed_turned_down _ _ _ _ _ _ _ _ _ _ _ _ O Po S Nn (eq_refl : true || is_full None = true) Cf). }
  destruct As as [W|[W|W]]; unfold asked in K; rewrite W in K; injection K as <-.
  - change (Main_Model.method w r (CallInspectPackages args) s) with (PackageCmd_Model.inspect_packages (w_order w) (here r) (here r) (r_error_format r) (r_json r) Json_Model.failure_json (w_stat w) (provider w r (io_disk s)) (the_compiler w r) (the_commands w r) args s) in E.
    pose proof E as E'. eapply inspect_packages_inv in E' as (I1 & I2); [|exact Fr]. split.
    + intros ->. destruct Z as [(-> & -> & _)|[(e & _ & _ & X)|(e & _ & X)]]; [|discriminate X..]. destruct (I1 eq_refl) as (Hf & sets & C). destruct (Hc sets C) as (protoc & wkt & commands & A & B).
      exists (ps_config (m_set m)), protoc, wkt, commands, sets. split; [exact A|]. split; [exact B|]. split; [auto|]. intros fs D Fa Va. split; [auto|].
      destruct (Props_PackageCmd.C73_packages (w_order w) (here r) (here r) (r_error_format r) (r_json r) Json_Model.failure_json (w_stat w) (provider w r (io_disk s)) (the_compiler w r) (the_commands w r) Hf V args fs (ps_config (m_set m)) s) as (packages & out & X & Op & Pr & Inc & Hn).
      { eapply tree_of; eassumption. }
      rewrite E in X. injection X as ->. exists packages, out. split; [reflexivity|]. split; [reflexivity|]. split; [exact Op|]. split; [exact Pr|]. split; [exact Inc|]. intros n. rewrite Hn. unfold inspected. rewrite W. split; [auto|]. intros [(_ & H)|[(H & _)|(H & _)]]; [exact H|discriminate H..].
    + intros ->. right. destruct Z as [(_ & _ & X)|[(e & -> & -> & _)|(e & _ & X)]]; [discriminate X| |discriminate X]. destruct (Hd _ _ (I2 e eq_refl)) as (-> & X). exact X.
  - change (Main_Model.method w r (CallInspectPackageDeps args (text di "name")) s) with (PackageCmd_Model.inspect_package_deps (w_order w) (here r) (here r) (r_error_format r) (r_json r) Json_Model.failure_json (w_stat w) (provider w r (io_disk s)) (the_compiler w r) (the_commands w r) args (text di "name") s) in E.
    pose proof E as E'. unfold PackageCmd_Model.inspect_package_deps in E'. eapply get_package_then in E' as (I1 & I2); [|intros p s0; apply print_names_value|exact Fr]. split.
    + intros ->. destruct Z as [(-> & -> & _)|[(e & _ & _ & X)|(e & _ & X)]]; [|discriminate X..]. destruct (I1 eq_refl) as (Nz & Hf & sets & C). destruct (Hc sets C) as (protoc & wkt & commands & A & B).
      exists (ps_config (m_set m)), protoc, wkt, commands, sets. split; [exact A|]. split; [exact B|]. split; [auto|]. intros fs D Fa Va.
      assert (Tr : tree (w_stat w) (provider w r (io_disk s)) (the_compiler w r) (io_disk s) (here r) args fs (ps_config (m_set m))) by (eapply tree_of; eassumption).
      destruct (in_package fs (text di "name")) as [Hp|Np].
      2:{ exfalso. destruct (Props_PackageCmd.C73_unknown (w_order w) (here r) (here r) (r_error_format r) (r_json r) Json_Model.failure_json (w_stat w) (provider w r (io_disk s)) (the_compiler w r) (the_commands w r) Hf args fs (ps_config (m_set m)) s _ Tr Np Nz) as (X & _). rewrite E in X. discriminate X. }
      split; [auto|].
      destruct (Props_PackageCmd.C73_deps (w_order w) (here r) (here r) (r_error_format r) (r_json r) Json_Model.failure_json (w_stat w) (provider w r (io_disk s)) (the_compiler w r) (the_commands w r) Hf V args fs (ps_config (m_set m)) s _ Tr Hp) as (packages & out & X & Op & Pr & Inc & Hn).
      rewrite E in X. injection X as ->. exists packages, out. split; [reflexivity|]. split; [reflexivity|]. split; [exact Op|]. split; [exact Pr|]. split; [exact Inc|]. intros n. rewrite Hn. unfold inspected. rewrite W. split; [auto|]. intros [(H & _)|[(_ & H)|(H & _)]]; [discriminate H|exact H|discriminate H].
    + intros ->. destruct Z as [(_ & _ & X)|[(e & -> & -> & _)|(e & _ & X)]]; [discriminate X| |discriminate X]. destruct (I2 e eq_refl) as [(A & ->)|Cf].
      * left. rewrite println_disk. split; [reflexivity|]. split; [exact A|]. rewrite W. discriminate.
      * right. destruct (Hd _ _ Cf) as (-> & X). exact X.
  - change (Main_Model.method w r (CallInspectPackageImporters args (text di "name")) s) with (PackageCmd_Model.inspect_package_importers (w_order w) (here r) (here r) (r_error_format r) (r_json r) Json_Model.failure_json (w_stat w) (provider w r (io_disk s)) (the_compiler w r) (the_commands w r) args (text di "name") s) in E.
    pose proof E as E'. unfold PackageCmd_Model.inspect_package_importers in E'. eapply get_package_then in E' as (I1 & I2); [|intros p s0; apply print_names_value|exact Fr]. split.
    + intros ->. destruct Z as [(-> & -> & _)|[(e & _ & _ & X)|(e & _ & X)]]; [|discriminate X..]. destruct (I1 eq_refl) as (Nz & Hf & sets & C). destruct (Hc sets C) as (protoc & wkt & commands & A & B).
      exists (ps_config (m_set m)), protoc, wkt, commands, sets. split; [exact A|]. split; [exact B|]. split; [auto|]. intros fs D Fa Va.
      assert (Tr : tree (w_stat w) (provider w r (io_disk s)) (the_compiler w r) (io_disk s) (here r) args fs (ps_config (m_set m))) by (eapply tree_of; eassumption).
      destruct (in_package fs (text di "name")) as [Hp|Np].
      2:{ exfalso. destruct (Props_PackageCmd.C73_unknown (w_order w) (here r) (here r) (r_error_format r) (r_json r) Json_Model.failure_json (w_stat w) (provider w r (io_disk s)) (the_compiler w r) (the_commands w r) Hf args fs (ps_config (m_set m)) s _ Tr Np Nz) as (_ & X). rewrite E in X. discriminate X. }
      split; [auto|].
      destruct (Props_PackageCmd.C73_importers (w_order w) (here r) (here r) (r_error_format r) (r_json r) Json_Model.failure_json (w_stat w) (provider w r (io_disk s)) (the_compiler w r) (the_commands w r) Hf V args fs (ps_config (m_set m)) s _ Tr Hp) as (packages & out & X & Op & Pr & Inc & Hn).
      rewrite E in X. injection X as ->. exists packages, out. split; [reflexivity|]. split; [reflexivity|]. split; [exact Op|]. split; [exact Pr|]. split; [exact Inc|]. intros n. rewrite Hn. unfold inspected. rewrite W. split; [auto|]. intros [(H & _)|[(H & _)|(_ & H)]]; [discriminate H|discriminate H|exact H].
    + intros ->. destruct Z as [(_ & _ & X)|[(e & -> & -> & _)|(e & _ & X)]]; [discriminate X| |discriminate X]. destruct (I2 e eq_refl) as [(A & ->)|Cf].
      * left. rewrite println_disk. split; [reflexivity|]. split; [exact A|]. rewrite W. discriminate.
      * right. destruct (Hd _ _ Cf) as (-> & X). exact X.
Qed.
Print Assumptions C96_inspect.

(** ** C97 *)
(** What a check found, as it is told. *)
Definition told (w : world) (items : list item) (fails : list failure) (s s' : io) (z : Z) : Prop :=
  exists out, io_done s' = io_done s ++ Compiled false :: out /\ io_disk s' = io_disk s /\ only_prints out /\ (fails = [] -> out = []) /\
    listing (on items "json") Json_Model.failure_json "message" fails (printed out) /\ z = match fails with [] => 0%Z | _ => 255%Z end.

Theorem C97_stored : forall w cwd args fl f fi dl d di s s1 s2 z, ordinary w cwd -> sorts (w_sort_plugins w) -> protoc_ordinary w ->
  means (w_read_csv w) fl f fi args -> c_words f = ["files"] -> main w fl s = (s1, 0%Z) ->
  means (w_read_csv w) dl d di args -> c_words d = ["break"; "check"] -> text di "git-branch" = "" -> text di "descriptor-set-path" <> "" -> same_settings fi di ->
  main w dl s = (s2, z) -> z <> 1%Z ->
  exists names, io_done s1 = io_done s ++ Main_Spec.shown names /\ (names <> [] ->
    (z = 255%Z /\ turned_down w cwd di args names true false s s2) \/
    exists c protoc wkt commands sets data stored, set_up w (io_disk s) cwd di names c protoc wkt /\ made_sets w (io_disk s) cwd true false names c protoc wkt commands sets /\
      io_disk s (text di "descriptor-set-path") = Ok data /\ w_unmarshal w data = Ok stored /\
      forall old new, distinct_files [stored] old -> faithful old -> valid_files old -> distinct_files sets new -> faithful new -> valid_files new ->
        exists fails, verdict c old new fails /\ told w di fails s s2 z /\
        (unique_definitions old -> (forall f, In f new <-> In f old) ->
         bc_include_beta (cfg_break c) = true \/ bc_allow_beta_deps (cfg_break c) = true \/ (forall a b, depends old a b -> ~ Breaking_Spec.beta_name a -> ~ Breaking_Spec.beta_name b) -> fails = [])).
Proof.
  intros w cwd args fl f fi dl d di s s1 s2 z O So Po Mf Wf Ef Md W Bn Pn Sm Ed Nz. pose proof O as (V & G & Wd & Cl & Nm & St). pose proof Po as (Tn & En).
  destruct (files_see w cwd args fl f fi di s s1 O So Mf Wf Ef Sm) as (names & r & m & E1 & Or & S). exists names. split; [exact E1|]. intros Nn.
  destruct (line_is w dl d di args G Md) as (k & K & L). rewrite L in Ed. clear L. rewrite Or, with_options in Ed.
  pose proof (se_found _ _ _ _ _ _ _ _ S) as Fr. destruct (se_options _ _ _ _ _ _ _ _ S) as (zz & Rw). assert (Js : r_json r = on di "json") by now rewrite Rw.
  apply process_cases in Ed as (s' & o & E & Z). unfold asked in K; rewrite W in K; injection K as <-. rewrite Bn in E.
  change (Main_Model.method w r (CallBreakCheck args "" (text di "descriptor-set-path")) s) with (PackageCmd_Model.break_check (here r) (here r) (r_error_format r) (r_json r) Json_Model.failure_json (w_stat w) (provider w r (io_disk s)) (the_compiler w r) (the_commands w r)
    (w_unmarshal w) (w_temp_dir w) (w_git w) args "" (text di "descriptor-set-path") s) in E.
  pose proof E as E'. eapply break_check_stored_inv in E' as [(sets & Hf & C & [(e & ->)|(data & stored & Rd & Un)])|[(e & -> & Cf)|(e & ->)]]; [| | | |exact Pn|exact Fr].
  - destruct Z as [(X & _)|[(? & X & _)|(? & _ & X)]]; [discriminate X|discriminate X|contradiction].
  - right. destruct (sees_sets _ _ _ _ _ _ _ _ _ _ _ O Tn En S Nn (eq_refl : true || is_full None = true) C) as (protoc & wkt & commands & A & B).
    exists (ps_config (m_set m)), protoc, wkt, commands, sets, data, stored. split; [exact A|]. split; [exact B|]. split; [exact Rd|]. split; [exact Un|].
    intros old new Do Fo Vo Dn Fn Vn.
    assert (Tr : tree (w_stat w) (provider w r (io_disk s)) (the_compiler w r) (io_disk s) (here r) args new (ps_config (m_set m))) by (eapply tree_of; eassumption).
    destruct (Props_PackageCmd.C74_stored (here r) (here r) (r_error_format r) (r_json r) Json_Model.failure_json (w_stat w) (provider w r (io_disk s)) (the_compiler w r) (the_commands w r)
      (w_unmarshal w) (w_temp_dir w) (w_git w) Hf args _ data stored old new _ s Pn Tr Rd Un Do Fo Vo) as (fails & out & o' & X & Op & Ve & A1 & A2 & A3).
    exists fails. split; [exact Ve|]. rewrite E in X. injection X as -> ->. split.
    + exists out. rewrite <- Js. assert (s2 = adds s (Compiled false :: out)) as ->.
      { destruct fails as [|f0 fs]; subst o'; destruct Z as [(X & -> & _)|[(e & X & -> & _)|(e & X & _)]]; try discriminate X; [reflexivity|]. now injection X as <-. }
      split; [reflexivity|]. split; [reflexivity|]. split; [exact Op|]. split; [exact A1|]. split; [exact A2|].
      destruct fails as [|f0 fs]; subst o'; destruct Z as [(X & _ & ->)|[(e & X & _ & ->)|(e & X & _)]]; try discriminate X; reflexivity.
    + intros U Same Beta. pose proof (same_set (here r) (here r) (r_error_format r) (r_json r) Json_Model.failure_json (w_stat w) (provider w r (io_disk s)) (the_compiler w r) (the_commands w r)
        (w_unmarshal w) (w_temp_dir w) (w_git w) args _ data stored old new _ s Hf Pn Tr Rd Un Do Fo Vo U Same Beta) as X.
      destruct fails; [reflexivity|]. rewrite A3 in E. rewrite E in X. discriminate X.
  - left. destruct Z as [(X & _)|[(e' & [= <-] & -> & ->)|(? & X & _)]]; [discriminate X| |discriminate X]. split; [reflexivity|].
    destruct (failed_turned_down _ _ _ _ _ _ _ _ _ _ _ _ O Po S Nn (eq_refl : true || is_full None = true) Cf) as (-> & X). exact X.
  - destruct Z as [(X & _)|[(? & X & _)|(? & _ & X)]]; [discriminate X|discriminate X|contradiction].
Qed.
Print Assumptions C97_stored.
(** Both a branch and a stored set are refused. *)
Theorem C97_flags : forall w cwd args dl d di s s2 z, ordinary w cwd -> means (w_read_csv w) dl d di args -> c_words d = ["break"; "check"] ->
  text di "git-branch" <> "" -> text di "descriptor-set-path" <> "" -> main w dl s = (s2, z) -> z <> 0%Z /\ io_disk s2 = io_disk s /\ exists out, io_done s2 = io_done s ++ out /\ only_prints out.
Proof.
  intros w cwd args dl d di s s2 z O Md W Bn Pn Ed. pose proof O as (V & G & Wd & Cl & Nm & St).
  destruct (line_is w dl d di args G Md) as (k & K & L). rewrite L in Ed. clear L.
  assert (Hp : forall e, io_disk (fst (println e s)) = io_disk s /\ exists out, io_done (fst (println e s)) = io_done s ++ out /\ only_prints out).
  { intros e. split; [apply println_disk|]. rewrite println_adds. eexists. split; [reflexivity|]. destruct (is_empty e); repeat constructor; eexists; reflexivity. }
  destruct (the_options w di) as [r|e] eqn:Or.
  - rewrite with_options in Ed. unfold asked in K; rewrite W in K; injection K as <-. apply process_cases in Ed as (s' & o & E & Z).
    change (Main_Model.method w r (CallBreakCheck args (text di "git-branch") (text di "descriptor-set-path")) s) with (PackageCmd_Model.break_check (here r) (here r) (r_error_format r) (r_json r) Json_Model.failure_json (w_stat w) (provider w r (io_disk s)) (the_compiler w r) (the_commands w r)
      (w_unmarshal w) (w_temp_dir w) (w_git w) args (text di "git-branch") (text di "descriptor-set-path") s) in E.
    unfold PackageCmd_Model.break_check in E. apply is_empty_false in Bn. apply is_empty_false in Pn. rewrite Bn, Pn in E. injection E as <- <-. destruct Z as [(X & _)|[(e & [= <-] & -> & ->)|(? & X & _)]]; [discriminate X| |discriminate X].
    split; [discriminate|]. apply Hp.
  - rewrite no_options in Ed. injection Ed as <- <-. split; [discriminate|]. apply Hp.
Qed.
Print Assumptions C97_flags.
(** A check against the set that break descriptor-set stored is a check against the files of then. *)
Theorem C97_baseline : forall w cwd args fl f fi bl b bi s s0 s1 args' fl' f' fi' dl d di s2 s3 s4 z,
  ordinary w cwd -> sorts (w_sort_plugins w) -> protoc_ordinary w -> w_temp_file w <> Ok "" ->
  means (w_read_csv w) fl f fi args -> c_words f = ["files"] -> main w fl s = (s0, 0%Z) ->
  means (w_read_csv w) bl b bi args -> c_words b = ["break"; "descriptor-set"] -> on bi "json" = false -> same_settings fi bi -> main w bl s = (s1, 0%Z) ->
  io_disk s2 (text bi "output-path") = io_disk s1 (text bi "output-path") ->
  means (w_read_csv w) fl' f' fi' args' -> c_words f' = ["files"] -> main w fl' s2 = (s3, 0%Z) ->
  means (w_read_csv w) dl d di args' -> c_words d = ["break"; "check"] -> text di "git-branch" = "" -> text di "descriptor-set-path" = text bi "output-path" -> same_settings fi' di ->
  main w dl s2 = (s4, z) -> z <> 1%Z ->
  exists names names', io_done s0 = io_done s ++ Main_Spec.shown names /\ io_done s3 = io_done s2 ++ Main_Spec.shown names' /\
    (names <> [] -> names' <> [] -> (z = 255%Z /\ turned_down w cwd di args' names' true false s2 s4) \/
      exists c protoc wkt commands sets c' protoc' wkt' commands' sets',
        set_up w (io_disk s) cwd bi names c protoc wkt /\ made_sets w (io_disk s) cwd true false names c protoc wkt commands sets /\
        set_up w (io_disk s2) cwd di names' c' protoc' wkt' /\ made_sets w (io_disk s2) cwd true false names' c' protoc' wkt' commands' sets' /\
        forall old new, tells_apart (w_sha256 w) sets -> (forall all data, joined sets all -> w_marshal w all = Ok data -> w_unmarshal w data = Ok all) ->
          distinct_files sets old -> valid_files old -> distinct_files sets' new -> faithful new -> valid_files new ->
          exists fails, verdict c' old new fails /\ told w di fails s2 s4 z /\
          (unique_definitions old -> (forall f, In f new <-> In f old) ->
           bc_include_beta (cfg_break c') = true \/ bc_allow_beta_deps (cfg_break c') = true \/ (forall a b, depends old a b -> ~ Breaking_Spec.beta_name a -> ~ Breaking_Spec.beta_name b) -> fails = [])).
Proof.
  intros w cwd args fl f fi bl b bi s s0 s1 args' fl' f' fi' dl d di s2 s3 s4 z O So Po Wt Mf Wf Ef Mb Wb Jb Sb Eb Sd Mf' Wf' Ef' Md Wd Gb Pb Sd' Ed Nz.
  destruct (C95_set w cwd args fl f fi bl b bi true false (text bi "output-path") false s s0 s1 0%Z O So Po Wt Mf Wf Ef Mb) as (names & E1 & H1); [right; auto|exact Sb|exact Eb|].
  assert (N : text bi "output-path" <> "").
  { intros N. pose proof O as (V & G & _). destruct (line_is w bl b bi args G Mb) as (k & K & L). rewrite L in Eb. clear L. destruct (the_options w bi) as [r|e]; [|rewrite no_options in Eb; discriminate Eb].
    rewrite with_options in Eb. unfold asked in K; rewrite Wb in K; injection K as <-. rewrite N in Eb. discriminate Eb. }
  rewrite <- Pb in N. destruct (C97_stored w cwd args' fl' f' fi' dl d di s2 s3 s4 z O So Po Mf' Wf' Ef' Md Wd Gb N Sd' Ed Nz) as (names' & E2 & H2).
  exists names, names'. split; [exact E1|]. split; [exact E2|]. intros Nn Nn'. destruct (H2 Nn') as [X|(c' & protoc' & wkt' & commands' & sets' & data' & stored & A' & B' & Rd & U & X)]; [now left|]. right.
  destruct (H1 Nn) as (H0 & _). destruct (H0 eq_refl) as (c & protoc & wkt & commands & sets & all & data & dest & A & B & J & En & De & Dl). rewrite Jb in En.
  exists c, protoc, wkt, commands, sets, c', protoc', wkt', commands', sets'. split; [exact A|]. split; [exact B|]. split; [exact A'|]. split; [exact B'|].
  intros old new T Un Do Vo Dn Fn Vn. destruct (J T) as (Co & Jo).
  assert (stored = all) as ->.
  { rewrite Pb, Sd in Rd. destruct dest as [|p|p]; cbn in De; [|destruct De as (<- & _)|destruct De as (_ & De & _); discriminate De].
    - destruct De as (De & _). rewrite Pb in N. contradiction.
    - destruct Dl as ((Dp & _) & _). rewrite Dp in Rd. injection Rd as <-. rewrite (Un _ _ Jo En) in U. now injection U as <-. }
  apply X; auto.
  - eapply PackageCmd_Proofs4.joined_distinct; eassumption.
  - intros g h Hg Hh Y. apply T; [now apply Do|now apply Do|now rewrite Y].
Qed.
Print Assumptions C97_baseline.
(** Without a stored set: the repository is cloned, at the branch if there is one, and the clone is
    removed; the files of then are those in the same directory of the clone. *)
Theorem C97_git : forall w cwd args fl f fi dl d di s s1 s2 z, ordinary w cwd -> sorts (w_sort_plugins w) -> protoc_ordinary w ->
  means (w_read_csv w) fl f fi args -> c_words f = ["files"] -> main w fl s = (s1, 0%Z) ->
  means (w_read_csv w) dl d di args -> c_words d = ["break"; "check"] -> text di "descriptor-set-path" = "" -> same_settings fi di ->
  main w dl s = (s2, z) -> z <> 1%Z ->
  exists names, io_done s1 = io_done s ++ Main_Spec.shown names /\ (names <> [] ->
    (z = 255%Z /\ turned_down w cwd di args names true false s s2) \/
    exists c protoc wkt commands sets clone during, set_up w (io_disk s) cwd di names c protoc wkt /\ made_sets w (io_disk s) cwd true false names c protoc wkt commands sets /\
      is_abs (Exec_Spec.target args) = false /\ w_stat w (path_join [cwd; ".git"]) = Ok Exec_Model.Directory /\ w_temp_dir w = Ok clone /\ w_git w (tl (clone_of cwd (text di "git-branch") clone)) = Ok tt /\
      io_disk s2 = io_disk s /\ io_done s2 = io_done s ++ [Compiled false; MadeDir clone; Ran (clone_of cwd (text di "git-branch") clone)] ++ during ++ [Removed clone] /\
      Forall (fun e => e = Compiled false \/ exists t, e = Printed t) during /\
      forall r old new c', the_options w di = Ok r -> tree (w_stat w) (provider w r (io_disk s)) (the_compiler w r) (io_disk s) clone [in_clone clone (Exec_Spec.target args)] old c' ->
        distinct_files sets new -> faithful new -> valid_files new ->
        exists fails out, during = Compiled false :: out /\ only_prints out /\ verdict c old new fails /\ (fails = [] -> out = []) /\
          listing (on di "json") Json_Model.failure_json "message" fails (printed out) /\ z = match fails with [] => 0%Z | _ => 255%Z end).
Proof.
  intros w cwd args fl f fi dl d di s s1 s2 z O So Po Mf Wf Ef Md W Pn Sm Ed Nz. pose proof O as (V & G & Wd & Cl & Nm & St). pose proof Po as (Tn & En).
  destruct (files_see w cwd args fl f fi di s s1 O So Mf Wf Ef Sm) as (names & r & m & E1 & Or & S). exists names. split; [exact E1|]. intros Nn.
  destruct (line_is w dl d di args G Md) as (k & K & L). rewrite L in Ed. clear L. rewrite Or, with_options in Ed.
  pose proof (se_found _ _ _ _ _ _ _ _ S) as Fr. destruct (se_options _ _ _ _ _ _ _ _ S) as (zz & Rw). assert (Js : r_json r = on di "json") by now rewrite Rw. pose proof (se_here _ _ _ _ _ _ _ _ S) as Hr.
  apply process_cases in Ed as (s' & o & E & Z). unfold asked in K; rewrite W in K; injection K as <-. rewrite Pn in E.
  change (Main_Model.method w r (CallBreakCheck args (text di "git-branch") "") s) with (PackageCmd_Model.break_check (here r) (here r) (r_error_format r) (r_json r) Json_Model.failure_json (w_stat w) (provider w r (io_disk s)) (the_compiler w r) (the_commands w r)
    (w_unmarshal w) (w_temp_dir w) (w_git w) args (text di "git-branch") "" s) in E.
  assert (Ia : is_abs cwd = true) by now apply clean_abs_is_abs.
  assert (Hn : here r <> "") by (rewrite Hr; intros ->; discriminate Ia).
  eapply break_check_git_inv in E as [(sets & clone & es & Hf & C & Ab & Gd & Td & Gi & -> & Fm & Ee & X)|[(e & -> & Cf)|(e & ->)]]; [| | |exact Hn|exact Fr].
  - right. assert (Pc : path_abs (here r) (here r) = cwd) by (rewrite Hr; unfold path_abs; rewrite Ia; now apply clean_abs_fix). rewrite Pc in *.
    destruct (sees_sets _ _ _ _ _ _ _ _ _ _ _ O Tn En S Nn (eq_refl : true || is_full None = true) C) as (protoc & wkt & commands & A & B).
    assert (s2 = adds s ([Compiled false; MadeDir clone; Ran (clone_of cwd (text di "git-branch") clone)] ++ es ++ [Removed clone])) as ->.
    { destruct Z as [(_ & -> & _)|[(e & -> & -> & _)|(e & _ & Y)]]; [reflexivity|now rewrite (Ee e eq_refl)|contradiction]. }
    exists (ps_config (m_set m)), protoc, wkt, commands, sets, clone, es. split; [exact A|]. split; [exact B|]. split; [exact Ab|]. split; [exact Gd|]. split; [exact Td|]. split; [exact Gi|].
    split; [reflexivity|]. split; [reflexivity|]. split; [exact Fm|]. intros r' old new c' Or' T Dn Fn Vn. assert (r' = r) as -> by congruence.
    destruct (X old new c') as (fails & out & Eo & Op & Ve & A1 & A2 & A3); [eapply tree_of; eassumption|exact T|]. exists fails, out. rewrite <- Js. repeat (split; [assumption|]).
    destruct fails; subst o; destruct Z as [(Y & _ & ->)|[(e & Y & _ & ->)|(e & Y & _)]]; try discriminate Y; reflexivity.
  - left. destruct Z as [(X & _)|[(e' & [= <-] & -> & ->)|(? & X & _)]]; [discriminate X| |discriminate X]. split; [reflexivity|].
    destruct (failed_turned_down _ _ _ _ _ _ _ _ _ _ _ _ O Po S Nn (eq_refl : true || is_full None = true) Cf) as (-> & X). exact X.
  - destruct Z as [(X & _)|[(? & X & _)|(? & _ & X)]]; [discriminate X|discriminate X|contradiction].
Qed.
Print Assumptions C97_git.

(** ** Examples: protoc makes the sets of C72, with a file less once a.proto was edited; the repository can
    be cloned. *)
Definition exw12_stat (p : string) : result file_kind :=
  if mem p ["/w/.git"; "/tmp/d"] then Ok Exec_Model.Directory else exw8_stat p.
Definition exw12_node (p : string) : node :=
  if String.eqb p "/tmp/d" then NDir [("old.proto", NFile)] else if String.eqb p "/tmp/d/old.proto" then NFile else exw8_node p.
Definition exw12_temp (n : nat) : result string := Ok (match n with 0 => "/tmp/p0" | _ => "/tmp/p1" end).
Definition exw12_set (disk : string -> result string) (commands : list (list string)) (temp : string) : result file_set :=
  if existsb (mem "/tmp/d/old.proto") commands then Ok [Props_Reflect.rx_bar; Props_Reflect.rx_foo2; Props_Reflect.rx_foo1]
  else if String.eqb temp "/tmp/p0" then
    match disk "/w/a.proto" with Ok "text" => Ok [Props_Reflect.rx_foo2; Props_Reflect.rx_bar] | _ => Ok [Props_Reflect.rx_bar] end
  else Ok [Props_Reflect.rx_bar; Props_Reflect.rx_foo1].
Definition exw12 (good : bool) : world := mk_world "linux" "amd64" "go1.13" (fun v => if String.eqb v "HOME" then "/home" else "") (Ok "/w") (fun s => if String.eqb s "3s" then Ok 3%Z else Err "bad time")
  (fun s => Ok [s]) (fun _ => "usage") (fun _ => "help") (fun _ => "") (fun _ => "topic")
  (fun _ A l => l) exw12_stat exw12_node (fun _ => None) (fun _ _ => None) (fun _ => None) (Ok "/tmp/f") (Ok "/tmp/d") (fun _ => Err "not found")
  (fun _ _ => None) (fun _ => Err "no json") (fun _ => Ok exw10_config) (fun _ => Ok "")
  Settings_Proofs2.by_name (fun l => l) (fun l => l) (fun _ _ => Ok []) (fun s => s) (fun _ _ _ => Ok "")
  (fun _ => Ok tt) (fun s => s) (fun _ => NotExist) exw12_temp
  (fun _ c => if orb good (mem "/w/a.proto" c) then Protoc_Model.Ended "" Protoc_Model.NoError else Protoc_Model.Ended ("b/bad.proto:3:4: bad" +++ String newline "") (Protoc_Model.ExitError "exit status 1"))
  exw12_set (fun n => rev (seq 0 n)) (fun _ n => n) (fun s => s) Props_PackageCmd.kx_marshal Props_PackageCmd.kx_jsonpb Props_PackageCmd.kx_unmarshal
  (fun _ => Ok tt) (fun _ => Ok tt) (fun _ => Ok tt) (fun _ => Ok tt) (fun _ => Ok tt) (fun _ _ => ([], None)).
Definition exw12_edited : io := mk_io (fun p => if String.eqb p "/w/a.proto" then Ok "edited" else if String.eqb p "old.bin" then Ok "a set" else io_disk exw8_s p) [].
Definition exw_command (words : list string) : command := hd exw_files (filter (fun c => if list_eq_dec string_dec (c_words c) words then true else false) commands).
Definition exl (l : string) : string := l +++ String newline "".
Definition exw_seen (good : bool) (l : list string) (s : io) : list event * Z := let x := main (exw12 good) l s in (io_done (fst x), snd x).
Lemma exw12_ordinary good : ordinary (exw12 good) "/w".
Proof.
  destruct C89_lint_ex as ((V & G & Wd & Cl & Nm & St) & _). split; [exact V|]. split; [exact G|]. split; [reflexivity|]. split; [exact Cl|]. split; [|intros k; discriminate].
  intros p. change (File_Spec.named (exw12_node p)). unfold exw12_node. destruct (String.eqb p "/tmp/d"); [|destruct (String.eqb p "/tmp/d/old.proto"); [constructor|apply Nm]].
  constructor; [repeat constructor|repeat constructor; cbn; intuition discriminate|]. intros n c [[= <- <-]|[]]; constructor.
Qed.
Lemma exw12_protoc good : protoc_ordinary (exw12 good).
Proof.
  split; [intros [|n] f [= <-]; discriminate|]. intros n. symmetry. apply Permutation_rev.
Qed.
Ltac means_now := exists None; split; [cbn; tauto|]; split; [repeat (constructor; [split; [intros [X|[X|X]]; discriminate X|]; split; [discriminate|]; eexists; split; [unfold takes; cbn; tauto|first [reflexivity|split; discriminate]]|]); constructor|
  split; [reflexivity|split; [split; cbn; auto with arith|reflexivity]]].
Example C95_set_ex : ordinary (exw12 true) "/w" /\ sorts (w_sort_plugins (exw12 true)) /\ protoc_ordinary (exw12 true) /\ w_temp_file (exw12 true) <> Ok "" /\
  means (w_read_csv (exw12 true)) ["descriptor-set"; "--include-imports"; "--output-path"; "set.bin"] (exw_command ["descriptor-set"]) [Given "include-imports" LongAlone "true"; Given "output-path" LongSpace "set.bin"] [] /\
  set_asked (exw_command ["descriptor-set"]) [Given "include-imports" LongAlone "true"; Given "output-path" LongSpace "set.bin"] true false "set.bin" false /\
  same_settings [] [Given "include-imports" LongAlone "true"; Given "output-path" LongSpace "set.bin"] /\
  exw_seen true ["files"] exw8_s = (Main_Spec.shown ["a.proto"; "b/bad.proto"], 0%Z) /\
  exw_seen true ["descriptor-set"; "--include-imports"; "--output-path"; "set.bin"] exw8_s = ([Compiled false; Wrote "set.bin" "a set"], 0%Z) /\
  exw_seen true ["descriptor-set"; "--tmp"; "--json"] exw8_s = ([Compiled false; Wrote "/tmp/f" "{}"; Printed (exl "/tmp/f")], 0%Z) /\
  exw_seen false ["descriptor-set"] exw8_s = ([Compiled false; Printed (exl "b/bad.proto:3:4:bad")], 255%Z).
Proof.
  split; [apply exw12_ordinary|]. split; [exact Settings_Proofs2.by_name_sorts|]. split; [apply exw12_protoc|]. split; [discriminate|].
  split; [means_now|]. split; [left; repeat split|]. split; [split; reflexivity|]. split; [vm_compute; reflexivity|]. split; [vm_compute; reflexivity|]. split; vm_compute; reflexivity.
Qed.
Example C96_inspect_ex : inspects (exw_command ["x"; "inspect"; "package-deps"]) /\
  means (w_read_csv (exw12 true)) ["x"; "inspect"; "package-deps"; "--name"; "foo.v1"] (exw_command ["x"; "inspect"; "package-deps"]) [Given "name" LongSpace "foo.v1"] [] /\
  same_settings [] [Given "name" LongSpace "foo.v1"] /\
  (forall temp, In temp ["/tmp/p0"; "/tmp/p1"] -> exists fs, In fs Props_PackageCmd.kx_old /\ forall commands, existsb (mem "/tmp/d/old.proto") commands = false -> w_protoc_set (exw12 true) (io_disk exw8_s) commands temp = Ok fs) /\
  distinct_files Props_PackageCmd.kx_old Props_Reflect.rx_two /\ faithful Props_Reflect.rx_two /\ valid_files Props_Reflect.rx_two /\
  exw_seen true ["x"; "inspect"; "packages"] exw8_s = ([Compiled false; Printed (exl "bar.v1"); Printed (exl "foo.v1")], 0%Z) /\
  exw_seen true ["x"; "inspect"; "package-deps"; "--name"; "foo.v1"] exw8_s = ([Compiled false; Printed (exl "bar.v1")], 0%Z) /\
  exw_seen true ["x"; "inspect"; "package-deps"; "--name"; "bar.v1"] exw8_s = ([Compiled false], 0%Z) /\
  exw_seen true ["x"; "inspect"; "package-importers"; "--name"; "bar.v1"] exw8_s = ([Compiled false; Printed (exl "foo.v1")], 0%Z) /\
  snd (exw_seen true ["x"; "inspect"; "package-deps"] exw8_s) = 255%Z /\ snd (exw_seen true ["x"; "inspect"; "package-deps"; "--name"; "foo.v2"] exw8_s) = 1%Z /\
  exw_seen false ["x"; "inspect"; "packages"] exw8_s = ([Compiled false; Printed (exl "b/bad.proto:3:4:bad")], 255%Z).
Proof.
  split; [right; left; reflexivity|]. split; [means_now|]. split; [split; reflexivity|]. split.
  { intros temp [<-|[<-|[]]]; eexists; (split; [|intros c Hc; cbn; unfold exw12_set; rewrite Hc; reflexivity]); cbn; auto. }
  split; [exact Props_Reflect.rx_distinct2|]. split; [exact Props_Reflect.rx_faithful2|]. split; [exact Props_Reflect.rx_valid2|].
  split; [vm_compute; reflexivity|]. split; [vm_compute; reflexivity|]. split; [vm_compute; reflexivity|]. split; [vm_compute; reflexivity|]. split; [vm_compute; reflexivity|]. split; vm_compute; reflexivity.
Qed.
Definition exw12_gone : string := exl "Enum ""foo.v1.Color"" was deleted." +++ exl "Message ""foo.v1.Req"" was deleted." +++ exl "Service ""foo.v1.API"" was deleted.".
Example C97_ex : means (w_read_csv (exw12 true)) ["break"; "check"; "--descriptor-set-path"; "old.bin"] (exw_command ["break"; "check"]) [Given "descriptor-set-path" LongSpace "old.bin"] [] /\
  means (w_read_csv (exw12 true)) ["break"; "descriptor-set"; "--output-path"; "old.bin"] (exw_command ["break"; "descriptor-set"]) [Given "output-path" LongSpace "old.bin"] [] /\
  means (w_read_csv (exw12 true)) ["break"; "check"; "--git-branch"; "v1"] (exw_command ["break"; "check"]) [Given "git-branch" LongSpace "v1"] [] /\
  same_settings [] [Given "descriptor-set-path" LongSpace "old.bin"] /\
  (forall all data, joined Props_PackageCmd.kx_old all -> w_marshal (exw12 true) all = Ok data -> w_unmarshal (exw12 true) data = Ok all) /\
  tells_apart (w_sha256 (exw12 true)) Props_PackageCmd.kx_old /\ unique_definitions Props_Reflect.rx_two /\
  exw_seen true ["break"; "check"; "--descriptor-set-path"; "old.bin"] exw12_edited = ([Compiled false; Printed exw12_gone], 255%Z) /\
  exw_seen true ["break"; "check"; "--git-branch"; "v1"] exw12_edited =
    ([Compiled false; MadeDir "/tmp/d"; Ran ["git"; "clone"; "--depth"; "1"; "--branch"; "v1"; "file:///w"; "/tmp/d"]; Compiled false; Printed exw12_gone; Removed "/tmp/d"], 255%Z) /\
  exw_seen true ["break"; "descriptor-set"; "--output-path"; "old.bin"] exw8_s = ([Compiled false; Wrote "old.bin" "a set"], 0%Z) /\
  exw_seen true ["break"; "check"; "--descriptor-set-path"; "old.bin"] (fst (main (exw12 true) ["break"; "descriptor-set"; "--output-path"; "old.bin"] exw8_s)) =
    ([Compiled false; Wrote "old.bin" "a set"; Compiled false], 0%Z) /\
  snd (exw_seen true ["break"; "check"; "--git-branch"; "v1"; "--descriptor-set-path"; "old.bin"] exw8_s) = 255%Z.
Proof.
  split; [means_now|]. split; [means_now|]. split; [means_now|]. split; [split; reflexivity|]. split.
  { intros all data J E. destruct Props_PackageCmd.C72_ex as (H & _). destruct (H all J) as (data' & E' & U). change (Props_PackageCmd.kx_marshal all = Ok data) in E. rewrite E' in E. injection E as <-. exact U. }
  split; [exact Props_PackageCmd.kx_tells_apart|]. split; [exact Props_Reflect.rx_unique|].
  split; [vm_compute; reflexivity|]. split; [vm_compute; reflexivity|]. split; [vm_compute; reflexivity|]. split; vm_compute; reflexivity.
Qed.
