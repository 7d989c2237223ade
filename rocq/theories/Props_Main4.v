(** C85: files lists what the other commands work on. *)
From Verif Require Import GoStrFacts GoPathFacts File_Spec Exec_Spec Cmd_Spec Main_Model Main_Spec Main_Proofs Main_Proofs2 Main_Proofs6 Main_Proofs7 Props_Main Props_Main2 Props_Main3.

(** An ordinary system: Linux or macOS, a working directory with an absolute path, entries of
    directories that have names, all different, and no file without a name. *)
Definition ordinary (w : world) (cwd : string) : Prop :=
  visits_all (w_order w) /\ (w_goos w = "darwin" \/ w_goos w = "linux") /\ w_getwd w = Ok cwd /\ clean_abs cwd /\
  (forall p, named (w_node_at w p)) /\ (forall k, w_stat w "" <> Ok k).
(** The same configuration is given on both command lines, and as much time. *)
Definition same_settings (items items' : list item) : Prop :=
  text items "config-data" = text items' "config-data" /\ text items "walk-timeout" = text items' "walk-timeout".

Lemma options_files w cwd items items' r r' : w_getwd w = Ok cwd -> same_settings items items' ->
  the_options w items = Ok r -> the_options w items' = Ok r' -> here r = cwd /\ same_files r' r.
Proof.
  intros G (E1 & E2). unfold the_options. rewrite G, E2. destruct (if String.eqb (text items' "walk-timeout") "" then Ok 0%Z else w_parse_duration w (text items' "walk-timeout")) as [z|]; [|discriminate]. cbn [bind].
  intros [= <-] [= <-]. split; [reflexivity|]. unfold same_files, options. cbn. rewrite E1. auto.
Qed.
Lemma options_some w cwd items items' r : w_getwd w = Ok cwd -> same_settings items items' -> the_options w items = Ok r -> exists r', the_options w items' = Ok r'.
Proof.
  intros G (_ & E). unfold the_options. rewrite G, E. destruct (if String.eqb (text items' "walk-timeout") "" then _ else _); [|discriminate]. cbn [bind]. eauto.
Qed.

(** If files succeeds, then what it prints are the names of the files that format and all may
    change, relative to the working directory; a format or a lint of the directory that
    succeeds has read and parsed each of them. *)
Theorem C85_listed : forall w cwd args fl f fi s s1, ordinary w cwd ->
  means (w_read_csv w) fl f fi args -> c_words f = ["files"] -> main w fl s = (s1, 0%Z) ->
  exists names, io_done s1 = io_done s ++ Main_Spec.shown names /\ io_disk s1 = io_disk s /\
    forall l c items s2 z, means (w_read_csv w) l c items args -> same_settings fi items -> main w l s = (s2, z) ->
      (c_words c = ["format"] \/ c_words c = ["all"] -> forall p, io_disk s2 p <> io_disk s p ->
         exists n, In n names /\ File_Spec.shown cwd p n) /\
      (z = 0%Z -> w_stat w (Exec_Spec.target args) = Ok Exec_Model.Directory ->
         c_words c = ["format"] \/
         (c_words c = ["lint"] /\ text items "list-lint-group" = "" /\ text items "diff-lint-groups" = "" /\
          forall name, In name ["generate-ignores"; "list-all-lint-groups"; "list-all-linters"; "list-linters"] -> on items name = false) ->
         forall n, In n names -> exists p data elements, File_Spec.shown cwd p n /\ io_disk s p = Ok data /\ w_parse w p data = Ok elements).
Proof.
  intros w cwd args fl f fi s s1 (V & G & Wd & Cl & Nm & St) Mf Wf Ef.
  destruct (line_is w fl f fi args G Mf) as (kf & Kf & Lf). rewrite Lf in Ef. clear Lf. unfold asked in Kf. rewrite Wf in Kf. injection Kf as <-.
  destruct (the_options w fi) as [r|m] eqn:Or; [|rewrite no_options in Ef; discriminate Ef]. rewrite with_options in Ef.
  apply process_value in Ef as ([] & Ef).
  assert (Hr : here r = cwd) by (eapply options_files; [exact Wd| |exact Or|exact Or]; split; reflexivity).
  assert (Cr : clean_abs (here r)) by now rewrite Hr.
  destruct (files_shows w V Nm St r Cr args s s1 Ef) as (m & names & F & -> & I). exists names. split; [reflexivity|]. split; [reflexivity|].
  destruct (found_files w V Nm St r Cr _ _ _ F) as (_ & Sh).
  intros l c items s2 z Ml Sm El. destruct (line_is w l c items args G Ml) as (k & K & Ll). rewrite Ll in El. clear Ll.
  destruct (options_some _ _ _ _ _ Wd Sm Or) as (r' & Or'). rewrite Or', with_options in El.
  destruct (options_files _ _ _ _ _ _ Wd Sm Or Or') as (_ & Sr). split.
  - intros W p N. assert (D : io_disk s2 = io_disk (fst (method w r' k s))).
    { clear - El. unfold process, println in El. destruct (method w r' k s) as [s3 [a|e|e]]; [|destruct (is_empty e)..]; now injection El as <- _. }
    rewrite D in N. destruct (changes_below w V r r' args m k s Sr F) with (p := p) as (g & B & <-); [|exact N|].
    { unfold asked in K. destruct W as [W|W]; rewrite W in K; injection K as <-; [left|right]; eauto 6. }
    exists (pf_display g). split; [apply I; eauto|]. rewrite <- Hr. now apply Sh.
  - intros -> Dir W n In_n. apply I in In_n as (g & B & <-). apply process_value in El as ([] & El).
    exists (pf_path g). rewrite <- Hr.
    assert (exists data els, io_disk s (pf_path g) = Ok data /\ w_parse w (pf_path g) data = Ok els) as (data & els & A1 & A2); [|exists data, els; split; [now apply Sh|auto]].
    unfold asked in K. destruct W as [W|(W & T1 & T2 & O)].
    + rewrite W in K. injection K as <-. destruct (format_fine w V Nm St r Cr r' args m _ _ _ _ s s2 Sr F El) as (md & _ & _ & Fi).
      eapply fine_parsed. apply Fi. split; [exact B|]. left. destruct F as [ps X Y|ps X Y]; [reflexivity|]. rewrite Dir in X. discriminate X.
    + rewrite W, T1, T2, !O in K by (cbn; tauto). injection K as <-. eapply lint_parsed; eassumption.
Qed.
Print Assumptions C85_listed.
Definition exw_files : command := mk_command ["files"] [("config-data", Text); ("walk-timeout", Text)] [] 0 (Some 1).
Example exw_ordinary : ordinary exw "/w".
Proof.
  split; [exact exw_visits|]. split; [now right|]. split; [reflexivity|]. split; [exists ["w"]; split; [repeat constructor|reflexivity]|].
  split; [|intros k; discriminate]. intros p. cbn. unfold exw_node. destruct (String.eqb p "/w"); [|destruct (String.eqb p "/w/a.proto"); constructor].
  constructor; [repeat constructor|repeat constructor; cbn; intuition discriminate|]. intros n c [[= <- <-]|[[= <- <-]|[]]]; constructor.
Qed.
Example C85_listed_ex : means (w_read_csv exw) ["files"] exw_files [] [] /\
  main exw ["files"] exw_s = (mk_io exw_disk (Main_Spec.shown ["a.proto"]), 0%Z) /\
  w_stat exw (Exec_Spec.target []) = Ok Exec_Model.Directory /\ File_Spec.shown "/w" "/w/a.proto" "a.proto" /\
  (let (s, z) := main exw ["format"; "-w"] exw_s in z = 0%Z /\ io_disk s "/w/a.proto" <> exw_disk "/w/a.proto").
Proof.
  split. { exists None. split; [cbn; tauto|]. split; [constructor|]. split; [reflexivity|]. split; [split; cbn; auto with arith|reflexivity]. }
  split; [vm_compute; reflexivity|]. split; [reflexivity|]. split; [repeat split|]. vm_compute. split; [reflexivity|discriminate].
Qed.
