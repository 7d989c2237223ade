(** C108 of whole lines: an error format that cannot be read. *)
From Verif Require Import GoStrFacts Exec_Spec Exec_Proofs Cmd_Spec LintCmd_Model Main_Model Main_Spec Main_Proofs Main_Proofs2 Main_Proofs6
  Props_Main Props_Main2 Props_Main3 Props_Main4 Props_Main5 Props_Main7 Props_Main13.
From Verif Require Props_MoreText.

(** The flags that the commands take have the same values, --error-format excepted. *)
Definition alike_otherwise (items items' : list item) : Prop :=
  (forall name, In name ["cache-path"; "config-data"; "protoc-url"; "protoc-bin-path"; "protoc-wkt-path"; "walk-timeout"] ->
     text items name = text items' name) /\
  on items "json" = on items' "json".
(** An error format with a part that is not the name of a field; the first such part. *)
Definition unreadable (format part : string) : Prop :=
  format <> "" /\ exists pre post, format = join ":" (pre ++ part :: post) /\ Forall (fun p => no_char ":" p = true) (pre ++ part :: post) /\
    Forall Props_MoreText.a_field pre /\ ~ Props_MoreText.a_field part.

Lemma bad_compile cwd format part json to_json D compiler commands gen m s : unreadable format part ->
  match compiler gen false None (io_disk s) (m_set m) with
  | Ok _ => compile cwd format json to_json D compiler commands gen false false m s = (mk_io (io_disk s) (io_done s ++ [Compiled gen]), Fail ("could not parse " +++ part +++ " to a FailureField"))
  | Err e => compile cwd format json to_json D compiler commands gen false false m s = (mk_io (io_disk s) (io_done s ++ [Compiled gen]), Fail e)
  end.
Proof.
  intros (NE & pre & post & F & N & A & B). unfold compile, do_compile, and_then, emit. cbn [io_disk].
  destruct (compiler gen false None (io_disk s) (m_set m)) as [[fs d]|e]; [|reflexivity].
  cbn [Exec_Model.check ret fst snd]. unfold report, and_then, print_failures, fail.
  rewrite (Props_MoreText.C108_error_format _ json to_json format pre part post _ _ _ _ F N NE A B). reflexivity.
Qed.

Lemma println_disk m s : io_disk (fst (println m s)) = io_disk s.
Proof. unfold println. destruct (is_empty m); reflexivity. Qed.

(** What is done with files stops at it: whatever the files are, the line does not end with 0
    and no file is changed.  If the same line with a readable error format finds nothing wrong
    then what it says is which part cannot be read. *)
Theorem C108_line : forall w args cl c ci l o items s s1 z part,
  visits_all (w_order w) -> (w_goos w = "darwin" \/ w_goos w = "linux") ->
  means (w_read_csv w) l o items args -> works_on_files o items \/ c_words o = ["compile"] /\ on items "dry-run" = false ->
  unreadable (text items "error-format") part ->
  main w l s = (s1, z) ->
  z <> 0%Z /\ io_disk s1 = io_disk s /\
  (means (w_read_csv w) cl c ci args -> c_words c = ["compile"] -> on ci "dry-run" = false -> alike_otherwise ci items ->
   (exists s2, main w cl s = (s2, 0%Z)) ->
   z = 1%Z /\ io_done s1 = io_done s ++ [Compiled false; Printed ("could not parse " +++ part +++ " to a FailureField" +++ String newline "")]).
Proof.
  intros w args cl c ci l o items s s1 z part V G Ml Wl U E.
  destruct (line_is w l o items args G Ml) as (k & K & L). rewrite L in E. clear L.
  assert (R : forall r, exists rest, forall s, Main_Model.method w r k s =
    (run m <- get_meta (here r) (w_stat w) (provider w r (io_disk s)) args;
     compile (here r) (r_error_format r) (r_json r) Json_Model.failure_json file_set (the_compiler w r) (the_commands w r) false false false m ;; rest m) s).
  { intros r. destruct Wl as [Wl|(W & D)]; [exact (compiles_first w r o items args k Wl K)|].
    unfold asked in K. rewrite W, D in K. injection K as <-. exists (fun _ => ret tt). intros s0. reflexivity. }
  unfold the_options in E.
  destruct (if String.eqb (text items "walk-timeout") "" then Ok 0%Z else w_parse_duration w (text items "walk-timeout")) as [wt|e] eqn:W1; cbn [bind] in E.
  2:{ rewrite no_options in E. injection E as <- <-. split; [discriminate|]. split; [apply println_disk|].
      intros Mc Wc Dc (T & J) (s2 & C). exfalso. destruct (line_is w cl c ci args G Mc) as (kc & Kc & Lc). rewrite Lc in C. unfold the_options in C.
      rewrite (T "walk-timeout") in C by (cbn; tauto). rewrite W1 in C. cbn [bind] in C. rewrite no_options in C. discriminate C. }
  destruct (w_getwd w) as [wd|e] eqn:W2; cbn [bind] in E.
  2:{ rewrite no_options in E. injection E as <- <-. split; [discriminate|]. split; [apply println_disk|].
      intros Mc Wc Dc (T & J) (s2 & C). exfalso. destruct (line_is w cl c ci args G Mc) as (kc & Kc & Lc). rewrite Lc in C. unfold the_options in C.
      rewrite (T "walk-timeout") in C by (cbn; tauto). rewrite W1, W2 in C. cbn [bind] in C. rewrite no_options in C. discriminate C. }
  rewrite with_options in E. set (r := options (w_getenv w) wd wt items) in *.
  destruct (R r) as (rest & M). clear R. unfold process in E. rewrite M in E. unfold and_then in E.
  destruct (get_meta_pure (here r) (w_stat w) (provider w r (io_disk s)) args) as (x & X & _).
  rewrite X in E.
  assert (Q : forall m s0, io_disk s0 = io_disk s -> exists e, compile (here r) (r_error_format r) (r_json r) Json_Model.failure_json file_set (the_compiler w r) (the_commands w r) false false false m s0 = (mk_io (io_disk s0) (io_done s0 ++ [Compiled false]), Fail e) /\
     ((exists v, the_compiler w r false false None (io_disk s0) (m_set m) = Ok v) -> e = "could not parse " +++ part +++ " to a FailureField")).
  { intros m s0 _. pose proof (bad_compile (here r) (r_error_format r) part (r_json r) Json_Model.failure_json file_set (the_compiler w r) (the_commands w r) false m s0 U) as B.
    destruct (the_compiler w r false false None (io_disk s0) (m_set m)) as [v|e]; eexists; (split; [exact B|]); [reflexivity|]. intros (v & Y). discriminate Y. }
  assert (Cl : means (w_read_csv w) cl c ci args -> c_words c = ["compile"] -> on ci "dry-run" = false -> alike_otherwise ci items ->
     (exists s2, main w cl s = (s2, 0%Z)) -> exists m, x = Value m /\ exists v, the_compiler w r false false None (io_disk s) (m_set m) = Ok v).
  { intros Mc Wc Dc (T & J) (s2 & C). destruct (line_is w cl c ci args G Mc) as (kc & Kc & Lc). rewrite Lc in C. unfold the_options in C. clear Lc.
    rewrite (T "walk-timeout") in C by (cbn; tauto). rewrite W1, W2 in C. cbn [bind] in C. rewrite with_options in C.
    unfold asked in Kc. rewrite Wc, Dc in Kc. injection Kc as <-.
    set (rc := options (w_getenv w) wd wt ci) in *.
    assert (rc = mk_runner (r_work_dir r) (r_cache_path r) (r_config_data r) (r_json r) (r_protoc_bin_path r) (r_protoc_wkt_path r) (r_error_format rc) (r_protoc_url r) (r_walk_timeout r)) as RC.
    { unfold rc, r, options. cbn [r_work_dir r_cache_path r_config_data r_json r_protoc_bin_path r_protoc_wkt_path r_error_format r_protoc_url r_walk_timeout].
      rewrite !(T "cache-path"), !(T "config-data"), !(T "protoc-bin-path"), !(T "protoc-wkt-path"), !(T "protoc-url"), J by (cbn; tauto). reflexivity. }
    rewrite RC in C. clear RC. generalize dependent (r_error_format rc). intros ef C.
    apply process_value in C as (u & C). revert C. unfold Main_Model.method, compile_cmd, and_then, ret.
    match goal with |- context [get_meta ?a ?b ?p args s] => change (get_meta a b p args s) with (get_meta (here r) (w_stat w) (provider w r (io_disk s)) args s) end.
    rewrite X. destruct x as [m|e|e]; [|discriminate..]. intros C. exists m. split; [reflexivity|].
    unfold compile, do_compile, and_then, emit in C. cbn [io_disk] in C.
    match type of C with context [the_compiler w ?q false false None (io_disk s) (m_set m)] => change (the_compiler w q false false None (io_disk s) (m_set m)) with (the_compiler w r false false None (io_disk s) (m_set m)) in C end.
    destruct (the_compiler w r false false None (io_disk s) (m_set m)) as [v|e]; [eauto|discriminate C]. }
  destruct x as [m|e|e].
  2,3: injection E as <- <-; split; [discriminate|]; split; [apply println_disk|]; intros Mc Wc Dc A Cs; destruct (Cl Mc Wc Dc A Cs) as (m' & H & _); discriminate H.
  destruct (Q m s eq_refl) as (e & Ce & Cp). rewrite Ce in E. clear Q Ce.
  assert (s1 = fst (println e (mk_io (io_disk s) (io_done s ++ [Compiled false]))) /\ z = 1%Z) as (-> & ->) by (split; congruence). clear E.
  split; [discriminate|]. split; [rewrite println_disk; reflexivity|].
  intros Mc Wc Dc A Cs. destruct (Cl Mc Wc Dc A Cs) as (m' & Hm & Cv). assert (m' = m) as -> by congruence. rewrite (Cp Cv). split; [reflexivity|].
  unfold println. change (is_empty ("could not parse " +++ part +++ " to a FailureField")) with false. unfold print, emit. cbn [fst io_done].
  rewrite <- app_assoc. cbn [app]. now rewrite !sapp_assoc.
Qed.
Print Assumptions C108_line.
Example C108_line_ex :
  means (w_read_csv exw) ["format"; "-w"; "--error-format=line:colour"] exw_format [Given "overwrite" ShortAlone "true"; Given "error-format" LongEquals "line:colour"] [] /\
  unreadable "line:colour" "colour" /\
  main exw ["compile"] exw_s = (mk_io (io_disk exw_s) [Compiled false], 0%Z) /\
  main exw ["format"; "-w"; "--error-format=line:colour"] exw_s =
    (mk_io (io_disk exw_s) [Compiled false; Printed ("could not parse colour to a FailureField" +++ String newline "")], 1%Z).
Proof.
  split; [exists None; split; [cbn; tauto|]; split; [|split; [reflexivity|split; [split; cbn; auto with arith|reflexivity]]]|].
  { constructor; [|constructor; [|constructor]].
    - split; [|split; [discriminate|exists OnOff; unfold takes; cbn; tauto]]. intros _. cbn. tauto.
    - split; [intros [H|[H|H]]; discriminate H|]. split; [discriminate|]. exists Text. split; [unfold takes; cbn; tauto|]. split; discriminate. }
  split; [split; [discriminate|]; exists ["line"], []; split; [reflexivity|]; split; [repeat constructor|]; split; [constructor; [cbn; tauto|constructor]|cbn; intuition discriminate]|].
  split; vm_compute; reflexivity.
Qed.
