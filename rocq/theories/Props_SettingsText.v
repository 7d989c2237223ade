(** C104: what is said if a configuration or a directory cannot be used. *)
From Coq Require Import Permutation Lia.
From Verif Require Import GoStrFacts GoPathFacts GoFmt Strs_Spec Settings_Model Settings_Spec Settings_Proofs Settings_Proofs2 File_Model File_Spec File_Proofs File_Proofs2 File_Proofs3 File_Proofs4.
From Verif Require Import Lint_Spec Settings_Text_Spec Settings_Text Settings_Text2 Settings_Text3 Exec_Spec Exec_Proofs Cmd_Spec Download_Spec Download_Proofs Main_Model Main_Spec Main_Proofs Main_Proofs2 Main_Proofs6 Main_Proofs7.
From Verif Require Import Props_Settings Props_Main Props_Main2 Props_Main3 Props_Main4 Props_Main13 Props_Main14.

(** GetForData: a configuration given as text is rejected with the decoder's words, or with what
    is told of the first part of it that is at fault. *)
Theorem C104_data : forall read_file decode_json look_path sort_plugins devel d data t,
  sorts sort_plugins -> ok_comps d ->
  get_for_data read_file decode_json look_path sort_plugins devel (abs_path d) data = Err t ->
  decode_json data = Err t \/ exists e, decode_json data = Ok e /\ told read_file devel e (abs_path d) t.
Proof.
  intros read dj look sort devel d data t So Hd E. apply (data_err read dj look sort So devel (abs_path d) data t); [now exists d|exact E].
Qed.
Print Assumptions C104_data.

(** GetForDir: of the nearest configuration file. *)
Theorem C104_dir : forall exists_file read_file decode_json decode_yaml look_path sort_plugins devel d t,
  sorts sort_plugins -> ok_comps d ->
  get_for_dir exists_file read_file decode_json decode_yaml look_path sort_plugins devel (abs_path d) = Err t ->
  exists a, nearest exists_file d a /\
    (unread exists_file read_file decode_json decode_yaml a t \/
     exists file e, the_config exists_file a file /\ decoded read_file decode_json decode_yaml a file e /\ told read_file devel e (abs_path a) t).
Proof. 
  intros ex read dj dy look sort devel d t So Hd E. destruct (dir_err ex read dj dy look sort So devel d t Hd E) as (a & b & _ & B & N).
  exists a. split; [exact N|exact B].
Qed.
Print Assumptions C104_dir.

(** GetForDir of the provider: a directory that no set of files is made for is hindered so. *)
Theorem C104_provider : forall ord cwd node_at exists_file read_file decode_json decode_yaml look_path sort_plugins devel data work dir k d t,
  reorders ord -> sorts sort_plugins -> (forall p, File_Spec.named (node_at p)) -> clean_abs cwd -> names_from cwd work k -> names_from cwd dir d ->
  provider_get_for_dir ord cwd node_at exists_file read_file decode_json decode_yaml look_path sort_plugins devel data work dir = Err t ->
  hindered exists_file read_file decode_json decode_yaml devel data node_at k d dir t.
Proof.
  intros ord cwd node_at ex read dj dy look sort devel data work dir k d t O So Nm Cw Nk Nd E.
  assert (U : forall p cs, names_from cwd p cs -> ok_comps cs /\ abs_clean cwd p = abs_path cs).
  { intros p cs (Np & N). destruct (abs_clean_names cwd Cw p Np) as (cs' & (_ & N') & ->).
    destruct (is_abs p); destruct N as (_ & H & A), N' as (_ & _ & B); (split; [exact H|congruence]). }
  destruct (U _ _ Nk) as (Hk & Ek), (U _ _ Nd) as (Hd & Ed).
  exact (provider_err ord O cwd node_at ex read dj dy look sort So devel data k d dir Hk Hd Nm work t Ek Ed E).
Qed.
Print Assumptions C104_provider.

(** ** For the whole program *)
(** Why a command cannot begin with its work on the argument, and what is said. *)
Inductive cannot_begin (w : world) (disk : string -> result string) (cwd : string) (items : list item) (args : list string) : string -> Prop :=
| Not_there : forall t, w_stat w (Exec_Spec.target args) = Err t -> cannot_begin w disk cwd items args t
| Neither : w_stat w (Exec_Spec.target args) = Ok Exec_Model.OtherFile ->
    cannot_begin w disk cwd items args (Exec_Spec.target args +++ " is not a directory or a regular file")
| Cannot_find : forall dir k d t,
    (w_stat w (Exec_Spec.target args) = Ok Exec_Model.Directory /\ dir = Exec_Spec.target args \/
     w_stat w (Exec_Spec.target args) = Ok Exec_Model.Regular /\ dir = path_dir (Exec_Spec.target args)) ->
    cwd = abs_path k -> names_from cwd dir d ->
    hindered (exists_at w disk) disk (w_decode_json w) (w_decode_yaml w) false (text items "config-data") (w_node_at w) k d dir t ->
    cannot_begin w disk cwd items args t
| Too_slow : forall dir walk t, text items "walk-timeout" <> "" -> w_parse_duration w (text items "walk-timeout") = Ok walk -> walk <> 0%Z ->
    w_too_slow w walk dir = Some t -> cannot_begin w disk cwd items args t.
(** The commands that look for the files first. *)
Definition looks_first (c : command) (items : list item) : Prop :=
  In (c_words c) [["all"]; ["cache"; "update"]; ["compile"]; ["files"]; ["generate"]; ["x"; "inspect"; "packages"]]
  \/ (c_words c = ["format"] /\ ((on items "overwrite" = false /\ on items "diff" = false) \/ (on items "overwrite" = false /\ on items "lint" = false)
                                 \/ (on items "diff" = false /\ on items "lint" = false)))
  \/ (c_words c = ["lint"] /\ text items "list-lint-group" = "" /\ text items "diff-lint-groups" = "" /\
      forall name, In name ["generate-ignores"; "list-all-lint-groups"; "list-all-linters"; "list-linters"] -> on items name = false)
  \/ (c_words c = ["descriptor-set"] /\ (text items "output-path" = "" \/ on items "tmp" = false)).

Lemma meta_fails w cwd items r args s t : ordinary w cwd -> sorts (w_sort_plugins w) -> the_options w items = Ok r ->
  get_meta (here r) (w_stat w) (provider w r (io_disk s)) args s = (s, Fail t) -> cannot_begin w (io_disk s) cwd items args t.
Proof.
  intros (V & G & Wd & Cl & Nm & St) So Or. unfold the_options in Or. rewrite Wd in Or. destruct (if String.eqb (text items "walk-timeout") "" then _ else _) as [wt|] eqn:Wt; [|discriminate].
  cbn [bind] in Or. injection Or as <-. cbn [here r_work_dir options].
  assert (P : forall dir u, dir <> "" -> (w_stat w (Exec_Spec.target args) = Ok Exec_Model.Directory /\ dir = Exec_Spec.target args \/
     w_stat w (Exec_Spec.target args) = Ok Exec_Model.Regular /\ dir = path_dir (Exec_Spec.target args)) ->
     provider w (options (w_getenv w) cwd wt items) (io_disk s) cwd dir = Err u -> cannot_begin w (io_disk s) cwd items args u).
  { intros dir u Nd K. unfold provider. cbn [here options r_work_dir r_config_data r_walk_timeout].
    destruct (provider_get_for_dir _ _ _ _ _ _ _ _ _ _ _ _ _) as [ps|m] eqn:E; cbn [bind].
    - destruct (Z.eqb_spec wt 0) as [|Nz]; [discriminate|]. destruct (w_too_slow w wt dir) as [m|] eqn:Ts; [|discriminate].
      intros [= <-]. destruct (String.eqb_spec (text items "walk-timeout") "") as [|Nt]; [injection Wt as <-; contradiction|].
      exact (Too_slow w (io_disk s) cwd items args dir wt m Nt Wt Nz Ts).
    - intros [= <-]. destruct Cl as (k & Hk & Ck). destruct (abs_clean_names cwd (ex_intro _ k (conj Hk Ck)) dir Nd) as (d & Ndd & _).
      apply (Cannot_find w (io_disk s) cwd items args dir k d m K Ck Ndd).
      refine (C104_provider _ _ _ _ _ _ _ _ _ _ _ _ _ _ _ _ V So Nm (ex_intro _ k (conj Hk Ck)) _ Ndd E).
      split; [rewrite Ck; destruct k; discriminate|]. rewrite Ck, is_abs_abs_path. split; [apply is_abs_abs_path|]. split; [assumption|now apply clean_abs_path]. }
  unfold get_meta, and_then, ret, fail. fold (Exec_Spec.target args).
  assert (Nt : Exec_Spec.target args = "" -> forall k, w_stat w (Exec_Spec.target args) <> Ok k) by (intros ->; exact St).
  destruct (w_stat w (Exec_Spec.target args)) as [[| |]|e] eqn:Sa; cbn [Exec_Model.check]; unfold ret, fail.
  - destruct (provider _ _ _ _ _) as [ps|m] eqn:E; cbn; unfold ret, fail; [discriminate|]. intros [= <-]. eapply P; [|left; split; reflexivity|exact E].
    intros F. exact (Nt F _ eq_refl).
  - destruct (provider _ _ _ _ _) as [ps|m] eqn:E; cbn; unfold ret, fail; [discriminate|]. intros [= <-]. eapply P; [|right; split; reflexivity|exact E].
    apply path_clean_not_empty.
  - intros [= <-]. now apply Neither.
  - intros [= <-]. now apply Not_there.
Qed.
Lemma fails_first {A B} (c : cmd A) (f : A -> cmd B) s s' t : c s = (s', Fail t) -> and_then c f s = (s', Fail t).
Proof. unfold and_then. now intros ->. Qed.
Lemma meta_runner w r r' d args s : same_files r' r ->
  get_meta (here r') (w_stat w) (provider w r' d) args s = get_meta (here r) (w_stat w) (provider w r d) args s.
Proof.
  intros Sf. assert (here r' = here r) as -> by apply Sf. unfold get_meta, and_then.
  set (file := match args with [a] => a | _ => "." end). destruct (Exec_Model.check (w_stat w file) s) as [s' [[| |]|e|e]]; try reflexivity; now rewrite (provider_runner w r' r d _ _ Sf).
Qed.
Lemma method_fails w r c items args k s t : asked (w_read_csv w) c items args = Some k -> looks_first c items ->
  get_meta (here r) (w_stat w) (provider w r (io_disk s)) args s = (s, Fail t) -> method w r k s = (s, Fail t).
Proof.
  intros K L E. unfold asked in K. destruct L as [L|[(L & F)|[(L & T1 & T2 & O)|(L & F)]]].
  - cbn [In] in L. repeat (destruct L as [L|L]; [rewrite <- L in K; injection K as <-|]); [..|destruct L]; cbn [method].
    + unfold all_cmd. apply fails_first. exact E.
    + unfold cache_update. apply fails_first. exact E.
    + unfold compile_cmd. apply fails_first. exact E.
    + unfold files_cmd. apply fails_first. exact E.
    + unfold gen_cmd. apply fails_first. exact E.
    + unfold inspect_packages. apply fails_first. unfold get_package_set_and_config. apply fails_first. exact E.
  - rewrite L in K. injection K as <-. cbn [method]. unfold format_cmd.
    replace (more_than_one_set [on items "overwrite"; on items "diff"; on items "lint"]) with false.
    2: { destruct F as [(-> & ->)|[(-> & ->)|(-> & ->)]]; destruct (on items _); reflexivity. }
    apply fails_first. exact E.
  - rewrite L, T1, T2, !O in K by (cbn; tauto). injection K as <-. cbn [method]. unfold lint_cmd. cbn [more_than_one_set filter is_empty negb length Nat.ltb Nat.leb].
    apply fails_first. exact E.
  - rewrite L in K. injection K as <-. cbn [method]. unfold descriptor_set.
    replace (negb (is_empty (text items "output-path")) && on items "tmp") with false by (destruct F as [->| ->]; [reflexivity|now rewrite andb_false_r]).
    apply fails_first. exact E.
Qed.

(** If files fails, then it says why, and does nothing else; and every command that looks for
    the files first, with the same argument and settings, fails in the same way. *)
Theorem C104_run : forall w cwd args fl f fi s s1 z, ordinary w cwd -> sorts (w_sort_plugins w) ->
  means (w_read_csv w) fl f fi args -> c_words f = ["files"] -> main w fl s = (s1, z) -> z <> 0%Z ->
  z = 1%Z /\ io_disk s1 = io_disk s /\
  (exists t, (text fi "walk-timeout" <> "" /\ w_parse_duration w (text fi "walk-timeout") = Err t \/ cannot_begin w (io_disk s) cwd fi args t) /\
     ((t = "" /\ io_done s1 = io_done s) \/ (t <> "" /\ io_done s1 = io_done s ++ Main_Spec.shown [t]))) /\
  forall l c items, means (w_read_csv w) l c items args -> same_settings fi items -> looks_first c items -> main w l s = (s1, z).
Proof.
  intros w cwd args fl f fi s s1 z O So Mf Wf Ef Nz. pose proof O as (V & G & Wd & Cl & Nm & St).
  destruct (line_is w fl f fi args G Mf) as (kf & Kf & Lf). rewrite Lf in Ef. clear Lf.
  assert (Pr : forall t, (io_disk (fst (println t s)) = io_disk s) /\
    ((t = "" /\ io_done (fst (println t s)) = io_done s) \/ (t <> "" /\ io_done (fst (println t s)) = io_done s ++ Main_Spec.shown [t]))).
  { intros t. rewrite println_adds. cbn [fst adds io_disk io_done]. split; [reflexivity|]. destruct (is_empty t) eqn:E.
    - left. apply is_empty_true in E. now rewrite app_nil_r.
    - right. apply is_empty_false in E. split; [assumption|reflexivity]. }
  destruct (the_options w fi) as [r|m] eqn:Or.
  - rewrite with_options in Ef. destruct (get_meta_pure (here r) (w_stat w) (provider w r (io_disk s)) args) as (o & E & [(m & -> & F)|((t & ->) & _)]).
    + exfalso. apply Nz. unfold asked in Kf. rewrite Wf in Kf. injection Kf as <-. apply process_ends in Ef as (s' & o & E' & Z).
      cbn [method] in E'. unfold files_cmd in E'. unfold and_then in E'. rewrite E in E'. rewrite each_println in E'. injection E' as <- <-.
      destruct Z as [(_ & _ & ->)|[(? & X & _)|(? & X & _)]]; [reflexivity|discriminate X..].
    + assert (Mt : method w r kf s = (s, Fail t)) by (eapply method_fails; [exact Kf|left; rewrite Wf; cbn; auto|apply E]).
      unfold process in Ef. rewrite Mt in Ef. injection Ef as <- <-. destruct (Pr t) as (P1 & P2). split; [reflexivity|]. split; [exact P1|].
      split; [exists t; split; [right; exact (meta_fails w cwd fi r args s t O So Or (E s))|exact P2]|].
      intros l c items M Sm Lk. destruct (line_is w l c items args G M) as (k & K & ->). destruct (options_some _ _ _ _ _ Wd Sm Or) as (r' & Or').
      rewrite Or', with_options. destruct (options_files _ _ _ _ _ _ Wd Sm Or Or') as (_ & Sf). unfold process.
      rewrite (method_fails w r' c items args k s t K Lk); [reflexivity|].
      rewrite <- (E s). now apply meta_runner.
  - rewrite no_options in Ef. injection Ef as <- <-. destruct (Pr m) as (P1 & P2). split; [reflexivity|]. split; [exact P1|].
    unfold the_options in Or. rewrite Wd in Or. split.
    + exists m. split; [left|exact P2]. destruct (String.eqb_spec (text fi "walk-timeout") "") as [|Nt]; [discriminate Or|]. split; [assumption|].
      destruct (w_parse_duration w (text fi "walk-timeout")); [discriminate Or|]. cbn [bind] in Or. now injection Or as ->.
    + intros l c items M (_ & Sm) _. destruct (line_is w l c items args G M) as (k & K & ->).
      assert (the_options w items = Err m) as ->; [|apply no_options]. unfold the_options. rewrite Wd, <- Sm.
      destruct (if String.eqb (text fi "walk-timeout") "" then _ else _); [discriminate Or|]. cbn [bind] in *. now injection Or as ->.
Qed.
Print Assumptions C104_run.


(** ** Examples *)
(** Plugins without an output, with imports, and with a prefix; and rules that are added and removed. *)
Definition faulty (plugins : list ext_plugin) (add remove : list string) : external_config :=
  mk_external_config [] false "" [] [] "" [] false add remove (mk_ext_header "" "" false) "" false false false "" [] plugins.
Definition data_says (e : external_config) : result config := get_for_data no_file (fun _ => Ok e) no_file by_name false (abs_path ["w"]) "{}".
Example C104_data_ex : sorts by_name /\ ok_comps ["w"] /\
  data_says (faulty [mk_ext_plugin "go" "go" "" "" "" "" false false] ["a"] ["A"]) = Err "output path required for plugin go" /\
  data_says (faulty [mk_ext_plugin "go" "" "" "gen" "" "" true false] ["a"] ["A"]) =
    Err "include_imports is only valid for the descriptor_set plugin but set on ""go""" /\
  data_says (faulty [mk_ext_plugin "protoc-gen-go" "" "" "gen" "" "" false false] ["a"] ["A"]) =
    Err "plugin name provided was protoc-gen-go, do not include the protoc-gen- prefix" /\
  data_says (faulty [] ["b"; "c"; "a"] ["A"; "B"]) = Err "config had intersection of [A B] between lint_include and lint_exclude".
Proof.
  split; [exact by_name_sorts|]. split; [repeat constructor|]. repeat (split; [vm_compute; reflexivity|]). vm_compute; reflexivity.
Qed.
Example C104_dir_ex :
  get_for_dir (files_at ["/w/prototool.yaml"; "/w/prototool.json"]) no_file (fun _ => Err "") (fun _ => Err "") no_file by_name false (abs_path ["w"; "a"]) =
    Err "multiple configuration files in the same directory: [/w/prototool.yaml /w/prototool.json]" /\
  get_for_dir (files_at ["/w/prototool.yaml"]) no_file (fun _ => Err "") (fun _ => Err "") no_file by_name false (abs_path ["w"; "a"]) =
    Err "open /w/prototool.yaml" /\
  get_for_dir (files_at ["/w/prototool.yaml"]) (fun _ => Ok "x") (fun _ => Err "") (fun _ => Ok (faulty [] ["a"] ["A"])) no_file by_name false (abs_path ["w"; "a"]) =
    Err "config had intersection of [A] between lint_include and lint_exclude".
Proof. repeat (split; [vm_compute; reflexivity|]). vm_compute; reflexivity. Qed.
(** Two directories with a configuration each. *)
Definition two_trees (p : string) : node := if String.eqb p "/w" then NDir [("a", NDir [("x.proto", NFile)]); ("b", NDir [("y.proto", NFile)])] else NBroken.
Definition exs_provide (data dir : string) : result proto_set :=
  provider_get_for_dir (fun _ A l => rev l) "/w" two_trees (files_at ["/w/a/prototool.yaml"; "/w/b/prototool.yaml"]) (fun _ => Ok "") (fun _ => Err "no json") (fun _ => Err "")
    no_file by_name false data "/w" dir.
Example C104_provider_ex : reorders (fun _ A l => rev l) /\ (forall p, File_Spec.named (two_trees p)) /\ names_from "/w" "/w" ["w"] /\ names_from "/w" "." ["w"] /\
  exs_provide "" "." = Err "expected exactly one configuration file for dirPath ""."", but found multiple in directories: [/w/a /w/b]" /\
  exs_provide "{" "." = Err "no json" /\ (exists t, exs_provide "" "../v" = Err t /\ t = "lstat /v").
Proof.
  split; [intros k A l; apply Permutation_rev|]. split.
  { intros p. unfold two_trees. destruct (String.eqb p "/w"); [|constructor].
    assert (N : forall s, ok_comp s = true -> File_Spec.named (NDir [(s, NFile)])) by
      (intros s Hs; constructor; [repeat constructor; exact Hs|repeat constructor; intros []|intros n c [[= <- <-]|[]]; constructor]).
    constructor; [repeat constructor|repeat constructor; cbn; intuition discriminate|]. intros n c [[= <- <-]|[[= <- <-]|[]]]; now apply N. }
  split. { split; [discriminate|]. split; [reflexivity|]. split; [repeat constructor|reflexivity]. }
  split. { split; [discriminate|]. split; [reflexivity|]. split; [repeat constructor|reflexivity]. }
  split; [vm_compute; reflexivity|]. split; [vm_compute; reflexivity|]. eexists. split; vm_compute; reflexivity.
Qed.
(** The configuration of the working directory adds and removes a rule. *)
Definition exs_world : world := mk_world "linux" "amd64" "go1.13" (fun v => if String.eqb v "HOME" then "/home" else "") (Ok "/w") (fun s => if String.eqb s "3s" then Ok 3%Z else Err "bad time")
  (fun s => Ok [s]) (fun _ => "usage") (fun _ => "help") (fun _ => "") (fun _ => "topic")
  (fun _ A l => l) exw_stat exw_node (fun _ => None) (fun _ _ => None) (fun _ => None) (Ok "/tmp/f") (Ok "/tmp/d") (fun _ => Err "not found")
  (fun _ _ => None) (fun _ => Err "no json") (fun _ => Ok (faulty [] ["a"] ["A"])) (fun _ => Ok "")
  by_name (fun l => l) (fun l => l) (fun _ _ => Ok []) (fun s => s) (fun _ _ _ => Ok "")
  (fun _ => Ok tt) (fun s => s) (fun _ => NotExist) (fun _ => Ok "/tmp/p") (fun _ _ => Protoc_Model.Ended "" Protoc_Model.NoError)
  (fun _ _ _ => Ok []) (fun n => seq 0 n) (fun _ n => n) (fun s => s) (fun _ => Ok "") (fun _ => Ok "") (fun _ => Ok [])
  (fun _ => Ok tt) (fun _ => Ok tt) (fun _ => Ok tt) (fun _ => Ok tt) (fun _ => Ok tt) (fun _ _ => ([], None)).
Example C104_run_ex : ordinary exs_world "/w" /\ sorts (w_sort_plugins exs_world) /\
  means (w_read_csv exs_world) ["files"] exw_files [] [] /\ means (w_read_csv exs_world) ["compile"] exw_compile [] [] /\
  same_settings [] [] /\ looks_first exw_compile [] /\
  (let s := mk_io (io_disk exw_broken) (Main_Spec.shown ["config had intersection of [A] between lint_include and lint_exclude"]) in
   main exs_world ["files"] exw_broken = (s, 1%Z) /\ main exs_world ["compile"] exw_broken = (s, 1%Z)).
Proof.
  split; [exact exw_ordinary|]. split; [exact by_name_sorts|].
  split. { exists None. split; [cbn; tauto|]. split; [constructor|]. split; [reflexivity|]. split; [split; cbn; auto with arith|reflexivity]. }
  split. { exists None. split; [cbn; tauto|]. split; [constructor|]. split; [reflexivity|]. split; [split; cbn; auto with arith|reflexivity]. }
  split; [split; reflexivity|]. split; [left; cbn; auto|]. split; vm_compute; reflexivity.
Qed.
