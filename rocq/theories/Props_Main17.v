(** C87 with --fix: after format --overwrite --fix there is nothing left to format. *)
From Verif Require Text_Proofs.
From Verif Require Import GoStrFacts GoPathFacts Settings_Spec File_Spec File_Proofs Exec_Spec Exec_Proofs Cmd_Spec Format_Spec Format_Model Format_Same Format_First Format_Fix Format_Same3
  Main_Model Main_Spec Main_Spec2 Main_Proofs Main_Proofs2 Main_Proofs6 Main_Proofs8 Main_Proofs9 Main_Proofs10 Main_Proofs17 Props_Format Props_Exec Props_Main Props_Main2 Props_Main3 Props_Main4 Props_Main5 Props_Main6.

(** The values that --fix gives to options under the rules [lc], for a file with this path and
    package; the options of the file then. *)
Definition values_for (lc : lint_config) (path pkg : string) : list (string * literal) :=
  if String.eqb (lc_group lc) "uber2"
  then settings_v2 (go_package_v2 pkg) (java_outer_classname path) (java_package_prefix_override pkg (lc_java_package_prefix lc)) (csharp_namespace pkg) (objc_class_prefix pkg) (php_namespace pkg)
  else settings_v1 (go_package pkg) (java_outer_classname path) (java_package_prefix_override pkg (lc_java_package_prefix lc)).
Definition options_then (lc : lint_config) (path : string) (es : list element) (os : list opt) : Prop :=
  (exists p, In (EPackage p) es /\ os = fixed_options (values_for lc path (pk_name p)) (own_options es))
  \/ (forall p, ~ In (EPackage p) es) /\ (forall o, In o (own_options es) -> ~ In (o_name o) managed_names) /\ os = own_options es.
(** What is above the syntax then: the comments that were there, or those that the header of the
    configuration is read as; then nothing may be written between it and the syntax. *)
Definition top_then (lc : lint_config) (es top : list element) : Prop :=
  (lc_file_header lc = "" /\ top = leading es)
  \/ lc_file_header lc <> "" /\ (forall e, In e top -> exists c, e = EComment c) /\ (forall s, In (ESyntax s) es -> sx_comment s = None).
(** The text [out], written for the file, can be parsed and has the contents of what is printed for
    [input]. *)
Definition read_as_fixed (w : world) (lc : lint_config) (path input out : string) : Prop :=
  forall es, w_parse w path input = Ok es ->
    length (Format_Spec.syntaxes es) <= 1 /\ length (Format_Spec.packages es) <= 1 /\ NoDup (map o_name (own_options es)) /\ NoDup (map im_filename (own_imports es)) /\
    exists os top es', options_then lc path es os /\ top_then lc es top /\ w_parse w path out = Ok es' /\
      same_file (detached (canonical_with (w_sort_options w) (w_sort_imports w) top os es)) es'.

(** The elements: what --fix prints, read again, is left as it is. *)
Theorem C24_fix_stable_partial : forall sort_o sort_i path lc es es' out os top, let fx := if String.eqb (lc_group lc) "uber2" then FixV2 else FixV1 in
  sorts_by o_name sort_o -> sorts_by im_filename sort_i -> length (Format_Spec.syntaxes es) <= 1 -> length (Format_Spec.packages es) <= 1 ->
  NoDup (map o_name (own_options es)) -> NoDup (map im_filename (own_imports es)) -> options_then lc path es os -> top_then lc es top ->
  same_file (detached (canonical_with sort_o sort_i top os es)) es' ->
  transform_elements sort_o sort_i path fx (lc_file_header lc) (lc_java_package_prefix lc) es = Ok (out, []) ->
  transform_elements sort_o sort_i path fx (lc_file_header lc) (lc_java_package_prefix lc) es' = Ok (out, []).
Proof.
  intros sort_o sort_i path lc es es' out os top fx So Si Hs Hp No Ni Ho Ht H T.
  assert (Fn : fix_none fx = false) by (unfold fx; now destruct (String.eqb _ _)).
  assert (Es : forall pkg, settings path fx (lc_java_package_prefix lc) pkg = values_for lc path pkg) by (intros pkg; unfold settings, fx, values_for; now destruct (String.eqb _ _)).
  assert (Eo : printed_options path fx (lc_java_package_prefix lc) es = os /\ fixable fx es).
  { assert (E1 : printed_options path fx (lc_java_package_prefix lc) es = match first_package es with None => filter (fun o => negb (is_managed o)) (own_options es)
      | Some p => fixed_options (settings path fx (lc_java_package_prefix lc) (pk_name p)) (own_options es) end) by (unfold printed_options, fx; now destruct (String.eqb _ _)).
    rewrite E1. destruct Ho as [(p & Ip & ->)|(Np & Nm & ->)].
    - rewrite (first_package_of es p Hp Ip), Es. split; [reflexivity|]. right. left. eauto.
    - assert (Um : Forall (fun o => is_managed o = false) (own_options es)).
      { apply Forall_forall. intros o I. destruct (is_managed o) eqn:M; [|reflexivity]. exfalso. apply (Nm o I). now apply managed_iff. }
      split; [|right; right; exact Um]. unfold first_package. pose proof (packages_all es) as A. destruct (Format_Spec.packages es) as [|x l] eqn:E; [now apply unmanaged_same|].
      exfalso. destruct (A x) as (p & ->); [now left|]. apply (Np p). assert (I : In (EPackage p) (Format_Spec.packages es)) by (rewrite E; now left). now apply filter_In in I. }
  destruct Eo as (Eo & Fx). subst os.
  apply (fix_again sort_o sort_i So Si path fx (lc_file_header lc) (lc_java_package_prefix lc) es es' out top Hs Hp No Ni Fx); [|exact H|exact T].
  rewrite Fn. cbn [orb]. destruct Ht as [(-> & ->)|(Nh & Tc & Sc)]; [reflexivity|]. destruct (is_empty (lc_file_header lc)) eqn:Ie; [apply is_empty_true in Ie; contradiction|].
  split; [now apply Forall_forall|exact Sc].
Qed.
Print Assumptions C24_fix_stable_partial.

(** The whole program.  Missing: the parser is external, so that it reads what is written as what
    was printed is a hypothesis. *)
Theorem C87_fix_settled_partial : forall w cwd args line line' cl c items items' ci s s1 s2,
  ordinary w cwd -> sorts (w_sort_plugins w) -> sorts_by o_name (w_sort_options w) -> sorts_by im_filename (w_sort_imports w) ->
  (forall d e, w_decode_json w d = Ok e \/ w_decode_yaml w d = Ok e -> header_elsewhere e) ->
  other_mode w args line line' items items' -> one_mode items' -> on items "overwrite" = true -> on items "fix" = true ->
  main w line s = (s1, 0%Z) ->
  means (w_read_csv w) cl c ci args -> c_words c = ["compile"] -> alike items ci -> on ci "dry-run" = false -> main w cl s1 = (s2, 0%Z) ->
  (forall p conf input out, in_force w (io_disk s) cwd (text items "config-data") p conf -> io_disk s p = Ok input -> io_disk s1 p = Ok out ->
     read_as_fixed w (cfg_lint conf) p input out) ->
  nothing_to_do w line' s1.
Proof.
  intros w cwd args line line' cl c items items' ci s s1 s2 (V & G & Wd & Cl & Nm & St) Sp So Si Hh O M Ov Fx E Mc Wc Ac Dc Ec Rb.
  destruct (modes_lines _ _ _ _ _ _ G O) as [(r & Or & L & L')|X].
  2:{ specialize (X s). rewrite E in X. discriminate X. }
  rewrite L in E. apply process_value in E as ([] & E). rewrite Ov, Fx in E. rewrite Fx in L'.
  assert (Hr : here r = cwd) by (eapply options_files; [exact Wd| |exact Or|exact Or]; split; reflexivity).
  assert (Cr : clean_abs (here r)) by now rewrite Hr.
  assert (Da : r_config_data r = text items "config-data").
  { revert Or. unfold the_options. rewrite Wd. destruct (if String.eqb (text items "walk-timeout") "" then _ else _); [|discriminate]. cbn [bind]. intros Or. apply same_ok in Or. subst r. reflexivity. }
  destruct (line_is w cl c ci args G Mc) as (k & K & Lc). unfold asked in K. rewrite Wc, Dc in K. injection K as <-.
  rewrite Lc, <- (alike_options w _ _ Ac), Or, with_options in Ec. apply process_value in Ec as ([] & Ec).
  assert (D : on items "diff" = false /\ on items "lint" = false).
  { destruct (more_than_one_set [true; on items "diff"; on items "lint"]) eqn:Q.
    - exfalso. revert E. unfold method, format_cmd. cbv zeta. rewrite Q. discriminate.
    - revert Q. destruct (on items "diff"), (on items "lint"); cbn; intros; auto; discriminate. }
  destruct D as (D1 & D2). rewrite D1, D2 in E.
  destruct (format_settles w V (visits_ok _ V) Nm St r Cr args true (fun d e H => Hh d e (or_introl H)) (fun d e H => Hh d e (or_intror H)) s s1 s2
    (on items' "overwrite") (on items' "diff") (on items' "lint") E Ec) as (es & E' & We).
  - intros m f input data F As Hi T Ho. destruct (found_config w V Sp Nm St r Cr _ _ _ F) as (Fc & _).
    assert (If : in_force w (io_disk s) (here r) (r_config_data r) (pf_path f) (ps_config (m_set m))) by (destruct As as ((dd & ff & I1 & I2 & _) & _); exact (proj1 (Fc _ _ _ I1 I2))).
    rewrite Hr, Da in If. specialize (Rb _ _ _ _ If Hi Ho). clear If Fc.
    set (lc := cfg_lint (ps_config (m_set m))) in *. unfold formatter in *. fold lc in T |- *. revert T.
    unfold the_transform, Format_Model.transform.
    assert (Ck : check_fix (if String.eqb (lc_group lc) "uber2" then 2%Z else 1%Z) = Ok (if String.eqb (lc_group lc) "uber2" then FixV2 else FixV1)) by now destruct (String.eqb _ _).
    rewrite Ck. cbn [bind]. destruct (w_parse w (pf_path f) input) as [el|] eqn:P; [|discriminate]. cbn [bind].
    destruct (transform_elements _ _ (pf_path f) _ _ _ el) as [[t fs]|] eqn:T; [|discriminate]. cbn [bind fst snd]. intros [= -> Fs].
    assert (fs = []) as ->.
    { destruct (Text_Proofs.sort_failures_plain fs) as (ss & Q & Pe & _). rewrite Q in Fs. assert (ss = []) as -> by (destruct ss; [reflexivity|discriminate Fs]).
      now apply Permutation.Permutation_sym, Permutation.Permutation_nil in Pe. }
    destruct (Rb el P) as (H1 & H2 & H3 & H4 & os & top & es' & H5 & H6 & P' & H7). rewrite P'. cbn [bind].
    rewrite (C24_fix_stable_partial _ _ (pf_path f) lc el es' data os top So Si H1 H2 H3 H4 H5 H6 H7 T). reflexivity.
  - now apply one_mode_set.
  - eexists. rewrite L'. split; [apply process_value; exists tt; exact E'|]. split; [reflexivity|].
    cbn [io_done]. change (Compiled false :: es) with ([Compiled false] ++ es). rewrite !written_app, We. apply app_nil_r.
Qed.
Print Assumptions C87_fix_settled_partial.

(** ** Example: the package is acme.foo.v1; the options of group uber1 are set. *)
Definition exw17_values : list (string * literal) := settings_v1 (go_package "acme.foo.v1") (java_outer_classname "/w/a.proto") (java_package_prefix_override "acme.foo.v1" "").
Definition exw17_out : string := match transform_elements so si "/w/a.proto" FixV1 "" "" untidy with Ok (t, _) => t | Err m => m end.
Definition exw17_then : list element := detached (canonical_with so si (leading untidy) (fixed_options exw17_values (own_options untidy)) untidy).
Definition exw17_parse (p d : string) : result (list element) := if String.eqb d exw17_out then Ok exw17_then else Ok untidy.
Definition exw17 : world := mk_world "linux" "amd64" "go1.13" (fun v => if String.eqb v "HOME" then "/home" else "") (Ok "/w") (fun s => if String.eqb s "3s" then Ok 3%Z else Err "bad time")
  (fun s => Ok [s]) (fun _ => "usage") (fun _ => "help") (fun _ => "") (fun _ => "topic")
  (fun _ A l => l) exw_stat exw_node (fun _ => None) (fun _ _ => None) (fun _ => None) (Ok "/tmp/f") (Ok "/tmp/d") (fun _ => Err "not found")
  (fun _ _ => None) (fun _ => Err "no json") (fun _ => Err "no yaml") (fun _ => Ok "")
  (fun l => l) so si exw17_parse (fun s => s) (fun _ _ _ => Ok "")
  (fun _ => Ok tt) (fun s => s) (fun _ => NotExist) (fun _ => Ok "/tmp/p") (fun _ _ => Protoc_Model.Ended "" Protoc_Model.NoError)
  (fun _ _ _ => Ok []) (fun n => List.seq 0 n) (fun _ n => n) (fun s => s) (fun _ => Ok "") (fun _ => Ok "") (fun _ => Ok [])
  (fun _ => Ok tt) (fun _ => Ok tt) (fun _ => Ok tt) (fun _ => Ok tt) (fun _ => Ok tt) (fun _ _ => ([], None)).
Lemma exw17_no_config p conf : in_force exw17 exw_disk "/w" "" p conf -> exists d, becomes exw_disk (w_look_path exw17) empty_external d conf.
Proof.
  assert (K : forall d, configured exw17 exw_disk d conf -> exists d, becomes exw_disk (w_look_path exw17) empty_external d conf).
  { intros d [(_ & _ & B)|(a & file & e & _ & (If & _) & De & _)]; [eauto|]. exfalso.
    assert (X : exists t, exw_disk file = Ok t) by (destruct De as [(X & _)|(t & X & _)]; eauto). destruct X as (t & X). unfold exw_disk in X.
    destruct (String.eqb_spec file "/w/a.proto") as [->|]; [|discriminate X]. destruct If as [H|[H|[]]]; apply (f_equal path_ext) in H; rewrite ?ext_yaml, ?ext_json in H; discriminate H. }
  intros [(X & _)|(_ & d & _ & _ & [(_ & C)|(_ & k & _ & _ & C)])]; [now destruct X|eauto..].
Qed.
Example C87_fix_ex :
  let s1 := fst (main exw17 ["format"; "-w"; "--fix"] exw_s) in
  ordinary exw17 "/w" /\ sorts_by o_name so /\ sorts_by im_filename si /\
  snd (main exw17 ["format"; "-l"; "--fix"] exw_s) = 255%Z /\
  snd (main exw17 ["format"; "-w"; "--fix"] exw_s) = 0%Z /\ io_disk s1 "/w/a.proto" = Ok exw17_out /\ snd (main exw17 ["compile"] s1) = 0%Z /\
  (forall p conf input out, in_force exw17 exw_disk "/w" "" p conf -> exw_disk p = Ok input -> io_disk s1 p = Ok out -> read_as_fixed exw17 (cfg_lint conf) p input out) /\
  snd (main exw17 ["format"; "-l"; "--fix"] s1) = 0%Z /\ In "option java_package = ""com.acme.foo.v1"";" (split_char newline exw17_out).
Proof.
  cbv zeta. assert (Ew : io_disk (fst (main exw17 ["format"; "-w"; "--fix"] exw_s)) "/w/a.proto" = Ok exw17_out) by (vm_compute; reflexivity).
  split; [exact exw_ordinary|]. split; [apply sort_by_sorts|]. split; [apply sort_by_sorts|].
  split; [vm_compute; reflexivity|]. split; [vm_compute; reflexivity|]. split; [exact Ew|]. split; [vm_compute; reflexivity|].
  split; [|split; [vm_compute; reflexivity|vm_compute; tauto]].
  intros p conf input out If Hi Ho. apply exw17_no_config in If as (d & Be). assert (Ep : p = "/w/a.proto" /\ input = "syntax = ""proto3"";") by (revert Hi; clear; unfold exw_disk; destruct (String.eqb_spec p "/w/a.proto"); [intros [= <-]; auto|discriminate]).
  destruct Ep as (Ep & Ei). rewrite Ep, Ew in Ho. injection Ho as Eo. rewrite Ep, Ei, <- Eo. clear Hi Eo Ep Ei p input out Ew.
  destruct (be_lint _ _ _ _ _ Be) as (Gr & _ & _ & _ & _ & Jp & _). cbn in Gr, Jp.
  destruct (be_header _ _ _ _ _ Be) as [(_ & _ & Hd)|(t & [(_ & Hc & _)|(Hc & _)] & _ & _)]; [|now destruct Hc..].
  destruct C24_ex as ((K1 & K2 & _) & _ & N1 & N2 & _).
  intros es. replace (w_parse exw17 "/w/a.proto" "syntax = ""proto3"";") with (Ok untidy) by (vm_compute; reflexivity). intros [= <-].
  split; [exact K1|]. split; [exact K2|]. split; [exact N1|]. split; [exact N2|].
  exists (fixed_options exw17_values (own_options untidy)), (leading untidy), exw17_then.
  split; [left; eexists; split; [do 6 right; left; reflexivity|unfold values_for; rewrite Gr, Jp; reflexivity]|]. split; [left; auto|].
  split; [change (exw17_parse "/w/a.proto" exw17_out = Ok exw17_then); unfold exw17_parse; now rewrite String.eqb_refl|].
  fold exw17_then.
  split; [|split; [|split; [|split; [|split]]]].
  - vm_compute leading. same_tac.
  - vm_compute Format_Spec.syntaxes. same_tac.
  - vm_compute Format_Spec.packages. same_tac.
  - apply same_options_self. vm_compute own_options. cbn. distinct.
  - apply same_imports_refl; [|reflexivity]. vm_compute own_imports. cbn. distinct.
  - vm_compute others. same_tac.
Qed.
