(** C101: what lint --generate-ignores prints, put into the configuration, silences lint, for
    the whole program. *)
From Coq Require Import Permutation Lia.
From Verif Require Settings_Proofs Settings_Proofs2 LintCmd_Model Props_LintCmd.
From Verif Require Import GoStrFacts GoPathFacts Settings_Spec File_Spec File_Proofs File_Proofs2 Exec_Spec Exec_Proofs Cmd_Spec Lint_Spec LintRun_Spec LintCmd_Spec LintCmd_Proofs Main_Model Main_Spec Main_Spec2
  Main_Spec3 Main_Spec4 Main_Proofs Main_Proofs2 Main_Proofs5 Main_Proofs6 Main_Proofs7 Main_Proofs10 Main_Proofs16 Main_Proofs17 Props_Main Props_Main2 Props_Main3 Props_Main4 Props_Main8 Props_Main10 Props_Main11 Props_Main12 Props_Main13 Props_Main14.

(** The same settings, but for the entries under lint.ignores. *)
Definition with_entries (is : list ext_ignore) (e : external_config) : external_config :=
  mk_external_config (x_excludes e) (x_allow_unused_imports e) (x_version e) (x_includes e) (x_packages e) (x_group e) is (x_no_default e) (x_add e) (x_remove e)
    (x_header e) (x_java_package_prefix e) (x_allow_suppression e) (x_include_beta e) (x_allow_beta_deps e) (x_import_path e) (x_extra_modifiers e) (x_plugins e).
(** The settings do not take the file header from this file. *)
Definition header_not_from (file : string) (e : external_config) : Prop := eh_path (x_header e) <> "" -> forall dir, path_join [dir; eh_path (x_header e)] <> file.

Lemma nearest_ext ex ex' d a : (forall p, ex p = ex' p) -> nearest ex d a -> nearest ex' d a.
Proof.
  intros X (b & E & N & H). assert (K : forall x, no_config ex x <-> no_config ex' x) by (intros x; unfold no_config; split; intros Y p I; [rewrite <- X|rewrite X]; auto).
  exists b. split; [exact E|]. split; [now rewrite <- K|]. intros b1 b2 E2 N2. apply K. eauto.
Qed.
Lemma the_config_ext ex ex' a p : (forall p, ex p = ex' p) -> the_config ex a p -> the_config ex' a p.
Proof. intros X (I & E & H). split; [exact I|]. split; [now rewrite <- X|]. intros q Iq Eq. apply H; [exact Iq|now rewrite X]. Qed.
Lemma nearest_not_empty ex d a file : ok_comps d -> nearest ex d a -> the_config ex a file -> ~ governs ex d "".
Proof.
  intros Od Ne Th Q. assert (Q2 : governs ex d file) by (right; eauto). apply governs_iff in Q, Q2; try assumption. rewrite Q in Q2. injection Q2 as <-.
  destruct Th as (I & _). destruct I as [X|[X|[]]]; discriminate X.
Qed.
Lemma compile_fields cwd format json to_json D compiler commands gen m s s1 ds : compile cwd format json to_json D compiler commands gen false false m s = (s1, Value ds) ->
  exists fields, parse_colon_separated_failure_fields format = Ok fields.
Proof.
  unfold compile, do_compile, and_then, emit. cbn [io_disk]. destruct (compiler gen false None (io_disk s) (m_set m)) as [[fs d]|e]; [|discriminate].
  cbn [Exec_Model.check ret fst snd]. unfold report, print_failures, print_failures_for, and_then, Exec_Model.check, ret, fail. destruct (parse_colon_separated_failure_fields format); [eauto|discriminate].
Qed.

(** lint --generate-ignores succeeds, and prints entries.  If the configuration file of one of
    the files is changed to have these entries, and nothing else is changed, and protoc still
    accepts the files, lint finds nothing. *)
Theorem C101_silenced : forall w cwd args fl f fi gl g gi s s1 s2, ordinary w cwd -> sorts (w_sort_plugins w) ->
  means (w_read_csv w) fl f fi args -> c_words f = ["files"] -> main w fl s = (s1, 0%Z) ->
  means (w_read_csv w) gl g gi args -> c_words g = ["lint"] -> same_settings fi gi -> modes gi = [false; false; false; false; false; true] -> main w gl s = (s2, 0%Z) ->
  text gi "config-data" = "" ->
  exists names, io_done s1 = io_done s ++ Main_Spec.shown names /\
    ((forall x y, In x names -> File_Spec.shown cwd y x -> ~ within y cwd) -> exists is entries,
    io_disk s2 = io_disk s /\ io_done s2 = io_done s ++ Compiled false :: says (if String.eqb entries "" then "" else entries +++ String newline "") /\
    (is = [] /\ entries = "" \/ exists data, w_encode_ignores w is = Ok data /\ entries = trim_space data) /\
    forall n p d a file e s3 cl c ci sc ll l li,
      In n names -> File_Spec.shown cwd p n -> ok_comps d -> path_dir p = abs_path d -> nearest (exists_at w (io_disk s)) d a -> the_config (exists_at w (io_disk s)) a file ->
      decoded (io_disk s) (w_decode_json w) (w_decode_yaml w) a file e ->
      (forall data e, w_decode_json w data = Ok e \/ w_decode_yaml w data = Ok e -> header_not_from file e) ->
      (forall x, x <> file -> io_disk s3 x = io_disk s x) -> decoded (io_disk s3) (w_decode_json w) (w_decode_yaml w) a file (with_entries is e) ->
      means (w_read_csv w) cl c ci args -> c_words c = ["compile"] -> on ci "dry-run" = false -> main w cl s3 = (sc, 0%Z) ->
      means (w_read_csv w) ll l li args -> c_words l = ["lint"] -> same_settings fi li -> alike li ci -> modes li = [false; false; false; false; false; false] ->
      main w ll s3 = (mk_io (io_disk s3) (io_done s3 ++ [Compiled false]), 0%Z)).
Proof.
  intros w cwd args fl f fi gl g gi s s1 s2 O So Mf Wf Ef Mg Wg Sm Mo Eg Nd. pose proof O as (V & G & Wd & Cl & Nm & St).
  destruct (files_see w cwd args fl f fi gi s s1 O So Mf Wf Ef Sm) as (names & r & m & E1 & Or & S).
  destruct (lint_line w G _ _ _ _ _ _ _ Mg Wg Eg) as [(e & N & _)|(r' & Or' & P)]; [congruence|]. rewrite Or in Or'. injection Or' as <-.
  injection Mo as T1 T2 T3 T4 T5 T6. rewrite T1, T2, T3, T6 in P. rewrite negb_false_iff in T4, T5. apply String.eqb_eq in T4, T5. rewrite T4, T5 in P.
  apply process_value in P as ([] & P). pose proof (se_found _ _ _ _ _ _ _ _ S) as F. pose proof (se_here _ _ _ _ _ _ _ _ S) as Hr. destruct (se_options _ _ _ _ _ _ _ _ S) as (zz & Rw).
  assert (Da : r_config_data r = "") by now rewrite Rw.
  assert (Cr : clean_abs (here r)) by now rewrite Hr.
  destruct (found_config w V So Nm St r Cr _ _ _ F) as (Fc & (e0 & d0 & Cd0 & (_ & Tk0)) & Nk). rewrite Hr, Da in Fc.
  exists names. split; [exact E1|]. intros Na.
  (* the run of generate-ignores *)
  unfold LintCmd_Model.lint_cmd in P. change (more_than_one_set [false; false; false; negb (is_empty ""); negb (is_empty ""); true]) with false in P. cbn iota in P.
  change (negb (is_empty "")) with false in P. cbn iota in P. unfold and_then at 1 in P. rewrite (get_meta_found _ _ _ _ _ _ F) in P. unfold and_then at 1 in P.
  destruct (compile _ _ _ _ _ _ _ _ _ _ _ _) as [s' [ds|e|e]] eqn:Ec in P; [|discriminate P|discriminate P]. apply compiled_ok in Ec. subst s'.
  destruct m as [ps single]. cbn [m_set] in *.
  assert (Ls : forall d files f, In (d, files) (ps_files ps) -> has_prefix d (ps_dir ps) = true -> In f files -> listed (here r) (cfg_dir (ps_config ps)) f).
  { intros d files x I1 Hp I2. rewrite Hr. destruct (Fc _ _ _ I1 I2) as (If & (ds1 & rs & Od & Ors & Ed & Ep & _) & Pd & Sh).
    assert (Nn : ~ within (pf_path x) cwd).
    { destruct (se_files _ _ _ _ _ _ _ _ S d files I1 Hp) as (_ & X). destruct (proj1 (X (pf_path x)) (in_map _ _ _ I2)) as (_ & n & Hn & Sn). exact (Na n _ Hn Sn). }
    assert (Op : clean_abs (pf_path x)) by (rewrite Ep; exists (ds1 ++ rs); split; [now apply ok_comps_app|reflexivity]).
    split; [exact Op|]. split; [|split; [|split; [exact Sh|symmetry; exact (eq_sym (shown_base _ _ _ Cl Sh Nn))]]].
    - intros Eq. destruct If as [(X & _)|(_ & dd & Odd & Pdd & [(Ng & Cf)|(_ & k & Ok & -> & Cf)])]; [now destruct X| |].
      + destruct Cf as [(X & _)|(a & file & e & (b & Eab & _) & _ & _ & (_ & Be))]; [contradiction|]. rewrite (be_dir _ _ _ _ _ Be) in Eq. subst dd. apply ok_comps_app in Odd as (Oa & Ob).
        rewrite Eq in Pdd, Nn. destruct a as [|z a] using rev_ind; [apply Nn; destruct Cl as (cc & Oc & ->); exists [], cc; split; [constructor|]; auto|].
        clear IHa. apply ok_comps_app in Oa as (Oa & Oz). inversion Oz as [|? ? Hz _]; subst. rewrite path_dir_abs in Pdd by assumption.
        apply abs_path_inj in Pdd; [|assumption|now rewrite !ok_comps_app]. apply (f_equal (@length string)) in Pdd. rewrite !app_length in Pdd. cbn in Pdd. lia.
      + apply Nn. rewrite Eq. destruct Cf as [(_ & (_ & Be))|(a & file & e & (b & Eab & _) & _ & _ & (_ & Be))]; rewrite (be_dir _ _ _ _ _ Be); [apply within_refl; exists k; auto|].
        subst k. apply ok_comps_app in Ok as (Oa & Ob). exists a, b. auto.
    - intros Eq. apply Nn. rewrite Eq. destruct Cl as (cc & Oc & ->). exists [], cc. split; [constructor|]. auto. }
  destruct (LintCmd_Proofs.ignores_silence (w_order w) (w_order w) (here r) (w_parse w) (w_singularize w) (w_encode_ignores w) ps single (mk_io (io_disk s) (io_done s ++ [Compiled false])) s2 V V Nk Cr) as (ps0 & fs & is & entries & H1 & H2 & H3 & H4 & H5 & H6).
  { rewrite (be_dir _ _ _ _ _ Tk0). exact Cd0. }
  { exact Ls. }
  { exact P. }
  exists is, entries. subst s2. cbn [io_disk io_done] in *. split; [reflexivity|]. split; [now rewrite <- app_assoc|]. split.
  { destruct H4 as [(-> & ->)|(_ & X)]; [left|now right]. split; [|reflexivity]. destruct H3 as (_ & I1 & I2). destruct is as [|i is]; [reflexivity|]. exfalso.
    destruct (I1 i (or_introl eq_refl)) as (X & _). destruct (ei_files i) as [|rel q] eqn:Ei; [now destruct X|].
    destruct (proj1 (I2 (ei_id i) rel)) as (z & [] & _). exists i. split; [now left|]. split; [reflexivity|]. rewrite Ei. now left. }
  intros n p d a file e s3 cl c ci sc ll l li Hn Sh Od Pd Ne Th De Hh Sd De3 Mc Wc Dc Ec3 Ml Wl Sl Al Mo.
  assert (Oa : ok_comps a). { destruct Ne as (b & Eb & _). rewrite Eb in Od. apply ok_comps_app in Od. exact (proj1 Od). }
  pose proof (proj1 Th) as Ia.
  (* what is found now *)
  destruct (found_like w r file (io_disk s) (io_disk s3) args (mk_meta ps single)) as (m3 & F3 & Sg & Pl).
  { intros x X. symmetry. exact (Sd x X). }
  { exists e, is. split; [exact (proj2 (external_decoded _ _ _ a _ _ Oa Ia) De)|]. exists (with_entries is e). split; [exact (proj2 (external_decoded _ _ _ a _ _ Oa Ia) De3)|]. split; reflexivity. }
  { exact Hh. }
  { exact F. }
  cbn [m_set m_single] in *. apply plain_ignoring in Pl as Ig.
  destruct (found_config w V So Nm St r Cr _ _ _ F3) as (Fc3 & _). rewrite Hr, Da in Fc3. rewrite (ig_files _ _ _ Ig) in Fc3.
  assert (Ex : forall x, exists_at w (io_disk s) x = exists_at w (io_disk s3) x).
  { intros x. unfold exists_at. destruct (string_dec x file) as [->|N]; [|rewrite (Sd x N); reflexivity]. assert (X1 : exists v, io_disk s file = Ok v) by (destruct De as [(-> & _)|(v & -> & _)]; eauto).
    assert (X2 : exists v, io_disk s3 file = Ok v) by (destruct De3 as [(-> & _)|(v & -> & _)]; eauto). destruct X1 as (? & ->), X2 as (? & ->). reflexivity. }
  assert (Ri : Settings_Spec.ignores_of (cfg_dir (ps_config ps)) is (lc_ignores (cfg_lint (ps_config (m_set m3))))).
  { destruct (se_in _ _ _ _ _ _ _ _ S n p Hn Sh) as (files & I1 & Hp & I2). cbn [m_set] in I1. apply in_map_iff in I2 as (x & <- & I2). destruct (Fc3 _ _ _ I1 I2) as (If & _).
    destruct If as [(X & _)|(_ & dd & Odd & Pdd & Cs)]; [now destruct X|]. rewrite Pd in Pdd. apply abs_path_inj in Pdd; try assumption. subst dd.
    pose proof (nearest_ext _ _ _ _ Ex Ne) as Ne3. pose proof (the_config_ext _ _ _ _ Ex Th) as Th3. pose proof (nearest_not_empty _ _ _ _ Od Ne3 Th3) as Ng.
    destruct Cs as [(_ & Cf)|(X & _)]; [|contradiction]. destruct Cf as [(X & _)|(a' & file' & e' & Na' & Ta' & De' & (_ & Be))]; [contradiction|].
    rewrite (nearest_fun _ _ _ _ Na' Ne3) in *. rewrite (the_config_fun _ _ _ _ Ta' Th3) in *. rewrite (decoded_fun _ _ _ _ _ _ _ Oa Ia De' De3) in Be.
    rewrite <- (ig_config _ _ _ Ig), (be_dir _ _ _ _ _ Be). destruct (be_lint _ _ _ _ _ Be) as (_ & _ & _ & _ & X & _). exact X. }
  (* the run of compile *)
  pose proof (alike_options w _ _ Al) as Ao.
  destruct (line_is w cl c ci args G Mc) as (kc & Kc & Lc). rewrite Lc in Ec3. clear Lc. unfold asked in Kc. rewrite Wc, Dc in Kc. injection Kc as <-. rewrite <- Ao in Ec3.
  destruct (line_is w ll l li args G Ml) as (kl & Kl & Ll). rewrite Ll. clear Ll. unfold asked in Kl. rewrite Wl in Kl.
  injection Mo as U1 U2 U3 U4 U5 U6. rewrite negb_false_iff in U4, U5. apply String.eqb_eq in U4, U5. rewrite U1, U2, U3, U4, U5, U6 in Kl. injection Kl as <-.
  destruct (the_options w li) as [r3|] eqn:Or3; [|rewrite no_options in Ec3; discriminate Ec3]. rewrite with_options in Ec3 |- *.
  assert (Sg2 : same_settings gi li) by (destruct Sm as (A1 & A2), Sl as (B1 & B2); split; congruence).
  destruct (options_files _ _ _ _ _ _ Wd Sg2 Or Or3) as (_ & Sr). assert (Hr3 : here r3 = here r) by apply Sr.
  assert (F3' : found (here r3) (w_stat w) (provider w r3 (io_disk s3)) args m3).
  { rewrite Hr3. destruct F3 as [ps3 A B|ps3 A B]; [apply FoundDirectory|apply FoundFile]; try exact A; rewrite (provider_runner w r3 r) by exact Sr; exact B. }
  apply process_value in Ec3 as ([] & Ec3).
  change (compile_cmd (here r3) (here r3) (r_error_format r3) (r_json r3) Json_Model.failure_json (w_stat w) (provider w r3 (io_disk s3)) file_set (the_compiler w r3) (the_commands w r3) args false s3 = (sc, Value tt)) in Ec3.
  unfold compile_cmd in Ec3. unfold and_then at 1 in Ec3. rewrite (get_meta_found _ _ _ _ _ _ F3') in Ec3. unfold and_then in Ec3.
  destruct (compile _ _ _ _ _ _ _ _ _ _ _ _) as [s' [ds3|x|x]] eqn:Ec' in Ec3; [|discriminate Ec3|discriminate Ec3]. clear Ec3.
  destruct (compile_fields _ _ _ _ _ _ _ _ _ _ _ _ Ec') as (fields & Fl). pose proof (compiled_ok _ _ _ _ _ _ _ _ _ _ _ _ Ec'). subst s'.
  (* the run of lint *)
  rewrite (process_same _ _ s3 (lint_is w r3 args false false false "" "" false s3)). unfold process.
  match goal with |- context [LintCmd_Model.lint_cmd ?a1 ?a2 ?a3 ?a4 ?a5 ?a6 ?a7 ?a8 ?a9 ?b1 ?b2 ?b3 ?b4 ?b5 ?b6 args false false false "" "" false s3] =>
    assert (X : LintCmd_Model.lint_cmd a1 a2 a3 a4 a5 a6 a7 a8 a9 b1 b2 b3 b4 b5 b6 args false false false "" "" false s3 = (mk_io (io_disk s3) (io_done s3 ++ [Compiled false]), Value tt)); [|rewrite X; reflexivity] end.
  unfold LintCmd_Model.lint_cmd. change (more_than_one_set [false; false; false; negb (is_empty ""); negb (is_empty ""); false]) with false. cbn iota.
  change (negb (is_empty "")) with false. cbn iota. unfold and_then at 1. rewrite (get_meta_found _ _ _ _ _ _ F3'). unfold and_then. rewrite Ec'.
  unfold lint, and_then. cbn [io_disk]. rewrite (run_lint_disk _ _ _ _ (io_disk s3) (io_disk s)); [|exact V|].
  - rewrite Hr3, (H6 _ _ Ri Ig). cbn [Exec_Model.check ret]. unfold report, print_failures, print_failures_for, and_then. rewrite Fl. reflexivity.
  - intros dir files x I1 I2. apply Sd. intros Eq. rewrite (ig_files _ _ _ Ig) in I1.
    assert (Pi : protos_in (ps_files (m_set (mk_meta ps single)))) by (destruct F as [ps' A B|ps' A B]; exact (found_protos _ _ _ _ _ _ (fun pl T l x I => Permutation_in _ (Permutation_sym (V pl T l)) I) B)).
    pose proof (protos_of _ _ _ _ Pi I1 I2) as Xp. rewrite Eq in Xp. destruct Ia as [Y|[Y|[]]]; rewrite <- Y in Xp; [rewrite ext_yaml in Xp|rewrite ext_json in Xp]; discriminate Xp.
Qed.
Print Assumptions C101_silenced.

(** ** Example: two rules, and files that break both. *)
Definition exw16_config : external_config :=
  mk_external_config [] false "3.8.0" [] [] "" [] true ["FILE_OPTIONS_REQUIRE_GO_PACKAGE"; "PACKAGE_IS_DECLARED"] [] (mk_ext_header "" "" false) "" false false false "" [] [].
Definition exw16_ignores : list ext_ignore := [mk_ext_ignore "FILE_OPTIONS_REQUIRE_GO_PACKAGE" ["a.proto"; "b/bad.proto"]; mk_ext_ignore "PACKAGE_IS_DECLARED" ["a.proto"; "b/bad.proto"]].
Definition exw16_encode (is : list ext_ignore) : string := String.concat " " (map (fun i => ei_id i +++ ":" +++ String.concat "," (ei_files i)) is).
Definition exw16_printed : string := "FILE_OPTIONS_REQUIRE_GO_PACKAGE:a.proto,b/bad.proto PACKAGE_IS_DECLARED:a.proto,b/bad.proto".
Definition exw16 : world := mk_world "linux" "amd64" "go1.13" (fun v => if String.eqb v "HOME" then "/home" else "") (Ok "/w") (fun s => if String.eqb s "3s" then Ok 3%Z else Err "bad time")
  (fun s => Ok [s]) (fun _ => "usage") (fun _ => "help") (fun _ => "") (fun _ => "topic")
  (fun _ A l => l) exw12_stat exw12_node (fun _ => None) (fun _ _ => None) (fun _ => None) (Ok "/tmp/f") (Ok "/tmp/d") (fun _ => Err "not found")
  (fun _ _ => None) (fun _ => Err "no json") (fun t => Ok (if String.eqb t exw16_printed then with_entries exw16_ignores exw16_config else exw16_config)) (fun is => Ok (exw16_encode is))
  Settings_Proofs2.by_name (fun l => l) (fun l => l) (fun _ _ => Ok []) (fun s => s) (fun _ _ _ => Ok "")
  (fun _ => Ok tt) (fun s => s) (fun _ => NotExist) exw12_temp (fun _ _ => Protoc_Model.Ended "" Protoc_Model.NoError)
  exw12_set (fun n => rev (seq 0 n)) (fun _ n => n) (fun s => s) Props_PackageCmd.kx_marshal Props_PackageCmd.kx_jsonpb Props_PackageCmd.kx_unmarshal
  (fun _ => Ok tt) (fun _ => Ok tt) (fun _ => Ok tt) (fun _ => Ok tt) (fun _ => Ok tt) (fun _ _ => ([], None)).
Definition exw16_after : io := mk_io (fun p => if String.eqb p "/w/prototool.yaml" then Ok exw16_printed else io_disk exw8_s p) [].
Definition exw16_seen (l : list string) (s : io) : list event * Z := let x := main exw16 l s in (io_done (fst x), snd x).
Example C101_ex : ordinary exw16 "/w" /\ sorts (w_sort_plugins exw16) /\
  means (w_read_csv exw16) ["lint"; "--generate-ignores"] (exw_command ["lint"]) [Given "generate-ignores" LongAlone "true"] [] /\
  modes [Given "generate-ignores" LongAlone "true"] = [false; false; false; false; false; true] /\
  exw16_seen ["files"] exw8_s = (Main_Spec.shown ["a.proto"; "b/bad.proto"], 0%Z) /\
  snd (exw16_seen ["lint"] exw8_s) = 255%Z /\
  exw16_seen ["lint"; "--generate-ignores"] exw8_s = ([Compiled false; Printed (exl exw16_printed)], 0%Z) /\
  (forall y, File_Spec.shown "/w" y "a.proto" \/ File_Spec.shown "/w" y "b/bad.proto" -> ~ within y "/w") /\
  nearest (exists_at exw16 (io_disk exw8_s)) ["w"] ["w"] /\ the_config (exists_at exw16 (io_disk exw8_s)) ["w"] "/w/prototool.yaml" /\
  decoded (io_disk exw8_s) (w_decode_json exw16) (w_decode_yaml exw16) ["w"] "/w/prototool.yaml" exw16_config /\
  (forall data e, w_decode_json exw16 data = Ok e \/ w_decode_yaml exw16 data = Ok e -> header_not_from "/w/prototool.yaml" e) /\
  decoded (io_disk exw16_after) (w_decode_json exw16) (w_decode_yaml exw16) ["w"] "/w/prototool.yaml" (with_entries exw16_ignores exw16_config) /\
  exw16_seen ["compile"] exw16_after = ([Compiled false], 0%Z) /\ exw16_seen ["lint"] exw16_after = ([Compiled false], 0%Z).
Proof.
  split; [|split; [exact Settings_Proofs2.by_name_sorts|]].
  { destruct (exw12_ordinary true) as (V & G & Wd & Cl & Nm & St). exact (conj V (conj G (conj Wd (conj Cl (conj Nm St))))). }
  split; [means_now|]. split; [reflexivity|]. split; [vm_compute; reflexivity|]. split; [vm_compute; reflexivity|]. split; [vm_compute; reflexivity|]. split; [|split; [|split; [|split; [|split; [|split; [|split; vm_compute; reflexivity]]]]]].
  - assert (Ow : ok_comps ["w"]) by (repeat constructor; discriminate).
    intros y [(_ & _ & E)|(_ & _ & E)] (a & b & Oa & Ob & Ya & Yb); vm_compute in E; subst y;
      [change "/w/a.proto" with (abs_path ["w"; "a.proto"]) in Ya|change "/w/b/bad.proto" with (abs_path ["w"; "b"; "bad.proto"]) in Ya];
      (apply abs_path_inj in Ya; [|repeat constructor; discriminate|assumption]); subst a; change "/w" with (abs_path ["w"]) in Yb;
      (apply abs_path_inj in Yb; [discriminate Yb|assumption|now apply ok_comps_app]).
  - exists []. split; [reflexivity|]. split; [intros N; specialize (N "/w/prototool.yaml"); discriminate N; cbn; tauto|]. intros [|? ?] b2 E N; [now destruct N|discriminate E].
  - split; [cbn; tauto|]. split; [reflexivity|]. intros q [<-|[<-|[]]] X; vm_compute in X |- *; first [discriminate X|reflexivity].
  - right. exists "text". split; [reflexivity|]. split; [discriminate|]. right. split; reflexivity.
  - intros data e [X|X]; [discriminate X|]. cbn in X. intros N. exfalso. apply N. destruct (String.eqb data exw16_printed); injection X as <-; reflexivity.
  - right. exists exw16_printed. split; [reflexivity|]. split; [discriminate|]. right. split; reflexivity.
Qed.
