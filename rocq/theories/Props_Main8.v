(** C89: lint ends with 0 exactly if the files that are listed obey the rules that their
    configuration selects. *)
From Coq Require Import Permutation.
From Verif Require Settings_Proofs2 Grpc_Proofs3 Props_Lint Lint_Model.
From Verif Require Import GoStrFacts GoPathFacts Settings_Spec File_Spec Exec_Spec Exec_Proofs Exec_Proofs3 Cmd_Spec LintRun_Spec Main_Model Main_Spec Main_Spec2 Main_Proofs Main_Proofs2 Main_Proofs6 Main_Proofs7
  Main_Proofs10 Main_Proofs11 Props_Main Props_Main2 Props_Main3 Props_Main4 Props_Main7.

Lemma lint_line_method w r args s : 
  Main_Model.method w r (CallLint args false false false "" "" false) s =
  (run m <- get_meta (here r) (w_stat w) (provider w r (io_disk s)) args;
   compile (here r) (r_error_format r) (r_json r) Json_Model.failure_json file_set (the_compiler w r) (the_commands w r) false false false m ;;
   lint (here r) (r_error_format r) (r_json r) Json_Model.failure_json (the_lint w r) m) s.
Proof. reflexivity. Qed.
Lemma report_clean cwd format json to_json m fs s s' : report cwd format json to_json m fs s = (s', Value tt) -> fs = [].
Proof. unfold report, and_then. destruct fs as [|f fs]; [reflexivity|]. destruct (print_failures _ _ _ _ _ _ _ _) as [? []]; discriminate. Qed.
Lemma report_none cwd format json to_json m s s' : report cwd format json to_json m [] s = (s', Value tt) -> forall t, report cwd format json to_json m [] t = (t, Value tt).
Proof.
  unfold report, print_failures, print_failures_for. cbn [map filter sort_failures]. unfold and_then, Exec_Model.check, ret, fail.
  destruct (parse_colon_separated_failure_fields format) as [fields|]; cbn; [reflexivity|discriminate].
Qed.
Lemma inside_within a b : inside a b -> within a b.
Proof. intros (ds & rs & H1 & H2 & -> & -> & _). exists ds, rs. auto. Qed.

Theorem C89_lint : forall w cwd args fl f fi s s1, ordinary w cwd -> sorts (w_sort_plugins w) ->
  (forall p data es, w_parse w p data = Ok es -> well_formed es) ->
  means (w_read_csv w) fl f fi args -> c_words f = ["files"] -> main w fl s = (s1, 0%Z) ->
  exists names, io_done s1 = io_done s ++ Main_Spec.shown names /\
    forall ll l li s2 z, means (w_read_csv w) ll l li args -> c_words l = ["lint"] -> same_settings fi li ->
      (forall name, In name ["generate-ignores"; "list-all-lint-groups"; "list-all-linters"; "list-linters"] -> on li name = false) ->
      text li "list-lint-group" = "" -> text li "diff-lint-groups" = "" -> main w ll s = (s2, z) ->
    exists set, let c := ps_config set in
      (forall n, In n names -> exists p, File_Spec.shown cwd p n /\ in_force w (io_disk s) cwd (text li "config-data") p c) /\
      (z = 0%Z -> known_names (cfg_lint c) /\ exists ds, on_disk w (io_disk s) cwd set names ds) /\
      forall ds, on_disk w (io_disk s) cwd set names ds -> (forall d, In d ds -> presupposed (w_singularize w) c d) ->
        (z = 0%Z -> forall id, selected (cfg_lint c) id -> ~ breaks (w_singularize w) cwd c id ds) /\
        (known_names (cfg_lint c) -> (forall id, selected (cfg_lint c) id -> ~ breaks (w_singularize w) cwd c id ds) ->
         (exists cl cc ci, means (w_read_csv w) cl cc ci args /\ c_words cc = ["compile"] /\ on ci "dry-run" = false /\ alike ci li /\ snd (main w cl s) = 0%Z) ->
         z = 0%Z).
Proof.
  intros w cwd args fl f fi s s1 (V & G & Wd & Cl & Nm & St) So Wp Mf Wf Ef.
  destruct (line_is w fl f fi args G Mf) as (kf & Kf & Lf). rewrite Lf in Ef. clear Lf. unfold asked in Kf. rewrite Wf in Kf. injection Kf as <-.
  destruct (the_options w fi) as [r0|m] eqn:Or0; [|rewrite no_options in Ef; discriminate Ef]. rewrite with_options in Ef.
  apply process_value in Ef as ([] & Ef).
  assert (Hr0 : here r0 = cwd) by (eapply options_files; [exact Wd| |exact Or0|exact Or0]; split; reflexivity).
  assert (Cr0 : clean_abs (here r0)) by now rewrite Hr0.
  destruct (files_shows w V Nm St r0 Cr0 args s s1 Ef) as (m & names & F & -> & I). exists names. split; [reflexivity|].
  intros ll l li s2 z Ml Wl Sm Ol T1 T2 El. destruct (line_is w ll l li args G Ml) as (k & K & Ll). rewrite Ll in El. clear Ll.
  unfold asked in K. rewrite Wl, T1, T2, !Ol in K by (cbn; tauto). injection K as <-.
  destruct (options_some _ _ _ _ _ Wd Sm Or0) as (r & Or). rewrite Or, with_options in El.
  destruct (options_files _ _ _ _ _ _ Wd Sm Or0 Or) as (_ & Sr).
  assert (Hr : here r = cwd) by (rewrite <- Hr0; apply Sr). assert (Cr : clean_abs (here r)) by now rewrite Hr.
  assert (Fr : found (here r) (w_stat w) (provider w r (io_disk s)) args m).
  { rewrite Hr, <- Hr0. destruct F as [ps A B|ps A B]; [apply FoundDirectory|apply FoundFile]; try exact A; rewrite (provider_runner w r r0) by exact Sr; exact B. }
  assert (Da : r_config_data r = text li "config-data").
  { clear - Or Wd. unfold the_options in Or. rewrite Wd in Or. destruct (if String.eqb _ _ then _ else _) in Or; [|discriminate Or]. cbn [bind] in Or. injection Or as <-. reflexivity. }
  destruct (found_config w V So Nm St r Cr _ _ _ Fr) as (Fc & (e & dd & Cd & (_ & Tk)) & Nd). rewrite Hr, Da in Fc.
  assert (Keys : NoDup (map fst (lc_ignores (cfg_lint (ps_config (m_set m)))))) by (destruct (be_lint _ _ _ _ _ Tk) as (_ & _ & _ & _ & (X & _) & _); exact X).
  assert (Files : forall d l f, In (d, l) (ps_files (m_set m)) -> In f l ->
    File_Spec.shown cwd (pf_path f) (pf_display f) /\ absolute_name cwd (pf_display f) = pf_path f /\ within (cfg_dir (ps_config (m_set m))) (pf_path f) /\ path_dir (pf_path f) = d).
  { intros d0 l0 f0 H1 H2. destruct (Fc d0 l0 f0 H1 H2) as (_ & In_ & Pd & Sh). split; [exact Sh|]. split; [now apply shown_absolute|]. split; [now apply inside_within|exact Pd]. }
  assert (Lm : forall t, io_disk t = io_disk s -> get_meta (here r) (w_stat w) (provider w r (io_disk s)) args t = (t, Value m)) by (intros t _; now apply get_meta_found).
  exists (m_set m). cbv zeta.
  split.
  { intros n Hn. apply I in Hn as (g & (d0 & l0 & B1 & B2 & _) & <-). destruct (Fc _ _ _ B1 B2) as (A1 & _ & _ & A2). eauto. }
  assert (Zero : z = 0%Z -> the_lint w r (io_disk s) (m_set m) false = Ok []).
  { intros ->. apply process_value in El as ([] & El). rewrite lint_line_method in El. unfold and_then at 1 in El. rewrite Lm in El by reflexivity. unfold and_then at 1 in El.
    destruct (compile _ _ _ _ _ _ _ _ _ _ _ _) as [sc [u|?|?]] eqn:C; try discriminate El.
    apply compiled_ok in C. subst sc. unfold lint, and_then in El. cbn [io_disk] in El. destruct (the_lint w r (io_disk s) (m_set m) false) as [fs|]; [|discriminate El].
    cbn in El. now apply report_clean in El as ->. }
  split.
  - intros Z. assert (Lt := Zero Z). subst z. split.
    + unfold the_lint, LintCmd_Model.run_lint in Lt. pose proof (Props_Lint.C12_run (w_order w) (w_singularize w) (here r) (LintCmd_Model.read_proto (w_parse w) (io_disk s)) (m_set m) false V Nd) as R.
      destruct (Lint_Model.lint_run _ _ _ _ _ _ _ _) as [fs|]; [|discriminate Lt]. now destruct R as (x & _ & R & _).
    + apply process_value in El as ([] & El). pose proof (lint_parsed w V r r args m s s2 (conj eq_refl (conj eq_refl eq_refl)) Fr El) as Ps.
      set (fs := Exec_Proofs3.visited (w_order w) "" (m_set m)).
      assert (Ifs : forall g, In g fs <-> below (m_set m) g) by (intros g; apply (visited_in (w_order w) "" _ g V)).
      destruct (Grpc_Proofs3.mapM_all (Lint_Model.read_descriptor (LintCmd_Model.read_proto (w_parse w) (io_disk s)) (m_set m) false) fs) as (ds & M).
      { intros g Hg. apply Ifs, Ps in Hg as (data & els & R1 & R2). unfold Lint_Model.read_descriptor, LintCmd_Model.read_proto. rewrite R1. cbn [bind]. rewrite R2. cbn [bind]. eauto. }
      pose proof (Grpc_Proofs3.mapM_ok _ _ _ M) as Id. exists ds.
      assert (Rd : forall g d, below (m_set m) g -> Lint_Model.read_descriptor (LintCmd_Model.read_proto (w_parse w) (io_disk s)) (m_set m) false g = Ok d ->
        d_filename d = pf_display g /\ d_set d = m_set m /\ exists p, File_Spec.shown cwd p (d_filename d) /\ io_disk s p = Ok (d_data d) /\ w_parse w p (d_data d) = Ok (d_elements d)).
      { intros g d (d0 & l0 & B1 & B2 & _) R. unfold Lint_Model.read_descriptor, LintCmd_Model.read_proto in R. destruct (io_disk s (pf_path g)) as [data|] eqn:R1; [|discriminate R]. cbn [bind] in R.
        destruct (w_parse w (pf_path g) data) as [els|] eqn:R2; [|discriminate R]. cbn [bind fst snd] in R. injection R as <-. cbn. split; [reflexivity|]. split; [reflexivity|]. exists (pf_path g). split; [now apply (Files d0 l0)|auto]. }
      split.
      * intros n. rewrite in_map_iff, (I n). split.
        -- intros (g & B & <-). assert (Q := Ps g B). destruct Q as (data & els & R1 & R2).
           assert (exists d, Lint_Model.read_descriptor (LintCmd_Model.read_proto (w_parse w) (io_disk s)) (m_set m) false g = Ok d) as (d & R).
           { unfold Lint_Model.read_descriptor, LintCmd_Model.read_proto. rewrite R1. cbn [bind]. rewrite R2. cbn [bind]. eauto. }
           exists d. split; [now apply Rd|]. apply Id. exists g. split; [now apply Ifs|exact R].
        -- intros (d & <- & Hd). apply Id in Hd as (g & Hg & R). apply Ifs in Hg. exists g. split; [exact Hg|]. symmetry. now apply Rd.
      * intros d Hd. apply Id in Hd as (g & Hg & R). apply Ifs in Hg. now apply (Rd g d Hg R).
  - intros ds Ds Pr. 
    assert (Well : forall d, In d ds -> well_formed (d_elements d) /\ presupposed (w_singularize w) (ps_config (m_set m)) d).
    { intros d Hd. split; [|now apply Pr]. destruct Ds as (_ & Ds). destruct (Ds d Hd) as (_ & p & _ & _ & P). exact (Wp _ _ _ P). }
    pose proof (run_clean w V cwd (io_disk s) (m_set m) Keys Nd Files names I ds Ds Well) as Rc.
    assert (Lt : the_lint w r (io_disk s) (m_set m) false = LintCmd_Model.run_lint (w_order w) cwd (w_parse w) (w_singularize w) (io_disk s) (m_set m) false) by (unfold the_lint; now rewrite Hr).
    rewrite <- Lt in Rc. split.
    + intros Z id Sel Br. rewrite (Zero Z) in Rc. destruct Rc as [((fs & [= <-] & X) & _)|((e' & ?) & _)]; [|discriminate]. apply (proj1 X eq_refl). eauto.
    + intros Kn Ob (cl & cc & ci & Mc & Wc & Dc & Al & Ec). destruct Rc as [((fs & Lf & X) & _)|(_ & N)]; [|contradiction].
      rewrite (proj2 X) in Lf by (intros (id & Sel & Br); exact (Ob id Sel Br)). clear X.
      destruct (line_is w cl cc ci args G Mc) as (k & K & L). rewrite L in Ec. clear L. unfold asked in K. rewrite Wc, Dc in K. injection K as <-.
      rewrite (alike_options w _ _ Al), Or, with_options in Ec.
      destruct (process _ s) as [s3 z3] eqn:E3 in Ec. cbn [snd] in Ec. subst z3. apply process_value in E3 as (u & E3).
      revert E3. unfold Main_Model.method, compile_cmd. unfold and_then at 1. rewrite Lm by reflexivity. unfold and_then.
      destruct (compile _ _ _ _ _ _ _ _ _ _ m s) as [s4 [v|?|?]] eqn:C; [|discriminate..]. intros _.
      assert (Q : Main_Model.method w r (CallLint args false false false "" "" false) s = (s4, Value tt)).
      { rewrite lint_line_method. unfold and_then at 1. rewrite Lm by reflexivity. unfold and_then at 1. rewrite C.
        assert (C2 := C). apply compiled_ok in C2. subst s4. unfold lint, and_then. cbn [io_disk]. rewrite Lf. cbn [Exec_Model.check ret].
        revert C. unfold compile, do_compile, and_then, emit. cbn [io_disk]. destruct (the_compiler w r false false None (io_disk s) (m_set m)) as [[fs' d']|e']; [|discriminate].
        cbn [Exec_Model.check ret fst snd]. destruct (report _ _ _ _ m fs' _) as [s5 [[]|?|?]] eqn:R; [|discriminate..]. intros _.
        assert (R2 := R). apply report_clean in R2. subst fs'. exact (report_none _ _ _ _ _ _ _ R _). }
      unfold process in El. rewrite Q in El. now injection El as _ <-.
Qed.
Print Assumptions C89_lint.
(** A tree with a configuration that selects the rules of a group and silences one of them
    below /w/b; there, and only there, a message breaks it. *)
Definition exw8_config (silence : bool) : external_config :=
  mk_external_config [] false "" [] [] "Google" (if silence then [mk_ext_ignore "message_names_camel_case" ["b"]; mk_ext_ignore "MESSAGE_NAMES_CAPITALIZED" ["b"]] else []) false [] []
    (mk_ext_header "" "" false) "" false false false "" [] [].
Definition exw8_node (p : string) : node :=
  if String.eqb p "/w" then NDir [("a.proto", NFile); ("b", NDir [("bad.proto", NFile)]); ("prototool.yaml", NFile)]
  else if String.eqb p "/w/b" then NDir [("bad.proto", NFile)] else if mem p ["/w/a.proto"; "/w/b/bad.proto"; "/w/prototool.yaml"] then NFile else NBroken.
Definition exw8_stat (p : string) : result file_kind :=
  if mem p ["/w"; "."; "/w/b"] then Ok Exec_Model.Directory else if mem p ["/w/a.proto"; "/w/b/bad.proto"; "/w/prototool.yaml"] then Ok Exec_Model.Regular else Err "no such file".
Definition exw8_message (name : string) : list element := [EMessage (mk_header (mk_pos 2 1) name None) false []].
Definition exw8 : world := mk_world "linux" "amd64" "go1.13" (fun v => if String.eqb v "HOME" then "/home" else "") (Ok "/w") (fun s => if String.eqb s "3s" then Ok 3%Z else Err "bad time")
  (fun s => Ok [s]) (fun _ => "usage") (fun _ => "help") (fun _ => "") (fun _ => "topic")
  (fun _ A l => l) exw8_stat exw8_node (fun _ => None) (fun _ _ => None) (fun _ => None) (Ok "/tmp/f") (Ok "/tmp/d") (fun _ => Err "not found")
  (fun _ _ => None) (fun _ => Ok (exw8_config false)) (fun _ => Ok (exw8_config true)) (fun _ => Ok "")
  Settings_Proofs2.by_name (fun l => l) (fun l => l) (fun p _ => Ok (exw8_message (if String.eqb p "/w/b/bad.proto" then "bad_name" else "Good"))) (fun s => s) (fun _ _ _ => Ok "")
  (fun _ => Ok tt) (fun s => s) (fun _ => NotExist) (fun _ => Ok "/tmp/p") (fun _ _ => Protoc_Model.Ended "" Protoc_Model.NoError)
  (fun _ _ _ => Ok []) (fun n => seq 0 n) (fun _ n => n) (fun s => s) (fun _ => Ok "") (fun _ => Ok "") (fun _ => Ok [])
  (fun _ => Ok tt) (fun _ => Ok tt) (fun _ => Ok tt) (fun _ => Ok tt) (fun _ => Ok tt) (fun _ _ => ([], None)).
Definition exw8_s : io := mk_io (fun p => if mem p ["/w/a.proto"; "/w/b/bad.proto"; "/w/prototool.yaml"] then Ok "text" else Err "no such file") [].
Example C89_lint_ex : ordinary exw8 "/w" /\ sorts (w_sort_plugins exw8) /\ (forall p data es, w_parse exw8 p data = Ok es -> well_formed es) /\
  means (w_read_csv exw8) ["files"] exw_files [] [] /\
  fst (main exw8 ["files"] exw8_s) = mk_io (io_disk exw8_s) (Main_Spec.shown ["a.proto"; "b/bad.proto"]) /\
  snd (main exw8 ["lint"] exw8_s) = 0%Z /\ snd (main exw8 ["compile"] exw8_s) = 0%Z /\
  snd (main exw8 ["lint"; "--config-data"; "{}"] exw8_s) = 255%Z.
Proof.
  split.
  { split; [intros place A l; apply Permutation_refl|]. split; [now right|]. split; [reflexivity|]. split; [exists ["w"]; split; [repeat constructor|reflexivity]|].
    split; [|intros k; discriminate]. intros p. cbn. unfold exw8_node.
    assert (B : File_Spec.named (NDir [("bad.proto", NFile)])).
    { constructor; [repeat constructor|repeat constructor; cbn; intuition discriminate|]. intros n c [[= <- <-]|[]]; constructor. }
    destruct (String.eqb p "/w"); [|destruct (String.eqb p "/w/b"); [exact B|destruct (mem p _); constructor]].
    constructor; [repeat constructor|repeat constructor; cbn; intuition discriminate|]. intros n c [[= <- <-]|[[= <- <-]|[[= <- <-]|[]]]]; [constructor|exact B|constructor]. }
  split; [exact Settings_Proofs2.by_name_sorts|]. split.
  { intros p data es E. cbn in E. injection E as <-. destruct (String.eqb p _); Props_Lint.wf. }
  split; [exists None; split; [cbn; tauto|]; split; [constructor|]; split; [reflexivity|]; split; [split; cbn; auto with arith|reflexivity]|].
  split; [vm_compute; reflexivity|]. split; [vm_compute; reflexivity|]. split; vm_compute; reflexivity.
Qed.
(** The rules of that group presuppose nothing. *)
Example C89_lint_ex_presupposed : forall sing c d, lc_group (cfg_lint c) = "google" -> lc_include_ids (cfg_lint c) = [] -> presupposed sing c d.
Proof.
  intros sing c d Gr In_ id Sel.
  assert (Hid : mem id (map fst (filter (fun r => mem "google" (snd r)) documented_rules)) = true).
  { destruct Sel as ([[(_ & gs & H & Hg)|(X & _)]|X] & _).
    - rewrite Gr in Hg. apply mem_In, in_map_iff. exists (id, gs). split; [reflexivity|]. apply filter_In. split; [exact H|]. now apply mem_In.
    - rewrite Gr in X. discriminate X.
    - rewrite In_ in X. destruct X. }
  assert (K : forall i, mem i (map fst (filter (fun r => mem "google" (snd r)) documented_rules)) = false -> id <> i) by (intros i H ->; congruence).
  split; [|split].
  - intros V A H. unfold rules_on_elements in H. repeat (apply in_app_iff in H as [H|H]);
      try (apply for_any_in in H as [_ ->]; exact Logic.I).
    + apply map_in_pair in H as [H _]. apply (in_map fst) in H. cbn [fst] in H. exfalso.
      assert (X : forallb (fun i => negb (mem i (map fst (filter (fun r => mem "google" (snd r)) documented_rules)))) (map fst sentence_comment_rules) = true) by (vm_compute; reflexivity).
      rewrite forallb_forall in X. apply X in H. rewrite Hid in H. discriminate H.
    + repeat (destruct H as [[= E _ _]|H]; [symmetry in E; revert E; intros E; exfalso; revert E; apply K; vm_compute; reflexivity|]). destruct H.
  - intros V A H. unfold rules_on_files in H. repeat (apply in_app_iff in H as [H|H]);
      try (apply for_any_in in H as [_ ->]; exact Logic.I).
    + apply map_in_pair in H as [H _]. apply (in_map fst) in H. cbn [fst] in H. exfalso.
      assert (X : forallb (fun i => negb (mem i (map fst (filter (fun r => mem "google" (snd r)) documented_rules)))) (map fst equal_rules) = true) by (vm_compute; reflexivity).
      rewrite forallb_forall in X. apply X in H. rewrite Hid in H. discriminate H.
    + apply map_in_pair in H as [H _]. apply (in_map fst) in H. cbn [fst] in H. exfalso.
      assert (X : forallb (fun i => negb (mem i (map fst (filter (fun r => mem "google" (snd r)) documented_rules)))) (map fst layout_rules) = true) by (vm_compute; reflexivity).
      rewrite forallb_forall in X. apply X in H. rewrite Hid in H. discriminate H.
    + destruct H as [[= _ _ <-]|[]]. exact Logic.I.
  - intros B A H. exfalso. apply (in_map (fun r => fst (fst r))) in H. cbn [fst] in H.
    assert (X : forallb (fun i => negb (mem i (map fst (filter (fun r => mem "google" (snd r)) documented_rules)))) (map (fun r => fst (fst r)) rules_on_directories) = true) by (vm_compute; reflexivity).
    rewrite forallb_forall in X. apply X in H. rewrite Hid in H. discriminate H.
Qed.
