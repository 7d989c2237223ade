(** C100: cache update and config init, for the whole program. *)
From Coq Require Import Permutation.
From Verif Require Settings_Proofs Settings_Proofs2 Props_Init Init_Spec Init_Model.
From Verif Require Import Lint_Purpose_Spec GoStrFacts GoPathFacts Settings_Spec File_Spec File_Proofs File_Proofs2 Exec_Spec Exec_Proofs Cmd_Spec Download_Spec Download_Proofs Lint_Spec LintRun_Spec LintCmd_Spec Main_Model Main_Spec Main_Spec2
  Main_Spec3 Main_Spec4 Main_Proofs Main_Proofs2 Main_Proofs5 Main_Proofs6 Main_Proofs7 Main_Proofs11 Main_Proofs16 Props_Main Props_Main2 Props_Main3 Props_Main4 Props_Main8 Props_Main10 Props_Main11 Props_Main12 Props_Main13 Props_Main14.

(** cache update downloads the release of protoc that the configuration of the listed files
    names into the place where compile looks for it; unless the environment has a protoc. *)
Theorem C100_update : forall w cwd args fl f fi ul u ui s s1 s2 z, ordinary w cwd -> sorts (w_sort_plugins w) ->
  means (w_read_csv w) fl f fi args -> c_words f = ["files"] -> main w fl s = (s1, 0%Z) ->
  means (w_read_csv w) ul u ui args -> c_words u = ["cache"; "update"] -> same_settings fi ui -> main w ul s = (s2, z) ->
  exists names c, io_done s1 = io_done s ++ Main_Spec.shown names /\
    (forall n, In n names -> exists p, File_Spec.shown cwd p n /\ in_force w (io_disk s) cwd (text ui "config-data") p c) /\ io_disk s2 = io_disk s /\
    let version := cc_protobuf_version (cfg_compile c) in
    let cache := if String.eqb (text ui "cache-path") "" then w_getenv w "PROTOTOOL_CACHE_PATH" else text ui "cache-path" in
    forall release, ok_comp release = true -> (version = "" -> release = "3.11.0") -> (version <> "" -> release = version) ->
      (z = 0%Z -> (w_getenv w "PROTOTOOL_PROTOC_BIN_PATH" <> "" /\ io_done s2 = io_done s) \/
        (w_getenv w "PROTOTOOL_PROTOC_BIN_PATH" = "" /\ exists cs, cache_root (w_goos w) (w_goarch w) (w_getenv w) cwd cache cs /\
           w_download w (abs_path (cs ++ ["protobuf"; release])) = Ok tt /\ io_done s2 = io_done s ++ [Downloaded (abs_path (cs ++ ["protobuf"; release]))])) /\
      (z <> 0%Z -> only_a_message s s2 \/
        (w_getenv w "PROTOTOOL_PROTOC_BIN_PATH" = "" /\ exists cs e es, cache_root (w_goos w) (w_goarch w) (w_getenv w) cwd cache cs /\ only_prints es /\
           w_download w (abs_path (cs ++ ["protobuf"; release])) = Err e /\ io_done s2 = io_done s ++ Downloaded (abs_path (cs ++ ["protobuf"; release])) :: es)).
Proof.
  intros w cwd args fl f fi ul u ui s s1 s2 z O So Mf Wf Ef Mu Wu Sm Eu. pose proof O as (V & G & Wd & Cl & Nm & St).
  destruct (files_see w cwd args fl f fi ui s s1 O So Mf Wf Ef Sm) as (names & r & m & E1 & Or & S). exists names, (ps_config (m_set m)).
  split; [exact E1|]. split; [exact (se_config _ _ _ _ _ _ _ _ S)|]. pose proof (se_found _ _ _ _ _ _ _ _ S) as F. pose proof (se_here _ _ _ _ _ _ _ _ S) as Hr. destruct (se_options _ _ _ _ _ _ _ _ S) as (zz & Rw).
  assert (T : forall name, In name ["protoc-url"; "protoc-bin-path"; "protoc-wkt-path"] -> text ui name = "").
  { intros n Hn. destruct Mu as (more & Hu & Iu & _). rewrite (not_given _ _ _ n Iu).
    - repeat (destruct Hn as [<-|Hn]; [reflexivity|]). destruct Hn.
    - intros kd T. unfold takes in T. cbn [commands In] in Hu.
      repeat (destruct Hu as [<-|Hu]; [try discriminate Wu; cbn in Hn, T|]); [|destruct Hu].
      repeat (destruct Hn as [<-|Hn]; [repeat (destruct T as [T|T]; [discriminate T|]); destruct T|]). destruct Hn. }
  destruct (line_is w ul u ui args G Mu) as (k & K & L). rewrite L in Eu. clear L. rewrite Or, with_options in Eu. unfold asked in K; rewrite Wu in K; injection K as <-.
  apply process_ends in Eu as (s' & o & E & Z). change (cache_update w r args s = (s', o)) in E. unfold cache_update in E. unfold and_then at 1 in E. rewrite (get_meta_found _ _ _ _ _ _ F) in E.
  unfold and_then at 1, downloader_for in E.
  assert (R1 : r_protoc_bin_path r = w_getenv w "PROTOTOOL_PROTOC_BIN_PATH"). { rewrite Rw. cbn. rewrite (T "protoc-bin-path") by (cbn; auto). reflexivity. }
  assert (R2 : r_protoc_url r = ""). { rewrite Rw. cbn. apply T. cbn; auto. }
  assert (R3 : r_cache_path r = if String.eqb (text ui "cache-path") "" then w_getenv w "PROTOTOOL_CACHE_PATH" else text ui "cache-path") by now rewrite Rw.
  rewrite R1, R2, R3 in E. set (cache := if String.eqb (text ui "cache-path") "" then _ else _) in *.
  destruct (new_downloader _ _ _ _ _ _) as [d|e|] eqn:N; cbn [Exec_Model.check] in E.
  2,3: injection E as <- <-; destruct Z as [(X & _)|[(? & X & _)|(e' & [= <-] & -> & ->)]]; try discriminate X; destruct (println_message e s) as (D1 & D2) || destruct (println_message "runtime error: invalid memory address or nil pointer dereference" s) as (D1 & D2);
    split; [exact D1|]; cbv zeta; intros release _ _ _; split; [discriminate|intros _; left; split; assumption].
  unfold ret in E. apply made_ok in N as [(Eb & _ & Ed)|((_ & Eb & _) & Ed)].
  - assert (Bo : forall base, base_path (w_goos w) (w_goarch w) (w_getenv w) cwd (w_digest w) d = Ok base -> forall release, ok_comp release = true ->
      (cc_protobuf_version (cfg_compile (ps_config (m_set m))) = "" -> release = "3.11.0") -> (cc_protobuf_version (cfg_compile (ps_config (m_set m))) <> "" -> release = cc_protobuf_version (cfg_compile (ps_config (m_set m)))) ->
      exists cs, cache_root (w_goos w) (w_goarch w) (w_getenv w) cwd cache cs /\ base = abs_path (cs ++ ["protobuf"; release])).
    { intros base Bp release Ok1 Y1 Y2. assert (Vp : version_part (w_digest w) d = release).
      { rewrite Ed. unfold version_part. cbn [d_url d_version is_empty negb]. destruct (is_empty (cc_protobuf_version (cfg_compile (ps_config (m_set m))))) eqn:Fv; [apply is_empty_true in Fv|apply is_empty_false in Fv]; symmetry; auto. }
      apply base_path_ok in Bp; [|exact Cl|now rewrite Vp]. rewrite Vp, Ed in Bp. exact Bp. }
    assert (B1 : d_bin_path d = "") by now rewrite Ed. rewrite B1 in E. rewrite Hr in E.
    destruct (base_path _ _ _ _ _ _) as [base|e] eqn:Bp; cbn [Exec_Model.check] in E; unfold and_then, ret, fail, emit in E.
    + destruct (w_download w base) as [[]|e] eqn:Dl; cbn [Exec_Model.check] in E; unfold ret, fail in E; injection E as <- <-.
      * destruct Z as [(_ & -> & ->)|[(? & X & _)|(? & X & _)]]; try discriminate X. split; [reflexivity|]. cbv zeta. intros release Ok1 Y1 Y2. split; [intros _; right|now intros []].
        split; [exact Eb|]. destruct (Bo _ eq_refl _ Ok1 Y1 Y2) as (cs & C1 & ->). exists cs. auto.
      * destruct Z as [(X & _)|[(? & X & _)|(? & [= <-] & -> & ->)]]; try discriminate X. split; [rewrite println_disk; reflexivity|]. cbv zeta. intros release Ok1 Y1 Y2. split; [discriminate|intros _; right].
        split; [exact Eb|]. destruct (Bo _ eq_refl _ Ok1 Y1 Y2) as (cs & C1 & ->). destruct (println_says e (mk_io (io_disk s) (io_done s ++ [Downloaded (abs_path (cs ++ ["protobuf"; release]))]))) as (es & Ee & Op).
        exists cs, e, es. split; [exact C1|]. split; [exact Op|]. split; [exact Dl|]. rewrite Ee. cbn [adds io_done]. now rewrite <- app_assoc.
    + injection E as <- <-. destruct Z as [(X & _)|[(? & X & _)|(? & [= <-] & -> & ->)]]; try discriminate X. destruct (println_message e s) as (D1 & D2). split; [exact D1|]. cbv zeta. intros release _ _ _. split; [discriminate|intros _; left; split; assumption].
  - assert (B1 : d_bin_path d <> "") by (rewrite Ed; apply path_clean_not_empty). destruct (d_bin_path d) as [|b bs]; [now destruct B1|]. unfold ret in E. injection E as <- <-.
    destruct Z as [(_ & -> & ->)|[(? & X & _)|(? & X & _)]]; try discriminate X. split; [reflexivity|]. cbv zeta. intros release _ _ _. split; [intros _; left; split; [exact Eb|reflexivity]|now intros []].
Qed.
Print Assumptions C100_update.

(** ** config init *)
(** The file that config init writes: in the given directory, or in the working directory. *)
Definition config_file (cwd : string) (args : list string) : string := path_join [match args with a :: _ => a | [] => cwd end; "prototool.yaml"].
Definition is_at (w : world) (disk : string -> result string) (p : string) : Prop := (exists d, disk p = Ok d) \/ exists k, w_stat w p = Ok k.
Lemma init_run cwd mk other we v args un doc s s2 o : Init_Model.init cwd mk other we v args un doc s = (s2, o) ->
  let file := config_file cwd args in let text := Init_Model.generate v un doc in let at_file := (exists d, io_disk s file = Ok d) \/ other file = true in
  (exists made m, s2 = adds s (map MadeDir made) /\ o = Fail m /\ (length args <= 1 -> at_file \/ exists a, In a args /\ mk a <> None)) \/
  (~ at_file /\ length args <= 1 /\ (forall a, In a args -> mk a = None) /\ (forall q, q <> file -> io_disk s2 q = io_disk s q) /\ io_done s2 = io_done s ++ map MadeDir args ++ [Wrote file text] /\
   ((o = Value tt /\ io_disk s2 file = Ok text) \/ exists rest m, o = Fail m /\ we file text = Some (rest, m))).
Proof.
  intros E. cbv zeta. unfold Init_Model.init in E.
  assert (K : forall dir made, path_join [dir; "prototool.yaml"] = config_file cwd args -> length args <= 1 -> (forall a, In a args -> mk a = None) -> made = args ->
    (run b <- Init_Model.is_there other (path_join [dir; "prototool.yaml"]); if b then fail (path_join [dir; "prototool.yaml"] +++ " already exists") else write_file we (path_join [dir; "prototool.yaml"]) (Init_Model.generate v un doc)) (adds s (map MadeDir made)) = (s2, o) ->
    (exists made m, s2 = adds s (map MadeDir made) /\ o = Fail m /\ (length args <= 1 -> ((exists d, io_disk s (config_file cwd args) = Ok d) \/ other (config_file cwd args) = true) \/ exists a, In a args /\ mk a <> None)) \/
    (~ ((exists d, io_disk s (config_file cwd args) = Ok d) \/ other (config_file cwd args) = true) /\ length args <= 1 /\ (forall a, In a args -> mk a = None) /\ (forall q, q <> config_file cwd args -> io_disk s2 q = io_disk s q) /\
     io_done s2 = io_done s ++ map MadeDir args ++ [Wrote (config_file cwd args) (Init_Model.generate v un doc)] /\
     ((o = Value tt /\ io_disk s2 (config_file cwd args) = Ok (Init_Model.generate v un doc)) \/ exists rest m, o = Fail m /\ we (config_file cwd args) (Init_Model.generate v un doc) = Some (rest, m)))).
  { intros dir made P L Mk -> X. rewrite P in X. unfold and_then at 1, Init_Model.is_there in X. cbn [adds io_disk] in X.
    destruct (match io_disk s (config_file cwd args) with Ok _ => true | Err _ => other (config_file cwd args) end) eqn:B.
    - left. unfold fail in X. injection X as <- <-. exists args. eexists. split; [reflexivity|]. split; [reflexivity|]. intros _. left. destruct (io_disk s (config_file cwd args)) eqn:D; [left; eauto|right; exact B].
    - right. split; [intros [(d & D)|D]; [now rewrite D in B|rewrite D in B; destruct (io_disk s _); discriminate B]|]. split; [exact L|]. split; [exact Mk|]. unfold write_file in X. cbn [adds io_disk io_done] in X.
      destruct (we (config_file cwd args) (Init_Model.generate v un doc)) as [[rest m]|] eqn:We; injection X as <- <-; cbn [io_disk io_done]; (split; [intros q N; apply String.eqb_neq in N; now rewrite N|]); (split; [now rewrite <- app_assoc|]).
      + right. eauto.
      + left. split; [reflexivity|]. now rewrite String.eqb_refl. }
  destruct args as [|a [|b args]].
  - apply (K cwd [] eq_refl ltac:(auto with arith) ltac:(intros ? []) eq_refl). cbn [map]. rewrite adds_nil. exact E.
  - cbn [length Nat.ltb Nat.leb] in E. unfold and_then at 1 in E. unfold and_then at 1, Init_Model.make_dir in E. destruct (mk a) as [m|] eqn:Mk.
    + left. unfold fail in E. injection E as <- <-. exists [], m. split; [now rewrite adds_nil|]. split; [reflexivity|]. intros _. right. exists a. split; [now left|congruence].
    + apply (K a [a] eq_refl ltac:(auto with arith) ltac:(intros ? [<-|[]]; exact Mk) eq_refl). exact E.
  - left. unfold fail in E. cbn [length Nat.ltb Nat.leb] in E. injection E as <- <-. exists []. eexists. split; [now rewrite adds_nil|]. split; [reflexivity|]. cbn. intros L. exfalso. inversion L. inversion H0.
Qed.
Theorem C100_init : forall w cwd l c items args s s2 z, ordinary w cwd -> means (w_read_csv w) l c items args -> c_words c = ["config"; "init"] -> main w l s = (s2, z) ->
  let file := config_file cwd args in
  (forall q, q <> file -> io_disk s2 q = io_disk s q) /\
  (is_at w (io_disk s) file -> z <> 0%Z /\ io_disk s2 = io_disk s /\ exists es, io_done s2 = io_done s ++ es /\ written es = []) /\
  (z = 0%Z -> exists data, io_disk s2 file = Ok data /\ io_done s2 = io_done s ++ map MadeDir args ++ [Wrote file data] /\
     (on items "uncomment" = false -> Init_Spec.configures data = [(["protoc"; "version"], "3.11.0"); (["lint"; "group"], "uber2")])) /\
  (~ is_at w (io_disk s) file -> (forall a, In a args -> w_mkdir_all w a = None) -> (forall data, w_write_error w file data = None) -> (exists t, w_parse_duration w (text items "walk-timeout") = Ok t) -> z = 0%Z).
Proof.
  intros w cwd l c items args s s2 z (V & G & Wd & Cl & Nm & St) M W E file.
  assert (La : length args <= 1). { destruct M as (more & Hc & _ & _ & N & _). clear - Hc W N. cbn [commands In] in Hc. repeat (destruct Hc as [<-|Hc]; [discriminate W || exact (proj2 N)|]). destruct Hc. }
  destruct (line_is w l c items args G M) as (k & K & L). rewrite L in E. clear L. unfold asked in K. rewrite W in K. injection K as <-.
  destruct (the_options w items) as [r|m] eqn:Or.
  2: { rewrite no_options in E. injection E as <- <-. destruct (println_says m s) as (es & -> & Op). split; [reflexivity|]. split; [|split; [discriminate|]].
       - intros _. split; [discriminate|]. split; [reflexivity|]. exists es. split; [reflexivity|]. apply (only_prints_dials _ Op).
       - intros _ _ _ (t & Wt). unfold the_options in Or. rewrite Wd, Wt in Or. destruct (String.eqb _ _); discriminate Or. }
  rewrite with_options in E. destruct (options_are _ _ _ _ Wd Or) as (wt & Rw). assert (Hr : here r = cwd) by now rewrite Rw.
  apply process_ends in E as (s' & o & E & Z).
  change (Init_Model.init (here r) (w_mkdir_all w) (fun p => match w_stat w p with Ok _ => true | Err _ => false end) (w_write_error w) default_protoc_version args (on items "uncomment") (on items "document") s = (s', o)) in E.
  rewrite Hr in E. apply init_run in E. cbv zeta in E. fold file in E.
  assert (At : ((exists d, io_disk s file = Ok d) \/ match w_stat w file with Ok _ => true | Err _ => false end = true) <-> is_at w (io_disk s) file).
  { unfold is_at. destruct (w_stat w file); split; intros [X|X]; auto; [right; eauto|discriminate X|destruct X; discriminate]. }
  assert (Md : forall made, written (map MadeDir made) = []) by (induction made as [|x made IH]; [reflexivity|exact IH]).
  destruct E as [(made & m & -> & -> & X)|(N & _ & Mk & Dk & Dn & X)].
  - destruct Z as [(Y & _)|[(? & Y & _)|(? & _ & -> & ->)]]; try discriminate Y. match goal with |- context [println ?e ?s0] => destruct (println_says e s0) as (es & -> & Op) end. cbn [adds io_disk io_done].
    split; [reflexivity|]. split; [|split; [discriminate|]].
    + intros _. split; [discriminate|]. split; [reflexivity|]. exists (map MadeDir made ++ es). split; [now rewrite app_assoc|]. rewrite written_app, Md. apply (only_prints_dials _ Op).
    + intros Na Mk _ _. destruct (X La) as [Y|(a & Ia & Y)]; [apply At in Y; contradiction|]. now rewrite (Mk _ Ia) in Y.
  - assert (Dk2 : io_disk s2 = io_disk s') by (destruct Z as [(_ & -> & _)|[(e & _ & -> & _)|(e & _ & -> & _)]]; rewrite ?println_disk; reflexivity).
    split; [now rewrite Dk2|]. split; [intros Y; apply At in Y; contradiction|]. destruct X as [(-> & Df)|(rest & m & -> & We)].
    + destruct Z as [(_ & -> & ->)|[(? & Y & _)|(? & Y & _)]]; try discriminate Y. split; [|auto]. intros _. eexists. split; [exact Df|]. split; [exact Dn|]. intros Un. rewrite Un. apply Props_Init.C79_configures. exact Props_Init.C79_version_ex.
    + destruct Z as [(Y & _)|[(? & Y & _)|(? & _ & -> & ->)]]; try discriminate Y. split; [discriminate|]. intros _ _ Nw _. now rewrite Nw in We.
Qed.
Print Assumptions C100_init.

(** After config init, for a listed file below the working directory and without a nearer
    configuration, the rules in force are those of uber2, and protoc is release 3.11.0. *)
Lemma taken_no_suppression w disk e dir c : taken w disk e dir c -> lc_allow_suppression (cfg_lint c) = false.
Proof.
  intros (A & B). destruct (be_lint _ _ _ _ _ B) as (_ & _ & _ & _ & _ & _ & L). rewrite L. destruct (x_allow_suppression e) eqn:E; [|reflexivity].
  pose proof (ac_suppression _ _ _ _ A E) as X. discriminate X.
Qed.
Lemma configured_no_suppression w disk d c : configured w disk d c -> lc_allow_suppression (cfg_lint c) = false.
Proof. intros [(_ & T)|(a & file & e & _ & _ & _ & T)]; exact (taken_no_suppression _ _ _ _ _ T). Qed.
Lemma in_force_no_suppression w disk cwd data p c : in_force w disk cwd data p c -> lc_allow_suppression (cfg_lint c) = false.
Proof. intros [(_ & e & _ & T)|(_ & d & _ & _ & [(_ & C)|(_ & k & _ & _ & C)])]; [exact (taken_no_suppression _ _ _ _ _ T)|exact (configured_no_suppression _ _ _ _ C)..]. Qed.
Lemma init_in_force w cwd k b p data c s : ordinary w cwd -> ok_comps (k ++ b) -> cwd = abs_path k -> path_dir p = abs_path (k ++ b) ->
  (forall b1 b2, b = b1 ++ b2 -> b1 <> [] -> no_config (exists_at w (io_disk s)) (k ++ b1)) ->
  io_disk s (config_file cwd []) = Ok data -> (forall e, w_decode_yaml w data = Ok e -> Init_Spec.means (Init_Spec.configures data) e) ->
  Init_Spec.configures data = [(["protoc"; "version"], "3.11.0"); (["lint"; "group"], "uber2")] ->
  in_force w (io_disk s) cwd "" p c ->
  cc_protobuf_version (cfg_compile c) = "3.11.0" /\ known_names (cfg_lint c) /\ forall id, selected (cfg_lint c) id <-> in_group "uber2" id.
Proof.
  intros (V & G & Wd & Cl & Nm & St) Okb Ck Pd No Df De Cf If. apply ok_comps_app in Okb as Okk. destruct Okk as (Okk & Okb').
  assert (Fl : config_file cwd [] = abs_path (k ++ ["prototool.yaml"])).
  { unfold config_file. subst cwd. apply join_names; [now apply names_abs|repeat constructor]. }
  assert (Ne : nearest (exists_at w (io_disk s)) (k ++ b) k).
  { exists b. split; [reflexivity|]. split; [|exact No]. intros N. specialize (N (config_file cwd []) (or_introl (eq_sym Fl))). unfold exists_at in N. rewrite Df in N. discriminate N. }
  destruct If as [(X & _)|(_ & d & Od & Ed & H)]; [now destruct X|]. rewrite Pd in Ed. apply abs_path_inj in Ed; [|exact Okb|exact Od]. subst d.
  assert (Ngov : ~ governs (exists_at w (io_disk s)) (k ++ b) "").
  { intros [(_ & N)|(a & _ & (I & _))].
    - destruct Ne as (_ & _ & X & _). now apply X, (N _ b).
    - destruct I as [I|[I|[]]]; discriminate I. }
  destruct H as [(_ & H)|(X & _)]; [|contradiction].
  destruct H as [(X & _)|(a & file & e & Na & Tc & Dc & (_ & Bc))]; [contradiction|]. rewrite (nearest_fun _ _ _ _ Na Ne) in *. clear Na.
  destruct Tc as (_ & _ & Un). assert (file = config_file cwd []) as ->.
  { symmetry. apply Un; [left; exact (eq_sym Fl)|]. unfold exists_at. now rewrite Df. }
  assert (Nd : data <> "") by (intros ->; discriminate Cf).
  destruct Dc as [(X & _)|(data' & X & _ & [(Y & _)|(_ & Y)])]; rewrite Df in X; [injection X as X; contradiction|injection X as <-..].
  { exfalso. rewrite Fl in Y. apply abs_path_inj in Y; [|apply ok_comps_app; split; [exact Okk|repeat constructor]..]. apply app_inv_head in Y. discriminate Y. }
  apply De in Y. rewrite Cf in Y. clear De Cf. destruct Y as (_ & Y2 & _ & _ & _ & Y6 & Y7 & Y8 & Y9 & Y10 & _).
  destruct (be_compile _ _ _ _ _ Bc) as (B1 & _). destruct (be_lint _ _ _ _ _ Bc) as (L1 & L2 & L3 & L4 & L5 & _).
  rewrite Y2 in B1. rewrite Y6 in L1. rewrite Y9 in L3. rewrite Y10 in L4. change (lc_group (cfg_lint c) = "uber2") in L1.
  assert (I1 : forall id, ~ In id (lc_include_ids (cfg_lint c))) by (intros id Hi; apply (proj2 L3) in Hi as (_ & x & [] & _)).
  assert (I2 : forall id, ~ In id (lc_exclude_ids (cfg_lint c))) by (intros id Hi; apply (proj2 L4) in Hi as (_ & x & [] & _)).
  assert (I3 : forall id, ~ In id (map fst (lc_ignores (cfg_lint c)))).
  { intros id Hi. apply in_map_iff in Hi as ((id' & l) & _ & Hi). apply (proj2 L5) in Hi as (Hn & Hl). rewrite Y7 in Hl; [now rewrite Hl in Hn|]. intros x [<-|[<-|[]]]; reflexivity. }
  split; [exact B1|]. split; [split; [right; rewrite L1; cbn; tauto|]; intros id [X|[X|X]]; exfalso; [now apply I1 in X|now apply I2 in X|now apply I3 in X]|].
  intros id. unfold selected, base_rule. rewrite L1. split; [intros ([[(_ & X)|(X & _)]|X] & _); [exact X|discriminate X|now apply I1 in X]|]. intros X. split; [left; left; split; [discriminate|exact X]|apply I2].
Qed.
Theorem C100_used : forall w cwd k l c items args fl f fi ll lc li s s1 s2 s3 z, ordinary w cwd -> sorts (w_sort_plugins w) -> ok_comps k -> cwd = abs_path k ->
  means (w_read_csv w) l c items [] -> c_words c = ["config"; "init"] -> on items "uncomment" = false -> main w l s = (s1, 0%Z) ->
  (forall data e, io_disk s1 (abs_path (k ++ ["prototool.yaml"])) = Ok data -> w_decode_yaml w data = Ok e -> Init_Spec.means (Init_Spec.configures data) e) ->
  means (w_read_csv w) fl f fi args -> c_words f = ["files"] -> text fi "config-data" = "" -> main w fl s1 = (s2, 0%Z) ->
  means (w_read_csv w) ll lc li args -> c_words lc = ["lint"] -> same_settings fi li -> modes li = [false; true; false; false; false; false] -> main w ll s1 = (s3, z) ->
  exists names, io_done s2 = io_done s1 ++ Main_Spec.shown names /\
    forall n p b, In n names -> File_Spec.shown cwd p n -> ok_comps b -> path_dir p = abs_path (k ++ b) ->
      (forall b1 b2, b = b1 ++ b2 -> b1 <> [] -> no_config (exists_at w (io_disk s1)) (k ++ b1)) ->
      z = 0%Z /\ exists said table, (forall id, documented id -> describes false id (said id)) /\ table_of said (in_group "uber2") table /\ only_output s1 s3 (says table).
Proof.
  intros w cwd k l c items args fl f fi ll lc li s s1 s2 s3 z O So Ok1 Ck Mi Wi Un Ei De Mf Wf Da Ef Ml Wl Sm Mo El.
  destruct (C100_init w cwd l c items [] s s1 0%Z O Mi Wi Ei) as (_ & _ & X & _). destruct (X eq_refl) as (data & Df & _ & Cf). specialize (Cf Un). clear X.
  destruct (C99_listings w cwd args fl f fi ll lc li s1 s2 s3 z O So Mf Wf Ef Ml Wl Sm El) as (names & cf & E2 & Inf & Li & _). specialize (Li Mo).
  exists names. split; [exact E2|]. intros n p b Hn Sh Ob Pd No. destruct (Inf n Hn) as (p' & Sh' & If).
  pose proof O as (_ & _ & _ & Cl & _). assert (p' = p) as -> by (exact (eq_trans (eq_sym (Main_Proofs11.shown_absolute _ _ _ Cl Sh')) (Main_Proofs11.shown_absolute _ _ _ Cl Sh))).
  assert (Dd : text li "config-data" = "") by (destruct Sm as (Sm & _); now rewrite <- Sm). rewrite Dd in If.
  assert (Fe : config_file cwd [] = abs_path (k ++ ["prototool.yaml"])) by (unfold config_file; subst cwd; apply join_names; [now apply names_abs|repeat constructor]).
  rewrite <- Fe in De.
  destruct (init_in_force w cwd k b p data cf s1 O ltac:(apply ok_comps_app; auto) Ck Pd No Df (fun e => De data e Df) Cf If) as (_ & Kn & Se).
  destruct Li as [(_ & -> & said & table & Sa & Ta & Oo)|(N & _)]; [|contradiction]. split; [reflexivity|]. exists said, table.
  rewrite (in_force_no_suppression _ _ _ _ _ _ If) in Sa. split; [exact Sa|]. split; [|exact Oo].
  destruct Ta as (ids & width & A1 & A2 & A3). exists ids, width. split; [exact A1|]. split; [|exact A3]. intros id. rewrite A2. apply Se.
Qed.
Print Assumptions C100_used.

(** ** Examples: a directory without a configuration. *)
Definition exw15_node (p : string) : node :=
  if String.eqb p "/w" then NDir [("a.proto", NFile); ("b", NDir [("bad.proto", NFile)])]
  else if String.eqb p "/w/b" then NDir [("bad.proto", NFile)] else if mem p ["/w/a.proto"; "/w/b/bad.proto"] then NFile else NBroken.
Definition exw15_stat (p : string) : result file_kind :=
  if mem p ["/w"; "."; "/w/b"] then Ok Exec_Model.Directory else if mem p ["/w/a.proto"; "/w/b/bad.proto"] then Ok Exec_Model.Regular else Err "no such file".
Definition exw15 : world := mk_world "linux" "amd64" "go1.13" (fun v => if String.eqb v "HOME" then "/home" else "") (Ok "/w") (fun s => if String.eqb s "3s" then Ok 3%Z else Err "bad time")
  (fun s => Ok [s]) (fun _ => "usage") (fun _ => "help") (fun _ => "") (fun _ => "topic")
  (fun _ A l => l) exw15_stat exw15_node (fun _ => None) (fun _ _ => None) (fun _ => None) (Ok "/tmp/f") (Ok "/tmp/d") (fun _ => Err "not found")
  (fun _ _ => None) (fun _ => Err "no json") (fun _ => Ok Props_Init.exi_config) (fun _ => Ok "")
  Settings_Proofs2.by_name (fun l => l) (fun l => l) (fun _ _ => Ok []) (fun s => s) (fun _ _ _ => Ok "")
  (fun d => if String.eqb d "/home/.cache/prototool/Linux/x86_64/protobuf/3.11.0" then Ok tt else Err "no such release") (fun s => s) (fun _ => NotExist) exw12_temp
  (fun _ c => Protoc_Model.Ended "" Protoc_Model.NoError)
  exw12_set (fun n => rev (seq 0 n)) (fun _ n => n) (fun s => s) Props_PackageCmd.kx_marshal Props_PackageCmd.kx_jsonpb Props_PackageCmd.kx_unmarshal
  (fun _ => Ok tt) (fun _ => Ok tt) (fun _ => Ok tt) (fun _ => Ok tt) (fun _ => Ok tt) (fun _ _ => ([], None)).
Definition exw15_s : io := mk_io (fun p => if mem p ["/w/a.proto"; "/w/b/bad.proto"] then Ok "text" else Err "no such file") [].
Definition exw15_then (lines : list (list string)) : io * Z :=
  fold_left (fun x l => main exw15 l (mk_io (io_disk (fst x)) [])) lines (exw15_s, 0%Z).
Definition exw15_seen (lines : list (list string)) : list event * Z := (io_done (fst (exw15_then lines)), snd (exw15_then lines)).
Lemma exw15_ordinary : ordinary exw15 "/w".
Proof.
  destruct C89_lint_ex as ((V & G & Wd & Cl & Nm & St) & _). split; [exact V|]. split; [exact G|]. split; [reflexivity|]. split; [exact Cl|]. split; [|intros k; discriminate].
  intros p. change (File_Spec.named (exw15_node p)). unfold exw15_node. destruct (String.eqb p "/w"); [|destruct (String.eqb p "/w/b"); [|destruct (mem p _); constructor]].
  - constructor; [repeat constructor|repeat constructor; cbn; intuition discriminate|]. intros n c [[= <- <-]|[[= <- <-]|[]]]; [constructor|]. constructor; [repeat constructor|repeat constructor; cbn; intuition discriminate|]. intros n c [[= <- <-]|[]]; constructor.
  - constructor; [repeat constructor|repeat constructor; cbn; intuition discriminate|]. intros n c [[= <- <-]|[]]; constructor.
Qed.
Example C100_ex : ordinary exw15 "/w" /\ sorts (w_sort_plugins exw15) /\
  means (w_read_csv exw15) ["config"; "init"; "--document"] (exw_command ["config"; "init"]) [Given "document" LongAlone "true"] [] /\
  means (w_read_csv exw15) ["cache"; "update"] (exw_command ["cache"; "update"]) [] [] /\
  exw15_seen [["config"; "init"; "--document"]] = ([Wrote "/w/prototool.yaml" (Init_Model.generate "3.11.0" false true)], 0%Z) /\
  (forall data e, io_disk (fst (exw15_then [["config"; "init"; "--document"]])) "/w/prototool.yaml" = Ok data -> w_decode_yaml exw15 data = Ok e -> Init_Spec.means (Init_Spec.configures data) e) /\
  snd (exw15_seen [["config"; "init"]; ["config"; "init"]]) = 1%Z /\
  exw15_seen [["config"; "init"; "--document"]; ["files"]] = (Main_Spec.shown ["a.proto"; "b/bad.proto"], 0%Z) /\
  exw15_seen [["config"; "init"; "--document"]; ["cache"; "update"]] = ([Downloaded "/home/.cache/prototool/Linux/x86_64/protobuf/3.11.0"], 0%Z) /\
  exw15_seen [["cache"; "update"; "--cache-path"; "/c"]] = ([Downloaded "/c/protobuf/3.11.0"; Printed (exl "no such release")], 1%Z) /\
  modes [Given "list-linters" LongAlone "true"] = [false; true; false; false; false; false] /\
  (exists id, in_group "uber2" id) /\
  exw15_seen [["config"; "init"; "--document"]; ["lint"; "--list-linters"]] = exw15_seen [["lint"; "--list-lint-group"; "uber2"]].
Proof.
  split; [exact exw15_ordinary|]. split; [exact Settings_Proofs2.by_name_sorts|]. split; [means_now|]. split; [means_now|]. split; [vm_compute; reflexivity|]. split.
  { intros data e E [= <-]. assert (data = Init_Model.generate "3.11.0" false true) as -> by (vm_compute in E; injection E as <-; vm_compute; reflexivity). exact Props_Init.C79_settings_ex. }
  split; [vm_compute; reflexivity|]. split; [vm_compute; reflexivity|]. split; [vm_compute; reflexivity|]. split; [vm_compute; reflexivity|]. split; [reflexivity|].
  split; [|vm_compute; reflexivity]. exists "COMMENTS_NO_C_STYLE". exists ["uber1"; "uber2"]. split; [unfold documented_rules; cbn; tauto|cbn; tauto].
Qed.
