(** compile and generate in the whole program: which protoc, and which commands. *)
From Coq Require Import Lia Sorted.
From Verif Require File_Proofs3.
From Verif Require Import GoStrFacts GoPathFacts Settings_Spec File_Spec Exec_Spec Exec_Proofs Exec_Proofs3 Cmd_Spec Download_Spec Download_Proofs Text_Spec
  Lint_Spec Protoc_Spec Main_Model Main_Spec Main_Spec2 Main_Spec3 Main_Proofs Main_Proofs2 Main_Proofs5 Main_Proofs6 Main_Proofs7 Main_Proofs10 Main_Proofs12.

Section Which.
  Variable w : world.
  Variable items : list item.
  Variable walk : Z.
  Variable cwd : string.
  Hypothesis Cl : clean_abs cwd.
  Let r := options (w_getenv w) cwd walk items.
  Lemma which_protoc ps protoc wkt :
    with_downloader w r ps (fun d => protoc_path d (cached w r d)) = Ok protoc -> with_downloader w r ps (fun d => wkt_include_path d (cached w r d)) = Ok wkt ->
    the_protoc w cwd items (ps_config ps) protoc wkt.
  Proof.
    unfold with_downloader, downloader_for. destruct (new_downloader _ _ _ _ _ _) as [d| |] eqn:N; [|discriminate..]. cbn [bind].
    unfold the_protoc. set (given := fun flag variable => if String.eqb (text items flag) "" then w_getenv w variable else text items flag).
    change (r_protoc_bin_path r) with (given "protoc-bin-path" "PROTOTOOL_PROTOC_BIN_PATH") in N.
    change (r_protoc_wkt_path r) with (given "protoc-wkt-path" "PROTOTOOL_PROTOC_WKT_PATH") in N.
    change (r_cache_path r) with (given "cache-path" "PROTOTOOL_CACHE_PATH") in N. change (r_protoc_url r) with (text items "protoc-url") in N.
    apply made_ok in N as [(Eb & Ew & Ed)|((Eu & Eb & Ew & _) & Ed)].
    - intros P W. right. split; [exact Eb|]. intros release Ok1 R1 R2 R3.
      assert (Vp : version_part (w_digest w) d = release).
      { subst d. unfold version_part. cbn [d_url d_version]. destruct (is_empty (text items "protoc-url")) eqn:E; cbn [negb].
        - apply is_empty_true in E. destruct (is_empty (cc_protobuf_version (cfg_compile (ps_config ps)))) eqn:F; [apply is_empty_true in F|apply is_empty_false in F]; symmetry; auto.
        - apply is_empty_false in E. symmetry. auto. }
      unfold protoc_path, wkt_include_path, cached in P, W.
      assert (B1 : d_bin_path d = "") by now rewrite Ed. assert (B2 : d_wkt_path d = "") by now rewrite Ed. rewrite B1 in P, W. rewrite B2 in W. cbn [is_empty negb] in P, W.
      destruct (base_path (w_goos w) (w_goarch w) (w_getenv w) (here r) (w_digest w) d) as [base|] eqn:Bp; [|discriminate P]. cbn [bind] in P, W.
      destruct (w_download w base); [|discriminate P]. cbn [bind] in P, W. injection P as <-. injection W as <-.
      apply base_path_ok in Bp; [|exact Cl|now rewrite Vp]. destruct Bp as (cs & Cr & ->). rewrite Vp. assert (Dc : d_cache_path d = given "cache-path" "PROTOTOOL_CACHE_PATH") by now rewrite Ed.
      rewrite Dc in Cr. exists cs. split; [exact Cr|]. assert (Oc := cache_root_ok _ _ _ _ _ _ Cr).
      assert (Ob : ok_comps (cs ++ ["protobuf"; release])) by (apply ok_comps_app; split; [exact Oc|repeat constructor; exact Ok1]).
      change (path_join [abs_path (cs ++ ["protobuf"; release]); "bin"; "protoc"] = abs_path (cs ++ ["protobuf"; release; "bin"; "protoc"]) /\
        path_join [abs_path (cs ++ ["protobuf"; release]); "include"] = abs_path (cs ++ ["protobuf"; release; "include"])).
      split; rewrite (join_names _ (cs ++ ["protobuf"; release])), <- app_assoc; try reflexivity; try (now apply names_abs); repeat constructor.
    - intros P W. left. split; [exact Eb|]. subst d. unfold protoc_path, wkt_include_path in P, W. cbn [d_bin_path d_wkt_path] in P, W.
      rewrite (proj2 (is_empty_false _) (path_clean_not_empty _)) in P. rewrite (proj2 (is_empty_false _) (path_clean_not_empty _)) in W. injection P as <-. injection W as <-. auto.
  Qed.
End Which.

Section Shape.
  Variable w : world.
  Hypothesis V : visits_all (w_order w).
  Variable r : runner.
  Variable gen : bool.
  Variable ps : proto_set.
  Let c := ps_config ps.
  Hypothesis Wkt : cc_include_wkt (cfg_compile c) = true.
  Hypothesis Cd : cfg_dir c <> "".
  Hypothesis Some_dir : exists d, In d (ps_files ps) /\ requested ps d = true.
  Lemma shape ms : the_cmd_metas w r gen false None ps = Ok ms ->
    exists protoc wkt,
      with_downloader w r ps (fun d => protoc_path d (cached w r d)) = Ok protoc /\ with_downloader w r ps (fun d => wkt_include_path d (cached w r d)) = Ok wkt /\
      (forall cmd, In cmd (map Protoc_Model.cm_args ms) -> exists d want flags, In d (ps_files ps) /\ requested ps d = true /\ In want (flags_wanted gen c) /\ want flags /\
         runs_on c protoc wkt (fst d) flags (map pf_path (snd d)) cmd) /\
      (forall d want, In d (ps_files ps) -> requested ps d = true -> In want (flags_wanted gen c) ->
         exists cmd flags, In cmd (map Protoc_Model.cm_args ms) /\ want flags /\ runs_on c protoc wkt (fst d) flags (map pf_path (snd d)) cmd).
  Proof.
    intros H. unfold the_cmd_metas in H. cbn [orb is_full full_imports full_source_info] in H.
    destruct (Protoc_Model.get_cmd_metas _ _ _ _ _ _ _ _ _ _ _ _ _ _) as [s1 o] eqn:E in H. cbn [snd] in H. subst o.
    apply (metas_commands _ _ _ _ _ _ _ _ _ V) in E as (dirs & blocks & P & F & ->).
    set (pp := with_downloader w r ps (fun d => protoc_path d (cached w r d))) in *. set (wp := with_downloader w r ps (fun d => wkt_include_path d (cached w r d))) in *.
    assert (X : exists protoc wkt, pp = Ok protoc /\ wp = Ok wkt).
    { destruct Some_dir as (d & I & R). assert (Id : In d dirs) by (apply (Permutation_in _ (Permutation_sym P)), filter_In; auto).
      destruct (Settings_Proofs.Forall2_In_l _ _ _ _ F Id) as (b & _ & protoc & is & de & pl & E1 & (wk & tail & _ & Y & _) & _). fold c in Y. rewrite Wkt in Y. destruct Y as (x & Y & _). eauto. }
    destruct X as (protoc & wkt & Ep & Ew). exists protoc, wkt. split; [exact Ep|]. split; [exact Ew|].
    assert (K : forall d b, commands_of wp pp gen false false false false ps d [] b ->
      (forall m, In m b -> exists want flags, In want (flags_wanted gen c) /\ want flags /\ runs_on c protoc wkt (fst d) flags (map pf_path (snd d)) (Protoc_Model.cm_args m)) /\
      (forall want, In want (flags_wanted gen c) -> exists m flags, In m b /\ want flags /\ runs_on c protoc wkt (fst d) flags (map pf_path (snd d)) (Protoc_Model.cm_args m))).
    { intros d b (protoc' & is & de & pl & E1 & (wk & tail & Ei & Y & Tl) & -> & (_ & D) & Pl). fold c in Ei, Y. rewrite Wkt in Y. destruct Y as (x & Y & ->).
      rewrite Ep in E1. injection E1 as <-. rewrite Ew in Y. injection Y as <-. unfold plugins_of in *. fold c in D, Pl.
      assert (Rn : forall flags temp, runs_on c protoc wkt (fst d) flags (map pf_path (snd d)) (Protoc_Model.cm_args (command_for protoc is flags d temp))).
      { intros flags temp. exists is, tail. split; [reflexivity|]. split; [exact Ei|].
        assert (Bd : base_dir ps = cfg_dir c) by (unfold base_dir; fold c; now rewrite (proj2 (is_empty_false _) Cd)). rewrite Bd in Tl. tauto. }
      unfold flags_wanted. destruct gen; cbn [andb] in D.
      - destruct (gc_plugins (cfg_gen c)) as [|g gs] eqn:G; cbn [negb] in D; subst de.
        + inversion Pl; subst pl. cbn [app]. split.
          * intros m [<-|[]]. exists (fun flags => flags = ["-o"; "/dev/null"]), ["-o"; "/dev/null"]. split; [now left|]. split; [reflexivity|apply Rn].
          * intros want [<-|[]]. eexists _, ["-o"; "/dev/null"]. split; [now left|]. split; [reflexivity|apply Rn].
        + assert (One : forall p m, plugin_command ps protoc is d p m -> exists flags, plugin_call p flags /\ runs_on c protoc wkt (fst d) flags (map pf_path (snd d)) (Protoc_Model.cm_args m)).
          { intros p m (params & out & path & -> & Pa & Wr & Gp). exists (plugin_flags p params out path). split; [|apply Rn]. exists params, out, path. split; [reflexivity|]. split; [exact Gp|]. split.
            - intros S. unfold Protoc_Spec.written in Wr. now rewrite S in Wr.
            - intros T. unfold parameters in Pa. now rewrite T in Pa. }
          rewrite app_nil_l. split.
          * intros m I. destruct (Settings_Proofs.Forall2_In_r _ _ _ _ Pl I) as (p & Ip & Pc). apply One in Pc as (flags & A & B).
            exists (plugin_call p), flags. split; [now apply in_map|]. auto.
          * intros want I. apply in_map_iff in I as (p & <- & Ip). destruct (Settings_Proofs.Forall2_In_l _ _ _ _ Pl Ip) as (m & Im & Pc).
            apply One in Pc as (flags & A & B). eauto.
      - subst de pl. cbn [app]. split.
        + intros m [<-|[]]. exists (fun flags => flags = ["-o"; "/dev/null"]), ["-o"; "/dev/null"]. split; [now left|]. split; [reflexivity|apply Rn].
        + intros want [<-|[]]. eexists _, ["-o"; "/dev/null"]. split; [now left|]. split; [reflexivity|apply Rn]. }
    split.
    - intros cmd I. apply in_map_iff in I as (m & <- & I). apply in_concat in I as (b & Ib & I). destruct (Settings_Proofs.Forall2_In_r _ _ _ _ F Ib) as (d & Id & Cm).
      destruct (proj1 (K _ _ Cm) m I) as (want & flags & A). apply (Permutation_in _ P), filter_In in Id as (Id & R). exists d, want, flags. tauto.
    - intros d want Id R Iw. assert (Id' : In d dirs) by (apply (Permutation_in _ (Permutation_sym P)), filter_In; auto).
      destruct (Settings_Proofs.Forall2_In_l _ _ _ _ F Id') as (b & Ib & Cm). destruct (proj2 (K _ _ Cm) want Iw) as (m & flags & Im & A).
      exists (Protoc_Model.cm_args m), flags. split; [|exact A]. apply in_map, in_concat. eauto.
  Qed.
End Shape.

(** A line that compiles or generates. *)
Lemma ran_is w r (gen : bool) args m s s' o : found (here r) (w_stat w) (provider w r (io_disk s)) args m ->
  method w r (if gen then CallGen args false else CallCompile args false) s = (s', o) ->
  exists es, only_prints es /\ s' = adds s (Compiled gen :: es) /\
    ((exists e, the_compiler w r gen false None (io_disk s) (m_set m) = Err e) -> exists e, o = Fail e) /\
    (forall fs ds, the_compiler w r gen false None (io_disk s) (m_set m) = Ok (fs, ds) ->
       ((exists fields, Exec_Spec.fields_of (r_error_format r) fields) ->
        o = (match fs with [] => Value tt | _ => Exit "" end) /\ exists kept, picks (about (here r) m) fs kept /\ listing (r_json r) Json_Model.failure_json (r_error_format r) kept (printed es)) /\
       ((forall fields, ~ Exec_Spec.fields_of (r_error_format r) fields) -> exists e, o = Fail e)).
Proof.
  intros F H.
  assert (K : (run m <- get_meta (here r) (w_stat w) (provider w r (io_disk s)) args;
               compile (here r) (r_error_format r) (r_json r) Json_Model.failure_json file_set (the_compiler w r) (the_commands w r) gen false false m ;; ret tt) s = (s', o)).
  { destruct gen; exact H. }
  clear H. unfold and_then at 1 in K. rewrite (get_meta_found _ _ _ _ _ _ F) in K. unfold compile in K.
  destruct (compile_pure (here r) (r_error_format r) (r_json r) Json_Model.failure_json file_set (the_compiler w r) gen false None m (io_disk s)) as (es & r' & E & O & K1 & K2 & K3).
  unfold and_then in K. rewrite E in K by reflexivity. exists es. split; [exact O|].
  split; [destruct r' as [x|x|x]; injection K as <- _; reflexivity|]. split.
  - intros (e & C). destruct (K1 e C) as (_ & ->). injection K as _ <-. eauto.
  - intros fs ds C. split.
    + intros Hf. destruct (K2 fs ds C Hf) as (-> & Kp). split; [|exact Kp]. destruct fs; injection K as _ <-; reflexivity.
    + intros Nf. destruct (K3 fs ds C Nf) as (e & ->). injection K as _ <-. eauto.
Qed.

Lemma found_groups w (V : visits_all (w_order w)) (St : forall k, w_stat w "" <> Ok k) r disk args m : found (here r) (w_stat w) (provider w r disk) args m ->
  forall d l, In (d, l) (ps_files (m_set m)) -> l <> [].
Proof.
  intros F. destruct (found_from w St r _ _ _ F) as (dir & Hd & P). apply File_Proofs3.provide_ok in P; [|exact V].
  destruct P as (_ & _ & root & fs & _ & _ & (_ & G) & _). intros d l I. now apply G in I.
Qed.
Lemma not_empty_commands w r gen ps cs : the_commands w r gen ps = Ok cs -> Forall (fun c => c <> "") cs.
Proof.
  intros H. destruct (downloader_for w r (ps_config ps)) as [d|] eqn:D.
  - destruct (commands_use w r _ _ _ _ H D) as (protoc & P & K).
    assert (Q : protoc <> "").
    { destruct K as [(base & _ & _ & ->)|(N & ->)]; [|exact N]. destruct base as [|a b]; [discriminate|]. apply path_join_not_empty. discriminate. }
    eapply Forall_impl; [|exact P]. intros c (x & ->). destruct protoc; [now destruct Q|discriminate].
  - unfold the_commands, with_downloader in H. rewrite D in H. cbn [bind] in H. discriminate H.
Qed.
