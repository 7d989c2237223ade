(** compile and generate in the whole program: the commands and what comes of running them. *)
From Coq Require Import Lia Sorted.
From Verif Require Import GoStrFacts GoPathFacts Settings_Spec File_Spec Exec_Spec Exec_Proofs Exec_Proofs3 Cmd_Spec Download_Spec Download_Proofs Text_Spec Text_Proofs
  Lint_Spec Protoc_Spec Protoc_Proofs Protoc_Proofs2 Protoc_Proofs3 Protoc_Proofs5 Protoc_Proofs6 Protoc_Proofs7
  Main_Model Main_Spec Main_Spec2 Main_Spec3 Main_Proofs Main_Proofs2 Main_Proofs5 Main_Proofs6 Main_Proofs7 Main_Proofs10.

Lemma no_temp ord grow nd dl wkt pp t t' gen full ii isi set s :
  Protoc_Model.get_cmd_metas ord grow nd dl wkt pp t gen false full ii isi set s = Protoc_Model.get_cmd_metas ord grow nd dl wkt pp t' gen false full ii isi set s.
Proof. reflexivity. Qed.
Lemma lines_nothing files allow stderr : lines_in stderr = [] -> Protoc_Model.parse_output files allow (trim_space stderr) = [].
Proof.
  intros H. pose proof (output_reported files allow (trim_space stderr)) as R. rewrite lines_trim, H in R. inversion R. reflexivity.
Qed.

Section Runs.
  Variable ord : order.
  Variable grow : nat -> nat -> nat.
  Variable nd dl : result unit.
  Variable wkt pp : result string.
  Variable temp : nat -> result string.
  Variable gen : bool.
  Variable set : proto_set.
  Variable mkdir_all : string -> option string.
  Variable fds : Type.
  Variable read_set : string -> result fds.
  Variable answer : list string -> Protoc_Model.outcome.
  Hypothesis V : reorders ord.
  Notation metas := (Protoc_Model.get_cmd_metas ord grow nd dl wkt pp temp gen false false false false set).
  Let runs ms a s := Protoc_Model.compile ord grow nd dl wkt pp temp gen false false false false set mkdir_all fds read_set (fun i => answer (nth i (map Protoc_Model.cm_args ms) [])) a s.
  Let allow := cc_allow_unused_imports (cfg_compile (ps_config set)).
  Lemma metas_commands s s' ms : metas s = (s', Ok ms) ->
    exists dirs blocks, Permutation dirs (filter (requested set) (ps_files set)) /\
      Forall2 (fun d b => commands_of wkt pp gen false false false false set d [] b) dirs blocks /\ ms = concat blocks.
  Proof.
    intros H. rewrite (no_temp _ _ _ _ _ _ _ (fun _ => Err "")) in H.
    assert (Hn : forall n f, (fun _ : nat => @Err string "") n = Ok f -> f <> "") by discriminate.
    destruct (cmd_metas_ok ord grow nd dl wkt pp (fun _ => Err "") gen false false false false set V Hn _ _ _ H) as (dirs & mades & blocks & P & F & L & -> & _).
    exists dirs, blocks. split; [exact P|]. split; [|reflexivity]. clear - F L. revert mades blocks F L. induction dirs as [|d dirs IH]; intros [|m mades] [|b blocks] F L; try discriminate L; inversion F; subst; constructor.
    - cbn [fst snd] in H2. enough (m = []) as -> by exact H2. destruct H2 as (protoc & is & de & pl & _ & _ & _ & D & _). apply D.
    - eapply IH; [eassumption|]. now injection L.
  Qed.
  Lemma metas_no_temp s s' ms : metas s = (s', Ok ms) -> forall m, In m ms -> Protoc_Model.cm_temp m = "".
  Proof.
    intros H m I. apply metas_commands in H as (dirs & blocks & _ & F & ->). apply in_concat in I as (b & Hb & I).
    destruct (Settings_Proofs.Forall2_In_r _ _ _ _ F Hb) as (d & _ & protoc & is & de & pl & _ & _ & -> & (_ & D) & P).
    apply in_app_iff in I as [I|I].
    - destruct (gen && _) in D; subst de; [destruct I|]. destruct I as [<-|[]]. reflexivity.
    - destruct gen; [|subst pl; destruct I]. destruct (Settings_Proofs.Forall2_In_r _ _ _ _ P I) as (g & _ & x & y & z & -> & _). reflexivity.
  Qed.
  Lemma sets_none s ms : (forall m, In m ms -> Protoc_Model.cm_temp m = "") -> Protoc_Model.get_sets fds read_set s ms = (s, Ok []).
  Proof. induction ms as [|m ms IH]; intros H; [reflexivity|]. cbn [Protoc_Model.get_sets]. rewrite (H m) by now left. cbn [is_empty]. apply IH. intros x Hx. apply H. now right. Qed.
  Let W ms := map (fun m => Protoc_Model.run_cmd_meta set m (answer (Protoc_Model.cm_args m))) ms.
  Lemma workers_are ms : map (Protoc_Model.worker_result set (fun i => answer (nth i (map Protoc_Model.cm_args ms) [])) ms) (List.seq 0 (length ms)) = W ms.
  Proof.
    unfold W. assert (K : forall pre post, map (Protoc_Model.worker_result set (fun i => answer (nth i (map Protoc_Model.cm_args (pre ++ post)) [])) (pre ++ post)) (List.seq (length pre) (length post)) =
      map (fun m => Protoc_Model.run_cmd_meta set m (answer (Protoc_Model.cm_args m))) post); [|apply (K [])].
    intros pre post. revert pre. induction post as [|m post IH]; intros pre; [reflexivity|]. cbn [length List.seq map]. f_equal.
    - unfold Protoc_Model.worker_result. rewrite nth_error_app2, PeanoNat.Nat.sub_diag by lia. cbn [nth_error]. rewrite map_app, app_nth2 by (rewrite map_length; lia).
      now rewrite map_length, PeanoNat.Nat.sub_diag.
    - specialize (IH (pre ++ [m])). rewrite <- app_assoc in IH. cbn [app] in IH. rewrite app_length in IH. cbn [length] in IH. rewrite PeanoNat.Nat.add_1_r in IH. exact IH.
  Qed.
  Lemma run_result s s1 ms a : metas s = (s1, Ok ms) -> Permutation a (List.seq 0 (length ms)) ->
    exists rs, Permutation rs (W ms) /\
      snd (runs ms a s) = match snd (if gen then Protoc_Model.make_gen_dirs ord set mkdir_all s1 else (s1, None)) with
        | Some e => Protoc_Model.Error fds e
        | None => if existsb Protoc_Model.panics rs then Protoc_Model.Crash fds
                  else match concat (map Protoc_Model.returned_errors rs) with
                       | _ :: _ => Protoc_Model.Error fds (Protoc_Model.join_errors (concat (map Protoc_Model.returned_errors rs)))
                       | [] => match concat (map Protoc_Model.returned_failures rs) with
                               | _ :: _ => Protoc_Model.Failures fds (Protoc_Model.fresh_failures (concat (map Protoc_Model.returned_failures rs)))
                               | [] => Protoc_Model.Sets fds []
                               end
                       end
        end.
  Proof.
    intros H P. pose proof (metas_no_temp _ _ _ H) as T. exists (map (Protoc_Model.worker_result set (fun i => answer (nth i (map Protoc_Model.cm_args ms) [])) ms) a).
    split; [rewrite <- workers_are; now apply Permutation_map|]. unfold runs, Protoc_Model.compile. rewrite H.
    destruct (if gen then _ else _) as [s2 [e|]]; [reflexivity|]. cbn [snd]. destruct (existsb _ _); [reflexivity|]. unfold Protoc_Model.finish.
    destruct (concat (map Protoc_Model.returned_errors _)); [|reflexivity]. destruct (concat (map Protoc_Model.returned_failures _)); [|reflexivity].
    rewrite sets_none by exact T. reflexivity.
  Qed.
End Runs.

Lemma fresh_perm fs : Permutation (Protoc_Model.fresh_failures fs) fs.
Proof.
  unfold Protoc_Model.fresh_failures. destruct (Text_Proofs.sort_failures_plain fs) as (srt & -> & Hp & _).
  assert (Hid : forall l : list failure, concat (map (fun o => match o with Some f => [f] | None => [] end) (map Some l)) = l).
  { induction l as [|x l IH]; [reflexivity|]. cbn. now rewrite IH. }
  rewrite Hid. now symmetry.
Qed.
Lemma none_of {A B} (f : A -> list B) l : concat (map f l) = [] <-> forall x, In x l -> f x = [].
Proof.
  split.
  - intros H x I. induction l as [|y l IH]; [destruct I|]. cbn in H. apply app_eq_nil in H as (H1 & H2). destruct I as [<-|I]; auto.
  - intros H. induction l as [|y l IH]; [reflexivity|]. cbn. rewrite (H y) by now left. apply IH. intros x I. apply H. now right.
Qed.
Lemma all_list {A B} (R : A -> B -> Prop) l : (forall x, In x l -> exists y, R x y) -> exists ys, Forall2 R l ys.
Proof.
  induction l as [|x l IH]; intros H; [exists []; constructor|]. destruct (H x (or_introl eq_refl)) as (y & Y). destruct IH as (ys & F); [intros z I; apply H; now right|].
  exists (y :: ys). now constructor.
Qed.

Lemma mapM_some {A B} (f : A -> result B) l : (forall x, In x l -> exists y, f x = Ok y) -> exists ys, mapM f l = Ok ys.
Proof.
  induction l as [|x l IH]; intros H; [eexists; reflexivity|]. destruct (H x (or_introl eq_refl)) as (y & E). destruct IH as (ys & E'); [intros z I; apply H; now right|].
  cbn [mapM]. rewrite E. cbn [bind]. rewrite E'. eexists. reflexivity.
Qed.
(** The directories that generators write to can be named, if the commands can. *)
Lemma dirs_flags ord grow wkt pp temp gen set dirs : forall s acc s' ms,
  Protoc_Model.dirs_cmds ord grow wkt pp temp gen false false false false set s acc dirs = (s', ms, None) ->
  forall d, In d dirs -> requested set d = true -> exists fl, Protoc_Model.get_plugin_flag_sets ord gen set (fst d) = Ok fl.
Proof.
  induction dirs as [|[dir files] dirs IH]; intros s acc s' ms H d I R; [destruct I|]. cbn [Protoc_Model.dirs_cmds] in H.
  destruct I as [<-|I].
  - unfold requested in R. cbn [fst] in *. rewrite R in H. cbn [negb] in H. destruct (Protoc_Model.get_plugin_flag_sets ord gen set dir) as [fl|e] eqn:E; [eauto|exfalso].
    unfold Protoc_Model.dir_cmds in H. destruct (Protoc_Model.get_includes _ _ _ _); [|discriminate H].
    destruct (Protoc_Model.append_includes _ _ _ _) as [s2 a2]. destruct pp; [|discriminate H].
    destruct (Protoc_Model.get_descriptor_set_file_path _ _ _ _ _) as [s3 [[path tmp]|]]; [|discriminate H]. rewrite E in H.
    destruct (if is_empty path then _ else _) in H. discriminate H.
  - destruct (negb (has_prefix dir (ps_dir set))); [eapply IH; eassumption|].
    destruct (Protoc_Model.dir_cmds _ _ _ _ _ _ _ _ _ _ _ _ _ _) as [[s2 a2] [e|]]; [discriminate H|]. eapply IH; eassumption.
Qed.
Lemma flags_fine ord grow nd dl wkt pp temp set s s1 ms : Protoc_Model.get_cmd_metas ord grow nd dl wkt pp temp true false false false false set s = (s1, Ok ms) ->
  forall d p, In d (ord "getCmdMetas" _ (ps_files set)) -> requested set d = true -> In p (gc_plugins (cfg_gen (ps_config set))) -> gp_file_suffix p <> "" ->
  exists rel, Protoc_Model.get_rel_output_file_path set (fst d) (gp_file_suffix p) = Ok rel.
Proof.
  unfold Protoc_Model.get_cmd_metas. destruct nd; [|discriminate]. destruct dl; [|discriminate].
  destruct (Protoc_Model.dirs_cmds _ _ _ _ _ _ _ _ _ _ _ _ _ _) as [[s2 a2] [e|]] eqn:E; [discriminate|]. intros _ d p I R Ip N.
  destruct (dirs_flags _ _ _ _ _ _ _ _ _ _ _ _ E d I R) as (fl & F). cbn [Protoc_Model.get_plugin_flag_sets negb] in F.
  apply mapM_ok_F2 in F. destruct (Settings_Proofs.Forall2_In_l _ _ _ _ F Ip) as (y & _ & Y). unfold Protoc_Model.get_plugin_flag_set in Y.
  apply is_empty_false in N. rewrite N in Y. destruct (Protoc_Model.get_rel_output_file_path set (fst d) (gp_file_suffix p)); [eauto|discriminate Y].
Qed.
Lemma dirs_fine ord set mk s : visits_all ord -> (forall d, mk d = None) ->
  (forall d p, In d (ord "getCmdMetas" _ (ps_files set)) -> requested set d = true -> In p (gc_plugins (cfg_gen (ps_config set))) -> gp_file_suffix p <> "" ->
   exists rel, Protoc_Model.get_rel_output_file_path set (fst d) (gp_file_suffix p) = Ok rel) ->
  snd (Protoc_Model.make_gen_dirs ord set mk s) = None.
Proof.
  intros V M F. unfold Protoc_Model.make_gen_dirs.
  assert (E : exists dss, mapM (Protoc_Model.plugin_gen_dirs ord set) (gc_plugins (cfg_gen (ps_config set))) = Ok dss).
  { apply mapM_some. intros p Ip. unfold Protoc_Model.plugin_gen_dirs. destruct (is_empty (gp_file_suffix p)) eqn:Es; [eauto|]. apply is_empty_false in Es.
    apply mapM_some. intros d I. apply filter_In in I as (I & R).
    assert (I' : In d (ord "getCmdMetas" _ (ps_files set))) by (eapply Permutation_in; [apply V|]; eapply Permutation_in; [symmetry; apply V|exact I]).
    destruct (F d p I' R Ip Es) as (rel & ->). eexists. reflexivity. }
  destruct E as (dss & ->). generalize (ord "genDirs" _ (dedup (concat dss))). intros l. revert s. induction l as [|d l IH]; intros s; [reflexivity|].
  cbn [Protoc_Model.make_dirs]. rewrite M. apply IH.
Qed.

Section Use.
  Variable w : world.
  Hypothesis V : visits_all (w_order w).
  Hypothesis En : forall n, Permutation (w_ended w n) (List.seq 0 n).
  Variable r : runner.
  Lemma commands_metas gen ps cs : the_commands w r gen ps = Ok cs <-> exists ms, the_cmd_metas w r gen false None ps = Ok ms /\ cs = map (join " ") (map Protoc_Model.cm_args ms).
  Proof.
    unfold the_commands, the_cmd_metas, Protoc_Model.protoc_commands. cbn [orb is_full full_imports full_source_info].
    destruct (Protoc_Model.get_cmd_metas _ _ _ _ _ _ _ _ _ _ _ _ _ _) as [s [ms|e]]; cbn [snd]; split.
    - intros [= <-]. exists ms. now rewrite map_map.
    - intros (ms' & [= <-] & ->). now rewrite map_map.
    - discriminate.
    - intros (ms' & E & _). discriminate E.
  Qed.
  Section One.
    Variable gen : bool.
    Variable ps : proto_set.
    Variable disk : string -> result string.
    Variable ms : list Protoc_Model.cmd_meta.
    Hypothesis Ms : the_cmd_metas w r gen false None ps = Ok ms.
    Let allow := cc_allow_unused_imports (cfg_compile (ps_config ps)).
    Let one m := Protoc_Model.run_cmd_meta ps m (w_protoc w disk (Protoc_Model.cm_args m)).
    Let dirs (s : Protoc_Model.state) := snd (if gen then Protoc_Model.make_gen_dirs (w_order w) ps (w_mkdir_all w) s else (s, None)).
    Lemma compiler_is : exists s1 rs,
      (exists s, Protoc_Model.get_cmd_metas (w_order w) (w_grow w)
           (with_downloader w r ps (fun _ => Ok tt)) (with_downloader w r ps (fun d => do _ <- cached w r d; Ok tt))
           (with_downloader w r ps (fun d => wkt_include_path d (cached w r d))) (with_downloader w r ps (fun d => protoc_path d (cached w r d)))
           (w_protoc_temp w) gen false false false false ps s = (s1, Ok ms)) /\
      Permutation rs (map one ms) /\
      the_compiler w r gen false None disk ps =
        match dirs s1 with
        | Some e => Err e
        | None => if existsb Protoc_Model.panics rs then Err "runtime error: invalid memory address or nil pointer dereference"
                  else match concat (map Protoc_Model.returned_errors rs) with
                       | _ :: _ => Err (Protoc_Model.join_errors (concat (map Protoc_Model.returned_errors rs)))
                       | [] => match concat (map Protoc_Model.returned_failures rs) with
                               | _ :: _ => Ok (Protoc_Model.fresh_failures (concat (map Protoc_Model.returned_failures rs)), [])
                               | [] => Ok ([], [])
                               end
                       end
        end.
    Proof.
      pose proof Ms as H. unfold the_cmd_metas in H. cbn [orb is_full full_imports full_source_info] in H.
      destruct (Protoc_Model.get_cmd_metas _ _ _ _ _ _ _ _ _ _ _ _ _ _) as [s1 o] eqn:E in H. cbn [snd] in H. subst o.
      pose proof (En (length ms)) as P. 
      destruct (run_result (w_order w) (w_grow w) _ _ _ _ _ gen ps (w_mkdir_all w) file_set (w_protoc_set w disk (map Protoc_Model.cm_args ms)) (w_protoc w disk) V _ _ _ _ E P) as (rs & Pr & R).
      exists s1, rs. split; [eauto|]. split; [exact Pr|]. unfold the_compiler. rewrite Ms. cbn [orb is_full full_imports full_source_info]. rewrite map_length. rewrite R.
      unfold dirs. destruct (snd (if gen then _ else _)); [reflexivity|]. destruct (existsb _ _); [reflexivity|].
      destruct (concat (map Protoc_Model.returned_errors rs)); [|reflexivity]. destruct (concat (map Protoc_Model.returned_failures rs)); reflexivity.
    Qed.
    Lemma runs_complaints m : In m ms -> Protoc_Model.panics (one m) = false -> Protoc_Model.returned_errors (one m) = [] ->
      complaints w disk allow (Protoc_Model.cm_args m) (Protoc_Model.returned_failures (one m)).
    Proof.
      intros _. unfold one, complaints. destruct (w_protoc w disk (Protoc_Model.cm_args m)) as [stderr e|k|].
      - destruct e as [|e|e].
        + destruct (run_reports ps m stderr NoError I) as (fs & -> & R). intros _ _. exact R.
        + destruct (run_reports ps m stderr (ExitError e) I) as (fs & -> & R). intros _ _. exact R.
        + discriminate.
      - destruct k; [discriminate|reflexivity].
      - discriminate.
    Qed.
    Lemma compiler_clean ds : the_compiler w r gen false None disk ps = Ok ([], ds) -> forall c, In c (map Protoc_Model.cm_args ms) -> accepts w disk allow c.
    Proof.
      destruct compiler_is as (s1 & rs & _ & P & ->). destruct (dirs s1); [discriminate|]. destruct (existsb _ _) eqn:Ep; [discriminate|].
      destruct (concat (map Protoc_Model.returned_errors rs)) eqn:Ee; [|discriminate].
      destruct (concat (map Protoc_Model.returned_failures rs)) as [|f fs] eqn:Ef.
      2:{ intros [= E _]. pose proof (fresh_perm (f :: fs)) as Q. rewrite E in Q. now apply Permutation_nil in Q. }
      intros _ c I. apply in_map_iff in I as (m & <- & I).
      assert (Ir : In (one m) rs) by (apply (Permutation_in _ (Permutation_sym P)); now apply in_map).
      assert (O : one m = Protoc_Model.Returned [] None).
      { destruct (one m) as [fs e|] eqn:O.
        - pose proof (proj1 (none_of _ _) Ef _ Ir) as F. pose proof (proj1 (none_of _ _) Ee _ Ir) as G. cbn in F, G. subst fs. destruct e; [discriminate G|reflexivity].
        - assert (K : existsb Protoc_Model.panics rs = true) by (apply existsb_exists; eexists; split; [exact Ir|reflexivity]). congruence. }
      exact (run_succeeds _ _ _ O).
    Qed.
    Lemma compiler_broken c : In c (map Protoc_Model.cm_args ms) -> breaks_down w disk c -> exists e, the_compiler w r gen false None disk ps = Err e.
    Proof.
      intros I B. destruct compiler_is as (s1 & rs & _ & P & ->). destruct (dirs s1); [eauto|]. destruct (existsb _ _) eqn:Ep; [eauto|].
      destruct (concat (map Protoc_Model.returned_errors rs)) eqn:Ee; [|eauto]. exfalso.
      apply in_map_iff in I as (m & <- & I). assert (Ir : In (one m) rs) by (apply (Permutation_in _ (Permutation_sym P)); now apply in_map).
      pose proof (proj1 (none_of _ _) Ee _ Ir) as F.
      assert (Np : Protoc_Model.panics (one m) = false).
      { destruct (Protoc_Model.panics (one m)) eqn:E; [|reflexivity]. assert (K : existsb Protoc_Model.panics rs = true) by (apply existsb_exists; eauto). congruence. }
      unfold breaks_down in B. unfold one in F, Np. destruct (w_protoc w disk (Protoc_Model.cm_args m)) as [stderr [|e|e]|k|].
      - exact B.
      - cbn in F. rewrite lines_nothing in F by exact B. discriminate F.
      - discriminate F.
      - cbn in F. destruct k; [discriminate F|now apply B].
      - discriminate Np.
    Qed.
    Lemma compiler_failures fs ds : the_compiler w r gen false None disk ps = Ok (fs, ds) -> exists fss, Forall2 (complaints w disk allow) (map Protoc_Model.cm_args ms) fss /\ Permutation fs (concat fss).
    Proof.
      intros C. exists (map (fun m => Protoc_Model.returned_failures (one m)) ms). revert C.
      destruct compiler_is as (s1 & rs & _ & P & ->). destruct (dirs s1); [discriminate|]. destruct (existsb _ _) eqn:Ep; [discriminate|].
      destruct (concat (map Protoc_Model.returned_errors rs)) eqn:Ee; [|discriminate]. intros C.
      assert (Pf : Permutation (concat (map Protoc_Model.returned_failures rs)) (concat (map (fun m => Protoc_Model.returned_failures (one m)) ms))).
      { rewrite <- (map_map one Protoc_Model.returned_failures). now apply concat_perm. }
      split.
      - assert (K : forall l, incl l ms -> Forall2 (complaints w disk allow) (map Protoc_Model.cm_args l) (map (fun m => Protoc_Model.returned_failures (one m)) l)); [|apply K, incl_refl].
        induction l as [|m l IH]; intros I; [constructor|]. constructor; [|apply IH; intros x Hx; apply I; now right].
        assert (Im : In m ms) by (apply I; now left). assert (Ir : In (one m) rs) by (apply (Permutation_in _ (Permutation_sym P)); now apply in_map).
        apply runs_complaints; [exact Im| |exact (proj1 (none_of _ _) Ee _ Ir)].
        destruct (Protoc_Model.panics (one m)) eqn:E; [|reflexivity]. assert (Q : existsb Protoc_Model.panics rs = true) by (apply existsb_exists; eauto). congruence.
      - destruct (concat (map Protoc_Model.returned_failures rs)) as [|f l]; [injection C as <- _; exact Pf|]. injection C as <- _. now rewrite fresh_perm.
    Qed.
    Lemma compiler_silent : (forall c, In c (map Protoc_Model.cm_args ms) -> says_nothing w disk c) -> (gen = true -> forall d, w_mkdir_all w d = None) ->
      the_compiler w r gen false None disk ps = Ok ([], []).
    Proof.
      intros S Mk. destruct compiler_is as (s1 & rs & (s & G) & P & ->).
      assert (D : dirs s1 = None).
      { unfold dirs. destruct gen eqn:Eg; [|reflexivity]. apply dirs_fine; [exact V|now apply Mk|]. eapply flags_fine; exact G. }
      rewrite D.
      assert (A : forall x, In x rs -> x = Protoc_Model.Returned [] None).
      { intros x I. apply (Permutation_in _ P) in I. apply in_map_iff in I as (m & <- & I). destruct (S (Protoc_Model.cm_args m)) as (stderr & E & L); [now apply in_map|].
        unfold one. rewrite E. cbn [Protoc_Model.run_cmd_meta]. now rewrite lines_nothing by exact L. }
      assert (E1 : existsb Protoc_Model.panics rs = false).
      { apply not_true_is_false. intros K. apply existsb_exists in K as (x & I & K). apply A in I. now subst x. }
      rewrite E1. rewrite (proj2 (none_of Protoc_Model.returned_errors rs)) by (intros x I; apply A in I; now subst x).
      rewrite (proj2 (none_of Protoc_Model.returned_failures rs)) by (intros x I; apply A in I; now subst x). reflexivity.
    Qed.
  End One.
End Use.
