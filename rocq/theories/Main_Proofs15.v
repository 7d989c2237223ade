(** The descriptor sets of the whole program: which commands make them, and what becomes of the answers. *)
From Coq Require Import Lia Sorted Permutation.
From Verif Require Settings_Proofs Protoc_Proofs2 Protoc_Proofs3 Protoc_Proofs7.
From Verif Require Import GoStrFacts GoPathFacts Settings_Spec File_Spec Exec_Spec Exec_Proofs Exec_Proofs3 Cmd_Spec Download_Spec Download_Proofs
  Protoc_Spec Main_Model Main_Spec Main_Spec2 Main_Spec3 Main_Spec4 Main_Proofs Main_Proofs2 Main_Proofs5 Main_Proofs6 Main_Proofs7 Main_Proofs10 Main_Proofs11 Main_Proofs12 Main_Proofs13
  Props_Main Props_Main2 Props_Main3 Props_Main4.

(** ** The temporary files are used in turn *)
Section Temps.
  Variable ord : order.
  Variable grow : nat -> nat -> nat.
  Variable wkt pp : result string.
  Variable temp : nat -> result string.
  Variable full ii isi : bool.
  Variable set : proto_set.
  Lemma st_append_temps s a xs s' a' : Protoc_Model.st_append grow s a xs = (s', a') -> Protoc_Model.st_temps s' = Protoc_Model.st_temps s.
  Proof. unfold Protoc_Model.st_append. destruct (sl_append _ _ _ _). intros [= <- _]. reflexivity. Qed.
  Lemma append_files_temps fs : forall s a s' a', Protoc_Model.append_files grow s a fs = (s', a') -> Protoc_Model.st_temps s' = Protoc_Model.st_temps s.
  Proof.
    induction fs as [|f fs IH]; intros s a s' a' H; cbn [Protoc_Model.append_files] in H; [now injection H as <- _|].
    destruct (Protoc_Model.st_append grow s a [pf_path f]) as [s1 a1] eqn:E. apply IH in H. rewrite H. eapply st_append_temps. exact E.
  Qed.
  Lemma append_includes_temps fs : forall s a s' a', Protoc_Model.append_includes grow s a fs = (s', a') -> Protoc_Model.st_temps s' = Protoc_Model.st_temps s.
  Proof.
    induction fs as [|f fs IH]; intros s a s' a' H; cbn [Protoc_Model.append_includes] in H; [now injection H as <- _|].
    destruct (Protoc_Model.st_append grow s a ["-I"; f]) as [s1 a1] eqn:E. apply IH in H. rewrite H. eapply st_append_temps. exact E.
  Qed.
  Lemma dir_temps s acc dir files s' acc' : Protoc_Model.dir_cmds ord grow wkt pp temp false true full ii isi set s acc dir files = (s', acc', None) ->
    (forall n f, temp n = Ok f -> f <> "") ->
    exists m, acc' = acc ++ [m] /\ temp (Protoc_Model.st_temps s) = Ok (Protoc_Model.cm_temp m) /\ Protoc_Model.st_temps s' = S (Protoc_Model.st_temps s).
  Proof.
    intros H Tn. unfold Protoc_Model.dir_cmds in H. destruct (get_includes _ _ _ _) as [is|]; [|discriminate H].
    destruct (Protoc_Model.append_includes grow s nil_slice is) as [s1 args] eqn:E1. apply append_includes_temps in E1.
    destruct pp as [protoc|]; [|discriminate H]. unfold Protoc_Model.get_descriptor_set_file_path in H. rewrite E1 in H.
    destruct (temp (Protoc_Model.st_temps s)) as [f|] eqn:Et; [|discriminate H]. rewrite (proj2 (is_empty_false f)) in H by (eapply Tn; eassumption).
    match type of H with context [Protoc_Model.st_append grow ?x args ["-o"; f]] => destruct (Protoc_Model.st_append grow x args ["-o"; f]) as [s2 a2] eqn:E2 end. apply st_append_temps in E2.
    cbn in E2.
    assert (K : exists s3 a3, (if negb full || ii then Protoc_Model.st_append grow s2 a2 ["--include_imports"] else (s2, a2)) = (s3, a3) /\ Protoc_Model.st_temps s3 = Protoc_Model.st_temps s2).
    { destruct (negb full || ii); [|eauto]. destruct (Protoc_Model.st_append grow s2 a2 ["--include_imports"]) as [s3 a3] eqn:E3. apply st_append_temps in E3. eauto. }
    destruct K as (s3 & a3 & Ek & E3). rewrite Ek in H.
    assert (K : exists s4 a4, (if isi then Protoc_Model.st_append grow s3 a3 ["--include_source_info"] else (s3, a3)) = (s4, a4) /\ Protoc_Model.st_temps s4 = Protoc_Model.st_temps s3).
    { destruct isi; [|eauto]. destruct (Protoc_Model.st_append grow s3 a3 ["--include_source_info"]) as [s4 a4] eqn:E4. apply st_append_temps in E4. eauto. }
    destruct K as (s4 & a4 & Ek' & E4). rewrite Ek' in H.
    destruct (Protoc_Model.append_files grow s4 a4 files) as [s5 a5] eqn:E5. apply append_files_temps in E5.
    cbn [Protoc_Model.get_plugin_flag_sets negb Protoc_Model.plugin_cmds] in H. injection H as <- <-. eexists. split; [reflexivity|]. split; [reflexivity|]. congruence.
  Qed.
  Lemma dirs_temps dirs : (forall n f, temp n = Ok f -> f <> "") -> forall s acc s' acc',
    Protoc_Model.dirs_cmds ord grow wkt pp temp false true full ii isi set s acc dirs = (s', acc', None) ->
    exists ms, acc' = acc ++ ms /\ Forall2 (fun i m => temp i = Ok (Protoc_Model.cm_temp m)) (List.seq (Protoc_Model.st_temps s) (length ms)) ms.
  Proof.
    intros Tn. induction dirs as [|[dir files] dirs IH]; intros s acc s' acc' H; cbn [Protoc_Model.dirs_cmds] in H.
    - injection H as <- <-. exists []. rewrite app_nil_r. split; [reflexivity|constructor].
    - destruct (negb _); [now apply IH in H|].
      destruct (Protoc_Model.dir_cmds _ _ _ _ _ _ _ _ _ _ _ s acc dir files) as [[s1 acc1] [m|]] eqn:E; [discriminate|]. apply dir_temps in E as (m & -> & T & Ts); [|exact Tn].
      apply IH in H as (ms & -> & F). exists (m :: ms). split; [now rewrite <- app_assoc|]. cbn [length List.seq]. constructor; [exact T|]. now rewrite <- Ts.
  Qed.
End Temps.

Section Shape.
  Variable w : world.
  Hypothesis V : visits_all (w_order w).
  Hypothesis Tn : forall n f, w_protoc_temp w n = Ok f -> f <> "".
  Hypothesis En : forall n, Permutation (w_ended w n) (List.seq 0 n).
  Variable r : runner.
  Variable set : bool.
  Variable full : option (bool * bool).
  Hypothesis Do : set || is_full full = true.
  Variable ps : proto_set.
  Let c := ps_config ps.
  Let imports := negb (is_full full) || full_imports full.
  Let info := full_source_info full.
  Let metas := Protoc_Model.get_cmd_metas (w_order w) (w_grow w)
           (with_downloader w r ps (fun _ => Ok tt)) (with_downloader w r ps (fun d => do _ <- cached w r d; Ok tt))
           (with_downloader w r ps (fun d => wkt_include_path d (cached w r d))) (with_downloader w r ps (fun d => protoc_path d (cached w r d)))
           (w_protoc_temp w) false true (is_full full) (full_imports full) (full_source_info full) ps Protoc_Model.state_0.
  Lemma metas_temps s1 ms : metas = (s1, Ok ms) -> Forall2 (fun i t => w_protoc_temp w i = Ok t) (List.seq 0 (length ms)) (map Protoc_Model.cm_temp ms).
  Proof.
    unfold metas, Protoc_Model.get_cmd_metas. destruct (with_downloader w r ps (fun _ => Ok tt)); [|discriminate]. destruct (with_downloader w r ps (fun d => do _ <- cached w r d; Ok tt)); [|discriminate].
    destruct (Protoc_Model.dirs_cmds _ _ _ _ _ _ _ _ _ _ _ _ _ _) as [[s2 ms2] [e|]] eqn:E; [discriminate|]. intros [= _ <-]. apply dirs_temps in E as (ms & -> & F); [|exact Tn].
    cbn [app]. cbn in F. clear - F. generalize dependent (List.seq 0 (length ms)). induction ms as [|m ms IH]; intros l F; inversion F; subst; constructor; auto.
  Qed.
  Hypothesis Wkt : cc_include_wkt (cfg_compile c) = true.
  Hypothesis Cd : cfg_dir c <> "".
  Lemma set_shape s1 ms : metas = (s1, Ok ms) -> (exists d, In d (ps_files ps) /\ requested ps d = true) ->
    exists protoc wkt dirs,
      with_downloader w r ps (fun d => protoc_path d (cached w r d)) = Ok protoc /\ with_downloader w r ps (fun d => wkt_include_path d (cached w r d)) = Ok wkt /\
      Permutation dirs (filter (requested ps) (ps_files ps)) /\
      Forall2 (fun d m => runs_on c protoc wkt (fst d) (set_wanted imports info (Protoc_Model.cm_temp m)) (map pf_path (snd d)) (Protoc_Model.cm_args m)) dirs ms.
  Proof.
    intros E Some_dir. unfold metas in E.
    apply (Protoc_Proofs3.cmd_metas_ok (w_order w) (w_grow w) _ _ _ _ (w_protoc_temp w) false true (is_full full) (full_imports full) (full_source_info full) ps V Tn) in E
      as (dirs & mades & blocks & P & F & L & -> & _).
    set (pp := with_downloader w r ps (fun d => protoc_path d (cached w r d))) in *. set (wp := with_downloader w r ps (fun d => wkt_include_path d (cached w r d))) in *.
    assert (X : exists protoc wkt, pp = Ok protoc /\ wp = Ok wkt).
    { destruct Some_dir as (d & I & R). assert (Id : In d dirs) by (apply (Permutation_in _ (Permutation_sym P)), filter_In; auto).
      destruct (Settings_Proofs.Forall2_In_l _ _ _ _ F Id) as (b & _ & protoc & is & de & pl & E1 & (wk & tail & _ & Y & _) & _). fold c in Y. rewrite Wkt in Y. destruct Y as (x & Y & _). eauto. }
    destruct X as (protoc & wkt & Ep & Ew). exists protoc, wkt, dirs. split; [exact Ep|]. split; [exact Ew|]. split; [exact P|].
    clear P Some_dir. revert mades blocks F L. induction dirs as [|d dirs IH]; intros [|made mades] [|b blocks] F L; try discriminate L; inversion F; subst; [constructor|].
    cbn [fst snd] in H2. destruct H2 as (protoc' & is & de & pl & E1 & (wk & tail & Ei & Y & Tl) & -> & (f & -> & ->) & ->). fold c in Ei, Y. rewrite Wkt in Y. destruct Y as (x & Y & ->).
    rewrite Ep in E1. injection E1 as <-. rewrite Ew in Y. injection Y as <-. cbn [concat app]. constructor; [|eapply IH; [eassumption|now injection L]].
    exists is, tail. split; [reflexivity|]. split; [exact Ei|].
    assert (Bd : base_dir ps = cfg_dir c) by (unfold base_dir; fold c; now rewrite (proj2 (is_empty_false _) Cd)). rewrite Bd in Tl. tauto.
  Qed.

  (** ** What becomes of the answers *)
  Variable disk : string -> result string.
  Let allow := cc_allow_unused_imports (cfg_compile c).
  Let one m := Protoc_Model.run_cmd_meta ps m (w_protoc w disk (Protoc_Model.cm_args m)).
  Lemma read_sets ms : (forall m, In m ms -> Protoc_Model.cm_temp m <> "") -> forall s s' ds rd, Protoc_Model.get_sets file_set rd s ms = (s', Ok ds) ->
    Forall2 (fun m st => rd (Protoc_Model.cm_temp m) = Ok st) ms (map (@Protoc_Model.ds_set file_set) ds).
  Proof.
    intros N. induction ms as [|m ms IH]; intros s s' ds rd H; cbn [Protoc_Model.get_sets] in H; [injection H as _ <-; constructor|].
    rewrite (proj2 (is_empty_false _) (N m (or_introl eq_refl))) in H. destruct (rd (Protoc_Model.cm_temp m)) as [d|] eqn:E; [|discriminate].
    destruct (Protoc_Model.get_sets file_set rd _ ms) as [s2 [ds2|]] eqn:E2; [|discriminate]. injection H as _ <-. cbn [map]. constructor; [exact E|].
    eapply IH; [|exact E2]. intros x Hx. apply N. now right.
  Qed.
  Lemma set_compiler fs sets : the_compiler w r false set full disk ps = Ok (fs, sets) ->
    exists s1 ms fss, metas = (s1, Ok ms) /\ Forall2 (complaints w disk allow) (map Protoc_Model.cm_args ms) fss /\ Permutation fs (concat fss) /\
      (fs = [] -> (forall cmd, In cmd (map Protoc_Model.cm_args ms) -> accepts w disk allow cmd) /\
         Forall2 (fun t st => w_protoc_set w disk (map Protoc_Model.cm_args ms) t = Ok st) (map Protoc_Model.cm_temp ms) sets).
  Proof.
    unfold the_compiler, the_cmd_metas. rewrite Do. unfold Protoc_Model.compile. fold metas. destruct metas as [s1 [ms|e]] eqn:M; [|discriminate]. cbn [snd].
    rewrite map_length. set (rs := map _ (w_ended w (length ms))).
    assert (P : Permutation rs (map one ms)).
    { unfold rs. etransitivity; [apply Permutation_map, En|]. unfold one. rewrite <- (workers_are ps (w_protoc w disk)). reflexivity. }
    destruct (existsb Protoc_Model.panics rs) eqn:Ep; [discriminate|]. unfold Protoc_Model.finish.
    destruct (concat (map Protoc_Model.returned_errors rs)) eqn:Ee; [|discriminate]. intros C. exists s1, ms, (map (fun m => Protoc_Model.returned_failures (one m)) ms). split; [reflexivity|].
    assert (Pf : Permutation (concat (map Protoc_Model.returned_failures rs)) (concat (map (fun m => Protoc_Model.returned_failures (one m)) ms))).
    { rewrite <- (map_map one Protoc_Model.returned_failures). now apply Protoc_Proofs2.concat_perm. }
    assert (Ir : forall m, In m ms -> In (one m) rs) by (intros m I; apply (Permutation_in _ (Permutation_sym P)); now apply in_map).
    assert (Np : forall m, In m ms -> Protoc_Model.panics (one m) = false).
    { intros m I. destruct (Protoc_Model.panics (one m)) eqn:E; [|reflexivity]. assert (Q : existsb Protoc_Model.panics rs = true) by (apply existsb_exists; eauto). congruence. }
    split; [|split].
    - assert (K : forall l, incl l ms -> Forall2 (complaints w disk allow) (map Protoc_Model.cm_args l) (map (fun m => Protoc_Model.returned_failures (one m)) l)); [|apply K, incl_refl].
      induction l as [|m l IH]; intros I; [constructor|]. constructor; [|apply IH; intros x Hx; apply I; now right].
      assert (Im : In m ms) by (apply I; now left). eapply runs_complaints; [exact Im|now apply Np|]. exact (proj1 (none_of _ _) Ee _ (Ir m Im)).
    - destruct (concat (map Protoc_Model.returned_failures rs)) as [|f l].
      + destruct (Protoc_Model.get_sets _ _ _ _) as [s2 [ds|]] in C; [|discriminate C]. injection C as <- _. exact Pf.
      + injection C as <- _. now rewrite fresh_perm.
    - intros ->. destruct (concat (map Protoc_Model.returned_failures rs)) as [|f l] eqn:Ef.
      2:{ injection C as E _. pose proof (fresh_perm (f :: l)) as Q. rewrite E in Q. now apply Permutation_nil in Q. }
      split.
      + intros cmd I. apply in_map_iff in I as (m & <- & I).
        assert (O : one m = Protoc_Model.Returned [] None).
        { pose proof (proj1 (none_of _ _) Ef _ (Ir m I)) as F. pose proof (proj1 (none_of _ _) Ee _ (Ir m I)) as G. pose proof (Np m I) as X. destruct (one m) as [fs e|]; [|discriminate X].
          cbn in F, G. subst fs. destruct e; [discriminate G|reflexivity]. }
        exact (Protoc_Proofs7.run_succeeds _ _ _ O).
      + destruct (Protoc_Model.get_sets _ _ _ _) as [s2 [ds|]] eqn:G in C; [|discriminate C]. injection C as <-.
        assert (N : forall m, In m ms -> Protoc_Model.cm_temp m <> "").
        { intros m I. pose proof (metas_temps _ _ M) as T. apply (in_map Protoc_Model.cm_temp) in I. destruct (Settings_Proofs.Forall2_In_r _ _ _ _ T I) as (i & _ & X). eapply Tn. exact X. }
        apply (read_sets ms N) in G. clear - G. set (f := w_protoc_set w disk (map Protoc_Model.cm_args ms)) in *. clearbody f. induction G; cbn [map]; constructor; auto.
  Qed.
End Shape.
