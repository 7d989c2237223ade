(** The commands of the cache and those that use it. *)
From Verif Require Import GoStrFacts Download_Proofs.
From Verif Require Import Cmd_Spec Cmd_Proofs3 Main_Model Main_Spec.

(** Every command runs the program that was found. *)
Section Heads.
  Variable ord : map_order.
  Variable grow : nat -> nat -> nat.
  Variable new_downloader download : result unit.
  Variable wkt : result string.
  Variable protoc : string.
  Variable temp_file : nat -> result string.
  Variable do_gen do_set full_control include_imports include_source_info : bool.
  Variable ps : proto_set.
  Definition headed (ms : list Protoc_Model.cmd_meta) : Prop := Forall (fun m => exists r, Protoc_Model.cm_args m = protoc :: r) ms.
  Lemma headed_snoc ms m : headed ms -> (exists r, Protoc_Model.cm_args m = protoc :: r) -> headed (ms ++ [m]).
  Proof. intros A B. apply Forall_app. split; [exact A|]. now repeat constructor. Qed.
  Lemma plugin_heads dir files args flags : forall s acc s' acc', headed acc ->
    Protoc_Model.plugin_cmds grow s protoc dir files args flags acc = (s', acc') -> headed acc'.
  Proof.
    induction flags as [|fl r IH]; intros s acc s' acc' H; cbn [Protoc_Model.plugin_cmds]; [now intros [= <- <-]|].
    destruct (Protoc_Model.st_append grow s args fl) as [s1 a1]. destruct (Protoc_Model.append_files grow s1 a1 files) as [s2 a2].
    apply IH. apply headed_snoc; [assumption|]. eexists. reflexivity.
  Qed.
  Lemma dir_heads s acc dir files s' acc' e : headed acc ->
    Protoc_Model.dir_cmds ord grow wkt (Ok protoc) temp_file do_gen do_set full_control include_imports include_source_info ps s acc dir files = (s', acc', e) ->
    headed acc'.
  Proof.
    intros H. unfold Protoc_Model.dir_cmds. cbv zeta. destruct (Protoc_Model.get_includes _ _ _ _) as [is|]; [|now intros [= <- <- _]].
    destruct (Protoc_Model.append_includes _ _ _ _) as [s1 a1].
    destruct (Protoc_Model.get_descriptor_set_file_path _ _ _ _ _) as [s2 [[path is_temp]|]]; [|now intros [= <- <- _]].
    destruct (is_empty path).
    - destruct (Protoc_Model.get_plugin_flag_sets _ _ _) as [flags|]; [|now intros [= <- <- _]].
      destruct (Protoc_Model.plugin_cmds _ _ _ _ _ _ _ _) as [s3 acc3] eqn:E. intros [= _ <- _]. eapply plugin_heads; eassumption.
    - destruct (Protoc_Model.st_append grow s2 a1 _) as [s3 a3].
      match goal with |- context [let '(s, i_args) := (if is_empty ?t then ?x else ?y) in _] => destruct (if is_empty t then x else y) as [s4 a4] end.
      destruct (Protoc_Model.append_files grow s4 a4 files) as [s5 a5].
      set (acc1 := acc ++ _). assert (H1 : headed acc1) by (apply headed_snoc; [assumption|eexists; reflexivity]). clearbody acc1.
      destruct (Protoc_Model.get_plugin_flag_sets _ _ _) as [flags|]; [|now intros [= <- <- _]].
      destruct (Protoc_Model.plugin_cmds _ _ _ _ _ _ _ _) as [s6 acc3] eqn:E. intros [= _ <- _]. eapply plugin_heads; eassumption.
  Qed.
  Lemma dirs_heads dirs : forall s acc s' acc' e, headed acc ->
    Protoc_Model.dirs_cmds ord grow wkt (Ok protoc) temp_file do_gen do_set full_control include_imports include_source_info ps s acc dirs = (s', acc', e) ->
    headed acc'.
  Proof.
    induction dirs as [|[dir files] r IH]; intros s acc s' acc' e H; cbn [Protoc_Model.dirs_cmds]; [now intros [= _ <- _]|].
    destruct (negb _); [now apply IH|].
    destruct (Protoc_Model.dir_cmds _ _ _ _ _ _ _ _ _ _ _ _ _ _ _) as [[s1 acc1] [m|]] eqn:E.
    - intros [= _ <- _]. eapply dir_heads; eassumption.
    - apply IH. eapply dir_heads; eassumption.
  Qed.
  Lemma commands_heads s s' cs :
    Protoc_Model.protoc_commands ord grow new_downloader download wkt (Ok protoc) temp_file do_gen do_set full_control include_imports include_source_info ps s = (s', Ok cs) ->
    Forall (fun c => exists r, c = protoc +++ r) cs.
  Proof.
    unfold Protoc_Model.protoc_commands, Protoc_Model.get_cmd_metas. destruct new_downloader; [|discriminate]. destruct download; [|discriminate].
    destruct (Protoc_Model.dirs_cmds _ _ _ _ _ _ _ _ _ _ _ _ _ _) as [[s1 ms] [m|]] eqn:E; [discriminate|]. intros [= _ <-].
    apply dirs_heads in E; [|constructor]. apply Forall_map. eapply Forall_impl; [|exact E]. intros m (r & ->).
    destruct r as [|x r]; [exists ""; cbn; now rewrite sapp_nil|]. cbn [join]. eexists. reflexivity.
  Qed.
End Heads.
Lemma sapp_empty a : a +++ "" = a.
Proof. apply sapp_nil. Qed.

(** get_meta does nothing, and depends on the runner only through these. *)
Lemma get_meta_pure work stat get args s : exists o, get_meta work stat get args s = (s, o) /\ forall s', get_meta work stat get args s' = (s', o).
Proof.
  unfold get_meta, and_then, Exec_Model.check, ret, fail. destruct (stat _) as [[]|]; eauto; destruct (get _ _); eauto.
Qed.
Lemma println_all cs : Forall (fun c => c <> "") cs -> forall s,
  each println cs s = (mk_io (io_disk s) (io_done s ++ map (fun c => Printed (c +++ String newline "")) cs), Value tt).
Proof.
  induction 1 as [|c cs N F IH]; intros s; [cbn; rewrite app_nil_r; now destruct s|]. cbn [each map]. unfold and_then.
  unfold println at 1. destruct c; [now destruct N|]. cbn [is_empty]. unfold print, emit. rewrite IH. cbn [io_disk io_done].
  rewrite <- app_assoc. reflexivity.
Qed.

Section Use.
  Variable w : world.
  Variable r1 r2 : runner.
  Hypothesis same_dir : r_work_dir r1 = r_work_dir r2.
  Hypothesis same_cache : r_cache_path r1 = r_cache_path r2.
  Hypothesis same_data : r_config_data r1 = r_config_data r2.
  Hypothesis same_bin : r_protoc_bin_path r1 = r_protoc_bin_path r2.
  Hypothesis same_wkt : r_protoc_wkt_path r1 = r_protoc_wkt_path r2.
  Hypothesis same_url : r_protoc_url r1 = r_protoc_url r2.
  Hypothesis same_walk : r_walk_timeout r1 = r_walk_timeout r2.
  Lemma same_provider disk : provider w r1 disk = provider w r2 disk.
  Proof. unfold provider, here. now rewrite same_dir, same_data, same_walk. Qed.
  Lemma same_downloader c : downloader_for w r1 c = downloader_for w r2 c.
  Proof. unfold downloader_for. now rewrite same_cache, same_url, same_bin, same_wkt. Qed.

  Lemma commands_use gen ps cs d : the_commands w r2 gen ps = Ok cs -> downloader_for w r2 (ps_config ps) = Ok d ->
    exists protoc, Forall (fun c => exists r, c = protoc +++ r) cs /\
      ((exists base, base_path (w_goos w) (w_goarch w) (w_getenv w) (here r2) (w_digest w) d = Ok base /\ d_bin_path d = "" /\ protoc = path_join [base; "bin"; "protoc"]) \/
       (d_bin_path d <> "" /\ protoc = d_bin_path d)).
  Proof.
    intros H D. unfold the_commands, with_downloader in H. rewrite D in H. cbn [bind] in H.
    destruct (Protoc_Model.protoc_commands _ _ _ _ _ _ _ _ _ _ _ _ _ _) as [s [l|]] eqn:E; [|discriminate H]. cbn [snd] in H. injection H as ->.
    destruct (protoc_path d (cached w r2 d)) as [protoc|m] eqn:P.
    - exists protoc. split; [eapply commands_heads; exact E|]. unfold protoc_path in P. destruct (d_bin_path d) as [|a b] eqn:B; cbn [is_empty negb] in P.
      + left. unfold cached in P. rewrite B in P. cbn [is_empty negb] in P.
        destruct (base_path _ _ _ _ _ _) as [base|]; [|discriminate P]. cbn [bind] in P. destruct (w_download w base); [|discriminate P]. cbn [bind] in P.
        injection P as <-. exists base. auto.
      + right. injection P as <-. split; [discriminate|reflexivity].
    - exfalso. unfold Protoc_Model.protoc_commands, Protoc_Model.get_cmd_metas in E. unfold protoc_path in P.
      destruct (negb _); [discriminate P|]. destruct (cached w r2 d); [discriminate P|]. discriminate E.
  Qed.
  Lemma dry_run_is gen args s s2 : Main_Model.method w r2 (if gen : bool then CallGen args true else CallCompile args true) s = (s2, Value tt) ->
    exists m cs, get_meta (here r2) (w_stat w) (provider w r2 (io_disk s)) args s = (s, Value m) /\ the_commands w r2 gen (m_set m) = Ok cs /\
      (Forall (fun c => c <> "") cs -> s2 = mk_io (io_disk s) (io_done s ++ map (fun c => Printed (c +++ String newline "")) cs)).
  Proof.
    intros H.
    assert (K : (run m <- get_meta (here r2) (w_stat w) (provider w r2 (io_disk s)) args;
                 compile (here r2) (r_error_format r2) (r_json r2) Json_Model.failure_json file_set (the_compiler w r2) (the_commands w r2) gen false true m ;; ret tt) s = (s2, Value tt)).
    { destruct gen; exact H. }
    clear H. unfold and_then at 1 in K. destruct (get_meta_pure (here r2) (w_stat w) (provider w r2 (io_disk s)) args s) as (o & E & _).
    rewrite E in *. destruct o as [m|m|m]; try discriminate K. unfold compile in K. 
    destruct (the_commands w r2 gen (m_set m)) as [cs|e] eqn:C; [|discriminate K]. exists m, cs. split; [reflexivity|]. split; [exact C|].
    intros N. unfold and_then, Exec_Model.check, ret in K. rewrite (println_all cs N) in K. now injection K.
  Qed.
  Lemma update_is args s s1 : Main_Model.method w r1 (CallCacheUpdate args) s = (s1, Value tt) ->
    exists m d, get_meta (here r1) (w_stat w) (provider w r1 (io_disk s)) args s = (s, Value m) /\ downloader_for w r1 (ps_config (m_set m)) = Ok d /\
      ((d_bin_path d = "" /\ exists base, base_path (w_goos w) (w_goarch w) (w_getenv w) (here r1) (w_digest w) d = Ok base /\
          s1 = mk_io (io_disk s) (io_done s ++ [Downloaded base])) \/
       (d_bin_path d <> "" /\ s1 = s)).
  Proof.
    intros H. change (cache_update w r1 args s = (s1, Value tt)) in H. unfold cache_update in H. unfold and_then at 1 in H.
    destruct (get_meta_pure (here r1) (w_stat w) (provider w r1 (io_disk s)) args s) as (o & E & _). rewrite E in *.
    destruct o as [m|m|m]; try discriminate H. destruct (downloader_for w r1 (ps_config (m_set m))) as [d|] eqn:D; [|discriminate H].
    exists m, d. split; [reflexivity|]. split; [exact D|]. unfold and_then, Exec_Model.check, ret in H.
    destruct (d_bin_path d).
    - left. split; [reflexivity|]. destruct (base_path _ _ _ _ _ _) as [base|]; [|discriminate H]. exists base. split; [reflexivity|].
      cbn in H. destruct (w_download w base); [|discriminate H]. now injection H.
    - right. split; [discriminate|]. now injection H.
  Qed.
  Lemma path_clean_some p : p <> "" -> path_clean p <> "".
  Proof. intros N E. assert (K := path_join_not_empty p []). rewrite path_join_cons in K by exact N. now apply K. Qed.
  Lemma update_then_use gen args s s1 s2 : 
    Main_Model.method w r1 (CallCacheUpdate args) s = (s1, Value tt) ->
    Main_Model.method w r2 (if gen : bool then CallGen args true else CallCompile args true) s = (s2, Value tt) ->
    exists protoc cs, io_done s2 = io_done s ++ map (fun c => Printed (c +++ String newline "")) cs /\ Forall (fun c => exists r, c = protoc +++ r) cs /\
      ((r_protoc_bin_path r1 = "" /\ exists base, io_done s1 = io_done s ++ [Downloaded base] /\ protoc = path_join [base; "bin"; "protoc"]) \/
       (r_protoc_bin_path r1 <> "" /\ io_done s1 = io_done s /\ protoc = path_clean (r_protoc_bin_path r1))).
  Proof.
    intros U C. apply update_is in U as (m & d & M & D & U). apply dry_run_is in C as (m' & cs & M' & C & S).
    unfold here in M, M', U. rewrite same_provider, same_dir in M. rewrite M in M'. injection M' as <-. rewrite same_downloader in D.
    destruct (commands_use _ _ _ _ C D) as (protoc & P & K).
    assert (B : (d_bin_path d = "" /\ r_protoc_bin_path r1 = "") \/ (d_bin_path d <> "" /\ r_protoc_bin_path r1 <> "" /\ d_bin_path d = path_clean (r_protoc_bin_path r1))).
    { rewrite same_bin. unfold downloader_for in D. destruct (new_downloader _ _ _ _ _ _) as [d'| |] eqn:N; try discriminate D. injection D as ->.
      apply made_ok in N as [(E & _ & ->)|((_ & E & _) & ->)]; [left; auto|right]. cbn [d_bin_path]. split; [now apply path_clean_some|auto]. }
    exists protoc, cs.
    assert (Q : protoc <> "").
    { destruct K as [(base & _ & _ & ->)|(N & ->)]; [|exact N].
      destruct base as [|a b]; [discriminate|]. apply path_join_not_empty. discriminate. }
    split.
    { rewrite S; [reflexivity|]. eapply Forall_impl; [|exact P]. intros c (r & ->). destruct protoc; [now destruct Q|discriminate]. }
    split; [exact P|].
    destruct U as [(E & base & Hb & ->)|(E & ->)].
    - left. destruct B as [(_ & B)|(B & _)]; [|contradiction]. split; [exact B|]. exists base. split; [reflexivity|].
      unfold here in *. rewrite same_dir in Hb. destruct K as [(base' & Hb' & _ & ->)|(N & _)]; [|contradiction]. rewrite Hb in Hb'. now injection Hb' as ->.
    - right. destruct B as [(B & _)|(_ & B & B')]; [contradiction|]. split; [exact B|]. split; [reflexivity|].
      destruct K as [(base' & _ & N & _)|(_ & ->)]; [contradiction|exact B'].
  Qed.
End Use.
