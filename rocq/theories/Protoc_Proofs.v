(** The commands: proofs. *)
From Verif Require Import Lint_Model Protoc_Model Protoc_Spec GoSliceFacts GoStrFacts.
From Coq Require Import Lia.

Section Slices.
  Variable grow : nat -> nat -> nat.
  (** [a'] is [a] with [xs] appended, nothing else is done and slices clear of [a] stay. *)
  Definition appended (s s' : state) (a a' : slice) (xs : list string) : Prop :=
    valid (st_heap s') a' /\ sl_elements (st_heap s') a' = sl_elements (st_heap s) a ++ xs /\
    st_events s' = st_events s /\ st_temps s' = st_temps s /\
    forall b, valid (st_heap s) b -> clear_of b a ->
      valid (st_heap s') b /\ sl_elements (st_heap s') b = sl_elements (st_heap s) b /\ clear_of b a'.
  Lemma appended_refl s a : valid (st_heap s) a -> appended s s a a [].
  Proof. intros. repeat split; auto. now rewrite app_nil_r. Qed.
  Lemma appended_trans s1 s2 s3 a b c xs ys : appended s1 s2 a b xs -> appended s2 s3 b c ys -> appended s1 s3 a c (xs ++ ys).
  Proof.
    intros (V1 & E1 & Ev1 & T1 & F1) (V2 & E2 & Ev2 & T2 & F2). split; [auto|]. split; [now rewrite E2, E1, app_assoc|].
    split; [congruence|]. split; [congruence|]. intros b0 Hv Hc. destruct (F1 b0 Hv Hc) as (Hv1 & He1 & Hc1).
    destruct (F2 b0 Hv1 Hc1) as (Hv2 & He2 & Hc2). split; [auto|]. split; [congruence|auto].
  Qed.
  Lemma st_append_spec s a xs s' a' : valid (st_heap s) a -> st_append grow s a xs = (s', a') -> appended s s' a a' xs.
  Proof.
    unfold st_append. intros Hv. destruct (sl_append grow (st_heap s) a xs) as [h b] eqn:E. intros [= <- <-].
    apply append_spec in E as (Hv' & He & Hf); [|exact Hv]. unfold appended. cbn [st_heap st_events st_temps].
    split; [auto|]. split; [auto|]. split; [auto|]. split; [auto|exact Hf].
  Qed.
  Lemma append_files_spec fs : forall s a s' a', valid (st_heap s) a -> append_files grow s a fs = (s', a') -> appended s s' a a' (map pf_path fs).
  Proof.
    induction fs as [|f fs IH]; cbn [append_files map]; intros s a s' a' Hv H; [injection H as <- <-; now apply appended_refl|].
    destruct (st_append grow s a [pf_path f]) as [s1 a1] eqn:E. apply st_append_spec in E; [|exact Hv].
    apply IH in H; [|exact (proj1 E)]. exact (appended_trans _ _ _ _ _ _ _ _ E H).
  Qed.
  Lemma append_includes_spec is : forall s a s' a', valid (st_heap s) a -> append_includes grow s a is = (s', a') -> appended s s' a a' (concat (map (fun i => ["-I"; i]) is)).
  Proof.
    induction is as [|i is IH]; cbn [append_includes map concat]; intros s a s' a' Hv H; [injection H as <- <-; now apply appended_refl|].
    destruct (st_append grow s a ["-I"; i]) as [s1 a1] eqn:E. apply st_append_spec in E; [|exact Hv].
    apply IH in H; [|exact (proj1 E)]. exact (appended_trans _ _ _ _ _ _ _ _ E H).
  Qed.
End Slices.

Section Commands.
  Variable ord : order.
  Variable grow : nat -> nat -> nat.
  Variable new_downloader download : result unit.
  Variable wkt_path protoc_path : result string.
  Variable temp_file : nat -> result string.
  Variable do_gen do_set full_control include_imports include_source_info : bool.
  Variable set : proto_set.
  Let plugins := gc_plugins (cfg_gen (ps_config set)).
  Let config_dir := if is_empty (cfg_dir (ps_config set)) then ps_work_dir set else cfg_dir (ps_config set).
  Notation dir_cmds := (dir_cmds ord grow wkt_path protoc_path temp_file do_gen do_set full_control include_imports include_source_info set).
  Notation dirs_cmds := (dirs_cmds ord grow wkt_path protoc_path temp_file do_gen do_set full_control include_imports include_source_info set).
  Notation get_cmd_metas := (get_cmd_metas ord grow new_downloader download wkt_path protoc_path temp_file do_gen do_set full_control include_imports include_source_info set).
  Notation flag_set := (get_plugin_flag_set ord set).

  Lemma plugin_cmds_spec protoc includes d flags : forall s args acc s' acc',
    valid (st_heap s) args -> sl_elements (st_heap s) args = concat (map (fun i => ["-I"; i]) includes) ->
    plugin_cmds grow s protoc (fst d) (snd d) args flags acc = (s', acc') ->
    acc' = acc ++ map (fun fl => command_for protoc includes fl d "") flags /\ st_events s' = st_events s /\ st_temps s' = st_temps s.
  Proof.
    induction flags as [|fl flags IH]; intros s args acc s' acc' Hv He H; cbn [plugin_cmds] in H.
    - injection H as <- <-. now rewrite app_nil_r.
    - destruct (st_append grow s args fl) as [s1 a1] eqn:E1. apply st_append_spec in E1; [|exact Hv].
      destruct (append_files grow s1 a1 (snd d)) as [s2 a2] eqn:E2. apply append_files_spec in E2; [|exact (proj1 E1)].
      pose proof (appended_trans _ _ _ _ _ _ _ _ E1 E2) as (V & El & Ev & T & F).
      destruct (F args Hv (clear_refl args)) as (Hv' & He' & _). apply IH in H; [|exact Hv'|congruence].
      destruct H as (-> & Hev & Ht). split; [|split; congruence].
      rewrite <- app_assoc. cbn [map]. do 3 f_equal. unfold command_for. f_equal. unfold command, command_line.
      rewrite El, He, app_assoc. reflexivity.
  Qed.

  (** The descriptor command of a directory, if there is one, with the files made for it. *)
  Definition set_command (protoc : string) (includes : list string) (d : string * list proto_file) (made : list string) (ms : list cmd_meta) : Prop :=
    if do_set then exists f, made = [f] /\ ms = [command_for protoc includes (set_flags full_control include_imports include_source_info f) d f]
    else made = [] /\ ms = if do_gen && negb (match plugins with [] => true | _ => false end) then [] else [command_for protoc includes ["-o"; "/dev/null"] d ""].

  Hypothesis temp_named : forall n f, temp_file n = Ok f -> f <> "".

  Lemma dir_cmds_ok s acc d s' acc' :
    dir_cmds s acc (fst d) (snd d) = (s', acc', None) ->
    exists includes protoc made sets flags,
      get_includes wkt_path (ps_config set) (fst d) config_dir = Ok includes /\ protoc_path = Ok protoc /\
      set_command protoc includes d made sets /\
      (if do_gen then mapM (flag_set (fst d)) plugins = Ok flags else flags = []) /\
      acc' = acc ++ sets ++ map (fun fl => command_for protoc includes fl d "") flags /\
      st_events s' = st_events s ++ map MadeTemp made.
  Proof.
    unfold Protoc_Model.dir_cmds. fold config_dir. destruct (get_includes _ _ _ _) as [includes|] eqn:Ei; [|discriminate].
    destruct (append_includes grow s nil_slice includes) as [s1 args] eqn:Ea.
    apply append_includes_spec in Ea; [|apply valid_nil]. destruct Ea as (Va & Ela & Eva & Ta & Fa). rewrite elements_nil in Ela. cbn [app] in Ela.
    destruct protoc_path as [protoc|]; [|discriminate].
    assert (Htail : forall s2 acc2 (s3 : state) (acc3 : list cmd_meta), valid (st_heap s2) args -> sl_elements (st_heap s2) args = concat (map (fun i => ["-I"; i]) includes) ->
      match get_plugin_flag_sets ord do_gen set (fst d) with
      | Ok flags => let '(s, acc) := plugin_cmds grow s2 protoc (fst d) (snd d) args flags acc2 in (s, acc, None)
      | Err m => (s2, acc2, Some m)
      end = (s3, acc3, None) ->
      exists flags, (if do_gen then mapM (flag_set (fst d)) plugins = Ok flags else flags = []) /\
      acc3 = acc2 ++ map (fun fl => command_for protoc includes fl d "") flags /\ st_events s3 = st_events s2).
    { intros s2 acc2 s3 acc3 Hv He H. destruct (get_plugin_flag_sets ord do_gen set (fst d)) as [flags|] eqn:Ef; [|discriminate].
      destruct (plugin_cmds grow s2 protoc (fst d) (snd d) args flags acc2) as [s4 acc4] eqn:Ep. injection H as <- <-.
      apply (plugin_cmds_spec protoc includes d flags) in Ep as (-> & Hev & _); [|auto|auto]. exists flags. split; [|split; auto].
      unfold get_plugin_flag_sets in Ef. destruct do_gen; cbn [negb] in Ef; [exact Ef|congruence]. }
    unfold get_descriptor_set_file_path, set_command. destruct do_set.
    - destruct (temp_file (st_temps s1)) as [f|] eqn:Et; [|discriminate].
      pose proof (temp_named _ _ Et) as Hf. assert (is_empty f = false) as -> by (destruct f; [contradiction|reflexivity]).
      set (s2 := emit [MadeTemp f] (mk_state (st_heap s1) (S (st_temps s1)) (st_events s1))).
      destruct (st_append grow s2 args ["-o"; f]) as [s3 a3] eqn:E3. apply st_append_spec in E3; [|exact Va].
      intros H.
      match type of H with context [let '(x1, y1) := ?X in let '(x2, y2) := append_files grow x1 y1 (snd d) in _] => destruct X as [s4 a4] eqn:E4 end.
      assert (H4 : appended s3 s4 a3 a4 ((if negb full_control || include_imports then ["--include_imports"] else []) ++ (if include_source_info then ["--include_source_info"] else []))).
      { destruct (if negb full_control || include_imports then st_append grow s3 a3 ["--include_imports"] else (s3, a3)) as [s5 a5] eqn:E5.
        assert (H5 : appended s3 s5 a3 a5 (if negb full_control || include_imports then ["--include_imports"] else [])).
        { destruct (negb full_control || include_imports); [apply st_append_spec in E5; [auto|exact (proj1 E3)]|]. injection E5 as <- <-. apply appended_refl, (proj1 E3). }
        refine (appended_trans _ _ _ _ _ _ _ _ H5 _). destruct include_source_info; [apply st_append_spec in E4; [auto|exact (proj1 H5)]|].
        injection E4 as <- <-. apply appended_refl, (proj1 H5). }
      destruct (append_files grow s4 a4 (snd d)) as [s6 a6] eqn:E6. apply append_files_spec in E6; [|exact (proj1 H4)].
      pose proof (appended_trans _ _ _ _ _ _ _ _ E3 (appended_trans _ _ _ _ _ _ _ _ H4 E6)) as (V & El & Ev & T & F).
      destruct (F args Va (clear_refl args)) as (Hv' & He' & _).
      apply Htail in H as (flags & Hfl & -> & Hev); [|exact Hv'|now rewrite He'].
      exists includes, protoc, [f], [command_for protoc includes (set_flags full_control include_imports include_source_info f) d f], flags.
      split; [auto|]. split; [auto|]. split; [eauto|]. split; [auto|]. split.
      + rewrite <- app_assoc. do 3 f_equal. unfold command_for. f_equal. unfold command, command_line, set_flags. rewrite El.
        unfold s2; cbn [emit st_heap]. rewrite Ela, <- !app_assoc. reflexivity.
      + rewrite Hev, Ev. unfold s2; cbn [emit st_events map]. congruence.
    - fold plugins. destruct (do_gen && negb match plugins with [] => true | _ :: _ => false end) eqn:Eg.
      + cbn [is_empty]. intros H. apply Htail in H as (flags & Hfl & -> & Hev); [|auto|auto].
        exists includes, protoc, [], [], flags. cbn [map app]. rewrite app_nil_r. repeat split; auto; congruence.
      + cbn [is_empty]. destruct (st_append grow s1 args ["-o"; "/dev/null"]) as [s3 a3] eqn:E3. apply st_append_spec in E3; [|exact Va].
        destruct (append_files grow s3 a3 (snd d)) as [s6 a6] eqn:E6. apply append_files_spec in E6; [|exact (proj1 E3)].
        pose proof (appended_trans _ _ _ _ _ _ _ _ E3 E6) as (V & El & Ev & T & F).
        destruct (F args Va (clear_refl args)) as (Hv' & He' & _).
        intros H. apply Htail in H as (flags & Hfl & -> & Hev); [|exact Hv'|congruence].
        exists includes, protoc, [], [command_for protoc includes ["-o"; "/dev/null"] d ""], flags.
        split; [auto|]. split; [auto|]. split; [auto|]. split; [auto|]. split.
        * rewrite <- app_assoc. do 3 f_equal. unfold command_for. f_equal. unfold command, command_line. rewrite El, Ela. reflexivity.
        * cbn [map]. rewrite app_nil_r. congruence.
  Qed.

  (** Whatever happens, the files made are those of the commands so far. *)
  Definition temps_of (ms : list cmd_meta) : list string := concat (map (fun m => if is_empty (cm_temp m) then [] else [cm_temp m]) ms).
  Lemma temps_of_app a b : temps_of (a ++ b) = temps_of a ++ temps_of b.
  Proof. unfold temps_of. now rewrite map_app, concat_app. Qed.
  Lemma temps_of_plain protoc includes d flags : temps_of (map (fun fl => command_for protoc includes fl d "") flags) = [].
  Proof. induction flags; [reflexivity|exact IHflags]. Qed.
  Lemma st_append_events s a xs s' a' : st_append grow s a xs = (s', a') -> st_events s' = st_events s /\ st_temps s' = st_temps s.
  Proof. unfold st_append. destruct (sl_append grow (st_heap s) a xs). now intros [= <- <-]. Qed.
  Lemma append_files_events fs : forall s a s' a', append_files grow s a fs = (s', a') -> st_events s' = st_events s /\ st_temps s' = st_temps s.
  Proof.
    induction fs as [|f fs IH]; cbn [append_files]; intros s a s' a' H; [now injection H as <- <-|].
    destruct (st_append grow s a [pf_path f]) as [s1 a1] eqn:E. apply st_append_events in E as (<- & <-). now apply IH in H.
  Qed.
  Lemma append_includes_events fs : forall s a s' a', append_includes grow s a fs = (s', a') -> st_events s' = st_events s /\ st_temps s' = st_temps s.
  Proof.
    induction fs as [|f fs IH]; cbn [append_includes]; intros s a s' a' H; [now injection H as <- <-|].
    destruct (st_append grow s a ["-I"; f]) as [s1 a1] eqn:E. apply st_append_events in E as (<- & <-). now apply IH in H.
  Qed.
  Lemma plugin_cmds_events protoc dir files args flags : forall s acc s' acc',
    plugin_cmds grow s protoc dir files args flags acc = (s', acc') ->
    temps_of acc' = temps_of acc /\ st_events s' = st_events s /\ st_temps s' = st_temps s.
  Proof.
    induction flags as [|fl flags IH]; cbn [plugin_cmds]; intros s acc s' acc' H; [now injection H as <- <-|].
    destruct (st_append grow s args fl) as [s1 a1] eqn:E1. apply st_append_events in E1 as (<- & <-).
    destruct (append_files grow s1 a1 files) as [s2 a2] eqn:E2. apply append_files_events in E2 as (<- & <-).
    apply IH in H as (-> & -> & ->). now rewrite temps_of_app, app_nil_r.
  Qed.
  Lemma dir_cmds_events s acc dir files s' acc' e : dir_cmds s acc dir files = (s', acc', e) ->
    exists ts, temps_of acc' = temps_of acc ++ ts /\ st_events s' = st_events s ++ map MadeTemp ts.
  Proof.
    unfold Protoc_Model.dir_cmds. fold config_dir.
    assert (Hnone : forall (x : state), st_events x = st_events s -> exists ts, temps_of acc = temps_of acc ++ ts /\ st_events x = st_events s ++ map MadeTemp ts).
    { intros x Hx. exists []. now rewrite !app_nil_r. }
    destruct (get_includes _ _ _ _) as [includes|] eqn:Ei; [|intros [= <- <- <-]; auto].
    destruct (append_includes grow s nil_slice includes) as [s1 args] eqn:Ea. apply append_includes_events in Ea as (Ea & _).
    destruct protoc_path as [protoc|]; [|intros [= <- <- <-]; auto].
    assert (Htail : forall s2 acc2 ts, temps_of acc2 = temps_of acc ++ ts -> st_events s2 = st_events s ++ map MadeTemp ts ->
      match get_plugin_flag_sets ord do_gen set dir with
      | Ok flags => let '(s, acc) := plugin_cmds grow s2 protoc dir files args flags acc2 in (s, acc, None)
      | Err m => (s2, acc2, Some m)
      end = (s', acc', e) -> exists ts, temps_of acc' = temps_of acc ++ ts /\ st_events s' = st_events s ++ map MadeTemp ts).
    { intros s2 acc2 ts H1 H2 H. exists ts. destruct (get_plugin_flag_sets ord do_gen set dir) as [flags|]; [|now injection H as <- <- <-].
      destruct (plugin_cmds grow s2 protoc dir files args flags acc2) as [s4 acc4] eqn:Ep. injection H as <- <- <-.
      apply plugin_cmds_events in Ep as (-> & -> & _). auto. }
    unfold get_descriptor_set_file_path. destruct do_set.
    - destruct (temp_file (st_temps s1)) as [f|] eqn:Et; [|intros [= <- <- <-]; auto].
      pose proof (temp_named _ _ Et) as Hf. assert (is_empty f = false) as -> by (destruct f; [contradiction|reflexivity]).
      set (s2 := emit [MadeTemp f] (mk_state (st_heap s1) (S (st_temps s1)) (st_events s1))).
      destruct (st_append grow s2 args ["-o"; f]) as [s3 a3] eqn:E3. apply st_append_events in E3 as (E3 & _).
      intros H.
      match type of H with context [let '(x1, y1) := ?X in let '(x2, y2) := append_files grow x1 y1 files in _] => destruct X as [s4 a4] eqn:E4 end.
      assert (H4 : st_events s4 = st_events s3).
      { destruct (if negb full_control || include_imports then st_append grow s3 a3 ["--include_imports"] else (s3, a3)) as [s5 a5] eqn:E5.
        assert (H5 : st_events s5 = st_events s3).
        { destruct (negb full_control || include_imports); [now apply st_append_events in E5|now injection E5 as <- <-]. }
        rewrite <- H5. destruct include_source_info; [now apply st_append_events in E4|now injection E4 as <- <-]. }
      destruct (append_files grow s4 a4 files) as [s6 a6] eqn:E6. apply append_files_events in E6 as (E6 & _).
      apply (Htail _ _ [f]) in H; [exact H| |].
      + rewrite temps_of_app. f_equal. unfold temps_of; cbn. now destruct f.
      + rewrite E6, H4, E3. unfold s2; cbn [emit st_events map]. congruence.
    - destruct (do_gen && _).
      + cbn [is_empty]. intros H. apply (Htail _ _ []) in H; [exact H|now rewrite app_nil_r|cbn [map]; rewrite app_nil_r; congruence].
      + cbn [is_empty]. destruct (st_append grow s1 args ["-o"; "/dev/null"]) as [s3 a3] eqn:E3. apply st_append_events in E3 as (E3 & _).
        destruct (append_files grow s3 a3 files) as [s6 a6] eqn:E6. apply append_files_events in E6 as (E6 & _).
        intros H. apply (Htail _ _ []) in H; [exact H|now rewrite temps_of_app, !app_nil_r|cbn [map]; rewrite app_nil_r; congruence].
  Qed.
  Lemma dirs_cmds_events dirs : forall s acc s' acc' e, dirs_cmds s acc dirs = (s', acc', e) ->
    exists ts, temps_of acc' = temps_of acc ++ ts /\ st_events s' = st_events s ++ map MadeTemp ts.
  Proof.
    induction dirs as [|[dir files] dirs IH]; cbn [Protoc_Model.dirs_cmds]; intros s acc s' acc' e H.
    - injection H as <- <- <-. exists []. now rewrite !app_nil_r.
    - destruct (negb (has_prefix dir (ps_dir set))); [now apply IH in H|].
      destruct (dir_cmds s acc dir files) as [[s1 acc1] [m|]] eqn:E; apply dir_cmds_events in E as (ts & E1 & E2).
      + injection H as <- <- <-. eauto.
      + apply IH in H as (ts' & H1 & H2). exists (ts ++ ts'). rewrite H1, E1, H2, E2, map_app, !app_assoc. auto.
  Qed.
  Lemma get_cmd_metas_events s s' r : get_cmd_metas s = (s', r) ->
    exists ts, match r with
               | Ok ms => temps_of ms = ts /\ st_events s' = st_events s ++ map MadeTemp ts
               | Err _ => st_events s' = st_events s ++ map MadeTemp ts ++ map RemovedTemp ts
               end.
  Proof.
    unfold Protoc_Model.get_cmd_metas. destruct new_downloader; [|intros [= <- <-]; exists []; now rewrite app_nil_r].
    destruct download; [|intros [= <- <-]; exists []; now rewrite app_nil_r].
    destruct (dirs_cmds s [] (ord "getCmdMetas" _ (ps_files set))) as [[s1 ms] [m|]] eqn:E; apply dirs_cmds_events in E as (ts & E1 & E2); change (temps_of [] ++ ts) with ts in E1; intros [= <- <-]; exists ts.
    - unfold clean_cmd_metas. cbn [emit st_events]. rewrite E2, <- app_assoc. do 2 f_equal. rewrite <- E1.
      unfold temps_of. clear. induction ms as [|m ms IH]; [reflexivity|]. cbn [map concat]. rewrite map_app, IH.
      now destruct (is_empty (cm_temp m)).
    - auto.
  Qed.
End Commands.
