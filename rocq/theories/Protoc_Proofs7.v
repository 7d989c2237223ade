(** Compiling: the result. *)
From Verif Require Import Lint_Model Lint_Spec Protoc_Model Protoc_Spec Protoc_Proofs Protoc_Proofs2 Protoc_Proofs3 Protoc_Proofs4 Protoc_Proofs5 Protoc_Proofs6 Pool_Model Pool_Proofs Text_Spec Text_Proofs GoStrFacts.
From Verif Require Import Create_Proofs.
From Coq Require Import Lia Sorted.

Lemma reported_nil allow ls : reported allow ls [] -> Forall (silent_line allow) ls.
Proof. intros H. remember [] as fs eqn:E. induction H; [constructor|constructor; auto|discriminate]. Qed.
Lemma reported_some allow ls fs : reported allow ls fs -> ~ Forall (silent_line allow) ls -> fs <> [].
Proof. intros H Hn ->. now apply reported_nil in H. Qed.

Section Runs.
  Variable set : proto_set.
  Let allow := cc_allow_unused_imports (cfg_compile (ps_config set)).
  Lemma run_succeeds m o : run_cmd_meta set m o = Returned [] None ->
    (exists stderr, o = Ended stderr NoError /\ quiet allow stderr) \/ o = Signalled None.
  Proof.
    destruct o as [stderr e|k|]; cbn [run_cmd_meta]; [|destruct k; [discriminate|now right]|discriminate].
    intros H. left. exists stderr. assert (Hq : parse_output (cm_files m) allow (trim_space stderr) = [] -> quiet allow stderr).
    { intros E. pose proof (output_reported (cm_files m) allow (trim_space stderr)) as R. rewrite E, lines_trim in R. now apply reported_nil in R. }
    destruct e; [split; [reflexivity|]|destruct (parse_output _ _ _); discriminate|discriminate].
    apply Hq. change allow with (cc_allow_unused_imports (cfg_compile (ps_config set))). now destruct (parse_output _ _ _).
  Qed.
  Lemma run_reports m stderr e : match e with OtherError _ => False | _ => True end -> exists fs, run_cmd_meta set m (Ended stderr e) = Returned fs (match fs, e with [], ExitError x => Some x | _, _ => None end) /\ reported allow (lines_in stderr) fs.
  Proof.
    intros He. exists (parse_output (cm_files m) allow (trim_space stderr)). split.
    - cbn [run_cmd_meta]. fold allow. destruct e; [|destruct (parse_output (cm_files m) allow (trim_space stderr)); reflexivity|destruct He]. now destruct (parse_output (cm_files m) allow (trim_space stderr)).
    - rewrite <- lines_trim. apply output_reported.
  Qed.
End Runs.

Section Results.
  Variable ord : order.
  Variable grow : nat -> nat -> nat.
  Variable new_downloader download : result unit.
  Variable wkt_path protoc_path : result string.
  Variable temp_file : nat -> result string.
  Variable do_gen do_set full_control include_imports include_source_info : bool.
  Variable set : proto_set.
  Variable mkdir_all : string -> option string.
  Variable fds : Type.
  Variable read_set : string -> result fds.
  Variable outcomes : nat -> outcome.
  Notation get_cmd_metas := (get_cmd_metas ord grow new_downloader download wkt_path protoc_path temp_file do_gen do_set full_control include_imports include_source_info set).
  Notation compile := (compile ord grow new_downloader download wkt_path protoc_path temp_file do_gen do_set full_control include_imports include_source_info set mkdir_all fds read_set outcomes).
  Notation worker := (worker_result set outcomes).

  Lemma fresh_perm a b : Permutation a b -> fresh_failures a = fresh_failures b.
  Proof. intros H. unfold fresh_failures. f_equal. f_equal. apply sort_failures_unique. now apply Permutation_map. Qed.
  Lemma finish_same s ms f1 f2 e1 e2 : Permutation f1 f2 -> Permutation e1 e2 ->
    fst (finish fds read_set s ms f1 e1) = fst (finish fds read_set s ms f2 e2) /\ same_result (snd (finish fds read_set s ms f1 e1)) (snd (finish fds read_set s ms f2 e2)).
  Proof.
    intros Hf He. unfold finish. destruct e1 as [|x1 e1], e2 as [|x2 e2]; [|now apply Permutation_nil in He|symmetry in He; now apply Permutation_nil in He|].
    - destruct f1 as [|y1 f1], f2 as [|y2 f2]; [|now apply Permutation_nil in Hf|symmetry in Hf; now apply Permutation_nil in Hf|].
      + destruct (get_sets fds read_set s ms) as [s' [ds|m]]; cbn; split; auto. exists [m], [m]. auto.
      + cbn [fst snd same_result]. split; [auto|]. now apply fresh_perm.
    - cbn [fst snd same_result]. split; [auto|]. unfold join_errors. eexists _, _. split; [|split; reflexivity]. now apply keep_perm.
  Qed.
  Lemma existsb_perm {A} (f : A -> bool) a b : Permutation a b -> existsb f a = existsb f b.
  Proof. induction 1; cbn; auto; [now rewrite IHPermutation|now destruct (f x), (f y)|congruence]. Qed.
  Lemma compile_same s s1 ms a b : get_cmd_metas s = (s1, Ok ms) -> Permutation a (seq 0 (length ms)) -> Permutation b (seq 0 (length ms)) ->
    fst (compile a s) = fst (compile b s) /\ same_result (snd (compile a s)) (snd (compile b s)).
  Proof.
    intros H Ha Hb. unfold Protoc_Model.compile. rewrite H. destruct (if do_gen then make_gen_dirs ord set mkdir_all s1 else (s1, None)) as [s2 [e|]].
    - cbn. split; [auto|]. exists [e], [e]. auto.
    - assert (Hp : Permutation a b) by now rewrite Ha, Hb.
      rewrite (existsb_perm panics (map (worker ms) a) (map (worker ms) b)) by now apply Permutation_map.
      destruct (existsb panics (map (worker ms) b)); [cbn; auto|]. apply finish_same; apply concat_perm; now apply Permutation_map.
  Qed.
  (** All the runs of a compile without a failure have succeeded. *)
  Lemma compile_sets s s1 ms a s' ds : get_cmd_metas s = (s1, Ok ms) -> Permutation a (seq 0 (length ms)) -> compile a s = (s', Sets fds ds) ->
    forall i m, nth_error ms i = Some m -> run_cmd_meta set m (outcomes i) = Returned [] None.
  Proof.
    intros H Ha Hc i m Hi. unfold Protoc_Model.compile in Hc. rewrite H in Hc. destruct (if do_gen then make_gen_dirs ord set mkdir_all s1 else (s1, None)) as [s2 [e|]]; [discriminate|].
    destruct (existsb panics (map (worker ms) a)) eqn:Ep; [discriminate|]. unfold finish in Hc.
    destruct (concat (map returned_errors (map (worker ms) a))) eqn:Ee; [|discriminate].
    destruct (concat (map returned_failures (map (worker ms) a))) eqn:Ef; [|discriminate].
    assert (Hin : In (worker ms i) (map (worker ms) a)).
    { apply in_map. apply (Permutation_in _ (Permutation_sym Ha)). apply in_seq. split; [lia|]. apply nth_error_Some. congruence. }
    unfold worker_result in Hin at 1. rewrite Hi in Hin. destruct (run_cmd_meta set m (outcomes i)) as [fs e|] eqn:Er.
    - assert (fs = []) as ->.
      { destruct fs as [|f fs]; [reflexivity|]. exfalso. assert (Hx : In f (concat (map returned_failures (map (worker ms) a)))).
        { apply in_concat. exists (f :: fs). split; [|now left]. apply in_map_iff. eexists. split; [|exact Hin]. reflexivity. }
        rewrite Ef in Hx. destruct Hx. }
      destruct e as [e|]; [|reflexivity]. exfalso. assert (Hx : In e (concat (map returned_errors (map (worker ms) a)))).
      { apply in_concat. exists [e]. split; [|now left]. apply in_map_iff. eexists. split; [|exact Hin]. reflexivity. }
      rewrite Ee in Hx. destruct Hx.
    - exfalso. assert (existsb panics (map (worker ms) a) = true); [|congruence]. apply existsb_exists. eexists. split; [exact Hin|reflexivity].
  Qed.
  (** The error of a run is an error of the compile. *)
  Lemma compile_error s s1 ms a i m fs e : get_cmd_metas s = (s1, Ok ms) -> Permutation a (seq 0 (length ms)) -> nth_error ms i = Some m ->
    run_cmd_meta set m (outcomes i) = Returned fs (Some e) -> exists s' r, compile a s = (s', r) /\ (r = Crash fds \/ exists t, r = Error fds t).
  Proof.
    intros H Ha Hi Hr. unfold Protoc_Model.compile. rewrite H. destruct (if do_gen then make_gen_dirs ord set mkdir_all s1 else (s1, None)) as [s2 [e2|]]; [eauto 10|].
    destruct (existsb panics (map (worker ms) a)) eqn:Ep; [eauto|]. unfold finish.
    assert (Hx : In e (concat (map returned_errors (map (worker ms) a)))).
    { apply in_concat. exists [e]. split; [|now left]. apply in_map_iff. exists (worker ms i). split; [unfold worker_result; now rewrite Hi, Hr|].
      apply in_map. apply (Permutation_in _ (Permutation_sym Ha)). apply in_seq. split; [lia|]. apply nth_error_Some. congruence. }
    destruct (concat (map returned_errors (map (worker ms) a))); [destruct Hx|]. eauto 10.
  Qed.
  (** The failures returned are those of the runs, sorted. *)
  Lemma compile_failures s s1 ms a s' fs : get_cmd_metas s = (s1, Ok ms) -> Permutation a (seq 0 (length ms)) -> compile a s = (s', Failures fds fs) ->
    Permutation fs (concat (map (fun im => returned_failures (run_cmd_meta set (snd im) (outcomes (fst im)))) (combine (seq 0 (length ms)) ms))) /\ StronglySorted failure_le fs.
  Proof.
    intros H Ha Hc. unfold Protoc_Model.compile in Hc. rewrite H in Hc. destruct (if do_gen then make_gen_dirs ord set mkdir_all s1 else (s1, None)) as [s2 [e|]]; [discriminate|].
    destruct (existsb panics (map (worker ms) a)) eqn:Ep; [discriminate|]. unfold finish in Hc.
    destruct (concat (map returned_errors (map (worker ms) a))) eqn:Ee; [|discriminate].
    destruct (concat (map returned_failures (map (worker ms) a))) as [|f fs0] eqn:Ef; [destruct (get_sets fds read_set (emit (map (fun m => Ran (cm_args m)) ms) s2) ms) as [? [?|?]]; discriminate|].
    injection Hc as _ <-. unfold fresh_failures. destruct (sort_failures_plain (f :: fs0)) as (srt & -> & Hp & Hs).
    assert (Hid : forall l : list failure, concat (map (fun o => match o with Some f => [f] | None => [] end) (map Some l)) = l).
    { induction l as [|x l IH]; [reflexivity|]. cbn. now rewrite IH. }
    rewrite Hid. split; [|exact Hs]. rewrite <- Hp, <- Ef, map_map. rewrite (concat_perm _ _ _ Ha).
    apply Permutation_refl'. f_equal. unfold worker_result.
    assert (Hgen : forall k pre, length pre = k -> map (fun x => returned_failures match nth_error (pre ++ ms) x with Some m => run_cmd_meta set m (outcomes x) | None => Returned [] None end) (seq k (length ms)) =
      map (fun im => returned_failures (run_cmd_meta set (snd im) (outcomes (fst im)))) (combine (seq k (length ms)) ms)).
    { clear. induction ms as [|m ms IH]; intros k pre Hk; [reflexivity|]. cbn [length seq map combine]. f_equal.
      - cbn [fst snd]. now rewrite nth_error_app2, Hk, Nat.sub_diag by lia.
      - rewrite <- (IH (S k) (pre ++ [m])) by (rewrite app_length; cbn; lia). apply map_ext. intros x. now rewrite <- app_assoc. }
    now apply (Hgen 0 []).
  Qed.
  (** What the goroutines leave is what the compile goes on with. *)
  Lemma schedule_order ncpu s s1 s2 ms p :
    get_cmd_metas s = (s1, Ok ms) ->
    (if do_gen then make_gen_dirs ord set mkdir_all s1 else (s1, None)) = (s2, None) ->
    (forall i, i < length ms -> outcomes i <> SignalledEarly) ->
    let answer i := worker ms i in
    steps ncpu (length ms) (fun i => (returned_failures (answer i), returned_errors (answer i))) pool_0 p ->
    p_returned p = true ->
    exists ended, Permutation ended (seq 0 (length ms)) /\
      compile ended s = finish fds read_set (emit (map (fun m => Ran (cm_args m)) ms) s2) ms (p_failures p) (p_errors p).
  Proof.
    intros H Hg Ho answer Hs Hr. destruct (returned_order _ _ _ _ Hs Hr) as (ended & Hp & Hf & He). exists ended. split; [exact Hp|].
    unfold Protoc_Model.compile. rewrite H, Hg. cbn [fst snd] in Hf, He. rewrite Hf, He, !map_map.
    assert (Hn : existsb panics (map (worker ms) ended) = false); [|now rewrite Hn].
    destruct (existsb panics (map (worker ms) ended)) eqn:E; [|reflexivity]. exfalso.
    apply existsb_exists in E as (x & Hx & E). apply in_map_iff in Hx as (i & <- & Hi).
    apply (Permutation_in _ Hp), in_seq in Hi as (_ & Hi). cbn in Hi. specialize (Ho i Hi). unfold worker_result in E.
    destruct (nth_error ms i) as [m|]; [|discriminate]. destruct (outcomes i) as [stderr e|k|]; cbn [run_cmd_meta] in E; [|discriminate|contradiction].
    destruct e; [| |discriminate]; destruct (parse_output _ _ _); discriminate.
  Qed.
  (** The commands that are run. *)
  Definition args_run (es : list event) : list (list string) := concat (map (fun e => match e with Ran a => [a] | _ => [] end) es).
  Lemma args_run_app a b : args_run (a ++ b) = args_run a ++ args_run b.
  Proof. unfold args_run. now rewrite map_app, concat_app. Qed.
  Lemma args_run_none {A} (f : A -> event) l : (forall x a, f x <> Ran a) -> args_run (map f l) = [].
  Proof. intros H. induction l as [|x l IH]; [reflexivity|]. unfold args_run in *. cbn [map concat]. rewrite IH. destruct (f x) eqn:E; try reflexivity. now destruct (H x args). Qed.
  Lemma args_run_ran (ms : list cmd_meta) : args_run (map (fun m => Ran (cm_args m)) ms) = map cm_args ms.
  Proof. induction ms as [|m ms IH]; [reflexivity|]. unfold args_run in *. cbn [map concat app]. now rewrite IH. Qed.
  Hypothesis temp_named : forall n f, temp_file n = Ok f -> f <> "".
  Lemma compile_runs ended s s1 ms s' r es :
    get_cmd_metas s = (s1, Ok ms) -> compile ended s = (s', r) -> done_since s s' es ->
    args_run es = map cm_args ms \/ args_run es = [] /\ do_gen = true /\ exists m, r = Error fds m.
  Proof.
    intros H Hc Hd. unfold Protoc_Model.compile in Hc. rewrite H in Hc. apply get_cmd_metas_events in H as (ts & _ & Ev); [|exact temp_named].
    destruct (if do_gen then make_gen_dirs ord set mkdir_all s1 else (s1, None)) as [s2 e2] eqn:Eg.
    assert (Hg : exists ds, st_events s2 = st_events s1 ++ map MadeDir ds /\ (e2 = None \/ do_gen = true)).
    { destruct do_gen; [apply make_gen_dirs_events in Eg as (ds & ? & ?); exists ds; auto|]. injection Eg as <- <-. exists []. rewrite app_nil_r. auto. }
    destruct Hg as (ds & Ed & Hg). unfold done_since in Hd. destruct e2 as [e|].
    - right. injection Hc as <- <-. rewrite clean_events, Ed, Ev, <- !app_assoc in Hd. apply app_inv_head in Hd as <-.
      rewrite !args_run_app, !args_run_none by discriminate. split; [reflexivity|]. destruct Hg; [discriminate|eauto].
    - left. destruct (existsb panics _).
      + injection Hc as <- <-. cbn [emit st_events] in Hd. rewrite Ed, Ev, <- !app_assoc in Hd. apply app_inv_head in Hd as <-.
        rewrite !args_run_app, args_run_ran, !args_run_none by discriminate. reflexivity.
      + apply finish_events in Hc as (_ & qs & Hc). cbn [emit st_events] in Hc. rewrite Hc, Ed, Ev, <- !app_assoc in Hd. apply app_inv_head in Hd as <-.
        rewrite !args_run_app, args_run_ran, !args_run_none by discriminate. cbn [app]. now rewrite ?app_nil_r.
  Qed.
End Results.
(** The include paths of a command. *)
Lemma command_includes wkt_path protoc_path do_gen do_set fc ii si set d made ms m :
  commands_of wkt_path protoc_path do_gen do_set fc ii si set d made ms -> In m ms ->
  exists protoc is flags, fst d = cm_dir m /\ includes_of wkt_path set (fst d) is /\ cm_args m = command_line protoc is flags (snd d).
Proof.
  intros (protoc & is & dm & pm & _ & Hi & -> & Hd & Hp) Hm. apply in_app_or in Hm as [Hm|Hm].
  - unfold descriptor_command in Hd. destruct do_set; [destruct Hd as (f & _ & ->)|destruct Hd as (_ & Hd)].
    + destruct Hm as [<-|[]]. eexists _, is, _. split; [reflexivity|]; split; [exact Hi|reflexivity].
    + destruct (do_gen && negb match plugins_of set with [] => true | _ => false end); subst; [destruct Hm|]. destruct Hm as [<-|[]]. eexists _, is, _. split; [reflexivity|]; split; [exact Hi|reflexivity].
  - destruct do_gen; [|subst; destruct Hm]. induction Hp as [|p x ps xs Hx Hp IH]; [destruct Hm|]. destruct Hm as [->|Hm]; [|auto].
    destruct Hx as (params & out & path & -> & _). eexists _, is, _. split; [reflexivity|]; split; [exact Hi|reflexivity].
Qed.
Lemma every_command ord grow nd dl wkt_path protoc_path temp_file do_gen do_set fc ii si set s s' ms m :
  reorders ord -> (forall n f, temp_file n = Ok f -> f <> "") -> get_cmd_metas ord grow nd dl wkt_path protoc_path temp_file do_gen do_set fc ii si set s = (s', Ok ms) -> In m ms ->
  exists d protoc is flags, In d (ps_files set) /\ fst d = cm_dir m /\ includes_of wkt_path set (fst d) is /\
    cm_args m = command_line protoc is flags (snd d).
Proof.
  intros Ho Ht H Hm. apply cmd_metas_ok in H as (dirs & mades & blocks & Hp & Hf & Hl & -> & _); [|exact Ho|exact Ht].
  apply in_concat in Hm as (b & Hb & Hm). assert (Hx : exists d made, In d dirs /\ commands_of wkt_path protoc_path do_gen do_set fc ii si set d made b).
  { clear - Hf Hl Hb. revert dirs mades Hf Hl. induction blocks as [|b' bs IH]; intros dirs [|a as'] Hf Hl; try discriminate; [destruct Hb|].
    cbn [combine] in Hf. inversion Hf as [|d ? ds ? Hd Hf']; subst. destruct Hb as [->|Hb]; [exists d, a; split; [now left|exact Hd]|].
    destruct (IH Hb ds as') as (d' & made & Hi & Hc); [exact Hf'|now injection Hl|]. exists d', made. split; [now right|exact Hc]. }
  destruct Hx as (d & made & Hd & Hc). apply command_includes with (m := m) in Hc as (protoc & is & flags & E & Hi & Ha); [|exact Hm].
  exists d, protoc, is, flags. split; [|auto]. apply (Permutation_in _ Hp), filter_In in Hd. apply Hd.
Qed.
Lemma output_lines files allow output :
  parse_output files allow output = concat (map (fun l => match parse_line files allow l with Some f => [f] | None => [] end) (lines_in output)).
Proof.
  rewrite <- lines_trim. unfold parse_output, lines_in. induction (split_char newline (trim_space output)) as [|l ls IH]; [reflexivity|].
  cbn [parse_lines map filter]. cbv zeta. destruct (is_empty (trim_space l)); [exact IH|]. cbn [negb map concat]. rewrite IH. now destruct (parse_line files allow (trim_space l)).
Qed.
Lemma stands_unique files name shown : plain_name name -> stands_for files name shown -> best_file_path files name = shown.
Proof.
  intros (Hn & _) H. pose proof (best_stands files name Hn) as B. destruct B as [(f & E & ->)|(E & ->)], H as [(g & E' & ->)|(E' & ->)]; try congruence.
  - rewrite E in E'. now destruct E'.
  - rewrite E' in E. now destruct E.
Qed.
Lemma within_next d p : within d p -> p = d \/ d = "/" \/ has_prefix p (d +++ "/") = true.
Proof.
  intros (ds & rs & _ & _ & -> & ->). destruct rs as [|r rs]; [left; now rewrite app_nil_r|]. destruct ds as [|x ds]; [right; left; reflexivity|].
  right; right. apply has_prefix_spec. exists (join "/" (r :: rs)). unfold abs_path. rewrite !sapp_assoc. f_equal. now rewrite join_app_ne by discriminate.
Qed.
