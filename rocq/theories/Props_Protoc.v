(** Properties C45-C50 and C62: the protoc commands, what is made of their output, the
    order of their runs and the files made for them. *)
From Verif Require Import Protoc_Spec Pool_Model Pool_Proofs Lint_Spec Text_Spec GoStrFacts
  Protoc_Proofs Protoc_Proofs2 Protoc_Proofs3 Protoc_Proofs4 Protoc_Proofs5 Protoc_Proofs6 Protoc_Proofs7.
From Coq Require Import Sorting.Sorted.

(** ** Witnesses *)
Definition px_order : order := fun _ _ l => rev l.
Example px_order_ok : reorders px_order.
Proof. intros k A l. apply Permutation_rev. Qed.
(** Slices grow to twice the old capacity. *)
Definition px_grow (old new : nat) : nat := old + old - new.
Definition px_file (p : string) : proto_file := mk_proto_file ("/w/" +++ p) p.
Definition px_plugin (name : string) (t : plugin_type) (flags rel suffix : string) : gen_plugin :=
  mk_gen_plugin name (Ok (if String.eqb name "go" then "/bin/protoc-gen-go" else "")) t flags rel (path_join ["/w"; rel]) suffix false (negb (is_empty suffix)).
Definition px_set (dir : string) (allow : bool) : proto_set :=
  mk_proto_set "/w" dir
    [("/w/a", [px_file "a/x.proto"; px_file "a/y.proto"]); ("/w/ab", [px_file "ab/z.proto"]); ("/w/c/d", [px_file "c/d/t.proto"])]
    (mk_config "/w" [] (mk_compile_config "3.11.0" ["/inc"] true allow) (mk_create_config [])
      (mk_lint_config "" false [] [] [] "" "com" true) (mk_break_config false false)
      (mk_gen_config "foo.com/bar" [("other.proto", "foo.com/other")]
        [px_plugin "go" PluginGo "plugins=grpc" "gen/go" ""; px_plugin "descriptor" PluginNone "" "gen/d" "bin"])).
Definition px_temp (n : nat) : result string := if n <? 2 then Ok ("/tmp/prototool" +++ itoa (Z.of_nat n)) else Err "no space left".
Definition px_cmds := get_cmd_metas px_order px_grow (Ok tt) (Ok tt) (Ok "/p/include") (Ok "/p/protoc").
Definition px_run (fds : Type) := compile px_order px_grow (Ok tt) (Ok tt) (Ok "/p/include") (Ok "/p/protoc") px_temp true true false false false.
Example px_temp_named n f : px_temp n = Ok f -> f <> "".
Proof. unfold px_temp. destruct (n <? 2); [|discriminate]. intros [= <-]. discriminate. Qed.

Section Commands.
  (** The iteration orders of maps, the growth of slices, the answers of the downloader
      and of the file system, and the options of the compiler. *)
  Variable ord : order.
  Variable grow : nat -> nat -> nat.
  Variable new_downloader download : result unit.
  Variable wkt_path protoc_path : result string.
  Variable temp_file : nat -> result string.
  Variable do_gen do_set full_control include_imports include_source_info : bool.
  Variable set : proto_set.
  Variable mkdir_all : string -> option string.
  Variable fds : Type.
  Variable read_set : string -> result fds.
  Variable outcomes : nat -> outcome.
  Notation get_cmd_metas := (get_cmd_metas ord grow new_downloader download wkt_path protoc_path temp_file do_gen do_set full_control include_imports include_source_info set).
  Notation protoc_commands := (protoc_commands ord grow new_downloader download wkt_path protoc_path temp_file do_gen do_set full_control include_imports include_source_info set).
  Notation compile := (compile ord grow new_downloader download wkt_path protoc_path temp_file do_gen do_set full_control include_imports include_source_info set mkdir_all fds read_set outcomes).
  Notation commands_of := (commands_of wkt_path protoc_path do_gen do_set full_control include_imports include_source_info set).
  (** ioutil.TempFile does not answer an empty name. *)
  Definition temp_named : Prop := forall n f, temp_file n = Ok f -> f <> "".

  (** ** C45 *)
  (** The commands are those of the directories whose names begin with the requested
      one, in some order: for each, one that checks it or writes its descriptors, and
      one per plugin, with the flags of that plugin and the files of that directory. *)
  Theorem C45_commands s s' ms :
    reorders ord -> temp_named -> get_cmd_metas s = (s', Ok ms) ->
    exists dirs mades blocks,
      Permutation dirs (filter (requested set) (ps_files set)) /\
      Forall2 (fun d b => commands_of d (fst b) (snd b)) dirs (combine mades blocks) /\
      length mades = length blocks /\ ms = concat blocks /\
      st_events s' = st_events s ++ map MadeTemp (concat mades).
  Proof. intros Ho Ht. now apply cmd_metas_ok. Qed.
  (** If no sibling has a name that begins with that of the requested directory, those
      are the directories below the requested one. *)
  Theorem C45_below_partial s s' ms :
    reorders ord -> temp_named ->
    (forall d, In d (ps_files set) -> has_prefix (fst d) (ps_dir set) = true <-> within (ps_dir set) (fst d)) ->
    get_cmd_metas s = (s', Ok ms) ->
    exists dirs mades blocks,
      (forall d, In d dirs <-> In d (ps_files set) /\ within (ps_dir set) (fst d)) /\
      Forall2 (fun d b => commands_of d (fst b) (snd b)) dirs (combine mades blocks) /\
      length mades = length blocks /\ ms = concat blocks.
  Proof.
    intros Ho Ht Hw H. destruct (C45_commands _ _ _ Ho Ht H) as (dirs & mades & blocks & Hp & Hf & Hl & Hm & _).
    exists dirs, mades, blocks. split; [|auto]. intros d. split.
    - intros Hi. apply (Permutation_in _ Hp), filter_In in Hi as (Hi & Hr). split; [exact Hi|]. now apply Hw.
    - intros (Hi & Hr). apply (Permutation_in _ (Permutation_sym Hp)), filter_In. split; [exact Hi|]. now apply Hw.
  Qed.
  (** What is run is those commands, and what is printed is those commands. *)
  Theorem C45_run ended s s1 ms s' r es :
    temp_named -> get_cmd_metas s = (s1, Ok ms) -> compile ended s = (s', r) -> done_since s s' es ->
    let ran := concat (map (fun e => match e with Ran a => [a] | _ => [] end) es) in
    ran = map cm_args ms \/ ran = [] /\ do_gen = true /\ exists m, r = Error fds m.
  Proof. intros Ht. now apply compile_runs. Qed.
  Theorem C45_printed s s' ms : get_cmd_metas s = (s', Ok ms) ->
    snd (protoc_commands s) = Ok (map (fun m => join " " (cm_args m)) ms).
  Proof. intros H. unfold Protoc_Model.protoc_commands. now rewrite H. Qed.

  (** ** C46 *)
  (** Every command has the include paths of [includes_of]: all that are configured, the
      well known types, and the directory of the configuration if none of these is above
      the directory of its files. *)
  Theorem C46_includes s s' ms m : reorders ord -> temp_named -> get_cmd_metas s = (s', Ok ms) -> In m ms ->
    exists d protoc is flags, In d (ps_files set) /\ fst d = cm_dir m /\ includes_of wkt_path set (fst d) is /\
      cm_args m = command_line protoc is flags (snd d).
  Proof. intros Ho Ht. now apply every_command. Qed.
  (** Its files are below one of them, if the include paths that are a prefix of the name
      of their directory are above it. *)
  Theorem C46_below_partial s s' ms m : reorders ord -> temp_named -> get_cmd_metas s = (s', Ok ms) -> In m ms ->
    within (base_dir set) (cm_dir m) ->
    exists d protoc is flags, fst d = cm_dir m /\ cm_args m = command_line protoc is flags (snd d) /\
      ((forall i, In i is -> has_prefix (cm_dir m) i = true -> within i (cm_dir m)) -> exists i, In i is /\ within i (cm_dir m)).
  Proof.
    intros Ho Ht H Hm Hw. destruct (C46_includes _ _ _ _ Ho Ht H Hm) as (d & protoc & is & flags & _ & Hd & Hi & Ha).
    exists d, protoc, is, flags. split; [exact Hd|]. split; [exact Ha|]. rewrite <- Hd in *. now apply under_include with (wkt_path := wkt_path) (set := set).
  Qed.

  (** ** C47 *)
  (** The parameters of a plugin for a directory: for Go, one import path for each file
      of another directory, and for no other file of the set. *)
  Theorem C47_parameters dir p : reorders ord -> parameters set dir p (get_proto_flags ord set dir p).
  Proof. intros H. now apply parameters_ok. Qed.
  (** Where the plugin writes. *)
  Theorem C47_flags dir p flags : reorders ord -> get_plugin_flag_set ord set dir p = Ok flags ->
    exists params out path, flags = plugin_flags p params out path /\ parameters set dir p params /\
      written set dir p out /\ gp_path p = Ok path.
  Proof.
    intros Ho H. apply flag_set_ok in H as (out & path & Hp & -> & Hw).
    exists (get_proto_flags ord set dir p), out, path. split; [reflexivity|]. split; [now apply parameters_ok|]. split; [now apply written_ok|exact Hp].
  Qed.

  (** ** C48 *)
  (** A run that is a success for the compiler ended without an error and wrote nothing
      but silent lines, or was interrupted. *)
  Theorem C48_success m o : run_cmd_meta set m o = Returned [] None ->
    (exists stderr, o = Ended stderr NoError /\ quiet (cc_allow_unused_imports (cfg_compile (ps_config set))) stderr) \/ o = Signalled None.
  Proof. apply run_succeeds. Qed.
  (** A run that ended gives a failure for each line, and an error if it failed and gave
      no failure. *)
  Theorem C48_run m stderr e : match e with OtherError _ => False | _ => True end ->
    exists fs,
      run_cmd_meta set m (Ended stderr e) = Returned fs (match fs, e with [], ExitError x => Some x | _, _ => None end) /\
      reported (cc_allow_unused_imports (cfg_compile (ps_config set))) (lines_in stderr) fs.
  Proof. apply run_reports. Qed.
  (** A compile that succeeds had only runs that succeeded. *)
  Theorem C48_compile s s1 ms ended s' ds : get_cmd_metas s = (s1, Ok ms) -> Permutation ended (seq 0 (length ms)) ->
    compile ended s = (s', Sets fds ds) ->
    forall i m, nth_error ms i = Some m ->
    (exists stderr, outcomes i = Ended stderr NoError /\ quiet (cc_allow_unused_imports (cfg_compile (ps_config set))) stderr)
    \/ outcomes i = Signalled None.
  Proof. intros H1 H2 H3 i m Hi. apply run_succeeds with (m := m). exact (compile_sets _ _ _ _ _ _ _ _ _ _ _ _ _ _ _ _ _ _ _ _ _ _ _ H1 H2 H3 i m Hi). Qed.

  (** ** C49 *)
  (** The result does not depend on the order in which the runs end, but for the order
      of the messages in an error. *)
  Theorem C49_same_result s s1 ms a b : get_cmd_metas s = (s1, Ok ms) ->
    Permutation a (seq 0 (length ms)) -> Permutation b (seq 0 (length ms)) ->
    fst (compile a s) = fst (compile b s) /\ same_result (snd (compile a s)) (snd (compile b s)).
  Proof. apply compile_same. Qed.
  (** An error of a run is an error of the compile. *)
  Theorem C49_error s s1 ms ended i m fs e : get_cmd_metas s = (s1, Ok ms) -> Permutation ended (seq 0 (length ms)) ->
    nth_error ms i = Some m -> run_cmd_meta set m (outcomes i) = Returned fs (Some e) ->
    exists s' r, compile ended s = (s', r) /\ (r = Crash fds \/ exists t, r = Error fds t).
  Proof. apply compile_error. Qed.
  (** The failures returned are those of all runs, sorted. *)
  Theorem C49_failures s s1 ms ended s' fs : get_cmd_metas s = (s1, Ok ms) -> Permutation ended (seq 0 (length ms)) ->
    compile ended s = (s', Failures fds fs) ->
    Permutation fs (concat (map (fun im => returned_failures (run_cmd_meta set (snd im) (outcomes (fst im)))) (combine (seq 0 (length ms)) ms)))
    /\ StronglySorted failure_le fs.
  Proof. apply compile_failures. Qed.
  (** Whatever the interleaving of the goroutines, what they leave once all have ended is
      what [compile] goes on with for an order in which they end. *)
  Theorem C49_schedules ncpu s s1 s2 ms p :
    get_cmd_metas s = (s1, Ok ms) ->
    (if do_gen then make_gen_dirs ord set mkdir_all s1 else (s1, None)) = (s2, None) ->
    (forall i, i < length ms -> outcomes i <> SignalledEarly) ->
    let answer i := worker_result set outcomes ms i in
    steps ncpu (length ms) (fun i => (returned_failures (answer i), returned_errors (answer i))) pool_0 p ->
    p_returned p = true ->
    exists ended, Permutation ended (seq 0 (length ms)) /\
      compile ended s = Protoc_Model.finish fds read_set (emit (map (fun m => Ran (cm_args m)) ms) s2) ms (p_failures p) (p_errors p).
  Proof. apply schedule_order. Qed.

  (** ** C50 *)
  (** Unless the program crashes, the temporary files made are removed at the end. *)
  Theorem C50_cleans ended s s' r : temp_named -> compile ended s = (s', r) -> r <> Crash fds ->
    exists es, done_since s s' es /\ cleans_up es.
  Proof. intros Ht. now apply compile_cleans. Qed.
  Theorem C50_commands s s' r : temp_named -> protoc_commands s = (s', r) ->
    exists es, done_since s s' es /\ cleans_up es.
  Proof. intros Ht. now apply commands_clean. Qed.

  (** ** C62 *)
  (** Before protoc is run for the first time, the directories that plugins write to for
      the requested directories are made. *)
  Theorem C62_directories ended s s' r es pre args post : reorders ord -> temp_named ->
    compile ended s = (s', r) -> done_since s s' es -> do_gen = true -> es = pre ++ Ran args :: post ->
    forall p d o, In p (plugins_of set) -> In d (ps_files set) -> within (ps_dir set) (fst d) ->
    output_dir set (fst d) p o -> In (MadeDir o) pre.
  Proof.
    intros Ho Ht Hc Hs Hg He p d o Hp Hd Hw Hout.
    apply (dirs_made _ _ _ _ _ _ _ _ _ _ _ _ _ _ _ _ _ Ht Ho _ _ _ _ _ _ _ _ Hc Hs Hg He p d o Hp); [|exact Hout].
    apply filter_In. split; [exact Hd|]. now apply within_prefix.
  Qed.
End Commands.
Print Assumptions C45_commands.
Print Assumptions C45_below_partial.
Print Assumptions C45_run.
Print Assumptions C45_printed.
Print Assumptions C46_includes.
Print Assumptions C46_below_partial.
Print Assumptions C47_parameters.
Print Assumptions C47_flags.
Print Assumptions C48_success.
Print Assumptions C48_run.
Print Assumptions C48_compile.
Print Assumptions C49_same_result.
Print Assumptions C49_error.
Print Assumptions C49_failures.
Print Assumptions C49_schedules.
Print Assumptions C50_cleans.
Print Assumptions C50_commands.
Print Assumptions C62_directories.

(** ** C48: lines *)
(** Every line that is not blank is a failure, in order, but for the silent ones. *)
Theorem C48_reported files allow output : reported allow (lines_in output) (parse_output files allow output).
Proof. apply output_reported. Qed.
Print Assumptions C48_reported.
(** The failures are those of the single lines. *)
Theorem C48_lines files allow output :
  parse_output files allow output = concat (map (fun l => match parse_line files allow l with Some f => [f] | None => [] end) (lines_in output)).
Proof. apply output_lines. Qed.
Print Assumptions C48_lines.
(** file:line:column: message *)
Theorem C48_standard files allow file l c message nl nc shown :
  plain_name file -> number l nl -> number c nc -> no_char ":" message = true -> trim_space message <> "" ->
  stands_for files file shown ->
  parse_line files allow (file +++ ":" +++ l +++ ":" +++ c +++ ":" +++ message) = Some (mk_failure shown nl nc "" (trim_space message)).
Proof. intros Hf Hl Hc Hm Ht Hs. rewrite (standard_line files allow file l c message nl nc Hf Hl Hc Hm Ht). now rewrite (stands_unique _ _ _ Hf Hs). Qed.
Print Assumptions C48_standard.
(** Unused imports, in the wordings of protoc from 3.11, from 3.8, and before. *)
Definition qq : string := String dquote EmptyString.
Definition not_used (name : string) : string := "Import " +++ qq +++ name +++ qq +++ " was not used.".
Theorem C48_unused_placed files allow wording file l c name nl nc shown :
  In wording [" is unused"; " but not used"] -> plain_name file -> plain_name name -> number l nl -> number c nc -> stands_for files file shown ->
  parse_line files allow (file +++ ":" +++ l +++ ":" +++ c +++ ": warning: Import " +++ name +++ wording +++ ".") =
  if allow then None else Some (mk_failure shown nl nc "" (not_used name)).
Proof.
  intros He Hf Hn Hl Hc Hs. rewrite (unused_placed files allow wording file l c name nl nc); auto.
  - now rewrite (stands_unique _ _ _ Hf Hs).
  - destruct He as [<-|[<-|[]]]; auto.
Qed.
Print Assumptions C48_unused_placed.
Theorem C48_unused_old files allow file name shown : plain_name file -> plain_name name -> stands_for files file shown ->
  parse_line files allow (file +++ ": warning: Import " +++ name +++ " but not used.") =
  if allow then None else Some (mk_failure shown 0 0 "" (not_used name)).
Proof. intros Hf Hn Hs. rewrite (unused_old files allow file name Hf Hn). unfold allowed, plain. now rewrite (stands_unique _ _ _ Hf Hs). Qed.
Print Assumptions C48_unused_old.
(** An import that is missing is reported, and the line that comes with it is not. *)
Theorem C48_not_found files allow file : plain_name file ->
  parse_line files allow (file +++ ": File not found.") = Some (mk_failure "" 0 0 "" ("Import " +++ qq +++ file +++ qq +++ " was not found.")).
Proof. apply not_found. Qed.
Print Assumptions C48_not_found.
Theorem C48_import_errors files allow file name : plain_name file -> plain_name name ->
  parse_line files allow (file +++ ": Import " +++ name +++ " was not found or had errors.") = None.
Proof. apply import_errors_silent. Qed.
Print Assumptions C48_import_errors.

(** ** C49: the goroutines *)
Definition runs_now (p : pool) : nat := length (filter (fun w => match w with Running => true | _ => false end) (p_workers p)).
(** At most [ncpu] commands run at a time. *)
Theorem C49_bounded ncpu total result p : steps ncpu total result pool_0 p -> runs_now p <= ncpu.
Proof. intros H. apply bounded in H. exact H. Qed.
Print Assumptions C49_bounded.
(** Until it returns, there is something to do, and it cannot go on forever. *)
Theorem C49_progress ncpu total result p : ncpu > 0 -> steps ncpu total result pool_0 p -> p_returned p = false ->
  exists q, step ncpu total result p q.
Proof. apply progress. Qed.
Print Assumptions C49_progress.
Theorem C49_terminates ncpu total result (f : nat -> pool) : f 0 = pool_0 -> ~ (forall i, step ncpu total result (f i) (f (S i))).
Proof. intros H0 H. assert (Hm : S (measure total pool_0) <= measure total pool_0); [|lia]. apply (steps_length ncpu total result). exists f. auto. Qed.
Print Assumptions C49_terminates.
(** When it returns, all have ended, and their failures and errors are all there. *)
Theorem C49_returns ncpu total result p : steps ncpu total result pool_0 p -> p_returned p = true ->
  exists ended, Permutation ended (seq 0 total) /\
    p_failures p = concat (map (fun i => fst (result i)) ended) /\ p_errors p = concat (map (fun i => snd (result i)) ended).
Proof. apply returned_order. Qed.
Print Assumptions C49_returns.

(** ** What does not hold, and examples *)
Ltac not_within H := apply within_next in H as [H|[H|H]]; discriminate H.
Ltac oks := repeat (apply Forall_cons; [reflexivity|]); apply Forall_nil.

(** The commands of two directories and two plugins. *)
Example C45_ex : exists s ms,
  px_cmds px_temp true true false false false (px_set "/w/c" false) state_0 = (s, Ok ms) /\
  st_events s = [MadeTemp "/tmp/prototool0"] /\
  map (fun m => (hd "" (skipn 7 (cm_args m)), last (cm_args m) "")) ms =
    [("-o", "/w/c/d/t.proto");
     ("--go_out=plugins=grpc,Ma/y.proto=foo.com/bar/gen/go/a,Ma/x.proto=foo.com/bar/gen/go/a,Mab/z.proto=foo.com/bar/gen/go/ab,"
      +++ join "," (rev (map assignment wkt_go_modifiers)) +++ ",Mother.proto=foo.com/other:/w/gen/go", "/w/c/d/t.proto");
     ("--descriptor_out=/w/gen/d/c/d/d.bin", "/w/c/d/t.proto")].
Proof. eexists _, _. split; [vm_compute; reflexivity|]. split; vm_compute; reflexivity. Qed.
(** The condition of [C45_below_partial]. *)
Example C45_below_ex d : In d (ps_files (px_set "/w/c" false)) -> has_prefix (fst d) "/w/c" = true <-> within "/w/c" (fst d).
Proof.
  intros Hd. split; [|apply within_prefix]. intros H. destruct Hd as [<-|[<-|[<-|[]]]]; try discriminate.
  exists ["w"; "c"], ["d"]. split; [oks|]. split; [oks|]. split; reflexivity.
Qed.
(** False: that only files below the requested directory are compiled.  For /w/a, those
    of /w/ab are, too. *)
Theorem C45_sibling_refuted :
  ~ (forall set s s' ms m, get_cmd_metas px_order px_grow (Ok tt) (Ok tt) (Ok "/p/include") (Ok "/p/protoc") px_temp false false false false false set s = (s', Ok ms) ->
     In m ms -> within (ps_dir set) (cm_dir m)).
Proof.
  intros H. assert (Hw : within "/w/a" "/w/ab"); [|not_within Hw].
  destruct (get_cmd_metas px_order px_grow (Ok tt) (Ok tt) (Ok "/p/include") (Ok "/p/protoc") px_temp false false false false false (px_set "/w/a" false) state_0) as [s' [ms|e]] eqn:E; [|vm_compute in E; discriminate].
  assert (G := fun m => H _ _ _ _ m E). vm_compute in E. injection E as <- <-. exact (G _ (or_introl eq_refl)).
Qed.
Print Assumptions C45_sibling_refuted.
Example C45_run_ex : exists s s' ds, px_cmds px_temp true true false false false (px_set "/w/c" false) state_0 = (s, Ok ds) /\ length ds = 3 /\
  px_run nat (px_set "/w/c" false) (fun _ => None) nat (fun _ => Ok 7) (fun _ => Ended "" NoError) [2; 0; 1] state_0 = (s', Sets nat [mk_descriptor_set nat 7 "/w/c/d" [px_file "c/d/t.proto"]]) /\
  st_events s' = [MadeTemp "/tmp/prototool0"; MadeDir "/w/gen/d/c/d"; MadeDir "/w/gen/go"] ++ map (fun m => Ran (cm_args m)) ds
    ++ [ReadTemp "/tmp/prototool0"; RemovedTemp "/tmp/prototool0"].
Proof. eexists _, _, _. split; [vm_compute; reflexivity|]. split; [vm_compute; reflexivity|]. split; vm_compute; reflexivity. Qed.

(** The include paths of a directory. *)
Example C46_ex : get_includes (Ok "/p/include") (ps_config (px_set "/w" false)) "/w/a" (base_dir (px_set "/w" false)) = Ok ["/inc"; "/p/include"; "/w"].
Proof. reflexivity. Qed.
Example C46_below_ex : includes_of (Ok "/p/include") (px_set "/w" false) "/w/a" ["/inc"; "/p/include"; "/w"] /\
  within (base_dir (px_set "/w" false)) "/w/a" /\ (forall i, In i ["/inc"; "/p/include"; "/w"] -> has_prefix "/w/a" i = true -> within i "/w/a").
Proof.
  split; [now apply includes_ok|]. assert (Hw : within "/w" "/w/a") by (exists ["w"], ["a"]; split; [oks|]; split; [oks|]; split; reflexivity).
  split; [exact Hw|]. intros i [<-|[<-|[<-|[]]]] H; try discriminate. exact Hw.
Qed.
(** False: that the files are always below an include path.  With /w/a as an include
    path, the files of /w/ab are not. *)
Theorem C46_sibling_refuted :
  ~ (forall wkt set dir is, get_includes wkt (ps_config set) dir (base_dir set) = Ok is -> within (base_dir set) dir -> exists i, In i is /\ within i dir).
Proof.
  intros H. set (c := mk_config "/w" [] (mk_compile_config "3.11.0" ["/w/a"] false false) (mk_create_config [])
      (mk_lint_config "" false [] [] [] "" "com" true) (mk_break_config false false) (mk_gen_config "" [] [])).
  destruct (H (Err "") (mk_proto_set "/w" "/w" [] c) "/w/ab" ["/w/a"]) as (i & [<-|[]] & Hw).
  - reflexivity.
  - exists ["w"], ["ab"]. split; [oks|]. split; [oks|]. split; reflexivity.
  - not_within Hw.
Qed.
Print Assumptions C46_sibling_refuted.

(** The conditions of [parameters] and [written]. *)
Example C47_ex : laid_out (px_set "/w" false) ["w"] /\
  gc_import_path (cfg_gen (ps_config (px_set "/w" false))) = join "/" ["foo.com"; "bar"] /\
  gp_output_rel (px_plugin "go" PluginGo "plugins=grpc" "gen/go" "") = rel_path ["gen"; "go"] /\
  files_elsewhere (px_set "/w" false) "/w/a" = [px_file "ab/z.proto"; px_file "c/d/t.proto"].
Proof.
  split; [|split; [reflexivity|split; reflexivity]]. split; [reflexivity|]. split; [oks|]. split.
  - intros f [<-|[<-|[<-|[<-|[]]]]].
    + exists ["a"], "x.proto". split; [reflexivity|oks].
    + exists ["a"], "y.proto". split; [reflexivity|oks].
    + exists ["ab"], "z.proto". split; [reflexivity|oks].
    + exists ["c"; "d"], "t.proto". split; [reflexivity|oks].
  - assert (E : map pf_path (files_of (ps_files (px_set "/w" false))) = dedup (map pf_path (files_of (ps_files (px_set "/w" false))))) by reflexivity.
    rewrite E. apply dedup_NoDup.
Qed.
Example C47_written_ex : exists flags, get_plugin_flag_set px_order (px_set "/w" false) "/w/c/d" (px_plugin "descriptor" PluginNone "" "gen/d" "bin") = Ok flags /\
  flags = ["--descriptor_out=/w/gen/d/c/d/d.bin"; "--include_source_info"].
Proof. eexists. split; vm_compute; reflexivity. Qed.

(** What protoc may print, and what is made of it. *)
Definition px_output : string :=
  "a/x.proto:3:1: Expected top-level statement." +++ String newline (
  "a/x.proto:4:1: warning: Import b.proto is unused." +++ String newline (
  String newline (
  "no.proto: File not found." +++ String newline (
  "a/x.proto: Import no.proto was not found or had errors." +++ String newline
  "panic: what")))).
Example C48_ex : parse_output [px_file "a/x.proto"; px_file "a/y.proto"] false px_output =
  [mk_failure "a/x.proto" 3 1 "" "Expected top-level statement.";
   mk_failure "a/x.proto" 4 1 "" (not_used "b.proto");
   mk_failure "" 0 0 "" ("Import " +++ qq +++ "no.proto" +++ qq +++ " was not found.");
   mk_failure "" 0 0 "" "panic: what"].
Proof. vm_compute. reflexivity. Qed.
Example C48_plain_ex : plain_name "a/x.proto" /\ number "12" 12 /\ stands_for [px_file "a/x.proto"; px_file "a/y.proto"] "x.proto" "a/x.proto".
Proof. split; [repeat split; discriminate|]. split; [split; [reflexivity|lia]|]. left. exists (px_file "a/x.proto"). split; reflexivity. Qed.
Example C48_run_ex : run_cmd_meta (px_set "/w" true) (mk_cmd_meta [] "/w/a" [px_file "a/x.proto"] "") (Ended "a/x.proto: warning: Import b.proto but not used." NoError) = Returned [] None /\
  run_cmd_meta (px_set "/w" true) (mk_cmd_meta [] "/w/a" [px_file "a/x.proto"] "") (Ended "a/x.proto: warning: Import b.proto but not used." (ExitError "exit status 1")) = Returned [] (Some "exit status 1").
Proof. split; vm_compute; reflexivity. Qed.
(** False: that a compile that succeeds had only runs of protoc that succeeded.  One that
    was interrupted counts as a success. *)
Theorem C48_interrupted_refuted :
  ~ (forall set m o, run_cmd_meta set m o = Returned [] None -> exists stderr, o = Ended stderr NoError).
Proof. intros H. destruct (H (px_set "/w" false) (mk_cmd_meta [] "" [] "") (Signalled None) eq_refl) as (? & H'). discriminate. Qed.
Print Assumptions C48_interrupted_refuted.
(** False: that the line about an import with errors is always silent: not with a
    position, as protoc prints it since 3.8. *)
Theorem C48_import_errors_refuted :
  ~ (forall files allow l, import_with_errors_line l -> parse_line files allow l = None).
Proof.
  intros H. specialize (H [] true "a.proto:3:1: Import b.proto was not found or had errors.").
  vm_compute in H. discriminate H. exists "a.proto:3:1", "b.proto", "."%char. reflexivity.
Qed.
Print Assumptions C48_import_errors_refuted.

(** Runs that fail in two ways. *)
Definition px_outcomes (i : nat) : outcome :=
  match i with 0 => Ended "z.proto:1:1: b" (ExitError "exit status 1") | 1 => Ended "" (ExitError "exit status 2") | _ => Ended "t.proto:2:1: a" NoError end.
Example C49_ex : exists s ms, px_cmds px_temp true true false false false (px_set "/w/c" false) state_0 = (s, Ok ms) /\
  Permutation [2; 0; 1] (seq 0 (length ms)) /\
  snd (px_run nat (px_set "/w/c" false) (fun _ => None) nat (fun _ => Ok 7) px_outcomes [2; 0; 1] state_0) = Error nat "exit status 2" /\
  snd (px_run nat (px_set "/w/c" false) (fun _ => None) nat (fun _ => Ok 7) (fun i => px_outcomes (i + i)) [2; 0; 1] state_0) =
    Failures nat [mk_failure "c/d/t.proto" 2 1 "" "a"; mk_failure "c/d/t.proto" 2 1 "" "a"; mk_failure "z.proto" 1 1 "" "b"].
Proof.
  eexists _, _. split; [vm_compute; reflexivity|]. split; [vm_compute; apply (Permutation_cons_append [0; 1] 2)|].
  split; vm_compute; reflexivity.
Qed.
(** False: that the text of the error is the same for every order. *)
Theorem C49_error_text_refuted :
  ~ (forall set outcomes s a b, Permutation a b ->
     px_run nat set (fun _ => None) nat (fun _ => Ok 7) outcomes a s = px_run nat set (fun _ => None) nat (fun _ => Ok 7) outcomes b s).
Proof.
  intros H. specialize (H (px_set "/w/c" false) (fun i => Ended "" (OtherError (itoa (Z.of_nat i)))) state_0 [0; 1; 2] [2; 1; 0] (Permutation_rev [0; 1; 2])).
  vm_compute in H. discriminate H.
Qed.
Print Assumptions C49_error_text_refuted.
(** A schedule with one slot and two commands, the second of which starts after the
    first released its slot. *)
Example C49_pool_ex : exists p, steps 1 2 (fun i => ([], [itoa (Z.of_nat i)])) pool_0 p /\ p_returned p = true /\ p_errors p = ["0"; "1"].
Proof.
  eexists. split; [|split].
  - eapply More. eapply More. eapply More. eapply More. eapply More. eapply More. eapply More. eapply More.
    eapply More. eapply More. eapply More. eapply More. eapply More. eapply More. eapply More. apply Stay.
    + apply Start; cbn; lia.
    + cbn. apply (Lock 1 2 _ _ _ _ _ _ _ 0). reflexivity.
    + cbn. apply (Load 1 2 _ _ _ _ _ _ _ _ 0). reflexivity.
    + cbn. apply (Store 1 2 _ _ _ _ _ _ _ _ 0 [] []). reflexivity.
    + cbn. apply (Unlock 1 2 _ _ _ _ _ _ _ 0). reflexivity.
    + cbn. apply (Release 1 2 _ _ _ _ _ _ _ _ 0). reflexivity.
    + cbn. apply Start; cbn; lia.
    + cbn. apply (Finish 1 2 _ _ _ _ _ _ _ _ 0). reflexivity.
    + cbn. apply (Lock 1 2 _ _ _ _ _ _ _ 1). reflexivity.
    + cbn. apply (Load 1 2 _ _ _ _ _ _ _ _ 1). reflexivity.
    + cbn. apply (Store 1 2 _ _ _ _ _ _ _ _ 1 [] ["0"]). reflexivity.
    + cbn. apply (Unlock 1 2 _ _ _ _ _ _ _ 1). reflexivity.
    + cbn. apply (Release 1 2 _ _ _ _ _ _ _ _ 1). reflexivity.
    + cbn. apply (Finish 1 2 _ _ _ _ _ _ _ _ 1). reflexivity.
    + cbn. apply Return. reflexivity.
  - reflexivity.
  - reflexivity.
Qed.

(** The second temporary file cannot be made: the first is removed. *)
Example C50_ex : exists s', px_run nat (px_set "/w" false) (fun _ => None) nat (fun _ => Ok 7) (fun _ => Ended "" NoError) [] state_0 = (s', Error nat "no space left") /\
  st_events s' = [MadeTemp "/tmp/prototool0"; MadeTemp "/tmp/prototool1"; RemovedTemp "/tmp/prototool0"; RemovedTemp "/tmp/prototool1"].
Proof. eexists. split; vm_compute; reflexivity. Qed.
(** False: that they are always removed.  An interrupt before protoc has started makes
    the program crash. *)
Theorem C50_crash_refuted :
  ~ (forall set outcomes ended s s' r, px_run nat set (fun _ => None) nat (fun _ => Ok 7) outcomes ended s = (s', r) -> exists es, done_since s s' es /\ cleans_up es).
Proof.
  intros H. destruct (px_run nat (px_set "/w/c" false) (fun _ => None) nat (fun _ => Ok 7) (fun _ => SignalledEarly) [0; 1; 2] state_0) as [s' r] eqn:E.
  destruct (H _ _ _ _ _ _ E) as (es & Hd & work & Hw & _). vm_compute in E. injection E as <- _. unfold done_since in Hd.
  match type of Hd with _ = ?x ++ _ => change x with (@nil event) in Hd end. cbn [st_events app] in Hd. rewrite Hw in Hd. clear - Hd.
  destruct work as [|e work]; [discriminate Hd|]. cbn [app] in Hd. injection Hd as <- Hd.
  assert (Hl : forall a b c, In (RemovedTemp a) (b ++ map RemovedTemp (a :: c))) by (intros; apply in_or_app; right; now left).
  specialize (Hl "/tmp/prototool0" work (made_temps work)). change (made_temps (MadeTemp "/tmp/prototool0" :: work)) with ("/tmp/prototool0" :: made_temps work) in Hd.
  rewrite <- Hd in Hl. cbn [In] in Hl. repeat (destruct Hl as [Hl|Hl]; [discriminate Hl|]). exact Hl.
Qed.
Print Assumptions C50_crash_refuted.

(** The directories of the two plugins. *)
Example C62_ex : output_dir (px_set "/w" false) "/w/c/d" (px_plugin "descriptor" PluginNone "" "gen/d" "bin") "/w/gen/d/c/d" /\
  output_dir (px_set "/w" false) "/w/c/d" (px_plugin "go" PluginGo "plugins=grpc" "gen/go" "") "/w/gen/go".
Proof.
  split; [|reflexivity]. exists ["w"], ["w"; "gen"; "d"], ["c"; "d"], ["w"; "c"], "d".
  split; [reflexivity|]. split; [reflexivity|]. split; [reflexivity|]. split; [oks|]. split; [oks|]. split; [oks|]. split; [left; reflexivity|]. split; reflexivity.
Qed.
