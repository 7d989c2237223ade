(** C97: break check of a directory that is not in the working directory. *)
From Verif Require Import GoStrFacts GoPathFacts Exec_Spec Cmd_Spec Main_Model Main_Spec Main_Proofs Main_Proofs2 Props_Main Props_Main2 Props_Main3 Props_Main4 Props_Main5 Props_Main8 Props_Main12 Props_Main15 Props_Main19 Props_Main20.
From Verif Require Import Place_Spec Place_Proofs.
From Verif Require Props_Main13 Main_Proofs3.

(** Against the repository, break check does not take a path that does not begin with that of the
    working directory: nothing is cloned or changed, and the status is not 0. *)
Theorem C97_outside : forall w here l c items args s s2 z, ordinary w (abs_path here) -> ok_comps here ->
  means (w_read_csv w) l c items args -> c_words c = ["break"; "check"] -> text items "descriptor-set-path" = "" ->
  (forall t, abs_path (place here (Exec_Spec.target args)) <> abs_path here +++ t) -> main w l s = (s2, z) ->
  z <> 0%Z /\ exists es, io_done s2 = io_done s ++ es /\ Forall (fun e => e = Compiled false \/ exists t, e = Printed t) es /\ forall p, io_disk s2 p = io_disk s p.
Proof.
  intros w here l c items args s s2 z (V & G & Wd & Cl & Nm & St) Hh M W De Out.
  destruct (line_is w l c items args G M) as (k & Ak & L). unfold asked in Ak. rewrite W, De in Ak. injection Ak as <-. rewrite L.
  set (P := fun e => e = Compiled false \/ exists t, e = Printed t).
  assert (Hp : forall t, P (Printed t)) by (intros t; right; now exists t).
  destruct (the_options w items) as [r|m] eqn:Op.
  2:{ rewrite no_options. intros [= <- <-]. split; [discriminate|]. destruct (Props_Main13.println_says m s) as (es & E & O). exists es. rewrite E. split; [reflexivity|]. split; [|reflexivity].
      eapply Forall_impl; [|exact O]. intros e (t & ->). apply Hp. }
  rewrite with_options. pose proof (options_here w _ items r Wd Op) as Hr.
  set (get := get_package_set_and_config (Main_Model.here r) (r_error_format r) (r_json r) Json_Model.failure_json (w_stat w) (provider w r (io_disk s)) (the_compiler w r) (the_commands w r) (Main_Model.here r) args).
  assert (Ne : Exec_Spec.target args <> "" \/ exists m, get s = (s, Fail m)).
  { destruct (string_dec (Exec_Spec.target args) "") as [E|E]; [|now left]. right. unfold get, get_package_set_and_config, get_meta. change (match args with [a] => a | _ => "." end) with (Exec_Spec.target args). rewrite E.
    destruct (w_stat w "") as [kd|e]; [now destruct (St kd)|]. exists e. reflexivity. }
  assert (X : exists m, Main_Model.method w r (CallBreakCheck args (text items "git-branch") "") s = (run x <- get; @fail unit m) s).
  { change (Main_Model.method w r (CallBreakCheck args (text items "git-branch") "") s) with (PackageCmd_Model.break_check (Main_Model.here r) (Main_Model.here r) (r_error_format r) (r_json r) Json_Model.failure_json (w_stat w) (provider w r (io_disk s)) (the_compiler w r) (the_commands w r)
      (w_unmarshal w) (w_temp_dir w) (w_git w) args (text items "git-branch") "" s).
    unfold PackageCmd_Model.break_check. rewrite andb_comm. cbn [is_empty negb andb]. fold get. change (match args with [a] => a | _ => "." end) with (Exec_Spec.target args).
    destruct Ne as [Ne|(m & Ge)]; [|exists m; unfold and_then; rewrite Ge; reflexivity].
    destruct (is_abs (Exec_Spec.target args)); [eexists; reflexivity|].
    rewrite (clean_place here Hh r Hr _ Ne). assert (Ch : abs_clean (Main_Model.here r) (Main_Model.here r) = abs_path here).
    { rewrite Hr. unfold abs_clean. rewrite is_abs_abs_path, (clean_abs_path here Hh). destruct (is_empty (abs_path here)) eqn:Ie; [|reflexivity]. destruct (abs_path here); [reflexivity|discriminate Ie]. }
    rewrite Ch. destruct (has_prefix (abs_path (place here (Exec_Spec.target args))) (abs_path here)) eqn:Px; [|eexists; reflexivity].
    exfalso. apply has_prefix_spec in Px as (t & Px). exact (Out t Px). }
  destruct X as (m & X).
  assert (D : does P (run x <- get; @fail unit m)).
  { apply does_then; [|intros; apply does_fail]. apply does_get_package_set; [exact Hp|left; reflexivity]. }
  intros E. assert (E' : process (run x <- get; @fail unit m) s = (s2, z)). { rewrite <- E. symmetry. unfold process. rewrite X. reflexivity. }
  split.
  - intros ->. apply status_0 in E'. unfold and_then in E'. destruct (get s) as [t [a|a|a]]; discriminate E'.
  - destruct (Main_Proofs3.process_ok P _ Hp D s) as (es & A & B & C). rewrite E' in A, C. cbn [fst] in A, C. exists es. split; [exact A|]. split; [exact B|]. intros p.
    destruct (result_string_dec (io_disk s2 p) (io_disk s p)) as [F|F]; [exact F|]. destruct (C p F) as (d & I). rewrite Forall_forall in B. destruct (B _ I) as [Q|(t & Q)]; discriminate Q.
Qed.
Print Assumptions C97_outside.

(** ** Examples: /wx, beside the working directory /w, and /x. *)
Definition with_disk (w : world) (stat : string -> result file_kind) (node_at : string -> node) : world :=
  mk_world (w_goos w) (w_goarch w) (w_go_version w) (w_getenv w) (w_getwd w) (w_parse_duration w)
    (w_read_csv w) (w_usage w) (w_help w) (w_suggestions w) (w_help_topic w)
    (w_order w)
    stat node_at (w_mkdir_all w) (w_write_error w) (w_remove_all w) (w_temp_file w) (w_temp_dir w) (w_look_path w)
    (w_too_slow w)
    (w_decode_json w) (w_decode_yaml w) (w_encode_ignores w) (w_sort_plugins w) (w_sort_options w) (w_sort_imports w)
    (w_parse w) (w_singularize w)
    (w_diff w)
    (w_download w) (w_digest w) (w_stat_info w)
    (w_protoc_temp w) (w_protoc w) (w_protoc_set w) (w_ended w) (w_grow w)
    (w_sha256 w) (w_marshal w) (w_set_json w) (w_unmarshal w) (w_git w)
    (w_create_descriptor w) (w_create_source w) (w_credentials w) (w_dial w) (w_invoke_rpc w).
Definition exw21_files : list string := ["/wx/a.proto"; "/x/a.proto"; "/tmp/wx/a.proto"; "/wx/prototool.yaml"; "/x/prototool.yaml"; "/tmp/wx/prototool.yaml"].
Definition exw21 : world := with_disk (exw12 true) (fun p => if mem p ["../wx"; "../x"; "/tmp/wx"] then Ok Exec_Model.Directory else exw12_stat p)
  (fun p => if mem p ["/wx"; "/x"; "/tmp/wx"] then NDir [("a.proto", NFile); ("prototool.yaml", NFile)] else if mem p exw21_files then NFile else exw12_node p).
Definition exw21_s : io := mk_io (fun p => if mem p exw21_files then Ok "text" else io_disk exw12_edited p) [].
Definition exw21_seen (l : list string) : list event * Z := let x := main exw21 l exw21_s in (io_done (fst x), snd x).
Lemma exw21_ordinary : ordinary exw21 (abs_path ["w"]).
Proof.
  destruct (exw12_ordinary true) as (V & G & Wd & Cl & Nm & St). split; [exact V|]. split; [exact G|]. split; [reflexivity|]. split; [exact Cl|]. split; [|intros k; discriminate].
  intros p. change (File_Spec.named (if mem p ["/wx"; "/x"; "/tmp/wx"] then NDir [("a.proto", NFile); ("prototool.yaml", NFile)] else if mem p exw21_files then NFile else exw12_node p)).
  destruct (mem p ["/wx"; "/x"; "/tmp/wx"]); [|destruct (mem p exw21_files); [constructor|apply Nm]].
  constructor; [repeat constructor|repeat constructor; cbn; intuition discriminate|]. intros n c [[= <- <-]|[[= <- <-]|[]]]; constructor.
Qed.
Example C97_outside_ex : ordinary exw21 (abs_path ["w"]) /\ ok_comps ["w"] /\
  means (w_read_csv exw21) ["break"; "check"; "../x"] (exw_command ["break"; "check"]) [Plain "../x"] ["../x"] /\ text [Plain "../x"] "descriptor-set-path" = "" /\
  place ["w"] "../x" = ["x"] /\ (forall t, abs_path (place ["w"] (Exec_Spec.target ["../x"])) <> abs_path ["w"] +++ t) /\
  exw21_seen ["break"; "check"; "../x"] = ([Compiled false; Printed (exl "input directory must be within working directory: ../x")], 1%Z).
Proof.
  split; [exact exw21_ordinary|]. split; [repeat constructor|]. split; [plain_now|]. split; [reflexivity|]. split; [reflexivity|]. split; [intros t; discriminate|]. vm_compute. reflexivity.
Qed.
(** A directory beside the working directory is taken if its name begins with that of the working
    directory, and compared with one beside the clone. *)
Theorem C97_outside_refuted : ~ (forall w here l c items args s s2 z, ordinary w (abs_path here) -> ok_comps here ->
  means (w_read_csv w) l c items args -> c_words c = ["break"; "check"] -> text items "descriptor-set-path" = "" ->
  (forall t, place here (Exec_Spec.target args) <> here ++ t) -> main w l s = (s2, z) -> z <> 0%Z).
Proof.
  intros H. apply (H exw21 ["w"] ["break"; "check"; "../wx"] (exw_command ["break"; "check"]) [Plain "../wx"] ["../wx"] exw21_s (fst (main exw21 ["break"; "check"; "../wx"] exw21_s)) 0%Z).
  - exact exw21_ordinary.
  - repeat constructor.
  - plain_now.
  - reflexivity.
  - reflexivity.
  - intros t. discriminate.
  - vm_compute. reflexivity.
  - reflexivity.
Qed.
Print Assumptions C97_outside_refuted.
