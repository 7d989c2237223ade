(** C83: the cache is what the commands use. *)
From Verif Require Import GoStrFacts Exec_Spec Cmd_Spec Cmd_Proofs Cmd_Proofs3 Main_Model Main_Spec Main_Proofs5 Props_Main.

Lemma not_given csv c items n : Forall (item_ok csv c) items -> (forall k, ~ takes c n k) -> text items n = default n.
Proof.
  intros F N. unfold text. assert (E : values items n = []); [|now rewrite E].
  unfold values. induction F as [|i items H F IH]; [reflexivity|]. cbn [map concat]. rewrite IH, app_nil_r. destruct i as [a|m f v]; [reflexivity|].
  destruct (String.eqb_spec m n); [|reflexivity]. subst m. destruct H as (_ & _ & k & T & _). destruct (N k T).
Qed.
Lemma status_0 (c : cmd unit) s s' : process c s = (s', 0%Z) -> c s = (s', Value tt).
Proof. unfold process. destruct (c s) as [s1 [[]|m|m]]; intros [= <-]; reflexivity. Qed.

(** If cache update and compile --dry-run or generate --dry-run both succeed, with the same
    arguments, cache, configuration and time to walk, and without the flags about protoc
    that cache update does not have: either the environment has no protoc, and cache update
    downloads into the directory whose bin/protoc all the commands run; or it has one, which
    all the commands run, and nothing is downloaded. *)
Theorem C83_update_then_use : forall w u ul ui d dl di args s s1 s2,
  (w_goos w = "darwin" \/ w_goos w = "linux") ->
  means (w_read_csv w) ul u ui args -> c_words u = ["cache"; "update"] ->
  means (w_read_csv w) dl d di args -> c_words d = ["compile"] \/ c_words d = ["generate"] -> on di "dry-run" = true ->
  (forall name, In name ["cache-path"; "config-data"; "walk-timeout"] -> text ui name = text di name) ->
  (forall name, In name ["protoc-url"; "protoc-bin-path"; "protoc-wkt-path"] -> text di name = "") ->
  main w ul s = (s1, 0%Z) -> main w dl s = (s2, 0%Z) ->
  exists protoc lines, io_done s2 = io_done s ++ shown lines /\ Forall (begins_with protoc) lines /\
    ((w_getenv w "PROTOTOOL_PROTOC_BIN_PATH" = "" /\
      exists base, io_done s1 = io_done s ++ [Downloaded base] /\ protoc = path_join [base; "bin"; "protoc"]) \/
     (w_getenv w "PROTOTOOL_PROTOC_BIN_PATH" <> "" /\ io_done s1 = io_done s /\
      protoc = path_clean (w_getenv w "PROTOTOOL_PROTOC_BIN_PATH"))).
Proof.
  intros w u ul ui d dl di args s s1 s2 G (more & Hu & Iu & Ea & Nu & ->) Wu (more' & Hd & Id & Ea' & Nd & ->) Wd Dry Same None E1 E2.
  assert (W : exists walk, walk_asked (w_parse_duration w) ui walk) by (unfold walk_asked; destruct (String.eqb _ _); eauto).
  destruct W as (walk & W).
  assert (W' : walk_asked (w_parse_duration w) di walk) by (unfold walk_asked in *; now rewrite <- (Same "walk-timeout") by (cbn; tauto)).
  rewrite Ea in Nu. rewrite Ea' in Nd.
  destruct (line_runs (w_read_csv w) (w_goos w) (w_getenv w) (w_getwd w) (w_parse_duration w) (w_usage w) (w_help w) (w_suggestions w)
    (w_help_topic w) (Main_Model.method w) u ui more walk G Hu Iu Nu W) as (k & K & L).
  destruct (line_runs (w_read_csv w) (w_goos w) (w_getenv w) (w_getwd w) (w_parse_duration w) (w_usage w) (w_help w) (w_suggestions w)
    (w_help_topic w) (Main_Model.method w) d di more' walk G Hd Id Nd W') as (k' & K' & L').
  unfold main in E1, E2. rewrite L in E1. rewrite L' in E2. clear L L'. apply status_0 in E1. apply status_0 in E2.
  unfold and_then at 1 in E1. unfold and_then at 1 in E2.
  destruct walk as [wt|]; [|discriminate E1]. destruct (w_getwd w) as [dir|]; [|discriminate E1]. cbn [bind Exec_Model.check ret] in E1, E2.
  unfold asked in K, K'. rewrite Wu in K. injection K as <-.
  assert (Fu : forall n, In n ["protoc-url"; "protoc-bin-path"; "protoc-wkt-path"] -> text ui n = "").
  { intros n Hn. rewrite (not_given _ _ _ n Iu).
    - repeat (destruct Hn as [<-|Hn]; [reflexivity|]). destruct Hn.
    - intros kd T. unfold takes in T. cbn [commands In] in Hu.
      repeat (destruct Hu as [<-|Hu]; [try discriminate Wu; cbn in Hn, T|]); [|destruct Hu].
      repeat (destruct Hn as [<-|Hn]; [repeat (destruct T as [T|T]; [discriminate T|]); destruct T|]). destruct Hn. }
  assert (X : exists gen : bool, k' = if gen then CallGen args true else CallCompile args true).
  { destruct Wd as [Wd|Wd]; rewrite Wd in K'; injection K' as <-; rewrite Dry, Ea'; [exists false|exists true]; reflexivity. }
  destruct X as (gen & ->). rewrite <- Ea in E1.
  destruct (update_then_use w (options (w_getenv w) dir wt ui) (options (w_getenv w) dir wt di)) with (gen := gen) (args := args) (s := s) (s1 := s1) (s2 := s2)
    as (protoc & cs & A & B & C); try exact E1; try exact E2;
    cbn [options r_work_dir r_cache_path r_config_data r_protoc_bin_path r_protoc_wkt_path r_protoc_url r_walk_timeout];
    try (rewrite ?(Same "cache-path"), ?(Same "config-data"), ?Fu, ?None by (cbn; tauto); reflexivity).
  exists protoc, cs. split; [exact A|]. split; [exact B|]. cbn [options r_protoc_bin_path] in C. rewrite Fu in C by (cbn; tauto).
  exact C.
Qed.
Print Assumptions C83_update_then_use.
Definition exw_update : command := mk_command ["cache"; "update"] [("cache-path", Text); ("config-data", Text); ("walk-timeout", Text)] [] 0 (Some 1).
Definition exw_compile : command := mk_command ["compile"] (compiling ++ [("dry-run", OnOff); ("error-format", Text); ("json", OnOff)]) [] 0 (Some 1).
Example C83_update_then_use_ex : 
  means (w_read_csv exw) ["cache"; "update"; "--cache-path=/c"] exw_update [Given "cache-path" LongEquals "/c"] [] /\
  means (w_read_csv exw) ["compile"; "--dry-run"; "--cache-path"; "/c"] exw_compile [Given "dry-run" LongAlone "true"; Given "cache-path" LongSpace "/c"] [] /\
  main exw ["cache"; "update"; "--cache-path=/c"] exw_s = (mk_io exw_disk [Downloaded "/c/protobuf/3.11.0"], 0%Z) /\
  main exw ["compile"; "--dry-run"; "--cache-path"; "/c"] exw_s = (mk_io exw_disk
    (shown ["/c/protobuf/3.11.0/bin/protoc -I /c/protobuf/3.11.0/include -I /w -o /dev/null /w/a.proto"]), 0%Z).
Proof.
  assert (NS : forall w, w = LongEquals \/ w = LongAlone \/ w = LongSpace -> ~ is_short w) by (intros w [-> | [-> | ->]] [X|[X|X]]; discriminate X).
  split; [|split; [|split; vm_compute; reflexivity]].
  - exists None. split; [cbn; tauto|]. split; [|split; [reflexivity|split; [split; cbn; auto with arith|reflexivity]]].
    constructor; [|constructor]. split; [intros X; destruct (NS LongEquals (or_introl eq_refl) X)|]. split; [discriminate|].
    exists Text. split; [unfold takes; cbn; tauto|]. split; discriminate.
  - exists None. split; [cbn; tauto|]. split; [|split; [reflexivity|split; [split; cbn; auto with arith|reflexivity]]].
    constructor; [|constructor; [|constructor]].
    + split; [intros X; destruct (NS LongAlone (or_intror (or_introl eq_refl)) X)|]. split; [discriminate|].
      exists OnOff. split; [unfold takes; cbn; tauto|]. reflexivity.
    + split; [intros X; destruct (NS LongSpace (or_intror (or_intror eq_refl)) X)|]. split; [discriminate|].
      exists Text. split; [unfold takes; cbn; tauto|]. split; discriminate.
Qed.

(** cache update says nothing and downloads nothing, if the environment has a protoc. *)
Definition exw_local : world := mk_world "linux" "amd64" "go1.13"
  (fun v => if String.eqb v "HOME" then "/home" else if String.eqb v "PROTOTOOL_PROTOC_BIN_PATH" then "/p" else if String.eqb v "PROTOTOOL_PROTOC_WKT_PATH" then "/i" else "")
  (Ok "/w") (w_parse_duration exw) (w_read_csv exw) (w_usage exw) (w_help exw) (w_suggestions exw) (w_help_topic exw) (w_order exw) (w_stat exw) (w_node_at exw)
  (w_mkdir_all exw) (w_write_error exw) (w_remove_all exw) (w_temp_file exw) (w_temp_dir exw) (w_look_path exw) (w_too_slow exw) (w_decode_json exw) (w_decode_yaml exw)
  (w_encode_ignores exw) (w_sort_plugins exw) (w_sort_options exw) (w_sort_imports exw) (w_parse exw) (w_singularize exw)
  (w_diff exw) (w_download exw) (w_digest exw) (fun p => if String.eqb p "/p" then IsOther else IsDir) (w_protoc_temp exw) (w_protoc exw) (w_protoc_set exw)
  (w_ended exw) (w_grow exw) (w_sha256 exw) (w_marshal exw) (w_set_json exw) (w_unmarshal exw) (w_git exw) (w_create_descriptor exw) (w_create_source exw)
  (w_credentials exw) (w_dial exw) (w_invoke_rpc exw).
Theorem C83_downloads_refuted : ~ (forall w s s', main w ["cache"; "update"] s = (s', 0%Z) -> exists d, In (Downloaded d) (io_done s')).
Proof. intros H. destruct (H exw_local exw_s exw_s) as (d & []). vm_compute. reflexivity. Qed.
Print Assumptions C83_downloads_refuted.
(** cache delete fails, and removes nothing, in a directory with a broken configuration. *)
Definition exw_broken : io := mk_io (fun p => if String.eqb p "/w/prototool.yaml" then Ok "x" else exw_disk p) [].
Theorem C83_delete_refuted : ~ (forall w s s' st, w_getenv w "HOME" <> "" -> w_goos w = "linux" -> w_goarch w = "amd64" -> w_getwd w = Ok "/w" ->
  (forall d, w_remove_all w d = None) -> main w ["cache"; "delete"] s = (s', st) -> exists d, In (Removed d) (io_done s')).
Proof.
  intros H. specialize (H exw exw_broken (fst (main exw ["cache"; "delete"] exw_broken)) (snd (main exw ["cache"; "delete"] exw_broken))).
  rewrite <- surjective_pairing in H. destruct H as (d & I); try reflexivity; [discriminate|].
  vm_compute in I. destruct I as [I|[]]; discriminate I.
Qed.
Print Assumptions C83_delete_refuted.
