(** Properties of config init: C79. *)
From Verif Require Import GoStrFacts Settings_Model Init_Model Init_Spec.
From Coq Require Import Lia.

Lemma split_lines : forall c a b, split_char c (a +++ String c b) = split_char c a ++ split_char c b.
Proof.
  intros c a b. induction a as [| x a IH].
  - cbn [String.append split_char]. now rewrite Ascii.eqb_refl.
  - cbn [String.append split_char]. destruct (Ascii.eqb x c).
    + rewrite IH. reflexivity.
    + rewrite IH. destruct (split_char c a) eqn:E; [now apply split_char_nonnil in E|]. reflexivity.
Qed.
Lemma version_escape : forall v, sforall version_char v = true -> html_escape v = v.
Proof.
  induction v as [| c v IH]; [reflexivity|]. cbn [sforall]. intros H. apply andb_true_iff in H as (H1 & H2).
  cbn [html_escape]. rewrite (IH H2).
  assert (E : html_char c = String c "").
  { destruct c as [[|] [|] [|] [|] [|] [|] [|] [|]]; try reflexivity; discriminate H1. }
  now rewrite E.
Qed.
Lemma version_no_newline : forall v, sforall version_char v = true -> no_char newline v = true.
Proof.
  induction v as [| c v IH]; [reflexivity|]. cbn [sforall]. intros H. apply andb_true_iff in H as (H1 & H2).
  unfold no_char in *. cbn [sforall]. rewrite (IH H2), andb_true_r.
  destruct c as [[|] [|] [|] [|] [|] [|] [|] [|]]; try reflexivity; discriminate H1.
Qed.
Lemma version_unindent : forall v, version_text v -> unindent v = v /\ String.eqb v "" = false /\ String.eqb v "|" = false.
Proof.
  intros [| c v] (N & H); [now exfalso; apply N|]. cbn [sforall] in H. apply andb_true_iff in H as (H & _).
  destruct c as [[|] [|] [|] [|] [|] [|] [|] [|]]; try discriminate H; repeat split; reflexivity.
Qed.
Lemma split_mid : forall c a v b, no_char c v = true ->
  split_char c (a +++ v +++ b) =
  removelast (split_char c a) ++ (last (split_char c a) "" +++ v +++ hd "" (split_char c b)) :: tl (split_char c b).
Proof.
  intros c a v b N. induction a as [| x a IH].
  - cbn [String.append split_char removelast last app].
    induction v as [| y v IHv].
    + cbn [String.append]. destruct (split_char c b) eqn:E; [now apply split_char_nonnil in E | reflexivity].
    + unfold no_char in *. cbn [sforall] in N. apply andb_true_iff in N as (N1 & N2). apply negb_true_iff in N1.
      cbn [String.append split_char]. rewrite N1, (IHv N2). reflexivity.
  - cbn [String.append split_char]. destruct (Ascii.eqb x c).
    + rewrite IH. destruct (split_char c a) eqn:E; [now apply split_char_nonnil in E|]. reflexivity.
    + rewrite IH. destruct (split_char c a) as [| w l] eqn:E; [now apply split_char_nonnil in E|].
      destruct l as [| w' l]; reflexivity.
Qed.
Lemma join_nothing : forall l, join "" l = fold_right String.append "" l.
Proof.
  induction l as [| x l IH]; [reflexivity|]. destruct l as [| y l].
  - cbn. now rewrite sapp_nil_r.
  - rewrite join_cons2, IH. reflexivity.
Qed.
(** A template in which the version is at two places. *)
Lemma two_places : forall a b c v,
  version_text v -> length (split_char newline b) <> 1 ->
  split_char newline (a +++ v +++ b +++ v +++ c) =
  removelast (split_char newline a) ++ (last (split_char newline a) "" +++ v +++ hd "" (split_char newline b)) ::
  removelast (tl (split_char newline b)) ++ (last (split_char newline b) "" +++ v +++ hd "" (split_char newline c)) :: tl (split_char newline c).
Proof.
  intros a b c v (_ & V) N. apply version_no_newline in V.
  rewrite (split_mid newline a v (b +++ v +++ c) V), (split_mid newline b v c V).
  destruct (split_char newline b) as [| x [| y l]] eqn:E; [now apply split_char_nonnil in E | now exfalso; apply N |].
  reflexivity.
Qed.
Lemma execute_app : forall h v a b, execute_tmpl h v (a ++ b) = execute_tmpl h v a +++ execute_tmpl h v b.
Proof.
  intros h v a b. unfold execute_tmpl. rewrite !join_nothing. induction a as [| x a IH]; [reflexivity|].
  cbn [app map fold_right]. now rewrite IH, sapp_assoc.
Qed.
(** The parts of the documented template around the version. *)
Fixpoint until_version (t : list piece) : list piece :=
  match t with [] | ProtocVersion :: _ => [] | p :: r => p :: until_version r end.
Fixpoint past_version (t : list piece) : list piece :=
  match t with [] => [] | ProtocVersion :: r => r | _ :: r => past_version r end.
Definition doc1 : list piece := until_version document_tmpl.
Definition doc2 : list piece := until_version (past_version document_tmpl).
Definition doc3 : list piece := past_version (past_version document_tmpl).
Lemma doc_parts : document_tmpl = doc1 ++ [ProtocVersion] ++ doc2 ++ [ProtocVersion] ++ doc3.
Proof. vm_compute. reflexivity. Qed.
Fixpoint no_version (t : list piece) : bool :=
  match t with [] => true | ProtocVersion :: _ => false | _ :: r => no_version r end.
Lemma no_version_any : forall h v v' t, no_version t = true -> execute_tmpl h v t = execute_tmpl h v' t.
Proof.
  intros h v v' t H. unfold execute_tmpl. f_equal. induction t as [| p t IH]; [reflexivity|].
  destruct p; cbn [no_version map] in *; [| |discriminate]; now rewrite IH.
Qed.
Lemma document_text : forall h v, version_text v ->
  execute_tmpl h v document_tmpl =
  execute_tmpl h "" doc1 +++ v +++ execute_tmpl h "" doc2 +++ v +++ execute_tmpl h "" doc3.
Proof.
  intros h v (_ & V). rewrite doc_parts, !execute_app.
  rewrite (no_version_any h v "" doc1), (no_version_any h v "" doc2), (no_version_any h v "" doc3) by (vm_compute; reflexivity).
  assert (E : execute_tmpl h v [ProtocVersion] = v) by (unfold execute_tmpl; cbn [map join]; now apply version_escape).
  now rewrite E.
Qed.

Lemma version_line : forall open found v, version_text v -> outer 2 open = open ->
  read_line (mk_reading open None found) ("  version: " +++ v) =
  mk_reading (mk_open 2 "version" :: open) None (found ++ [(path_of (mk_open 2 "version" :: open), v)]).
Proof.
  intros open found v V O. destruct (version_unindent v V) as (U & E1 & E2).
  change (read_line (mk_reading open None found) ("  version: " +++ v)) with (read_entry 2 ("version: " +++ v) (mk_reading open None found)).
  assert (K : key_value ("version: " +++ v) = Some ("version", unindent v)) by reflexivity.
  unfold read_entry. cbn [rd_open rd_found]. rewrite O, K, U. cbv iota beta zeta. rewrite E1, E2. reflexivity.
Qed.

Definition start : reading := mk_reading [] None [].
(** What is read of a text with the version at these two places. *)
Lemma reads_document : forall a b c v open found,
  version_text v -> length (split_char newline b) <> 1 ->
  last (split_char newline a) "" = "  # By default use " -> hd "" (split_char newline b) = "." ->
  last (split_char newline b) "" = "  version: " -> hd "" (split_char newline c) = "" ->
  fold_left read_line (removelast (tl (split_char newline b))) (fold_left read_line (removelast (split_char newline a)) start) =
    mk_reading open None found ->
  rd_block (fold_left read_line (removelast (split_char newline a)) start) = None ->
  outer 2 open = open ->
  configures (a +++ v +++ b +++ v +++ c) =
  rd_found (fold_left read_line (tl (split_char newline c))
    (mk_reading (mk_open 2 "version" :: open) None (found ++ [(path_of (mk_open 2 "version" :: open), v)]))).
Proof.
  intros a b c v open found V N La Hb Lb Hc R B O. unfold configures, read_lines. fold start.
  rewrite (two_places _ _ _ v V N). rewrite fold_left_app. cbn [fold_left]. rewrite fold_left_app. cbn [fold_left].
  rewrite La, Hb, Lb, Hc, sapp_nil_r.
  assert (X : forall r, rd_block r = None -> read_line r ("  # By default use " +++ v +++ ".") = r).
  { intros r Br. unfold read_line. rewrite Br. reflexivity. }
  rewrite (X _ B), R, (version_line open found v V O). reflexivity.
Qed.

Lemma configures_document : forall v, version_text v ->
  configures (execute_tmpl "#" v document_tmpl) = [(["protoc"; "version"], v); (["lint"; "group"], "uber2")].
Proof.
  intros v V. rewrite (document_text "#" v V).
    rewrite (reads_document _ _ _ v [mk_open 0 "protoc"] [] V);
      [| vm_compute; discriminate | vm_compute; reflexivity | vm_compute; reflexivity | vm_compute; reflexivity
       | vm_compute; reflexivity | vm_compute; reflexivity | vm_compute; reflexivity | reflexivity].
    vm_compute. reflexivity.
Qed.
Lemma reads_base : forall a c v open found,
  version_text v -> last (split_char newline a) "" = "  version: " -> hd "" (split_char newline c) = "" ->
  fold_left read_line (removelast (split_char newline a)) start = mk_reading open None found ->
  outer 2 open = open ->
  configures (a +++ v +++ c) =
  rd_found (fold_left read_line (tl (split_char newline c))
    (mk_reading (mk_open 2 "version" :: open) None (found ++ [(path_of (mk_open 2 "version" :: open), v)]))).
Proof.
  intros a c v open found V La Hc R O. unfold configures, read_lines. fold start.
  rewrite split_mid by apply version_no_newline, V. rewrite fold_left_app. cbn [fold_left].
  rewrite La, Hc, sapp_nil_r, R, (version_line open found v V O). reflexivity.
Qed.
Definition base1 : list piece := until_version base_tmpl.
Definition base2 : list piece := past_version base_tmpl.
Lemma base_parts : base_tmpl = base1 ++ [ProtocVersion] ++ base2.
Proof. vm_compute. reflexivity. Qed.
Lemma base_text : forall h v, version_text v ->
  execute_tmpl h v base_tmpl = execute_tmpl h "" base1 +++ v +++ execute_tmpl h "" base2.
Proof.
  intros h v (_ & V). rewrite base_parts, !execute_app.
  rewrite (no_version_any h v "" base1), (no_version_any h v "" base2) by (vm_compute; reflexivity).
  assert (E : execute_tmpl h v [ProtocVersion] = v) by (unfold execute_tmpl; cbn [map join]; now apply version_escape).
  now rewrite E.
Qed.
Lemma configures_base : forall v, version_text v ->
  configures (execute_tmpl "#" v base_tmpl) = [(["protoc"; "version"], v); (["lint"; "group"], "uber2")].
Proof.
  intros v V. rewrite (base_text "#" v V).
  rewrite (reads_base _ _ v [mk_open 0 "protoc"] [] V);
    [| vm_compute; reflexivity | vm_compute; reflexivity | vm_compute; reflexivity | reflexivity].
  vm_compute. reflexivity.
Qed.

(** C79: the file that config init writes sets the version and the lint group, and nothing
    else; with --document the same, as all other lines are comments. *)
Theorem C79_configures : forall v document, version_text v ->
  configures (generate v false document) = [(["protoc"; "version"], v); (["lint"; "group"], "uber2")].
Proof.
  intros v document V. unfold generate. cbn [orb negb]. destruct document.
  - exact (configures_document v V).
  - exact (configures_base v V).
Qed.
(** C79: with --uncomment all examples are set, whether --document is given or not. *)
Theorem C79_uncomment : forall v document, version_text v ->
  configures (generate v true document) = [
    (["excludes"; "-"], "path/to/a");
    (["excludes"; "-"], "path/to/b/file.proto");
    (["protoc"; "version"], v);
    (["protoc"; "includes"; "-"], "../../vendor/github.com/grpc-ecosystem/grpc-gateway/third_party/googleapis");
    (["protoc"; "allow_unused_imports"], "true");
    (["create"; "packages"; "-"; "directory"], ".");
    (["create"; "packages"; "-"; "name"], "bar");
    (["create"; "packages"; "-"; "directory"], "idl/code.uber");
    (["create"; "packages"; "-"; "name"], "uber");
    (["lint"; "group"], "uber2");
    (["lint"; "ignores"; "-"; "id"], "RPC_NAMES_CAMEL_CASE");
    (["lint"; "ignores"; "-"; "files"; "-"], "path/to/foo.proto");
    (["lint"; "ignores"; "-"; "files"; "-"], "path/to/bar.proto");
    (["lint"; "ignores"; "-"; "id"], "SYNTAX_PROTO3");
    (["lint"; "ignores"; "-"; "files"; "-"], "path/to/dir");
    (["lint"; "rules"; "add"; "-"], "ENUM_NAMES_CAMEL_CASE");
    (["lint"; "rules"; "add"; "-"], "ENUM_NAMES_CAPITALIZED");
    (["lint"; "rules"; "remove"; "-"], "ENUM_NAMES_CAMEL_CASE");
    (["lint"; "file_header"; "path"], "path/to/protobuf_file_header.txt");
    (["lint"; "file_header"; "content"],
      "//" +++ String newline ("// Acme, Inc. (c) 2019" +++ String newline ("//" +++ String newline "")));
    (["lint"; "file_header"; "is_commented"], "true");
    (["lint"; "java_package_prefix"], "au.com");
    (["break"; "include_beta"], "true");
    (["break"; "allow_beta_deps"], "true");
    (["generate"; "go_options"; "import_path"], "uber/foo/bar.git/idl/uber");
    (["generate"; "go_options"; "extra_modifiers"; "google/api/annotations.proto"], "google.golang.org/genproto/googleapis/api/annotations");
    (["generate"; "go_options"; "extra_modifiers"; "google/api/http.proto"], "google.golang.org/genproto/googleapis/api/annotations");
    (["generate"; "plugins"; "-"; "name"], "gogo");
    (["generate"; "plugins"; "-"; "type"], "gogo");
    (["generate"; "plugins"; "-"; "flags"], "plugins=grpc");
    (["generate"; "plugins"; "-"; "output"], "../../.gen/proto/go");
    (["generate"; "plugins"; "-"; "path"], "gogo_plugin");
    (["generate"; "plugins"; "-"; "name"], "yarpc-go");
    (["generate"; "plugins"; "-"; "type"], "gogo");
    (["generate"; "plugins"; "-"; "output"], "../../.gen/proto/go");
    (["generate"; "plugins"; "-"; "name"], "grpc-gateway");
    (["generate"; "plugins"; "-"; "type"], "go");
    (["generate"; "plugins"; "-"; "output"], "../../.gen/proto/go");
    (["generate"; "plugins"; "-"; "name"], "java");
    (["generate"; "plugins"; "-"; "output"], "../../.gen/proto/java");
    (["generate"; "plugins"; "-"; "file_suffix"], "jar");
    (["generate"; "plugins"; "-"; "name"], "descriptor_set");
    (["generate"; "plugins"; "-"; "output"], "../../.gen/proto/descriptor");
    (["generate"; "plugins"; "-"; "file_suffix"], "bin");
    (["generate"; "plugins"; "-"; "include_imports"], "true");
    (["generate"; "plugins"; "-"; "include_source_info"], "true")].
Proof.
  intros v document V. unfold generate. cbn [orb negb].
  rewrite (document_text "" v V).
  rewrite (reads_document _ _ _ v [mk_open 0 "protoc"] [(["excludes"; "-"], "path/to/a"); (["excludes"; "-"], "path/to/b/file.proto")] V);
    [| vm_compute; discriminate | vm_compute; reflexivity | vm_compute; reflexivity | vm_compute; reflexivity
     | vm_compute; reflexivity | vm_compute; reflexivity | vm_compute; reflexivity | reflexivity].
  vm_compute. reflexivity.
Qed.

(** C79: what follows from it for the settings, for every decoder that reads the file so: the
    version is the given one, the lint group is uber2, all else is as without a file. *)
Theorem C79_settings : forall v document e read_file look_path sort_plugins devel dir,
  version_text v -> means (configures (generate v false document)) e -> sort_plugins [] = [] ->
  external_config_to_config read_file look_path sort_plugins devel e dir =
  Ok (mk_config dir [] (mk_compile_config v [] true false) (mk_create_config [])
        (mk_lint_config "uber2" false [] [] [] "" "" false) (mk_break_config false false) (mk_gen_config "" [] [])).
Proof.
  intros v document e rf lp sp devel dir V M Sp. rewrite (C79_configures v document V) in M.
  destruct e as [e1 e2 e3 e4 e5 e6 e7 e8 e9 e10 e11 e12 e13 e14 e15 e16 e17 e18]. unfold means in M.
  cbn [x_excludes x_version x_includes x_allow_unused_imports x_packages x_group x_ignores x_no_default x_add x_remove x_header
       x_java_package_prefix x_allow_suppression x_include_beta x_allow_beta_deps x_import_path x_extra_modifiers x_plugins] in M.
  assert (N : forall path, starts path ["protoc"; "version"] = false -> starts path ["lint"; "group"] = false ->
    none_at path [(["protoc"; "version"], v); (["lint"; "group"], "uber2")]).
  { intros path H1 H2 x [<- | [<- | []]]; assumption. }
  destruct M as (M1 & M2 & M3 & M4 & M5 & M6 & M7 & M8 & M9 & M10 & M11 & M12 & M13 & M14 & M15 & M16 & M17 & M18).
  specialize (M5 ltac:(apply N; reflexivity)). specialize (M7 ltac:(apply N; reflexivity)).
  specialize (M17 ltac:(apply N; reflexivity)). specialize (M18 ltac:(apply N; reflexivity)).
  cbn in M1, M2, M3, M4, M6, M8, M9, M10, M11, M12, M13, M14, M15, M16. subst.
  unfold external_config_to_config.
  cbn [x_excludes x_version x_includes x_allow_unused_imports x_packages x_group x_ignores x_no_default x_add x_remove x_header
       x_java_package_prefix x_allow_suppression x_include_beta x_allow_beta_deps x_import_path x_extra_modifiers x_plugins].
  cbn. rewrite Sp, andb_false_r. reflexivity.
Qed.
Lemma means_header : forall l e, means l e ->
  x_header e = mk_ext_header (value_at ["lint"; "file_header"; "path"] l) (value_at ["lint"; "file_header"; "content"] l)
                 (flag_at ["lint"; "file_header"; "is_commented"] l).
Proof. intros l e (_ & _ & _ & _ & _ & _ & _ & _ & _ & _ & M & _). exact M. Qed.
(** C79, refuted: the file that config init --uncomment writes is refused by all commands that
    read it, since it sets both a path and a content of the file header. *)
Theorem C79_uncomment_refuted : forall v document e read_file look_path sort_plugins devel dir,
  version_text v -> means (configures (generate v true document)) e ->
  exists m, external_config_to_config read_file look_path sort_plugins devel e dir = Err m.
Proof.
  intros v document e rf lp sp devel dir V M. apply means_header in M. rewrite (C79_uncomment v document V) in M.
  assert (H : exists m, convert_header rf dir (x_header e) = Err m).
  { rewrite M. exists "must only specify either file header path or content". unfold convert_header. cbn [eh_path eh_content].
    match goal with |- context [is_empty ?a && is_empty ?b] =>
      replace (is_empty a) with false by (vm_compute; reflexivity); replace (is_empty b) with false by (vm_compute; reflexivity) end.
    reflexivity. }
  destruct H as (m & H). unfold external_config_to_config.
  destruct (get_exclude_prefixes _ _); [|eexists; reflexivity]. cbn [bind].
  destruct (mapM _ (x_plugins e)); [|eexists; reflexivity]. cbn [bind].
  destruct (mapM _ (x_packages e)); [|eexists; reflexivity]. cbn [bind].
  rewrite H. eexists. reflexivity.
Qed.

Section Init.
  Variable work_dir : string.
  Variable mkdir_all : string -> option string.
  Variable other : string -> bool.
  Variable write_error : string -> string -> option (result string * string).
  Variable version : string.
  Notation init := (init work_dir mkdir_all other write_error version).
  (** The directory that is meant. *)
  Definition config_dir (args : list string) : string := match args with a :: _ => a | [] => work_dir end.

  (** C79: a configuration that is there is never touched. *)
  Theorem C79_never_overwrites : forall args uncomment document s,
    let path := path_join [config_dir args; "prototool.yaml"] in
    ((exists d, io_disk s path = Ok d) \/ other path = true) ->
    exists m made, init args uncomment document s = (mk_io (io_disk s) (io_done s ++ map MadeDir made), Fail m) /\
      incl made args.
  Proof.
    intros args uncomment document s path H. unfold init.
    assert (Id : s = mk_io (io_disk s) (io_done s ++ map MadeDir [])) by (destruct s; cbn; now rewrite app_nil_r).
    assert (T : forall s', io_disk s' = io_disk s -> is_there other path s' = (s', Value true)).
    { intros s' E. unfold is_there. rewrite E. destruct H as [(d & ->) | H]; [reflexivity|].
      destruct (io_disk s path); [reflexivity | now rewrite H]. }
    destruct args as [| a [| b l]].
    - cbn [length Nat.ltb Nat.leb]. unfold and_then at 1, ret at 1. unfold and_then. fold (config_dir []). fold path.
      rewrite (T s eq_refl). unfold fail. eexists; exists []. split; [now rewrite <- Id | intros x []].
    - cbn [length Nat.ltb Nat.leb]. unfold make_dir. destruct (mkdir_all a) as [m |].
      + exists m, []. split; [|intros x []]. rewrite <- Id. reflexivity.
      + unfold and_then, emit, ret. change (path_join [a; "prototool.yaml"]) with path.
        rewrite (T (mk_io (io_disk s) (io_done s ++ [MadeDir a])) eq_refl). unfold fail.
        eexists; exists [a]. split; [reflexivity | apply incl_refl].
    - exists "must provide one arg dirPath", []. split; [|intros x []]. rewrite <- Id. reflexivity.
  Qed.
  (** C79: otherwise the file is written, and nothing else; the directory is made if it was
      given. *)
  Theorem C79_writes : forall args uncomment document s,
    let path := path_join [config_dir args; "prototool.yaml"] in
    length args <= 1 -> (forall a, In a args -> mkdir_all a = None) ->
    (forall d, io_disk s path <> Ok d) -> other path = false -> write_error path (generate version uncomment document) = None ->
    exists s', init args uncomment document s = (s', Value tt) /\
      io_done s' = io_done s ++ map MadeDir args ++ [Wrote path (generate version uncomment document)] /\
      io_disk s' path = Ok (generate version uncomment document) /\
      forall q, q <> path -> io_disk s' q = io_disk s q.
  Proof.
    intros args uncomment document s path L Mk D O W. unfold init.
    assert (T : forall s', io_disk s' = io_disk s -> is_there other path s' = (s', Value false)).
    { intros s' E. unfold is_there. rewrite E, O. destruct (io_disk s path) as [d |] eqn:E'; [now exfalso; apply (D d) | reflexivity]. }
    assert (Out : forall s' made, io_disk s' = io_disk s -> io_done s' = io_done s ++ made ->
      exists s2, write_file write_error path (generate version uncomment document) s' = (s2, Value tt) /\
      io_done s2 = io_done s ++ made ++ [Wrote path (generate version uncomment document)] /\
      io_disk s2 path = Ok (generate version uncomment document) /\
      forall q, q <> path -> io_disk s2 q = io_disk s q).
    { intros s' made E1 E2. unfold write_file. rewrite W. eexists. split; [reflexivity|]. cbn [io_done io_disk].
      split; [now rewrite E2, <- app_assoc|]. split; [now rewrite String.eqb_refl|].
      intros q N. apply String.eqb_neq in N. now rewrite N, E1. }
    destruct args as [| a [| b l]].
    - cbn [length Nat.ltb Nat.leb]. unfold and_then at 1, ret at 1. unfold and_then. fold (config_dir []). fold path.
      rewrite (T s eq_refl). apply (Out s []); [reflexivity | now rewrite app_nil_r].
    - cbn [length Nat.ltb Nat.leb]. unfold make_dir. rewrite (Mk a) by now left.
      unfold and_then, emit, ret. change (path_join [a; "prototool.yaml"]) with path.
      rewrite (T (mk_io (io_disk s) (io_done s ++ [MadeDir a])) eq_refl). apply (Out _ [MadeDir a]); reflexivity.
    - cbn in L. lia.
  Qed.
End Init.

(** Examples. *)
Example C79_version_ex : version_text "3.11.0".
Proof. split; [discriminate | reflexivity]. Qed.
Definition exi_config : external_config :=
  mk_external_config [] false "3.11.0" [] [] "uber2" [] false [] [] (mk_ext_header "" "" false) "" false false false "" [] [].
Example C79_settings_ex : means (configures (generate "3.11.0" false true)) exi_config.
Proof. rewrite (C79_configures _ true C79_version_ex). vm_compute. repeat split. Qed.
(** What a decoder can return for the uncommented file. *)
Definition exi_uncommented : external_config :=
  let l := configures (generate "3.11.0" true true) in
  mk_external_config (values_at ["excludes"; "-"] l) true "3.11.0" (values_at ["protoc"; "includes"; "-"] l)
    [mk_ext_package "." "bar"; mk_ext_package "idl/code.uber" "uber"] "uber2"
    [mk_ext_ignore "RPC_NAMES_CAMEL_CASE" ["path/to/foo.proto"; "path/to/bar.proto"]; mk_ext_ignore "SYNTAX_PROTO3" ["path/to/dir"]]
    false (values_at ["lint"; "rules"; "add"; "-"] l) (values_at ["lint"; "rules"; "remove"; "-"] l)
    (mk_ext_header (value_at ["lint"; "file_header"; "path"] l) (value_at ["lint"; "file_header"; "content"] l) true)
    "au.com" false true true "uber/foo/bar.git/idl/uber" [] [mk_ext_plugin "java" "" "" "../../.gen/proto/java" "" "jar" false false].
Example C79_uncomment_refuted_ex : means (configures (generate "3.11.0" true true)) exi_uncommented.
Proof.
  assert (E : forall path x, In x (configures (generate "3.11.0" true true)) -> starts path (fst x) = true ->
    forall P : Prop, none_at path (configures (generate "3.11.0" true true)) -> P).
  { intros path x I S P H. rewrite (H x I) in S. discriminate. }
  unfold means. repeat (split; [first [vm_compute; reflexivity | idtac]|]).
  - apply (E _ (["create"; "packages"; "-"; "name"], "bar")); [|reflexivity].
    rewrite (C79_uncomment "3.11.0" true C79_version_ex). do 6 right. left. reflexivity.
  - apply (E _ (["lint"; "ignores"; "-"; "id"], "SYNTAX_PROTO3")); [|reflexivity].
    rewrite (C79_uncomment "3.11.0" true C79_version_ex). do 13 right. left. reflexivity.
  - apply (E _ (["generate"; "plugins"; "-"; "name"], "java")); [|reflexivity].
    rewrite (C79_uncomment "3.11.0" true C79_version_ex). do 38 right. left. reflexivity.
Qed.
Definition exi_run (args : list string) (disk : string -> result string) :=
  let r := init "/w" (fun d => if String.eqb d "/no" then Some "permission denied" else None) (fun _ => false) (fun _ _ => None) "3.11.0"
    args false false (mk_io disk []) in
  (io_done (fst r), snd r).
Example C79_writes_ex : exi_run ["d"] (fun _ => Err "no") =
  ([MadeDir "d"; Wrote "d/prototool.yaml" (generate "3.11.0" false false)], Value tt).
Proof. vm_compute. reflexivity. Qed.
Example C79_never_overwrites_ex : exi_run [] (fun p => if String.eqb p "/w/prototool.yaml" then Ok "" else Err "no") =
  ([], Fail "/w/prototool.yaml already exists").
Proof. vm_compute. reflexivity. Qed.

Print Assumptions C79_configures.
Print Assumptions C79_uncomment.
Print Assumptions C79_settings.
Print Assumptions C79_uncomment_refuted.
Print Assumptions C79_never_overwrites.
Print Assumptions C79_writes.
