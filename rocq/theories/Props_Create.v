(** Creating files: C28, C29. *)
From Verif Require Import GoStrFacts GoPathFacts Settings_Model Settings_Spec Settings_Proofs Settings_Proofs2.
From Verif Require Import Lint_Spec LintRun_Proofs File_Spec Props_Lint Props_Settings Create_Model Create_Spec Create_Proofs.

(** ** Values for the examples *)
(** /w has a configuration that maps /w/idl to package acme and /w/idl/deep to other. *)
Definition with_packages (group : string) (l : list ext_package) : external_config :=
  mk_external_config [] false "" [] l group [] false [] [] (mk_ext_header "" "Copyright" false) "" false false false "" [] [].
Definition w_exists : string -> bool := files_at ["/w/prototool.yaml"].
Definition w_read (p : string) : result string := if String.eqb p "/w/prototool.yaml" then Ok "yaml" else no_file p.
Definition w_yaml (d : string) : result external_config :=
  Ok (with_packages "uber2" [mk_ext_package "idl" "acme"; mk_ext_package "idl/deep" "other"]).
Definition w_json (d : string) : result external_config := Err "not JSON".
Definition w_config : string -> result config := get_for_dir w_exists w_read w_json w_yaml no_file by_name false.
Definition w_data : string -> string -> result config := get_for_data w_read w_json no_file by_name false.
Definition w_fs : fsys := fun p =>
  if mem p ["/w"; "/w/idl"; "/w/idl/a"; "/w/idl/deep"; "/w/idl/deep/b"; "/w/x"; "/w/ab"] then Directory
  else if String.eqb p "/w/idl/empty.proto" then Regular ""
  else if String.eqb p "/w/idl/full.proto" then Regular "message Foo {}"
  else Missing.
Definition always (f : string) : write_outcome := WriteOk.
Definition w_create (ord : order) (pkg : string) (files : list string) : fsys * result unit :=
  create ord "/w/idl" w_config w_data pkg "" always w_fs files.

(** ** C28: create never overwrites *)
(** If any path asked for is empty, in no directory, or names anything but an empty file,
    then Create fails and the file system is as it was. *)
Theorem C28_nothing_written : forall ord cwd config_for_dir config_for_data pkg config_data write fs files file,
  In file files -> not_creatable cwd fs file ->
  exists m, create ord cwd config_for_dir config_for_data pkg config_data write fs files = (fs, Err m).
Proof. exact nothing_written. Qed.
Print Assumptions C28_nothing_written.
(** Whatever happens, also if writing fails half way, only paths asked for change, and
    only those that had nothing or an empty file. *)
Theorem C28_only_empty_changed : forall ord cwd config_for_dir config_for_data pkg config_data write fs files p,
  fst (create ord cwd config_for_dir config_for_data pkg config_data write fs files) p <> fs p ->
  exists f, In f files /\ p = path_abs cwd f /\ (fs p = Missing \/ fs p = Regular "").
Proof. exact only_empty_changed. Qed.
Print Assumptions C28_only_empty_changed.
(** If Create says that all went well, then every file asked for is there with the text
    made for that path. *)
Theorem C28_written : forall ord cwd config_for_dir config_for_data pkg config_data write fs files fs',
  create ord cwd config_for_dir config_for_data pkg config_data write fs files = (fs', Ok tt) ->
  forall f, In f files ->
  exists g text, In g files /\ path_abs cwd g = path_abs cwd f /\
    create_data ord cwd config_for_dir config_for_data pkg config_data g = Ok text /\ fs' (path_abs cwd f) = Regular text.
Proof. exact all_written. Qed.
Print Assumptions C28_written.
Example C28_ex :
  (* nothing is written, although the first path is fine *)
  In "full.proto" ["new.proto"; "full.proto"] /\ not_creatable "/w/idl" w_fs "full.proto" /\
  not_creatable "/w/idl" w_fs "" /\ not_creatable "/w/idl" w_fs "nowhere/new.proto" /\ not_creatable "/w/idl" w_fs "a" /\
  fst (w_create in_order "" ["new.proto"; "full.proto"]) "/w/idl/new.proto" = Missing /\
  (exists m, snd (w_create in_order "" ["new.proto"; "full.proto"]) = Err m) /\
  (* an empty file is filled, a new one is made *)
  fst (w_create in_order "" ["empty.proto"; "a/new.proto"]) "/w/idl/empty.proto" <> w_fs "/w/idl/empty.proto" /\
  snd (w_create in_order "" ["empty.proto"; "a/new.proto"]) = Ok tt /\
  fst (w_create in_order "" ["empty.proto"; "a/new.proto"]) "/w/idl/full.proto" = Regular "message Foo {}".
Proof.
  split; [right; now left|]. split; [right; right; split; discriminate|]. split; [now left|].
  split; [right; left; discriminate|]. split; [right; right; split; discriminate|].
  split; [reflexivity|]. split; [eexists; vm_compute; reflexivity|]. split; [vm_compute; discriminate|].
  split; vm_compute; reflexivity.
Qed.
(** Create does not do all or nothing: if the second file cannot be written, for instance
    because its configuration is wrong, the first one stays. *)
Theorem C28_all_or_nothing_refuted :
  exists ord cwd config_for_dir config_for_data pkg config_data write fs files fs' m p,
    create ord cwd config_for_dir config_for_data pkg config_data write fs files = (fs', Err m) /\ fs' p <> fs p.
Proof.
  exists in_order, "/w", (fun d => if String.eqb d "/w/x" then Err "wrong" else w_config d), w_data, "", "", always, w_fs, ["new.proto"; "x/new.proto"].
  eexists _, _, "/w/new.proto". split.
  - unfold create. replace (mapM _ _) with (Ok [tt; tt]) by (vm_compute; reflexivity). cbn [create_files]. unfold create_file at 1.
    match goal with |- context [create_data ?a ?b ?c ?d ?e ?f ?g] =>
      let v := eval vm_compute in (create_data a b c d e f g) in replace (create_data a b c d e f g) with v by (vm_compute; reflexivity) end.
    cbn [always]. unfold create_file at 1. 
    match goal with |- context [create_data ?a ?b ?c ?d ?e ?f "x/new.proto"] =>
      replace (create_data a b c d e f "x/new.proto") with (@Err string "wrong") by (vm_compute; reflexivity) end.
    reflexivity.
  - vm_compute. discriminate.
Qed.
Print Assumptions C28_all_or_nothing_refuted.

(** ** C29: create package from path *)
(** When Create succeeds with the configuration found from the directory of the file, the
    text written declares the package given, or else the one that the deepest configured
    directory containing it says, or else the path from the configuration file; whatever
    the order in which the directories are configured and looked at.  No configured
    directory may have a name with which that of a directory on the way to the file
    begins. *)
Theorem C29_package_partial : forall ord cwd exists_file read_file decode_json decode_yaml look_path sort_plugins devel pkg write fs files fs' f ds,
  reorders ord -> sorts sort_plugins ->
  let config_for_dir := get_for_dir exists_file read_file decode_json decode_yaml look_path sort_plugins devel in
  let config_for_data := get_for_data read_file decode_json look_path sort_plugins devel in
  create ord cwd config_for_dir config_for_data pkg "" write fs files = (fs', Ok tt) ->
  In f files -> NoDup (map (path_abs cwd) files) ->
  ok_comps ds -> path_dir (path_abs cwd f) = abs_path ds ->
  exists c text p default,
    config_for_dir (abs_path ds) = Ok c /\ fs' (path_abs cwd f) = Regular text /\
    states_package (lc_file_header (cfg_lint c)) text p /\ default_of c default /\
    (pkg <> "" -> p = pkg) /\
    (pkg = "" ->
     (forall d base, ok_comps d -> In (abs_path d, base) (cr_dir_to_base (cfg_create c)) -> no_sibling d ds) ->
     exists cd, searched exists_file ds cd /\ package_for (cr_dir_to_base (cfg_create c)) cd ds default p).
Proof.
  intros ord cwd ex rd dj dy look sort devel pkg write fs files fs' f ds Ho Hs cd cdt R Hf N Hds Ed.
  exact (package_written ord Ho cwd ex rd dj dy look sort devel Hs pkg write fs files fs' f ds R Hf N Hds Ed).
Qed.
Print Assumptions C29_package_partial.
(** The rules give one package. *)
Theorem C29_determined : forall m cd ds default p q, NoDup (map fst m) ->
  package_for m cd ds default p -> package_for m cd ds default q -> p = q.
Proof. exact package_for_fun. Qed.
Print Assumptions C29_determined.
(** For any configuration at all, the package found is the one of the rules; with it the
    package does not depend on the order of the map. *)
Theorem C29_rules_partial : forall ord cwd config_for_dir config_for_data config_data file default ds c cd p,
  reorders ord -> ok_comps ds -> path_dir (path_abs cwd file) = abs_path ds ->
  create_get_config cwd config_for_dir config_for_data config_data file = Ok c ->
  ok_comps cd -> cfg_dir c = abs_path cd -> no_sibling cd ds ->
  NoDup (map fst (cr_dir_to_base (cfg_create c))) ->
  (forall k b, In (k, b) (cr_dir_to_base (cfg_create c)) -> exists d, ok_comps d /\ k = abs_path d /\ no_sibling d ds) ->
  (get_pkg ord cwd config_for_dir config_for_data "" config_data file default = Ok p <->
   package_for (cr_dir_to_base (cfg_create c)) cd ds default p).
Proof. intros; now apply package_spec. Qed.
Print Assumptions C29_rules_partial.
Definition pkg_of (ord : order) (pkg file : string) : result string :=
  get_pkg ord "/w/idl" w_config w_data pkg "" file default_package.
Lemma no_sibling_ex : no_sibling ["w"; "idl"] ["w"; "idl"; "deep"; "b"] /\ no_sibling ["w"; "idl"; "deep"] ["w"; "idl"; "deep"; "b"].
Proof. split; [exact (no_sibling_prefix ["w"; "idl"] ["deep"; "b"])|exact (no_sibling_prefix ["w"; "idl"; "deep"] ["b"])]. Qed.
Example C29_ex : reorders in_order /\ reorders reversed /\ sorts by_name /\
  pkg_of in_order "" "a/x.proto" = Ok "acme.a" /\ pkg_of reversed "" "a/x.proto" = Ok "acme.a" /\
  pkg_of in_order "" "deep/b/x.proto" = Ok "other.b" /\ pkg_of reversed "" "deep/b/x.proto" = Ok "other.b" /\
  pkg_of in_order "" "x.proto" = Ok "acme" /\ pkg_of in_order "" "../x/x.proto" = Ok "x" /\
  pkg_of in_order "" "../x.proto" = Ok default_package /\ pkg_of in_order "given" "a/x.proto" = Ok "given" /\
  path_dir (path_abs "/w/idl" "deep/b/x.proto") = abs_path ["w"; "idl"; "deep"; "b"] /\
  snd (w_create in_order "" ["deep/b/x.proto"]) = Ok tt /\ NoDup (map (path_abs "/w/idl") ["deep/b/x.proto"]) /\
  match w_config "/w/idl/deep/b" with
  | Ok c => cr_dir_to_base (cfg_create c) = [("/w/idl", "acme"); ("/w/idl/deep", "other")] /\
            states_package (lc_file_header (cfg_lint c))
              match fst (w_create in_order "" ["deep/b/x.proto"]) "/w/idl/deep/b/x.proto" with Regular t => t | _ => "" end "other.b"
  | Err _ => False
  end.
Proof.
  split; [exact in_order_ok|]. split; [exact reversed_ok|]. split; [exact by_name_sorts|].
  do 10 (split; [vm_compute; reflexivity|]). split; [repeat constructor; intros []|].
  vm_compute. split; [reflexivity|]. eexists. reflexivity.
Qed.
(** A configured directory is taken to contain every path that its name is a beginning
    of: with /w/a configured as acme, a file in /w/ab gets package acme....ab. *)
Theorem C29_sibling_refuted :
  ~ forall ord cwd config_for_dir config_for_data config_data file default ds c cd p,
      reorders ord -> ok_comps ds -> path_dir (path_abs cwd file) = abs_path ds ->
      create_get_config cwd config_for_dir config_for_data config_data file = Ok c ->
      ok_comps cd -> cfg_dir c = abs_path cd -> no_sibling cd ds ->
      NoDup (map fst (cr_dir_to_base (cfg_create c))) ->
      (get_pkg ord cwd config_for_dir config_for_data "" config_data file default = Ok p <->
       package_for (cr_dir_to_base (cfg_create c)) cd ds default p).
Proof.
  intros H.
  set (cf := get_for_dir w_exists w_read w_json (fun _ => Ok (with_packages "" [mk_ext_package "a" "acme"])) no_file by_name false).
  destruct (cf "/w/ab") as [c|] eqn:E; [|vm_compute in E; discriminate].
  specialize (H in_order "/w" cf w_data "" "ab/x.proto" default_package ["w"; "ab"] c ["w"] "acme....ab").
  vm_compute in E. injection E as <-.
  repeat match type of H with ?A -> _ =>
    let X := fresh in assert A as X by (first [exact in_order_ok|exact (no_sibling_prefix ["w"] ["ab"])|solve [vm_compute; reflexivity]
    |solve [cbn; repeat constructor; intros []]|solve [repeat constructor]]); specialize (H X); clear X end.
  assert (get_pkg in_order "/w" cf w_data "" "" "ab/x.proto" default_package = Ok "acme....ab") as G by (vm_compute; reflexivity).
  apply H in G. cbn [cfg_create cr_dir_to_base] in G. inversion G as [d b rs p M _ _ _|rs p _ E B|_ N].
  - destruct M as (Hd & [Hin|[]] & (r & Er)). 
    assert (abs_path ["w"; "a"] = abs_path d) as Ea by (change (abs_path ["w"; "a"]) with "/w/a"; congruence).
    assert (["w"; "a"] = d) as <- by (apply abs_path_inj; [repeat constructor|assumption|exact Ea]).
    discriminate Er.
  - cbn in E. injection E as <-. discriminate B.
Qed.
Print Assumptions C29_sibling_refuted.
(** HandlerWithConfigData is documented to use the data as if it were a configuration file
    in the current working directory.  It is used as if it were in the directory of the
    file: a file in a/b gets the default package instead of a.b. *)
Theorem C29_config_data_refuted :
  ~ forall cwd ds exists_file read_file decode_json decode_yaml look_path sort_plugins devel data file default p,
      sorts sort_plugins -> ok_comps ds -> cwd = abs_path ds ->
      let as_file := get_for_data read_file decode_json look_path sort_plugins devel cwd in
      let config_for_dir := get_for_dir exists_file read_file decode_json decode_yaml look_path sort_plugins devel in
      let config_for_data := get_for_data read_file decode_json look_path sort_plugins devel in
      data <> "" ->
      (get_pkg in_order cwd config_for_dir config_for_data "" data file default = Ok p <->
       get_pkg in_order cwd (fun _ => as_file data) config_for_data "" "" file default = Ok p).
Proof.
  intros H.
  specialize (H "/w" ["w"] (fun _ => false) no_file (fun _ => Ok empty_external) w_json no_file by_name false "{}" "a/b/x.proto" "default" "default"
    by_name_sorts ltac:(repeat constructor) eq_refl ltac:(discriminate)).
  apply proj1 in H. match type of H with ?A -> _ => assert A as X by (vm_compute; reflexivity) end.
  apply H in X. vm_compute in X. discriminate X.
Qed.
Print Assumptions C29_config_data_refuted.
