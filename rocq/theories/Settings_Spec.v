(** Specification of configuration discovery and validation. *)
From Coq Require Import Permutation.
From Verif Require Import GoStrFacts GoPathFacts Strs_Spec Settings_Model.

(** The configuration files a directory may hold, the directory given by its components. *)
Definition config_paths (d : list string) : list string :=
  [abs_path (d ++ ["prototool.yaml"]); abs_path (d ++ ["prototool.json"])].
Definition no_config (exists_file : string -> bool) (d : list string) : Prop :=
  forall p, In p (config_paths d) -> exists_file p = false.
Definition the_config (exists_file : string -> bool) (d : list string) (p : string) : Prop :=
  In p (config_paths d) /\ exists_file p = true /\
  forall q, In q (config_paths d) -> exists_file q = true -> q = p.
Definition two_configs (exists_file : string -> bool) (d : list string) : Prop :=
  forall p, In p (config_paths d) -> exists_file p = true.
(** [a] is the nearest directory at or above [d] that holds a configuration file. *)
Definition nearest (exists_file : string -> bool) (d a : list string) : Prop :=
  exists b, d = a ++ b /\ ~ no_config exists_file a /\
  forall b1 b2, b = b1 ++ b2 -> b1 <> [] -> no_config exists_file (a ++ b1).

(** What a path in the configuration of directory [dir] means. *)
Definition against (dir p : string) : string :=
  path_clean (if is_abs p then p else dir +++ "/" +++ p).
(** [l] is what the sort of plugins by name may return. *)
Definition sorts (sort : list gen_plugin -> list gen_plugin) : Prop :=
  forall l, Permutation l (sort l) /\
  forall a x b y c, sort l = a ++ x :: b ++ y :: c -> str_leb (gp_name x) (gp_name y) = true.

(** ** Which configurations are accepted *)
Definition plugin_ok (import_path : string) (p : ext_plugin) : Prop :=
  In (to_lower (xp_type p)) [""; "go"; "gogo"] /\
  (to_lower (xp_type p) <> "" -> import_path <> "") /\
  xp_output p <> "" /\
  (forall r, xp_file_suffix p <> "." +++ r) /\
  (forall r, xp_name p <> "protoc-gen-" +++ r) /\
  (xp_include_imports p = true -> xp_name p = "descriptor_set") /\
  (xp_include_source_info p = true -> xp_name p = "descriptor_set").
Definition package_ok (p : ext_package) : Prop :=
  ep_directory p <> "" /\ ep_name p <> "" /\ is_abs (ep_directory p) = false.
(** The text a header is made from. *)
Definition header_text (read_file : string -> result string) (dir : string) (h : ext_header) (text : string) : Prop :=
  (eh_path h = "" /\ eh_content h <> "" /\ text = eh_content h)
  \/ (eh_path h <> "" /\ eh_content h = "" /\ is_abs (eh_path h) = false /\
      read_file (path_clean (dir +++ "/" +++ eh_path h)) = Ok text).
Definition blank (s : string) : Prop := forall c, (exists a b, s = a +++ String c b) -> is_space c = true.
Definition header_ok (read_file : string -> result string) (dir : string) (h : ext_header) : Prop :=
  (eh_path h = "" /\ eh_content h = "")
  \/ exists text, header_text read_file dir h text /\ (eh_is_commented h = true -> ~ blank text).
(** An entry of excludes: below the directory of the configuration, as far as the
    characters of the path go. *)
Definition exclude_ok (dir x : string) : Prop := exists r, r <> "" /\ against dir x = dir +++ r.
Record acceptable (read_file : string -> result string) (devel : bool) (e : external_config) (dir : string) : Prop := {
  ac_excludes : forall x, In x (x_excludes e) -> x <> "" -> exclude_ok dir x;
  ac_plugins : forall p, In p (x_plugins e) -> plugin_ok (x_import_path e) p;
  ac_packages : forall p, In p (x_packages e) -> package_ok p;
  ac_header : header_ok read_file dir (x_header e);
  ac_suppression : x_allow_suppression e = true -> devel = true;
  ac_disjoint : forall i j, In i (x_add e) -> In j (x_remove e) -> i <> "" -> to_upper i <> to_upper j
}.

(** ** What an accepted configuration becomes *)
(** The list holds exactly the meanings of the non-empty entries. *)
Definition paths_of (dir : string) (entries l : list string) : Prop :=
  forall p, In p l <-> exists x, In x entries /\ x <> "" /\ p = against dir x.
Definition ids_of (entries l : list string) : Prop :=
  Increasing l /\ forall i, In i l <-> i <> "" /\ exists x, In x entries /\ i = to_upper x.
(** The files given for one lint rule, in order, over all entries of lint.ignores. *)
Definition files_for (dir id : string) (is : list ext_ignore) : list string :=
  concat (map (fun i => map (against dir) (ei_files i)) (filter (fun i => String.eqb (to_upper (ei_id i)) id) is)).
Definition ignores_of (dir : string) (is : list ext_ignore) (m : list (string * list string)) : Prop :=
  NoDup (map fst m) /\
  forall id files, In (id, files) m <-> files <> [] /\ files = files_for dir id is.
Definition plugin_becomes (look_path : string -> result string) (dir : string) (p : ext_plugin) (g : gen_plugin) : Prop :=
  gp_name g = xp_name p /\ gp_flags g = xp_flags p /\ gp_file_suffix g = xp_file_suffix p /\
  gp_include_imports g = xp_include_imports p /\ gp_include_source_info g = xp_include_source_info p /\
  (gp_type g = PluginNone <-> to_lower (xp_type p) = "") /\
  (gp_type g = PluginGo <-> to_lower (xp_type p) = "go") /\
  (gp_type g = PluginGogo <-> to_lower (xp_type p) = "gogo") /\
  gp_path g = (if String.eqb (xp_path p) "" then Ok "" else look_path (xp_path p)) /\
  gp_output_abs g = against dir (xp_output p) /\
  is_abs (gp_output_rel g) = false /\ against dir (gp_output_rel g) = gp_output_abs g.
(** The last entry for a directory counts. *)
Definition packages_of (dir : string) (ps : list ext_package) (m : list (string * string)) : Prop :=
  NoDup (map fst m) /\
  forall d n, In (d, n) m <->
    exists a p b, ps = a ++ p :: b /\ d = against dir (ep_directory p) /\ n = ep_name p /\
      forall q, In q b -> against dir (ep_directory q) <> d.
(** [header] is the text [text] with blank space around it and around its lines
    removed, and, unless it is commented already, every line made a comment. *)
Definition header_of (text : string) (commented : bool) (header : string) : Prop :=
  exists raw, trim_space text = join (String newline EmptyString) raw /\
    Forall (fun l => no_char newline l = true) raw /\ raw <> [] /\
    header = join (String newline EmptyString)
      (map (fun l => if commented then trim_space l
                     else match trim_space l with EmptyString => "//" | t => "// " +++ t end) raw).
Record becomes (read_file look_path : string -> result string) (e : external_config) (dir : string) (c : config) : Prop := {
  be_dir : cfg_dir c = dir;
  be_excludes : paths_of dir (x_excludes e) (cfg_exclude_prefixes c);
  be_compile : cc_protobuf_version (cfg_compile c) = x_version e /\
    cc_include_wkt (cfg_compile c) = true /\
    cc_allow_unused_imports (cfg_compile c) = x_allow_unused_imports e /\
    paths_of dir (x_includes e) (cc_include_paths (cfg_compile c));
  be_create : packages_of dir (x_packages e) (cr_dir_to_base (cfg_create c));
  be_lint : lc_group (cfg_lint c) = to_lower (x_group e) /\
    lc_no_default (cfg_lint c) = x_no_default e /\
    ids_of (x_add e) (lc_include_ids (cfg_lint c)) /\
    ids_of (x_remove e) (lc_exclude_ids (cfg_lint c)) /\
    ignores_of dir (x_ignores e) (lc_ignores (cfg_lint c)) /\
    lc_java_package_prefix (cfg_lint c) = x_java_package_prefix e /\
    lc_allow_suppression (cfg_lint c) = x_allow_suppression e;
  be_header : (eh_path (x_header e) = "" /\ eh_content (x_header e) = "" /\ lc_file_header (cfg_lint c) = "")
    \/ exists text, header_text read_file dir (x_header e) text /\
         header_of text (eh_is_commented (x_header e)) (lc_file_header (cfg_lint c)) /\
         lc_file_header (cfg_lint c) <> "";
  be_break : bc_include_beta (cfg_break c) = x_include_beta e /\ bc_allow_beta_deps (cfg_break c) = x_allow_beta_deps e;
  be_gen : gc_import_path (cfg_gen c) = x_import_path e /\ gc_extra_modifiers (cfg_gen c) = x_extra_modifiers e /\
    (forall a x b y d, gc_plugins (cfg_gen c) = a ++ x :: b ++ y :: d -> str_leb (gp_name x) (gp_name y) = true) /\
    exists gs, Permutation gs (gc_plugins (cfg_gen c)) /\ Forall2 (plugin_becomes look_path dir) (x_plugins e) gs
}.
