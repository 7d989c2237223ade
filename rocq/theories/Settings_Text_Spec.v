(** What is said of a configuration that is not accepted: which fault is named, and how. *)
From Verif Require Import GoStrFacts GoPathFacts GoFmt Strs_Spec Settings_Model Settings_Spec File_Model File_Spec.

(** [t] is said of the first element of [l] that something can be said of. *)
Definition first_said {A} (says : A -> string -> Prop) (l : list A) (t : string) : Prop :=
  exists a x b, l = a ++ x :: b /\ says x t /\ forall y u, In y a -> ~ says y u.
(** ... of the least entry that something can be said of; empty entries do not count. *)
Definition least_said (says : string -> string -> Prop) (l : list string) (t : string) : Prop :=
  exists x, In x l /\ x <> "" /\ says x t /\ forall y u, In y l -> y <> "" -> says y u -> str_leb x y = true.

(** Of an entry of excludes. *)
Inductive exclude_fault (dir x : string) : string -> Prop :=
| Excludes_itself : against dir x = dir -> exclude_fault dir x ("cannot exclude directory of config file: " +++ dir)
| Excludes_elsewhere : (forall r, against dir x <> dir +++ r) ->
    exclude_fault dir x ("cannot exclude directory outside of config file directory " +++ dir +++ ": " +++ against dir x).
(** Of an entry of generate.plugins; one fault after the other. *)
Inductive plugin_fault (p : ext_plugin) : string -> Prop :=
| Type_unknown : ~ In (to_lower (xp_type p)) [""; "go"; "gogo"] ->
    plugin_fault p ("could not parse " +++ xp_type p +++ " to a GenPluginType")
| Output_missing : In (to_lower (xp_type p)) [""; "go"; "gogo"] -> xp_output p = "" ->
    plugin_fault p ("output path required for plugin " +++ xp_name p)
| Suffix_with_dot : forall r, In (to_lower (xp_type p)) [""; "go"; "gogo"] -> xp_output p <> "" -> xp_file_suffix p = "." +++ r ->
    plugin_fault p ("file_suffix begins with '.' but should not include the '.': ." +++ r)
| Imports_elsewhere : In (to_lower (xp_type p)) [""; "go"; "gogo"] -> xp_output p <> "" -> (forall r, xp_file_suffix p <> "." +++ r) ->
    xp_name p <> "descriptor_set" -> xp_include_imports p = true ->
    plugin_fault p ("include_imports is only valid for the descriptor_set plugin but set on " +++ quote (xp_name p))
| Source_info_elsewhere : In (to_lower (xp_type p)) [""; "go"; "gogo"] -> xp_output p <> "" -> (forall r, xp_file_suffix p <> "." +++ r) ->
    xp_name p <> "descriptor_set" -> xp_include_imports p = false -> xp_include_source_info p = true ->
    plugin_fault p ("include_source_info is only valid for the descriptor_set plugin but set on " +++ quote (xp_name p)).
(** Of the name of a plugin, which is looked at last. *)
Inductive plugin_name_fault (import_path : string) (p : ext_plugin) : string -> Prop :=
| Prefix_given : forall r, xp_name p = "protoc-gen-" +++ r ->
    plugin_name_fault import_path p ("plugin name provided was " +++ xp_name p +++ ", do not include the protoc-gen- prefix")
| Import_path_missing : (forall r, xp_name p <> "protoc-gen-" +++ r) -> to_lower (xp_type p) <> "" -> import_path = "" ->
    plugin_name_fault import_path p ("go plugin " +++ xp_name p +++ " specified but no import path provided").
(** Of an entry of create.packages. *)
Inductive package_fault (p : ext_package) : string -> Prop :=
| Directory_missing : ep_directory p = "" -> package_fault p "directory for create package is empty"
| Name_missing : ep_directory p <> "" -> ep_name p = "" -> package_fault p "name for create package is empty"
| Directory_absolute : ep_name p <> "" -> is_abs (ep_directory p) = true ->
    package_fault p ("directory for create package must be relative: " +++ ep_directory p).
(** Of lint.file_header. *)
Inductive header_fault (read_file : string -> result string) (dir : string) (h : ext_header) : string -> Prop :=
| Header_twice : eh_path h <> "" -> eh_content h <> "" -> header_fault read_file dir h "must only specify either file header path or content"
| Header_absolute : eh_content h = "" -> is_abs (eh_path h) = true ->
    header_fault read_file dir h ("path for file header must be relative: " +++ eh_path h)
| Header_unreadable : forall m, eh_path h <> "" -> eh_content h = "" -> is_abs (eh_path h) = false ->
    read_file (path_clean (dir +++ "/" +++ eh_path h)) = Err m -> header_fault read_file dir h m
| Header_empty : forall text, header_text read_file dir h text -> eh_is_commented h = true -> blank text ->
    header_fault read_file dir h "file header path or content specified but result was empty file header".
(** The rules that are both added and removed, in order. *)
Definition both (e : external_config) (l : list string) : Prop :=
  Increasing l /\ forall i, In i l <-> i <> "" /\ (exists x, In x (x_add e) /\ i = to_upper x) /\ (exists y, In y (x_remove e) /\ i = to_upper y).

Section Told.
  Variable read_file : string -> result string.
  Variable devel : bool.
  Variable e : external_config.
  Variable dir : string.
  (** The parts of the configuration in the order in which they are looked at, and what is said of each. *)
  Inductive said : nat -> string -> Prop :=
  | Said_excludes : forall t, least_said (exclude_fault dir) (x_excludes e) t -> said 1 t
  | Said_plugins : forall t, first_said plugin_fault (x_plugins e) t -> said 2 t
  | Said_packages : forall t, first_said package_fault (x_packages e) t -> said 3 t
  | Said_header : forall t, header_fault read_file dir (x_header e) t -> said 4 t
  | Said_suppression : devel = false -> x_allow_suppression e = true ->
      said 5 "allow_suppression is not allowed outside of internal prototool tests"
  | Said_plugin_names : forall p t, In p (x_plugins e) -> plugin_name_fault (x_import_path e) p t ->
      (forall q u, In q (x_plugins e) -> plugin_name_fault (x_import_path e) q u -> str_leb (xp_name p) (xp_name q) = true) -> said 6 t
  | Said_rules : forall l, both e l -> l <> [] ->
      said 7 ("config had intersection of [" +++ join " " l +++ "] between lint_include and lint_exclude").
  (** What is said is said of the first part that is at fault. *)
  Definition told (t : string) : Prop := exists n, said n t /\ forall k u, k < n -> ~ said k u.
End Told.

(** What is said if the configuration file of directory [d] cannot be found or read. *)
Inductive unread (exists_file : string -> bool) (read_file : string -> result string)
  (decode_json decode_yaml : string -> result external_config) (d : list string) : string -> Prop :=
| Two_files : two_configs exists_file d ->
    unread exists_file read_file decode_json decode_yaml d
      ("multiple configuration files in the same directory: [" +++ abs_path (d ++ ["prototool.yaml"]) +++ " " +++ abs_path (d ++ ["prototool.json"]) +++ "]")
| File_unreadable : forall file m, the_config exists_file d file -> read_file file = Err m ->
    unread exists_file read_file decode_json decode_yaml d m
| Json_undecodable : forall data m, the_config exists_file d (abs_path (d ++ ["prototool.json"])) ->
    read_file (abs_path (d ++ ["prototool.json"])) = Ok data -> data <> "" -> decode_json data = Err m ->
    unread exists_file read_file decode_json decode_yaml d m
| Yaml_undecodable : forall data m, the_config exists_file d (abs_path (d ++ ["prototool.yaml"])) ->
    read_file (abs_path (d ++ ["prototool.yaml"])) = Ok data -> data <> "" -> decode_yaml data = Err m ->
    unread exists_file read_file decode_json decode_yaml d m.

(** A part of the tree that cannot be looked at, and what cannot be done there. *)
Inductive unseen : node -> list string -> string -> Prop :=
| Un_broken : unseen NBroken [] "lstat"
| Un_unreadable : unseen NUnreadable [] "open"
| Un_below : forall es name n cs what, In (name, n) es -> unseen n cs what -> unseen (NDir es) (name :: cs) what.
Section Hindered.
  Variable exists_file : string -> bool.
  Variable read_file : string -> result string.
  Variable decode_json decode_yaml : string -> result external_config.
  Variable devel : bool.
  (** The configuration given on the command line; none if it is empty. *)
  Variable data : string.
  Variable node_at : string -> node.
  (** The working directory and the directory asked for, by their components, and the latter as given. *)
  Variable work d : list string.
  Variable dir : string.
  (** The directory with whose tree a command works. *)
  Definition worked_on (root : list string) : Prop :=
    (data = "" /\ searched exists_file d root) \/ (data <> "" /\ root = work).
  (** The directories whose configuration files are looked at. *)
  Definition near (a : list string) : Prop :=
    (exists b, d = a ++ b) \/ (exists b, work = a ++ b) \/ exists root b, worked_on root /\ a = root ++ b.
  (** The directory of the configuration for the files of directory [a]. *)
  Definition configured_in (a c : list string) : Prop :=
    (data <> "" /\ c = work) \/
    (data = "" /\ (nearest exists_file a c \/
      governs exists_file a "" /\ (nearest exists_file work c \/ governs exists_file work "" /\ c = work))).
  (** A .proto file of the tree, with the directory of its configuration. *)
  Definition a_file_of (p : string) (c : list string) : Prop :=
    exists root cs a, worked_on root /\ file_in (node_at (abs_path root)) cs /\ p = abs_path (root ++ cs) /\
      path_dir p = abs_path a /\ configured_in a c.
  (** Why a command cannot work on the directory, and what is said then. *)
  Inductive hindered : string -> Prop :=
  | Data_undecodable : forall m, data <> "" -> decode_json data = Err m -> hindered m
  | Data_faulty : forall e t, data <> "" -> decode_json data = Ok e -> told read_file devel e (abs_path work) t -> hindered t
  | File_unread : forall a t, data = "" -> near a -> unread exists_file read_file decode_json decode_yaml a t -> hindered t
  | File_faulty : forall a file e t, data = "" -> near a -> the_config exists_file a file -> decoded read_file decode_json decode_yaml a file e ->
      told read_file devel e (abs_path a) t -> hindered t
  | Tree_unseen : forall root cs what, worked_on root -> unseen (node_at (abs_path root)) cs what -> hindered (what +++ " " +++ abs_path (root ++ cs))
  | Several : forall l, data = "" -> 1 < length l -> (forall a x b y c, l = a ++ x :: b ++ y :: c -> str_leb x y = true) ->
      (forall x, In x l -> exists p c, a_file_of p c /\ x = abs_path c) ->
      hindered ("expected exactly one configuration file for dirPath " +++ quote dir +++ ", but found multiple in directories: [" +++ join " " l +++ "]")
  | Outside : forall p c rel, a_file_of p c -> shown (abs_path c) p rel -> (exists r, rel = ".." +++ r) ->
      hindered ("proto file " +++ p +++ " not within config dirPath " +++ abs_path c +++ ": could not make " +++ abs_path c +++ " within " +++ p +++
                ", got " +++ rel +++ ", this is a system error").
End Hindered.
