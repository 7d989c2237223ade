(** The files that matter to prototool. *)
From Verif Require Import GoStr GoPath Settings_Model Exec_Model Main_Model Place_Spec.

Definition config_name (p : string) : Prop := path_base p = "prototool.yaml" \/ path_base p = "prototool.json".
(** The files that settings come from: configuration files and the files with the license header that
    they name or, if there is a configuration on the command line, those that it names. *)
Inductive settings_file (w : world) (data : string) (disk : string -> result string) : string -> Prop :=
| Configuration : forall p, data = "" -> config_name p -> settings_file w data disk p
| Header : forall p text e, data = "" -> config_name p -> disk p = Ok text -> (w_decode_json w text = Ok e \/ w_decode_yaml w text = Ok e) ->
    eh_path (x_header e) <> "" -> settings_file w data disk (path_join [path_dir p; eh_path (x_header e)])
| Header_given : forall e dir, data <> "" -> w_decode_json w data = Ok e -> eh_path (x_header e) <> "" -> settings_file w data disk (path_join [dir; eh_path (x_header e)]).
(** The files whose text can make a difference: those with protobuf in them and those that settings
    come from. *)
Definition matters (w : world) (data : string) (disk : string -> result string) (p : string) : Prop :=
  path_ext p = ".proto" \/ settings_file w data disk p.
(** protoc, too, does not look at anything else. *)
Definition protoc_looks_at (w : world) (P : string -> Prop) : Prop := forall d d', (forall p, P p -> d p = d' p) ->
  (forall c, w_protoc w d c = w_protoc w d' c) /\ (forall cs t, w_protoc_set w d cs t = w_protoc_set w d' cs t).

(** Of two runs: each file is the same after both, or is what it was before each. *)
Definition changed_alike (s s' t t' : io) : Prop :=
  forall p, io_disk t p = io_disk t' p \/ (io_disk t p = io_disk s p /\ io_disk t' p = io_disk s' p).

(** What is in a directory, without the files that are not protobuf files. *)
Definition other_file (name : string) (n : node) : bool :=
  match n with NFile => negb (String.eqb (path_ext name) ".proto") | _ => false end.
Fixpoint bare (n : node) : node :=
  match n with
  | NDir entries =>
      NDir ((fix go (l : list (string * node)) : list (string * node) :=
               match l with
               | [] => []
               | (name, c) :: l => if other_file name c then go l else (name, bare c) :: go l
               end) entries)
  | _ => n
  end.
(** The same world with other files. *)
Definition other_files (w : world) (stat : string -> result file_kind) (node_at : string -> node) : world :=
  mk_world (w_goos w) (w_goarch w) (w_go_version w) (w_getenv w) (w_getwd w) (w_parse_duration w)
    (w_read_csv w) (w_usage w) (w_help w) (w_suggestions w) (w_help_topic w)
    (w_order w)
    stat node_at (w_mkdir_all w) (w_write_error w) (w_remove_all w) (w_temp_file w) (w_temp_dir w) (w_look_path w)
    (w_too_slow w)
    (w_decode_json w) (w_decode_yaml w) (w_encode_ignores w) (w_sort_plugins w) (w_sort_options w) (w_sort_imports w)
    (w_parse w) (w_singularize w)
    (w_diff w)
    (w_download w) (w_digest w) (w_stat_info w)
    (w_protoc_temp w) (w_protoc w) (w_protoc_set w) (w_ended w) (w_grow w)
    (w_sha256 w) (w_marshal w) (w_set_json w) (w_unmarshal w) (w_git w)
    (w_create_descriptor w) (w_create_source w) (w_credentials w) (w_dial w) (w_invoke_rpc w).
(** The directories on the way to the one in which files are looked for, each given as the names
    on the way to it from the root: that of a file is the one it is in. *)
Definition on_the_way (w : world) (here : list string) (path : string) (cs : list string) : Prop :=
  exists t, place here (match w_stat w path with Ok Regular => path_dir path | _ => path end) = cs ++ t.
