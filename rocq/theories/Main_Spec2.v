(** What configuration a file is subject to, and what it means that a file obeys the rules of
    the linter; for the properties of the whole program. *)
From Verif Require Import GoStrFacts GoPathFacts Settings_Spec File_Spec LintRun_Spec Main_Model.

(** The settings [e] given in directory [dir] are acceptable, without those only for development,
    and mean [c]. *)
Definition taken (w : world) (disk : string -> result string) (e : external_config) (dir : string) (c : config) : Prop :=
  acceptable disk false e dir /\ becomes disk (w_look_path w) e dir c.
(** The configuration that holds in the directory with these components: that of the nearest
    configuration file at or above it, or else the empty one. *)
Definition configured (w : world) (disk : string -> result string) (d : list string) (c : config) : Prop :=
  (governs (exists_at w disk) d "" /\ taken w disk empty_external (abs_path d) c)
  \/ exists a file e, nearest (exists_at w disk) d a /\ the_config (exists_at w disk) a file /\
       decoded disk (w_decode_json w) (w_decode_yaml w) a file e /\ taken w disk e (abs_path a) c.
(** The configuration for the file: the one given as [data], if any, which is that of the working
    directory; or the one that holds in its directory; or, if there is no configuration file at
    or above that, the one that holds in the working directory. *)
Definition in_force (w : world) (disk : string -> result string) (cwd data file : string) (c : config) : Prop :=
  (data <> "" /\ exists e, w_decode_json w data = Ok e /\ taken w disk e cwd c)
  \/ data = "" /\ exists d, ok_comps d /\ path_dir file = abs_path d /\
       ((~ governs (exists_at w disk) d "" /\ configured w disk d c)
        \/ (governs (exists_at w disk) d "" /\ exists k, ok_comps k /\ cwd = abs_path k /\ configured w disk k c)).

(** The rules, as specified in Lint_Spec: those about elements, those about files, and those about
    the files of a directory; each with what it presupposes of the files. *)
Definition for_any {A} (rules : list (string * A)) : list (string * A * (descriptor -> Prop)) := map (fun r => (r, anything)) rules.
Definition rules_on_elements (singularize : string -> string) : list (string * rule * (descriptor -> Prop)) :=
  for_any naming_rules ++ for_any golang_comment_rules ++ for_any element_rules ++ for_any (suppressable_rules singularize) ++
  map (fun r => (r, ascii_comments)) sentence_comment_rules ++
  [("MESSAGES_HAVE_COMMENTS_EXCEPT_REQUEST_RESPONSE_TYPES", except_golang_rule, distinct_messages);
   ("MESSAGES_HAVE_SENTENCE_COMMENTS_EXCEPT_REQUEST_RESPONSE_TYPES", except_sentence_rule, fun d => distinct_messages d /\ ascii_comments d);
   ("MESSAGES_NOT_EMPTY_EXCEPT_REQUEST_RESPONSE_TYPES", empty_message, distinct_blocks);
   ("RPC_OPTIONS_NO_GOOGLE_API_HTTP", http_rule, no_stray_http_option)].
Definition rules_on_files : list (string * (descriptor -> position -> Prop) * (descriptor -> Prop)) :=
  for_any require_rules ++ for_any request_response_rules ++ for_any file_rules ++
  map (fun r => (r, Lint_Spec.named)) equal_rules ++ map (fun r => (r, distinct_top)) layout_rules ++
  [("FILE_NAMES_LOWER_SNAKE_CASE", file_name_rule, anything)].
Definition rules_on_directories : list (string * (list descriptor -> Prop) * (descriptor -> Prop)) :=
  ("PACKAGES_SAME_IN_DIR", packages_disagree, one_package) ::
  map (fun r => (fst r, options_disagree (snd r), one_option (snd r))) same_in_dir_rules.
(** What the selected rules presuppose of the file. *)
Definition presupposed (singularize : string -> string) (c : config) (d : descriptor) : Prop :=
  forall id, selected (cfg_lint c) id ->
    (forall V A, In (id, V, A) (rules_on_elements singularize) -> A d) /\ (forall V A, In (id, V, A) rules_on_files -> A d) /\
    (forall B A, In (id, B, A) rules_on_directories -> A d).
(** An entry for the rule, other than the directory of the configuration or one above it, names
    the file or a directory that contains it. *)
Definition silenced (cwd : string) (c : config) (id file : string) : Prop :=
  exists paths p, In (id, paths) (lc_ignores (cfg_lint c)) /\ In p paths /\ within p (absolute_name cwd file) /\ ~ within p (cfg_dir c).
(** One of the files breaks the rule, and is not silenced for it. *)
Definition breaks (singularize : string -> string) (cwd : string) (c : config) (id : string) (ds : list descriptor) : Prop :=
  exists d, In d ds /\ ~ silenced cwd c id (d_filename d) /\
    ((exists V A ctx e p, In (id, V, A) (rules_on_elements singularize) /\ located (d_elements d) ctx e /\ V d ctx e p) \/
     (exists V A p, In (id, V, A) rules_on_files /\ V d p) \/
     (exists B A d2, In (id, B, A) rules_on_directories /\ In d2 ds /\ ~ silenced cwd c id (d_filename d2) /\
        path_dir (absolute_name cwd (d_filename d)) = path_dir (absolute_name cwd (d_filename d2)) /\ B [d; d2])).
(** The files with these names are as they are on disk, and belong to the set of files. *)
Definition on_disk (w : world) (disk : string -> result string) (cwd : string) (set : proto_set) (names : list string) (ds : list descriptor) : Prop :=
  (forall n, In n names <-> In n (map d_filename ds)) /\
  forall d, In d ds -> d_set d = set /\ exists p, File_Spec.shown cwd p (d_filename d) /\ disk p = Ok (d_data d) /\ w_parse w p (d_data d) = Ok (d_elements d).
