(** Independent vocabulary for the commands about packages and descriptor sets. *)
From Verif Require Export Exec_Spec Reflect_Spec.

(** The file is in one of the descriptor sets. *)
Definition in_sets (sets : list file_set) (f : file_desc) : Prop := exists s, In s sets /\ In f s.
(** Every file has a name, and one name means one file. *)
Definition consistent (sets : list file_set) : Prop :=
  (forall f, in_sets sets f -> fl_name f <> "") /\
  (forall f g, in_sets sets f -> in_sets sets g -> fl_name f = fl_name g -> f = g).
(** The hash tells the files apart. *)
Definition tells_apart (hash : string -> string) (sets : list file_set) : Prop :=
  forall f g, in_sets sets f -> in_sets sets g -> hash (fl_data f) = hash (fl_data g) -> f = g.
(** Every file of the sets once, in the order of the names. *)
Definition joined (sets : list file_set) (all : file_set) : Prop :=
  Increasing (map fl_name all) /\ forall f, In f all <-> in_sets sets f.

(** One name per line. *)
Definition one_per_line (names : list string) : string := join "" (map (fun n => n +++ String newline "") names).

(** Only the files in [dest] are different. *)
Definition changes_only (dest : string -> Prop) (s s' : io) : Prop := forall q, ~ dest q -> io_disk s' q = io_disk s q.
(** Where the data of a descriptor set goes: to the standard output, to a file, or to a new
    file whose name is printed. *)
Inductive destination : Type := Stdout | ToFile (path : string) | ToTemp (path : string).
Definition destination_of (output_path : string) (tmp : bool) (temp_file : result string) (d : destination) : Prop :=
  match d with
  | Stdout => output_path = "" /\ tmp = false
  | ToFile p => output_path = p /\ p <> "" /\ tmp = false
  | ToTemp p => output_path = "" /\ tmp = true /\ temp_file = Ok p
  end.
(** The data is there, and nowhere else. *)
Definition delivered (d : destination) (data : string) (s s' : io) : Prop :=
  match d with
  | Stdout => io_disk s' = io_disk s /\ exists es, io_done s' = io_done s ++ es /\ printed es = data /\ written es = []
  | ToFile p => (io_disk s' p = Ok data /\ changes_only (eq p) s s') /\
      exists es, io_done s' = io_done s ++ es /\ printed es = "" /\ written es = [(p, data)]
  | ToTemp p => (io_disk s' p = Ok data /\ changes_only (eq p) s s') /\
      exists es, io_done s' = io_done s ++ es /\ printed es = one_per_line [p] /\ written es = [(p, data)]
  end.
(** The path can be written. *)
Definition writable (write_error : string -> string -> option (result string * string)) (d : destination) (data : string) : Prop :=
  match d with Stdout => True | ToFile p => write_error p data = None | ToTemp p => write_error p data = None end.

(** A directory was left behind: made and not removed afterwards. *)
Definition left_behind (es : list event) (d : string) : Prop :=
  exists before after, es = before ++ MadeDir d :: after /\ ~ In (Removed d) after.
(** The arguments that clone a repository: without history, one branch or tag if one is asked for. *)
Definition clone_of (repository branch_or_tag directory : string) : list string :=
  ["git"; "clone"; "--depth"; "1"] ++ (if String.eqb branch_or_tag "" then [] else ["--branch"; branch_or_tag])
  ++ ["file://" +++ repository; directory].

(** ** The files of a tree *)
Section Tree.
  Variable stat : string -> result file_kind.
  Variable get_for_dir : string -> string -> result proto_set.
  Variable compiler : bool -> bool -> option (bool * bool) -> (string -> result string) -> proto_set -> result (list failure * list file_set).
  (** For a command that works on descriptor sets [args] stand, seen from [dir], for the
      files [fs] and the configuration [c]: they compile, and are as protoc makes them. *)
  Definition tree (disk : string -> result string) (dir : string) (args : list string) (fs : list file_desc) (c : config) : Prop :=
    exists m sets, found dir stat get_for_dir args m /\ compiler false true None disk (m_set m) = Ok ([], sets) /\
      distinct_files sets fs /\ faithful fs /\ valid_files fs /\ c = ps_config (m_set m).
End Tree.
(** The packages of files. *)
Definition package_in (fs : list file_desc) (name : string) : Prop := exists f, In f fs /\ fl_package f = name.

(** ** Break checks *)
From Verif Require Breaking_Spec.
(** The failures are what the configuration has reported when the files [old] became the
    files [new]: see Breaking_Spec. *)
Definition verdict (c : config) (old new : list file_desc) (failures : list failure) : Prop :=
  exists from to, describes old from /\ describes new to /\
    forall f, In f failures <-> exists id msg, f = mk_failure "" 0 0 id msg /\
      Breaking_Spec.reported (Reflect_Types.mk_break_config (bc_include_beta (cfg_break c)) (bc_allow_beta_deps (cfg_break c))) from to id msg.
(** A check that found these failures is silent if there are none, otherwise it lists their
    messages and the exit code is 255. *)
Definition announced (json : bool) (to_json : failure -> string) (failures : list failure) (es : list event) (r : outcome unit) : Prop :=
  (failures = [] -> es = []) /\ listing json to_json "message" failures (printed es) /\
  r = match failures with [] => Value tt | _ => Exit "" end.
(** [p] is [d] or below it. *)
Definition inside (d p : string) : Prop := p = d \/ exists r, p = (if String.eqb d "/" then "" else d) +++ "/" +++ r.
(** The directory of a clone that corresponds to a relative directory. *)
Definition in_clone (clone rel : string) : string :=
  if String.eqb rel "" || String.eqb rel "." then clone else path_join [clone; rel].
