(** Specification of file discovery. *)
From Verif Require Import GoStrFacts GoPathFacts Settings_Model Settings_Spec File_Model.

(** ** Trees *)
(** A non-directory of the tree, by the names leading to it. *)
Inductive file_in : node -> list string -> Prop :=
| fi_here : file_in NFile []
| fi_below : forall es name n cs, In (name, n) es -> file_in n cs -> file_in (NDir es) (name :: cs).
(** A directory of the tree. *)
Inductive dir_in : node -> list string -> Prop :=
| di_here : forall es, dir_in (NDir es) []
| di_below : forall es name n cs, In (name, n) es -> dir_in n cs -> dir_in (NDir es) (name :: cs).
(** Every part of the tree can be read. *)
Inductive readable : node -> Prop :=
| re_file : readable NFile
| re_dir : forall es, (forall name n, In (name, n) es -> readable n) -> readable (NDir es).
(** The names of a directory's entries are file names and differ. *)
Inductive named : node -> Prop :=
| na_file : named NFile
| na_unreadable : named NUnreadable
| na_broken : named NBroken
| na_dir : forall es, ok_comps (map fst es) -> NoDup (map fst es) -> (forall name n, In (name, n) es -> named n) -> named (NDir es).

(** ** Exclude entries *)
(** What the configuration file [file] of directory [d] says. *)
Definition decoded (read_file : string -> result string) (decode_json decode_yaml : string -> result external_config)
  (d : list string) (file : string) (e : external_config) : Prop :=
  (read_file file = Ok "" /\ e = empty_external)
  \/ exists data, read_file file = Ok data /\ data <> "" /\
       ((file = abs_path (d ++ ["prototool.json"]) /\ decode_json data = Ok e)
        \/ (file = abs_path (d ++ ["prototool.yaml"]) /\ decode_yaml data = Ok e)).
Section Entries.
  Variable exists_file : string -> bool.
  Variable read_file : string -> result string.
  Variable decode_json decode_yaml : string -> result external_config.
  (** The configuration in directory [d] excludes path [p]. *)
  Definition entry (d : list string) (p : string) : Prop :=
    exists file e x, the_config exists_file d file /\ decoded read_file decode_json decode_yaml d file e /\
      In x (x_excludes e) /\ x <> "" /\ p = against (abs_path d) x.
  (** The configuration in directory [d], if there is one, can be used. *)
  Definition usable (d : list string) : Prop :=
    no_config exists_file d
    \/ exists file e, the_config exists_file d file /\ decoded read_file decode_json decode_yaml d file e /\
         forall x, In x (x_excludes e) -> x <> "" -> exclude_ok (abs_path d) x.
  (** File [cs] of the tree at [root] is excluded by a configuration at or above it in the tree. *)
  Definition hidden (root cs : list string) : Prop :=
    exists a b p, cs = a ++ b /\ b <> [] /\ entry (root ++ a) p /\ within p (abs_path (root ++ cs)).
  (** No configuration of the tree at [root] excludes anything outside its own directory. *)
  Definition contained (root : list string) (n : node) : Prop :=
    forall d p, dir_in n d -> entry (root ++ d) p -> within (abs_path (root ++ d)) p.
End Entries.

(** The name shown for a file: its path from the working directory, in its shortest form. *)
Definition shown (work path display : string) : Prop :=
  is_abs display = false /\ path_clean display = display /\ path_clean (work +++ "/" +++ display) = path.
(** The files of directory [d], in order. *)
Definition files_of_dir (d : string) (fs : list proto_file) : list proto_file :=
  filter (fun f => String.eqb (path_dir (pf_path f)) d) fs.
Definition grouped (fs : list proto_file) (m : list (string * list proto_file)) : Prop :=
  NoDup (map fst m) /\ forall d l, In (d, l) m <-> l <> [] /\ l = files_of_dir d fs.

(** ** The configuration of a directory *)
(** [p] is the configuration file for directory [d]; empty when there is none. *)
Definition governs (exists_file : string -> bool) (d : list string) (p : string) : Prop :=
  (p = "" /\ forall a b, d = a ++ b -> no_config exists_file a)
  \/ exists a, nearest exists_file d a /\ the_config exists_file a p.
(** [p] lies at or below [dir], and the first name below it does not start with two dots. *)
Definition inside (dir p : string) : Prop :=
  exists ds rs, ok_comps ds /\ ok_comps rs /\ dir = abs_path ds /\ p = abs_path (ds ++ rs) /\
  forall x t r, rs = x :: t -> x <> ".." +++ r.
(** The directory whose files are looked for when directory [d] is given: that of its
    configuration file, or [d] itself if there is none. *)
Definition searched (exists_file : string -> bool) (d root : list string) : Prop :=
  (governs exists_file d "" /\ root = d) \/ exists p, nearest exists_file d root /\ the_config exists_file root p.
(** File [f] lies in a directory with configuration file [cf]. *)
Definition file_governed (exists_file : string -> bool) (f : proto_file) (cf : string) : Prop :=
  exists a, ok_comps a /\ path_dir (pf_path f) = abs_path a /\ governs exists_file a cf.
