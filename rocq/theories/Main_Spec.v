(** What prototool may do for the words on its command line, whatever they are.  Nothing
    here depends on how the words are read. *)
From Verif Require Export GoStr Exec_Model Cmd_Spec.
From Verif Require Import Grpc_Types.

(** A flag with this name, and perhaps this letter, appears among the words: as --name and
    anything after it, or with its letter in a word that starts with one hyphen. *)
Definition mentions (words : list string) (name : string) (letter : option ascii) : Prop :=
  exists word, In word words /\
    ((exists r, word = "--" +++ name +++ r) \/
     (exists l a b, letter = Some l /\ word = "-" +++ a +++ String l b /\ (forall r, word <> "--" +++ r))).
(** A value of a flag is a word, or the end of one, as in --name=value or -nvalue. *)
Definition ends_a_word (words : list string) (v : string) : Prop := exists a word, In word words /\ word = a +++ v.

Section Allowed.
  (** The working directory, and the names of a temporary file and directory. *)
  Variable cwd : string.
  Variable temp_file temp_dir : result string.
  Variable words : list string.
  Let said (l : list string) : Prop := incl l words.

  (** The files that may change. *)
  Inductive may_change (p : string) : Prop :=
  | Creates : forall f, said ["create"] -> In f words -> p = path_abs cwd f -> may_change p
  | Inits : said ["config"; "init"] -> p = path_join [cwd; "prototool.yaml"] -> may_change p
  | Inits_there : forall d, said ["config"; "init"] -> In d words -> p = path_join [d; "prototool.yaml"] -> may_change p
  | Overwrites : said ["format"] -> mentions words "overwrite" (Some "w"%char) -> path_ext p = ".proto" -> may_change p
  | Does_all : said ["all"] -> path_ext p = ".proto" -> may_change p
  | Writes_set : said ["descriptor-set"] -> mentions words "output-path" (Some "o"%char) -> p <> "" -> ends_a_word words p -> may_change p
  | Writes_temporary : said ["descriptor-set"] -> mentions words "tmp" None -> temp_file = Ok p -> may_change p.

  (** What else may be done: protoc may run the generators of the configuration, it may be
      run to check the files; git; directories; the cache; a server. *)
  Inductive may_do : event -> Prop :=
  | Prints : forall t, may_do (Printed t)
  | Writes : forall p d, may_change p -> may_do (Wrote p d)
  | Generates : said ["generate"] \/ said ["all"] -> may_do (Compiled true)
  | Compiles : forall c, In c ["all"; "break"; "compile"; "descriptor-set"; "format"; "grpc"; "lint"; "x"] -> said [c] -> may_do (Compiled false)
  | Makes_dir : forall d, said ["config"; "init"] -> In d words -> may_do (MadeDir d)
  | Makes_temporary : forall d, said ["break"; "check"] -> temp_dir = Ok d -> may_do (MadeDir d)
  | Clones : forall l, said ["break"; "check"] -> may_do (Ran ("git" :: "clone" :: l))
  | Removes_temporary : forall d, said ["break"; "check"] -> temp_dir = Ok d -> may_do (Removed d)
  | Removes_cache : forall d, said ["cache"; "delete"] -> may_do (Removed d)
  | Updates_cache : forall d, said ["cache"; "update"] -> may_do (Downloaded d)
  | Dials : forall c, said ["grpc"] -> may_do (Dialed c)
  | Calls : forall c, said ["grpc"] -> may_do (Called c).
End Allowed.

(** A command line, as it is meant, that only reads: it neither writes files, runs
    generators or git, changes the cache nor calls a server. *)
Definition only_reads (c : command) (items : list item) : Prop :=
  In (c_words c) [["compile"]; ["files"]; ["lint"]; ["version"]; ["x"; "inspect"; "packages"]; ["x"; "inspect"; "package-deps"];
                  ["x"; "inspect"; "package-importers"]] \/
  (c_words c = ["format"] /\ on items "overwrite" = false) \/
  (c_words c = ["generate"] /\ on items "dry-run" = true) \/
  (c_words c = ["break"; "check"] /\ text items "descriptor-set-path" <> "") \/
  (c_words c = ["descriptor-set"] /\ text items "output-path" = "" /\ on items "tmp" = false).
(** The command line [l] is that of the command with these flags and arguments. *)
Definition means (csv : string -> result (list string)) (l : list string) (c : command) (items : list item) (args : list string) : Prop :=
  exists more, In c commands /\ Forall (item_ok csv c) items /\
    args = arguments items ++ tail_args more /\ number_ok c (length args) /\
    l = c_words c ++ concat (map (spell c) items) ++ tail_words more.
(** The text begins with a word. *)
Definition begins_with (word text : string) : Prop := exists rest, text = word +++ rest.
(** Lines of text. *)
Definition shown (lines : list string) : list event := map (fun l => Printed (l +++ String newline "")) lines.
(** Running a program with one command line after the other. *)
Fixpoint after (program : list string -> io -> io * Z) (lines : list (list string)) (s : io) : io :=
  match lines with [] => s | l :: r => after program r (fst (program l s)) end.

(** The flags that all the commands that compile take have the same values. *)
Definition alike (items items' : list item) : Prop :=
  (forall name, In name ["cache-path"; "config-data"; "error-format"; "protoc-url"; "protoc-bin-path"; "protoc-wkt-path"; "walk-timeout"] ->
     text items name = text items' name) /\
  on items "json" = on items' "json".
(** A configuration does not take the file header from a .proto file. *)
Definition header_elsewhere (e : external_config) : Prop :=
  eh_path (x_header e) <> "" -> forall dir, path_ext (path_join [dir; eh_path (x_header e)]) <> ".proto".
