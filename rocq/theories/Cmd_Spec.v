(** What command lines mean, written from the point of view of a user: the commands with
    their flags by name, the ways to write a flag, and what is asked for. *)
From Verif Require Export GoStr Exec_Model Cmd_Model.

(** A flag with a value, a switch, or a flag that may be given several times. *)
Inductive kind : Type := Text | OnOff | Repeated.
Record command : Type := mk_command {
  c_words : list string;                (* "break check" is ["break"; "check"] *)
  c_flags : list (string * kind);
  c_letters : list (string * ascii);    (* one letter forms *)
  c_least : nat;
  c_most : option nat                   (* how many arguments it takes *)
}.
(** Flags of all commands that compile. *)
Definition compiling : list (string * kind) :=
  [("cache-path", Text); ("config-data", Text); ("protoc-url", Text); ("protoc-bin-path", Text); ("protoc-wkt-path", Text);
   ("walk-timeout", Text)].
Definition commands : list command := [
  mk_command ["all"] (compiling ++ [("disable-format", OnOff); ("disable-lint", OnOff); ("error-format", Text); ("fix", OnOff); ("json", OnOff)])
    [("fix", "f"%char)] 0 (Some 1);
  mk_command ["break"; "check"] (compiling ++ [("descriptor-set-path", Text); ("git-branch", Text); ("json", OnOff)])
    [("descriptor-set-path", "f"%char)] 0 (Some 1);
  mk_command ["break"; "descriptor-set"] (compiling ++ [("error-format", Text); ("json", OnOff); ("output-path", Text)])
    [("output-path", "o"%char)] 0 (Some 1);
  mk_command ["cache"; "delete"] [] [] 0 (Some 0);
  mk_command ["cache"; "update"] [("cache-path", Text); ("config-data", Text); ("walk-timeout", Text)] [] 0 (Some 1);
  mk_command ["compile"] (compiling ++ [("dry-run", OnOff); ("error-format", Text); ("json", OnOff)]) [] 0 (Some 1);
  mk_command ["config"; "init"] [("document", OnOff); ("uncomment", OnOff)] [] 0 (Some 1);
  mk_command ["create"] [("config-data", Text); ("package", Text)] [] 1 None;
  mk_command ["descriptor-set"]
    (compiling ++ [("error-format", Text); ("include-imports", OnOff); ("include-source-info", OnOff); ("json", OnOff);
                   ("output-path", Text); ("tmp", OnOff)])
    [("output-path", "o"%char)] 0 (Some 1);
  mk_command ["files"] [("config-data", Text); ("walk-timeout", Text)] [] 0 (Some 1);
  mk_command ["format"]
    (compiling ++ [("diff", OnOff); ("error-format", Text); ("fix", OnOff); ("json", OnOff); ("lint", OnOff); ("overwrite", OnOff)])
    [("diff", "d"%char); ("fix", "f"%char); ("lint", "l"%char); ("overwrite", "w"%char)] 0 (Some 1);
  mk_command ["generate"] (compiling ++ [("dry-run", OnOff); ("error-format", Text); ("json", OnOff)]) [] 0 (Some 1);
  mk_command ["grpc"]
    (compiling ++ [("address", Text); ("cacert", Text); ("call-timeout", Text); ("cert", Text); ("connect-timeout", Text);
                   ("data", Text); ("details", OnOff); ("error-format", Text); ("header", Repeated); ("insecure", OnOff);
                   ("keepalive-time", Text); ("key", Text); ("method", Text); ("server-name", Text); ("stdin", OnOff); ("tls", OnOff)])
    [("header", "H"%char)] 0 (Some 1);
  mk_command ["lint"]
    (compiling ++ [("diff-lint-groups", Text); ("error-format", Text); ("generate-ignores", OnOff); ("json", OnOff);
                   ("list-all-lint-groups", OnOff); ("list-all-linters", OnOff); ("list-lint-group", Text); ("list-linters", OnOff)])
    [] 0 (Some 1);
  mk_command ["version"] [("json", OnOff)] [] 0 (Some 0);
  mk_command ["x"; "inspect"; "packages"] (compiling ++ [("error-format", Text)]) [] 0 (Some 1);
  mk_command ["x"; "inspect"; "package-deps"] (compiling ++ [("error-format", Text); ("name", Text)]) [] 0 (Some 1);
  mk_command ["x"; "inspect"; "package-importers"] (compiling ++ [("error-format", Text); ("name", Text)]) [] 0 (Some 1)
].
(** All commands take --debug. *)
Definition takes (c : command) (name : string) (k : kind) : Prop := In (name, k) (("debug", OnOff) :: c_flags c).
Definition number_ok (c : command) (n : nat) : Prop :=
  c_least c <= n /\ match c_most c with Some m => n <= m | None => True end.

(** The defaults; a flag that is not listed is empty, or off. *)
Definition default (name : string) : string :=
  if String.eqb name "call-timeout" then "60s"
  else if String.eqb name "connect-timeout" then "10s"
  else if String.eqb name "error-format" then "filename:line:column:message"
  else if String.eqb name "walk-timeout" then "3s"
  else "".

(** Ways to write a flag: --name=v, --name v, --name, -n v, -n=v, -n *)
Inductive form : Type := LongEquals | LongSpace | LongAlone | ShortSpace | ShortEquals | ShortAlone.
(** Something on the command line after the command: an argument, or a flag with the value
    that it gets. *)
Inductive item : Type := Plain (a : string) | Given (name : string) (w : form) (v : string).
Definition spell (c : command) (i : item) : list string :=
  let letter name := match find (fun l => String.eqb (fst l) name) (c_letters c) with Some l => String (snd l) "" | None => "" end in
  match i with
  | Plain a => [a]
  | Given n LongEquals v => ["--" +++ n +++ "=" +++ v]
  | Given n LongSpace v => ["--" +++ n; v]
  | Given n LongAlone _ => ["--" +++ n]
  | Given n ShortSpace v => ["-" +++ letter n; v]
  | Given n ShortEquals v => ["-" +++ letter n +++ "=" +++ v]
  | Given n ShortAlone _ => ["-" +++ letter n]
  end.
Definition is_short (w : form) : Prop := w = ShortSpace \/ w = ShortEquals \/ w = ShortAlone.
(** An argument looks like one if it does not start with a hyphen, or is just one. *)
Definition plain_word (a : string) : Prop := a = "-" \/ (forall r, a <> String "-" r).
(** The name of a flag is not empty, does not start with a hyphen and has no "=". *)
Definition flag_word (n : string) : Prop :=
  n <> "" /\ (forall r, n <> String "-" r) /\ (forall a b, n <> a +++ "=" +++ b).

Section Meaning.
  (** How the value of --header is split into headers. *)
  Variable csv : string -> result (list string).

  Definition item_ok (c : command) (i : item) : Prop :=
    match i with
    | Plain a => plain_word a
    | Given n w v =>
        (is_short w -> In n (map fst (c_letters c))) /\
        (w = ShortEquals -> v <> "") /\
        exists k, takes c n k /\
          match k with
          | OnOff =>
              match w with
              | LongAlone | ShortAlone => v = "true"
              | LongEquals | ShortEquals => v = "true" \/ v = "false"
              | LongSpace | ShortSpace => False
              end
          | Text => w <> LongAlone /\ w <> ShortAlone
          | Repeated => w <> LongAlone /\ w <> ShortAlone /\ exists l, csv v = Ok l
          end
    end.

  (** What is asked for: the last value given for a flag, or its default. *)
  Definition values (items : list item) (name : string) : list string :=
    concat (map (fun i => match i with Given n _ v => if String.eqb n name then [v] else [] | Plain _ => [] end) items).
  Definition text (items : list item) (name : string) : string := last (values items name) (default name).
  Definition on (items : list item) (name : string) : bool := String.eqb (last (values items name) "false") "true".
  Definition headers (items : list item) : list string :=
    concat (map (fun v => match csv v with Ok l => l | Err _ => [] end) (values items "header")).
  Definition arguments (items : list item) : list string :=
    concat (map (fun i => match i with Plain a => [a] | Given _ _ _ => [] end) items).

  (** The call that a command line asks for. *)
  Definition asked (c : command) (items : list item) (args : list string) : option call :=
    let text := text items in
    let on := on items in
    match c_words c with
    | ["all"] => Some (CallAll args (on "disable-format") (on "disable-lint") (on "fix"))
    | ["break"; "check"] => Some (CallBreakCheck args (text "git-branch") (text "descriptor-set-path"))
    | ["break"; "descriptor-set"] => Some (CallBreakDescriptorSet args (text "output-path"))
    | ["cache"; "delete"] => Some CallCacheDelete
    | ["cache"; "update"] => Some (CallCacheUpdate args)
    | ["compile"] => Some (CallCompile args (on "dry-run"))
    | ["config"; "init"] => Some (CallInit args (on "uncomment") (on "document"))
    | ["create"] => Some (CallCreate args (text "package"))
    | ["descriptor-set"] =>
        Some (CallDescriptorSet args (on "include-imports") (on "include-source-info") (text "output-path") (on "tmp"))
    | ["files"] => Some (CallFiles args)
    | ["format"] => Some (CallFormat args (on "overwrite") (on "diff") (on "lint") (on "fix"))
    | ["generate"] => Some (CallGen args (on "dry-run"))
    | ["grpc"] =>
        Some (CallGRPC args (headers items) (text "address") (text "method") (text "data") (text "call-timeout")
                (text "connect-timeout") (text "keepalive-time") (on "stdin") (on "details") (on "tls") (on "insecure")
                (text "cacert") (text "cert") (text "key") (text "server-name"))
    | ["lint"] =>
        Some (CallLint args (on "list-all-linters") (on "list-linters") (on "list-all-lint-groups") (text "list-lint-group")
                (text "diff-lint-groups") (on "generate-ignores"))
    | ["version"] => Some CallVersion
    | ["x"; "inspect"; "packages"] => Some (CallInspectPackages args)
    | ["x"; "inspect"; "package-deps"] => Some (CallInspectPackageDeps args (text "name"))
    | ["x"; "inspect"; "package-importers"] => Some (CallInspectPackageImporters args (text "name"))
    | _ => None
    end.
End Meaning.

(** A line may end with two hyphens and any words: these are arguments as they are. *)
Definition tail_words (more : option (list string)) : list string :=
  match more with None => [] | Some l => "--" :: l end.
Definition tail_args (more : option (list string)) : list string := match more with None => [] | Some l => l end.
(** The variables of the environment that stand for flags. *)
Definition stands_for : list (string * string) :=
  [("PROTOTOOL_CACHE_PATH", "cache-path"); ("PROTOTOOL_PROTOC_BIN_PATH", "protoc-bin-path");
   ("PROTOTOOL_PROTOC_WKT_PATH", "protoc-wkt-path")].

(** The options that a command line asks for: a flag comes before the environment. *)
Definition flag_else (flag env : string) : string := if String.eqb flag "" then env else flag.
Definition options (getenv : string -> string) (work_dir : string) (walk : Z) (items : list item) : runner :=
  mk_runner work_dir (flag_else (text items "cache-path") (getenv "PROTOTOOL_CACHE_PATH"))
    (text items "config-data") (on items "json")
    (flag_else (text items "protoc-bin-path") (getenv "PROTOTOOL_PROTOC_BIN_PATH"))
    (flag_else (text items "protoc-wkt-path") (getenv "PROTOTOOL_PROTOC_WKT_PATH"))
    (text items "error-format") (text items "protoc-url") walk.
(** How long the walk over directories may take: without limit if the flag is empty. *)
Definition walk_asked (parse_duration : string -> result Z) (items : list item) (r : result Z) : Prop :=
  if String.eqb (text items "walk-timeout") "" then r = Ok 0%Z else r = parse_duration (text items "walk-timeout").

(** Between two states, only text was printed. *)
Definition only_text (s s' : io) (l : list string) : Prop :=
  io_disk s' = io_disk s /\ io_done s' = io_done s ++ map Printed l.
(** What the process does with what a command returned. *)
Inductive ends : io * outcome unit -> io * Z -> Prop :=
| Ends_well : forall s, ends (s, Value tt) (s, 0%Z)
| Ends_failures : forall s s', only_text s s' [] -> ends (s, Exit "") (s', 255%Z)
| Ends_exit : forall s s' m, m <> "" -> only_text s s' [m +++ String newline ""] -> ends (s, Exit m) (s', 255%Z)
| Ends_silent : forall s s', only_text s s' [] -> ends (s, Fail "") (s', 1%Z)
| Ends_error : forall s s' m, m <> "" -> only_text s s' [m +++ String newline ""] -> ends (s, Fail m) (s', 1%Z).
(** Flags written as "--name=value", or as "--name value" where the value is not a word of the
    command and the flag is not one that all commands have. *)
Inductive flags_first (words : list string) : list string -> Prop :=
| ff_none : flags_first words []
| ff_equals n v r : n <> "" -> flags_first words r -> flags_first words (("--" +++ n +++ "=" +++ v) :: r)
| ff_space n v r : flag_word n -> n <> "debug" -> ~ In v words -> flags_first words r -> flags_first words (("--" +++ n) :: v :: r).
