(** Model of internal/cfginit/cfginit.go and of config init (runner.go:168-189).

    Simplifications.
    - The templates are given as lists of pieces; html/template's Parse is not modelled.
      Its escaping of values is: both templates stay in the context of HTML text, because
      neither has the character "<". *)
From Verif Require Export GoStr GoPath Exec_Model.

Inductive piece : Type := Lit (s : string) | V | ProtocVersion.
(** cfginit.go:32-36 *)
Definition base_tmpl : list piece :=
[Lit "protoc:
  version: ";
 ProtocVersion;
 Lit "
lint:
  group: uber2
"].
(** cfginit.go:38-228 *)
Definition document_tmpl : list piece :=
[Lit "# Paths to exclude when searching for Protobuf files.
# These can either be file or directory names.
# If there is a directory name, that directory and all sub-directories will be excluded.
";
 V;
 Lit "excludes:
";
 V;
 Lit "  - path/to/a
";
 V;
 Lit "  - path/to/b/file.proto

# Protoc directives.
protoc:
  # The Protobuf version to use from https://github.com/protocolbuffers/protobuf/releases.
  # By default use ";
 ProtocVersion;
 Lit ".
  # You probably want to set this to make your builds completely reproducible.
  version: ";
 ProtocVersion;
 Lit "

  # Additional paths to include with -I to protoc.
  # By default, the directory of the config file is included,
  # or the current directory if there is no config file.
  ";
 V;
 Lit "includes:
  ";
 V;
 Lit "  - ../../vendor/github.com/grpc-ecosystem/grpc-gateway/third_party/googleapis


  # If not set, compile will fail if there are unused imports.
  # Setting this will ignore unused imports.
  ";
 V;
 Lit "allow_unused_imports: true

# Create directives.
";
 V;
 Lit "create:
  # List of mappings from relative directory to base package.
  # This affects how packages are generated with create.
  ";
 V;
 Lit "packages:
    # This means that a file created ""foo.proto"" in the current directory will have package ""bar"".
    # A file created ""a/b/foo.proto"" will have package ""bar.a.b"".
    ";
 V;
 Lit "- directory: .
    ";
 V;
 Lit "  name: bar
    # This means that a file created ""idl/code.uber/a/b/c.proto"" will have package ""uber.a.b"".
    ";
 V;
 Lit "- directory: idl/code.uber
    ";
 V;
 Lit "  name: uber

# Lint directives.
lint:
  # The lint group to use.
  # Available groups: ""uber1"", ""uber2"", ""google"", ""empty"".
  # The default group is the ""uber1"" lint group for backwards compatibility reasons,
  # however we recommend using the ""uber2"" lint group.
  # The special group ""empty"" has no linters, allowing you to manually specify all
  # lint rules in lint.rules.add.
  # Run prototool lint --list-all-lint-groups to see all available lint groups.
  # Run prototool lint --list-lint-group GROUP to list the linters in the given lint group.
  group: uber2

  # Linter files to ignore.
  # These can either be file or directory names.
  # If there is a directory name, that directory and all sub-directories will be ignored.
";
 V;
 Lit "  ignores:
";
 V;
 Lit "    - id: RPC_NAMES_CAMEL_CASE
";
 V;
 Lit "      files:
";
 V;
 Lit "        - path/to/foo.proto
";
 V;
 Lit "        - path/to/bar.proto
";
 V;
 Lit "    - id: SYNTAX_PROTO3
";
 V;
 Lit "      files:
";
 V;
 Lit "        - path/to/dir

  # Linter rules.
  # Run prototool lint --list-all-linters to see all available linters.
  # Run prototool lint --list-linters to see the currently configured linters.
";
 V;
 Lit "  rules:

    # The specific linters to add.
";
 V;
 Lit "    add:
";
 V;
 Lit "      - ENUM_NAMES_CAMEL_CASE
";
 V;
 Lit "      - ENUM_NAMES_CAPITALIZED

    # The specific linters to remove.
";
 V;
 Lit "    remove:
";
 V;
 Lit "      - ENUM_NAMES_CAMEL_CASE

  # The path to the file header or the file header content for all Protobuf files.
  # If either path or content is set and the FILE_HEADER linter is turned on,
  # files will be checked to begin with the given header, and format --fix
  # will place this header before the syntax declaration. Note that
  # format --fix will delete anything before the syntax declaration
  # if this is set.
  #
  # Set path to use a file's contents for the header. Path must be relative.
  # Set content to directly specify the header.
  # **Both path and content cannot be set at the same time. They are only done
  # so here for example purposes.**
  #
  # If is_commented is set, this file is assumed to already have comments
  # and will be added directly. If is_commented is not set, ""// "" will be
  # added before every line.
";
 V;
 Lit "  file_header:
";
 V;
 Lit "    path: path/to/protobuf_file_header.txt
";
 V;
 Lit "    content: |
";
 V;
 Lit "      //
";
 V;
 Lit "      // Acme, Inc. (c) 2019
";
 V;
 Lit "      //
";
 V;
 Lit "    is_commented: true
  # Override the default java_package file option prefix of ""com"".
  # If this is set, this will affect lint, create, and format --fix to use.
  # this prefix instead of ""com"".
";
 V;
 Lit "  java_package_prefix: au.com

# Breaking change detector directives.
";
 V;
 Lit "break:
  # Include beta packages in breaking change detection.
  # Beta packages have the form ""foo.bar.vMAJORbetaBETA"" where MAJOR > 0 and BETA > 0.
  # By default, beta packages are ignored.
  ";
 V;
 Lit "include_beta: true
  # Allow stable packages to depend on beta packages.
  # By default, the breaking change detector will error if a stable package
  # depends on a breaking package.
  # If include_beta is true, this is implicitly set.
  ";
 V;
 Lit "allow_beta_deps: true

# Code generation directives.
";
 V;
 Lit "generate:
  # Options that will apply to all plugins of type go and gogo.
";
 V;
 Lit "  go_options:
    # The base import path. This should be the go path of the prototool.yaml file.
    # This is required if you have any go plugins.
";
 V;
 Lit "    import_path: uber/foo/bar.git/idl/uber

    # Extra modifiers to include with Mfile=package.
";
 V;
 Lit "    extra_modifiers:
";
 V;
 Lit "      google/api/annotations.proto: google.golang.org/genproto/googleapis/api/annotations
";
 V;
 Lit "      google/api/http.proto: google.golang.org/genproto/googleapis/api/annotations

  # The list of plugins.
";
 V;
 Lit "  plugins:
      # The plugin name. This will go to protoc with --name_out, so it either needs
      # to be a built-in name (like java), or a plugin name with a binary
      # protoc-gen-name.
";
 V;
 Lit "    - name: gogo

      # The type, if any. Valid types are go, gogo.
      # Use go if your plugin is a standard Golang plugin
      # that uses github.com/golang/protobuf imports, use gogo
      # if it uses github.com/gogo/protobuf imports. For protoc-gen-go
      # use go, For protoc-gen-gogo, protoc-gen-gogoslick, etc, use gogo.
";
 V;
 Lit "      type: gogo

      # Extra flags to specify.
      # The only flag you will generally set is plugins=grpc for Golang.
      # The Mfile=package flags are automatically set.
      # ** Otherwise, generally do not set this unless you know what you are doing. **
";
 V;
 Lit "      flags: plugins=grpc

      # The path to output generated files to.
      # If the directory does not exist, it will be created when running generation.
      # This needs to be a relative path.
";
 V;
 Lit "      output: ../../.gen/proto/go

      # Optional override for the plugin path. For example, if you set set path to
      # /usr/local/bin/gogo_plugin"", prototool will add the
      # ""--plugin=protoc-gen-gogo=/usr/local/bin/gogo_plugin"" flag to protoc calls.
      # If set to ""gogo_plugin"", prototool will search your path for ""gogo_plugin"",.
      # and fail if ""gogo_plugin"" cannot be found.
";
 V;
 Lit "      path: gogo_plugin

";
 V;
 Lit "    - name: yarpc-go
";
 V;
 Lit "      type: gogo
";
 V;
 Lit "      output: ../../.gen/proto/go

";
 V;
 Lit "    - name: grpc-gateway
";
 V;
 Lit "      type: go
";
 V;
 Lit "      output: ../../.gen/proto/go

";
 V;
 Lit "    - name: java
";
 V;
 Lit "      output: ../../.gen/proto/java

      # Optional file suffix for plugins that output a single file as opposed
      # to writing a set of files to a directory. This is only valid in two
      # known cases:
      # - For the java plugin, set this to ""jar"" to produce jars
      #   https://developers.google.com/protocol-buffers/docs/reference/java-generated#invocation
      # - For the descriptor_set plugin, this is required as using descriptor_set
      #   requires a file to be given instead of a directory.
";
 V;
 Lit "      file_suffix: jar

      # descriptor_set is special, and uses the --descriptor_set_out flag on protoc.
      # file_suffix is required, and the options include_imports and include_source_info
      # can be optionally set to add the flags --include_imports and --include_source-info.
      # The include_imports and include_source_info options are not valid for any
      # other plugin name.
";
 V;
 Lit "    - name: descriptor_set
";
 V;
 Lit "      output: ../../.gen/proto/descriptor
";
 V;
 Lit "      file_suffix: bin
";
 V;
 Lit "      include_imports: true
";
 V;
 Lit "      include_source_info: true"].

(** html/template: htmlReplacementTable, used by htmlEscaper *)
Definition html_char (c : ascii) : string :=
  if Ascii.eqb c "000" then String "239" (String "191" (String "189" ""))
  else if Ascii.eqb c """" then "&#34;"
  else if Ascii.eqb c "&" then "&amp;"
  else if Ascii.eqb c "'" then "&#39;"
  else if Ascii.eqb c "+" then "&#43;"
  else if Ascii.eqb c "<" then "&lt;"
  else if Ascii.eqb c ">" then "&gt;"
  else String c "".
Fixpoint html_escape (s : string) : string :=
  match s with EmptyString => "" | String c r => html_char c +++ html_escape r end.
(** html/template: Execute *)
Definition execute_tmpl (v version : string) (t : list piece) : string :=
  join "" (map (fun p => match p with Lit s => s | V => html_escape v | ProtocVersion => html_escape version end) t).
(** cfginit.go:235-257 *)
Definition generate (version : string) (uncomment document : bool) : string :=
  let document := uncomment || document in
  let v := if negb uncomment then "#" else "" in
  execute_tmpl v version (if document then document_tmpl else base_tmpl).

Section Init.
  Variable work_dir : string.
  (** os.MkdirAll *)
  Variable mkdir_all : string -> option string.
  (** Something that is not a file that can be read is at the path. *)
  Variable other : string -> bool.
  Variable write_error : string -> string -> option (result string * string).
  (** vars.DefaultProtocVersion *)
  Variable default_protoc_version : string.

  (** os.Stat succeeds *)
  Definition is_there (path : string) : cmd bool := fun s =>
    (s, Value (match io_disk s path with Ok _ => true | Err _ => other path end)).
  Definition make_dir (d : string) : cmd unit :=
    match mkdir_all d with Some m => fail m | None => emit (MadeDir d) end.
  (** runner.go:168-189 *)
  Definition init (args : list string) (uncomment document : bool) : cmd unit :=
    if 1 <? length args then fail "must provide one arg dirPath"
    else
      run dir <- (match args with [a] => make_dir a ;; ret a | _ => ret work_dir end);
      let path := path_join [dir; "prototool.yaml"] in
      run b <- is_there path;
      if b then fail (path +++ " already exists")
      else write_file write_error path (generate default_protoc_version uncomment document).
End Init.

