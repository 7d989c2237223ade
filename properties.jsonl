{"id": "C01", "title": "break check: reflexive", "statement": "Checking any set of packages against itself reports no breaking change (when beta dependencies are not being checked or there are none).", "quantifier": "all well-formed package sets and all break configurations", "why_tests_cant": "needs every shape of nested messages, enums, oneofs and services", "anchors": ["internal/breaking/runner.go:Run", "internal/breaking/helpers.go"]}
{"id": "C02", "title": "break check: transitive", "statement": "If going from version A to B is reported clean and from B to C is reported clean, then going from A to C is reported clean, so a chain of per-release checks is as good as one check.", "quantifier": "all triples of package sets and configurations", "why_tests_cant": "ranges over all triples of histories", "anchors": ["internal/breaking/runner.go:Run", "internal/breaking/breaking.go:AllCheckers"]}
{"id": "C03", "title": "break check: additions are never breaking", "statement": "If the new version contains everything the old version contains, with unchanged numbers, names, types, labels, oneofs and method signatures, plus any additional packages, messages, fields, enums, values, services and methods, nothing is reported.", "quantifier": "all pairs of package sets where the second extends the first", "why_tests_cant": "infinitely many extensions", "anchors": ["internal/breaking/*.go"]}
{"id": "C04", "title": "break check: deletions are reported", "statement": "Whenever a package, message, message field number, enum, enum value number, oneof, service or service method of the old version is missing from the same container of the new version, at any nesting depth, a failure naming it is reported; and a deletion failure is reported only then.", "quantifier": "all pairs of package sets, all nesting depths", "why_tests_cant": "needs every nesting depth and every kind of element", "anchors": ["internal/breaking/check_messages_not_deleted.go", "internal/breaking/check_message_fields_not_deleted.go", "internal/breaking/check_enums_not_deleted.go", "internal/breaking/check_enum_values_not_deleted.go", "internal/breaking/check_packages_not_deleted.go", "internal/breaking/check_services_not_deleted.go", "internal/breaking/check_service_methods_not_deleted.go", "internal/breaking/check_message_oneofs_not_deleted.go"]}
{"id": "C05", "title": "break check: changed fields and methods are reported", "statement": "A surviving field whose name, label, type or oneof membership changed, a surviving enum value whose name changed, and a surviving method whose request/response type or streaming flag changed is reported, and such failures are reported only for actual changes.", "quantifier": "all pairs of package sets", "why_tests_cant": "needs every combination of changed attributes", "anchors": ["internal/breaking/check_message_fields_same_*.go", "internal/breaking/check_enum_values_same_name.go", "internal/breaking/check_service_methods_same_*.go", "internal/breaking/strings.go"]}
{"id": "C06", "title": "break check: beta packages are ignored by default", "statement": "Unless include_beta is set, the content of packages whose last component is vNbetaM never influences the reported failures; with include_beta and allow_beta_deps unset, every stable package depending on a beta package is reported.", "quantifier": "all package sets, all configurations", "why_tests_cant": "ranges over all package names and contents", "anchors": ["internal/breaking/runner.go:Run", "internal/breaking/check_packages_no_beta_deps.go", "internal/extract/extract.go:newPackageSet"]}
{"id": "C07", "title": "break check: enum aliases", "statement": "Renaming any value of an enum is reported, also when several values share a number (allow_alias).", "quantifier": "all pairs of enums", "why_tests_cant": "aliases are a corner the suite does not enumerate", "anchors": ["internal/extract/extract.go:newEnum", "internal/breaking/check_enum_values_same_name.go"]}
{"id": "C08", "title": "package graph: dependencies and importers are inverse", "statement": "In an extracted package set, package A lists B as a dependency exactly when B lists A as an importer, and every dependency and importer named is itself in the set.", "quantifier": "all reflected package sets", "why_tests_cant": "all graphs", "anchors": ["internal/extract/extract.go:newPackageSet"]}
{"id": "C09", "title": "package extraction groups per package, not per file", "statement": "Moving definitions between files of one package, or permuting the files of the descriptor set, does not change the extracted package set, so it cannot cause break check failures.", "quantifier": "all descriptor sets and permutations of them", "why_tests_cant": "factorially many permutations", "anchors": ["internal/reflect/reflect.go:NewPackageSet"]}
{"id": "C10", "title": "descriptor set merge", "statement": "Merging file descriptor sets returns each distinct file exactly once, in name order, with identical content, independent of the order of the sets; conflicting contents for one name are an error.", "quantifier": "all lists of file descriptor sets", "why_tests_cant": "all orders and overlaps", "anchors": ["internal/desc/desc.go:MergeFileDescriptorSets"]}
{"id": "C11", "title": "descriptor set sort", "statement": "SortFileDescriptorSet returns the same files with the chosen file last and the others in their original order, and rejects unnamed, duplicate or absent files.", "quantifier": "all file descriptor sets and files", "why_tests_cant": "all sizes", "anchors": ["internal/desc/desc.go:SortFileDescriptorSet"]}
{"id": "C12", "title": "lint: linter selection", "statement": "The linters run are exactly: the configured group (default uber1), or none with no_default-style empty group, plus included IDs, minus excluded IDs, each once; unknown IDs or unknown group are an error.", "quantifier": "all lint configurations", "why_tests_cant": "all combinations of include/exclude/group", "anchors": ["internal/lint/lint.go:GetLinters"]}
{"id": "C13", "title": "lint: ignores are exact", "statement": "A failure is dropped by an ignore entry exactly when the entry has the failure's linter ID and names its file or a directory containing it; everything else is reported unchanged.", "quantifier": "all failures, all ignore configurations", "why_tests_cant": "all path/ID combinations", "anchors": ["internal/lint/lint.go:CheckMultiple", "internal/lint/lint.go:shouldIgnore", "internal/file/file.go:IsExcluded"]}
{"id": "C14", "title": "lint: suppression annotations", "statement": "An element is silenced only by an annotation for its rule in its own comment and only when allow_suppression is set.", "quantifier": "all comments, rules and settings", "why_tests_cant": "all comment texts", "anchors": ["internal/lint/base_linter.go"]}
{"id": "C15", "title": "lint: result independent of map order", "statement": "The reported lint failures, in order, do not depend on Go map iteration order.", "quantifier": "all iteration orders of every map involved", "why_tests_cant": "Go randomises; tests see a few orders", "anchors": ["internal/lint/lint.go:CheckMultiple", "internal/text/text.go:SortFailures"]}
{"id": "C16", "title": "lint: naming rules are complete and sound", "statement": "For each naming rule (enum, enum value, message, field, oneof, service and RPC names), a failure is reported for exactly the elements of the file, at any nesting depth, whose name breaks the rule.", "quantifier": "all proto files", "why_tests_cant": "all ASTs", "anchors": ["internal/lint/check_*_names_*.go"]}
{"id": "C17", "title": "lint: comment rules are complete and sound", "statement": "For each comment rule, a failure is reported for exactly the elements whose comment does not meet the documented form.", "quantifier": "all proto files", "why_tests_cant": "all ASTs and comments", "anchors": ["internal/lint/check_*_have_*comments*.go", "internal/lint/lint.go:hasGolangStyleComment"]}
{"id": "C18", "title": "lint: file option rules", "statement": "FILE_OPTIONS_REQUIRE_X reports exactly files that lack the option, FILE_OPTIONS_UNSET_X exactly files that set it, FILE_OPTIONS_EQUAL_X exactly files with a package where it is set to something else.", "quantifier": "all proto files", "why_tests_cant": "all option lists", "anchors": ["internal/lint/check_file_options_*.go"]}
{"id": "C19", "title": "lint: directory-wide rules", "statement": "PACKAGES_SAME_IN_DIR and FILE_OPTIONS_*_SAME_IN_DIR report something exactly when two files of a directory disagree.", "quantifier": "all sets of files in a directory", "why_tests_cant": "all combinations", "anchors": ["internal/lint/check_packages_same_in_dir.go", "internal/lint/check_file_options_*_same_in_dir.go"]}
{"id": "C20", "title": "lint: request/response type rules", "statement": "Request/response rules (same file, unique, only in file, names match RPC, after service) report exactly the documented violations.", "quantifier": "all proto files", "why_tests_cant": "all ASTs", "anchors": ["internal/lint/check_request_response_*.go"]}
{"id": "C21", "title": "lint never crashes on parsed files", "statement": "Running any linter on any parsed file returns failures or an error, never a nil dereference.", "quantifier": "all proto files, all linters", "why_tests_cant": "rare shapes trigger it", "anchors": ["internal/lint/check_rpc_options_no_google_api_http.go", "internal/lint/check_enum_*_except_message.go"]}
{"id": "C22", "title": "lint only looks at the requested directory", "statement": "Linting directory D reports failures only for files under D.", "quantifier": "all directories and file sets", "why_tests_cant": "all path shapes", "anchors": ["internal/lint/lint.go:GetDirPathToDescriptors"]}
{"id": "C23", "title": "format: output shape", "statement": "Non-empty formatted output ends in exactly one newline, does not start with white space, has no trailing white space on any line, and a file of nothing formats to nothing, unless --fix is to add a file header.", "quantifier": "all files and options", "why_tests_cant": "all inputs", "anchors": ["internal/format/transformer.go:Transform", "internal/buf/buf.go:P"]}
{"id": "C24", "title": "format: nothing is lost", "statement": "Every declaration of the input (syntax, package, option, import, message, enum, service, field, ...) appears in the output of plain formatting, in canonical order, and formatting an already formatted file changes nothing.", "quantifier": "all files", "why_tests_cant": "all ASTs", "anchors": ["internal/format/main_visitor.go", "internal/format/first_pass_visitor.go", "internal/format/base_visitor.go"]}
{"id": "C25", "title": "format --fix: options match the linter", "statement": "After format --fix with a package declared, the go_package, java_* (and for uber2 csharp/objc/php) options have exactly the values the corresponding lint rules demand, whatever they were before.", "quantifier": "all files with a package, both fix versions, all java prefixes", "why_tests_cant": "all package names", "anchors": ["internal/format/first_pass_visitor.go:Do", "internal/protostrs/protostrs.go", "internal/lint/check_file_options_equal_*.go"]}
{"id": "C26", "title": "format --fix: unrelated options kept", "statement": "format --fix does not remove or change options other than those it manages, and does not drop managed options it does not rewrite.", "quantifier": "all files, both fix versions", "why_tests_cant": "all option sets", "anchors": ["internal/format/first_pass_visitor.go:VisitOption"]}
{"id": "C27", "title": "format modes", "statement": "Without overwrite no file is written; with overwrite a file is written only if its content changes; the exit status is zero exactly when there is nothing to report in the mode used.", "quantifier": "all files, all mode flags", "why_tests_cant": "all mode combinations", "anchors": ["internal/exec/runner.go:formatFile", "internal/exec/runner.go:Format"]}
{"id": "C28", "title": "create: never overwrites content", "statement": "create writes no file at all if any requested path has content, is empty or lies in a missing directory; existing non-empty files are never changed.", "quantifier": "all file systems and argument lists", "why_tests_cant": "all argument lists", "anchors": ["internal/create/handler.go:Create", "internal/create/handler.go:checkFilePath"]}
{"id": "C29", "title": "create: package from path", "statement": "The package of a created file is --package if given, else the base package of the deepest configured directory containing it, joined with the relative path, independent of configuration order; else the path relative to the config file, else the default.", "quantifier": "all configurations and paths", "why_tests_cant": "all path shapes and map orders", "anchors": ["internal/create/handler.go:getPkg", "internal/create/handler.go:getPkgFromRel"]}
{"id": "C30", "title": "create output passes lint and format", "statement": "A file made by create satisfies the file option lint rules of its lint group, and format --fix only adds the final newline.", "quantifier": "all packages, file names, prefixes", "why_tests_cant": "all names", "anchors": ["internal/create/handler.go:getDataV1", "internal/create/handler.go:getDataV2"]}
{"id": "C31", "title": "package-derived option values", "statement": "The derived go/java/csharp/objc/php values satisfy their documented form for every package; csharp and php namespaces agree up to the separator; objc prefixes have at least three capital letters and are never GPB.", "quantifier": "all package names", "why_tests_cant": "all strings", "anchors": ["internal/protostrs/protostrs.go"]}
{"id": "C32", "title": "version parsing", "statement": "A package is recognised as versioned vN or vNbetaM exactly when its last component has that form with N, M >= 1 that fit in 64 bits, and the numbers returned are those written.", "quantifier": "all strings", "why_tests_cant": "all digit strings, overflow", "anchors": ["internal/protostrs/protostrs.go:MajorBetaVersion"]}
{"id": "C33", "title": "case conversion agrees with case checks", "statement": "Snake-casing a CamelCase identifier gives a string the snake-case lint check accepts, is idempotent, and loses no letters; upper-camel-casing a lower_snake file name gives a CamelCase identifier.", "quantifier": "all identifiers", "why_tests_cant": "all strings", "anchors": ["internal/strs/strs.go"]}
{"id": "C34", "title": "sort/uniq helpers", "statement": "SortUniq returns the distinct non-empty strings in order; Intersection returns exactly the common ones.", "quantifier": "all string lists", "why_tests_cant": "all lists", "anchors": ["internal/strs/strs.go:SortUniqModify", "internal/strs/strs.go:Intersection"]}
{"id": "C35", "title": "failure ordering", "statement": "Failures are printed in a total order by file, line, column, rule and message; the order is deterministic given the multiset of failures.", "quantifier": "all failure lists", "why_tests_cant": "all permutations", "anchors": ["internal/text/text.go:SortFailures"]}
{"id": "C36", "title": "failure printing", "statement": "A printed failure line contains the selected fields in order, from which filename, line, column and message can be recovered; unknown fields are rejected before anything is printed.", "quantifier": "all failures and formats", "why_tests_cant": "all strings", "anchors": ["internal/text/text.go:Fprintln", "internal/text/text.go:ParseColonSeparatedFailureFields"]}
{"id": "C37", "title": "config discovery", "statement": "The configuration for a directory is the one in the nearest ancestor-or-self directory having exactly one config file; two in one directory is an error; files elsewhere have no influence.", "quantifier": "all file systems and directories", "why_tests_cant": "all depths", "anchors": ["internal/settings/config_provider.go:getFilePathForDir", "internal/settings/config_provider.go:getSingleFilePathForDir"]}
{"id": "C38", "title": "config validation", "statement": "A configuration is accepted only if it meets the documented constraints (plugin types, outputs, suffixes, go options, file header, create packages, include/exclude disjoint) and an accepted one is normalised as documented (absolute clean paths, unique sorted lists, upper-case IDs).", "quantifier": "all external configurations", "why_tests_cant": "all configurations", "anchors": ["internal/settings/config_provider.go:externalConfigToConfig", "internal/settings/settings.go:Config"]}
{"id": "C39", "title": "exclude paths", "statement": "An excluded path hides exactly the files at or below it; an exclude entry outside the configuration's directory is rejected or has no effect on siblings.", "quantifier": "all exclude lists and paths", "why_tests_cant": "all paths", "anchors": ["internal/settings/config_provider.go:getExcludePrefixes", "internal/file/file.go:IsExcluded"]}
{"id": "C40", "title": "file header", "statement": "The configured header is turned into comment lines only: every line of the header starts with // and the text is preserved.", "quantifier": "all header texts", "why_tests_cant": "all strings", "anchors": ["internal/settings/config_provider.go:getFileHeaderLines"]}
{"id": "C41", "title": "file discovery", "statement": "The files operated on are exactly the .proto files below the configuration directory that are not excluded, each once, grouped under their own directory.", "quantifier": "all directory trees and exclude lists", "why_tests_cant": "all trees", "anchors": ["internal/file/proto_set_provider.go:walkAndGetAllProtoFiles", "internal/file/proto_set_provider.go:getDirPathToProtoFiles"]}
{"id": "C42", "title": "one config per invocation", "statement": "GetForDir succeeds only if all files found share one configuration file, and the returned set then has that configuration and all files.", "quantifier": "all trees with any placement of configs", "why_tests_cant": "all placements", "anchors": ["internal/file/proto_set_provider.go:GetForDir", "internal/file/proto_set_provider.go:getBaseProtoSets"]}
{"id": "C43", "title": "display paths", "statement": "A file's display path, resolved against the working directory, is the file.", "quantifier": "all absolute clean paths", "why_tests_cant": "all pairs of paths", "anchors": ["internal/file/proto_set_provider.go:walkAndGetAllProtoFiles"]}
{"id": "C44", "title": "walk timeout never truncates", "statement": "With a walk timeout, the result is either the complete list of files or an error, in every interleaving of timer and walk.", "quantifier": "all interleavings", "why_tests_cant": "schedule dependent", "anchors": ["internal/file/proto_set_provider.go:walkAndGetAllProtoFiles"]}
{"id": "C45", "title": "protoc commands: one per directory and plugin", "statement": "For each directory with files under the requested directory there is one command per plugin, with exactly that plugin's flags and exactly that directory's files, regardless of slice sharing between commands.", "quantifier": "all proto sets, plugins, slice capacities", "why_tests_cant": "aliasing depends on capacities", "anchors": ["internal/protoc/compiler.go:getCmdMetas"]}
{"id": "C46", "title": "protoc commands: includes", "statement": "Every command includes all configured include paths and the well-known types, and the files compiled lie under at least one include path.", "quantifier": "all configurations and directories", "why_tests_cant": "all paths", "anchors": ["internal/protoc/compiler.go:getIncludes"]}
{"id": "C47", "title": "go plugins: import modifiers", "statement": "For go/gogo plugins, each file of another directory gets one import modifier with the right import path; files of the same directory get none.", "quantifier": "all proto sets and plugin options", "why_tests_cant": "all layouts", "anchors": ["internal/protoc/compiler.go:getPluginFlagSetProtoFlags"]}
{"id": "C48", "title": "protoc output is never swallowed", "statement": "Every non-blank line of protoc output becomes a failure except unused imports when allowed and the redundant import-not-found line; a failed protoc run without failures is an error.", "quantifier": "all outputs", "why_tests_cant": "all text", "anchors": ["internal/protoc/compiler.go:runCmdMeta", "internal/protoc/compiler.go:parseProtocLine"]}
{"id": "C49", "title": "compile result independent of scheduling", "statement": "The failures and descriptor sets returned do not depend on the order in which concurrent protoc runs finish, and any error of a run is an error of the compile.", "quantifier": "all interleavings of the workers", "why_tests_cant": "schedule dependent", "anchors": ["internal/protoc/compiler.go:Compile"]}
{"id": "C50", "title": "temporary files are removed", "statement": "Whatever step fails, every temporary descriptor file created by compile is removed on return.", "quantifier": "all failure points", "why_tests_cant": "every crash point", "anchors": ["internal/protoc/compiler.go:getCmdMetas", "internal/protoc/compiler.go:Compile"]}
{"id": "C51", "title": "download cache: crash safety", "statement": "After any number of interrupted downloads, a successful Download returns a directory holding the complete distribution of the requested version.", "quantifier": "all interruption points and histories", "why_tests_cant": "crash points", "anchors": ["internal/protoc/downloader.go:cache", "internal/protoc/downloader.go:downloadInternal"]}
{"id": "C52", "title": "download cache: mutual exclusion", "statement": "Concurrent processes never write the same cache directory at the same time.", "quantifier": "all interleavings of processes", "why_tests_cant": "schedule dependent", "anchors": ["internal/protoc/downloader.go:cache", "internal/protoc/downloader.go:flockLock"]}
{"id": "C53", "title": "cache delete spares custom caches", "statement": "cache delete never removes a directory given by --cache-path or PROTOTOOL_CACHE_PATH.", "quantifier": "all environments", "why_tests_cant": "all environments", "anchors": ["internal/protoc/downloader.go:Delete", "internal/cmd/templates.go:getRunner"]}
{"id": "C54", "title": "exit status for a single file", "statement": "For commands given one file, output lists only that file's failures and the exit status reflects them.", "quantifier": "all failure lists and file names", "why_tests_cant": "all failure sets", "anchors": ["internal/exec/runner.go:printFailuresForErrorFormat"]}
{"id": "C55", "title": "generated ignores silence lint", "statement": "After putting the output of lint --generate-ignores into the configuration, the same files lint clean for all failures that have a file and rule.", "quantifier": "all failure lists", "why_tests_cant": "all failures", "anchors": ["internal/exec/runner.go:generateIgnores", "internal/lint/lint.go:shouldIgnore"]}
{"id": "C56", "title": "lint group diff", "statement": "diff-lint-groups lists exactly the symmetric difference of the two groups, each side marked, and swapping the arguments swaps the marks.", "quantifier": "all pairs of groups", "why_tests_cant": "all groups", "anchors": ["internal/exec/runner.go:diffMaps"]}
{"id": "C57", "title": "grpc flag validation", "statement": "A grpc invocation is rejected exactly when address/method/data/stdin/tls flags are inconsistent as documented.", "quantifier": "all flag combinations", "why_tests_cant": "exponentially many combinations", "anchors": ["internal/exec/runner.go:GRPC"]}
{"id": "C58", "title": "grpc method resolution", "statement": "The service chosen for a method path is the unique one with that full name in the first descriptor set having it; ambiguous or missing services are errors.", "quantifier": "all descriptor sets and method strings", "why_tests_cant": "all sets", "anchors": ["internal/grpc/handler.go:getServiceInfo", "internal/grpc/handler.go:findServiceDescriptorProto"]}
{"id": "C59", "title": "files command", "statement": "The files command prints each file under the requested directory exactly once, sorted.", "quantifier": "all proto sets", "why_tests_cant": "map order", "anchors": ["internal/exec/runner.go:Files"]}
{"id": "C60", "title": "element lint rules are exact", "statement": "The lint rules about fields, options, imports, streaming, well-known types and empty messages report exactly the offending elements, at any depth, under their own ID.", "quantifier": "all files and all nestings", "why_tests_cant": "must hold for every file, in both directions (no missed and no spurious report)", "anchors": ["internal/lint/check_imports_not_public.go", "internal/lint/check_message_fields_duration.go", "internal/lint/check_wkt_directly_imported.go", "internal/lint/check_rpcs_no_streaming.go"]}
{"id": "C61", "title": "file head lint rules are exact", "statement": "The lint rules about the package, the syntax, the file header and the file name report a file exactly when it breaks them, at the offending statement, and every documented rule has such an exact characterisation.", "quantifier": "all files", "why_tests_cant": "must hold for every file", "anchors": ["internal/lint/check_syntax_proto3.go", "internal/lint/check_package_is_declared.go", "internal/lint/check_file_header.go", "internal/lint/check_file_names_lower_snake_case.go", "docs/lint.md"]}
{"id": "C62", "title": "output directories exist before protoc runs", "statement": "When code is generated, every directory that a plugin writes to for a requested directory has been created before the first protoc command is run, including the per-package directories of plugins that write one file per directory.", "quantifier": "all proto sets, plugins, map orders and failure points", "why_tests_cant": "must hold for every layout of directories and plugins, and for every order in which maps are ranged over", "anchors": ["internal/protoc/compiler.go:makeGenDirs", "internal/protoc/compiler.go:Compile"]}
{"id": "C63", "title": "where protoc is cached", "statement": "The directory a protoc version is kept in is determined by the cache path (or, without one, by XDG_CACHE_HOME, HOME and the system), the directory protobuf and the version or the digest of the URL; different versions have directories of which none is in the other.", "quantifier": "all options, environments, working directories and versions", "why_tests_cant": "the environment and options are unbounded", "anchors": ["internal/protoc/downloader.go:getBasePath", "internal/protoc/downloader.go:getBasePathNoVersion", "internal/protoc/downloader.go:getDefaultBasePathInternalNoOSARCH"]}
{"id": "C64", "title": "what is downloaded", "statement": "Without a URL the archive downloaded is that of the GitHub release of the version for the system (release candidates without their hyphen), with a URL it is what is at that URL, and anything but a successful answer is an error.", "quantifier": "all versions, systems, URLs and answers", "why_tests_cant": "versions, URLs and server answers are unbounded", "anchors": ["internal/protoc/downloader.go:getDownloadData", "internal/protoc/downloader.go:getProtocURL"]}
{"id": "C65", "title": "local protoc options", "statement": "The options for a local protoc and its well-known types are accepted only together, without a URL and if they are there; then exactly they are used, whatever is cached, and otherwise those of the cache.", "quantifier": "all option values and file systems", "why_tests_cant": "all combinations of options and files", "anchors": ["internal/protoc/downloader.go:newDownloader", "internal/protoc/downloader.go:ProtocPath", "internal/protoc/downloader.go:WellKnownTypesIncludePath"]}
{"id": "C66", "title": "archive files stay in the cache", "statement": "Every file of a downloaded archive is written below the directory of its version, at its own name.", "quantifier": "all archives", "why_tests_cant": "file names in archives are unbounded", "anchors": ["internal/protoc/downloader.go:downloadInternal"]}
{"id": "C67", "title": "all stops at the first failing step", "statement": "The all command succeeds exactly if the files compile, can be formatted in place, code is generated from the formatted files without failures, and lint finds nothing in them; code is generated only after the first two steps succeeded, and no file is formatted after that. With formatting switched off no file is written.", "quantifier": "all compilers, formatters, lint results, disks and flags", "why_tests_cant": "each step can fail in any way, and the steps depend on what the previous ones left on disk", "anchors": ["internal/exec/runner.go:All"]}
{"id": "C68", "title": "interrupted format", "statement": "If format --overwrite is killed or a write fails, every file has its old contents or its formatted contents, except at most the one that was being written.", "quantifier": "all files, all crash points, all write errors", "why_tests_cant": "crash points", "anchors": ["internal/exec/runner.go:formatFile"]}
{"id": "C69", "title": "dry run", "statement": "With --dry-run, compile and generate print exactly the protoc commands, one on a line, and run nothing.", "quantifier": "all sets of files and command lists", "why_tests_cant": "all command lists", "anchors": ["internal/exec/runner.go:compile", "internal/exec/runner.go:doProtocCommands"]}
{"id": "C70", "title": "lint listings name exactly the rules in force", "statement": "`prototool lint --list-linters` prints one line for each rule that the configuration selects, `--list-all-linters` one for each documented rule and `--list-lint-group G` one for each rule of the group, sorted by rule, without repetition, in two aligned columns, whatever the order of maps; a configuration with unknown names and an unknown group are errors that print nothing; `--list-all-lint-groups` prints the four groups in order; two of the listing flags, --diff-lint-groups and --generate-ignores together are an error before anything is done; no listing compiles or lints a file.", "quantifier": "all configurations, groups in any case, arguments, map orders and file systems", "why_tests_cant": "The rules selected depend on every combination of group, additions, removals and defaults, and groups live in a map whose iteration order changes from run to run; a test sees a few configurations and one order.", "anchors": ["internal/exec/runner.go: Lint, listLinters, listAllLinters, listLintGroup, listAllLintGroups, printLinters, moreThanOneSet", "internal/lint/lint.go: GetLinters, GroupToLinters, AllLinters"]}
{"id": "C71", "title": "descriptor-set delivers every file once, in the place asked for, or nothing", "statement": "prototool descriptor-set outputs one FileDescriptorSet that has every file of the compiled descriptor sets exactly once, ordered by name, encoded as asked (--json or binary), to exactly one place: standard output, the -o path, or (--tmp) a new file whose name is printed. -o with --tmp is refused before anything is done; two different files with the same name, or a file without a name, are an error with nothing printed or written; files that do not compile are reported, nothing is written and the exit code is 255. No other file is ever written.", "quantifier": "All arguments, flag combinations, file trees, compiler results (any number of sets, with any overlap), and write errors.", "why_tests_cant": "The overlap of the sets that protoc returns for the directories of a tree is unbounded, and 'no other file, at most once' is about all paths and all failure points.", "anchors": ["internal/exec/runner.go: DescriptorSet, BreakDescriptorSet", "internal/desc/desc.go: MergeFileDescriptorSets"]}
{"id": "C72", "title": "A stored break descriptor set stands for the tree it was made from", "statement": "After prototool break descriptor-set -o F, a later prototool break check -f F reports exactly what a comparison with the files of the tree as it was would report; in particular, while the files are unchanged it reports nothing and exits 0.", "quantifier": "All trees that compile, all later trees, configurations and arguments.", "why_tests_cant": "It relates two runs of different commands at different times over any pair of trees.", "anchors": ["internal/exec/runner.go: BreakDescriptorSet, BreakCheck, getPackageSetForDescriptorSetPath"]}
{"id": "C73", "title": "inspect lists exactly the packages, dependencies and importers", "statement": "inspect packages prints each package of the files exactly once, one per line in order; inspect package-deps and package-importers print the packages whose files are imported by, or import, files of the named package (other than itself); an unknown package is an error, an absent --name is refused before anything is read.", "quantifier": "All file trees that compile, all names, all iteration orders of maps.", "why_tests_cant": "It is an equivalence over all import graphs, and Go's map order may differ in every run.", "anchors": ["internal/exec/runner.go: InspectPackages, InspectPackageDeps, InspectPackageImporters, getPackage, extractSortPackageNames"]}
{"id": "C74", "title": "break check compares with exactly the baseline asked for and leaves nothing behind", "statement": "break check compares the files of the argument with the stored descriptor set, or with the same directory in a fresh shallow clone of the working directory's repository at the branch or tag asked for, under the configuration of the new files; it prints exactly the failures of that comparison and exits 255 if there are any, 0 and silent otherwise. Absolute directories and directories outside of the working directory are refused; both baselines at once are refused before anything is done. No file is written and the clone is removed in the end.", "quantifier": "All trees, baselines, branches, arguments, and results of git and of the compiler.", "why_tests_cant": "The failure points between making the clone and removing it, and the paths that an argument may denote, cannot be enumerated.", "anchors": ["internal/exec/runner.go: BreakCheck", "internal/git/git.go: TemporaryClone"]}
{"id": "C75", "title": "grpc prints what the server sends", "statement": "A grpc call prints, in order, one line per response with contents (with --details one JSON object per header block, response, status and trailer block), and nothing else; it fails with the error of the call or of the status, and makes at most one connection and one call with the address, headers, timeouts, TLS settings and input of the flags.", "quantifier": "all flags, descriptor sets and sequences of messages from the server", "why_tests_cant": "all message sequences and flag combinations", "anchors": ["internal/grpc/handler.go:Invoke", "internal/grpc/invocation_event_handler.go", "internal/exec/runner.go:GRPC"]}
{"id": "C76", "title": "The exit status says what happened", "statement": "For every command line, either exactly one command is run and the process ends with 0 if it succeeded, 255 if it reported failures, and 1 for any other error (whose text is printed, nothing else being added), or no command is run and nothing but text is printed, and then the status is 1 unless the text is help. On systems other than Linux and macOS nothing is run.", "quantifier": "All lists of arguments, all environments, all outcomes of commands.", "why_tests_cant": "Scripts depend on the status of every possible command line; their number has no bound.", "anchors": ["internal/cmd/cmd.go: do, runRootCommand, checkOS", "internal/cmd/templates.go: Build, checkCmd", "internal/exec/exec.go: ExitError"]}
{"id": "C77", "title": "Flags and arguments mean the same in every order and spelling", "statement": "A command with flags and arguments that it takes makes the call the user asked for: each flag has the last value given or its documented default, switches are off unless given, arguments keep their order, words after -- are arguments; neither the order of flags nor their spelling (--f=v, --f v, -f v, -f=v) matters. Unknown flags or letters, missing values, times that cannot be read and a wrong number of arguments are reported with status 1 and nothing is run; --help anywhere shows the help of that command and runs nothing.", "quantifier": "All commands, all sequences of flags and arguments, all values.", "why_tests_cant": "All interleavings of flags, spellings and arguments.", "anchors": ["internal/cmd/flags.go: bind*", "internal/cmd/templates.go: *CmdTemplate, Build, getRunner", "internal/cmd/cmd.go: getRootCommand"]}
{"id": "C78", "title": "The environment stands for three flags and for nothing else", "statement": "The call made and its options depend on the environment only through PROTOTOOL_CACHE_PATH, PROTOTOOL_PROTOC_BIN_PATH and PROTOTOOL_PROTOC_WKT_PATH; a non-empty flag hides its variable, and without the flag the variable has exactly the effect of the flag.", "quantifier": "All environments and command lines.", "why_tests_cant": "Non-interference over all environments.", "anchors": ["internal/cmd/templates.go: getRunner", "internal/exec/runner.go: getOrEnv"]}
{"id": "C79", "title": "config init never overwrites and writes a file that means what it says", "statement": "config init never touches a prototool.yaml that is there; otherwise it writes exactly that file (making the directory if one is given). The file sets the protoc version and the lint group uber2 and nothing else, with or without the documentation comments, and is accepted by the settings; --uncomment sets every example.", "quantifier": "All directories, flags, states of the disk and versions.", "why_tests_cant": "The states of the disk and failures of system calls have no bound; the equality of the two files is about every version.", "anchors": ["internal/cfginit/cfginit.go: Generate, baseTmpl, documentTmpl", "internal/exec/runner.go: Init", "internal/settings/config_provider.go: externalConfigToConfig"]}
{"id": "C80", "title": "Diffs name the file, keep the rest and leave no temporary file", "statement": "A diff is what diff -u prints for the two texts, with the names of the two temporary files replaced by the name of the file (with .orig for the first), times and all other lines kept; the status of diff counts as an error only if nothing is printed, and output without two full lines is an error. Only the two temporary files are written, and each of them is removed whatever fails.", "quantifier": "All texts, names, outputs of diff, and failures of system calls.", "why_tests_cant": "All failure points between making and removing the files, all outputs.", "anchors": ["internal/diff/diff.go: Do, writeTempFile, replaceTempFilename"]}
{"id": "C81", "title": "Only the commands that say so change anything", "statement": "Whatever words are on the command line, well formed or not, prototool changes a file only if the words include create (a file named there), config and init (prototool.yaml in a directory named there or the working directory), format with --overwrite or -w, or all (files named *.proto), or descriptor-set with an output path or --tmp (that path). Generators run only with generate or all, a server is dialled or called only with grpc, git is run and a directory removed only with break check, the cache is removed only with cache delete. A command line that is meant to read only prints and at most runs protoc to check the files.", "quantifier": "all command lines (any list of strings), all file contents, all answers of the operating system, protoc, git, servers and libraries, all map orders", "why_tests_cant": "every argument vector, environment and file tree", "anchors": ["cmd/prototool/main.go:main", "internal/cmd/cmd.go", "internal/cmd/templates.go", "internal/exec/runner.go"]}
{"id": "C82", "title": "Nothing is remembered between runs", "statement": "What a run of prototool prints, writes and returns depends on the files, the environment and the command line only; after any sequence of runs that only read, a command does and prints exactly what it would have done first.", "quantifier": "all histories of command lines, all command lines, all file contents, all answers of the outside world", "why_tests_cant": "all histories", "anchors": ["internal/exec/runner.go", "internal/cmd/cmd.go"]}
{"id": "C83", "title": "The cache is what the commands use", "statement": "If cache update and a compile or generate both succeed with the same arguments and configuration, the protoc that is run is bin/protoc of the directory cache update downloaded into, or the one the environment names, in which case nothing is downloaded; cache update always downloads, and cache delete always removes the cache.", "quantifier": "all command lines of cache update, compile and generate, all configurations, files and environments", "why_tests_cant": "it relates two runs over all configurations, flags and environments", "anchors": ["internal/exec/runner.go (CacheUpdate, CacheDelete, Compile, Gen)", "internal/protoc/downloader.go", "internal/protoc/compiler.go"]}
{"id": "C84", "title": "all is format, generate and lint in turn", "statement": "prototool all has the exit status of the first of format --overwrite (or compile with --disable-format), generate and lint that does not end with 0 when they are run one after the other with the same arguments and flags, and does to the files, prints and runs what they do, in that order; only lint's own check by protoc is left out.", "quantifier": "all command lines of the four commands that agree in arguments and common flags, all files, configurations and answers of protoc", "why_tests_cant": "it relates four runs, over all files, configurations and outcomes of each of the steps", "anchors": ["internal/exec/runner.go (All, Format, Gen, Lint)", "internal/cmd/templates.go (allCmdTemplate)"]}
{"id": "C85", "title": "files lists what the other commands work on", "statement": "If prototool files ends with 0, the names it prints stand for exactly the files that format and all with the same arguments and configuration may change, and a format or lint of a directory that ends with 0 has read and parsed every one of them.", "quantifier": "all arguments, configurations, directory trees and file contents, all command lines of format, all and lint with the same arguments and configuration", "why_tests_cant": "it compares what different commands do over all trees, exclusions and configurations", "anchors": ["internal/exec/runner.go (Files, Format, All, Lint)", "internal/file/proto_set_provider.go (GetForDir, GetForFile)"]}
{"id": "C86", "title": "The modes of format agree", "statement": "If format in one mode (print, --overwrite, --diff or --lint) ends with 0 and changes no file, then with the same arguments and other flags every other mode also ends with 0 and changes no file; without --overwrite ending with 0 means just that; and with a mode nothing is printed then.", "quantifier": "all command lines of format that differ only in the mode, all files, configurations and answers of protoc and the parser", "why_tests_cant": "it compares runs in different modes over all file contents and configurations", "anchors": ["internal/exec/runner.go (Format, formatFile)", "internal/cmd/templates.go (formatCmdTemplate)"]}
{"id": "C87", "title": "After format --overwrite there is nothing left to format", "statement": "After format --overwrite has ended with 0, format in any mode with the same arguments and flags ends with 0 and changes no file, so a check in CI passes after a developer has formatted.", "quantifier": "all command lines of format, all files and configurations, every parser that reads what was printed as what was printed", "why_tests_cant": "it relates two runs over all file contents and orders of declarations", "anchors": ["internal/exec/runner.go (Format)", "internal/format/transformer.go (Transform)", "internal/format/first_pass_visitor.go", "internal/format/main_visitor.go"]}
{"id": "C88", "title": "What compile rejects is not worked on", "statement": "If compile does not end with 0, then with the same arguments and common flags format, lint and all do what compile does and end with the same status: they change no file and generate nothing; and if one of them ends with 0, compile ends with 0 and prints nothing.", "quantifier": "all command lines of compile, format, lint and all that agree in arguments and common flags, all files, configurations and answers of protoc", "why_tests_cant": "it relates the runs of different commands for every way in which compiling can fail", "anchors": ["internal/exec/runner.go (Compile, Format, Lint, All)"]}
{"id": "C89", "title": "lint ends with 0 exactly if the listed files obey the selected rules", "statement": "Where files lists names, lint with the same arguments and settings is done under one configuration, the one in force for each of the listed files. If it ends with 0, every name in the lint section is known and none of the listed files breaks a rule that the configuration selects, unless silenced for that rule by ignores. Conversely, if no listed file breaks a selected rule and compile ends with 0, lint ends with 0.", "quantifier": "all command lines of files, lint and compile that agree in arguments and settings, all files, configurations, orders of maps and answers of protoc", "why_tests_cant": "it relates the whole program to the rules over every configuration and every contents of the files", "anchors": ["internal/exec/runner.go (Lint, doLint, getMeta)", "internal/lint/lint.go (GetLinters, Lint)", "internal/lint/runner.go (Run)", "internal/settings/config_provider.go (GetForDir)", "internal/file/proto_set_provider.go (GetForDir)"]}
{"id": "C90", "title": "What format --overwrite leaves in the listed files", "statement": "If format --overwrite on a directory ends with 0, every file that files lists then holds its canonical form, token for token. With --fix it starts with the file header of the configuration in force for that file and has the package options that the lint group and Java package prefix of that configuration ask for.", "quantifier": "all command lines of files and format that agree in arguments and settings, all files, configurations and answers of the parser", "why_tests_cant": "it relates the arguments, the configuration files and the resulting files of the whole program over all inputs", "anchors": ["internal/exec/runner.go (Format, formatFile, newTransformer)", "internal/format/transformer.go (Transform)", "internal/settings/config_provider.go (GetForDir)"]}
{"id": "C91", "title": "compile and generate run protoc on every listed file and end as it answers", "statement": "The commands that compile --dry-run (or generate --dry-run) prints use the protoc that was given, or the one in the cache for the release of the configuration in force; they run it on every file that files lists, a directory at a time, with the includes of the configuration and, for generate, the flags of each plugin. Without --dry-run the same commands are run: an exit status of 0 means that protoc accepted every one; if one breaks down it is 1; if it is 255 exactly the failures that protoc reported are printed, in the format asked for, those of the file asked for if it was a file; and if protoc says nothing it is 0.", "quantifier": "all command lines of files, compile and generate that agree in arguments and settings, all files, configurations, answers of protoc and orders in which its runs end", "why_tests_cant": "it relates the outputs of three command lines to the configuration files and to every possible answer of an external program, for all schedules of its runs", "anchors": ["internal/exec/runner.go (Compile, Gen, compile, doCompile)", "internal/protoc/compiler.go (Compile, ProtocCommands, getCmdMetas, runCmdMeta)", "internal/protoc/downloader.go (ProtocPath, WellKnownTypesIncludePath)", "internal/settings/config_provider.go (GetForDir)"]}
{"id": "C92", "title": "create, for the whole program: one file in the way and none is written, else each file holds what the configuration wants", "statement": "A run of `prototool create` one of whose file names is in the way (empty name, not ending in .proto, not in a directory that exists, already there) ends with status 1 and changes nothing on disk. A run that ends with 0 leaves, at each of the (distinct) places named, a file stating the package of --package, or without it the package derived from the directory by the configuration in force there; the file begins with the file header of that configuration and reads as the syntax, package and options of the style of that configuration, with its java prefix.", "quantifier": "every world (file system, configuration files, environment), every command line meaning create, every number of file names", "why_tests_cant": "tests create a few files under a few fixed configurations; that a blocked name among any number of others stops all of them, and that every written text lexes as intended for every header, package, directory and prefix, ranges over infinitely many worlds", "anchors": ["internal/cmd/templates.go:createCmdTemplate", "internal/exec/runner.go:Create", "internal/create/handler.go:Create", "internal/create/handler.go:create", "internal/create/handler.go:getPkg"]}
{"id": "C93", "title": "version, for the whole program", "statement": "A run of `prototool version` ends with 0, changes nothing on disk, and prints either a table of two aligned columns with the version, the default protoc version, the Go version and the OS/architecture, or with --json one JSON object with exactly those fields (the empty ones left out).", "quantifier": "every world and every command line meaning version whose walk timeout can be read", "why_tests_cant": "the output depends on the platform of the build, which a test sees one of", "anchors": ["internal/cmd/templates.go:versionCmdTemplate", "internal/exec/runner.go:Version", "internal/exec/runner.go:printVersion"]}
{"id": "C94", "title": "cache delete, for the whole program: exactly the cache directory is removed", "statement": "A run of `prototool cache delete` that ends with 0 has removed exactly one tree, the directory of --cache-path or else of PROTOTOOL_CACHE_PATH (relative to the working directory) or else the default cache of the platform, the removal succeeded, and no file was written.", "quantifier": "every world, every command line meaning cache delete", "why_tests_cant": "which directory is removed depends on flags, environment and platform in combination; removing any other one is unrecoverable", "anchors": ["internal/cmd/templates.go:cacheDeleteCmdTemplate", "internal/exec/runner.go:CacheDelete", "internal/protoc/downloader.go:Delete"]}
{"id": "C95", "title": "descriptor-set and break descriptor-set, for the whole program", "statement": "When `descriptor-set` or `break descriptor-set` ends with 0, protoc (the one that the flags and the configuration in force stand for) was run once for each directory on exactly the files that `files` prints for the same arguments, with --include_imports and --include_source_info exactly when the flags of the same name ask for them (break descriptor-set: imports, no source info), it accepted all of them, and every file of the sets it left is, once and in the order of the names, in the one data, binary or with --json as JSON, that went to the one place asked for: the standard output, the file of --output-path, or a temporary file whose name is printed. When it ends with 255, either both destinations were asked for (or none for break descriptor-set) and the disk is as before, or protoc had something to say, which is listed and nothing else is done.", "quantifier": "every ordinary system, every pair of command lines for files and the command with the same arguments and settings, every configuration, every tree of files", "why_tests_cant": "tests run a few trees with one setting of the flags; that no file is lost or doubled for any tree, and that the flags reach protoc for any configuration, ranges over all of them", "anchors": ["internal/cmd/templates.go:descriptorSetCmdTemplate", "internal/exec/runner.go:DescriptorSet", "internal/exec/runner.go:BreakDescriptorSet", "internal/exec/runner.go:compileFullControl", "internal/protoc/compiler.go:getCmdMetas"]}
{"id": "C96", "title": "inspect, for the whole program", "statement": "When `x inspect packages`, `package-deps` or `package-importers` ends with 0, protoc was run with the imports on exactly the files that `files` prints for the same arguments and accepted them, and the packages of the files of the sets it made, those that the package of --name depends on, or those that depend on it, are printed once each, one per line, in increasing order, and nothing is written. It ends with 255 only when --name is missing or when protoc had something to say, which is listed.", "quantifier": "every ordinary system, every pair of command lines, every configuration, every tree of files, every package name", "why_tests_cant": "the answer must be right for every graph of packages and every way of spreading it over directories", "anchors": ["internal/cmd/templates.go:inspectPackagesCmdTemplate", "internal/exec/runner.go:InspectPackages", "internal/exec/runner.go:InspectPackageDeps", "internal/exec/runner.go:InspectPackageImporters", "internal/exec/runner.go:getPackageSetAndConfig"]}
{"id": "C97", "title": "break check, for the whole program", "statement": "When `break check --descriptor-set-path P` ends with 0 or 255 and protoc accepts the files that `files` prints, then P held a descriptor set, and what is listed (with --json as JSON) are exactly the breaking changes, by the configuration in force, from the files of that set to the files of now; the status is 0 exactly when there are none, in which case nothing is printed. A check against what `break descriptor-set` stored is a check against the files of then, and finds nothing if the files are the same. Without P the repository of the working directory is cloned, at the branch or tag of --git-branch if given, the files of then are those in the same directory of the clone, and the clone is removed whatever is found. Both flags together are refused.", "quantifier": "every ordinary system, every pair of trees and configurations, every stored set, every branch name", "why_tests_cant": "a missed breaking change depends on the pair of trees; tests compare a few pairs", "anchors": ["internal/cmd/templates.go:breakCheckCmdTemplate", "internal/exec/runner.go:BreakCheck", "internal/exec/runner.go:getPackageSetForDescriptorSetPath", "internal/git/git.go:TemporaryClone", "internal/breaking/runner.go:Run"]}
{"id": "C98", "title": "grpc, for the whole program", "statement": "When `files` prints some names, then `grpc` with the same settings changes no file. It dials at most once and makes at most one call. It dials only if protoc made descriptor sets of those files and the flags, headers and times are acceptable, and then to the address, with the timeout, keepalive time and TLS settings of the flags. It calls only if the dial succeeded and the service of --method is in those sets, with the headers, timeout and data of the flags. What it prints is the lines for what the server sends, in order, followed by the error if there is one; the status is 0 exactly when the call succeeded and the server reported no error. With 255 the flags do not fit together or protoc rejected the files.", "quantifier": "every ordinary system, every tree, configuration, combination of flags, server and sequence of answers", "why_tests_cant": "depends on all the answers of a server and the interplay of flags, configuration and files; tests run a few calls", "anchors": ["internal/cmd/templates.go:grpcCmdTemplate", "internal/exec/runner.go:GRPC", "internal/grpc/handler.go:Invoke", "internal/grpc/invocation_event_handler.go"]}
{"id": "C99", "title": "The listings of lint, for the whole program", "statement": "`lint` refuses more than one of --list-all-linters, --list-linters, --list-all-lint-groups, --list-lint-group, --diff-lint-groups and --generate-ignores, having done nothing. --list-linters prints a table of exactly the rules that the configuration of the listed files selects, or ends with 1 if it names an unknown rule or group; --list-all-linters of exactly the documented rules; --list-lint-group of exactly the rules of the group, or ends with 255 if there is none of that name. --list-all-lint-groups prints the four groups, --diff-lint-groups exactly the rules that are in one of the two groups, with the side that has it; neither reads a configuration. No listing changes a file or runs protoc.", "quantifier": "every ordinary system, every tree and configuration, every command line of lint", "why_tests_cant": "depends on every combination of flags and configuration; tests run a few", "anchors": ["internal/cmd/templates.go:lintCmdTemplate", "internal/exec/runner.go:Lint", "internal/exec/runner.go:listLinters", "internal/exec/runner.go:diffLintGroups"]}
{"id": "C100", "title": "cache update and config init, for the whole program", "statement": "`cache update` downloads exactly one thing: the release of protoc that the configuration of the listed files names (3.11.0 without one), into the directory of the cache where compile looks for it; nothing if the environment has a protoc; it changes no file, and its status is 0 exactly if the download succeeds. `config init` never touches a file that exists, changes no other file, and writes one whose settings are protoc.version 3.11.0 and lint.group uber2 (without --uncomment); it succeeds whenever it can write. After it, for listed files without a nearer configuration, `lint --list-linters` lists exactly the rules of uber2.", "quantifier": "every ordinary system, every tree and configuration, every command line of the two commands", "why_tests_cant": "depends on the environment, on what exists and on the configuration found from each directory", "anchors": ["internal/cmd/templates.go:cacheUpdateCmdTemplate", "internal/cmd/templates.go:configInitCmdTemplate", "internal/exec/runner.go:CacheUpdate", "internal/exec/runner.go:Init", "internal/cfginit/cfginit.go:Generate", "internal/protoc/downloader.go:Download"]}
{"id": "C101", "title": "what lint --generate-ignores prints silences lint, for the whole program", "statement": "If `lint --generate-ignores` succeeds it changes no file and prints the YAML form of a list of ignores, or nothing if there is none. Put that list as lint.ignores into the configuration file that governs the listed files, changing nothing else: if `compile` then succeeds, `lint` reports nothing and its status is 0.", "quantifier": "every ordinary system, every tree and configuration file (also one that had other ignores before), every command line of files, lint and compile with the same settings, every iteration order of maps", "why_tests_cant": "the list must name every pair of rule and file for every set of files and every rule, and survive being read back relative to another directory", "anchors": ["internal/cmd/templates.go:lintCmdTemplate", "internal/exec/runner.go:lintGenerateIgnores", "internal/exec/runner.go:doLint", "internal/lint/runner.go:Run", "internal/settings/config_provider.go:externalConfigToConfig", "internal/settings/config_provider.go:GetForDir"]}
{"id": "C102", "title": "What protoc says is told", "statement": "Every kind of complaint that protoc and its plugins are known to print (with or without a position) becomes one failure that names the file as the user gave it, the line and column if protoc gave them, and what protoc said; a plugin's own output on the same line is kept.", "quantifier": "all file names without colons and blanks, all positions, messages and plugin names", "why_tests_cant": "seventeen overlapping regular expressions are tried in turn: that none takes a line of another kind holds for every file name and message or not at all", "anchors": ["internal/protoc/compiler.go (parseProtocLine, the regular expressions)"]}
{"id": "C103", "title": "What lint says of a finding", "statement": "The text of every lint finding is the one written for its rule: it names the element at the place reported, what is expected and what was found (the full prefix, the wanted file name, every package of the directory in order, the RPC that uses a type), and it ends with the way to silence the finding exactly if the rule has an annotation and the configuration allows it. Where a rule may have several things to say of one place, it says all that are so and nothing else.", "quantifier": "all documented rules, all well-formed files, directories and configurations, all orders in which Go maps are walked", "why_tests_cant": "96 rules with texts computed from names, scopes and whole directories: that no text ever names the wrong element, prefix or value holds for every file or not at all", "anchors": ["internal/lint/check_*.go (the AddFailuref calls)", "internal/lint/base_linter.go (baseLinter.Check, addSuppression)", "docs/lint.md"]}
{"id": "C104", "title": "A configuration or directory that cannot be used is named, with its first fault", "statement": "When a configuration is rejected, the message is the decoder's own, or the text for the first part at fault in the order excludes, plugins, create packages, file header, suppression, plugin names, rules both added and removed; it names the entry at fault. A directory that no files can be listed for is reported with the configuration file at fault, the unreadable part of the tree, the list of the several configuration directories, or the file outside its configuration. If `files` fails it prints exactly that, changes nothing and exits with status 1, and every command that looks for files first (all, cache update, compile, generate, format, lint, descriptor-set, x inspect packages) fails with the same message and status.", "quantifier": "every configuration, every tree of files and configuration files, every decoder, every order of maps, every command line of these commands", "why_tests_cant": "Which of several faults is reported depends on the combination of all settings and on map order; tests check single faulty files.", "anchors": ["internal/settings/config_provider.go: externalConfigToConfig, getExcludePrefixesForDir, getGenPlugin", "internal/settings/settings.go", "internal/file/proto_set_provider.go: GetForDir, GetMultipleForDir", "internal/exec/runner.go: getMeta", "internal/cmd/cmd.go"]}
{"id": "C105", "title": "Command lines that contradict themselves are refused with the reason", "statement": "A command line that gives two flags of which only one may be given (two listings for lint, two modes for format, two outputs for descriptor-set, two baselines for break check, both data and stdin for grpc), that lacks what the command needs (an output path, a package name, an address, a method, an input), or whose grpc flags for encryption do not fit together, prints exactly the one line that says so, ends with status 255, and touches no file.", "quantifier": "all environments, all spellings and orders of the flags, all values of all other flags", "why_tests_cant": "the flags combine freely; which of several objections is raised, and that nothing is done before it is, has to hold for every combination", "anchors": ["internal/exec/runner.go:Lint", "internal/exec/runner.go:Format", "internal/exec/runner.go:DescriptorSet", "internal/exec/runner.go:BreakCheck", "internal/exec/runner.go:GRPC", "internal/cmd/cmd.go"]}
{"id": "C106", "title": "The listings describe every lint rule as documented", "statement": "Every table of lint rules that lint prints has, for each rule, one line with its name and what it verifies, in the words of docs/lint.md but for fourteen rules that are worded differently; the description has no tab or line break, so the columns line up; and it says that a comment can suppress the rule only if the rule is one of seven and the configuration allows it, which outside of development no configuration does.", "quantifier": "all rules, all configurations, all orders of maps, all command lines that print a table", "why_tests_cant": "there are 96 rules, and what is printed of each depends on the configuration in force", "anchors": ["internal/lint/base_linter.go:Purpose", "internal/lint/check_names.go:newNamesLinter", "internal/exec/runner.go:printLinters", "docs/lint.md"]}
{"id": "C107", "title": "What --json prints is JSON that reads as what was found", "statement": "With --json every finding of a command is printed on one line of its own, in the same order as without, and that line is a JSON object whose members are the file, the line, the column, the rule and the message of the finding, each left out only if it is empty or zero; reading it as JSON gives back exactly these texts and numbers, whatever characters they hold, as long as they are UTF-8; two findings that differ are printed differently. What version --json prints is a JSON object with exactly the facts that version prints without it. A byte that is not part of a UTF-8 character is told as U+FFFD.", "quantifier": "all findings, with all names, messages and positions, all versions and platforms", "why_tests_cant": "file names and messages hold text of users: any characters, quotes, line breaks and bytes", "anchors": ["internal/exec/runner.go:printFailuresForErrorFormat", "internal/exec/runner.go:Version", "internal/text/text.go:Failure"]}
{"id": "C108", "title": "What names something unknown is told by that name", "statement": "A configuration that names a lint group or a lint rule that does not exist is refused with a text that names the group, or else one of those rules. A value of --error-format is refused exactly if one of its parts between colons is not the name of a field in any case; the first such part is named, also when there is nothing to print; compile, format, lint and all then never end with 0 and change no file, and say just that if the files are otherwise fine. A file with a syntax other than proto2 and proto3 is not formatted and its syntax is named; formatting fails for no other reason than that or a file that cannot be parsed. A value of --diff-lint-groups without exactly one comma, or that names a group that does not exist, is refused and the first such group is named.", "quantifier": "all configurations, all values of the flags, all files, all orders of maps, all command lines with them", "why_tests_cant": "there are unboundedly many names that do not exist, in every place of every value, and what is looked at first decides which one is told", "anchors": ["internal/lint/lint.go:GetLinters", "internal/text/text.go:ParseColonSeparatedFailureFields", "internal/exec/runner.go:printFailuresForErrorFormat", "internal/exec/runner.go:diffLintGroups", "internal/format/transformer.go:Transform"]}
{"id": "C109", "title": "Chance decides nothing", "statement": "The order in which maps are ranged over, the order in which concurrent runs of protoc end and the way in which slices grow do not matter: two runs of files, compile, lint in all its modes, create, config init, cache update, cache delete or version on the same files end with the same status, and leave the same files having printed the same text in the same order, unless the status is 1 in both, in which case only the error that is told may be another. Two runs of format end with the same status and, unless it is 1, leave the same files and report the same about each, maybe in another order; the same goes for the commands that compile --dry-run prints. When format --overwrite fails, which files it had rewritten before depends on the order.", "quantifier": "all command lines of these commands, all trees and configurations, all pairs of map orders, schedules and growths of slices", "why_tests_cant": "a test sees one order of each map and one schedule; whether another one changes the output is a matter of all of them", "anchors": ["internal/exec/runner.go:Files", "internal/exec/runner.go:format", "internal/protoc/compiler.go:Compile", "internal/file/proto_set_provider.go:getBaseProtoSets", "internal/lint/lint.go:Run", "internal/create/handler.go:getPkg"]}
{"id": "C110", "title": "How a path is spelled makes no difference", "statement": "A command that looks for files from a directory or a file given as its argument does the same, with the same output and status, however the path is written: relative or absolute, with `.`, `..`, doubled or trailing slashes, or left out for the working directory. Only a message that says why no package set can be made, or that the path is neither a directory nor a file, may repeat the path as it was written. break check against the repository takes only relative paths.", "quantifier": "all command lines of all, break check with a stored set, break descriptor-set, cache update, compile, descriptor-set, files, format, generate, grpc, lint and x inspect; all pairs of paths that name the same place from the working directory; all trees, configurations and worlds", "why_tests_cant": "there are infinitely many spellings of one path, and whether two of them lead to the same output depends on every use of the path on the way", "anchors": ["internal/exec/runner.go:getMeta", "internal/exec/runner.go:printFailuresForErrorFormat", "internal/exec/runner.go:formatFile", "internal/file/proto_set_provider.go:GetForDir", "internal/file/file.go:AbsClean"]}
{"id": "C111", "title": "Files that do not matter make no difference", "statement": "Commands that look for files do the same, with the same output and status, whatever is in files that are neither protobuf files, nor configuration files, nor named as license header by a configuration or by --config-data (nor the stored descriptor set that break check is given), and whether such files are there, as long as protoc does not look at them either; and every file that such a command does not write is left as it was.", "quantifier": "all command lines of all, break check with a stored set, break descriptor-set, cache update, compile, descriptor-set, files, format, generate, grpc, lint and x inspect; all worlds; all pairs of disks that agree on the files that matter, and all pairs of trees that are the same without their other files", "why_tests_cant": "that nothing else is ever read cannot be seen from runs on some directories: it is a statement about every file that could be there, with every content", "anchors": ["internal/settings/config_provider.go:get", "internal/settings/config_provider.go:externalConfigToConfig", "internal/file/proto_set_provider.go:walkAndGetAllProtoFiles", "internal/exec/runner.go:formatFile", "internal/lint/runner.go", "internal/exec/runner.go:getPackageSetForDescriptorSetPath"]}
{"id": "C112", "title": "--config-data stands in for the configuration files", "statement": "A command that looks for files and is given a configuration with --config-data does exactly what it does without that flag if the same text is in a prototool.json in the working directory, no other configuration is there or below it, and what it is to look at is in that directory; and a command that is given a configuration with no license header file in it does not look at configuration files: whatever is in them, and whether they can be read, makes no difference.", "quantifier": "all command lines of all, break check with a stored set, break descriptor-set, cache update, compile, descriptor-set, files, format, generate, grpc, lint and x inspect; all configuration texts, valid or not; all worlds, trees and disks", "why_tests_cant": "two ways into the same code, one that walks up from every directory and one that does not, must agree for every configuration text, every tree and every path asked for", "anchors": ["internal/settings/config_provider.go:GetForDir", "internal/settings/config_provider.go:GetForData", "internal/file/proto_set_provider.go:getMultipleForDir", "internal/file/proto_set_provider.go:getBaseProtoSets", "internal/file/proto_set_provider.go:walkAndGetAllProtoFiles", "internal/exec/runner.go"]}
{"id": "C113", "title": "What is in an excluded directory makes no difference", "statement": "Commands that look for files do the same, with the same output and status, whatever files there are in a directory that the configuration, or --config-data, excludes, and whatever is in them, as long as no settings come from there and protoc does not look there; every file that such a command does not write is left as it was. Configuration files in an excluded directory, however, are still read.", "quantifier": "all command lines of all, break check with a stored set, break descriptor-set, cache update, compile, descriptor-set, files, format, generate, grpc, lint and x inspect; all worlds; all excluded directories at any depth below the configuration; all pairs of trees and disks that only differ there", "why_tests_cant": "that nothing below an excluded directory is ever listed or read is a statement about every file that could be there, at every depth, for every command", "anchors": ["internal/file/proto_set_provider.go:walkAndGetAllProtoFiles", "internal/file/file.go:IsExcluded", "internal/settings/config_provider.go:GetExcludePrefixesForDir", "internal/settings/config_provider.go:GetExcludePrefixesForData", "internal/exec/runner.go"]}
{"id": "C114", "title": "Naming a file only narrows what is reported", "statement": "A command that is given a file does what it does when it is given the directory of that file: it generates and writes the same, leaves the same files and ends with the same status. The only difference is that, when failures are listed, the ones that are not about the file are left out. In particular lint of a file that prints nothing can still end with 255, when there are failures about other files. (format and all, which format only the file, are not meant.)", "quantifier": "all command lines of break check with a stored set, break descriptor-set, cache update, compile, descriptor-set, files, generate, grpc, lint and x inspect; all files and flags; all worlds and disks", "why_tests_cant": "whether a single file and its directory are treated alike depends on every later use of the name of the file, for all command lines, compiler outputs and lint results", "anchors": ["internal/exec/runner.go:getMeta", "internal/exec/runner.go:printFailures", "internal/exec/runner.go:doCompile", "internal/exec/runner.go:Lint"]}
{"id": "C115", "title": "format and all that are killed, for the whole program", "statement": "Whatever the status with which format or all ends, and at whatever moment the program is killed, each file is as it was, or holds the formatted text of what it held before, with the options and the header of its configuration if --fix is given, but for at most one, which may hold only the beginning of that text. Files change only if the command line asks for that, and if a file is given, only that file can change. A file is not replaced at once, so that the one that is being written can be lost.", "quantifier": "all command lines of format and all; all worlds, disks and outcomes; all moments at which the program is killed", "why_tests_cant": "the moments at which a program can be killed, and the combinations of files of which some are fine and some are not, cannot be enumerated", "anchors": ["internal/exec/runner.go:Format", "internal/exec/runner.go:All", "internal/exec/runner.go:formatFile", "internal/format/transformer.go:Transform"]}
{"id": "C116", "title": "What a lint rule reports does not depend on the other rules", "statement": "A rule that is selected reports the same findings, in the same order, whatever other rules are selected, by the group, the default rules, or the rules added and removed. In particular, if fewer rules are selected, lint reports exactly what it reported before for the rules that are left, and does not fail.", "quantifier": "all files, configurations and pairs of selections of rules; all orders in which Go ranges over maps", "why_tests_cant": "there are more selections of rules than can be tried, and for each of them all files; rules share the walk over the file, the list of findings and the sorting", "anchors": ["internal/lint/lint.go:GetLinters", "internal/lint/lint.go:CheckMultiple", "internal/lint/base_linter.go:Check", "internal/lint/runner.go:Run"]}
{"id": "C117", "title": "What lint finds in a directory does not depend on other directories", "statement": "Two lint runs with the same configuration that both lint a directory with the same files in it find the same in these files, in the same order, whatever other directories there are. For the rules that do not compare the files of a directory, the findings in a file depend on the contents of that file only.", "quantifier": "all pairs of sets of files and contents that agree on the directory, or the file; all configurations, names and map orders", "why_tests_cant": "it speaks about all files that could be linted together with a given one; rules share the list of findings, the sorting and the state of their visitors", "anchors": ["internal/lint/lint.go:CheckMultiple", "internal/lint/lint.go:GetDirPathToDescriptors", "internal/lint/base_linter.go:Check", "internal/lint/runner.go:Run"]}
{"id": "C118", "title": "A break check looks at one package at a time", "statement": "What a break check finds is what there is to report for each package compared with the package of the same name, whatever other packages there are. If the packages fall into parts that do not depend on each other, checking the parts separately finds the same as checking all; parts that have not changed add nothing.", "quantifier": "all pairs of sets of packages and all break configurations; all ways to divide them", "why_tests_cant": "it relates the checks of arbitrary sets of packages to those of all their parts", "anchors": ["internal/breaking/runner.go:Run", "internal/breaking/helpers.go", "internal/extract/extract.go:NewPackageSet"]}
{"id": "C119", "title": "create that is killed, for the whole program", "statement": "Whatever the status with which create ends, and at whatever moment the program is killed: the files are made in the order in which they are given, from the first one on; each is complete, with the header, package and options of its configuration, but for at most one, which may hold only the beginning of its text; nothing else is touched. If one of the files already holds something, or cannot be made, none is. A file of which only the beginning was made is in the way of the next run.", "quantifier": "all command lines of create that name no file twice; all worlds, disks and outcomes; all moments at which the program is killed", "why_tests_cant": "the moments at which a program can be killed, and the lists of files of which some can be made and some cannot, cannot be enumerated", "anchors": ["internal/create/handler.go:Create", "internal/create/handler.go:checkFilePath", "internal/create/handler.go:create", "internal/exec/runner.go:Create"]}
{"id": "C120", "title": "A break check finds nothing exactly if the new version extends the old one", "statement": "A break check finds nothing exactly if every package of the old version that is looked at is still there, and every message, field, oneof, enum, enum value, service and method in it, at any depth, is still there with the same name, label, type, membership in a oneof and signature; and, where that is checked, no package depends on a beta package.", "quantifier": "all pairs of sets of packages as protoc makes them, all break configurations", "why_tests_cant": "both directions speak of all sets of packages, nested to any depth", "anchors": ["internal/breaking/runner.go:Run", "internal/breaking/breaking.go", "internal/breaking/helpers.go"]}
{"id": "C121", "title": "Commands that write one file, killed, for the whole program", "statement": "Whatever the status with which config init, descriptor-set or break descriptor-set ends, and at whatever moment the program is killed: only the file that the command line names (or the temporary file that was asked for) can differ from what it was, and it then holds a beginning of what was to be written to it. config init touches no file that exists. A baseline that was cut short this way is not told from a complete one by a later break check.", "quantifier": "all command lines of the three commands; all worlds, disks and outcomes; all moments at which the program is killed", "why_tests_cant": "the moments at which a program can be killed, the command lines and the failures of the disk cannot be enumerated", "anchors": ["internal/exec/runner.go:Init", "internal/exec/runner.go:DescriptorSet", "internal/exec/runner.go:BreakDescriptorSet", "internal/exec/runner.go:getPackageSetForDescriptorSetPath"]}
{"id": "C122", "title": "A set that was not stored completely is made good by storing it again", "statement": "If descriptor-set with an output path or break descriptor-set is killed, at whatever moment and however it would have ended, running the same command again ends with the same status, does the same, and leaves every file as it would be if the command had not been killed; this holds even though the unfinished file may now be in the tree, provided that it is not a protobuf file, a configuration or a license header. It does not hold for config init, which refuses to go on where its own unfinished file is.", "quantifier": "all command lines of the two commands with an output path that does not matter otherwise; all worlds, disks and outcomes; all moments at which the program is killed; all trees that only differ in files that do not matter", "why_tests_cant": "the moments at which a program can be killed, the trees and the outcomes of protoc and of the disk cannot be enumerated", "anchors": ["internal/exec/runner.go:DescriptorSet", "internal/exec/runner.go:BreakDescriptorSet", "internal/exec/runner.go:Init", "internal/file/proto_set_provider.go"]}
{"id": "C123", "title": "Releases can be checked one after the other, for the whole program", "statement": "If break check against the stored set of the first version ends with 0 for the second version, and break check against the stored set of the second version ends with 0 for the third one, then break check against the stored set of the first version ends with 0 for the third version and says nothing.", "quantifier": "all command lines of break check with a stored set and the same options; all disks and trees; all versions as protoc makes them; all break configurations that are the same for both checks", "why_tests_cant": "it speaks of all triples of versions and of how each of them is spread over files, sets and directories", "anchors": ["internal/exec/runner.go:BreakCheck", "internal/exec/runner.go:getPackageSetForDescriptorSetPath", "internal/breaking/runner.go:Run", "internal/reflect/reflect.go:NewPackageSet"]}
{"id": "C124", "title": "A branch and a stored set of the same files are the same baseline", "statement": "If the stored descriptor set and the branch hold the same files, break check against the one and against the other print the same, in the same order, and end with the same status; the check against the branch makes a clone and removes it again, and neither changes anything else.", "quantifier": "all command lines of break check with the same options; all trees and disks; all versions as protoc makes them; however the branch spreads them over directories; all break configurations", "why_tests_cant": "it speaks of all pairs of versions and of all ways in which the files of a version can be split into descriptor sets", "anchors": ["internal/exec/runner.go:BreakCheck", "internal/exec/runner.go:getPackageSetForDescriptorSetPath", "internal/git/git.go:TemporaryClone"]}
