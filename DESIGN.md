# Formal model of uber/prototool in Coq 8.16.1

## Layout

`rocq/theories/` holds, per area of the code base:

* `*_Model.v`: executable Gallina definitions, each citing the Go file and
  lines it models. No proofs.
* `*_Spec.v`: small independent specifications used in theorem statements.
* `*_Proofs.v` and other files: lemmas.
* `Props_*.v`: the property theorems. Each is followed by `Print Assumptions`
  and by examples (`*_ex*`) that show concrete, non-trivial cases meeting its
  hypotheses.

`GoStr`, `GoPath`, `GoMap`, `GoSlice`, `GoRegexp`, `GoFmt` model the parts of
the Go standard library that the code uses: strings, filepath on Unix, maps,
slices with capacity and backing array, the fragment of regexp in use, `%q`.

`properties.jsonl` lists the properties, `MANIFEST.json` says which theorems
prove each, `seeded/LOG.jsonl` records the wrong programs that the theorems
were tested against.

## Modelling conventions

* Go `string` is Coq `string`, a byte string. Case functions act on ASCII
  letters and leave other bytes alone; Go's Unicode case mapping of non-ASCII
  input is not modelled (Protobuf identifiers are ASCII), except for the
  Latin-1 reading of single bytes that one lint rule makes.
* `error` returns are values (`result`), nil pointers are `None`, panics are an
  explicit outcome where a property is about them.
* Go maps are association lists. Where a map is ranged over, the model takes an
  order, a function that permutes the list, and theorems hold for all orders.
* Goroutines, timers, processes and crashes are state machines over explicit
  steps; theorems hold for all schedules and crash points.
* External programs and libraries (protoc, git, the file system, the
  emicklei/proto parser, protobuf marshalling, sha256, grpcurl, the YAML and JSON
  decoders) are arguments of the model, or inputs; they are never axioms. Where a
  property needs something of them, the theorem says so in a hypothesis.
* A statement of `properties.jsonl` that is false of the code is refuted by a
  theorem named `..._refuted` (a concrete counterexample, which says something
  false of the code exists) and proved in a weaker form named `..._partial`.

## Properties

What is modelled for each property, where it is stated, and how it is proved.

| ID | title | model | proof | stated in | status |
| --- | --- | --- | --- | --- | --- |
| C01 | break check: reflexive | Breaking_Model, Extract_Model: package sets, pair iterators, all checkers, Run | induction over nested messages; each checker exact; composition | Props_Breaking.v | proved |
| C02 | break check: transitive | Breaking_Model, Extract_Model: package sets, pair iterators, all checkers, Run | induction over nested messages; each checker exact; composition | Props_Breaking.v | proved |
| C03 | break check: additions are never breaking | Breaking_Model, Extract_Model: package sets, pair iterators, all checkers, Run | induction over nested messages; each checker exact; composition | Props_Breaking.v | proved |
| C04 | break check: deletions are reported | Breaking_Model, Extract_Model: package sets, pair iterators, all checkers, Run | induction over nested messages; each checker exact; composition | Props_Breaking.v | proved |
| C05 | break check: changed fields and methods are reported | Breaking_Model, Extract_Model: package sets, pair iterators, all checkers, Run | induction over nested messages; each checker exact; composition | Props_Breaking.v | proved |
| C06 | break check: beta packages are ignored by default | Breaking_Model, Extract_Model: package sets, pair iterators, all checkers, Run | induction over nested messages; each checker exact; composition | Props_Breaking.v | proved |
| C07 | break check: enum aliases | Breaking_Model, Extract_Model: package sets, pair iterators, all checkers, Run | induction over nested messages; each checker exact; composition | Props_Breaking.v | partial |
| C08 | package graph: dependencies and importers are inverse | Extract_Model, Reflect_Model: linking of packages and conversion of descriptors | invariants of the loops over files and imports | Props_Breaking.v | proved |
| C09 | package extraction groups per package, not per file | Extract_Model, Reflect_Model: linking of packages and conversion of descriptors | invariants of the loops over files and imports | Props_Reflect.v, Props_ReflectText.v | proved |
| C10 | descriptor set merge | Desc_Model: merge and sort | induction over the sets; uniqueness of sorted lists | Props_DescText.v, Props_Reflect.v | proved |
| C11 | descriptor set sort | Desc_Model: merge and sort | induction over the sets; uniqueness of sorted lists | Props_DescText.v, Props_Reflect.v | proved |
| C12 | lint: linter selection | Lint_Model: selection, runner, ignores, sorting of failures | list and path lemmas for all map orders | Props_Lint.v | proved |
| C13 | lint: ignores are exact | Lint_Model: selection, runner, ignores, sorting of failures | list and path lemmas for all map orders | Props_Lint.v | partial |
| C14 | lint: suppression annotations | Proto_AST, Lint_Rules: visitors and every linter | one induction over the walk of the visitors (Lint_Walk), then each rule against its specification | Props_Lint.v | proved |
| C15 | lint: result independent of map order | Lint_Model: selection, runner, ignores, sorting of failures | list and path lemmas for all map orders | Props_Lint.v | proved |
| C16 | lint: naming rules are complete and sound | Proto_AST, Lint_Rules: visitors and every linter | one induction over the walk of the visitors (Lint_Walk), then each rule against its specification | Props_Lint.v | partial |
| C17 | lint: comment rules are complete and sound | Proto_AST, Lint_Rules: visitors and every linter | one induction over the walk of the visitors (Lint_Walk), then each rule against its specification | Props_Lint.v | partial |
| C18 | lint: file option rules | Proto_AST, Lint_Rules: visitors and every linter | one induction over the walk of the visitors (Lint_Walk), then each rule against its specification | Props_Lint.v | proved |
| C19 | lint: directory-wide rules | Proto_AST, Lint_Rules: visitors and every linter | one induction over the walk of the visitors (Lint_Walk), then each rule against its specification | Props_Lint.v | partial |
| C20 | lint: request/response type rules | Proto_AST, Lint_Rules: visitors and every linter | one induction over the walk of the visitors (Lint_Walk), then each rule against its specification | Props_Lint.v | partial |
| C21 | lint never crashes on parsed files | Proto_AST, Lint_Rules: visitors and every linter | one induction over the walk of the visitors (Lint_Walk), then each rule against its specification | Props_Lint.v | partial |
| C22 | lint only looks at the requested directory | Lint_Model: files of a directory | path prefixes | Props_Lint.v | partial |
| C23 | format: output shape | Format_Model: printer, both visitors, fixes | induction over the syntax tree; a lexer relates text and tokens; lint theorems reused for C25 | Props_Format.v | proved |
| C24 | format: nothing is lost | Format_Model: printer, both visitors, fixes | induction over the syntax tree; a lexer relates text and tokens; lint theorems reused for C25 | Props_Format.v, Props_Main17.v | partial |
| C25 | format --fix: options match the linter | Format_Model: printer, both visitors, fixes | induction over the syntax tree; a lexer relates text and tokens; lint theorems reused for C25 | Props_Format.v | partial |
| C26 | format --fix: unrelated options kept | Format_Model: printer, both visitors, fixes | induction over the syntax tree; a lexer relates text and tokens; lint theorems reused for C25 | Props_Format.v | partial |
| C27 | format modes | Exec_Model: commands over an event log and a file system | case analysis and induction over files; prefixes of the event log for crashes | Props_Exec.v | proved |
| C28 | create: never overwrites content | Create_Model over a file system | induction over arguments; path algebra; all map orders | Props_Create.v | proved |
| C29 | create: package from path | Create_Model over a file system | induction over arguments; path algebra; all map orders | Props_Create.v | partial |
| C30 | create output passes lint and format | Create_Model, Format_Model, Lint_Rules | templates against the formatter, the lexer and the lint specifications | Props_CreateOut.v | partial |
| C31 | package-derived option values | Strs_Model (strs, protostrs) | induction over strings | Props_Strs.v | partial |
| C32 | version parsing | Strs_Model (strs, protostrs) | induction over strings | Props_Strs.v | proved |
| C33 | case conversion agrees with case checks | Strs_Model (strs, protostrs) | induction over strings | Props_Strs.v | partial |
| C34 | sort/uniq helpers | Strs_Model (strs, protostrs) | induction over strings | Props_Strs.v | proved |
| C35 | failure ordering | Text_Model | correctness of sorting; parsing of the printed line | Props_Text.v | proved |
| C36 | failure printing | Text_Model | correctness of sorting; parsing of the printed line | Props_Text.v | proved |
| C37 | config discovery | Settings_Model | induction over path depth; each check against its meaning | Props_Settings.v | proved |
| C38 | config validation | Settings_Model | induction over path depth; each check against its meaning | Props_Settings.v | partial |
| C39 | exclude paths | Settings_Model | induction over path depth; each check against its meaning | Props_File.v | partial |
| C40 | file header | Settings_Model | induction over path depth; each check against its meaning | Props_Settings.v | partial |
| C41 | file discovery | File_Model over a directory tree | induction over trees | Props_File.v | partial |
| C42 | one config per invocation | File_Model over a directory tree | induction over trees | Props_File.v | proved |
| C43 | display paths | File_Model over a directory tree | induction over trees | Props_File.v | proved |
| C44 | walk timeout never truncates | Walk_Model: walk and timer as steps | invariant over all schedules | Props_File.v | proved |
| C45 | protoc commands: one per directory and plugin | Protoc_Model: commands, output lines, regular expressions, temporary files | permutations over map orders; matching proved against a declarative regexp semantics | Props_Protoc.v | partial |
| C46 | protoc commands: includes | Protoc_Model: commands, output lines, regular expressions, temporary files | permutations over map orders; matching proved against a declarative regexp semantics | Props_Protoc.v | partial |
| C47 | go plugins: import modifiers | Protoc_Model: commands, output lines, regular expressions, temporary files | permutations over map orders; matching proved against a declarative regexp semantics | Props_Protoc.v | proved |
| C48 | protoc output is never swallowed | Protoc_Model: commands, output lines, regular expressions, temporary files | permutations over map orders; matching proved against a declarative regexp semantics | Props_Protoc.v | partial |
| C49 | compile result independent of scheduling | Pool_Model: workers as steps | invariant over all interleavings | Props_Protoc.v | proved |
| C50 | temporary files are removed | Protoc_Model: commands, output lines, regular expressions, temporary files | permutations over map orders; matching proved against a declarative regexp semantics | Props_Protoc.v | proved |
| C51 | download cache: crash safety | Download_Model, Cache_Model: files, lock, crash steps | invariant over histories with crashes | Props_Download.v | partial |
| C52 | download cache: mutual exclusion | Download_Model, Cache_Model: files, lock, crash steps | invariant over histories with crashes | Props_Download.v | partial |
| C53 | cache delete spares custom caches | Download_Model, Cache_Model: files, lock, crash steps | invariant over histories with crashes | Props_Download.v, Props_DownloadText2.v | partial |
| C54 | exit status for a single file | Exec_Model: commands over an event log and a file system | case analysis and induction over files; prefixes of the event log for crashes | Props_Exec.v | partial |
| C55 | generated ignores silence lint | LintCmd_Model | lint theorems reused over the commands | Props_LintCmd.v | proved |
| C56 | lint group diff | LintCmd_Model | lint theorems reused over the commands | Props_LintCmd.v | proved |
| C57 | grpc flag validation | Grpc_Model | case analysis; induction over descriptor sets and messages | Props_Grpc.v, Props_GrpcText.v | proved |
| C58 | grpc method resolution | Grpc_Model | case analysis; induction over descriptor sets and messages | Props_Grpc.v, Props_GrpcText.v | partial |
| C59 | files command | Exec_Model: commands over an event log and a file system | case analysis and induction over files; prefixes of the event log for crashes | Props_Exec.v, Props_Files.v | partial |
| C60 | element lint rules are exact | Proto_AST, Lint_Rules: visitors and every linter | one induction over the walk of the visitors (Lint_Walk), then each rule against its specification | Props_Lint.v | partial |
| C61 | file head lint rules are exact | Proto_AST, Lint_Rules: visitors and every linter | one induction over the walk of the visitors (Lint_Walk), then each rule against its specification | Props_Lint.v | proved |
| C62 | output directories exist before protoc runs | Protoc_Model: commands, output lines, regular expressions, temporary files | permutations over map orders; matching proved against a declarative regexp semantics | Props_Protoc.v | proved |
| C63 | where protoc is cached | Download_Model, Cache_Model: files, lock, crash steps | invariant over histories with crashes | Props_Download.v, Props_DownloadText2.v | partial |
| C64 | what is downloaded | Download_Model, Cache_Model: files, lock, crash steps | invariant over histories with crashes | Props_Download.v, Props_DownloadText.v, Props_DownloadText2.v | partial |
| C65 | local protoc options | Download_Model, Cache_Model: files, lock, crash steps | invariant over histories with crashes | Props_Download.v, Props_DownloadText.v | proved |
| C66 | archive files stay in the cache | Download_Model, Cache_Model: files, lock, crash steps | invariant over histories with crashes | Props_Download.v | partial |
| C67 | all stops at the first failing step | Exec_Model: commands over an event log and a file system | case analysis and induction over files; prefixes of the event log for crashes | Props_Exec.v | proved |
| C68 | interrupted format | Exec_Model: commands over an event log and a file system | case analysis and induction over files; prefixes of the event log for crashes | Props_Exec.v | proved |
| C69 | dry run | Exec_Model: commands over an event log and a file system | case analysis and induction over files; prefixes of the event log for crashes | Props_Exec.v | proved |
| C70 | lint listings name exactly the rules in force | LintCmd_Model | lint theorems reused over the commands | Props_LintCmd.v | proved |
| C71 | descriptor-set delivers every file once, in the place asked for, or nothing | PackageCmd_Model | descriptor and break theorems reused over the commands | Props_PackageCmd.v | proved |
| C72 | A stored break descriptor set stands for the tree it was made from | PackageCmd_Model | descriptor and break theorems reused over the commands | Props_PackageCmd.v | partial |
| C73 | inspect lists exactly the packages, dependencies and importers | PackageCmd_Model | descriptor and break theorems reused over the commands | Props_PackageCmd.v | proved |
| C74 | break check compares with exactly the baseline asked for and leaves nothing behind | PackageCmd_Model | descriptor and break theorems reused over the commands | Props_PackageCmd.v | partial |
| C75 | grpc prints what the server sends | Grpc_Model | case analysis; induction over descriptor sets and messages | Props_Grpc.v | partial |
| C76 | The exit status says what happened | Cmd_Model: flags, cobra and pflag parsing, exit status | induction over the command line against a table of commands and flags by name | Props_Cmd.v | partial |
| C77 | Flags and arguments mean the same in every order and spelling | Cmd_Model: flags, cobra and pflag parsing, exit status | induction over the command line against a table of commands and flags by name | Props_Cmd.v, Props_Cmd2.v, Props_CmdText.v | partial |
| C78 | The environment stands for three flags and for nothing else | Cmd_Model: flags, cobra and pflag parsing, exit status | induction over the command line against a table of commands and flags by name | Props_Cmd.v | proved |
| C79 | config init never overwrites and writes a file that means what it says | Init_Model: the templates as pieces, init as a command | line-wise reading of the templates around the version; case analysis | Props_Init.v | partial |
| C80 | Diffs name the file, keep the rest and leave no temporary file | Diff_Model | induction over strings; case analysis over failure points | Props_Diff.v | proved |
| C81 | Only the commands that say so change anything | Main_Model: the methods of the runner put behind the command line, with the operating system, protoc, git, servers and libraries as a record `world`. | Each command is shown to emit only allowed events (`does`), structurally; the words are related to flags and arguments by induction over the parser of the command line. | Props_Main.v | proved |
| C82 | Nothing is remembered between runs | Main_Model, the same. | Every command is shown to read the state only through the files and to append to what was done (`framed`); histories by induction. | Props_Main.v | proved |
| C83 | The cache is what the commands use | Main_Model, Download_Model | Both commands are computed up to the downloader; the downloader and the compiler are shown to use the same directory for the same options. | Props_Main2.v | partial |
| C84 | all is format, generate and lint in turn | Main_Model, the same. | The files of a directory and the configuration are shown not to depend on the contents of .proto files; then the steps are composed by case analysis on how each ends. | Props_Main3.v | proved |
| C85 | files lists what the other commands work on | Main_Model, File_Model: the walk and the display paths. | The walk meets no path twice, so the names are those of the files found; a format that ends with 0 is shown to have found every file fine, a lint to have parsed it. | Props_Main4.v | proved |
| C86 | The modes of format agree | Main_Model, Exec_Model: the whole program down to each file. | That nothing was written or complained about means, by induction over the files, that each is its own formatting; from this every mode is computed. | Props_Main5.v | proved |
| C87 | After format --overwrite there is nothing left to format | Main_Model, Format_Model: the whole program; the parser is an input. | Formatting what was printed gives the same text and no failures (Format_Same2); the files found and the configuration do not depend on the contents of .proto files; induction over the files. | Props_Main17.v, Props_Main6.v | partial |
| C88 | What compile rejects is not worked on | Main_Model, Exec_Model: the whole program. | Each of the commands is the command compile followed by more; case analysis on how compile ends. | Props_Main7.v | proved |
| C89 | lint ends with 0 exactly if the listed files obey the selected rules | Main_Model, Lint_Model, LintRun_Model, Settings_Model, File_Model: the whole program; Main_Spec2 says which configuration is in force, what it is to break a rule and to be silenced. | The configuration of the set found is shown to be the one in force; the theorems about the single rules are collected into one table, and those about ignores and groups select from it. | Props_Main8.v | proved |
| C90 | What format --overwrite leaves in the listed files | Main_Model, Format_Model, Settings_Model: the whole program. | The configuration found is the one in force (as in C89); a format that ends with 0 has formatted every listed file; then the theorems about single files (C23, C24) apply. | Props_Main9.v | proved |
| C91 | compile and generate run protoc on every listed file and end as it answers | Main_Model, Protoc_Model, Download_Model, Settings_Model, File_Model: the whole program; Main_Spec3 says which protoc is meant, what a command is to look like and what its answers are. | The commands that a dry run prints are those that the compiler makes (commands_metas); their shape comes from the theorems about single directories (metas_commands), the path of protoc from those about the cache, and the result of the runs, in any order, from run_result. | Props_Main10.v | proved |
| C92 | create, for the whole program: one file in the way and none is written, else each file holds what the configuration wants | Main_Model: create_cmd on top of Create_Model, CreateOut_Model and the configuration provider | the command line is reduced to create_cmd by line_is; create_blocked and create_made (Main_Proofs14) lift the theorems of C23/C71 on the handler over the loop on file names and the disk | Props_Main11.v, Props_Refuse.v | proved |
| C93 | version, for the whole program | Main_Model: version_cmd | reduced to version_cmd by line_is; the table and the JSON fields are then read off for every platform | Props_Main11.v | proved |
| C94 | cache delete, for the whole program: exactly the cache directory is removed | Main_Model: cache_delete_cmd, Download_Model: deleted_path | reduced to cache_delete_cmd by line_is; deleted_ok (Download_Proofs) gives the directory | Props_Main11.v | proved |
| C95 | descriptor-set and break descriptor-set, for the whole program | Main_Model: method on top of PackageCmd_Model, Protoc_Model and the configuration provider | files_see (Main_Proofs16) ties the run of files to the discovery of the command; sees_sets and sees_rejected read off the commands and the sets of protoc; descriptor_set_inv (PackageCmd_Proofs5) gives the rest | Props_Main12.v | proved |
| C96 | inspect, for the whole program | Main_Model: method on top of PackageCmd_Model, Reflect_Model and Extract_Model | as C95, with packages_then (PackageCmd_Proofs6) and the theorems of C73 | Props_Main12.v | proved |
| C97 | break check, for the whole program | Main_Model: method on top of PackageCmd_Model, Breaking_Model, Reflect_Model | as C95, with break_check_stored_inv, break_check_git_inv and same_set (PackageCmd_Proofs6) and the theorems of C74; the round trip is C95_set followed by C97_stored | Props_Main12.v, Props_Main21.v | proved |
| C98 | grpc, for the whole program | Main_Model: method on top of Grpc_Model, Extract_Model and Protoc_Model | files_see (Main_Proofs16) as for C95; grpc_run (Grpc_Proofs3) and grpc_exit (Grpc_Proofs4) give the cases, process_ends what main adds | Props_Main13.v | proved |
| C99 | The listings of lint, for the whole program | Main_Model: method on top of LintCmd_Model | lint_line reads off the call; the theorems of C56 and C70 give what it does; files_see (Main_Proofs16) ties the configuration to the listed files | Props_Main14.v | proved |
| C100 | cache update and config init, for the whole program | Main_Model: cache_update, method on top of Init_Model and Download_Model | made_ok and base_path_ok (Download_Proofs) for the place; init_run inverts init; init_in_force computes the configuration in force after it, C99_listings lists its rules | Props_Main15.v | proved |
| C101 | what lint --generate-ignores prints silences lint, for the whole program | Main_Model: method, provider on top of LintCmd_Model and Settings_Model | found_like (Main_Proofs17): two disks that differ in the ignores of one configuration file give the same set but for the ignores; run_lint_disk; ignores_silence (C55) | Props_Main16.v | proved |
| C102 | What protoc says is told | Protoc_Model: the regular expressions and parse_line; GoRegexp: leftmost, greedy matching. | For each kind, what the parts of the line between its colons would have to be for another expression to match; the groups of a match are unique. | Props_Protoc2.v | proved |
| C103 | What lint says of a finding | Lint_Rules: the checks with their texts; Lint_Model: finish (the hint). | By the shape of the check (elements, files, directories, maps), then rule by rule; replacing, listings and scopes by induction. | Props_LintText.v | proved |
| C104 | A configuration or directory that cannot be used is named, with its first fault | Settings_Model: external_config_to_config, get_for_dir, get_for_data; File_Model: provider_get_for_dir; Exec_Model: get_meta; Main_Model | Settings_Text_Spec lists the faults and their texts in the order in which they are looked at, independently of the model; by cases on each stage an error implies the text of the first stage at fault, then by induction over the walk and the loop over directories for the provider, and through main for each command. | Props_SettingsText.v | proved |
| C105 | Command lines that contradict themselves are refused with the reason | Exec_Model, PackageCmd_Model, Grpc_Model (check_flags), Cmd_Model, Main_Model | Refuse_Spec lists the refused combinations with their texts; each is followed through the command line (C75) to the first test of the command. | Props_Refuse.v | proved |
| C106 | The listings describe every lint rule as documented | Lint_Purpose (the purposes of all linters, Purpose), LintCmd_Model, Main_Model | Lint_Doc2 is the description column of docs/lint.md; a boolean comparison of the two tables, evaluated by the kernel and lifted to every configuration and map order. | Props_Purpose.v | proved |
| C107 | What --json prints is JSON that reads as what was found | Json_Model (strings, numbers, flat objects of encoding/json), Text_Model, Main_Model | Json_Spec is a reader of JSON objects after RFC 8259 and an encoder after RFC 3629. Induction over the text, a character at a time; the decoder of UTF-8 is shown to accept exactly the encoded characters. | Props_Json.v | proved |
| C108 | What names something unknown is told by that name | Lint_Model: get_linters; Text_Model: parse_colon_separated_failure_fields; Exec_Model: print_failures_for, compile; Format_Model: transform; LintCmd_Model; Main_Model | Induction over the names in the order in which they are looked at; for whole lines, the call that the line asks for compiles first (compiles_first of C88) and printing stops it. | Props_Main18.v, Props_MoreText.v | proved |
| C109 | Chance decides nothing | Main_Model with File_Model, Protoc_Model, Exec_Model, LintCmd_Model, Create_Model | other_chance (Chance_Spec) is the same world with another order, schedule and growth. A relation between two runs (ends_same) that is kept by each step; sorting is unique for permutations; formatting two files commutes; the longest of several prefixes of the same length is one. | Props_Main19.v | proved |
| C110 | How a path is spelled makes no difference | Main_Model with File_Model, Exec_Model: get_meta, should_print, format_file | Place_Proofs: filepath.Abs of a path is the path of the place it names (induction over the parts), filepath.Dir is its parent; the provider sees only the place, and the path of a single file is only compared after filepath.Abs, so that two runs are equal step by step. | Props_Main20.v | proved |
| C111 | Files that do not matter make no difference | Main_Model with all commands it calls | matters (Local_Spec) is written in terms of names of files and of what decoders return. A simulation (Local_Proofs2.twin): two runs have done the same, agree on what matters, and each file is the same in both or as it was; commands that do not look at files (blind) keep it, as do reads of files that matter and all writes. The provider is shown to look only at what matters by induction over parent directories (Local_Proofs). | Props_Main22.v | proved |
| C112 | --config-data stands in for the configuration files | Main_Model with all commands it calls | Data_Proofs.provider_given: both ways walk the same root with the same excludes (a walk under given excludes, by induction over the tree), every directory below finds the same configuration (governs_iff), so that the files fall into one group with the same settings. C112_instead: Local_Proofs.provider_get_given and the simulation of C111. | Props_Main23.v | proved |
| C113 | What is in an excluded directory makes no difference | Main_Model with all commands it calls | The trees are compared without what is in the excluded directory (Exclude_Spec.hollow). Exclude_Proofs.walk_hollow: the walk from the root is the same on both, by induction over the names on the way, with the invariant that what is excluded stays so; walk_outside: no file found is in the directory. The commands follow by the simulation of C111 with the files outside the directory as those that matter. | Props_Main24.v | proved |
| C114 | Naming a file only narrows what is reported | Main_Model with all commands it calls | A relation between two runs (Narrow_Proofs.less_than), kept by sequencing: both are the same, or both ended with status 255 after listing failures, one all of them and one those about the file (Narrow_Spec.narrower). After failures are listed every command ends, so nothing else can differ. | Props_Main25.v | proved |
| C115 | format and all that are killed, for the whole program | Main_Model, Exec_Model (format_cmd, all_cmd), Format_Model | Crash_Proofs: each file is written at most once, and with what the formatter makes of its first contents (C27_writes), in format and, since compiling, generating and linting write no file (quiet), in all. killed (Exec_Spec) says what a prefix of these writes leaves. What the formatter returns is described by the tokens of the text (C24_tokens, C25_written). | Props_Main26.v | proved |
| C116 | What a lint rule reports does not depend on the other rules | Lint_Model.lint_run, all rules of Lint_Rules | Select_Proofs.all_steady: each rule in the table gives the same results on files that only differ in the selection of their settings; concatM_sub: leaving out rules leaves out exactly the findings with their names; then the permutation of rules and directories is removed by sorting (sort_failures_char). | Props_Select.v | proved |
| C117 | What lint finds in a directory does not depend on other directories | Lint_Model.lint_run, all rules of Lint_Rules | Separate_Proofs.dir_part: with distinct names, what is reported for a directory is what its pass over the rules gives (concatM_single, linter_check_covers); the rules are steady (C116). C117_file: file rules give the findings of the files one by one (linter_check_split). | Props_Separate.v | proved |
| C118 | A break check looks at one package at a time | Breaking_Model.run_break | From the exact list of findings (C05_complete_list) and an induction-free case analysis of what can be deleted or changed: each case names one package (Parts_Proofs.deleted_within, changed_within), and sets with different names have no case in common (deleted_both, changed_both). | Props_Parts.v | proved |
| C119 | create that is killed, for the whole program | Main_Model.create_cmd, Create_Model | Crash_Proofs2: induction over the files gives the writes, a first part of the files in their order, each with what create_data returns (loop_writes); data_made describes that text, as for C92; killed (Exec_Spec) says what a prefix of these writes leaves. | Props_Main27.v | proved |
| C120 | A break check finds nothing exactly if the new version extends the old one | Breaking_Model.run_break | From C04_deletions, C05_changes_reported and C06_beta_deps: with no deletion and no change, induction on messages gives the extension relation of C03 (message_kept); the converse as for C03, restricted to the packages that are looked at (kept_quiet). | Props_Clean.v, Props_Main28.v | proved |
| C121 | Commands that write one file, killed, for the whole program | Main_Model.method, Init_Model.init, PackageCmd_Model.descriptor_set, break_descriptor_set | Each command is a sequence of steps that write nothing (quiet) and at most one that writes (one); combined over and_then, for all outcomes of all steps. killed (Exec_Spec) then gives the prefix. | Props_Main29.v | proved |
| C122 | A set that was not stored completely is made good by storing it again | Main_Model.method, PackageCmd_Model.descriptor_set, break_descriptor_set | From C111_files (files that do not matter make no difference): both runs do the same; and lands: each run writes at most one file, the one that is named, and what it then holds depends only on what is written. | Props_Main30.v | proved |
| C123 | Releases can be checked one after the other, for the whole program | Main_Model.method, PackageCmd_Model.break_check | check_run gives the run of the checkers that each command stands for; new_package_set_moves: the packages of a stored set and those of the tree that it was made from are the same; then C02_transitive. | Props_Main31.v | proved |
| C124 | A branch and a stored set of the same files are the same baseline | Main_Model.method, PackageCmd_Model.break_check | Both runs are computed; the packages of the stored set and of the clone are the same by new_package_set_moves, so that the same checkers run on the same packages (failures_alike). | Props_Main32.v | proved |

## What is missing from the partial ones

* C07: Proved when value numbers are distinct in both versions; refuted with allow_alias: only the last value of a number is compared, so renaming an earlier alias is missed and reordering aliases is reported as a rename.
* C13: Exact for every rule that looks at one file at a time. Refuted for entries that name the directory of the configuration (never match) and, for rules about directories, ignoring one file also changes what is reported for its siblings; for those rules the result is that of the rule on the remaining files.
* C16: Exact outside groups; refuted inside groups, which the visitors do not enter.
* C17: Exact outside groups; sentence rules for ASCII comments only, refuted for UTF-8 comments whose first byte is an upper case letter in Latin-1.
* C19: Exact unless an option is set to the empty string, which the code treats as not set (refuted).
* C20: Exact, with extend blocks counted as declarations; the stricter reading is refuted.
* C21: Proved for files without an option (.google.api.http) at file or service level; refuted for those.
* C22: Directories are matched by string prefix: proved in that form, refuted for sibling directories.
* C24: Token-for-token for every file the formatter keeps; the excluded shapes (comments of a lone field option, comments in an rpc body, empty aggregate options, proto3 optional, options in groups) are refuted. Stability (the same text, and still no failures) is proved for any file that has the contents of what was written, without --fix and with it (C24_fix_stable_partial); the external parser is not modelled.
* C25: uber2 in full; uber1 when java_package_prefix is empty or com. Refuted otherwise: --fix writes the configured prefix and the uber1 rule demands com.
* C26: Unmanaged options are kept exactly; managed options are kept by the uber2 fixes with a package. Refuted without a package and for uber1 (csharp/objc/php options are dropped); a header drops the comments at the top.
* C29: Exact when no configured directory has a name that is a proper beginning of the name of a directory on the way to the file; refuted otherwise (string prefixes), and the documented meaning of configuration data is refuted.
* C30: The text Create writes is proved to be read as the header and the declarations of the group, to be only given a final newline by format --fix under the same configuration, and to be reported by no rule of its lint group other than those about names the user chose and those that compare files. The parser is external (its result is a hypothesis tied to the tokens by C30_reads); a lint group other than uber2 with a java_package_prefix other than com is refuted.
* C31: Proved for all packages; the csharp/php beta form needs version numbers below 2^63, refuted beyond because the code converts uint64 to int.
* C33: Idempotence holds for lower snake case and is refuted for upper snake case (FOO_BAR becomes FO_O_BAR); everything else is proved.
* C38: Acceptance is exact and the result is characterised in full; duplicates in and order of the resolved exclude and include lists are refuted (entries are compared before they are made absolute), and so is a clean directory for the default configuration.
* C39: Hiding is exact; rejection of entries outside the directory is exact up to siblings whose name extends the name of the directory, which are accepted and do hide files (refuted).
* C40: Exact for headers that are not declared as commented; a header declared as commented is used unchecked (refuted).
* C41: Exact for trees whose configurations exclude nothing outside their own directory, and for configuration data; refuted otherwise, and refuted for file names that start with two dots.
* C45: Exact for the directories whose names begin with the name of the requested one; these are the directories below it when no sibling has a longer name with that beginning, refuted otherwise (C45_sibling_refuted).
* C46: The include paths are exact; that the files lie below one is proved when no include path is the beginning of the name of a sibling, refuted otherwise.
* C48: Every line is reported or silent as documented, and a failed run is a failure or an error. Refuted: a run that is interrupted counts as a success, and the redundant line about an import is reported when it comes with a position.
* C51: Proved for every schedule and crash point: the program and everything before it in the archive is complete whenever a call succeeds, and a new call can always succeed. Missing: files that come after the program in the archive (C51_order_refuted), and a cache that is being deleted (C51_delete_refuted).
* C52: For every interleaving of calls and crashes as long as the cache is not deleted; cache delete unlinks the lock file and then two calls can write (C52_delete_refuted).
* C53: Without PROTOTOOL_CACHE_PATH exactly the default cache is removed. With it, the claim is false of the code: the custom directory is removed (C53_custom_refuted).
* C54: Output: exact, for every failure list. Exit status: exact for all failures of the run; refuted for the claim that it only reflects those of the file asked for (C54_status_refuted).
* C58: Proved: every call is about the unique service of that name in the first descriptor set having it, anything else is an error and no connection is made. Converse only where all files have a package: a file without one makes every call fail (C58_package_refuted). Decoding inside grpcurl is not modelled.
* C59: Exact, sorted and each file once, with directories matched by string prefix; refuted for sibling directories whose name extends the name of the one asked for (C59_sibling_refuted).
* C60: Exact outside groups; a message whose only field is a group is reported as empty (refuted).
* C63: For versions that are the name of a directory; others lead out of the cache (C63_version_refuted).
* C64: Except that with a custom URL a status other than 200 is not an error but an empty archive (C64_status_refuted), which is then no zip file.
* C66: For names without a .. element; with one, files are written elsewhere (C66_slip_refuted).
* C72: Proved for sets stored in binary, given that the wire format of the one set stored can be read back. C72_same_compilation: both commands compile alike. Refuted for sets stored with --json (C72_json_refuted): break check cannot read them.
* C74: Refuted in two places: the directory for the clone is left behind when git fails (C74_cleanup_refuted; proved in every other case), and a directory beside the working directory whose name begins with its name is accepted, its baseline is then outside of the clone (C74_outside_refuted; all others are refused).
* C75: Proved for all message sequences. Responses that are empty objects print no line (C75_empty_refuted), so the lines are those of the non-empty ones. grpcurl itself (dialing, marshalling) is an argument of the model.
* C76: Proved for all command lines, with one exception to what a user expects: a mistyped word after break, cache, config or x prints help and ends with 0 (C76_mistyped_refuted). The texts of help and usage, and what the runner does, are arguments of the model.
* C77: Proved for all commands and all sequences of flags and arguments: six spellings directly, letters written together, values attached to letters, the words for on and off and flags with values before the command by equality with those. Four expectations are refuted: --header splits its value at commas (C77_header_comma_refuted), -o= is -o "=" and not an empty value (C77_letter_equals_refuted), a switch before the command (C77_switch_first_refuted), and a value before the command that is the name of the command (C77_value_first_refuted).
* C79: Proved for all disks, flags and versions of letters, digits, dots and hyphens. YAML is read by a small reader in Init_Spec (block style only) that a decoder is assumed to agree with. The file of --uncomment is refused by the settings (C79_uncomment_refuted).
* C83: Proved that the commands run what cache update downloads, with one configuration in force for all directories. Two expectations are refuted: cache update downloads nothing when the environment names a protoc (C83_downloads_refuted), and cache delete removes nothing where the configuration is broken (C83_delete_refuted).
* C87: Proved for an ordinary system, when protoc accepts what was written, the external parser reads it as what was printed, and the configured file header is not kept in a .proto file. Without --fix: C87_settled_partial. With --fix: C87_fix_settled_partial, for files that have a package or no managed options, and, if a file header is configured, no comment attached to syntax; with a file header and such a comment it is refuted: the second run drops a comment the first one detached from syntax (C87_fix_refuted).

## What is modelled, and what is not

| package | modelled | not modelled |
| --- | --- | --- |
| internal/strs | all of strs.go | Unicode letters |
| internal/protostrs | all | |
| internal/text | all: sorting, the four printed columns, parsing of their names | |
| internal/breaking | Run and every checker | |
| internal/extract, internal/reflect | package sets, linking, the conversion of descriptors | jhump's descriptor objects beyond the fields that are read |
| internal/desc | merge, sort | the wire format |
| internal/lint | the runner, selection of linters, ignores, suppression, visitors, every linter | the text/scanner positions, which the parser gives |
| internal/settings | discovery, validation and normalisation of configurations, exclusion | YAML and JSON syntax |
| internal/file | finding files, directory walks with symbolic links excluded, the timer | inotify-like changes of the tree during a walk |
| internal/format | both visitors, the printer, transform | the parser |
| internal/create | all | permissions and modes |
| internal/protoc compiler | commands, includes, plugins, modifiers, output parsing, worker pool, temporary files | protoc and its plugins |
| internal/protoc downloader | cache layout, lock, download, unzip, checks of local options, deletion | TLS, HTTP redirects |
| internal/exec | every command of the runner over an event log | zap logging, colour |
| internal/grpc | flags, headers, times, method resolution, printing | grpcurl and the transport |
| internal/git | the clone that break check makes | git |
| internal/cfginit | generation of prototool.yaml | the layout of the text that is not commands |
| internal/diff | the way diff is run and its names replaced | diff(1) |
| internal/cmd | the words of commands, flags, arguments, environment, exit status, and `main`: the command line put in front of every method of the runner, with the outside world as one record (Main_Model) | help text, the parts of cobra that are not about commands and flags, completion and man pages |
| internal/vars, internal/wkt | constants that other parts read | |
| internal/testing, example | | test helpers and examples |

Simplifications inside modelled functions are stated in the comment of the
definition that makes them.

## Trusted base

* Coq's kernel, version 8.16.1.
* The reading of the Go code into the `*_Model.v` files, and the reading of the
  English statements into the theorems.
* No axioms. `Print Assumptions` is run below every theorem in the `Props_*.v`
  files, and the output for every one is "Closed under the global context".
  `ASSUMPTIONS.md` lists the theorems with that output.
* The files import the standard library only (`String`, `List`, `ZArith`, `Lia`,
  `Permutation`, `Sorted` and what these load). Loading it brings in the module
  `Coq.ssr.ssrunder`, whose seven parameters `Under_rel.*` an environment-wide
  listing of axioms shows; they are the fields of a module that the library
  seals and no theorem here depends on them.


## Findings

Statements that one would expect of the program and that are false of it. Each
is proved as a theorem named below.

| theorem | what happens |
| --- | --- |
| C07_alias_rename_refuted, C07_alias_reorder_reported_refuted | with allow_alias, renaming an earlier alias is missed |
| C13_config_directory_refuted | an ignore entry that names the directory of the configuration never matches |
| C13_directory_rules_refuted | ignoring one file changes what rules about directories report for its siblings |
| C16_groups_refuted | naming rules do not look inside groups |
| C17_accents_refuted | a comment that starts with an accented lower case letter passes as a sentence |
| C19_empty_value_refuted | an option set to "" counts as not set |
| C20_extend_refuted | an extend block counts as the declaration of a message |
| C21_http_option_refuted | an option (.google.api.http) of a file crashes lint |
| C22_sibling_refuted, C45_sibling_refuted, C59_sibling_refuted | /work/ab counts as below /work/a |
| C23_empty_header_refuted | format --fix writes a header into an empty file |
| C24_option_comment_refuted, C24_empty_option_refuted, C24_rpc_comment_refuted, C24_label_refuted, C24_group_option_refuted | comments of a lone field option, comments in the body of an rpc, empty aggregate options and the label of proto3 optional fields are lost; an option in a group is an error |
| C25_uber1_prefix_refuted, C30_uber1_prefix_refuted | with group uber1 and another java_package_prefix, what --fix and create write is reported by lint |
| C26_no_package_refuted, C26_uber1_refuted, C26_comments_refuted | without a package, options that --fix manages are dropped; group uber1 drops those of uber2; a header drops the comments at the top |
| C28_all_or_nothing_refuted | create stops half way and leaves the files already made |
| C29_sibling_refuted, C29_config_data_refuted | packages.directory matches by string prefix; --config-data is relative to the file, not to the working directory |
| C31_csharp_beta_large_refuted | version numbers of 2^63 and more |
| C33_upper_snake_idempotent_refuted | ToUpperSnakeCase is not idempotent |
| C38_duplicates_refuted, C38_default_directory_refuted | excludes and includes can have duplicates; a configuration by default has an uncleaned directory |
| C39_sibling_refuted, C41_sibling_refuted, C41_dotdot_refuted | an exclude entry beside the directory of the configuration is accepted and hides files; a file named ..x.proto makes the whole call fail |
| C40_commented_refuted | a header declared as commented is used unchecked |
| C46_sibling_refuted | an include path beside the configuration hides its directory |
| C48_interrupted_refuted, C48_import_errors_refuted | an interrupted protoc counts as success; the redundant line about an import is reported when it has a position |
| C49_error_text_refuted | the text of a combined error depends on the schedule |
| C50_crash_refuted | an interrupt before protoc has started makes the program panic and leaves temporary files |
| C51_order_refuted, C51_delete_refuted | after a crash files that come after bin/protoc in the archive are missing for ever; so after an interrupted cache delete |
| C52_delete_refuted | cache delete unlinks the lock file, then two processes can write |
| C53_custom_refuted | cache delete removes PROTOTOOL_CACHE_PATH, which the documentation says it does not |
| C54_status_refuted | the exit status counts failures of other files, which are not printed |
| C57_headers_refuted | repeated --header names collapse to the last value |
| C58_package_refuted | a file without a package makes every grpc call fail |
| C60_group_field_refuted | a message whose only field is a group is reported as empty |
| C63_version_refuted, C66_slip_refuted | version ".." and archive names with ".." lead out of the cache |
| C64_status_refuted | with a custom URL a status other than 200 is not an error |
| C65_error_refuted | an error of stat other than "does not exist" is a nil pointer panic |
| C68_atomic_refuted | overwriting a file is not atomic |
| C72_json_refuted | break check cannot read a descriptor set stored with --json |
| C74_cleanup_refuted, C74_outside_refuted | the clone directory is left when git fails; a directory beside the working directory is accepted |
| C75_empty_refuted | an empty response prints nothing |
| C76_mistyped_refuted | a mistyped word after break, cache, config or x prints help and the status is 0 |
| C77_header_comma_refuted | --header splits its value at commas |
| C79_uncomment_refuted | the file that config init --uncomment writes sets both path and content of the file header and is refused |
| C83_downloads_refuted | With PROTOTOOL_PROTOC_BIN_PATH and PROTOTOOL_PROTOC_WKT_PATH set, `cache update` succeeds without downloading anything. |
| C83_delete_refuted | `cache delete` reads the configuration of the working directory first: where that is broken it fails and removes nothing. |
| C77_letter_equals_refuted | -o= does not give an empty value, as --output-path= does: the value is "=" |
| C77_switch_first_refuted | a switch written before the command (prototool --json lint) is not the switch written behind it: the command is taken for its value and the line is rejected |
| C77_value_first_refuted | flags before the command, one of whose values is the name of the command, are read wrongly: that value is dropped in place of the command |
| C87_fix_refuted | format --fix with a file header loses comments when run twice: a comment attached to syntax is printed on its own below the header, and the next run drops it as an old header |
| C92_newline_refuted | What `create` writes is not what `format` makes of it: the templates end without a newline, so `format --lint` directly after `create` ends with 255. |
| C102_colons_refuted | a line of protoc that has three colons but no position (an error in an option value that quotes a colon twice) is told whole, without its file |
| C107_bytes_refuted | with --json the name of a file or a message that is not UTF-8 cannot be read back: each bad byte is printed as U+FFFD |
| C109_output_refuted | what `format` reports about files of several directories comes in any order: it ranges over a map |
| C109_failed_refuted | when `format -w` cannot write a file, which other files have been rewritten before depends on the order of a map |
| C110_break_refuted | `break check /w` is refused where `break check .` in /w is not |
| C97_outside_refuted | `break check ../wx` in /w is not refused although the directory is outside: the paths are compared as strings, and what is compared with is a directory beside the temporary clone |
| C113_configuration_refuted | a `prototool.yaml` that cannot be read in an excluded directory makes every command fail: excluded directories are still looked at for a configuration |
| C114_silent_refuted | `lint f` that prints nothing may end with 255: the status is that of the failures of the whole directory, while only those about the file are printed; the file need not be a .proto file |
| C115_atomic_refuted | `format -w` killed while it writes a file leaves only the beginning of the new text: neither what was there nor what should be |
| C119_again_refuted | `create` killed while it writes a file leaves the beginning of the text; the same command then fails, because the file exists and is not empty |
| C121_baseline_refuted | `break descriptor-set` killed just after it truncated the file leaves an empty one; read as a descriptor set (protobuf reads an empty text as the set of no files) it is a baseline against which `break check` passes whatever was deleted |
| C122_init_refuted | `config init` killed while it writes leaves an empty or unfinished prototool.yaml; the same command then refuses to go on because the file exists |
