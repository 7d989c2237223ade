(** Command lines that contradict themselves, or lack what the command needs, and what is said. *)
From Verif Require Import GoStrFacts Cmd_Spec.

(** Two of the flags are given. *)
Definition two_given (given : list bool) : Prop := exists a b c, given = a ++ true :: b ++ true :: c.
Definition set_text (items : list item) (name : string) : bool := negb (String.eqb (text items name) "").
(** A flag that is only for encrypted connections. *)
Definition only_tls : list string := ["cacert"; "cert"; "key"; "server-name"].

Inductive refuses (c : command) (items : list item) : string -> Prop :=
| Two_listings : c_words c = ["lint"] ->
    two_given [on items "list-all-linters"; on items "list-linters"; on items "list-all-lint-groups"; set_text items "list-lint-group";
               set_text items "diff-lint-groups"; on items "generate-ignores"] ->
    refuses c items "can only set one of list-all-linters, list-linters, list-all-lint-groups, list-lint-group, diff-lint-groups, update-ignores"
| Two_modes : c_words c = ["format"] -> two_given [on items "overwrite"; on items "diff"; on items "lint"] ->
    refuses c items "can only set one of overwrite, diff, lint"
| Two_outputs : c_words c = ["descriptor-set"] -> two_given [set_text items "output-path"; on items "tmp"] ->
    refuses c items "can only set one of output-path, tmp"
| No_output : c_words c = ["break"; "descriptor-set"] -> text items "output-path" = "" -> refuses c items "must set output-path"
| Two_baselines : c_words c = ["break"; "check"] -> two_given [set_text items "git-branch"; set_text items "descriptor-set-path"] ->
    refuses c items "can only set one of git-branch, descriptor-set-path"
| No_name : In (c_words c) [["x"; "inspect"; "package-deps"]; ["x"; "inspect"; "package-importers"]] -> text items "name" = "" ->
    refuses c items "must set name"
| No_address : c_words c = ["grpc"] -> text items "address" = "" -> refuses c items "must set address"
| No_method : c_words c = ["grpc"] -> text items "address" <> "" -> text items "method" = "" -> refuses c items "must set method"
| No_input : c_words c = ["grpc"] -> text items "address" <> "" -> text items "method" <> "" -> text items "data" = "" -> on items "stdin" = false ->
    refuses c items "must set one of data or stdin"
| Two_inputs : c_words c = ["grpc"] -> text items "address" <> "" -> text items "method" <> "" -> text items "data" <> "" -> on items "stdin" = true ->
    refuses c items "must set only one of data or stdin"
| Insecure_but : c_words c = ["grpc"] -> text items "address" <> "" -> text items "method" <> "" -> (text items "data" = "" <-> on items "stdin" = true) ->
    on items "tls" = true -> on items "insecure" = true -> (exists name, In name only_tls /\ text items name <> "") ->
    refuses c items "if insecure then cacert, cert, key, and server-name must not be specified"
| Half_a_pair : c_words c = ["grpc"] -> text items "address" <> "" -> text items "method" <> "" -> (text items "data" = "" <-> on items "stdin" = true) ->
    on items "tls" = true -> on items "insecure" = false -> ~ (text items "cert" = "" <-> text items "key" = "") ->
    refuses c items "if cert is specified, key must be specified"
| Tls_missing : c_words c = ["grpc"] -> text items "address" <> "" -> text items "method" <> "" -> (text items "data" = "" <-> on items "stdin" = true) ->
    on items "tls" = false -> (on items "insecure" = true \/ exists name, In name only_tls /\ text items name <> "") ->
    refuses c items "tls must be specified if insecure, cacert, cert, key or server-name are specified".
