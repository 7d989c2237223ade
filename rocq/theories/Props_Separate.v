(** C117: lint findings in a file do not depend on other directories. *)
From Verif Require Import Exec_Spec LintRun_Spec GoStrFacts LintRun_Proofs LintRun_Proofs2 Separate_Proofs Props_Lint.

(** The name under which findings in a file are reported. *)
Definition reported_name (absolute : bool) (f : proto_file) : string := if absolute then pf_path f else pf_display f.
(** Every file is listed once, and every directory. *)
Definition listed_once (absolute : bool) (ps : proto_set) : Prop :=
  NoDup (map fst (ps_files ps)) /\ NoDup (map (reported_name absolute) (concat (map snd (ps_files ps)))).
(** The directory is linted, with these files. *)
Definition linted (ps : proto_set) (dir : string) (files : list proto_file) : Prop :=
  In (dir, files) (ps_files ps) /\ has_prefix dir (ps_dir ps) = true.

(** Two runs with the same configuration that both lint a directory, with the same contents
    of its files, find the same in these files, in the same order, whatever other files
    there are. *)
Theorem C117_directory : forall ord sing cwd read read' ps ps' absolute fs fs' dir dir' files,
  reorders ord -> listed_once absolute ps -> listed_once absolute ps' -> ps_config ps' = ps_config ps ->
  linted ps dir files -> linted ps' dir' files -> (forall f, In f files -> read' (pf_path f) = read (pf_path f)) ->
  lint_run ord cwd read (all_linters ord sing) (default_linters ord) (group_to_linters ord) ps absolute = Ok (map Some fs) ->
  lint_run ord cwd read' (all_linters ord sing) (default_linters ord) (group_to_linters ord) ps' absolute = Ok (map Some fs') ->
  exists found, picks (fun f => exists file, In file files /\ f_filename f = reported_name absolute file) fs found
    /\ picks (fun f => exists file, In file files /\ f_filename f = reported_name absolute file) fs' found.
Proof.
  intros ord sing cwd read read' ps ps' absolute fs fs' dir dir' files Ho [A B] [A' B'] E [H W] [H' W'] Rd R R'.
  exact (separate_directory ord sing cwd Ho read read' ps ps' absolute fs fs' A A' B B' E R R' dir dir' files H W H' W' Rd).
Qed.
Print Assumptions C117_directory.

(** For the rules that do not compare the files of a directory even the other files of the
    directory make no difference. *)
Theorem C117_file : forall ord sing cwd read read' ps ps' absolute fs fs' dir dir' files files' file,
  reorders ord -> listed_once absolute ps -> listed_once absolute ps' -> ps_config ps' = ps_config ps ->
  linted ps dir files -> linted ps' dir' files' -> In file files -> In file files' -> read' (pf_path file) = read (pf_path file) ->
  lint_run ord cwd read (all_linters ord sing) (default_linters ord) (group_to_linters ord) ps absolute = Ok (map Some fs) ->
  lint_run ord cwd read' (all_linters ord sing) (default_linters ord) (group_to_linters ord) ps' absolute = Ok (map Some fs') ->
  exists found, picks (fun f => f_filename f = reported_name absolute file /\ ~ In (f_lint_id f) directory_rules) fs found
    /\ picks (fun f => f_filename f = reported_name absolute file /\ ~ In (f_lint_id f) directory_rules) fs' found.
Proof.
  intros ord sing cwd read read' ps ps' absolute fs fs' dir dir' files files' file Ho [A B] [A' B'] E [H W] [H' W'] Hf Hf' Rd R R'.
  exact (separate_file ord sing cwd Ho read read' ps ps' absolute fs fs' A A' B B' E R R' dir dir' files files' file H W H' W' Hf Hf' Rd).
Qed.
Print Assumptions C117_file.

Definition sep_lint := mk_lint_config "" true ["PACKAGES_SAME_IN_DIR"; "MESSAGE_NAMES_CAPITALIZED"] [] [] "" "com" false.
Definition foo := mk_proto_file "/work/a/foo.proto" "a/foo.proto".
Definition bar := mk_proto_file "/work/a/bar.proto" "a/bar.proto".
Definition baz := mk_proto_file "/work/b/baz.proto" "b/baz.proto".
Definition sep_read (p : string) : result (list element * string) :=
  if String.eqb p "/work/a/foo.proto" then Ok ([EPackage (mk_package (at_line 1) "one" None None); EMessage (head 2 "foo") false []], "")
  else if String.eqb p "/work/a/bar.proto" then Ok ([EPackage (mk_package (at_line 1) "two" None None); EMessage (head 3 "bar") false []], "")
  else Ok ([EMessage (head 4 "baz") false []], "").
Definition sep_run (files : list (string * list proto_file)) :=
  lint_run reversed "/work" sep_read (all_linters reversed (fun s => s)) (default_linters reversed) (group_to_linters reversed) (a_set "/work" sep_lint files) false.
Definition about_packages (name : string) := mk_failure name 0 0 "PACKAGES_SAME_IN_DIR" "Multiple packages in directory: one, two.".
Definition about_message (name : string) (line : Z) (message : string) := mk_failure name line 1 "MESSAGE_NAMES_CAPITALIZED" ("Message name " +++ String dquote (message +++ String dquote " must be capitalized.")).
(** With another directory, without it, and without the other file of the directory: only
    the finding that compares the files depends on that. *)
Example C117_ex :
  let p1 := a_set "/work" sep_lint [("/work/a", [foo; bar]); ("/work/b", [baz])] in
  let p2 := a_set "/work" sep_lint [("/work/a", [foo; bar])] in
  let p3 := a_set "/work" sep_lint [("/work/a", [foo])] in
  reorders reversed /\ listed_once false p1 /\ listed_once false p2 /\ listed_once false p3 /\ ps_config p1 = ps_config p2 /\ ps_config p2 = ps_config p3
  /\ linted p1 "/work/a" [foo; bar] /\ linted p2 "/work/a" [foo; bar] /\ linted p3 "/work/a" [foo]
  /\ sep_run (ps_files p1) = Ok (map Some [about_packages "a/bar.proto"; about_message "a/bar.proto" 3 "bar"; about_packages "a/foo.proto"; about_message "a/foo.proto" 2 "foo"; about_message "b/baz.proto" 4 "baz"])
  /\ sep_run (ps_files p2) = Ok (map Some [about_packages "a/bar.proto"; about_message "a/bar.proto" 3 "bar"; about_packages "a/foo.proto"; about_message "a/foo.proto" 2 "foo"])
  /\ sep_run (ps_files p3) = Ok (map Some [about_message "a/foo.proto" 2 "foo"])
  /\ In "PACKAGES_SAME_IN_DIR" directory_rules /\ ~ In "MESSAGE_NAMES_CAPITALIZED" directory_rules.
Proof.
  cbv zeta. split; [intros k A l; apply Permutation.Permutation_rev|].
  assert (N : forall p, listed_once false (a_set "/work" sep_lint p) <-> NoDup (map fst p) /\ NoDup (map (reported_name false) (concat (map snd p)))) by reflexivity.
  repeat (split; [first [apply N; cbn; split; repeat constructor; cbn; intuition discriminate | reflexivity | split; [now left|reflexivity] | vm_compute; reflexivity]|]).
  split; [now left|]. apply mem_false. vm_compute. reflexivity.
Qed.
