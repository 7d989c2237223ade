(** Property C103: what lint says of a finding.  [ord] is the order in which Go maps are
    ranged over, [sing] the external function that makes a word singular.  The sayings
    are in Lint_Text_Spec. *)
From Verif Require Import LintRun_Spec Lint_Text5 Lint_RuleFacts Lint_FileProofs LintRun_Proofs LintRun_Proofs2 Props_Lint.

(** Every rule of the documentation has its sayings, and no other. *)
Theorem C103_every_rule : forall sing id, documented id <-> exists S, In (id, S) (texts sing).
Proof. intros sing id. rewrite (documented_iff in_order sing). apply every_rule. Qed.
Print Assumptions C103_every_rule.

(** Whatever a rule finds, the text is one its sayings allow at that place of that file,
    followed by the way to silence the finding if the configuration allows that. *)
Theorem C103_texts : forall ord sing, reorders ord -> forall id S, In (id, S) (texts sing) -> Says ord sing id S.
Proof. exact all_said. Qed.
Print Assumptions C103_texts.

(** The rules that may have several things to say of one place say all that is so. *)
Theorem C103_exact : forall ord sing id S, In (id, S) (exact_texts sing) -> Says_exactly ord sing anything id S.
Proof. exact exact_said. Qed.
Print Assumptions C103_exact.
Theorem C103_after_service : forall ord sing, Says_exactly ord sing distinct_top "REQUEST_RESPONSE_TYPES_AFTER_SERVICE" after_text.
Proof. exact after_exactly. Qed.
Print Assumptions C103_after_service.

(** A whole run: [ds] are the files of one directory that the rule looks at. *)
Theorem C103_run : forall ord sing cwd read ps absolute fs f,
  reorders ord -> NoDup (map fst (ps_files ps)) ->
  (forall path es data, read path = Ok (es, data) -> well_formed es) ->
  lint_run ord cwd read (all_linters ord sing) (default_linters ord) (group_to_linters ord) ps absolute = Ok (map Some fs) ->
  In f fs ->
  exists dir files all ds d S t,
    In (dir, files) (ps_files ps) /\ mapM (read_descriptor read ps absolute) files = Ok all /\ incl ds all
    /\ In d ds /\ f_filename f = d_filename d
    /\ In (f_lint_id f, S) (texts sing) /\ S ds d (mk_pos (f_line f) (f_column f)) t
    /\ with_hint (f_lint_id f) d t (f_message f).
Proof.
  intros ord sing cwd read ps absolute fs f Ho N W E Hf.
  pose proof (run_exact ord sing cwd read ps absolute Ho N) as R. rewrite E in R.
  destruct R as (fs' & E' & _ & _ & R). apply map_Some_inj in E' as <-.
  apply R in Hf as (dir & files & all & l & gs & H1 & _ & H3 & Hl & _ & Eg & Hf). unfold check_one in Eg.
  destruct (linter_check_covers ord sing l _ gs f Hl Eg Hf) as [Ei _].
  destruct (proj1 (every_rule ord sing (f_lint_id f))) as [S HS]; [rewrite Ei; now apply in_map|].
  assert (I : incl (filter_ignores cwd l all (lc_ignores (cfg_lint (ps_config ps)))) all).
  { intros d Hd. unfold filter_ignores in Hd. now apply filter_In in Hd as [Hd _]. }
  destruct (all_said ord sing Ho (f_lint_id f) S HS l (filter_ignores cwd l all (lc_ignores (cfg_lint (ps_config ps)))) gs f Hl (eq_sym Ei)) as (d & t & Hd & Ef & Ht & Hm); [|exact Eg|exact Hf|].
  - intros d Hd. apply I in Hd. apply mapM_Forall2 in H3. clear - H3 Hd W. induction H3 as [|x y l r Hxy H IH]; [contradiction|].
    destruct Hd as [->|Hd]; [|auto]. unfold read_descriptor in Hxy. destruct (read (pf_path x)) as [[es data]|] eqn:Er; [|discriminate].
    injection Hxy as <-. cbn. exact (W _ _ _ Er).
  - exists dir, files, all, (filter_ignores cwd l all (lc_ignores (cfg_lint (ps_config ps)))), d, S, t. auto 10.
Qed.
Print Assumptions C103_run.

(** ** Cases *)
Definition messages_of (id : string) (ds : list descriptor) : option (list string) :=
  match filter (fun l => String.eqb (ln_id l) id) (all_linters in_order (fun s => if String.eqb s "foos" then "foo" else s)) with
  | [l] => match linter_check l ds with Ok fs => Some (map f_message fs) | Err _ => None end
  | _ => None
  end.
Definition plurals_file (allow : bool) : descriptor :=
  mk_descriptor "a/foo.proto" [EService (head 8 "FoosAPI") [ex_get]]
    (a_set "/work/a" (mk_lint_config "" false [] [] [] "" "com" allow) []) "".
Example C103_plurals_ex :
  messages_of "SERVICE_NAMES_NO_PLURALS" [plurals_file false]
  = Some ["Service name ""FoosAPI"" contains plural component ""Foos"", consider using ""Foo"" instead."]
  /\ messages_of "SERVICE_NAMES_NO_PLURALS" [plurals_file true]
  = Some ["Service name ""FoosAPI"" contains plural component ""Foos"", consider using ""Foo"" instead. This can be suppressed by adding ""@suppresswarnings plurals"" to the comment."]
  /\ well_formed (d_elements (plurals_file true)).
Proof. split; [vm_compute; reflexivity|]. split; [vm_compute; reflexivity|]. wf. Qed.
Example C103_names_ex :
  messages_of "ENUM_FIELD_PREFIXES" [ex_file] = Some ["Enum field ""UNKNOWN"" is expected to have the prefix ""OUTER_INNER_BAD_KIND_""."]
  /\ messages_of "ENUM_ZERO_VALUES_INVALID" [ex_file]
     = Some ["Zero value enum field ""UNKNOWN"" is expected to have the name ""OUTER_INNER_BAD_KIND_INVALID""."]
  /\ messages_of "REQUEST_RESPONSE_NAMES_MATCH_RPC" [ex_file]
     = Some ["Name of request type ""Outer"" should be ""GetRequest""."; "Name of response type ""Res"" should be ""GetResponse""."]
  /\ messages_of "REQUEST_RESPONSE_TYPES_IN_SAME_FILE" [ex_file]
     = Some ["Response type ""Res"" should be defined in the same file as the corresponding service."]
  /\ messages_of "REQUEST_RESPONSE_TYPES_AFTER_SERVICE" [ex_file]
     = Some ["Message ""Outer"" is a request for RPC ""Get"" and should be defined in the file after the RPC."]
  /\ distinct_top ex_file.
Proof.
  repeat (split; [vm_compute; reflexivity|]). intros e1 e2 H1 H2. cbn in H1, H2.
  repeat (destruct H1 as [<-|H1]); try contradiction; repeat (destruct H2 as [<-|H2]); try contradiction;
    try (intros; reflexivity); intros E; try discriminate E; cbn; tauto.
Qed.
Definition renamed_file : descriptor := a_file "a/foo.proto" [EMessage (head 3 "Foo") false [a_field 4 "file_name_of_file_name" "string" None]].
Example C103_renamed_ex :
  messages_of "MESSAGE_FIELD_NAMES_FILENAME" [renamed_file] = Some ["Field name ""file_name_of_file_name"" should be ""filename_of_filename""."]
  /\ well_formed (d_elements renamed_file).
Proof. split; [vm_compute; reflexivity|]. wf. Qed.
Definition in_package (name package : string) : descriptor := a_file name [EPackage (mk_package (at_line 2) package None None)].
Example C103_listing_ex :
  messages_of "PACKAGES_SAME_IN_DIR" [in_package "a/foo.proto" "foo.v2"; in_package "a/bar.proto" "foo.v1"]
  = Some ["Multiple packages in directory: foo.v1, foo.v2."; "Multiple packages in directory: foo.v1, foo.v2."].
Proof. vm_compute. reflexivity. Qed.
Example C103_run_ex : exists fs,
  lint_run reversed "/work" (fun p => if String.eqb p "/work/a/foo.proto" then Ok (ex_elements, "") else Err "not found")
    (all_linters reversed (fun s => s)) (default_linters reversed) (group_to_linters reversed)
    (a_set "/work/a" ex_lint [("/work/a", [mk_proto_file "/work/a/foo.proto" "a/foo.proto"])]) false = Ok (map Some fs)
  /\ map f_message fs = ["Message name ""inner_bad"" must be CamelCase."; "Message name ""inner_bad"" must be capitalized.";
       "Field name ""fooBar"" must be lower_snake_case."].
Proof.
  exists [mk_failure "a/foo.proto" 3 1 "MESSAGE_NAMES_CAMEL_CASE" "Message name ""inner_bad"" must be CamelCase.";
          mk_failure "a/foo.proto" 3 1 "MESSAGE_NAMES_CAPITALIZED" "Message name ""inner_bad"" must be capitalized.";
          mk_failure "a/foo.proto" 6 1 "MESSAGE_FIELD_NAMES_LOWER_SNAKE_CASE" "Field name ""fooBar"" must be lower_snake_case."].
  split; vm_compute; reflexivity.
Qed.
