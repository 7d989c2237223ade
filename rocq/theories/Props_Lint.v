(** Properties C12-C22, C60 and C61: lint.  [ord] is the order in which Go maps are
    ranged over, [sing] the external function that makes a word singular. *)
From Verif Require Import LintRun_Spec Text_Spec GoStrFacts GoPathFacts Lint_RuleFacts Lint_RuleProofs Lint_RuleProofs2
  Strs_Proofs Lint_FileProofs Lint_MapProofs Lint_Table LintRun_Proofs LintRun_Proofs2.
From Coq Require Import Sorting.Sorted.

(** ** Witnesses *)
Definition at_line (n : Z) : position := mk_pos n 1.
Definition head (n : Z) (name : string) : header := mk_header (at_line n) name None.
Definition a_field (n : Z) (name type : string) (c : option comment) : element :=
  EField (Normal false false false) (mk_field (at_line n) name type 1 [] c None).
Definition a_literal (s : string) : literal := mk_literal s true None [] [].
Definition an_option (n : Z) (name value : string) : opt := mk_opt (at_line n) name (a_literal value) None None.
Definition an_rpc (n : Z) (name req resp : string) (c : option comment) : rpc :=
  mk_rpc (at_line n) name req false resp false [] c None.
Definition a_config (dir : string) (l : lint_config) : config :=
  mk_config dir [] (mk_compile_config "3.8.0" [] true false) (mk_create_config []) l
    (mk_break_config false false) (mk_gen_config "" [] []).
Definition plain_lint : lint_config := mk_lint_config "" false [] [] [] "" "com" true.
Definition a_set (dir : string) (l : lint_config) (files : list (string * list proto_file)) : proto_set :=
  mk_proto_set "/work" dir files (a_config "/work" l).
Definition a_file (name : string) (es : list element) : descriptor :=
  mk_descriptor name es (a_set "/work/a" plain_lint []) "".
(** The identity order, and the reversed one. *)
Definition in_order : order := fun _ _ l => l.
Definition reversed : order := fun _ _ l => rev l.
Example in_order_ok : reorders in_order.
Proof. intros k A l. reflexivity. Qed.
Example reversed_ok : reorders reversed.
Proof. intros k A l. apply Permutation_rev. Qed.

(** message Outer { message inner_bad { enum Kind { UNKNOWN = 0; } string fooBar = 1; } }
    service FooAPI { rpc Get(Outer) returns (Res); } *)
Definition ex_kind := EEnum (head 4 "Kind") [EEnumField (mk_enum_field (at_line 5) "UNKNOWN" 0 None None) []].
Definition ex_get := ERPC (an_rpc 9 "Get" "Outer" "Res" None) [].
Definition ex_elements : list element := [
  ESyntax (mk_syntax (at_line 1) "proto3" None None);
  EPackage (mk_package (at_line 2) "foo.v1" None None);
  EMessage (head 3 "Outer") false [EMessage (head 3 "inner_bad") false [ex_kind; a_field 6 "fooBar" "string" None]];
  EService (head 8 "FooAPI") [ex_get]].
Definition ex_file := a_file "a/foo.proto" ex_elements.
(** Everything located in a list of elements, computed. *)
Fixpoint places (fuel : nat) (ctx : list element) (e : element) : list (list element * element) :=
  (ctx, e) :: match fuel with 0 => [] | S n => flat_map (places n (e :: ctx)) (contents e) end.
Fixpoint deep (fuel : nat) (e : element) : bool :=
  match contents e with
  | [] => true
  | es => match fuel with 0 => false | S n => forallb (deep n) es end
  end.
Lemma deep_sub n e x : deep (S n) e = true -> In x (contents e) -> deep n x = true.
Proof.
  cbn [deep]. destruct (contents e) as [|y es] eqn:E; [easy|]. intros H Hx. rewrite forallb_forall in H. auto.
Qed.
Lemma places_sub n : forall ctx0 e0 ctx e x, deep n e0 = true -> In (ctx, e) (places n ctx0 e0) -> In x (contents e) ->
  In (e :: ctx, x) (places n ctx0 e0).
Proof.
  induction n as [|n IH]; intros ctx0 e0 ctx e x D H Hx.
  - cbn [places] in *. destruct H as [H|[]]. injection H as <- <-. cbn [deep] in D. destruct (contents e0); [destruct Hx|discriminate].
  - cbn [places] in *. destruct H as [H|H].
    + injection H as <- <-. right. apply in_flat_map. exists x. split; [assumption|]. destruct n; now left.
    + right. apply in_flat_map in H as (y & Hy & H). apply in_flat_map. exists y. split; [assumption|].
      apply IH; auto. eapply deep_sub; eauto.
Qed.
Lemma places_ok n file ctx e : forallb (deep n) file = true -> located file ctx e ->
  In (ctx, e) (flat_map (places n []) file).
Proof.
  intros D H. rewrite forallb_forall in D. induction H as [e H|ctx p e H IH Hc].
  - apply in_flat_map. exists e. split; [assumption|]. destruct n; now left.
  - apply in_flat_map in IH as (y & Hy & IH). apply in_flat_map. exists y. split; [assumption|]. apply places_sub; auto.
Qed.
Lemma Forall_located n file (P : list element -> element -> Prop) : forallb (deep n) file = true ->
  Forall (fun ce => P (fst ce) (snd ce)) (flat_map (places n []) file) -> forall ctx e, located file ctx e -> P ctx e.
Proof. intros D F ctx e H. rewrite Forall_forall in F. apply (F (ctx, e)). now apply places_ok. Qed.
Lemma well_formed_by n file : forallb (deep n) file = true -> Forall may_be_top file ->
  Forall (fun ce => match fst ce with [] => True | p :: _ => may_contain p (snd ce) end) (flat_map (places n []) file) ->
  well_formed file.
Proof.
  intros D T F. split; [now apply Forall_forall|]. intros ctx p e H.
  apply (Forall_located n file (fun ctx e => match ctx with [] => True | p :: _ => may_contain p e end) D F) in H. exact H.
Qed.
Ltac foralls := repeat first [apply Forall_nil | apply Forall_cons].
Ltac everywhere := match goal with |- forall ctx e, located ?file ctx e -> @?P ctx e => refine (Forall_located 6 file P eq_refl _) end.
Ltac wf := apply (well_formed_by 6); [reflexivity|repeat constructor|cbn; repeat constructor].
Example ex_well_formed : well_formed (d_elements ex_file).
Proof. wf. Qed.

(** ** C12: selection *)

(** The linters run are exactly those the configuration selects, each once; an unknown
    name is an error.  Groups are as documented in docs/lint.md. *)
Theorem C12_selection : forall ord sing c, reorders ord ->
  match get_linters ord (all_linters ord sing) (default_linters ord) (group_to_linters ord) c with
  | Ok ls => known_names c /\ NoDup (map ln_id ls) /\ incl ls (all_linters ord sing)
             /\ forall id, In id (map ln_id ls) <-> selected c id
  | Err _ => ~ known_names c
  end.
Proof. exact (fun ord sing c H => selection ord sing H c). Qed.
Print Assumptions C12_selection.
(** What a whole run reports: the failures of the selected linters on the files of the
    directories that start with the requested one, less the ignored files; sorted. *)
Theorem C12_run : forall ord sing cwd read ps absolute,
  reorders ord -> NoDup (map fst (ps_files ps)) ->
  match lint_run ord cwd read (all_linters ord sing) (default_linters ord) (group_to_linters ord) ps absolute with
  | Err _ => ~ known_names (cfg_lint (ps_config ps))
      \/ exists dir files, In (dir, files) (ps_files ps) /\ has_prefix dir (ps_dir ps) = true /\
           ((exists file e, In file files /\ read (pf_path file) = Err e)
            \/ exists ds l e, mapM (read_descriptor read ps absolute) files = Ok ds /\ In l (all_linters ord sing)
                 /\ selected (cfg_lint (ps_config ps)) (ln_id l)
                 /\ check_one cwd l ds (lc_ignores (cfg_lint (ps_config ps))) = Err e)
  | Ok r => exists fs, r = map Some fs /\ known_names (cfg_lint (ps_config ps)) /\ StronglySorted failure_le fs /\
      forall f, In f fs <->
        exists dir files ds l gs, In (dir, files) (ps_files ps) /\ has_prefix dir (ps_dir ps) = true
          /\ mapM (read_descriptor read ps absolute) files = Ok ds
          /\ In l (all_linters ord sing) /\ selected (cfg_lint (ps_config ps)) (ln_id l)
          /\ check_one cwd l ds (lc_ignores (cfg_lint (ps_config ps))) = Ok gs /\ In f gs
  end.
Proof. exact run_exact. Qed.
Print Assumptions C12_run.
Definition ex_lint := mk_lint_config "google" false ["SYNTAX_PROTO3"] ["FILE_HEADER"; "RPC_NAMES_CAMEL_CASE"] [] "" "com" false.
Example C12_ex : exists ls, get_linters reversed (all_linters reversed (fun s => s)) (default_linters reversed) (group_to_linters reversed) ex_lint = Ok ls
  /\ length ls = 10 /\ In "SYNTAX_PROTO3" (map ln_id ls) /\ ~ In "FILE_HEADER" (map ln_id ls) /\ In "ENUM_NAMES_CAMEL_CASE" (map ln_id ls).
Proof.
  eexists. split; [reflexivity|]. split; [reflexivity|]. split; [|split].
  - apply mem_In. vm_compute. reflexivity.
  - apply mem_false. vm_compute. reflexivity.
  - apply mem_In. vm_compute. reflexivity.
Qed.
Example C12_ex_unknown : ~ known_names (mk_lint_config "uber3" false [] [] [] "" "com" false)
  /\ ~ known_names (mk_lint_config "" false [] ["NO_SUCH_RULE"] [] "" "com" false).
Proof.
  split.
  - intros [[H|H] _]; [discriminate|]. cbn in H. intuition discriminate.
  - intros [_ H]. destruct (H "NO_SUCH_RULE") as [gs Hg]; [right; left; now left|].
    apply (in_map fst) in Hg. apply mem_In in Hg. vm_compute in Hg. discriminate.
Qed.
Example C12_run_ex : exists fs,
  lint_run reversed "/work" (fun p => if String.eqb p "/work/a/foo.proto" then Ok (ex_elements, "") else Err "not found")
    (all_linters reversed (fun s => s)) (default_linters reversed) (group_to_linters reversed)
    (a_set "/work/a" ex_lint [("/work/a", [mk_proto_file "/work/a/foo.proto" "a/foo.proto"])]) false = Ok (map Some fs)
  /\ map f_lint_id fs = ["MESSAGE_NAMES_CAMEL_CASE"; "MESSAGE_NAMES_CAPITALIZED"; "MESSAGE_FIELD_NAMES_LOWER_SNAKE_CASE"].
Proof.
  exists [mk_failure "a/foo.proto" 3 1 "MESSAGE_NAMES_CAMEL_CASE" "Message name ""inner_bad"" must be CamelCase.";
          mk_failure "a/foo.proto" 3 1 "MESSAGE_NAMES_CAPITALIZED" "Message name ""inner_bad"" must be capitalized.";
          mk_failure "a/foo.proto" 6 1 "MESSAGE_FIELD_NAMES_LOWER_SNAKE_CASE" "Field name ""fooBar"" must be lower_snake_case."].
  split; vm_compute; reflexivity.
Qed.

(** ** C13: ignores *)

(** For rules that look at one file at a time: with ignores the result is the result
    without them, less the failures whose file an entry for their rule names or
    contains.  Entries must not name the directory of the configuration or one above
    (such entries are dead: C13_config_directory_refuted). *)
Theorem C13_ignores_partial : forall ord sing cwd cfg ignores ls dirs fs,
  reorders ord -> NoDup (map fst ignores) ->
  (forall id paths p, In (id, paths) ignores -> In p paths -> ~ within p cfg) ->
  (forall l, In l ls -> In l (all_linters ord sing) /\ ~ In (ln_id l) directory_rules) ->
  (forall dir ds d, In (dir, ds) dirs -> In d ds ->
     cfg_dir (ps_config (d_set d)) = cfg /\ within cfg (absolute_name cwd (d_filename d))) ->
  check_multiple ord cwd ls dirs [] = Ok (map Some fs) ->
  exists fs', check_multiple ord cwd ls dirs ignores = Ok (map Some fs') /\
    without (fun f => ignored cwd ignores (f_lint_id f) (f_filename f)) fs fs'.
Proof. exact ignores_exact. Qed.
Print Assumptions C13_ignores_partial.
(** For every rule: the result is that of the rule on the files that are not ignored. *)
Theorem C13_files : forall cwd cfg ignores l ds,
  NoDup (map fst ignores) ->
  (forall id paths p, In (id, paths) ignores -> In p paths -> ~ within p cfg) ->
  (forall d, In d ds -> cfg_dir (ps_config (d_set d)) = cfg /\ within cfg (absolute_name cwd (d_filename d))) ->
  exists ds', without (fun d => ignored cwd ignores (ln_id l) (d_filename d)) ds ds' /\
    check_one cwd l ds ignores = linter_check l ds'.
Proof. exact ignores_files. Qed.
Print Assumptions C13_files.
Definition ids_of (r : result (list failure)) : option (list (string * string)) :=
  match r with Ok fs => Some (map (fun f => (f_lint_id f, f_filename f)) fs) | Err _ => None end.
Definition run_rule (id : string) (ignores : list (string * list string)) (ds : list descriptor) : option (list (string * string)) :=
  match find (fun l => String.eqb (ln_id l) id) (all_linters in_order (fun s => s)) with
  | Some l => ids_of (check_one "/work" l ds ignores)
  | None => None
  end.
Example C13_ex :
  run_rule "MESSAGE_NAMES_CAMEL_CASE" [("ENUM_NAMES_CAMEL_CASE", ["/work/a"])] [ex_file; a_file "b/foo.proto" ex_elements]
    = Some [("MESSAGE_NAMES_CAMEL_CASE", "a/foo.proto"); ("MESSAGE_NAMES_CAMEL_CASE", "b/foo.proto")]
  /\ run_rule "MESSAGE_NAMES_CAMEL_CASE" [("MESSAGE_NAMES_CAMEL_CASE", ["/work/b"; "/work/a/foo.proto"])]
       [ex_file; a_file "b/foo.proto" ex_elements; a_file "bc/foo.proto" ex_elements]
     = Some [("MESSAGE_NAMES_CAMEL_CASE", "bc/foo.proto")].
Proof. split; vm_compute; reflexivity. Qed.
Ltac is_within a b := exists a, b; split; [now repeat constructor|split; [now repeat constructor|split; reflexivity]].
Ltac not_within := let H := fresh in intros H; apply within_prefix in H; vm_compute in H; discriminate H.
Example C13_ex_hypotheses :
  within "/work" (absolute_name "/work" (d_filename ex_file)) /\ ~ within "/work/a" "/work"
  /\ ignored "/work" [("X", ["/work/a"])] "X" (d_filename ex_file).
Proof.
  split; [is_within ["work"] ["a"; "foo.proto"]|]. split; [not_within|].
  exists ["/work/a"], "/work/a". split; [now left|]. split; [now left|]. is_within ["work"; "a"] ["foo.proto"].
Qed.
(** An entry that names the directory of the configuration contains every file, and
    silences nothing. *)
Theorem C13_config_directory_refuted : exists id ignores d,
  ignored "/work" ignores id (d_filename d) /\ cfg_dir (ps_config (d_set d)) = "/work"
  /\ run_rule id ignores [d] = Some [(id, d_filename d)].
Proof.
  exists "MESSAGE_NAMES_CAMEL_CASE", [("MESSAGE_NAMES_CAMEL_CASE", ["/work"])], ex_file.
  split; [|split; [reflexivity|vm_compute; reflexivity]].
  exists ["/work"], "/work". split; [now left|]. split; [now left|]. is_within ["work"] ["a"; "foo.proto"].
Qed.
Print Assumptions C13_config_directory_refuted.
(** For the rules about directories, ignoring one file changes what is reported for
    files that no entry names. *)
Theorem C13_directory_rules_refuted : exists ignores d1 d2,
  run_rule "PACKAGES_SAME_IN_DIR" [] [d1; d2] = Some [("PACKAGES_SAME_IN_DIR", d_filename d1); ("PACKAGES_SAME_IN_DIR", d_filename d2)]
  /\ ~ ignored "/work" ignores "PACKAGES_SAME_IN_DIR" (d_filename d2)
  /\ run_rule "PACKAGES_SAME_IN_DIR" ignores [d1; d2] = Some [].
Proof.
  exists [("PACKAGES_SAME_IN_DIR", ["/work/a/foo.proto"])], ex_file,
    (a_file "a/bar.proto" [EPackage (mk_package (at_line 2) "bar.v1" None None)]).
  split; [vm_compute; reflexivity|]. split; [|vm_compute; reflexivity].
  intros (paths & p & [E|[]] & Hp & W). injection E as <-. destruct Hp as [<-|[]]. revert W. not_within.
Qed.
Print Assumptions C13_directory_rules_refuted.

(** ** C14: suppression *)

(** The rules that can be silenced report exactly the bad elements whose own comment
    does not carry the annotation of the rule, or all when the settings do not allow
    suppression. *)
Theorem C14_suppression : forall ord sing id V, In (id, V) (suppressable_rules sing) -> Reports_exactly ord sing anything id V.
Proof. exact suppressable_rules_exact. Qed.
Print Assumptions C14_suppression.
Theorem C14_http_option : forall ord sing, Reports_exactly ord sing no_stray_http_option "RPC_OPTIONS_NO_GOOGLE_API_HTTP" http_rule.
Proof. exact http_rule_exact. Qed.
Print Assumptions C14_http_option.
Definition note (l : string) : option comment := Some (mk_comment (at_line 1) [l] false).
Definition float_file (allowed : bool) : descriptor :=
  mk_descriptor "a/foo.proto" [EMessage (head 3 "Foo") false
      [a_field 4 "x" "float" (note " @suppresswarnings floats");
       a_field 5 "y" "float" (note " @suppresswarnings naming"); a_field 6 "z" "float" None]]
    (a_set "/work" (mk_lint_config "" false [] [] [] "" "com" allowed) []) "".
Definition lines_of (id : string) (d : descriptor) : option (list Z) :=
  match find (fun l => String.eqb (ln_id l) id) (all_linters in_order (fun s => s)) with
  | Some l => match linter_check l [d] with Ok fs => Some (map f_line fs) | Err _ => None end
  | None => None
  end.
Example C14_ex : lines_of "MESSAGE_FIELDS_NOT_FLOATS" (float_file true) = Some [5; 6]%Z
  /\ lines_of "MESSAGE_FIELDS_NOT_FLOATS" (float_file false) = Some [4; 5; 6]%Z.
Proof. split; vm_compute; reflexivity. Qed.
Example C14_ex_well_formed : well_formed (d_elements (float_file true)).
Proof. wf. Qed.

(** ** C15: the order of map iteration *)
Theorem C15_deterministic : forall cwd read sing o1 o2 ps absolute,
  reorders o1 -> reorders o2 -> NoDup (map fst (ps_files ps)) ->
  let run o := lint_run o cwd read (all_linters o sing) (default_linters o) (group_to_linters o) ps absolute in
  match run o1, run o2 with
  | Ok r1, Ok r2 => r1 = r2
  | Err _, Err _ => True
  | _, _ => False
  end.
Proof. exact run_deterministic. Qed.
Print Assumptions C15_deterministic.
Definition two_dirs : proto_set := a_set "/work" (mk_lint_config "" false [] [] [] "" "com" false)
  [("/work/a", [mk_proto_file "/work/a/foo.proto" "a/foo.proto"]); ("/work/b", [mk_proto_file "/work/b/foo.proto" "b/foo.proto"])].
Example C15_ex : NoDup (map fst (ps_files two_dirs)) /\ exists r1,
  lint_run in_order "/work" (fun _ => Ok (ex_elements, "")) (all_linters in_order (fun s => s)) (default_linters in_order) (group_to_linters in_order) two_dirs false = Ok r1
  /\ length r1 = 20.
Proof.
  split; [repeat constructor; simpl; intuition discriminate|]. eexists. split; vm_compute; reflexivity.
Qed.

(** ** C16: naming rules *)

(** Each naming rule reports exactly the elements whose name breaks it, at any depth
    (except in groups: C16_groups_refuted). *)
Theorem C16_naming_partial : forall ord sing id V, In (id, V) naming_rules -> Reports_exactly ord sing anything id V.
Proof. exact naming_rules_exact. Qed.
Print Assumptions C16_naming_partial.
Example C16_ex : lines_of "MESSAGE_NAMES_CAMEL_CASE" ex_file = Some [3]%Z /\ lines_of "ENUM_FIELD_PREFIXES" ex_file = Some [5]%Z
  /\ lines_of "MESSAGE_FIELD_NAMES_LOWER_SNAKE_CASE" ex_file = Some [6]%Z /\ lines_of "SERVICE_NAMES_API_SUFFIX" ex_file = Some [].
Proof. repeat split; vm_compute; reflexivity. Qed.
(** What a rule says of one file, computed; for refutations. *)
Definition outcome (id : string) (ds : list descriptor) : result (list failure) :=
  match find (fun l => String.eqb (ln_id l) id) (all_linters in_order (fun s => s)) with
  | Some l => linter_check l ds
  | None => Err "no such rule"
  end.
Lemma outcome_is l id ds : In l (all_linters in_order (fun s => s)) -> ln_id l = id -> outcome id ds = linter_check l ds.
Proof.
  intros Hl Hi. unfold outcome. destruct (find _ _) as [l'|] eqn:F.
  - apply find_some in F as [H1 H2]. apply String.eqb_eq in H2. f_equal. apply (unique_linter in_order (fun s => s)); congruence.
  - apply (find_none _ _ F) in Hl. apply String.eqb_neq in Hl. congruence.
Qed.
Lemma exact_outcome assume id V d : Reports_exactly in_order (fun s => s) assume id V ->
  well_formed (d_elements d) -> assume d ->
  exists fs, outcome id [d] = Ok fs /\ forall p, (exists f, In f fs /\ at_place f (d_filename d) p) <->
    exists ctx e, located (d_elements d) ctx e /\ V d ctx e p.
Proof.
  intros (l & Hl & Hi & R) W A. destruct (R [d]) as (fs & E & _ & R'); [intros d' [<-|[]]; auto|].
  exists fs. split; [now rewrite (outcome_is l)|]. intros p. rewrite R'. split.
  - intros (d' & ctx & e & [<-|[]] & _ & L & H). eauto.
  - intros (ctx & e & L & H). exists d, ctx, e. simpl. auto.
Qed.
Lemma files_outcome assume id V d : Files_reported_exactly in_order (fun s => s) assume id V ->
  well_formed (d_elements d) -> assume d ->
  exists fs, outcome id [d] = Ok fs /\ forall p, (exists f, In f fs /\ at_place f (d_filename d) p) <-> V d p.
Proof.
  intros (l & Hl & Hi & R) W A. destruct (R [d]) as (fs & E & _ & R'); [intros d' [<-|[]]; auto|].
  exists fs. split; [now rewrite (outcome_is l)|]. intros p. rewrite R'. split.
  - now intros (d' & [<-|[]] & _ & H).
  - intros H. exists d. simpl. auto.
Qed.
(** message Foo { optional group Bar = 1 { optional string badName = 2; } } *)
Definition group_file : descriptor := a_file "a/foo.proto"
  [EMessage (head 3 "Foo") false [EGroup (head 4 "Bar") true 1 [a_field 5 "badName" "string" None]]].
Theorem C16_groups_refuted : ~ (forall ord sing,
  Reports_exactly ord sing anything "MESSAGE_FIELD_NAMES_LOWER_SNAKE_CASE"
    (Breaks_anywhere is_field (bad_name (fun n => ~ snake_shape is_lower n)))).
Proof.
  intros R. destruct (exact_outcome _ _ _ group_file (R in_order (fun s => s))) as (fs & E & H); [wf|exact I|].
  vm_compute in E. injection E as <-. destruct (proj2 (H (at_line 5))) as (f & [] & _).
  eexists _, (a_field 5 "badName" "string" None). split.
  - eapply nested; [eapply nested; [apply at_top; now left|now left]|now left].
  - split; [now eexists _, _|]. split; [|reflexivity]. intros S.
    assert (X : is_lower_snake_case "badName" = true) by now apply is_lower_snake_shape. vm_compute in X. discriminate.
Qed.
Print Assumptions C16_groups_refuted.

(** ** C17: comment rules *)
Theorem C17_golang_comments : forall ord sing id V, In (id, V) golang_comment_rules -> Reports_exactly ord sing anything id V.
Proof. exact golang_comment_rules_exact. Qed.
Print Assumptions C17_golang_comments.
(** For comments in ASCII. *)
Theorem C17_sentence_comments_partial : forall ord sing id V, In (id, V) sentence_comment_rules -> Reports_exactly ord sing ascii_comments id V.
Proof. exact sentence_comment_rules_exact. Qed.
Print Assumptions C17_sentence_comments_partial.
Theorem C17_golang_comments_except : forall ord sing, reorders ord ->
  Reports_exactly ord sing distinct_messages "MESSAGES_HAVE_COMMENTS_EXCEPT_REQUEST_RESPONSE_TYPES" except_golang_rule.
Proof. exact except_golang. Qed.
Print Assumptions C17_golang_comments_except.
Theorem C17_sentence_comments_except_partial : forall ord sing, reorders ord ->
  Reports_exactly ord sing (fun d => distinct_messages d /\ ascii_comments d)
    "MESSAGES_HAVE_SENTENCE_COMMENTS_EXCEPT_REQUEST_RESPONSE_TYPES" except_sentence_rule.
Proof. exact except_sentence. Qed.
Print Assumptions C17_sentence_comments_except_partial.
Definition commented : descriptor := a_file "a/foo.proto" [
  EService (mk_header (at_line 1) "FooAPI" (note " FooAPI does things.")) [ERPC (an_rpc 2 "Get" "GetRequest" "Res" (note " Get it")) []];
  EMessage (head 3 "GetRequest") false []; EMessage (mk_header (at_line 4) "Foo" (note " foo.")) false []].
Example C17_ex : lines_of "SERVICES_HAVE_COMMENTS" commented = Some []
  /\ lines_of "RPCS_HAVE_SENTENCE_COMMENTS" commented = Some [2]%Z
  /\ lines_of "MESSAGES_HAVE_COMMENTS_EXCEPT_REQUEST_RESPONSE_TYPES" commented = Some [4]%Z
  /\ lines_of "MESSAGES_HAVE_SENTENCE_COMMENTS_EXCEPT_REQUEST_RESPONSE_TYPES" commented = Some [4]%Z.
Proof. repeat split; vm_compute; reflexivity. Qed.
Lemma pairs_located n file (P : list element -> element -> list element -> element -> Prop) : forallb (deep n) file = true ->
  Forall (fun x => Forall (fun y => P (fst x) (snd x) (fst y) (snd y)) (flat_map (places n []) file)) (flat_map (places n []) file) ->
  forall c1 e1 c2 e2, located file c1 e1 -> located file c2 e2 -> P c1 e1 c2 e2.
Proof.
  intros D F c1 e1 c2 e2 H1 H2. rewrite Forall_forall in F. specialize (F (c1, e1) (places_ok n file _ _ D H1)).
  rewrite Forall_forall in F. exact (F (c2, e2) (places_ok n file _ _ D H2)).
Qed.
Example C17_ex_hypotheses : well_formed (d_elements commented) /\ distinct_messages commented /\ ascii_comments commented.
Proof.
  split; [wf|]. split.
  - refine (pairs_located 6 (d_elements commented) (fun c1 e1 c2 e2 => is_message e1 -> is_message_or_extend e2 ->
      qualified_name c1 (name_of e1) = qualified_name c2 (name_of e2) -> c1 = c2 /\ e1 = e2) eq_refl _).
    cbn. foralls; intros (? & ? & A) (? & ? & ? & B) C; try discriminate A; try discriminate B; try discriminate C; split; reflexivity.
  - intros ctx e c l L _. revert c l. revert ctx e L. everywhere.
    cbn. foralls; cbn; intros c l E; try discriminate E; injection E as <-; intros [<-|[]];
      repeat (apply all_chars_cons; split; [apply Nat.ltb_lt; reflexivity|]); apply all_chars_nil.
Qed.
(** A comment whose first letter is a lower case e with an acute accent passes: its
    first byte is the code of an upper case letter in Latin-1. *)
Definition accented : descriptor := a_file "a/foo.proto"
  [EEnum (mk_header (at_line 3) "Etoile" (note (" " +++ String "195" (String "169" "toile."))))
     [EEnumField (mk_enum_field (at_line 4) "ETOILE_INVALID" 0 None None) []]].
Theorem C17_accents_refuted : ~ (forall ord sing,
  Reports_exactly ord sing anything "ENUMS_HAVE_SENTENCE_COMMENTS" (Breaks is_enum not_sentence)).
Proof.
  intros R. destruct (exact_outcome _ _ _ accented (R in_order (fun s => s))) as (fs & E & H); [wf|exact I|].
  vm_compute in E. injection E as <-. destruct (proj2 (H (at_line 3))) as (f & [] & _).
  exists [], (EEnum (mk_header (at_line 3) "Etoile" (note (" " +++ String "195" (String "169" "toile."))))
     [EEnumField (mk_enum_field (at_line 4) "ETOILE_INVALID" 0 None None) []]). split; [apply at_top; now left|].
  split; [intros g []|]. split; [now eexists _, _|]. split; [|reflexivity].
  intros (c & l & ls & blanks & x & r & Ec & El & Eb & B & U & _). cbn in Ec. injection Ec as <-. cbn in El. injection El as <- <-.
  destruct blanks as [|b0 [|b1 bs]]; cbn in Eb.
  - injection Eb as <- <-. vm_compute in U. destruct U; discriminate.
  - injection Eb as <- <- <-. vm_compute in U. destruct U; discriminate.
  - injection Eb as <- <- _. apply all_chars_cons in B as [_ B]. apply all_chars_cons in B as [B _]. vm_compute in B. discriminate.
Qed.
Print Assumptions C17_accents_refuted.

(** ** C18: file options *)
Theorem C18_required : forall ord sing id V, In (id, V) require_rules -> Files_reported_exactly ord sing anything id V.
Proof. exact require_rules_exact. Qed.
Print Assumptions C18_required.
Theorem C18_values : forall ord sing id V, In (id, V) equal_rules -> Files_reported_exactly ord sing named id V.
Proof. exact equal_rules_exact. Qed.
Print Assumptions C18_values.
Definition optioned : descriptor := a_file "a/foo.proto" [
  EPackage (mk_package (at_line 1) "foo.bar.v1" None None); EOption (an_option 2 "java_package" "com.foo.bar.v1");
  EOption (an_option 3 "go_package" "barpb"); EOption (an_option 4 "php_namespace" "Foo")].
Example C18_ex : well_formed (d_elements optioned) /\ named optioned
  /\ lines_of "FILE_OPTIONS_REQUIRE_RUBY_PACKAGE" optioned = Some [0]%Z /\ lines_of "FILE_OPTIONS_REQUIRE_GO_PACKAGE" optioned = Some []
  /\ lines_of "FILE_OPTIONS_EQUAL_JAVA_PACKAGE_COM_PREFIX" optioned = Some []
  /\ lines_of "FILE_OPTIONS_EQUAL_GO_PACKAGE_V2_SUFFIX" optioned = Some [3]%Z
  /\ lines_of "FILE_OPTIONS_EQUAL_PHP_NAMESPACE_CAPITALIZED" optioned = Some [4]%Z.
Proof. split; [wf|]. split; [discriminate|]. repeat split; vm_compute; reflexivity. Qed.

(** ** C19: rules about directories *)
Theorem C19_packages : forall ord sing,
  Directory_reported_exactly ord sing one_package "PACKAGES_SAME_IN_DIR" packages_disagree.
Proof. exact packages_same_in_dir_exact. Qed.
Print Assumptions C19_packages.
(** For options that are not set to the empty string. *)
Theorem C19_options_partial : forall ord sing id name, In (id, name) same_in_dir_rules ->
  Directory_reported_exactly ord sing (one_option name) id (options_disagree name).
Proof. exact same_in_dir_exact. Qed.
Print Assumptions C19_options_partial.
Definition bare (file : string) : descriptor := a_file file [EPackage (mk_package (at_line 1) "foo.bar.v1" None None)].
Example C19_ex : ids_of (outcome "PACKAGES_SAME_IN_DIR" [optioned; bare "a/bar.proto"]) = Some []
  /\ ids_of (outcome "FILE_OPTIONS_GO_PACKAGE_SAME_IN_DIR" [optioned; bare "a/bar.proto"])
     = Some [("FILE_OPTIONS_GO_PACKAGE_SAME_IN_DIR", "a/foo.proto"); ("FILE_OPTIONS_GO_PACKAGE_SAME_IN_DIR", "a/bar.proto")].
Proof. split; vm_compute; reflexivity. Qed.
Example C19_ex_hypotheses : one_package (bare "a/bar.proto") /\ one_option "go_package" (bare "a/bar.proto").
Proof.
  split; [intros [|x [|y a]] [|z b] c p p' E; discriminate E|]. split.
  - intros [|x [|y a]] b c o o' E; discriminate E.
  - intros (o & [E|[]] & _). discriminate E.
Qed.
(** One file sets java_package to "", the other does not set it: no report. *)
Theorem C19_empty_value_refuted : ~ (forall ord sing, reorders ord ->
  Directory_reported_exactly ord sing
    (fun d => forall a b c o o', d_elements d = a ++ EOption o :: b ++ EOption o' :: c -> o_name o <> o_name o')
    "FILE_OPTIONS_JAVA_PACKAGE_SAME_IN_DIR" (options_disagree "java_package")).
Proof.
  intros R. destruct (R in_order (fun s => s) in_order_ok) as (l & Hl & Hi & H).
  set (d1 := a_file "a/foo.proto" [EOption (an_option 2 "java_package" "")]).
  set (d2 := bare "a/bar.proto").
  destruct (H [d1; d2]) as (fs & E & _ & D & _).
  { intros d [<-|[<-|[]]] [|x [|y a]] [|z b] c o o' E; discriminate E. }
  rewrite <- (outcome_is l "FILE_OPTIONS_JAVA_PACKAGE_SAME_IN_DIR") in E by assumption. vm_compute in E. injection E as <-.
  apply (proj2 D); [|reflexivity]. exists d1, d2, (Some ""), None. split; [now left|]. split; [right; now left|]. split; [|split; [|discriminate]].
  - exists (an_option 2 "java_package" ""). split; [now left|]. split; reflexivity.
  - intros (o & [X|[]] & _). discriminate X.
Qed.
Print Assumptions C19_empty_value_refuted.

(** ** C20: requests and responses *)
Theorem C20_request_response : forall ord sing id V, In (id, V) request_response_rules ->
  Files_reported_exactly ord sing anything id V.
Proof. exact request_response_rules_exact. Qed.
Print Assumptions C20_request_response.
Theorem C20_layout : forall ord sing, reorders ord -> forall id V, In (id, V) layout_rules ->
  Files_reported_exactly ord sing distinct_top id V.
Proof. exact layout_rules_exact. Qed.
Print Assumptions C20_layout.
Definition served : descriptor := a_file "a/foo.proto" [
  EMessage (head 1 "GetResponse") false []; EEnum (head 2 "Kind") [];
  EService (head 3 "FooAPI") [ERPC (an_rpc 4 "Get" "GetRequest" "GetResponse" None) []; ERPC (an_rpc 5 "Put" "GetRequest" "foo.Res" None) []];
  EMessage (head 6 "GetRequest") false []; EMessage (head 7 "Other") false []].
Example C20_ex : lines_of "REQUEST_RESPONSE_NAMES_MATCH_RPC" served = Some [5; 5]%Z
  /\ lines_of "REQUEST_RESPONSE_TYPES_IN_SAME_FILE" served = Some [5]%Z
  /\ lines_of "REQUEST_RESPONSE_TYPES_UNIQUE" served = Some [5]%Z
  /\ lines_of "REQUEST_RESPONSE_TYPES_AFTER_SERVICE" served = Some [1; 1]%Z
  /\ lines_of "REQUEST_RESPONSE_TYPES_ONLY_IN_FILE" served = Some [2; 7]%Z.
Proof. repeat split; vm_compute; reflexivity. Qed.
Example C20_ex_hypotheses : well_formed (d_elements served) /\ distinct_top served.
Proof.
  split; [wf|]. intros e1 e2 [<-|[<-|[<-|[<-|[<-|[]]]]]] [<-|[<-|[<-|[<-|[<-|[]]]]]] E; try discriminate E; reflexivity.
Qed.
(** An extend block counts as a declaration of the message it extends. *)
Definition extended : descriptor := a_file "a/foo.proto" [
  EService (head 3 "FooAPI") [ERPC (an_rpc 4 "Get" "GetRequest" "GetResponse" None) []];
  EMessage (head 6 "GetRequest") true []; EMessage (head 7 "GetResponse") false []].
Theorem C20_extend_refuted : ~ (forall ord sing, reorders ord ->
  Files_reported_exactly ord sing anything "REQUEST_RESPONSE_TYPES_IN_SAME_FILE" (fun d p =>
    exists r t, In r (file_rpcs d) /\ p = r_pos r /\ (t = r_request r \/ t = r_returns r)
      /\ (has_substring t "." \/ ~ exists h es, In (EMessage h false es) (d_elements d) /\ h_name h = t))).
Proof.
  intros R. destruct (files_outcome _ _ _ extended (R in_order (fun s => s) in_order_ok)) as (fs & E & H); [wf|exact I|].
  vm_compute in E. injection E as <-. destruct (proj2 (H (at_line 4))) as (f & [] & _).
  exists (an_rpc 4 "Get" "GetRequest" "GetResponse" None), "GetRequest". split; [now left|]. split; [reflexivity|]. split; [now left|].
  right. intros (h & es & [X|[X|[X|[]]]] & N); try discriminate X. injection X as <- <-. discriminate N.
Qed.
Print Assumptions C20_extend_refuted.

(** ** C21: no crash *)

(** No rule dereferences nil or fails, on files the parser can give, with a name, and
    without an option (.google.api.http) of a file or service. *)
Theorem C21_no_crash_partial : forall ord sing l ds, In l (all_linters ord sing) ->
  (forall d, In d ds -> well_formed (d_elements d) /\ named d /\ no_stray_http_option d) ->
  exists fs, linter_check l ds = Ok fs.
Proof. exact no_crash. Qed.
Print Assumptions C21_no_crash_partial.
Example C21_ex : well_formed (d_elements ex_file) /\ named ex_file /\ no_stray_http_option ex_file.
Proof.
  split; [exact ex_well_formed|]. split; [discriminate|]. intros ctx e L. revert ctx e L. everywhere.
  cbn. foralls; cbn; intros (o & E); discriminate E.
Qed.
Theorem C21_http_option_refuted : exists d m, well_formed (d_elements d) /\ named d
  /\ outcome "RPC_OPTIONS_NO_GOOGLE_API_HTTP" [d] = Err m.
Proof.
  exists (a_file "a/foo.proto" [EOption (an_option 2 "(.google.api.http)" "x")]). eexists.
  split; [wf|]. split; [discriminate|]. vm_compute. reflexivity.
Qed.
Print Assumptions C21_http_option_refuted.

(** ** C22: linting a directory *)

(** A failure is about a file of a directory of the set whose path starts, as a string,
    with the path of the requested directory. *)
Theorem C22_directory_partial : forall ord sing cwd read ps absolute fs f,
  reorders ord -> NoDup (map fst (ps_files ps)) ->
  lint_run ord cwd read (all_linters ord sing) (default_linters ord) (group_to_linters ord) ps absolute = Ok (map Some fs) ->
  In f fs ->
  exists dir files file, In (dir, files) (ps_files ps) /\ In file files /\ has_prefix dir (ps_dir ps) = true
    /\ f_filename f = if absolute then pf_path file else pf_display file.
Proof. exact run_directory. Qed.
Print Assumptions C22_directory_partial.
Definition siblings : proto_set := a_set "/work/a" (mk_lint_config "google" false [] ["FILE_HEADER"] [] "" "com" false)
  [("/work/a", [mk_proto_file "/work/a/foo.proto" "a/foo.proto"]); ("/work/ab", [mk_proto_file "/work/ab/foo.proto" "ab/foo.proto"]);
   ("/work/c", [mk_proto_file "/work/c/foo.proto" "c/foo.proto"])].
Definition files_of (r : result (list (option failure))) : option (list string) :=
  match r with Ok fs => Some (map (fun f => match f with Some f => f_filename f | None => EmptyString end) fs) | Err _ => None end.
(** Linting /work/a also reports failures of /work/ab. *)
Theorem C22_sibling_refuted : exists ps read r, NoDup (map fst (ps_files ps)) /\ ~ within (ps_dir ps) "/work/ab/foo.proto"
  /\ files_of (lint_run in_order "/work" read (all_linters in_order (fun s => s)) (default_linters in_order) (group_to_linters in_order) ps true) = Some r
  /\ In "/work/ab/foo.proto" r.
Proof.
  exists siblings, (fun _ => Ok (ex_elements, "")). eexists. split; [repeat constructor; simpl; intuition discriminate|]. split.
  - intros (ds & rs & O1 & O2 & E1 & E2).
    change (ps_dir siblings) with (abs_path ["work"; "a"]) in E1. change "/work/ab/foo.proto" with (abs_path ["work"; "ab"; "foo.proto"]) in E2.
    apply abs_path_inj in E1; [|now repeat constructor|assumption]. subst ds.
    apply abs_path_inj in E2; [discriminate|now repeat constructor|]. apply Forall_app. now split.
  - split; [vm_compute; reflexivity|]. apply mem_In. vm_compute. reflexivity.
Qed.
Print Assumptions C22_sibling_refuted.
Example C22_ex : files_of (lint_run in_order "/work" (fun _ => Ok (ex_elements, "")) (all_linters in_order (fun s => s)) (default_linters in_order) (group_to_linters in_order)
    (mk_proto_set "/work" "/work/c" (ps_files siblings) (ps_config siblings)) false) = Some ["c/foo.proto"; "c/foo.proto"; "c/foo.proto"].
Proof. vm_compute. reflexivity. Qed.

(** ** C60: other rules about elements *)
Theorem C60_element_rules : forall ord sing id V, reorders ord -> In (id, V) element_rules -> Reports_exactly ord sing anything id V.
Proof. exact (fun ord sing id V => element_rules_exact ord sing id V). Qed.
Print Assumptions C60_element_rules.
Theorem C60_empty_messages_partial : forall ord sing, reorders ord ->
  Reports_exactly ord sing distinct_blocks "MESSAGES_NOT_EMPTY_EXCEPT_REQUEST_RESPONSE_TYPES" empty_message.
Proof. exact empty_message_exact. Qed.
Print Assumptions C60_empty_messages_partial.
Definition assorted : descriptor := a_file "a/foo.proto" [
  EImport (mk_import (at_line 1) "foo/google/protobuf/any.proto" "weak" None None);
  EEnum (head 2 "Kind") [EOption (an_option 3 "allow_alias" "true")];
  EMessage (head 4 "Foo") false [a_field 5 "start_time" "int64" None; a_field 6 "expiry" "google.protobuf.Timestamp" None];
  EMessage (head 7 "Bar") false [EMessage (head 8 "Inner") false [a_field 9 "x" "int64" None]]].
Example C60_ex : lines_of "IMPORTS_NOT_WEAK" assorted = Some [1]%Z /\ lines_of "WKT_DIRECTLY_IMPORTED" assorted = Some [1]%Z
  /\ lines_of "ENUMS_NO_ALLOW_ALIAS" assorted = Some [3]%Z /\ lines_of "MESSAGE_FIELDS_TIME" assorted = Some [5]%Z
  /\ lines_of "WKT_TIMESTAMP_SUFFIX" assorted = Some [6]%Z
  /\ lines_of "MESSAGES_NOT_EMPTY_EXCEPT_REQUEST_RESPONSE_TYPES" assorted = Some [7]%Z.
Proof. repeat split; vm_compute; reflexivity. Qed.
Example C60_ex_hypotheses : well_formed (d_elements assorted) /\ distinct_blocks assorted.
Proof.
  split; [wf|].
  refine (pairs_located 6 (d_elements assorted) (fun c1 e1 c2 e2 => is_message_or_extend e1 -> is_message_or_extend e2 ->
      qualified_name c1 (name_of e1) = qualified_name c2 (name_of e2) -> c1 = c2 /\ e1 = e2) eq_refl _).
  cbn. foralls; intros (? & ? & ? & A) (? & ? & ? & B) C; try discriminate A; try discriminate B; try discriminate C; split; reflexivity.
Qed.
(** A message whose only field is a group is reported as empty. *)
Theorem C60_group_field_refuted : ~ (forall ord sing, reorders ord ->
  Reports_exactly ord sing distinct_blocks "MESSAGES_NOT_EMPTY_EXCEPT_REQUEST_RESPONSE_TYPES"
    (fun d ctx e p => empty_message d ctx e p /\ forall g, In g (contents e) -> ~ is_group g)).
Proof.
  intros R. destruct (exact_outcome _ _ _ group_file (R in_order (fun s => s) in_order_ok)) as (fs & E & H); [wf| |].
  { refine (pairs_located 6 (d_elements group_file) (fun c1 e1 c2 e2 => is_message_or_extend e1 -> is_message_or_extend e2 ->
      qualified_name c1 (name_of e1) = qualified_name c2 (name_of e2) -> c1 = c2 /\ e1 = e2) eq_refl _).
    cbn. foralls; intros (? & ? & ? & A) (? & ? & ? & B) C; try discriminate A; try discriminate B; try discriminate C; split; reflexivity. }
  vm_compute in E. injection E as <-. destruct (proj1 (H (at_line 3))) as (ctx & e & L & (_ & M & _ & P) & G).
  { eexists. split; [now left|]. repeat split. }
  revert M P G. revert ctx e L. everywhere. cbn.
  foralls; intros (? & ? & ? & A); try discriminate A; intros P G; try discriminate P.
  apply (G _ (or_introl eq_refl)). now eexists _, _, _, _.
Qed.
Print Assumptions C60_group_field_refuted.

(** ** C61: rules about the head of a file *)
Theorem C61_file_rules : forall ord sing id V, In (id, V) file_rules -> Files_reported_exactly ord sing anything id V.
Proof. exact file_rules_exact. Qed.
Print Assumptions C61_file_rules.
Theorem C61_file_name : forall ord sing, Files_reported_exactly ord sing anything "FILE_NAMES_LOWER_SNAKE_CASE" file_name_rule.
Proof. exact file_name_rule_exact. Qed.
Print Assumptions C61_file_name.
Definition headless : descriptor := a_file "a/Foo.proto" [
  ESyntax (mk_syntax (at_line 1) "proto2" None None); EPackage (mk_package (at_line 2) "foo.barV1" None None)].
Example C61_ex : well_formed (d_elements headless) /\ lines_of "SYNTAX_PROTO3" headless = Some [1]%Z
  /\ lines_of "PACKAGE_LOWER_CASE" headless = Some [2]%Z /\ lines_of "PACKAGE_MAJOR_BETA_VERSIONED" headless = Some [2]%Z
  /\ lines_of "PACKAGE_IS_DECLARED" headless = Some [] /\ lines_of "FILE_NAMES_LOWER_SNAKE_CASE" headless = Some [0]%Z.
Proof. split; [wf|]. repeat split; vm_compute; reflexivity. Qed.
(** Every documented rule is the subject of one of the theorems above. *)
Definition specified_rules : list string :=
  map fst naming_rules ++ map fst golang_comment_rules ++ map fst sentence_comment_rules
  ++ ["MESSAGES_HAVE_COMMENTS_EXCEPT_REQUEST_RESPONSE_TYPES"; "MESSAGES_HAVE_SENTENCE_COMMENTS_EXCEPT_REQUEST_RESPONSE_TYPES";
      "MESSAGES_NOT_EMPTY_EXCEPT_REQUEST_RESPONSE_TYPES"; "RPC_OPTIONS_NO_GOOGLE_API_HTTP"; "FILE_NAMES_LOWER_SNAKE_CASE"]
  ++ map fst require_rules ++ map fst equal_rules ++ directory_rules ++ map fst request_response_rules ++ map fst layout_rules
  ++ map fst element_rules ++ map fst (suppressable_rules (fun s => s)) ++ map fst file_rules.
Theorem C61_all_rules_specified : forall id, documented id <-> In id specified_rules.
Proof.
  intros id. split.
  - intros (gs & H). apply (in_map fst) in H. revert H. cbn [fst]. 
    assert (X : forallb (fun i => mem i specified_rules) (map fst documented_rules) = true) by (vm_compute; reflexivity).
    rewrite forallb_forall in X. intros H. apply mem_In, X, H.
  - intros H. assert (X : forallb (fun i => mem i (map fst documented_rules)) specified_rules = true) by (vm_compute; reflexivity).
    rewrite forallb_forall in X. apply X in H. apply mem_In, in_map_iff in H as ([i gs] & E & H). cbn in E. subst i. now exists gs.
Qed.
Print Assumptions C61_all_rules_specified.
