(** Properties of what is said of a configuration, an error format, a file or a flag that
    names something unknown: C108. *)
From Verif Require Import GoStrFacts Text_Spec Text_Proofs Lint_Spec LintRun_Spec LintRun_Proofs Exec_Proofs LintCmd_Proofs Props_Lint Props_LintCmd.
From Verif Require Format_Model.

(** The rule or group that a configuration names and that does not exist is named.  An
    unknown group is said first. *)
Theorem C108_rules : forall ord sing c m, reorders ord ->
  get_linters ord (all_linters ord sing) (default_linters ord) (group_to_linters ord) c = Err m ->
  if in_dec string_dec (lc_group c) ("" :: documented_groups)
  then exists id, m = "unknown lint id in configuration file: " +++ id /\ ~ documented id /\
         (In id (lc_include_ids c) \/ In id (lc_exclude_ids c) \/ In id (map fst (lc_ignores c)))
  else m = "unknown lint group: " +++ lc_group c.
Proof.
  intros ord sing c m Hord E.
  assert (Ids : forall ids e, mapM (check_lint_id (all_linters ord sing)) ids = Err e ->
    exists id, e = "unknown lint id in configuration file: " +++ id /\ ~ documented id /\ In id ids).
  { induction ids as [|id ids IH]; intros e H; [discriminate H|]. cbn [mapM] in H. unfold check_lint_id in H at 1.
    destruct (existsb (fun l => String.eqb (ln_id l) id) (all_linters ord sing)) eqn:X; cbn [bind] in H.
    - destruct (mapM (check_lint_id (all_linters ord sing)) ids) as [us|e'] eqn:M; [discriminate H|]. cbn [bind] in H. injection H as <-.
      destruct (IH _ eq_refl) as (i & A & B & C). exists i. split; [exact A|]. split; [exact B|]. now right.
    - assert (e = "unknown lint id in configuration file: " +++ id) as -> by exact (eq_sym (f_equal (fun r => match r with Err m => m | Ok _ => "" end) H)).
      exists id. split; [reflexivity|]. split; [|now left]. intros D. apply (documented_iff ord sing) in D.
      apply in_map_iff in D as (l & El & Il). assert (existsb (fun l => String.eqb (ln_id l) id) (all_linters ord sing) = true) as Y; [|congruence].
      apply existsb_exists. exists l. split; [exact Il|]. now apply String.eqb_eq. }
  unfold get_linters in E. unfold base_linters in E.
  destruct (in_dec string_dec (lc_group c) ("" :: documented_groups)) as [I|I].
  - assert (exists ls, (if negb (is_empty (lc_group c)) then match gget (lc_group c) (group_to_linters ord) with Some ls => Ok ls | None => Err ("unknown lint group: " +++ lc_group c) end else if lc_no_default c then Ok [] else Ok (default_linters ord)) = Ok ls) as (ls & L).
    { destruct (is_empty (lc_group c)) eqn:Em; cbn [negb]; [destruct (lc_no_default c); eauto|].
      destruct I as [I|I]; [rewrite <- I in Em; discriminate Em|].
      pose proof (groups_good ord sing (lc_group c)) as G. destruct (gget (lc_group c) (group_to_linters ord)); [eauto|]. contradiction. }
    rewrite L in E. cbn [bind] in E. clear L.
    destruct (mapM (check_lint_id _) (lc_include_ids c)) as [u1|e1] eqn:E1; cbn [bind] in E.
    2:{ injection E as <-. destruct (Ids _ _ E1) as (i & A & B & C). eauto 8. }
    destruct (mapM (check_lint_id _) (lc_exclude_ids c)) as [u2|e2] eqn:E2; cbn [bind] in E.
    2:{ injection E as <-. destruct (Ids _ _ E2) as (i & A & B & C). eauto 8. }
    destruct (mapM (check_lint_id _) (ord "IgnoreIDToFilePaths" _ (map fst (lc_ignores c)))) as [u3|e3] eqn:E3; cbn [bind] in E.
    2:{ injection E as <-. destruct (Ids _ _ E3) as (i & A & B & C). exists i. split; [exact A|]. split; [exact B|]. right. right.
        exact (Permutation_in _ (Permutation_sym (Hord _ _ _)) C). }
    destruct (lc_include_ids c), (lc_exclude_ids c); discriminate E.
  - destruct (is_empty (lc_group c)) eqn:Em; [apply is_empty_true in Em; destruct I; now left|]. cbn [negb] in E.
    pose proof (groups_good ord sing (lc_group c)) as G. destruct (gget (lc_group c) (group_to_linters ord)); [destruct I; right; tauto|].
    cbn [bind] in E. exact (eq_sym (f_equal (fun r => match r with Err m => m | Ok _ => "" end) E)).
Qed.

(** The first part of an error format that is not the name of a field is named, also when
    there is nothing to print, and nothing is printed. *)
Definition a_field (s : string) : Prop := In (to_lower s) ["filename"; "line"; "column"; "id"; "message"].
Lemma field_or s : (exists x, parse_failure_field s = Ok x /\ a_field s) \/ (parse_failure_field s = Err ("could not parse " +++ s +++ " to a FailureField") /\ ~ a_field s).
Proof.
  unfold parse_failure_field, a_field.
  destruct (String.eqb (to_lower s) "filename") eqn:E1; [apply String.eqb_eq in E1; left; eexists; split; [reflexivity|]; rewrite E1; cbn; tauto|].
  destruct (String.eqb (to_lower s) "line") eqn:E2; [apply String.eqb_eq in E2; left; eexists; split; [reflexivity|]; rewrite E2; cbn; tauto|].
  destruct (String.eqb (to_lower s) "column") eqn:E3; [apply String.eqb_eq in E3; left; eexists; split; [reflexivity|]; rewrite E3; cbn; tauto|].
  destruct (String.eqb (to_lower s) "id") eqn:E4; [apply String.eqb_eq in E4; left; eexists; split; [reflexivity|]; rewrite E4; cbn; tauto|].
  destruct (String.eqb (to_lower s) "message") eqn:E5; [apply String.eqb_eq in E5; left; eexists; split; [reflexivity|]; rewrite E5; cbn; tauto|].
  right. split; [reflexivity|]. apply String.eqb_neq in E1, E2, E3, E4, E5. cbn [In]. intros [H|[H|[H|[H|[H|[]]]]]]; congruence.
Qed.
Theorem C108_error_format : forall cwd json to_json format pre part post filename m fs s,
  format = join ":" (pre ++ part :: post) -> Forall (fun p => no_char ":" p = true) (pre ++ part :: post) ->
  format <> "" -> Forall a_field pre -> ~ a_field part ->
  print_failures_for cwd json to_json format filename m fs s = (s, Fail ("could not parse " +++ part +++ " to a FailureField")).
Proof.
  intros cwd json to_json format pre part post filename m fs s -> N NE A B. unfold print_failures_for, and_then.
  assert (parse_colon_separated_failure_fields (join ":" (pre ++ part :: post)) = Err ("could not parse " +++ part +++ " to a FailureField")) as ->; [|reflexivity].
  unfold parse_colon_separated_failure_fields. apply is_empty_false in NE. rewrite NE. rewrite (split_join ":" (pre ++ part :: post)) by (first [exact N | destruct pre; discriminate]).
  clear N NE. induction A as [|p pre Hp _ IH]; cbn [app mapM].
  - destruct (field_or part) as [(x & _ & F)|(-> & _)]; [contradiction|reflexivity].
  - destruct (field_or p) as [(x & -> & _)|(_ & F)]; [|contradiction]. cbn [bind]. now rewrite IH.
Qed.
(** That is all that can be wrong with an error format. *)
Theorem C108_error_formats : forall cwd json to_json format filename m fs s,
  Forall a_field (split_char ":" format) \/ format = "" ->
  exists es, print_failures_for cwd json to_json format filename m fs s = (mk_io (io_disk s) (io_done s ++ es), Value tt).
Proof.
  intros cwd json to_json format filename m fs s A. unfold print_failures_for, and_then at 1.
  assert (exists fields, parse_colon_separated_failure_fields format = Ok fields) as (fields & E).
  { unfold parse_colon_separated_failure_fields. destruct A as [A| ->]; [|cbn; eauto]. destruct (is_empty format); [eauto|].
    induction A as [|p l Hp _ (fields & IH)]; cbn [mapM]; [eauto|]. destruct (field_or p) as [(x & -> & _)|(_ & F)]; [|contradiction]. cbn [bind]. rewrite IH. cbn [bind]. eauto. }
  rewrite E. cbn [check ret].
  match goal with |- context [mapM (failure_line json to_json fields) ?l] => assert (exists lines, mapM (failure_line json to_json fields) l = Ok lines) as (lines & L) end.
  { match goal with |- context [mapM _ ?x] => induction x as [|f l (lines & IH)] end; cbn [mapM]; [eauto|].
    assert (exists line, failure_line json to_json fields f = Ok line) as (line & ->).
    { unfold failure_line. destruct json; [eauto|]. pose proof (accepted_fields_print format fields f E) as P. destruct (fprintln f fields) as [t [e|]]; [discriminate P|eauto]. }
    cbn [bind]. rewrite IH. cbn [bind]. eauto. }
  rewrite L. unfold and_then. cbn [check]. unfold ret at 1. destruct lines as [|l ls].
  - exists []. unfold ret. rewrite app_nil_r. now destruct s.
  - eexists. reflexivity.
Qed.

(** A file whose syntax is neither proto2 nor proto3 is not formatted, and the syntax is
    named; other than that formatting only fails when the file cannot be read as a protobuf
    file. *)
Import Format_Model.
Definition first_syntax (es : list element) : option syntax :=
  match concat (map (fun e => match e with ESyntax s => [s] | _ => [] end) es) with s :: _ => Some s | [] => None end.
Theorem C108_syntax : forall sort_o sort_i parse fix_value header prefix filename data, In fix_value [0; 1; 2]%Z ->
  match parse data with
  | Err m => transform sort_o sort_i parse fix_value header prefix filename data = Err m
  | Ok es =>
      match first_syntax es with
      | Some s =>
          if in_dec string_dec (sx_value s) [""; "proto2"; "proto3"]
          then exists r, transform sort_o sort_i parse fix_value header prefix filename data = Ok r
          else transform sort_o sort_i parse fix_value header prefix filename data = Err ("unknown syntax: " +++ sx_value s)
      | None => exists r, transform sort_o sort_i parse fix_value header prefix filename data = Ok r
      end
  end.
Proof.
  intros sort_o sort_i parse fv header prefix filename data F. unfold transform.
  assert (exists fx, check_fix fv = Ok fx) as (fx & ->) by (destruct F as [<-|[<-|[<-|[]]]]; eexists; reflexivity). cbn [bind].
  destruct (parse data) as [es|m]; cbn [bind]; [|reflexivity].
  assert (Sx : forall v, fp_syntax (fold_left (first_visit fx header) es v) = match fp_syntax v with Some s => Some s | None => first_syntax es end).
  { clear. unfold first_syntax. induction es as [|e es IH]; intros v; [cbn; destruct (fp_syntax v) as [x|] eqn:Ev; rewrite ?Ev; reflexivity|]. cbn [fold_left map concat]. rewrite IH. clear IH.
    assert (K : forall o, fp_syntax (first_option fx v o) = fp_syntax v).
    { intros o. unfold first_option. destruct (fix_none fx); [reflexivity|]. repeat (match goal with |- context [if ?b then _ else _] => destruct b end; [reflexivity|]). reflexivity. }
    destruct e; cbn [first_visit app]; try (rewrite ?K; reflexivity).
    - destruct (fp_hit v); [reflexivity|]. destruct (fix_none fx || is_empty header)%bool; reflexivity.
    - destruct (fp_syntax v) eqn:E; cbn; rewrite ?E; reflexivity.
    - destruct (fp_package v); reflexivity. }
  unfold transform_elements. rewrite Sx. cbn [fp_syntax first_pass_0].
  destruct (first_syntax es) as [s|]; [|eexists; reflexivity].
  destruct (in_dec string_dec (sx_value s) [""; "proto2"; "proto3"]) as [I|I].
  - destruct I as [<-|[<-|[<-|[]]]]; eexists; reflexivity.
  - assert (forall x, In x [""; "proto2"; "proto3"] -> String.eqb (sx_value s) x = false) as N.
    { intros x Hx. apply String.eqb_neq. intros <-. contradiction. }
    rewrite !N by (cbn; tauto). reflexivity.
Qed.

(** What is said of a wrong value of --diff-lint-groups: there must be one comma; then the
    first group that does not exist is named, in lower case. *)
Theorem C108_groups : forall ord cwd work_dir error_format json to_json stat get_for_dir D compiler commands parse sing purpose marshal args parts s,
  Forall (fun p => no_char "," p = true) parts -> parts <> [] -> join "," parts <> "" ->
  let told := snd (LintCmd_Model.lint_cmd ord cwd work_dir error_format json to_json stat get_for_dir D compiler commands parse sing purpose marshal args false false false "" (join "," parts) false s) in
  match parts with
  | [a; b] =>
      (~ In (to_lower a) documented_groups -> told = Exit ("unknown lint group: " +++ to_lower a)) /\
      (In (to_lower a) documented_groups -> ~ In (to_lower b) documented_groups -> told = Exit ("unknown lint group: " +++ to_lower b))
  | _ => told = Fail "argument to --diff-lint-groups must be two lint groups separated by '.', for example google,uber2"
  end.
Proof.
  intros ord cwd work_dir error_format json to_json stat get_for_dir D compiler commands parse sing purpose marshal args parts s N NE X told. unfold told. clear told.
  rewrite Props_LintCmd.diff_flags by exact X. unfold LintCmd_Model.diff_lint_groups. rewrite split_join by assumption.
  destruct parts as [|a [|b [|c r]]]; try reflexivity.
  unfold and_then, LintCmd_Model.get_linter_ids. pose proof (groups_good ord sing (to_lower a)) as Ga. pose proof (groups_good ord sing (to_lower b)) as Gb.
  split; [intros H|intros H H'].
  - destruct (gget (to_lower a) (group_to_linters ord)); [tauto|reflexivity].
  - destruct (gget (to_lower a) (group_to_linters ord)); [|contradiction]. unfold ret at 1.
    destruct (gget (to_lower b) (group_to_linters ord)); [tauto|reflexivity].
Qed.

(** ** Cases *)
Definition exm_lint (group : string) (include exclude : list string) : lint_config :=
  mk_lint_config group false include exclude [] "" "com" false.
Example C108_rules_ex :
  map (fun c => get_linters reversed (all_linters reversed (fun s => s)) (default_linters reversed) (group_to_linters reversed) c)
    [exm_lint "uber3" ["NO_SUCH"] []; exm_lint "google" ["SYNTAX_PROTO3"] ["NO_SUCH"; "NOR_THIS"]; exm_lint "empty" [] []] =
  [Err "unknown lint group: uber3"; Err "unknown lint id in configuration file: NO_SUCH"; Ok []].
Proof. vm_compute. reflexivity. Qed.
Example C108_error_format_ex : Forall a_field ["Filename"; "line"] /\ ~ a_field "lines" /\
  snd (print_failures_for "/w" false (fun _ => "") "Filename:line:lines:what" "" None [] (mk_io (fun _ => Err "") []))
  = Fail "could not parse lines to a FailureField".
Proof.
  split; [repeat constructor; vm_compute; tauto|]. split; [|vm_compute; reflexivity].
  intros H. vm_compute in H. intuition discriminate.
Qed.
Example C108_error_formats_ex :
  io_done (fst (print_failures_for "/w" false (fun _ => "") "ID:message" "" None [mk_failure "a.proto" 1 1 "X" "bad"] (mk_io (fun _ => Err "") [])))
  = [Printed ("X:bad" +++ String newline "")].
Proof. vm_compute. reflexivity. Qed.
Example C108_syntax_ex :
  let file v := [ESyntax (mk_syntax (mk_pos 1 1) v None None)] in
  map (fun v => transform (fun l => l) (fun l => l) (fun _ => Ok (file v)) 0 "" "" "a.proto" "") ["proto4"; "proto3"] =
  [Err "unknown syntax: proto4"; Ok ("syntax = " +++ String dquote "proto3" +++ String dquote ";" +++ String newline "", [])].
Proof. vm_compute. reflexivity. Qed.
Example C108_groups_ex :
  let told x := snd (LintCmd_Model.lint_cmd reversed "/w" "/w" "" false (fun _ => "") (fun _ => Err "") (fun _ _ => Err "") unit
    (fun _ _ _ _ _ => Err "") (fun _ _ => Err "") (fun _ _ => Err "") (fun s => s) (fun _ _ => "") (fun _ => Err "") [] false false false "" x false (mk_io (fun _ => Err "") [])) in
  map told ["google"; "Google,uber3"; "x,y"] =
  [Fail "argument to --diff-lint-groups must be two lint groups separated by '.', for example google,uber2";
   Exit "unknown lint group: uber3"; Exit "unknown lint group: x"].
Proof. vm_compute. reflexivity. Qed.

Print Assumptions C108_rules.
Print Assumptions C108_error_format.
Print Assumptions C108_error_formats.
Print Assumptions C108_syntax.
Print Assumptions C108_groups.
