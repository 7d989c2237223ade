(** Rule by rule: the texts of the rules that look at one element. *)
From Verif Require Import GoStrFacts GoMapFacts Strs_Proofs Protostrs_Proofs.
From Verif Require Import Lint_RuleFacts Lint_RuleProofs Lint_RuleProofs2 Lint_FileProofs Lint_MapProofs LintRun_Proofs.
From Verif Require Export Lint_Text.

Ltac in_raw Hr :=
  cbv beta in Hr;
  first [contradiction
        | apply in_if_not in Hr as [_ ->]
        | apply in_if_ in Hr as [_ ->]
        | destruct Hr as [<-|[]]].
Ltac red_kind := solve [exact I | red; eauto | reflexivity].
(** A rule that looks at each element on its own. *)
Ltac each n := eapply visiting_says; [linter n|reflexivity|not_annotated|intros; reflexivity|];
  let Hr := fresh "Hr" in
  intros ds d ctx e r W Hd Hloc HF Hr; cbv beta in Hr; destruct e; try contradiction; in_raw Hr;
  do 2 eexists; (split; [reflexivity|]); exists ctx; eexists; (split; [exact Hloc|]); (split; [red_kind|]); split; reflexivity.
Section T.
  Variables (ord : order) (sing : string -> string).
  Hypothesis Hord : reorders ord.

  Lemma c_style_text : Says ord sing "COMMENTS_NO_C_STYLE" (of_each (fun _ => True) (fun _ _ => "C-Style comments are not allowed.")).
  Proof.
    eapply visiting_says; [linter 0|reflexivity|not_annotated|intros; reflexivity|].
    intros ds d ctx e r W Hd Hloc HF Hr. cbv beta in Hr.
    assert (P : fst (all_comments e) = position_of e) by (destruct e; reflexivity).
    destruct (all_comments e) as [p cs]. cbn in P. subst p. apply in_flat_map in Hr as ([c|] & _ & Hr); [|contradiction].
    apply in_if_ in Hr as [_ ->]. do 2 eexists. split; [reflexivity|]. exists ctx, e. auto.
  Qed.
  Lemma inline_said : Says ord sing "COMMENTS_NO_INLINE" inline_text.
  Proof.
    eapply visiting_says; [linter 1|reflexivity|not_annotated|intros; reflexivity|].
    intros ds d ctx e r W Hd Hloc HF Hr. cbv beta in Hr.
    destruct (inline_comment e) as [[t [c|]]|] eqn:E; try contradiction. destruct Hr as [<-|[]].
    do 2 eexists. split; [reflexivity|]. exists ctx, e, c. split; [exact Hloc|].
    destruct e; try discriminate; cbn in E; try match type of E with (match ?k with _ => _ end = _) => destruct k end;
      injection E as <- E; auto.
  Qed.
  Ltac message n := eapply visiting_says; [linter n|reflexivity|not_annotated|intros; reflexivity|];
    let Hr := fresh "Hr" in
    intros ds d ctx e r W Hd Hloc HF Hr; cbv beta in Hr; destruct e; try contradiction;
    match type of Hr with In _ (if_not (?b || _) _) => destruct b end; cbn [orb] in Hr; [contradiction|]; in_raw Hr;
    do 2 eexists; (split; [reflexivity|]); exists ctx; eexists; (split; [exact Hloc|]); (split; [red_kind|]); split; reflexivity.
  Lemma message_camel_text : Says ord sing "MESSAGE_NAMES_CAMEL_CASE" (of_name is_message (must_be "Message name" "CamelCase")).
  Proof. message 58. Qed.
  Lemma message_capitalized_text : Says ord sing "MESSAGE_NAMES_CAPITALIZED" (of_name is_message (must_be "Message name" "capitalized")).
  Proof. message 59. Qed.
  Lemma message_comment_text : Says ord sing "MESSAGES_HAVE_COMMENTS" (of_name is_message (wants_comment "Message")).
  Proof. message 60. Qed.
  Lemma plain_field_says l id words hook : In l (all_linters ord sing) -> ln_id l = id -> ~ In id (map fst annotations) ->
    (forall ds, ln_check l ds = non_map_fields_of hook ds) ->
    (forall d f r, In r (hook d f) -> r = add_failure d (fd_pos f) (words (fd_name f))) ->
    Says ord sing id (of_name is_plain_field words).
  Proof.
    intros Hl Hid Ha Hck H. eapply visiting_says; [exact Hl|exact Hid|exact Ha|exact Hck|].
    intros ds d ctx e r W Hd Hloc HF Hr. cbv beta in Hr. destruct e; try contradiction.
    assert (K : forall t, k <> InMap t) by (intros t ->; contradiction).
    assert (Hr' : In r (hook d f)) by (destruct k; [assumption|assumption|contradiction]).
    rewrite (H d f r Hr'). do 2 eexists. split; [reflexivity|]. exists ctx, (EField k f). split; [exact Hloc|].
    split; [red; eauto|]. split; reflexivity.
  Qed.
  Ltac plain_field n := eapply plain_field_says; [linter n|reflexivity|not_annotated|intros; reflexivity|];
    let Hr := fresh "Hr" in intros d f r Hr; in_raw Hr; reflexivity.
  Lemma duration_text : Says ord sing "MESSAGE_FIELDS_DURATION" (of_name is_plain_field (must_be "Field" "a google.protobuf.Duration")).
  Proof. plain_field 47. Qed.
  Lemma time_text : Says ord sing "MESSAGE_FIELDS_TIME" (of_name is_plain_field (must_be "Field" "a google.protobuf.Timestamp")).
  Proof. plain_field 52. Qed.
  Lemma duration_suffix_text : Says ord sing "WKT_DURATION_SUFFIX" (suffix_text "google.protobuf.Duration" "duration").
  Proof. plain_field 94. Qed.
  Lemma time_suffix_text : Says ord sing "WKT_TIMESTAMP_SUFFIX" (suffix_text "google.protobuf.Timestamp" "time").
  Proof. plain_field 95. Qed.
  Lemma json_text : Says ord sing "MESSAGE_FIELDS_NO_JSON_NAME"
    (of_name is_field (fun n => "Field " +++ quote n +++ " cannot have the ""json_name"" option set.")).
  Proof.
    eapply visiting_says; [linter 51|reflexivity|not_annotated|intros; reflexivity|].
    intros ds d ctx e r W Hd Hloc HF Hr. cbv beta in Hr. destruct e; try contradiction.
    apply in_flat_map in Hr as (o & _ & Hr). in_raw Hr.
    do 2 eexists. split; [reflexivity|]. exists ctx, (EField k f). split; [exact Hloc|]. split; [red; eauto|]. split; reflexivity.
  Qed.
  Lemma float_text : Says ord sing "MESSAGE_FIELDS_NOT_FLOATS" (of_name is_field (fun n => "Field " +++ quote n
     +++ " is a float and floats should generally not be used, consider using a double, or an int64 while representing your value in micros or nanos.")).
  Proof.
    eapply (supp_says ord sing _ _ "floats"); [linter 50|reflexivity|reflexivity|discriminate|cbn; tauto|].
    intros ds raws r Hwf E Hr. injection E as <-. apply in_flat_map in Hr as (d & Hd & Hr).
    apply in_flat_map in Hr as ([ctx e] & Hv & Hr). apply visited_iff in Hv as [Hloc HF]. cbn [fst snd] in Hr.
    destruct e; try contradiction. in_raw Hr. do 4 eexists. split; [exact Hd|]. split; [reflexivity|]. split; [discriminate|].
    intros _. exists ctx, (EField k f). split; [exact Hloc|]. split; [red; eauto|]. split; reflexivity.
  Qed.
  Lemma http_text : Says ord sing "RPC_OPTIONS_NO_GOOGLE_API_HTTP" (of_each is_option (fun _ _ =>
     "Option ""google.api.http"" is not allowed. This option signifies HTTP/REST usage, use the RPC framework instead.")).
  Proof.
    eapply (supp_says ord sing _ _ "google-api-http"); [linter 79|reflexivity|reflexivity|discriminate|cbn; tauto|].
    intros ds raws r Hwf E Hr. cbn [ln_check l_rpc_options_no_google_api_http new_suppressable_linter] in E.
    unfold check_rpc_options_no_google_api_http, per_file in E.
    destruct (concatM_Ok _ _ _ E) as [_ Hi]. apply Hi in Hr as (d & rs & Hd & Ed & Hr). clear Hi E.
    destruct (concatM_Ok _ _ _ Ed) as [_ Hi]. apply Hi in Hr as ([ctx e] & rs' & Hv & E & Hr). clear Hi Ed.
    apply visited_iff in Hv as [Hloc HF]. cbn [fst snd] in E.
    destruct e; try (injection E as <-; contradiction). cbv zeta in E.
    destruct (_ || _); [|injection E as <-; contradiction].
    destruct (match ctx with ERPC r _ :: _ => Some r | _ => None end) as [rp|]; [|discriminate].
    injection E as <-. destruct Hr as [<-|[]].
    do 4 eexists. split; [exact Hd|]. split; [reflexivity|]. split; [discriminate|].
    intros _. exists ctx, (EOption o). split; [exact Hloc|]. split; [red; eauto|]. split; reflexivity.
  Qed.
  Lemma alias_text : Says ord sing "ENUMS_NO_ALLOW_ALIAS" (of_each is_option (fun _ _ => "Enum aliases are not allowed.")).
  Proof.
    eapply visiting_says; [linter 14|reflexivity|not_annotated|intros; reflexivity|].
    intros ds d ctx e r W Hd Hloc HF Hr. cbv beta in Hr. destruct e; try contradiction.
    destruct ctx as [|[] ctx]; try contradiction. in_raw Hr.
    do 2 eexists. split; [reflexivity|]. eexists. exists (EOption o). split; [exact Hloc|]. split; [red; eauto|]. split; reflexivity.
  Qed.
  Lemma enum_outside ctx : Forall (fun x => entered [KMessage; KEnum] x = true) ctx -> outside_groups ctx.
  Proof. now apply entered_no_group. Qed.
  Lemma prefix_said : Says ord sing "ENUM_FIELD_PREFIXES" (prefix_text scope_prefix).
  Proof.
    eapply visiting_says; [linter 4|reflexivity|not_annotated|intros; reflexivity|].
    intros ds d ctx e r W Hd Hloc HF Hr. cbv beta in Hr. destruct e; try contradiction. cbv zeta in Hr.
    destruct (enum_ctx_scoped _ ctx (EEnumField f es) W Hloc (enum_outside _ HF)) as [N1 N2]; [red; eauto|].
    rewrite (scope_prefix_join ctx N1 N2) in Hr. in_raw Hr.
    do 2 eexists. split; [reflexivity|]. exists ctx, (EEnumField f es). split; [exact Hloc|]. split; [red; eauto|]. split; reflexivity.
  Qed.
  Lemma zero_said : Says ord sing "ENUM_ZERO_VALUES_INVALID" (zero_text scope_prefix).
  Proof.
    eapply visiting_says; [linter 10|reflexivity|not_annotated|intros; reflexivity|].
    intros ds d ctx e r W Hd Hloc HF Hr. cbv beta in Hr. destruct e; try contradiction. cbv zeta in Hr.
    destruct (enum_ctx_scoped _ ctx (EEnumField f es) W Hloc (enum_outside _ HF)) as [N1 N2]; [red; eauto|].
    apply in_if_ in Hr as [Hz ->]. apply andb_true_iff in Hz as [Hz _]. apply Z.eqb_eq in Hz.
    do 2 eexists. split; [reflexivity|]. exists ctx, (EEnumField f es). split; [exact Hloc|]. split; [red; eauto|]. split; [reflexivity|].
    rewrite <- (scope_prefix_join ctx N1 N2), !sapp_assoc. reflexivity.
  Qed.
  Lemma enum_ctx_head d ctx f es : well_formed (d_elements d) -> located (d_elements d) ctx (EEnumField f es) -> outside_groups ctx ->
    exists h es' outer, ctx = EEnum h es' :: outer.
  Proof. intros W Hl HO. destruct (enum_value_ctx _ W _ _ Hl HO) as (h & es' & outer & -> & _); [red; eauto|eauto]. Qed.
  Lemma prefix_except_said : Says ord sing "ENUM_FIELD_PREFIXES_EXCEPT_MESSAGE" (prefix_text enum_prefix).
  Proof.
    eapply file_says; [linter 5|reflexivity|not_annotated|intros; reflexivity|].
    intros ds d rs r W Hd E Hr. destruct (concatM_Ok _ _ _ E) as [_ Hi]. apply Hi in Hr as ([ctx e] & rs' & Hv & E' & Hr). clear Hi E.
    apply visited_iff in Hv as [Hloc HF]. cbn [fst snd] in E'. destruct e; try (injection E' as <-; contradiction).
    destruct (enum_ctx_head d ctx f es W Hloc (enum_outside _ HF)) as (h & es' & outer & ->).
    injection E' as <-. in_raw Hr.
    do 2 eexists. split; [reflexivity|]. eexists. exists (EEnumField f es). split; [exact Hloc|]. split; [red; eauto|]. split; reflexivity.
  Qed.
  Lemma zero_except_said : Says ord sing "ENUM_ZERO_VALUES_INVALID_EXCEPT_MESSAGE" (zero_text enum_prefix).
  Proof.
    eapply file_says; [linter 11|reflexivity|not_annotated|intros; reflexivity|].
    intros ds d rs r W Hd E Hr. destruct (concatM_Ok _ _ _ E) as [_ Hi]. apply Hi in Hr as ([ctx e] & rs' & Hv & E' & Hr). clear Hi E.
    apply visited_iff in Hv as [Hloc HF]. cbn [fst snd] in E'. destruct e; try (injection E' as <-; contradiction).
    destruct (enum_ctx_head d ctx f es W Hloc (enum_outside _ HF)) as (h & es' & outer & ->).
    destruct (Z.eqb_spec (ef_integer f) 0) as [Hz|]; [|injection E' as <-; contradiction].
    injection E' as <-. in_raw Hr.
    do 2 eexists. split; [reflexivity|]. eexists. exists (EEnumField f es). split; [exact Hloc|]. split; [red; eauto|]. split; [reflexivity|].
    cbn [enum_prefix name_of]. rewrite (sapp_assoc (to_upper_snake_case (h_name h)) "_" "INVALID"). reflexivity.
  Qed.
  Lemma outer_names_eq p outer : (is_msg p \/ is_enum p) -> Forall is_msg outer ->
    join "." (outer_names (p :: outer)) = qualified_name outer (name_of p).
  Proof.
    intros Hp HF. rewrite <- (message_key_eq outer (name_of p) HF). unfold message_key.
    assert (E : outer_names (p :: outer) = nested_message_names outer ++ [name_of p]).
    { unfold outer_names, nested_message_names. simpl.
      assert (E1 : flat_map (fun e => match e with EMessage h _ _ | EEnum h _ => [h_name h] | _ => [] end) outer =
        flat_map (fun e => match e with EMessage h _ _ => [h_name h] | _ => [] end) outer).
      { clear Hp. induction HF as [|e l (h & x & es & ->) HF IH]; [reflexivity|]. simpl. now rewrite IH. }
      rewrite E1. destruct Hp as [(h & x & es & ->)|(h & es & ->)]; reflexivity. }
    rewrite E. destruct (nested_message_names outer) as [|n ns] eqn:En; [reflexivity|].
    rewrite join_snoc by discriminate. reflexivity.
  Qed.
  Lemma reserved_said : Says ord sing "FIELDS_NOT_RESERVED" reserved_text.
  Proof.
    eapply visiting_says; [linter 15|reflexivity|not_annotated|intros; reflexivity|].
    intros ds d ctx e r W Hd Hloc HF Hr. cbv beta in Hr. destruct e; try contradiction. destruct Hr as [<-|[]].
    destruct (reserved_ctx _ W _ _ Hloc (enum_outside _ HF)) as (p & outer & -> & Hp & HM); [red; eauto|].
    do 2 eexists. split; [reflexivity|]. exists p, outer, r0. split; [exact Hloc|]. split; [reflexivity|].
    rewrite (outer_names_eq p outer Hp HM). destruct (rs_ranges r0); reflexivity.
  Qed.
  Lemma import_said : Says ord sing "WKT_DIRECTLY_IMPORTED" import_text.
  Proof.
    eapply visiting_says; [linter 93|reflexivity|not_annotated|intros; reflexivity|].
    intros ds d ctx e r W Hd Hloc HF Hr. cbv beta in Hr. destruct e; try contradiction.
    apply in_flat_map in Hr as (w & _ & Hr). in_raw Hr.
    do 2 eexists. split; [reflexivity|]. exists i. split; [|split; reflexivity].
    pose proof (top_ctx _ W _ _ Hloc eq_refl) as ->. now inversion Hloc.
  Qed.
  Lemma api_said : Says ord sing "SERVICE_NAMES_API_SUFFIX" api_text.
  Proof.
    eapply visiting_says; [linter 87|reflexivity|not_annotated|intros; reflexivity|].
    intros ds d ctx e r W Hd Hloc HF Hr. cbv beta in Hr. destruct e; try contradiction. in_raw Hr.
    do 2 eexists. split; [reflexivity|]. exists h, es. split; [|split; [reflexivity|]].
    - pose proof (top_ctx _ W _ _ Hloc eq_refl) as ->. now inversion Hloc.
    - cbv zeta. destruct (has_suffix (h_name h) "Service") eqn:E.
      + left. split; [now apply ends_with_iff|]. rewrite !sapp_assoc. reflexivity.
      + right. split; [|reflexivity]. rewrite <- ends_with_iff. congruence.
  Qed.

  (** ** Replacing *)
End T.
