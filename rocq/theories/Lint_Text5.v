(** All rules together. *)
From Verif Require Import Lint_RuleFacts Lint_RuleProofs Lint_RuleProofs2 Lint_FileProofs Lint_MapProofs LintRun_Proofs.
From Verif Require Export Lint_Text4.

Section T.
  Variables (ord : order) (sing : string -> string).
  Hypothesis Hord : reorders ord.
  Theorem all_said id S : In (id, S) (texts sing) -> Says ord sing id S.
  Proof.
    intros H. unfold texts in H. apply in_app_or in H as [H|H].
    { apply (exactly_says ord sing anything); [now apply exact_said|intros; exact I]. }
    repeat (destruct H as [E|H]; [injection E as <- <-|]); [..|contradiction].
    - now apply after_said.
    - now apply c_style_text.
    - now apply inline_said.
    - each 2.
    - each 3.
    - now apply prefix_said.
    - now apply prefix_except_said.
    - each 6.
    - each 7.
    - each 8.
    - each 9.
    - now apply zero_said.
    - now apply zero_except_said.
    - each 12.
    - each 13.
    - now apply alias_text.
    - now apply reserved_said.
    - now apply header_said.
    - now apply file_case_said.
    - eapply same_option_said; [assumption|linter 18|reflexivity|not_annotated|reflexivity].
    - eapply equal_said; [linter 19|reflexivity|not_annotated|reflexivity].
    - eapply equal_said; [linter 20|reflexivity|not_annotated|reflexivity].
    - eapply equal_said; [linter 21|reflexivity|not_annotated|reflexivity].
    - eapply equal_said; [linter 22|reflexivity|not_annotated|reflexivity].
    - eapply equal_said; [linter 23|reflexivity|not_annotated|reflexivity].
    - eapply equal_said; [linter 24|reflexivity|not_annotated|reflexivity].
    - eapply equal_said; [linter 25|reflexivity|not_annotated|reflexivity].
    - eapply equal_said; [linter 26|reflexivity|not_annotated|reflexivity].
    - eapply equal_said; [linter 27|reflexivity|not_annotated|reflexivity].
    - now apply long_form_said.
    - eapply same_option_said; [assumption|linter 29|reflexivity|not_annotated|reflexivity].
    - eapply same_option_said; [assumption|linter 30|reflexivity|not_annotated|reflexivity].
    - eapply same_option_said; [assumption|linter 31|reflexivity|not_annotated|reflexivity].
    - eapply same_option_said; [assumption|linter 32|reflexivity|not_annotated|reflexivity].
    - eapply same_option_said; [assumption|linter 33|reflexivity|not_annotated|reflexivity].
    - eapply (require_said ord sing _ _ "csharp_namespace"); [linter 34|reflexivity|not_annotated|reflexivity].
    - eapply (require_said ord sing _ _ "go_package"); [linter 35|reflexivity|not_annotated|reflexivity].
    - eapply (require_said ord sing _ _ "java_multiple_files"); [linter 36|reflexivity|not_annotated|reflexivity].
    - eapply (require_said ord sing _ _ "java_outer_classname"); [linter 37|reflexivity|not_annotated|reflexivity].
    - eapply (require_said ord sing _ _ "java_package"); [linter 38|reflexivity|not_annotated|reflexivity].
    - eapply (require_said ord sing _ _ "objc_class_prefix"); [linter 39|reflexivity|not_annotated|reflexivity].
    - eapply (require_said ord sing _ _ "php_namespace"); [linter 40|reflexivity|not_annotated|reflexivity].
    - eapply (require_said ord sing _ _ "ruby_package"); [linter 41|reflexivity|not_annotated|reflexivity].
    - eapply unset_said; [linter 42|reflexivity|not_annotated|reflexivity].
    - eapply unset_said; [linter 43|reflexivity|not_annotated|reflexivity].
    - each 44.
    - each 45.
    - each 46.
    - now apply duration_text.
    - each 48.
    - each 49.
    - now apply float_text.
    - now apply json_text.
    - now apply time_text.
    - now apply filename_said.
    - now apply filepath_said.
    - each 55.
    - each 56.
    - each 57.
    - now apply message_camel_text.
    - now apply message_capitalized_text.
    - now apply message_comment_text.
    - now apply except_comment_said.
    - now apply except_sentence_said.
    - now apply empty_said.
    - each 67.
    - now apply declared_said.
    - now apply lower_said.
    - now apply lower_snake_said.
    - now apply versioned_said.
    - now apply same_packages_said.
    - each 74.
    - each 75.
    - each 76.
    - each 77.
    - each 78.
    - now apply http_text.
    - now apply only_said.
    - each 85.
    - each 86.
    - now apply api_said.
    - each 88.
    - each 89.
    - now apply file_name_said.
    - now apply syntax_said.
    - now apply import_said.
    - now apply duration_suffix_text.
    - now apply time_suffix_text.
  Qed.
  Theorem every_rule id : In id (map ln_id (all_linters ord sing)) <-> exists S, In (id, S) (texts sing).
  Proof.
    assert (E : (exists S, In (id, S) (texts sing)) <-> In id (map fst (texts sing))).
    { rewrite in_map_iff. split; [intros [S H]; exists (id, S); auto|intros ([i S] & <- & H); eauto]. }
    rewrite E, <- !mem_In. clear E.
    assert (G : forall A B, forallb (fun i => mem i B) A = true -> mem id A = true -> mem id B = true).
    { intros A B H Hm. apply mem_In in Hm. now apply (proj1 (forallb_forall _ _) H). }
    split; apply G; reflexivity.
  Qed.
End T.
