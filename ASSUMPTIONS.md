# Print Assumptions

The output of `Print Assumptions` for each theorem, as the build prints it.

* Props_Breaking.v, `C04_runs`: Closed under the global context
* Props_Breaking.v, `C01_reflexive`: Closed under the global context
* Props_Breaking.v, `C01_reflexive_up_to_beta_deps`: Closed under the global context
* Props_Breaking.v, `C02_transitive`: Closed under the global context
* Props_Breaking.v, `C03_additions`: Closed under the global context
* Props_Breaking.v, `C03_additions_up_to_beta_deps`: Closed under the global context
* Props_Breaking.v, `C04_deletions`: Closed under the global context
* Props_Breaking.v, `C05_changes_only`: Closed under the global context
* Props_Breaking.v, `C05_changes_reported`: Closed under the global context
* Props_Breaking.v, `C05_complete_list`: Closed under the global context
* Props_Breaking.v, `C06_beta_ignored`: Closed under the global context
* Props_Breaking.v, `C06_beta_deps`: Closed under the global context
* Props_Breaking.v, `C07_rename_reported_partial`: Closed under the global context
* Props_Breaking.v, `C07_alias_rename_refuted`: Closed under the global context
* Props_Breaking.v, `C07_alias_reorder_reported_refuted`: Closed under the global context
* Props_Breaking.v, `C08_inverse`: Closed under the global context
* Props_Breaking.v, `C08_all_listed_exist`: Closed under the global context
* Props_Clean.v, `C120_clean`: Closed under the global context
* Props_Clean.v, `C120_exact`: Closed under the global context
* Props_Clean.v, `C120_both`: Closed under the global context
* Props_Cmd.v, `C76_status`: Closed under the global context
* Props_Cmd.v, `C76_mistyped_refuted`: Closed under the global context
* Props_Cmd.v, `C77_meaning`: Closed under the global context
* Props_Cmd.v, `C77_bad_time`: Closed under the global context
* Props_Cmd.v, `C77_order`: Closed under the global context
* Props_Cmd.v, `C77_unknown_flag`: Closed under the global context
* Props_Cmd.v, `C77_unknown_letter`: Closed under the global context
* Props_Cmd.v, `C77_number`: Closed under the global context
* Props_Cmd.v, `C77_no_value`: Closed under the global context
* Props_Cmd.v, `C77_help`: Closed under the global context
* Props_Cmd.v, `C77_header_comma_refuted`: Closed under the global context
* Props_Cmd.v, `C78_no_other`: Closed under the global context
* Props_Cmd.v, `C78_flag_wins`: Closed under the global context
* Props_Cmd.v, `C78_variable`: Closed under the global context
* Props_Cmd.v, `C76_other_system`: Closed under the global context
* Props_Cmd2.v, `C77_cluster`: Closed under the global context
* Props_Cmd2.v, `C77_attached`: Closed under the global context
* Props_Cmd2.v, `C77_words`: Closed under the global context
* Props_Cmd2.v, `C77_bad_word`: Closed under the global context
* Props_Cmd2.v, `C77_letter_equals_refuted`: Closed under the global context
* Props_Cmd2.v, `C77_first`: Closed under the global context
* Props_Cmd2.v, `C77_switch_first_refuted`: Closed under the global context
* Props_Cmd2.v, `C77_value_first_refuted`: Closed under the global context
* Props_CmdText.v, `C77_said`: Closed under the global context
* Props_Create.v, `C28_nothing_written`: Closed under the global context
* Props_Create.v, `C28_only_empty_changed`: Closed under the global context
* Props_Create.v, `C28_written`: Closed under the global context
* Props_Create.v, `C28_all_or_nothing_refuted`: Closed under the global context
* Props_Create.v, `C29_package_partial`: Closed under the global context
* Props_Create.v, `C29_determined`: Closed under the global context
* Props_Create.v, `C29_rules_partial`: Closed under the global context
* Props_Create.v, `C29_sibling_refuted`: Closed under the global context
* Props_Create.v, `C29_config_data_refuted`: Closed under the global context
* Props_CreateOut.v, `C30_format`: Closed under the global context
* Props_CreateOut.v, `C30_reads`: Closed under the global context
* Props_CreateOut.v, `C30_lint_partial`: Closed under the global context
* Props_CreateOut.v, `C30_uber1_prefix_refuted`: Closed under the global context
* Props_DescText.v, `C10_said`: Closed under the global context
* Props_DescText.v, `C11_said`: Closed under the global context
* Props_Diff.v, `C80_names`: Closed under the global context
* Props_Diff.v, `C80_short`: Closed under the global context
* Props_Diff.v, `C80_leaves_nothing`: Closed under the global context
* Props_Diff.v, `C80_result`: Closed under the global context
* Props_Download.v, `C51_complete_partial`: Closed under the global context
* Props_Download.v, `C51_program_last`: Closed under the global context
* Props_Download.v, `C51_written`: Closed under the global context
* Props_Download.v, `C51_recovers`: Closed under the global context
* Props_Download.v, `C51_order_refuted`: Closed under the global context
* Props_Download.v, `C51_delete_refuted`: Closed under the global context
* Props_Download.v, `C52_exclusion_partial`: Closed under the global context
* Props_Download.v, `C52_quiet_partial`: Closed under the global context
* Props_Download.v, `C52_delete_refuted`: Closed under the global context
* Props_Download.v, `C53_default_partial`: Closed under the global context
* Props_Download.v, `C53_removes`: Closed under the global context
* Props_Download.v, `C63_location`: Closed under the global context
* Props_Download.v, `C63_distinct`: Closed under the global context
* Props_Download.v, `C53_custom_refuted`: Closed under the global context
* Props_Download.v, `C63_version_refuted`: Closed under the global context
* Props_Download.v, `C64_url`: Closed under the global context
* Props_Download.v, `C64_custom`: Closed under the global context
* Props_Download.v, `C64_data_partial`: Closed under the global context
* Props_Download.v, `C64_found`: Closed under the global context
* Props_Download.v, `C64_status_refuted`: Closed under the global context
* Props_Download.v, `C65_options`: Closed under the global context
* Props_Download.v, `C65_kept`: Closed under the global context
* Props_Download.v, `C65_environment`: Closed under the global context
* Props_Download.v, `C65_local`: Closed under the global context
* Props_Download.v, `C65_cached`: Closed under the global context
* Props_Download.v, `C65_error_refuted`: Closed under the global context
* Props_Download.v, `C66_within_partial`: Closed under the global context
* Props_Download.v, `C66_named`: Closed under the global context
* Props_Download.v, `C66_slip_refuted`: Closed under the global context
* Props_DownloadText.v, `C65_said`: Closed under the global context
* Props_DownloadText.v, `C64_said`: Closed under the global context
* Props_DownloadText2.v, `C64_system`: Closed under the global context
* Props_DownloadText2.v, `C63_said`: Closed under the global context
* Props_DownloadText2.v, `C53_said`: Closed under the global context
* Props_Exec.v, `C27_flags`: Closed under the global context
* Props_Exec.v, `C27_reads`: Closed under the global context
* Props_Exec.v, `C27_writes`: Closed under the global context
* Props_Exec.v, `C27_formatted`: Closed under the global context
* Props_Exec.v, `C27_status`: Closed under the global context
* Props_Exec.v, `C27_output`: Closed under the global context
* Props_Exec.v, `C54_compile`: Closed under the global context
* Props_Exec.v, `C54_gen`: Closed under the global context
* Props_Exec.v, `C59_files`: Closed under the global context
* Props_Exec.v, `C54_lint`: Closed under the global context
* Props_Exec.v, `C67_success`: Closed under the global context
* Props_Exec.v, `C67_order`: Closed under the global context
* Props_Exec.v, `C67_writes`: Closed under the global context
* Props_Exec.v, `C68_killed`: Closed under the global context
* Props_Exec.v, `C68_failed`: Closed under the global context
* Props_Exec.v, `C69_dry_run`: Closed under the global context
* Props_Exec.v, `C54_status_refuted`: Closed under the global context
* Props_Exec.v, `C68_atomic_refuted`: Closed under the global context
* Props_File.v, `C39_hides`: Closed under the global context
* Props_File.v, `C39_accepted_partial`: Closed under the global context
* Props_File.v, `C39_rejected`: Closed under the global context
* Props_File.v, `C39_sibling_refuted`: Closed under the global context
* Props_File.v, `C41_discovery_partial`: Closed under the global context
* Props_File.v, `C41_data`: Closed under the global context
* Props_File.v, `C41_data_ignores_files`: Closed under the global context
* Props_File.v, `C41_total`: Closed under the global context
* Props_File.v, `C41_grouped`: Closed under the global context
* Props_File.v, `C41_sibling_refuted`: Closed under the global context
* Props_File.v, `C41_dotdot_refuted`: Closed under the global context
* Props_File.v, `C42_one_configuration`: Closed under the global context
* Props_File.v, `C42_accepted`: Closed under the global context
* Props_File.v, `C42_two_configurations`: Closed under the global context
* Props_File.v, `C42_order`: Closed under the global context
* Props_File.v, `C42_data`: Closed under the global context
* Props_File.v, `C42_relative`: Closed under the global context
* Props_File.v, `C43_display`: Closed under the global context
* Props_File.v, `C44_complete`: Closed under the global context
* Props_File.v, `C44_late`: Closed under the global context
* Props_File.v, `C44_terminates`: Closed under the global context
* Props_Files.v, `C59_tree_partial`: Closed under the global context
* Props_Files.v, `C59_sibling_refuted`: Closed under the global context
* Props_Format.v, `C23_shape`: Closed under the global context
* Props_Format.v, `C23_empty`: Closed under the global context
* Props_Format.v, `C23_empty_header_refuted`: Closed under the global context
* Props_Format.v, `C24_tokens`: Closed under the global context
* Props_Format.v, `C24_canonical`: Closed under the global context
* Props_Format.v, `C24_layout`: Closed under the global context
* Props_Format.v, `C24_stable_partial`: Closed under the global context
* Props_Format.v, `C24_option_comment_refuted`: Closed under the global context
* Props_Format.v, `C24_empty_option_refuted`: Closed under the global context
* Props_Format.v, `C24_rpc_comment_refuted`: Closed under the global context
* Props_Format.v, `C24_label_refuted`: Closed under the global context
* Props_Format.v, `C24_group_option_refuted`: Closed under the global context
* Props_Format.v, `C25_written`: Closed under the global context
* Props_Format.v, `C25_uber2`: Closed under the global context
* Props_Format.v, `C25_uber1_partial`: Closed under the global context
* Props_Format.v, `C25_uber1_prefix_refuted`: Closed under the global context
* Props_Format.v, `C26_unmanaged`: Closed under the global context
* Props_Format.v, `C26_managed_v2`: Closed under the global context
* Props_Format.v, `C26_no_package_refuted`: Closed under the global context
* Props_Format.v, `C26_uber1_refuted`: Closed under the global context
* Props_Format.v, `C26_comments_refuted`: Closed under the global context
* Props_Grpc.v, `C57_refused`: Closed under the global context
* Props_Grpc.v, `C57_accepted`: Closed under the global context
* Props_Grpc.v, `C57_malformed`: Closed under the global context
* Props_Grpc.v, `C57_connection`: Closed under the global context
* Props_Grpc.v, `C58_service`: Closed under the global context
* Props_Grpc.v, `C58_missing`: Closed under the global context
* Props_Grpc.v, `C58_found_partial`: Closed under the global context
* Props_Grpc.v, `C75_output`: Closed under the global context
* Props_Grpc.v, `C75_silent`: Closed under the global context
* Props_Grpc.v, `C57_headers_refuted`: Closed under the global context
* Props_Grpc.v, `C58_package_refuted`: Closed under the global context
* Props_Grpc.v, `C75_empty_refuted`: Closed under the global context
* Props_GrpcText.v, `C57_said`: Closed under the global context
* Props_GrpcText.v, `C58_said`: Closed under the global context
* Props_Init.v, `C79_configures`: Closed under the global context
* Props_Init.v, `C79_uncomment`: Closed under the global context
* Props_Init.v, `C79_settings`: Closed under the global context
* Props_Init.v, `C79_uncomment_refuted`: Closed under the global context
* Props_Init.v, `C79_never_overwrites`: Closed under the global context
* Props_Init.v, `C79_writes`: Closed under the global context
* Props_Json.v, `C107_finding`: Closed under the global context
* Props_Json.v, `C107_exact`: Closed under the global context
* Props_Json.v, `C107_distinct`: Closed under the global context
* Props_Json.v, `C107_one_line`: Closed under the global context
* Props_Json.v, `C107_listing`: Closed under the global context
* Props_Json.v, `C107_bytes_refuted`: Closed under the global context
* Props_Json.v, `C107_version`: Closed under the global context
* Props_Lint.v, `C12_selection`: Closed under the global context
* Props_Lint.v, `C12_run`: Closed under the global context
* Props_Lint.v, `C13_ignores_partial`: Closed under the global context
* Props_Lint.v, `C13_files`: Closed under the global context
* Props_Lint.v, `C13_config_directory_refuted`: Closed under the global context
* Props_Lint.v, `C13_directory_rules_refuted`: Closed under the global context
* Props_Lint.v, `C14_suppression`: Closed under the global context
* Props_Lint.v, `C14_http_option`: Closed under the global context
* Props_Lint.v, `C15_deterministic`: Closed under the global context
* Props_Lint.v, `C16_naming_partial`: Closed under the global context
* Props_Lint.v, `C16_groups_refuted`: Closed under the global context
* Props_Lint.v, `C17_golang_comments`: Closed under the global context
* Props_Lint.v, `C17_sentence_comments_partial`: Closed under the global context
* Props_Lint.v, `C17_golang_comments_except`: Closed under the global context
* Props_Lint.v, `C17_sentence_comments_except_partial`: Closed under the global context
* Props_Lint.v, `C17_accents_refuted`: Closed under the global context
* Props_Lint.v, `C18_required`: Closed under the global context
* Props_Lint.v, `C18_values`: Closed under the global context
* Props_Lint.v, `C19_packages`: Closed under the global context
* Props_Lint.v, `C19_options_partial`: Closed under the global context
* Props_Lint.v, `C19_empty_value_refuted`: Closed under the global context
* Props_Lint.v, `C20_request_response`: Closed under the global context
* Props_Lint.v, `C20_layout`: Closed under the global context
* Props_Lint.v, `C20_extend_refuted`: Closed under the global context
* Props_Lint.v, `C21_no_crash_partial`: Closed under the global context
* Props_Lint.v, `C21_http_option_refuted`: Closed under the global context
* Props_Lint.v, `C22_directory_partial`: Closed under the global context
* Props_Lint.v, `C22_sibling_refuted`: Closed under the global context
* Props_Lint.v, `C60_element_rules`: Closed under the global context
* Props_Lint.v, `C60_empty_messages_partial`: Closed under the global context
* Props_Lint.v, `C60_group_field_refuted`: Closed under the global context
* Props_Lint.v, `C61_file_rules`: Closed under the global context
* Props_Lint.v, `C61_file_name`: Closed under the global context
* Props_Lint.v, `C61_all_rules_specified`: Closed under the global context
* Props_LintCmd.v, `C55_silent`: Closed under the global context
* Props_LintCmd.v, `C55_succeeds`: Closed under the global context
* Props_LintCmd.v, `C55_command`: Closed under the global context
* Props_LintCmd.v, `C56_diff`: Closed under the global context
* Props_LintCmd.v, `C56_swap`: Closed under the global context
* Props_LintCmd.v, `C56_error`: Closed under the global context
* Props_LintCmd.v, `C70_flags`: Closed under the global context
* Props_LintCmd.v, `C70_linters`: Closed under the global context
* Props_LintCmd.v, `C70_all_linters`: Closed under the global context
* Props_LintCmd.v, `C70_group`: Closed under the global context
* Props_LintCmd.v, `C70_groups`: Closed under the global context
* Props_LintText.v, `C103_every_rule`: Closed under the global context
* Props_LintText.v, `C103_texts`: Closed under the global context
* Props_LintText.v, `C103_exact`: Closed under the global context
* Props_LintText.v, `C103_after_service`: Closed under the global context
* Props_LintText.v, `C103_run`: Closed under the global context
* Props_Main.v, `C81_effects`: Closed under the global context
* Props_Main.v, `C81_files`: Closed under the global context
* Props_Main.v, `C81_untouched`: Closed under the global context
* Props_Main.v, `C81_only_reads`: Closed under the global context
* Props_Main.v, `C82_same_files`: Closed under the global context
* Props_Main.v, `C82_history`: Closed under the global context
* Props_Main10.v, `C91_run`: Closed under the global context
* Props_Main11.v, `C92_create`: Closed under the global context
* Props_Main11.v, `C93_version`: Closed under the global context
* Props_Main11.v, `C94_delete`: Closed under the global context
* Props_Main11.v, `C92_newline_refuted`: Closed under the global context
* Props_Main12.v, `C95_set`: Closed under the global context
* Props_Main12.v, `C96_inspect`: Closed under the global context
* Props_Main12.v, `C97_stored`: Closed under the global context
* Props_Main12.v, `C97_flags`: Closed under the global context
* Props_Main12.v, `C97_baseline`: Closed under the global context
* Props_Main12.v, `C97_git`: Closed under the global context
* Props_Main13.v, `C98_grpc`: Closed under the global context
* Props_Main14.v, `C99_modes`: Closed under the global context
* Props_Main14.v, `C99_groups`: Closed under the global context
* Props_Main14.v, `C99_diff`: Closed under the global context
* Props_Main14.v, `C99_listings`: Closed under the global context
* Props_Main15.v, `C100_update`: Closed under the global context
* Props_Main15.v, `C100_init`: Closed under the global context
* Props_Main15.v, `C100_used`: Closed under the global context
* Props_Main16.v, `C101_silenced`: Closed under the global context
* Props_Main17.v, `C24_fix_stable_partial`: Closed under the global context
* Props_Main17.v, `C87_fix_settled_partial`: Closed under the global context
* Props_Main18.v, `C108_line`: Closed under the global context
* Props_Main19.v, `C109_same`: Closed under the global context
* Props_Main19.v, `C109_reordered`: Closed under the global context
* Props_Main19.v, `C109_output_refuted`: Closed under the global context
* Props_Main19.v, `C109_failed_refuted`: Closed under the global context
* Props_Main2.v, `C83_update_then_use`: Closed under the global context
* Props_Main2.v, `C83_downloads_refuted`: Closed under the global context
* Props_Main2.v, `C83_delete_refuted`: Closed under the global context
* Props_Main20.v, `C110_spelling`: Closed under the global context
* Props_Main20.v, `C110_break_refuted`: Closed under the global context
* Props_Main21.v, `C97_outside`: Closed under the global context
* Props_Main21.v, `C97_outside_refuted`: Closed under the global context
* Props_Main22.v, `C111_local`: Closed under the global context
* Props_Main22.v, `C111_files`: Closed under the global context
* Props_Main23.v, `C112_given`: Closed under the global context
* Props_Main23.v, `C112_instead`: Closed under the global context
* Props_Main24.v, `C113_excluded`: Closed under the global context
* Props_Main24.v, `C113_configuration_refuted`: Closed under the global context
* Props_Main25.v, `C114_file`: Closed under the global context
* Props_Main25.v, `C114_silent_refuted`: Closed under the global context
* Props_Main26.v, `C115_killed`: Closed under the global context
* Props_Main26.v, `C115_atomic_refuted`: Closed under the global context
* Props_Main27.v, `C119_killed`: Closed under the global context
* Props_Main27.v, `C119_again_refuted`: Closed under the global context
* Props_Main28.v, `C120_main`: Closed under the global context
* Props_Main28.v, `C120_git`: Closed under the global context
* Props_Main29.v, `C121_killed`: Closed under the global context
* Props_Main29.v, `C121_baseline_refuted`: Closed under the global context
* Props_Main3.v, `C84_in_turn`: Closed under the global context
* Props_Main30.v, `C122_again`: Closed under the global context
* Props_Main30.v, `C122_init_refuted`: Closed under the global context
* Props_Main31.v, `C123_releases`: Closed under the global context
* Props_Main32.v, `C124_same_baseline`: Closed under the global context
* Props_Main4.v, `C85_listed`: Closed under the global context
* Props_Main5.v, `C86_modes`: Closed under the global context
* Props_Main5.v, `C86_zero`: Closed under the global context
* Props_Main5.v, `C86_silent`: Closed under the global context
* Props_Main5.v, `C86_checks`: Closed under the global context
* Props_Main6.v, `C87_settled_partial`: Closed under the global context
* Props_Main6.v, `C87_fix_refuted`: Closed under the global context
* Props_Main7.v, `C88_rejected`: Closed under the global context
* Props_Main7.v, `C88_accepted`: Closed under the global context
* Props_Main8.v, `C89_lint`: Closed under the global context
* Props_Main9.v, `C90_written`: Closed under the global context
* Props_MoreText.v, `C108_rules`: Closed under the global context
* Props_MoreText.v, `C108_error_format`: Closed under the global context
* Props_MoreText.v, `C108_error_formats`: Closed under the global context
* Props_MoreText.v, `C108_syntax`: Closed under the global context
* Props_MoreText.v, `C108_groups`: Closed under the global context
* Props_PackageCmd.v, `C71_set`: Closed under the global context
* Props_PackageCmd.v, `C71_flags`: Closed under the global context
* Props_PackageCmd.v, `C71_inconsistent`: Closed under the global context
* Props_PackageCmd.v, `C71_failures`: Closed under the global context
* Props_PackageCmd.v, `C71_writes`: Closed under the global context
* Props_PackageCmd.v, `C71_break`: Closed under the global context
* Props_PackageCmd.v, `C72_baseline`: Closed under the global context
* Props_PackageCmd.v, `C72_unchanged`: Closed under the global context
* Props_PackageCmd.v, `C73_packages`: Closed under the global context
* Props_PackageCmd.v, `C73_deps`: Closed under the global context
* Props_PackageCmd.v, `C73_importers`: Closed under the global context
* Props_PackageCmd.v, `C73_unknown`: Closed under the global context
* Props_PackageCmd.v, `C73_no_name`: Closed under the global context
* Props_PackageCmd.v, `C74_flags`: Closed under the global context
* Props_PackageCmd.v, `C74_stored`: Closed under the global context
* Props_PackageCmd.v, `C74_git`: Closed under the global context
* Props_PackageCmd.v, `C74_absolute`: Closed under the global context
* Props_PackageCmd.v, `C74_outside_partial`: Closed under the global context
* Props_PackageCmd.v, `C74_said`: Closed under the global context
* Props_PackageCmd.v, `C74_reads`: Closed under the global context
* Props_PackageCmd.v, `C74_cleanup_partial`: Closed under the global context
* Props_PackageCmd.v, `C72_same_compilation`: Closed under the global context
* Props_PackageCmd.v, `C72_json_refuted`: Closed under the global context
* Props_PackageCmd.v, `C74_cleanup_refuted`: Closed under the global context
* Props_PackageCmd.v, `C74_outside_refuted`: Closed under the global context
* Props_Parts.v, `C118_packages`: Closed under the global context
* Props_Parts.v, `C118_parts`: Closed under the global context
* Props_Parts.v, `C118_unchanged`: Closed under the global context
* Props_Protoc.v, `C45_commands`: Closed under the global context
* Props_Protoc.v, `C45_below_partial`: Closed under the global context
* Props_Protoc.v, `C45_run`: Closed under the global context
* Props_Protoc.v, `C45_printed`: Closed under the global context
* Props_Protoc.v, `C46_includes`: Closed under the global context
* Props_Protoc.v, `C46_below_partial`: Closed under the global context
* Props_Protoc.v, `C47_parameters`: Closed under the global context
* Props_Protoc.v, `C47_flags`: Closed under the global context
* Props_Protoc.v, `C48_success`: Closed under the global context
* Props_Protoc.v, `C48_run`: Closed under the global context
* Props_Protoc.v, `C48_compile`: Closed under the global context
* Props_Protoc.v, `C49_same_result`: Closed under the global context
* Props_Protoc.v, `C49_error`: Closed under the global context
* Props_Protoc.v, `C49_failures`: Closed under the global context
* Props_Protoc.v, `C49_schedules`: Closed under the global context
* Props_Protoc.v, `C50_cleans`: Closed under the global context
* Props_Protoc.v, `C50_commands`: Closed under the global context
* Props_Protoc.v, `C62_directories`: Closed under the global context
* Props_Protoc.v, `C48_reported`: Closed under the global context
* Props_Protoc.v, `C48_lines`: Closed under the global context
* Props_Protoc.v, `C48_standard`: Closed under the global context
* Props_Protoc.v, `C48_unused_placed`: Closed under the global context
* Props_Protoc.v, `C48_unused_old`: Closed under the global context
* Props_Protoc.v, `C48_not_found`: Closed under the global context
* Props_Protoc.v, `C48_import_errors`: Closed under the global context
* Props_Protoc.v, `C49_bounded`: Closed under the global context
* Props_Protoc.v, `C49_progress`: Closed under the global context
* Props_Protoc.v, `C49_terminates`: Closed under the global context
* Props_Protoc.v, `C49_returns`: Closed under the global context
* Props_Protoc.v, `C45_sibling_refuted`: Closed under the global context
* Props_Protoc.v, `C46_sibling_refuted`: Closed under the global context
* Props_Protoc.v, `C48_interrupted_refuted`: Closed under the global context
* Props_Protoc.v, `C48_import_errors_refuted`: Closed under the global context
* Props_Protoc.v, `C49_error_text_refuted`: Closed under the global context
* Props_Protoc.v, `C50_crash_refuted`: Closed under the global context
* Props_Protoc2.v, `C102_said`: Closed under the global context
* Props_Protoc2.v, `C102_output`: Closed under the global context
* Props_Protoc2.v, `C102_colons_refuted`: Closed under the global context
* Props_Purpose.v, `C106_described`: Closed under the global context
* Props_Purpose.v, `C106_one_line`: Closed under the global context
* Props_Reflect.v, `C09_contents`: Closed under the global context
* Props_Reflect.v, `C09_moves`: Closed under the global context
* Props_Reflect.v, `C09_moves_not_breaking`: Closed under the global context
* Props_Reflect.v, `C09_valid`: Closed under the global context
* Props_Reflect.v, `C09_named`: Closed under the global context
* Props_Reflect.v, `C10_merge`: Closed under the global context
* Props_Reflect.v, `C10_merge_succeeds`: Closed under the global context
* Props_Reflect.v, `C10_merge_order`: Closed under the global context
* Props_Reflect.v, `C11_sort`: Closed under the global context
* Props_ReflectText.v, `C09_said`: Closed under the global context
* Props_ReflectText.v, `C09_refuses`: Closed under the global context
* Props_Refuse.v, `C105_refused`: Closed under the global context
* Props_Refuse.v, `C92_said`: Closed under the global context
* Props_Select.v, `C116_fewer`: Closed under the global context
* Props_Select.v, `C116_same`: Closed under the global context
* Props_Separate.v, `C117_directory`: Closed under the global context
* Props_Separate.v, `C117_file`: Closed under the global context
* Props_Settings.v, `C37_nearest`: Closed under the global context
* Props_Settings.v, `C37_two_files`: Closed under the global context
* Props_Settings.v, `C37_local`: Closed under the global context
* Props_Settings.v, `C37_used`: Closed under the global context
* Props_Settings.v, `C38_accepted`: Closed under the global context
* Props_Settings.v, `C38_normalised`: Closed under the global context
* Props_Settings.v, `C38_file`: Closed under the global context
* Props_Settings.v, `C38_duplicates_refuted`: Closed under the global context
* Props_Settings.v, `C38_default_directory_refuted`: Closed under the global context
* Props_Settings.v, `C40_header`: Closed under the global context
* Props_Settings.v, `C40_commented_refuted`: Closed under the global context
* Props_SettingsText.v, `C104_data`: Closed under the global context
* Props_SettingsText.v, `C104_dir`: Closed under the global context
* Props_SettingsText.v, `C104_provider`: Closed under the global context
* Props_SettingsText.v, `C104_run`: Closed under the global context
* Props_Strs.v, `C32_version_parsing`: Closed under the global context
* Props_Strs.v, `C32_version_roundtrip`: Closed under the global context
* Props_Strs.v, `C33_checks_are_shapes`: Closed under the global context
* Props_Strs.v, `C33_snake_of_camel`: Closed under the global context
* Props_Strs.v, `C33_snake_words`: Closed under the global context
* Props_Strs.v, `C33_upper_camel_words`: Closed under the global context
* Props_Strs.v, `C33_lower_snake_idempotent`: Closed under the global context
* Props_Strs.v, `C33_upper_snake_idempotent_refuted`: Closed under the global context
* Props_Strs.v, `C33_upper_camel_of_snake`: Closed under the global context
* Props_Strs.v, `C33_split_camel_words`: Closed under the global context
* Props_Strs.v, `C34_sort_uniq`: Closed under the global context
* Props_Strs.v, `C34_sort_uniq_modify`: Closed under the global context
* Props_Strs.v, `C34_intersection`: Closed under the global context
* Props_Strs.v, `C34_map_order`: Closed under the global context
* Props_Strs.v, `C31_csharp_plain`: Closed under the global context
* Props_Strs.v, `C31_csharp_beta`: Closed under the global context
* Props_Strs.v, `C31_csharp_beta_large_refuted`: Closed under the global context
* Props_Strs.v, `C31_php_agrees_with_csharp`: Closed under the global context
* Props_Strs.v, `C31_go_package`: Closed under the global context
* Props_Strs.v, `C31_go_package_v2`: Closed under the global context
* Props_Strs.v, `C31_go_package_v2_unversioned`: Closed under the global context
* Props_Strs.v, `C31_objc_prefix`: Closed under the global context
* Props_Strs.v, `C31_java_outer_classname`: Closed under the global context
* Props_Strs.v, `C31_java_package`: Closed under the global context
* Props_Text.v, `C35_total_order`: Closed under the global context
* Props_Text.v, `C35_sorted`: Closed under the global context
* Props_Text.v, `C35_sorted_with_nil`: Closed under the global context
* Props_Text.v, `C35_deterministic`: Closed under the global context
* Props_Text.v, `C36_line`: Closed under the global context
* Props_Text.v, `C36_text`: Closed under the global context
* Props_Text.v, `C36_recover`: Closed under the global context
* Props_Text.v, `C36_numbers_recoverable`: Closed under the global context
* Props_Text.v, `C36_fields_parsed`: Closed under the global context
* Props_Text.v, `C36_accepted_fields_print`: Closed under the global context
* Props_Text.v, `C36_unknown_rejected`: Closed under the global context
