-Q theories Verif

theories/GoStr.v
theories/GoStrFacts.v
theories/GoPath.v
theories/GoPathFacts.v
theories/Strs_Model.v
theories/Strs_Spec.v
theories/Strs_Proofs.v
theories/Protostrs_Proofs.v
theories/Text_Model.v
theories/Text_Spec.v
theories/Text_Proofs.v
theories/Props_Strs.v
theories/Props_Text.v
theories/GoMap.v
theories/GoMapFacts.v
theories/GoFmt.v
theories/Reflect_Types.v
theories/Extract_Model.v
theories/Breaking_Model.v
theories/Breaking_Spec.v
theories/Extract_Proofs.v
theories/Breaking_Proofs.v
theories/BreakRun_Proofs.v
theories/BreakCheckers.v
theories/Props_Breaking.v
theories/Descriptor_Types.v
theories/Reflect_Model.v
theories/Reflect_Spec.v
theories/Reflect_Proofs.v
theories/ReflectValid_Proofs.v
theories/Desc_Model.v
theories/Desc_Spec.v
theories/Desc_Proofs.v
theories/Props_Reflect.v
theories/Reflect_Text_Spec.v
theories/Props_ReflectText.v
theories/Proto_AST.v
theories/Settings_Types.v
theories/Lint_Model.v
theories/Lint_Rules.v
theories/Lint_Spec.v
theories/Lint_Walk.v
theories/Lint_RuleFacts.v
theories/Lint_RuleProofs.v
theories/Lint_RuleProofs2.v
theories/Lint_FileProofs.v
theories/Lint_MapProofs.v
theories/Lint_Doc.v
theories/LintRun_Spec.v
theories/Lint_Table.v
theories/LintRun_Proofs.v
theories/LintRun_Proofs2.v
theories/Props_Lint.v
theories/Settings_Model.v
theories/Settings_Spec.v
theories/Settings_Proofs.v
theories/File_Model.v
theories/File_Spec.v
theories/File_Proofs.v
theories/File_Proofs2.v
theories/File_Proofs3.v
theories/Settings_Proofs2.v
theories/File_Proofs4.v
theories/Walk_Model.v
theories/Walk_Proofs.v
theories/Props_Settings.v
theories/Props_File.v
theories/Create_Model.v
theories/Create_Spec.v
theories/Create_Proofs.v
theories/Props_Create.v
theories/Format_Spec.v
theories/Format_Lex.v
theories/Format_Model.v
theories/Format_Values.v
theories/Format_Shape.v
theories/Format_Proofs.v
theories/Format_First.v
theories/Format_Same.v
theories/Format_Same2.v
theories/Format_Fix.v
theories/Props_Format.v
theories/GoSlice.v
theories/GoSliceFacts.v
theories/GoRegexp.v
theories/GoRegexpFacts.v
theories/Protoc_Model.v
theories/Protoc_Spec.v
theories/Protoc_Proofs.v
theories/Protoc_Proofs2.v
theories/Protoc_Proofs3.v
theories/Protoc_Proofs4.v
theories/Protoc_Proofs5.v
theories/Protoc_Proofs6.v
theories/Pool_Model.v
theories/Pool_Proofs.v
theories/Protoc_Proofs7.v
theories/Props_Protoc.v
theories/Protoc_Spec2.v
theories/Protoc_Proofs8.v
theories/Props_Protoc2.v
theories/Download_Model.v
theories/Download_Spec.v
theories/Download_Proofs.v
theories/Cache_Model.v
theories/Cache_Spec.v
theories/Cache_Proofs.v
theories/Props_Download.v
theories/Grpc_Types.v
theories/Exec_Model.v
theories/Exec_Spec.v
theories/Exec_Proofs.v
theories/Exec_Proofs2.v
theories/Exec_Proofs3.v
theories/Props_Exec.v
theories/Props_Files.v
theories/Lint_Rename.v
theories/Lint_Quiet.v
theories/LintCmd_Model.v
theories/LintCmd_Spec.v
theories/LintCmd_Proofs.v
theories/Props_LintCmd.v
theories/PackageCmd_Model.v
theories/PackageCmd_Spec.v
theories/PackageCmd_Proofs.v
theories/PackageCmd_Proofs2.v
theories/PackageCmd_Proofs3.v
theories/PackageCmd_Proofs4.v
theories/Props_PackageCmd.v
theories/Grpc_Model.v
theories/Grpc_Spec.v
theories/Grpc_Proofs.v
theories/Grpc_Proofs2.v
theories/Grpc_Proofs3.v
theories/Props_Grpc.v
theories/CreateOut_Spec.v
theories/CreateOut_Proofs.v
theories/CreateOut_Lint.v
theories/Props_CreateOut.v
theories/Cmd_Model.v
theories/Cmd_Spec.v
theories/Cmd_Proofs.v
theories/Cmd_Proofs2.v
theories/Cmd_Proofs3.v
theories/Cmd_Proofs4.v
theories/Props_Cmd.v
theories/Props_Cmd2.v
theories/Init_Model.v
theories/Init_Spec.v
theories/Props_Init.v
theories/Diff_Model.v
theories/Props_Diff.v
theories/Lint_Purpose.v
theories/Lint_Doc2.v
theories/Lint_Purpose_Spec.v
theories/Props_Purpose.v
theories/Json_Model.v
theories/Json_Spec.v
theories/Json_Proofs.v
theories/Props_Json.v
theories/Main_Model.v
theories/Main_Spec.v
theories/Main_Proofs.v
theories/Main_Proofs2.v
theories/Main_Proofs3.v
theories/Main_Proofs4.v
theories/Props_Main.v
theories/Main_Proofs5.v
theories/Props_Main2.v
theories/Main_Proofs6.v
theories/Props_Main3.v
theories/Main_Proofs7.v
theories/Props_Main4.v
theories/Main_Proofs8.v
theories/Props_Main5.v
theories/Main_Proofs9.v
theories/Props_Main6.v
theories/Props_Main7.v
theories/Main_Spec2.v
theories/Main_Proofs10.v
theories/Main_Proofs11.v
theories/Props_Main8.v
theories/Props_Main9.v
theories/Main_Spec3.v
theories/Main_Proofs12.v
theories/Main_Proofs13.v
theories/Props_Main10.v
theories/Main_Proofs14.v
theories/Props_Main11.v
theories/Main_Spec4.v
theories/PackageCmd_Proofs5.v
theories/PackageCmd_Proofs6.v
theories/Main_Proofs15.v
theories/Main_Proofs16.v
theories/Props_Main12.v
theories/Grpc_Proofs4.v
theories/Props_Main13.v
theories/Props_Main14.v
theories/Props_Main15.v
theories/Main_Proofs17.v
theories/Format_Same3.v
theories/Props_Main16.v
theories/Props_Main17.v
theories/Lint_Text_Spec.v
theories/Lint_Text.v
theories/Lint_Text2.v
theories/Lint_Text3.v
theories/Lint_Text4.v
theories/Lint_Text5.v
theories/Props_LintText.v
theories/Settings_Text_Spec.v
theories/Settings_Text.v
theories/Settings_Text2.v
theories/Settings_Text3.v
theories/Props_SettingsText.v
theories/Refuse_Spec.v
theories/Props_Refuse.v
theories/Props_DownloadText.v
theories/Grpc_Text_Spec.v
theories/Props_GrpcText.v
theories/Cmd_Text_Spec.v
theories/Props_CmdText.v
theories/Desc_Text_Spec.v
theories/Props_DescText.v
theories/Download_Text_Spec.v
theories/Props_DownloadText2.v
theories/Props_MoreText.v
theories/Props_Main18.v
theories/Chance_Spec.v
theories/Chance_Proofs.v
theories/Chance_Proofs2.v
theories/Chance_Proofs3.v
theories/Props_Main19.v
theories/Place_Spec.v
theories/Place_Proofs.v
theories/Props_Main20.v
theories/Props_Main21.v
theories/Local_Spec.v
theories/Local_Proofs.v
theories/Local_Proofs2.v
theories/Local_Proofs3.v
theories/Props_Main22.v
theories/Data_Proofs.v
theories/Props_Main23.v
theories/Exclude_Spec.v
theories/Exclude_Proofs.v
theories/Exclude_Proofs2.v
theories/Props_Main24.v
theories/Narrow_Spec.v
theories/Narrow_Proofs.v
theories/Props_Main25.v
theories/Crash_Proofs.v
theories/Props_Main26.v
theories/Select_Proofs.v
theories/Props_Select.v
theories/Separate_Proofs.v
theories/Props_Separate.v
theories/Parts_Proofs.v
theories/Props_Parts.v
theories/Crash_Proofs2.v
theories/Props_Main27.v
theories/Props_Clean.v
theories/Props_Main28.v
theories/Props_Main29.v
theories/Props_Main30.v
theories/Props_Main31.v
theories/Props_Main32.v
