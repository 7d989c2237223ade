(** Model of the descriptions of the lint rules: base_linter.go:83-88 and the second argument
    of NewLinter and NewSuppressableLinter in internal/lint/check_*.go. *)
From Verif Require Export Lint_Rules.

(** check_names.go:51 *)
Definition names_purpose (outlawed : string) : string := "Verifies that no type name contains the word " +++ quote outlawed +++ ".".
(** check_package_no_keywords.go:43 *)
Definition keywords_purpose : string :=
  "Verifies that no packages contain one of the keywords " +++ String dquote (join "," package_keywords) +++ String dquote " as part of the name when split on '.'.".
(** The purpose each linter is made with; the file and line of each are beside it. *)
Definition purposes : list (string * string) := [
  (* check_comments_no_c_style.go:32 *) ("COMMENTS_NO_C_STYLE", "Verifies that there are no /* c-style */ comments.");
  (* check_comments_no_inline.go:30 *) ("COMMENTS_NO_INLINE", "Verifies that there are no inline comments.");
  (* check_enum_field_names_upper_snake_case.go:31 *) ("ENUM_FIELD_NAMES_UPPER_SNAKE_CASE", "Verifies that all enum field names are UPPER_SNAKE_CASE.");
  (* check_enum_field_names_uppercase.go:31 *) ("ENUM_FIELD_NAMES_UPPERCASE", "Verifies that all enum field names are UPPERCASE.");
  (* check_enum_field_prefixes.go:33 *) ("ENUM_FIELD_PREFIXES", "Verifies that all enum fields are prefixed with [NESTED_MESSAGE_NAME_]ENUM_NAME_.");
  (* check_enum_field_prefixes_except_message.go:33 *) ("ENUM_FIELD_PREFIXES_EXCEPT_MESSAGE", "Verifies that all enum fields are prefixed with ENUM_NAME_.");
  (* check_enum_fields_have_comments.go:30 *) ("ENUM_FIELDS_HAVE_COMMENTS", "Verifies that all enum fields have a comment of the form ""// FIELD_NAME ..."".");
  (* check_enum_fields_have_sentence_comments.go:30 *) ("ENUM_FIELDS_HAVE_SENTENCE_COMMENTS", "Verifies that all enum fields have a comment that contains at least one complete sentence.");
  (* check_enum_names_camel_case.go:31 *) ("ENUM_NAMES_CAMEL_CASE", "Verifies that all enum names are CamelCase.");
  (* check_enum_names_capitalized.go:31 *) ("ENUM_NAMES_CAPITALIZED", "Verifies that all enum names are Capitalized.");
  (* check_enum_zero_values_invalid.go:33 *) ("ENUM_ZERO_VALUES_INVALID", "Verifies that all enum zero value names are [NESTED_MESSAGE_NAME_]ENUM_NAME_INVALID.");
  (* check_enum_zero_values_invalid_except_message.go:31 *) ("ENUM_ZERO_VALUES_INVALID_EXCEPT_MESSAGE", "Verifies that all enum zero value names are ENUM_NAME_INVALID.");
  (* check_enums_have_comments.go:30 *) ("ENUMS_HAVE_COMMENTS", "Verifies that all enums have a comment of the form ""// EnumName ..."".");
  (* check_enums_have_sentence_comments.go:30 *) ("ENUMS_HAVE_SENTENCE_COMMENTS", "Verifies that all enums have a comment that contains at least one complete sentence.");
  (* check_enums_no_allow_alias.go:30 *) ("ENUMS_NO_ALLOW_ALIAS", "Verifies that no enums use the option ""allow_alias"".");
  (* check_fields_not_reserved.go:32 *) ("FIELDS_NOT_RESERVED", "Verifies that no message or enum has a reserved field.");
  (* check_file_header.go:32 *) ("FILE_HEADER", "Verifies that the file header matches the expected file header if the file_header option is set in the configuration file.");
  (* check_file_names_lower_snake_case.go:34 *) ("FILE_NAMES_LOWER_SNAKE_CASE", "Verifies that the file name is lower_snake_case.proto.");
  (* check_file_options_equal.go:33 *) ("FILE_OPTIONS_EQUAL_CSHARP_NAMESPACE_CAPITALIZED", "Verifies that the file option ""csharp_namespace"" is the capitalized version of the package.");
  (* check_file_options_equal.go:41 *) ("FILE_OPTIONS_EQUAL_GO_PACKAGE_PB_SUFFIX", "Verifies that the file option ""go_package"" is equal to $(basename PACKAGE)pb.");
  (* check_file_options_equal.go:49 *) ("FILE_OPTIONS_EQUAL_GO_PACKAGE_V2_SUFFIX", "Verifies that the file option ""go_package"" is equal to the last two values of the package separated by "".""s, or just the package name if there are no "".""s.");
  (* check_file_options_equal.go:57 *) ("FILE_OPTIONS_EQUAL_JAVA_MULTIPLE_FILES_TRUE", "Verifies that the file option ""java_multiple_files"" is equal to true.");
  (* check_file_options_equal.go:65 *) ("FILE_OPTIONS_EQUAL_JAVA_OUTER_CLASSNAME_PROTO_SUFFIX", "Verifies that the file option ""java_outer_classname"" is equal to $(upperCamelCase $(basename FILE))Proto.");
  (* check_file_options_equal.go:73 *) ("FILE_OPTIONS_EQUAL_JAVA_PACKAGE_COM_PREFIX", "Verifies that the file option ""java_package"" is equal to com.PACKAGE.");
  (* check_file_options_equal.go:81 *) ("FILE_OPTIONS_EQUAL_JAVA_PACKAGE_PREFIX", "Verifies that the file option ""java_package"" is equal to PREFIX.PACKAGE, with PREFIX defaulting to ""com"" and configurable in your configuration file.");
  (* check_file_options_equal.go:89 *) ("FILE_OPTIONS_EQUAL_OBJC_CLASS_PREFIX_ABBR", "Verifies that the file option ""objc_class_prefix"" is the abbreviated version of the package.");
  (* check_file_options_equal.go:97 *) ("FILE_OPTIONS_EQUAL_PHP_NAMESPACE_CAPITALIZED", "Verifies that the file option ""php_namespace"" is the capitalized version of the package.");
  (* check_file_options_required.go:32 *) ("FILE_OPTIONS_REQUIRE_CSHARP_NAMESPACE", "Verifies that the file option ""csharp_namespace"" is set.");
  (* check_file_options_required.go:38 *) ("FILE_OPTIONS_REQUIRE_GO_PACKAGE", "Verifies that the file option ""go_package"" is set.");
  (* check_file_options_required.go:44 *) ("FILE_OPTIONS_REQUIRE_JAVA_MULTIPLE_FILES", "Verifies that the file option ""java_multiple_files"" is set.");
  (* check_file_options_required.go:50 *) ("FILE_OPTIONS_REQUIRE_JAVA_OUTER_CLASSNAME", "Verifies that the file option ""java_outer_classname"" is set.");
  (* check_file_options_required.go:56 *) ("FILE_OPTIONS_REQUIRE_JAVA_PACKAGE", "Verifies that the file option ""java_package"" is set.");
  (* check_file_options_required.go:62 *) ("FILE_OPTIONS_REQUIRE_OBJC_CLASS_PREFIX", "Verifies that the file option ""objc_class_prefix"" is set.");
  (* check_file_options_required.go:68 *) ("FILE_OPTIONS_REQUIRE_PHP_NAMESPACE", "Verifies that the file option ""php_namespace"" is set.");
  (* check_file_options_required.go:74 *) ("FILE_OPTIONS_REQUIRE_RUBY_PACKAGE", "Verifies that the file option ""ruby_package"" is set.");
  (* check_file_options_same_in_dir.go:34 *) ("FILE_OPTIONS_CSHARP_NAMESPACE_SAME_IN_DIR", "Verifies that the file option ""csharp_namespace"" of all files in a directory are the same.");
  (* check_file_options_same_in_dir.go:40 *) ("FILE_OPTIONS_GO_PACKAGE_SAME_IN_DIR", "Verifies that the file option ""go_package"" of all files in a directory are the same.");
  (* check_file_options_same_in_dir.go:46 *) ("FILE_OPTIONS_JAVA_MULTIPLE_FILES_SAME_IN_DIR", "Verifies that the file option ""java_multiple_files"" of all files in a directory are the same.");
  (* check_file_options_same_in_dir.go:52 *) ("FILE_OPTIONS_JAVA_PACKAGE_SAME_IN_DIR", "Verifies that the file option ""java_package"" of all files in a directory are the same.");
  (* check_file_options_same_in_dir.go:58 *) ("FILE_OPTIONS_OBJC_CLASS_PREFIX_SAME_IN_DIR", "Verifies that the file option ""objc_class_prefix"" of all files in a directory are the same.");
  (* check_file_options_same_in_dir.go:64 *) ("FILE_OPTIONS_PHP_NAMESPACE_SAME_IN_DIR", "Verifies that the file option ""php_namespace"" of all files in a directory are the same.");
  (* check_file_options_unset.go:32 *) ("FILE_OPTIONS_UNSET_JAVA_MULTIPLE_FILES", "Verifies that the file option ""java_multiple_files"" is unset.");
  (* check_file_options_unset.go:38 *) ("FILE_OPTIONS_UNSET_JAVA_OUTER_CLASSNAME", "Verifies that the file option ""java_outer_classname"" is unset.");
  (* check_go_package_not_long_form.go:32 *) ("FILE_OPTIONS_GO_PACKAGE_NOT_LONG_FORM", "Verifies that the file option ""go_package"" is not of the form ""go/import/path;package"".");
  (* check_gogo_not_imported.go:33 *) ("GOGO_NOT_IMPORTED", "Verifies that the ""gogo.proto"" file from gogo/protobuf is not imported.");
  (* check_imports_not_public.go:31 *) ("IMPORTS_NOT_PUBLIC", "Verifies that there are no public imports.");
  (* check_imports_not_weak.go:31 *) ("IMPORTS_NOT_WEAK", "Verifies that there are no weak imports.");
  (* check_message_field_names_filename.go:32 *) ("MESSAGE_FIELD_NAMES_FILENAME", "Verifies that all message field names do not contain ""file_name"" as ""filename"" should be used instead.");
  (* check_message_field_names_filepath.go:32 *) ("MESSAGE_FIELD_NAMES_FILEPATH", "Verifies that all message field names do not contain ""file_path"" as ""filepath"" should be used instead.");
  (* check_message_field_names_lower_snake_case.go:31 *) ("MESSAGE_FIELD_NAMES_LOWER_SNAKE_CASE", "Verifies that all message field names are lower_snake_case.");
  (* check_message_field_names_lowercase.go:31 *) ("MESSAGE_FIELD_NAMES_LOWERCASE", "Verifies that all message field names are lowercase.");
  (* check_message_field_names_no_descriptor.go:32 *) ("MESSAGE_FIELD_NAMES_NO_DESCRIPTOR", "Verifies that all message field names are not ""descriptor"", which results in a collision in Java-generated code.");
  (* check_message_fields_duration.go:32 *) ("MESSAGE_FIELDS_DURATION", "Verifies that all non-map fields that contain ""duration"" in their name are google.protobuf.Durations.");
  (* check_message_fields_have_comments.go:30 *) ("MESSAGE_FIELDS_HAVE_COMMENTS", "Verifies that all message fields have a comment of the form ""// field_name ..."".");
  (* check_message_fields_have_sentence_comments.go:30 *) ("MESSAGE_FIELDS_HAVE_SENTENCE_COMMENTS", "Verifies that all message fields have a comment that contains at least one complete sentence.");
  (* check_message_fields_no_json_name.go:30 *) ("MESSAGE_FIELDS_NO_JSON_NAME", "Verifies that no message field has the ""json_name"" option set.");
  (* check_message_fields_not_floats.go:31 *) ("MESSAGE_FIELDS_NOT_FLOATS", "Verifies that all message fields are not floats.");
  (* check_message_fields_time.go:32 *) ("MESSAGE_FIELDS_TIME", "Verifies that all non-map fields that contain ""time"" in their name are google.protobuf.Timestamps.");
  (* check_message_names_camel_case.go:31 *) ("MESSAGE_NAMES_CAMEL_CASE", "Verifies that all non-extended message names are CamelCase.");
  (* check_message_names_capitalized.go:31 *) ("MESSAGE_NAMES_CAPITALIZED", "Verifies that all non-extended message names are Capitalized.");
  (* check_messages_have_comments.go:30 *) ("MESSAGES_HAVE_COMMENTS", "Verifies that all non-extended messages have a comment of the form ""// MessageName ..."".");
  (* check_messages_have_comments_except_request_response_types.go:32 *) ("MESSAGES_HAVE_COMMENTS_EXCEPT_REQUEST_RESPONSE_TYPES", "Verifies that all non-extended messages except for request and response types have a comment of the form ""// MessageName ..."".");
  (* check_messages_have_sentence_comments_except_request_response_types.go:32 *) ("MESSAGES_HAVE_SENTENCE_COMMENTS_EXCEPT_REQUEST_RESPONSE_TYPES", "Verifies that all non-extended messages except for request and response types have a comment that contains at least one complete sentence.");
  (* check_messages_not_empty_except_request_response_types.go:32 *) ("MESSAGES_NOT_EMPTY_EXCEPT_REQUEST_RESPONSE_TYPES", "Verifies that all messages except for request and response types are not empty.");
  (* check_oneof_names_lower_snake_case.go:31 *) ("ONEOF_NAMES_LOWER_SNAKE_CASE", "Verifies that all oneof names are lower_snake_case.");
  (* check_package_is_declared.go:32 *) ("PACKAGE_IS_DECLARED", "Verifies that there is a package declaration.");
  (* check_package_lower_case.go:30 *) ("PACKAGE_LOWER_CASE", "Verifies that the package name only contains characters in the range a-z0-9 and periods.");
  (* check_package_lower_snake_case.go:33 *) ("PACKAGE_LOWER_SNAKE_CASE", "Verifies that the package is lower_snake.case.");
  (* check_package_major_beta_versioned.go:33 *) ("PACKAGE_MAJOR_BETA_VERSIONED", "Verifies that the package is of the form ""package.vMAJORVERSION"" or ""package.vMAJORVERSIONbetaBETAVERSION"" with versions >=1.");
  (* check_package_no_keywords.go:43 *) ("PACKAGE_NO_KEYWORDS", keywords_purpose);
  (* check_packages_same_in_dir.go:34 *) ("PACKAGES_SAME_IN_DIR", "Verifies that the packages of all files in a directory are the same.");
  (* check_request_response_names_match_rpc.go:30 *) ("REQUEST_RESPONSE_NAMES_MATCH_RPC", "Verifies that all request names are RpcNameRequest and all response names are RpcNameResponse.");
  (* check_request_response_types_after_service.go:32 *) ("REQUEST_RESPONSE_TYPES_AFTER_SERVICE", "Verifies that request and response types are defined after any services and the response type is defined after the request type.");
  (* check_request_response_types_in_same_file.go:33 *) ("REQUEST_RESPONSE_TYPES_IN_SAME_FILE", "Verifies that all request and response types are in the same file as their corresponding service and are not nested messages.");
  (* check_request_response_types_only_in_file.go:32 *) ("REQUEST_RESPONSE_TYPES_ONLY_IN_FILE", "Verifies that only request and response types are the only types in the same file as their corresponding service.");
  (* check_request_response_types_unique.go:30 *) ("REQUEST_RESPONSE_TYPES_UNIQUE", "Verifies that all request and response types are unique to each RPC.");
  (* check_rpc_names_camel_case.go:31 *) ("RPC_NAMES_CAMEL_CASE", "Verifies that all RPC names are CamelCase.");
  (* check_rpc_names_capitalized.go:31 *) ("RPC_NAMES_CAPITALIZED", "Verifies that all RPC names are Capitalized.");
  (* check_rpc_options_no_google_api_http.go:33 *) ("RPC_OPTIONS_NO_GOOGLE_API_HTTP", "Verifies that the RPC option ""google.api.http"" is not used.");
  (* check_rpcs_have_comments.go:30 *) ("RPCS_HAVE_COMMENTS", "Verifies that all rpcs have a comment of the form ""// RPCName ..."".");
  (* check_rpcs_have_sentence_comments.go:30 *) ("RPCS_HAVE_SENTENCE_COMMENTS", "Verifies that all rpcs have a comment that contains at least one complete sentence.");
  (* check_rpcs_no_streaming.go:30 *) ("RPCS_NO_STREAMING", "Verifies that all rpcs are unary.");
  (* check_service_names_api_suffix.go:32 *) ("SERVICE_NAMES_API_SUFFIX", "Verifies that all service names end with ""API"".");
  (* check_service_names_camel_case.go:31 *) ("SERVICE_NAMES_CAMEL_CASE", "Verifies that all service names are CamelCase.");
  (* check_service_names_capitalized.go:31 *) ("SERVICE_NAMES_CAPITALIZED", "Verifies that all service names are Capitalized.");
  (* check_service_names_match_file_name.go:33 *) ("SERVICE_NAMES_MATCH_FILE_NAME", "Verifies that there is one service per file and the file name is service_name_lower_snake_case.proto.");
  (* check_service_names_singular.go:35 *) ("SERVICE_NAMES_NO_PLURALS", "Verifies that all CamelCase service names do not contain plural components.");
  (* check_services_have_comments.go:30 *) ("SERVICES_HAVE_COMMENTS", "Verifies that all services have a comment of the form ""// ServiceName ..."".");
  (* check_services_have_sentence_comments.go:30 *) ("SERVICES_HAVE_SENTENCE_COMMENTS", "Verifies that all services have a comment that contains at least one complete sentence.");
  (* check_syntax_proto3.go:32 *) ("SYNTAX_PROTO3", "Verifies that the syntax is proto3.");
  (* check_wkt_directly_imported.go:37 *) ("WKT_DIRECTLY_IMPORTED", "Verifies that the Well-Known Types are directly imported using ""google/protobuf/"" as the base of the import.");
  (* check_wkt_duration_suffix.go:32 *) ("WKT_DURATION_SUFFIX", "Verifies that all google.protobuf.Duration field names are ""duration"" or end in ""_duration"".");
  (* check_wkt_timestamp_suffix.go:32 *) ("WKT_TIMESTAMP_SUFFIX", "Verifies that all google.protobuf.Timestamp field names are ""time"" or end in ""_time"".");
  (* check_names.go:51 *) ("NAMES_NO_COMMON", names_purpose "common");
  (* check_names.go:51 *) ("NAMES_NO_DATA", names_purpose "data");
  (* check_names.go:51 *) ("NAMES_NO_UUID", names_purpose "uuid")
].

(** base_linter.go:83-88 *)
Definition linter_purpose (l : linter) (c : lint_config) : string :=
  let purpose := match gget (ln_id l) purposes with Some t => t | None => "" end in
  if negb (is_empty (ln_annotation l)) && lc_allow_suppression c
  then "Suppressable with " +++ String dquote "@suppresswarnings " +++ ln_annotation l +++ String dquote ". " +++ purpose
  else purpose.
(** The description of the linter with an id. *)
Definition purpose_of (ls : list linter) (c : lint_config) (id : string) : string :=
  match find (fun l => String.eqb (ln_id l) id) ls with Some l => linter_purpose l c | None => "" end.
