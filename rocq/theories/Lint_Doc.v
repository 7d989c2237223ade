(** The table of lint rules of docs/lint.md:151-246: each rule with the groups it is
    documented to be in.  This is documentation, not code: it is the specification
    of the groups. *)
From Coq Require Import String List.
Import ListNotations.
Open Scope string_scope.

Definition documented_rules : list (string * list string) := [
  ("COMMENTS_NO_C_STYLE", ["uber1"; "uber2"]);
  ("COMMENTS_NO_INLINE", ["uber2"]);
  ("ENUM_FIELD_NAMES_UPPER_SNAKE_CASE", ["google"; "uber1"; "uber2"]);
  ("ENUM_FIELD_NAMES_UPPERCASE", []);
  ("ENUM_FIELD_PREFIXES_EXCEPT_MESSAGE", ["uber2"]);
  ("ENUM_FIELD_PREFIXES", ["uber1"]);
  ("ENUM_FIELDS_HAVE_COMMENTS", []);
  ("ENUM_FIELDS_HAVE_SENTENCE_COMMENTS", []);
  ("ENUM_NAMES_CAMEL_CASE", ["google"; "uber1"; "uber2"]);
  ("ENUM_NAMES_CAPITALIZED", ["google"; "uber1"; "uber2"]);
  ("ENUM_ZERO_VALUES_INVALID_EXCEPT_MESSAGE", ["uber2"]);
  ("ENUM_ZERO_VALUES_INVALID", ["uber1"]);
  ("ENUMS_HAVE_COMMENTS", []);
  ("ENUMS_HAVE_SENTENCE_COMMENTS", ["uber2"]);
  ("ENUMS_NO_ALLOW_ALIAS", ["uber1"; "uber2"]);
  ("FIELDS_NOT_RESERVED", ["uber2"]);
  ("FILE_HEADER", ["google"; "uber1"; "uber2"]);
  ("FILE_NAMES_LOWER_SNAKE_CASE", ["uber2"]);
  ("FILE_OPTIONS_EQUAL_CSHARP_NAMESPACE_CAPITALIZED", ["uber2"]);
  ("FILE_OPTIONS_EQUAL_GO_PACKAGE_PB_SUFFIX", ["uber1"]);
  ("FILE_OPTIONS_EQUAL_GO_PACKAGE_V2_SUFFIX", ["uber2"]);
  ("FILE_OPTIONS_EQUAL_JAVA_MULTIPLE_FILES_TRUE", ["uber1"; "uber2"]);
  ("FILE_OPTIONS_EQUAL_JAVA_OUTER_CLASSNAME_PROTO_SUFFIX", ["uber1"; "uber2"]);
  ("FILE_OPTIONS_EQUAL_JAVA_PACKAGE_COM_PREFIX", ["uber1"]);
  ("FILE_OPTIONS_EQUAL_JAVA_PACKAGE_PREFIX", ["uber2"]);
  ("FILE_OPTIONS_EQUAL_OBJC_CLASS_PREFIX_ABBR", ["uber2"]);
  ("FILE_OPTIONS_EQUAL_PHP_NAMESPACE_CAPITALIZED", ["uber2"]);
  ("FILE_OPTIONS_REQUIRE_CSHARP_NAMESPACE", ["uber2"]);
  ("FILE_OPTIONS_REQUIRE_GO_PACKAGE", ["uber1"; "uber2"]);
  ("FILE_OPTIONS_REQUIRE_JAVA_MULTIPLE_FILES", ["uber1"; "uber2"]);
  ("FILE_OPTIONS_REQUIRE_JAVA_OUTER_CLASSNAME", ["uber1"; "uber2"]);
  ("FILE_OPTIONS_REQUIRE_JAVA_PACKAGE", ["uber1"; "uber2"]);
  ("FILE_OPTIONS_REQUIRE_OBJC_CLASS_PREFIX", ["uber2"]);
  ("FILE_OPTIONS_REQUIRE_PHP_NAMESPACE", ["uber2"]);
  ("FILE_OPTIONS_REQUIRE_RUBY_PACKAGE", []);
  ("FILE_OPTIONS_CSHARP_NAMESPACE_SAME_IN_DIR", ["uber2"]);
  ("FILE_OPTIONS_GO_PACKAGE_SAME_IN_DIR", ["uber1"; "uber2"]);
  ("FILE_OPTIONS_JAVA_MULTIPLE_FILES_SAME_IN_DIR", ["uber1"; "uber2"]);
  ("FILE_OPTIONS_JAVA_PACKAGE_SAME_IN_DIR", ["uber1"; "uber2"]);
  ("FILE_OPTIONS_OBJC_CLASS_PREFIX_SAME_IN_DIR", ["uber2"]);
  ("FILE_OPTIONS_PHP_NAMESPACE_SAME_IN_DIR", ["uber2"]);
  ("FILE_OPTIONS_UNSET_JAVA_MULTIPLE_FILES", []);
  ("FILE_OPTIONS_UNSET_JAVA_OUTER_CLASSNAME", []);
  ("FILE_OPTIONS_GO_PACKAGE_NOT_LONG_FORM", ["uber1"; "uber2"]);
  ("GOGO_NOT_IMPORTED", []);
  ("IMPORTS_NOT_PUBLIC", ["uber2"]);
  ("IMPORTS_NOT_WEAK", ["uber2"]);
  ("MESSAGE_FIELD_NAMES_FILENAME", ["uber2"]);
  ("MESSAGE_FIELD_NAMES_FILEPATH", ["uber2"]);
  ("MESSAGE_FIELD_NAMES_LOWER_SNAKE_CASE", ["google"; "uber1"; "uber2"]);
  ("MESSAGE_FIELD_NAMES_LOWERCASE", []);
  ("MESSAGE_FIELD_NAMES_NO_DESCRIPTOR", ["uber2"]);
  ("MESSAGE_FIELDS_DURATION", []);
  ("MESSAGE_FIELDS_HAVE_COMMENTS", []);
  ("MESSAGE_FIELDS_HAVE_SENTENCE_COMMENTS", []);
  ("MESSAGE_FIELDS_NO_JSON_NAME", ["uber2"]);
  ("MESSAGE_FIELDS_NOT_FLOATS", []);
  ("MESSAGE_FIELDS_TIME", []);
  ("MESSAGE_NAMES_CAMEL_CASE", ["google"; "uber1"; "uber2"]);
  ("MESSAGE_NAMES_CAPITALIZED", ["google"; "uber1"; "uber2"]);
  ("MESSAGES_HAVE_COMMENTS_EXCEPT_REQUEST_RESPONSE_TYPES", []);
  ("MESSAGES_HAVE_COMMENTS", []);
  ("MESSAGES_HAVE_SENTENCE_COMMENTS_EXCEPT_REQUEST_RESPONSE_TYPES", ["uber2"]);
  ("MESSAGES_NOT_EMPTY_EXCEPT_REQUEST_RESPONSE_TYPES", []);
  ("NAMES_NO_COMMON", ["uber2"]);
  ("NAMES_NO_DATA", ["uber2"]);
  ("NAMES_NO_UUID", ["uber2"]);
  ("ONEOF_NAMES_LOWER_SNAKE_CASE", ["uber1"; "uber2"]);
  ("PACKAGE_IS_DECLARED", ["uber1"; "uber2"]);
  ("PACKAGE_LOWER_CASE", ["uber2"]);
  ("PACKAGE_LOWER_SNAKE_CASE", ["uber1"]);
  ("PACKAGE_MAJOR_BETA_VERSIONED", ["uber2"]);
  ("PACKAGE_NO_KEYWORDS", ["uber2"]);
  ("PACKAGES_SAME_IN_DIR", ["uber1"; "uber2"]);
  ("REQUEST_RESPONSE_NAMES_MATCH_RPC", ["uber2"]);
  ("REQUEST_RESPONSE_TYPES_AFTER_SERVICE", ["uber2"]);
  ("REQUEST_RESPONSE_TYPES_IN_SAME_FILE", ["uber1"; "uber2"]);
  ("REQUEST_RESPONSE_TYPES_ONLY_IN_FILE", ["uber2"]);
  ("REQUEST_RESPONSE_TYPES_UNIQUE", ["uber1"; "uber2"]);
  ("RPC_NAMES_CAMEL_CASE", ["google"; "uber1"; "uber2"]);
  ("RPC_NAMES_CAPITALIZED", ["google"; "uber1"; "uber2"]);
  ("RPC_OPTIONS_NO_GOOGLE_API_HTTP", []);
  ("RPCS_HAVE_COMMENTS", []);
  ("RPCS_HAVE_SENTENCE_COMMENTS", ["uber2"]);
  ("RPCS_NO_STREAMING", []);
  ("SERVICE_NAMES_API_SUFFIX", ["uber2"]);
  ("SERVICE_NAMES_CAMEL_CASE", ["google"; "uber1"; "uber2"]);
  ("SERVICE_NAMES_CAPITALIZED", ["google"; "uber1"; "uber2"]);
  ("SERVICE_NAMES_MATCH_FILE_NAME", ["uber2"]);
  ("SERVICE_NAMES_NO_PLURALS", []);
  ("SERVICES_HAVE_COMMENTS", []);
  ("SERVICES_HAVE_SENTENCE_COMMENTS", ["uber2"]);
  ("SYNTAX_PROTO3", ["uber1"; "uber2"]);
  ("WKT_DIRECTLY_IMPORTED", ["uber1"; "uber2"]);
  ("WKT_DURATION_SUFFIX", ["uber2"]);
  ("WKT_TIMESTAMP_SUFFIX", ["uber2"])
].
