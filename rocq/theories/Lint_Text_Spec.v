(** Vocabulary for C103: the text that each documented lint rule gives with a finding.
    [quote] is Go's %q; [to_upper_snake_case], [to_lower_snake_case], [title] and the
    package conversions are those characterised by C31 and C33. *)
From Verif Require Export Lint_Spec.

(** [S ds d p t]: among the files [ds] of a directory, [t] is said of the place [p] of
    the file [d]. *)
Definition saying : Type := list descriptor -> descriptor -> position -> string -> Prop.
(** [words], of an element of the kind, at its position. *)
Definition of_each (kind : element -> Prop) (words : list element -> element -> string) : saying :=
  fun _ d p t => exists ctx e, located (d_elements d) ctx e /\ kind e /\ p = position_of e /\ t = words ctx e.
(** The same with words that depend on the name only. *)
Definition of_name (kind : element -> Prop) (words : string -> string) : saying :=
  of_each kind (fun _ e => words (name_of e)).
(** Words about the file as a whole. *)
Definition of_file (words : string) : saying := fun _ _ p t => p = mk_pos 0 0 /\ t = words.
Definition either (A B : saying) : saying := fun ds d p t => A ds d p t \/ B ds d p t.

Definition must_be (what how : string) (n : string) : string := what +++ " " +++ quote n +++ " must be " +++ how +++ ".".
Definition wants_comment (what n : string) : string :=
  what +++ " " +++ quote n +++ " needs a comment of the form ""// " +++ n +++ " ...""".
Definition wants_sentence (what n : string) : string :=
  what +++ " " +++ quote n +++ " needs a comment with a complete sentence that starts on the first line of the comment.".

(** [replaced old new s t]: [t] is [s] with every [old], taken from the left, made [new]. *)
Inductive replaced (old new : string) : string -> string -> Prop :=
| replaced_none : forall s, ~ has_substring s old -> replaced old new s s
| replaced_one : forall a b t,
    (forall x y, a +++ old = x +++ old +++ y -> y = EmptyString) ->
    replaced old new b t -> replaced old new (a +++ old +++ b) (a +++ new +++ t).

(** What inline comments stand beside. *)
Definition beside (e : element) : string :=
  match e with
  | ESyntax _ => "syntax" | EPackage _ => "packages" | EOption _ => "options" | EImport _ => "imports"
  | EField InOneof _ => "oneofs" | EField _ _ => "fields" | EEnumField _ _ => "enum values"
  | EReserved _ => "reserved" | ERPC _ _ => "RPCs" | EExtensions _ => "extensions" | _ => ""
  end.
Definition inline_text : saying := fun _ d p t =>
  exists ctx e c, located (d_elements d) ctx e /\ inline_of e = Some c /\ p = c_pos c
    /\ t = "Inline comments are not allowed on " +++ beside e +++ ", only comment above the type.".
Definition prefix_text (expected : list element -> string) : saying :=
  of_each is_enum_value (fun ctx e =>
    "Enum field " +++ quote (name_of e) +++ " is expected to have the prefix " +++ quote (expected ctx) +++ ".").
Definition zero_text (expected : list element -> string) : saying :=
  of_each is_zero_value (fun ctx e =>
    "Zero value enum field " +++ quote (name_of e) +++ " is expected to have the name " +++ quote (expected ctx +++ "INVALID") +++ ".").
(** The reserved names or numbers of the message or enum [outer], written with all names. *)
Definition reserved_text : saying := fun _ d p t =>
  exists outer ctx r, located (d_elements d) (outer :: ctx) (EReserved r) /\ p = rs_pos r
    /\ t = quote (qualified_name ctx (name_of outer)) +++ " cannot have reserved "
           +++ (match rs_ranges r with [] => "field names" | _ :: _ => "field numbers" end)
           +++ ", use the deprecated field option instead.".

Definition equal_text (name : string) (expected : descriptor -> string -> string) : saying := fun _ d p t =>
  exists o k, last_option d name o /\ last_package d k /\ p = o_pos o
    /\ t = "Expected " +++ quote (expected d (pk_name k)) +++ " for option " +++ quote name
           +++ " but was " +++ quote (l_source (o_const o)) +++ ".".
Definition unset_text (name : string) : saying := fun _ d p t =>
  option_is_set name d p /\ t = "File option " +++ quote name +++ " should not be set.".
Definition long_form_text : saying := fun _ d p t =>
  exists o, last_option d "go_package" o /\ p = o_pos o
    /\ t = "Option ""go_package"" cannot be of the long-form ""go/import/path;package"" and must only be of the short-form ""package"", but was "
           +++ quote (l_source (o_const o)) +++ ".".

(** [vs] are the members of [P], in increasing order, each once. *)
Definition listing (P : string -> Prop) (vs : list string) : Prop :=
  StronglySorted (fun a b => str_leb a b = true /\ a <> b) vs /\ forall v, In v vs <-> P v.
(** The package that counts for a file is the first, the option setting that counts the first. *)
Definition first_option (d : descriptor) (name : string) (o : opt) : Prop :=
  exists a b, d_elements d = a ++ EOption o :: b /\ o_name o = name /\ forall o', In (EOption o') a -> o_name o' <> name.
Definition option_value (name : string) (d : descriptor) (v : string) : Prop :=
  (exists o, first_option d name o /\ v = l_source (o_const o)) \/ ~ sets_option d name /\ v = EmptyString.
Definition same_option_text (name : string) : saying := fun ds d p t =>
  (exists o, In (EOption o) (d_elements d) /\ o_name o = name /\ p = o_pos o
     /\ starts_with t ("multiple option declarations for " +++ name +++ ", first was "))
  \/ p = mk_pos 0 0 /\
     ((exists d', In d' ds /\ option_value name d' EmptyString)
      /\ t = "File option " +++ quote name +++ " set in some files in directory but not in others."
      \/ (forall d', In d' ds -> ~ option_value name d' EmptyString)
      /\ exists vs, listing (fun v => exists d', In d' ds /\ option_value name d' v) vs
         /\ t = "Multiple values for file option " +++ quote name +++ " in directory: " +++ join ", " vs +++ ".").
Definition extra_package_text : saying := fun _ d p t =>
  extra_package d p /\ starts_with t "multiple package declarations, first was ".
Definition package_text (words : string -> string) : saying := fun _ d p t =>
  exists k, first_package d k /\ p = pk_pos k /\ t = words (pk_name k).
Definition same_package_text : saying := fun ds d p t =>
  p = mk_pos 0 0 /\ exists vs, listing (fun v => exists d' k, In d' ds /\ first_package d' k /\ v = pk_name k) vs
    /\ t = "Multiple packages in directory: " +++ join ", " vs +++ ".".
Definition undeclared : saying := of_file "No package declaration found.".
Definition syntax_text : saying := fun _ d p t =>
  extra_syntax d p /\ starts_with t "multiple syntax declarations, first was "
  \/ no_syntax d /\ p = mk_pos 0 0 /\ t = "No syntax declaration found."
  \/ exists s, first_syntax d s /\ p = sx_pos s /\ t = "Syntax should be proto3 but was " +++ quote (sx_value s) +++ ".".
Definition renamed_text (old new : string) : saying := fun _ d p t =>
  exists ctx e s, located (d_elements d) ctx e /\ is_field e /\ p = position_of e /\ replaced old new (name_of e) s
    /\ t = "Field name " +++ quote (name_of e) +++ " should be " +++ quote s +++ ".".
Definition import_text : saying := fun _ d p t =>
  exists i, In (EImport i) (d_elements d) /\ p = im_pos i
    /\ t = "Import " +++ quote (im_filename i) +++ " is a Well-Known Type import but should be imported using google/protobuf as the base.".
Definition suffix_text (type word : string) : saying :=
  of_name is_plain_field (fun n => "Field " +++ quote n +++ " of type """ +++ type +++ """ must be """ +++ word
                                   +++ """ or end in ""_" +++ word +++ """.").
Definition api_text : saying := fun _ d p t =>
  exists h es, In (EService h es) (d_elements d) /\ p = h_pos h /\
  let must := "Service name " +++ quote (h_name h) +++ " must end with ""API""." in
  (ends_with (h_name h) "Service"
     /\ t = must +++ " Since it currently ends with ""Service"", this likely means replacing ""Service"" with ""API"""
   \/ ~ ends_with (h_name h) "Service" /\ t = must).
Definition file_name_text : saying := fun _ d p t =>
  exists h es, In (EService h es) (d_elements d) /\ p = h_pos h /\
  ((exists a b c s1 e1 s2 e2, d_elements d = a ++ EService s1 e1 :: b ++ EService s2 e2 :: c)
     /\ t = "Multiple services defined in this file and there should be only one service per file."
   \/ (forall h' es', In (EService h' es') (d_elements d) -> h' = h)
     /\ t = "Expected filename to be " +++ quote (to_lower_snake_case (h_name h) +++ ".proto") +++ " for file containing service "
            +++ quote (h_name h) +++ " but was " +++ quote (path_base (d_filename d)) +++ ".").
Definition only_text : saying := fun _ d p t =>
  exists e, In e (d_elements d) /\ p = position_of e /\
  (is_enum e /\ t = "Enum " +++ quote (name_of e) +++ " is in the same file as a service and should be in a separate file."
   \/ is_message_or_extend e /\ t = "Message " +++ quote (name_of e)
        +++ " is not a request or response of any service in this file and should be in a separate file.").

(** ** Rules that may say several things of one place: each is said exactly if it is so *)
Definition names_text (word help : string) : saying := fun _ d p t =>
  exists ctx e n, located (d_elements d) ctx e /\ has_name e n /\ has_substring (to_lower n) word
    /\ ~ silenced "naming" d (comment_of e) /\ p = position_of e
    /\ t = "The name " +++ quote n +++ " contains the outlawed name " +++ quote word +++ ". " +++ help +++ ".".
Definition keyword_text : saying := fun _ d p t =>
  exists k part, In (EPackage k) (d_elements d) /\ In part (split_char "." (pk_name k)) /\ In (to_lower part) keywords
    /\ ~ silenced "keywords" d (pk_comment k) /\ p = pk_pos k
    /\ t = "Package " +++ quote (pk_name k) +++ " contains the keyword " +++ quote (to_lower part)
           +++ ", this could cause problems in generated code.".
Definition plural_text (singularize : string -> string) : saying := fun _ d p t =>
  exists h es w, In (EService h es) (d_elements d) /\ In w (split_camel_case_word (h_name h)) /\ plural singularize w
    /\ ~ silenced "plurals" d (h_comment h) /\ p = h_pos h
    /\ t = "Service name " +++ quote (h_name h) +++ " contains plural component " +++ quote (title w)
           +++ ", consider using " +++ quote (title (singularize (to_lower w))) +++ " instead.".
Definition match_text : saying := fun _ d p t =>
  exists r, In r (file_rpcs d) /\ p = r_pos r /\
  (r_request r <> r_name r +++ "Request"
     /\ t = "Name of request type " +++ quote (r_request r) +++ " should be " +++ quote (r_name r +++ "Request") +++ "."
   \/ r_returns r <> r_name r +++ "Response"
     /\ t = "Name of response type " +++ quote (r_returns r) +++ " should be " +++ quote (r_name r +++ "Response") +++ ".").
(** What is wrong with the type [ty] that an RPC has as a [what]. *)
Definition type_trouble (d : descriptor) (What what ty t : string) : Prop :=
  ~ declares d ty
    /\ t = What +++ " type " +++ quote ty +++ " should be defined in the same file as the corresponding service."
  \/ declares d ty /\ has_substring ty "."
    /\ t = What +++ " type " +++ quote ty +++ " is a nested message and only top-level messages should be " +++ what +++ " types.".
Definition same_file_text : saying := fun _ d p t =>
  exists r, In r (file_rpcs d) /\ p = r_pos r /\
  (type_trouble d "Request" "request" (r_request r) t \/ type_trouble d "Response" "response" (r_returns r) t).
Definition unique_text : saying := fun _ d p t =>
  exists i j r r' ty, j < i /\ nth_error (uses d) i = Some (r, ty) /\ nth_error (uses d) j = Some (r', ty) /\ p = r_pos r
    /\ t = "Message " +++ quote ty
           +++ " is already used as a request or response type in an RPC and all request and response types must be unique.".
Definition after_text : saying := fun _ d p t =>
  exists e r, In e (d_elements d) /\ is_message_or_extend e /\ In r (file_rpcs d) /\ p = position_of e /\
  let named_as what := "Message " +++ quote (name_of e) +++ " is a " +++ what +++ " for RPC " +++ quote (r_name r)
                       +++ " and should be defined in the file after the " in
  (name_of e = r_request r /\ (line p < line (r_pos r))%Z /\ t = named_as "request" +++ "RPC."
   \/ name_of e = r_returns r /\ (line p < line (r_pos r))%Z /\ t = named_as "response" +++ "RPC."
   \/ name_of e = r_returns r /\ exists q, In q (d_elements d) /\ is_message_or_extend q /\ name_of q = r_request r
        /\ (line p < line (position_of q))%Z /\ t = named_as "response" +++ "request " +++ quote (name_of q) +++ ".").
Definition exact_texts (singularize : string -> string) : list (string * saying) := [
  ("NAMES_NO_COMMON", names_text "common" "Common has no semantic meaning, consider using a name that reflects the type instead.");
  ("NAMES_NO_DATA", names_text "data" "Data is a decorator and all types on Protobuf are data, consider merging this information into a higher-level type, or if you must have such a type, Use ""Info"" instead.");
  ("NAMES_NO_UUID", names_text "uuid" "UUIDs in Protobuf are named ID instead of UUID.");
  ("PACKAGE_NO_KEYWORDS", keyword_text);
  ("SERVICE_NAMES_NO_PLURALS", plural_text singularize);
  ("REQUEST_RESPONSE_NAMES_MATCH_RPC", match_text);
  ("REQUEST_RESPONSE_TYPES_IN_SAME_FILE", same_file_text);
  ("REQUEST_RESPONSE_TYPES_UNIQUE", unique_text)
].

(** ** All rules *)
Definition texts (singularize : string -> string) : list (string * saying) := exact_texts singularize ++ [
  ("REQUEST_RESPONSE_TYPES_AFTER_SERVICE", after_text);
  ("COMMENTS_NO_C_STYLE", of_each (fun _ => True) (fun _ _ => "C-Style comments are not allowed."));
  ("COMMENTS_NO_INLINE", inline_text);
  ("ENUM_FIELD_NAMES_UPPERCASE", of_name is_enum_value (must_be "Field name" "uppercase"));
  ("ENUM_FIELD_NAMES_UPPER_SNAKE_CASE", of_name is_enum_value (must_be "Field name" "UPPER_SNAKE_CASE"));
  ("ENUM_FIELD_PREFIXES", prefix_text scope_prefix);
  ("ENUM_FIELD_PREFIXES_EXCEPT_MESSAGE", prefix_text enum_prefix);
  ("ENUM_FIELDS_HAVE_COMMENTS", of_name is_enum_value (wants_comment "Enum field"));
  ("ENUM_FIELDS_HAVE_SENTENCE_COMMENTS", of_name is_enum_value (wants_sentence "Enum field"));
  ("ENUM_NAMES_CAMEL_CASE", of_name is_enum (must_be "Enum name" "CamelCase"));
  ("ENUM_NAMES_CAPITALIZED", of_name is_enum (must_be "Enum name" "capitalized"));
  ("ENUM_ZERO_VALUES_INVALID", zero_text scope_prefix);
  ("ENUM_ZERO_VALUES_INVALID_EXCEPT_MESSAGE", zero_text enum_prefix);
  ("ENUMS_HAVE_COMMENTS", of_name is_enum (wants_comment "Enum"));
  ("ENUMS_HAVE_SENTENCE_COMMENTS", of_name is_enum (wants_sentence "Enum"));
  ("ENUMS_NO_ALLOW_ALIAS", of_each is_option (fun _ _ => "Enum aliases are not allowed."));
  ("FIELDS_NOT_RESERVED", reserved_text);
  ("FILE_HEADER", of_file "File is expected to begin with the file header specified from the configuration file.");
  ("FILE_NAMES_LOWER_SNAKE_CASE", of_file "File name should be lower_snake_case.proto.");
  ("FILE_OPTIONS_CSHARP_NAMESPACE_SAME_IN_DIR", same_option_text "csharp_namespace");
  ("FILE_OPTIONS_EQUAL_CSHARP_NAMESPACE_CAPITALIZED", equal_text "csharp_namespace" (fun _ => csharp_namespace));
  ("FILE_OPTIONS_EQUAL_GO_PACKAGE_V2_SUFFIX", equal_text "go_package" (fun _ => go_package_v2));
  ("FILE_OPTIONS_EQUAL_GO_PACKAGE_PB_SUFFIX", equal_text "go_package" (fun _ => go_package));
  ("FILE_OPTIONS_EQUAL_JAVA_MULTIPLE_FILES_TRUE", equal_text "java_multiple_files" (fun _ _ => "true"));
  ("FILE_OPTIONS_EQUAL_JAVA_OUTER_CLASSNAME_PROTO_SUFFIX", equal_text "java_outer_classname" (fun d _ => java_outer_classname (d_filename d)));
  ("FILE_OPTIONS_EQUAL_JAVA_PACKAGE_COM_PREFIX", equal_text "java_package" (fun _ => java_package));
  ("FILE_OPTIONS_EQUAL_JAVA_PACKAGE_PREFIX", equal_text "java_package"
     (fun d k => java_package_prefix_override k (lc_java_package_prefix (cfg_lint (ps_config (d_set d))))));
  ("FILE_OPTIONS_EQUAL_OBJC_CLASS_PREFIX_ABBR", equal_text "objc_class_prefix" (fun _ => objc_class_prefix));
  ("FILE_OPTIONS_EQUAL_PHP_NAMESPACE_CAPITALIZED", equal_text "php_namespace" (fun _ => php_namespace));
  ("FILE_OPTIONS_GO_PACKAGE_NOT_LONG_FORM", long_form_text);
  ("FILE_OPTIONS_GO_PACKAGE_SAME_IN_DIR", same_option_text "go_package");
  ("FILE_OPTIONS_JAVA_MULTIPLE_FILES_SAME_IN_DIR", same_option_text "java_multiple_files");
  ("FILE_OPTIONS_JAVA_PACKAGE_SAME_IN_DIR", same_option_text "java_package");
  ("FILE_OPTIONS_OBJC_CLASS_PREFIX_SAME_IN_DIR", same_option_text "objc_class_prefix");
  ("FILE_OPTIONS_PHP_NAMESPACE_SAME_IN_DIR", same_option_text "php_namespace");
  ("FILE_OPTIONS_REQUIRE_CSHARP_NAMESPACE", of_file "File option ""csharp_namespace"" is required.");
  ("FILE_OPTIONS_REQUIRE_GO_PACKAGE", of_file "File option ""go_package"" is required.");
  ("FILE_OPTIONS_REQUIRE_JAVA_MULTIPLE_FILES", of_file "File option ""java_multiple_files"" is required.");
  ("FILE_OPTIONS_REQUIRE_JAVA_OUTER_CLASSNAME", of_file "File option ""java_outer_classname"" is required.");
  ("FILE_OPTIONS_REQUIRE_JAVA_PACKAGE", of_file "File option ""java_package"" is required.");
  ("FILE_OPTIONS_REQUIRE_OBJC_CLASS_PREFIX", of_file "File option ""objc_class_prefix"" is required.");
  ("FILE_OPTIONS_REQUIRE_PHP_NAMESPACE", of_file "File option ""php_namespace"" is required.");
  ("FILE_OPTIONS_REQUIRE_RUBY_PACKAGE", of_file "File option ""ruby_package"" is required.");
  ("FILE_OPTIONS_UNSET_JAVA_MULTIPLE_FILES", unset_text "java_multiple_files");
  ("FILE_OPTIONS_UNSET_JAVA_OUTER_CLASSNAME", unset_text "java_outer_classname");
  ("GOGO_NOT_IMPORTED", of_each is_import (fun _ _ => "Importing ""gogo.proto"" is not allowed."));
  ("IMPORTS_NOT_PUBLIC", of_each is_import (fun _ _ => "Public imports are not allowed."));
  ("IMPORTS_NOT_WEAK", of_each is_import (fun _ _ => "Weak imports are not allowed."));
  ("MESSAGE_FIELDS_DURATION", of_name is_plain_field (must_be "Field" "a google.protobuf.Duration"));
  ("MESSAGE_FIELDS_HAVE_COMMENTS", of_name is_field (wants_comment "Message field"));
  ("MESSAGE_FIELDS_HAVE_SENTENCE_COMMENTS", of_name is_field (wants_sentence "Message field"));
  ("MESSAGE_FIELDS_NOT_FLOATS", of_name is_field (fun n => "Field " +++ quote n
     +++ " is a float and floats should generally not be used, consider using a double, or an int64 while representing your value in micros or nanos."));
  ("MESSAGE_FIELDS_NO_JSON_NAME", of_name is_field (fun n => "Field " +++ quote n +++ " cannot have the ""json_name"" option set."));
  ("MESSAGE_FIELDS_TIME", of_name is_plain_field (must_be "Field" "a google.protobuf.Timestamp"));
  ("MESSAGE_FIELD_NAMES_FILENAME", renamed_text "file_name" "filename");
  ("MESSAGE_FIELD_NAMES_FILEPATH", renamed_text "file_path" "filepath");
  ("MESSAGE_FIELD_NAMES_LOWER_SNAKE_CASE", of_name is_field (must_be "Field name" "lower_snake_case"));
  ("MESSAGE_FIELD_NAMES_LOWERCASE", of_name is_field (must_be "Field name" "lowercase"));
  ("MESSAGE_FIELD_NAMES_NO_DESCRIPTOR", of_name is_field (fun n => "Field name " +++ quote n +++ " causes a collision in Java-generated code."));
  ("MESSAGE_NAMES_CAMEL_CASE", of_name is_message (must_be "Message name" "CamelCase"));
  ("MESSAGE_NAMES_CAPITALIZED", of_name is_message (must_be "Message name" "capitalized"));
  ("MESSAGES_HAVE_COMMENTS", of_name is_message (wants_comment "Message"));
  ("MESSAGES_HAVE_COMMENTS_EXCEPT_REQUEST_RESPONSE_TYPES", of_name is_message (wants_comment "Message"));
  ("MESSAGES_HAVE_SENTENCE_COMMENTS_EXCEPT_REQUEST_RESPONSE_TYPES", of_name is_message (wants_sentence "Message"));
  ("MESSAGES_NOT_EMPTY_EXCEPT_REQUEST_RESPONSE_TYPES", of_each is_message_or_extend (fun ctx e =>
     "Message " +++ quote (qualified_name ctx (name_of e)) +++ " should not be empty. Only request and response types are allowed to be empty."));
  ("ONEOF_NAMES_LOWER_SNAKE_CASE", of_name is_oneof (must_be "Oneof name" "lower_snake_case"));
  ("PACKAGE_IS_DECLARED", either extra_package_text undeclared);
  ("PACKAGE_LOWER_CASE", either extra_package_text (package_text (fun n =>
     "Packages should only contain characters in the range a-z0-9 and periods but was " +++ quote n +++ ".")));
  ("PACKAGE_LOWER_SNAKE_CASE", either extra_package_text (package_text (fun n =>
     "Package should be lower_snake.case but was " +++ quote n +++ ".")));
  ("PACKAGE_MAJOR_BETA_VERSIONED", either extra_package_text (either undeclared (package_text (fun n =>
     "Package should be of the form ""package.vMAJORVERSION"" or ""packagevMAJORVERSIONbetaBETAVERSION"" with versions >=1 but was " +++ quote n +++ "."))));
  ("PACKAGES_SAME_IN_DIR", either extra_package_text same_package_text);
  ("RPCS_HAVE_COMMENTS", of_name is_rpc (wants_comment "RPC"));
  ("RPCS_HAVE_SENTENCE_COMMENTS", of_name is_rpc (wants_sentence "RPC"));
  ("RPCS_NO_STREAMING", of_name is_rpc (fun n => "RPC " +++ quote n +++ " is streaming and only unary RPCs are allowed."));
  ("RPC_NAMES_CAMEL_CASE", of_name is_rpc (must_be "RPC name" "CamelCase"));
  ("RPC_NAMES_CAPITALIZED", of_name is_rpc (must_be "RPC name" "capitalized"));
  ("RPC_OPTIONS_NO_GOOGLE_API_HTTP", of_each is_option (fun _ _ =>
     "Option ""google.api.http"" is not allowed. This option signifies HTTP/REST usage, use the RPC framework instead."));
  ("REQUEST_RESPONSE_TYPES_ONLY_IN_FILE", only_text);
  ("SERVICES_HAVE_COMMENTS", of_name is_service (wants_comment "Service"));
  ("SERVICES_HAVE_SENTENCE_COMMENTS", of_name is_service (wants_sentence "Service"));
  ("SERVICE_NAMES_API_SUFFIX", api_text);
  ("SERVICE_NAMES_CAMEL_CASE", of_name is_service (must_be "Service name" "CamelCase"));
  ("SERVICE_NAMES_CAPITALIZED", of_name is_service (must_be "Service name" "capitalized"));
  ("SERVICE_NAMES_MATCH_FILE_NAME", file_name_text);
  ("SYNTAX_PROTO3", syntax_text);
  ("WKT_DIRECTLY_IMPORTED", import_text);
  ("WKT_DURATION_SUFFIX", suffix_text "google.protobuf.Duration" "duration");
  ("WKT_TIMESTAMP_SUFFIX", suffix_text "google.protobuf.Timestamp" "time")
].

(** The annotations that silence a rule; where the settings allow them, the finding says so. *)
Definition annotations : list (string * string) := [
  ("MESSAGE_FIELDS_NOT_FLOATS", "floats"); ("NAMES_NO_COMMON", "naming"); ("NAMES_NO_DATA", "naming");
  ("NAMES_NO_UUID", "naming"); ("PACKAGE_NO_KEYWORDS", "keywords"); ("RPC_OPTIONS_NO_GOOGLE_API_HTTP", "google-api-http");
  ("SERVICE_NAMES_NO_PLURALS", "plurals")].
Definition with_hint (id : string) (d : descriptor) (t m : string) : Prop :=
  let allowed := lc_allow_suppression (cfg_lint (ps_config (d_set d))) in
  (exists a, allowed = true /\ In (id, a) annotations
     /\ m = t +++ " This can be suppressed by adding ""@suppresswarnings " +++ a +++ """ to the comment.")
  \/ (allowed = false \/ ~ In id (map fst annotations)) /\ m = t.

(** Whatever the rule with this ID finds in well-formed files, its text is one of [S]. *)
Definition Says (ord : order) (singularize : string -> string) (id : string) (S : saying) : Prop :=
  forall l ds fs f, In l (all_linters ord singularize) -> ln_id l = id ->
  (forall d, In d ds -> well_formed (d_elements d)) -> linter_check l ds = Ok fs -> In f fs ->
  exists d t, In d ds /\ f_filename f = d_filename d /\ S ds d (mk_pos (f_line f) (f_column f)) t
    /\ with_hint id d t (f_message f).
(** And everything in [S] is said. *)
Definition Says_exactly (ord : order) (singularize : string -> string) (assume : descriptor -> Prop) (id : string) (S : saying) : Prop :=
  forall l ds, In l (all_linters ord singularize) -> ln_id l = id ->
  (forall d, In d ds -> well_formed (d_elements d) /\ assume d) ->
  exists fs, linter_check l ds = Ok fs /\
  forall file p m, (exists f, In f fs /\ at_place f file p /\ f_message f = m) <->
                   (exists d t, In d ds /\ d_filename d = file /\ S ds d p t /\ with_hint id d t m).
